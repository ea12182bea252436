(** Rounding to single precision. *)
From Coq Require Import Lia ZArith Floats.SpecFloat.
Local Open Scope Z_scope.

(** ** Shifting right and rounding *)
Definition rne (m k : Z) : Z :=
  let q := m / 2 ^ k in let r := m mod 2 ^ k in
  if 2 * r <? 2 ^ k then q else if 2 ^ k <? 2 * r then q + 1 else if Z.even q then q else q + 1.

Lemma shr_1_ok m r s : 0 <= m -> shr_1 {| shr_m := m; shr_r := r; shr_s := s |} = {| shr_m := m / 2; shr_r := Z.odd m; shr_s := orb r s |}.
Proof.
  intro H. destruct m as [|[p|p|]|p]; try reflexivity; [| |lia]; cbn [shr_1 Z.odd]; f_equal.
  - rewrite Pos2Z.inj_xI, Z.add_comm, Z.mul_comm, Z.div_add by lia. reflexivity.
  - rewrite Pos2Z.inj_xO, Z.mul_comm, Z.div_mul; lia.
Qed.
Fixpoint iter {A} (f : A -> A) (n : nat) (x : A) : A := match n with O => x | S n => f (iter f n x) end.
Lemma iter_add {A} (f : A -> A) n m x : iter f (n + m) x = iter f n (iter f m x).
Proof. induction n as [|n IH]; cbn; congruence. Qed.
Lemma iter_pos_ok {A} (f : A -> A) p : forall x, iter_pos f p x = iter f (Pos.to_nat p) x.
Proof.
  induction p as [p IH|p IH|]; intro x; cbn [iter_pos].
  - rewrite !IH, Pos2Nat.inj_xI, <- iter_add. replace (S (2 * Pos.to_nat p)) with ((Pos.to_nat p + Pos.to_nat p) + 1)%nat by lia.
    rewrite (iter_add f (Pos.to_nat p + Pos.to_nat p) 1). reflexivity.
  - rewrite !IH, Pos2Nat.inj_xO, <- iter_add. f_equal. lia.
  - reflexivity.
Qed.
Lemma shr_iter m n : 0 <= m -> iter shr_1 (S n) {| shr_m := m; shr_r := false; shr_s := false |} =
  {| shr_m := m / 2 ^ Z.of_nat (S n); shr_r := Z.odd (m / 2 ^ Z.of_nat n); shr_s := negb (m mod 2 ^ Z.of_nat n =? 0) |}.
Proof.
  intro H. induction n as [|n IH].
  - cbn [iter]. rewrite shr_1_ok by lia. change (2 ^ Z.of_nat 1) with 2. change (2 ^ Z.of_nat 0) with 1. rewrite Z.div_1_r, Z.mod_1_r. reflexivity.
  - change (iter shr_1 (S (S n)) ?x) with (shr_1 (iter shr_1 (S n) x)). rewrite IH.
    assert (P : forall k, 0 < 2 ^ Z.of_nat k) by (intro k; apply Z.pow_pos_nonneg; lia).
    rewrite shr_1_ok by (apply Z.div_pos; [lia|apply P]).
    assert (Q : forall k, 2 ^ Z.of_nat (S k) = 2 ^ Z.of_nat k * 2) by (intro k; rewrite Nat2Z.inj_succ, Z.pow_succ_r by lia; ring).
    f_equal.
    + rewrite (Q (S n)), <- Z.div_div by (try apply Z.neq_sym, Z.lt_neq, P; lia). reflexivity.
    + set (b := 2 ^ Z.of_nat n) in *. rewrite Q. fold b. specialize (P n). fold b in P.
      rewrite Z.rem_mul_r by lia.
      pose proof (Z.mod_pos_bound m b P) as B1. pose proof (Z.mod_pos_bound (m / b) 2 ltac:(lia)) as B2.
      rewrite Zmod_odd. destruct (Z.odd (m / b)) eqn:O; cbn [orb].
      * symmetry. apply Bool.negb_true_iff, Z.eqb_neq. nia.
      * f_equal. f_equal. nia.
Qed.
Lemma shr_rounds m p : 0 <= m ->
  let s := iter_pos shr_1 p {| shr_m := m; shr_r := false; shr_s := false |} in
  round_nearest_even (shr_m s) (loc_of_shr_record s) = rne m (Z.pos p).
Proof.
  intro H. cbv zeta. rewrite iter_pos_ok. destruct (Pos2Nat.is_succ p) as (n & E). rewrite E, shr_iter by lia. cbn [shr_m].
  replace (Z.pos p) with (Z.of_nat (S n)) by lia. unfold rne.
  rewrite Nat2Z.inj_succ, Z.pow_succ_r by lia. set (b := 2 ^ Z.of_nat n) in *.
  assert (P : 0 < b) by (apply Z.pow_pos_nonneg; lia). replace (2 * b) with (b * 2) by ring.
  assert (R : m mod (b * 2) = m mod b + b * (if Z.odd (m / b) then 1 else 0)) by (rewrite Z.rem_mul_r, Zmod_odd by lia; reflexivity).
  rewrite R. pose proof (Z.mod_pos_bound m b P) as B1. destruct (Z.odd (m / b)); cbn [loc_of_shr_record].
  - destruct (Z.eqb_spec (m mod b) 0) as [Z0|NZ]; cbn [negb].
    + rewrite Z0. replace (2 * (0 + b * 1)) with (b * 2) by ring. rewrite Z.ltb_irrefl. reflexivity.
    + replace (2 * (m mod b + b * 1) <? b * 2) with false by (symmetry; apply Z.ltb_ge; lia).
      replace (b * 2 <? 2 * (m mod b + b * 1)) with true by (symmetry; apply Z.ltb_lt; lia). reflexivity.
  - replace (2 * (m mod b + b * 0) <? b * 2) with true by (symmetry; apply Z.ltb_lt; lia).
    destruct (Z.eqb_spec (m mod b) 0); reflexivity.
Qed.

Section Rne.
  Variables (m k : Z).
  Hypothesis (Hk : 0 <= k).
  Let P : 0 < 2 ^ k. Proof. apply Z.pow_pos_nonneg; lia. Qed.
  Lemma rne_near : 2 * Z.abs (rne m k * 2 ^ k - m) <= 2 ^ k.
  Proof.
    unfold rne. pose proof (Z.div_mod m (2 ^ k) ltac:(lia)) as D. pose proof (Z.mod_pos_bound m (2 ^ k) P) as B.
    destruct (Z.ltb_spec (2 * (m mod 2 ^ k)) (2 ^ k)); [nia|]. destruct (Z.ltb_spec (2 ^ k) (2 * (m mod 2 ^ k))); [nia|].
    destruct (Z.even _); nia.
  Qed.
  Lemma rne_tie : 2 * Z.abs (rne m k * 2 ^ k - m) = 2 ^ k -> Z.even (rne m k) = true.
  Proof.
    unfold rne. pose proof (Z.div_mod m (2 ^ k) ltac:(lia)) as D. pose proof (Z.mod_pos_bound m (2 ^ k) P) as B.
    destruct (Z.ltb_spec (2 * (m mod 2 ^ k)) (2 ^ k)); [nia|]. destruct (Z.ltb_spec (2 ^ k) (2 * (m mod 2 ^ k))); [nia|].
    destruct (Z.even (m / 2 ^ k)) eqn:E; [auto|]. intros _. rewrite Z.even_add. rewrite E. reflexivity.
  Qed.
  Lemma rne_closest j : Z.abs (rne m k * 2 ^ k - m) <= Z.abs (j * 2 ^ k - m) /\
    (Z.abs (j * 2 ^ k - m) = Z.abs (rne m k * 2 ^ k - m) -> j = rne m k \/ Z.even (rne m k) = true).
  Proof.
    pose proof rne_near as N. pose proof rne_tie as T. set (r := rne m k) in *.
    destruct (Z.eq_dec j r) as [->|D]; [split; [lia|auto]|].
    assert (2 ^ k <= Z.abs (j * 2 ^ k - r * 2 ^ k)) by (rewrite <- Z.mul_sub_distr_r, Z.abs_mul; nia).
    split; [lia|]. intro E. right. apply T. lia.
  Qed.
  Lemma rne_low a : a * 2 ^ k <= m -> a <= rne m k.
  Proof.
    intro H. unfold rne. assert (a <= m / 2 ^ k) by (apply Z.div_le_lower_bound; lia).
    destruct (_ <? _); [lia|]. destruct (_ <? _); [lia|]. destruct (Z.even _); lia.
  Qed.
  Lemma rne_high a : m < a * 2 ^ k -> rne m k <= a.
  Proof.
    intro H. unfold rne. assert (m / 2 ^ k < a) by (apply Z.div_lt_upper_bound; lia).
    destruct (_ <? _); [lia|]. destruct (_ <? _); [lia|]. destruct (Z.even _); lia.
  Qed.
End Rne.
Lemma rne_0 m : 0 <= m -> rne m 0 = m.
Proof. intro H. unfold rne. change (2 ^ 0) with 1. rewrite Z.mod_1_r, Z.div_1_r. reflexivity. Qed.

(** ** Digits *)
Lemma digits_ok p : 2 ^ (Z.pos (digits2_pos p) - 1) <= Z.pos p < 2 ^ Z.pos (digits2_pos p).
Proof.
  induction p as [p IH|p IH|]; cbn [digits2_pos]; [| |cbn; lia]; rewrite Pos2Z.inj_succ;
    replace (Z.succ (Z.pos (digits2_pos p)) - 1) with (Z.succ (Z.pos (digits2_pos p) - 1)) by lia;
    rewrite !Z.pow_succ_r by lia; lia.
Qed.
Lemma digits_is p d : 0 < d -> 2 ^ (d - 1) <= Z.pos p < 2 ^ d -> Z.pos (digits2_pos p) = d.
Proof.
  intros D (A & B). destruct (digits_ok p) as (A' & B'). destruct (Z.lt_trichotomy (Z.pos (digits2_pos p)) d) as [L|[E|G]]; [|exact E|].
  - pose proof (Z.pow_le_mono_r 2 (Z.pos (digits2_pos p)) (d - 1) ltac:(lia) ltac:(lia)). lia.
  - pose proof (Z.pow_le_mono_r 2 d (Z.pos (digits2_pos p) - 1) ltac:(lia) ltac:(lia)). lia.
Qed.

(** ** [binary_round_aux] *)
Definition expo (M : positive) (E : Z) : Z := Z.max (Z.pos (digits2_pos M) + E - 24) (-149).
Definition fin (s : bool) (r e : Z) : spec_float := if e <=? 104 then S754_finite s (Z.to_pos r) e else S754_infinity s.
Lemma fexp_ok e : fexp 24 128 e = Z.max (e - 24) (-149).
Proof. reflexivity. Qed.
Lemma rne_max M E : E <= expo M E -> 0 <= rne (Z.pos M) (expo M E - E) <= 2 ^ 24.
Proof.
  intro H. pose proof (digits_ok M) as (A & B). split.
  - apply rne_low; lia.
  - apply rne_high; [lia|]. rewrite <- Z.pow_add_r by lia. eapply Z.lt_le_trans; [exact B|]. apply Z.pow_le_mono_r; [lia|]. unfold expo in *. lia.
Qed.
Lemma round_aux s M E : E <= expo M E ->
  let P := expo M E in let R := rne (Z.pos M) (P - E) in
  binary_round_aux 24 128 s (Z.pos M) E loc_Exact =
  if R =? 0 then S754_zero s else if R <? 2 ^ 24 then fin s R P else fin s (2 ^ 23) (P + 1).
Proof.
  intro H. cbv zeta. pose proof (rne_max M E H) as B. unfold binary_round_aux.
  assert (F : exists mrs, shr_fexp 24 128 (Z.pos M) E loc_Exact = (mrs, expo M E) /\
                round_nearest_even (shr_m mrs) (loc_of_shr_record mrs) = rne (Z.pos M) (expo M E - E)).
  { unfold shr_fexp. cbn [Zdigits2 shr_record_of_loc]. rewrite fexp_ok. fold (expo M E). unfold shr.
    destruct (expo M E - E) as [|p|p] eqn:D; [| |lia].
    - eexists. split; [f_equal; lia|]. cbn [shr_m loc_of_shr_record round_nearest_even]. now rewrite rne_0 by lia.
    - eexists. split; [f_equal; lia|]. apply shr_rounds. lia. }
  destruct F as (mrs & -> & ->). set (R := rne (Z.pos M) (expo M E - E)) in *.
  assert (E1 : -149 <= expo M E) by (unfold expo; lia). unfold shr_fexp. cbn [shr_record_of_loc].
  destruct (Z.eqb_spec R 0) as [Z0|NZ].
  - rewrite Z0. cbn [Zdigits2]. rewrite fexp_ok. unfold shr. destruct (Z.max (0 + expo M E - 24) (-149) - expo M E) eqn:D; try reflexivity. lia.
  - destruct R as [|r|r] eqn:ER; [lia| |lia]. cbn [Zdigits2]. rewrite fexp_ok. destruct (digits_ok r) as (A1 & A2).
    destruct (Z.ltb_spec (Z.pos r) (2 ^ 24)) as [L|G].
    + assert (Z.pos (digits2_pos r) <= 24).
      { destruct (Z.le_gt_cases (Z.pos (digits2_pos r)) 24) as [X|X]; [exact X|]. pose proof (Z.pow_le_mono_r 2 24 (Z.pos (digits2_pos r) - 1) ltac:(lia) ltac:(lia)). lia. }
      unfold shr. destruct (Z.max (Z.pos (digits2_pos r) + expo M E - 24) (-149) - expo M E) eqn:D; [| lia |]; cbn [shr_m]; reflexivity.
    + assert (r = 16777216%positive) as -> by lia. cbn [digits2_pos Pos.succ].
      replace (Z.max (25 + expo M E - 24) (-149) - expo M E) with 1 by lia. reflexivity.
Qed.
Lemma binary_round_ok s M E : -149 <= E -> exists M' E', binary_round 24 128 s M E = binary_round_aux 24 128 s (Z.pos M') E' loc_Exact /\
  E' <= expo M' E' /\ -149 <= E' /\ Z.pos M' * 2 ^ (E' + 149) = Z.pos M * 2 ^ (E + 149).
Proof.
  intro HE. unfold binary_round, shl_align. rewrite fexp_ok. fold (expo M E). destruct (expo M E - E) as [|d|d] eqn:D.
  - exists M, E. repeat split; lia.
  - exists M, E. repeat split; lia.
  - exists (shift_pos d M), (expo M E). split; [reflexivity|].
    assert (S : Z.pos (shift_pos d M) = Z.pos M * 2 ^ Z.pos d) by (rewrite shift_pos_correct; change (Z.pow_pos 2 d) with (2 ^ Z.pos d); ring).
    assert (G : Z.pos (digits2_pos (shift_pos d M)) = Z.pos (digits2_pos M) + Z.pos d).
    { apply digits_is; [lia|]. destruct (digits_ok M). rewrite S. replace (Z.pos (digits2_pos M) + Z.pos d - 1) with (Z.pos (digits2_pos M) - 1 + Z.pos d) by lia.
      rewrite !Z.pow_add_r by lia. nia. }
    refine (conj _ (conj _ _)).
    + unfold expo at 2. rewrite G. unfold expo in *. lia.
    + unfold expo. lia.
    + rewrite S, <- Z.mul_assoc, <- Z.pow_add_r by (unfold expo; lia). f_equal. f_equal. lia.
Qed.
