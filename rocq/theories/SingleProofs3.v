(** Rounding to single precision: whole numbers, products, differences. *)
From Coq Require Import Lia ZifyBool ZifyNat ZifyN QArith Qabs Floats.SpecFloat.
From Verif Require Import Base SpecDoc SpecSingle SingleProofs SingleProofs2.
Local Open Scope Z_scope.

Definition D : positive := (2 ^ 298)%positive.
Lemma units_D u : (u # 2 ^ 149 == u * 2 ^ 149 # D)%Q.
Proof. unfold Qeq. cbn [Qnum Qden]. change (Z.pos D) with (2 ^ 149 * 2 ^ 149). change (Z.pos (2 ^ 149)) with (2 ^ 149). ring. Qed.
Lemma minus_D a b : ((a # D) - (b # D) == (a - b) # D)%Q.
Proof. unfold Qeq, Qminus, Qplus, Qopp. cbn [Qnum Qden]. rewrite Pos2Z.inj_mul. ring. Qed.
Lemma abs_D a b q x y : (x == a # 2 ^ 149)%Q -> (y == b # 2 ^ 149)%Q -> forall X, (q == X # D)%Q ->
  ((Qabs (x - q) <= Qabs (y - q))%Q <-> Z.abs (a * 2 ^ 149 - X) <= Z.abs (b * 2 ^ 149 - X)) /\
  ((Qabs (y - q) == Qabs (x - q))%Q <-> Z.abs (b * 2 ^ 149 - X) = Z.abs (a * 2 ^ 149 - X)).
Proof.
  intros Ex Ey X Eq. rewrite Ex, Ey, Eq. rewrite !units_D, !minus_D. unfold Qabs, Qle, Qeq. cbn [Qnum Qden]. pose proof (Pos2Z.is_pos D). split; split; intro; nia.
Qed.
Lemma closest_of X q f : closest_z X f -> (q == X # D)%Q -> closest q f.
Proof.
  intros (S & u & U & C) Q. split; [exact S|]. destruct (units_value _ _ U) as (v & V & Ev). exists v. split; [exact V|].
  intros bits w B W. destruct (value_units _ _ W) as (uw & Uw & Ew). pose proof (single_short _ _ B Uw) as Sh.
  destruct (C uw Sh) as (C1 & C2). destruct (abs_D u uw q v w Ev Ew X Q) as (A1 & A2). split; [now apply A1|].
  intro T. destruct (C2 (proj1 A2 T)) as [->|Y]; [left; now rewrite Ew, Ev|auto].
Qed.
Lemma range_of X q : (q == X # D)%Q -> (in_range q <-> Z.abs X < limit).
Proof.
  intro Q. unfold in_range. rewrite Q. unfold Qabs, Qlt, inject_Z. cbn [Qnum Qden]. rewrite Z.mul_1_r.
  replace ((2 ^ 25 - 1) * 2 ^ 103 * Z.pos D) with limit; [reflexivity|]. unfold limit. change (Z.pos D) with (2 ^ 298). rewrite <- Z.mul_assoc, <- Z.pow_add_r by lia. reflexivity.
Qed.

Lemma aux_ok (s : bool) M E q : -298 <= E -> E <= expo M E -> (q == (if s then - (Z.pos M * 2 ^ (E + 298)) else Z.pos M * 2 ^ (E + 298)) # D)%Q ->
  (in_range q -> closest q (binary_round_aux 24 128 s (Z.pos M) E loc_Exact)) /\
  (~ in_range q -> binary_round_aux 24 128 s (Z.pos M) E loc_Exact = S754_infinity s).
Proof.
  intros HE HP Q. destruct (round_closest s M E HE HP) as (A & B). assert (P0 : 0 < 2 ^ (E + 298)) by (apply Z.pow_pos_nonneg; lia).
  pose proof (range_of _ _ Q) as R. assert (AB : Z.abs (if s then - (Z.pos M * 2 ^ (E + 298)) else Z.pos M * 2 ^ (E + 298)) = Z.pos M * 2 ^ (E + 298)) by (destruct s; nia).
  rewrite AB in R. split; intro H.
  - eapply closest_of; [|exact Q]. apply A. now apply R.
  - apply B. destruct (Z.le_gt_cases limit (Z.pos M * 2 ^ (E + 298))); [assumption|]. exfalso. apply H. now apply R.
Qed.
Lemma round_ok (s : bool) M E q : -149 <= E -> (q == (if s then - (Z.pos M * 2 ^ (E + 298)) else Z.pos M * 2 ^ (E + 298)) # D)%Q ->
  (in_range q -> closest q (binary_round 24 128 s M E)) /\ (~ in_range q -> binary_round 24 128 s M E = S754_infinity s).
Proof.
  intros HE Q. destruct (binary_round_ok s M E) as (M' & E' & -> & H1 & H2 & H3); [lia|].
  assert (X : Z.pos M' * 2 ^ (E' + 298) = Z.pos M * 2 ^ (E + 298)).
  { replace (E' + 298) with ((E' + 149) + 149) by lia. replace (E + 298) with ((E + 149) + 149) by lia.
    rewrite (Z.pow_add_r 2 (E' + 149)), (Z.pow_add_r 2 (E + 149)), !Z.mul_assoc, H3 by lia. reflexivity. }
  apply aux_ok; [lia|lia|]. now rewrite X.
Qed.
Lemma normalize_ok z E q : -149 <= E -> (q == z * 2 ^ (E + 298) # D)%Q ->
  (in_range q -> closest q (binary_normalize 24 128 z E false)) /\ (~ in_range q -> exists s, binary_normalize 24 128 z E false = S754_infinity s).
Proof.
  intros HE Q. destruct z as [|M|M]; cbn [binary_normalize].
  - split.
    + intros _. eapply closest_of; [|exact Q]. split; [apply zero_storable|]. exists 0. split; [reflexivity|]. intros w _. split; [lia|]. intro H. left.
      assert (0 < 2 ^ 149) by reflexivity. nia.
    + intro H. exfalso. apply H. apply (range_of _ _ Q). reflexivity.
  - destruct (round_ok false M E q HE Q) as (A & B). split; [exact A|]. intro H. eexists. now apply B.
  - destruct (round_ok true M E q HE) as (A & B); [now rewrite <- Z.mul_opp_l|]. split; [exact A|]. intro H. eexists. now apply B.
Qed.

Lemma whole_ok z : Z.abs z < 2 ^ 127 -> closest (inject_Z z) (rounded z).
Proof.
  intro H. assert (Q : (inject_Z z == z * 2 ^ (0 + 298) # D)%Q) by (unfold Qeq, inject_Z; cbn [Qnum Qden]; change (Z.pos D) with (2 ^ 298); change (0 + 298) with 298; lia).
  apply (proj1 (normalize_ok z 0 _ ltac:(lia) Q)). apply (range_of _ _ Q). rewrite Z.abs_mul, (Z.abs_eq (2 ^ (0 + 298))) by lia.
  eapply Z.lt_le_trans; [apply Z.mul_lt_mono_pos_r; [reflexivity|exact H]|]. apply Z.leb_le. reflexivity.
Qed.

(** ** Storable numbers *)
Lemma storable_form f v : storable f -> value f = Some v ->
  (exists s, f = S754_zero s /\ (v == 0)%Q) \/
  (exists (s : bool) m e, f = S754_finite s m e /\ canonical m e /\ (v == ((if s then Z.neg m else Z.pos m) * 2 ^ (e + 149)) # 2 ^ 149)%Q).
Proof.
  intros (bits & Hb & ->). unfold single. set (sg := (1 <=? bits / 2 ^ 31)%N). assert (F : (bits mod 2 ^ 23 < 2 ^ 23)%N) by (apply N.mod_lt; lia).
  set (fr := (bits mod 2 ^ 23)%N) in *. assert (G : (bits / 2 ^ 23 mod 256 < 256)%N) by (apply N.mod_lt; lia). set (ex := (bits / 2 ^ 23 mod 256)%N) in *.
  destruct (N.eqb_spec ex 255) as [|]; [destruct (fr =? 0)%N; discriminate|].
  destruct (N.eqb_spec ex 0) as [|].
  - destruct fr as [|m]; cbn [value].
    + intro H. injection H as <-. left. eexists. split; [reflexivity|reflexivity].
    + intro H. cbn in H. injection H as <-. right. exists sg, m, (-149). split; [reflexivity|]. split; [unfold canonical; lia|]. reflexivity.
  - destruct (fr + 2 ^ 23)%N as [|m] eqn:Em; [discriminate|]. cbn [value].
    destruct (Z.ltb_spec (Z.of_N ex - 150) (-149)); [lia|]. intro H'. injection H' as <-.
    right. eexists _, _, _. split; [reflexivity|]. split; [unfold canonical; lia|]. reflexivity.
Qed.
Lemma times_ok a b x y : storable a -> storable b -> value a = Some x -> value b = Some y ->
  (in_range (x * y) -> closest (x * y) (times a b)) /\ (~ in_range (x * y) -> exists s, times a b = S754_infinity s).
Proof.
  intros Sa Sb Va Vb. unfold times. assert (Z0 : forall s q, (q == 0)%Q -> (in_range q -> closest q (S754_zero s)) /\ (~ in_range q -> exists t, S754_zero s = S754_infinity t)).
  { intros s q Q. assert (Q' : (q == 0 # D)%Q) by (rewrite Q; reflexivity). split.
    - intros _. eapply closest_of; [|exact Q']. split; [apply zero_storable|]. exists 0. split; [reflexivity|]. intros w _. split; [lia|]. intro H. left.
      assert (0 < 2 ^ 149) by reflexivity. nia.
    - intro H. exfalso. apply H. apply (range_of _ _ Q'). reflexivity. }
  destruct (storable_form a x Sa Va) as [(s & -> & Ex)|(s & m & e & -> & C & Ex)], (storable_form b y Sb Vb) as [(s' & -> & Ey)|(s' & m' & e' & -> & C' & Ey)]; cbn [SFmul].
  - apply Z0. rewrite Ex, Ey. reflexivity.
  - apply Z0. rewrite Ex. apply Qmult_0_l.
  - apply Z0. rewrite Ey. apply Qmult_0_r.
  - destruct C as (A1 & A2 & A3), C' as (B1 & B2 & B3).
    assert (HP : e + e' <= expo (m * m') (e + e')).
    { unfold expo. destruct A3 as [A3|A3]; [|destruct B3 as [B3|B3]].
      - assert (2 ^ 23 <= Z.pos (m * m')) by nia. destruct (digits_ok (m * m')) as (_ & G).
        assert (24 <= Z.pos (digits2_pos (m * m'))); [|lia]. destruct (Z.le_gt_cases 24 (Z.pos (digits2_pos (m * m')))) as [L|K]; [exact L|].
        pose proof (Z.pow_le_mono_r 2 (Z.pos (digits2_pos (m * m'))) 23 ltac:(lia) ltac:(lia)). lia.
      - assert (2 ^ 23 <= Z.pos (m * m')) by nia. destruct (digits_ok (m * m')) as (_ & G).
        assert (24 <= Z.pos (digits2_pos (m * m'))); [|lia]. destruct (Z.le_gt_cases 24 (Z.pos (digits2_pos (m * m')))) as [L|K]; [exact L|].
        pose proof (Z.pow_le_mono_r 2 (Z.pos (digits2_pos (m * m'))) 23 ltac:(lia) ltac:(lia)). lia.
      - lia. }
    assert (Q : (x * y == (if xorb s s' then - (Z.pos (m * m') * 2 ^ (e + e' + 298)) else Z.pos (m * m') * 2 ^ (e + e' + 298)) # D)%Q).
    { rewrite Ex, Ey. unfold Qeq, Qmult. cbn [Qnum Qden]. replace (e + e' + 298) with ((e + 149) + (e' + 149)) by lia. rewrite (Z.pow_add_r 2 (e + 149)) by lia.
      rewrite !Pos2Z.inj_mul. change (Z.pos D) with (Z.pos (2 ^ 149) * Z.pos (2 ^ 149)).
      destruct s, s'; cbn [xorb]; rewrite <- ?Pos2Z.opp_pos; ring. }
    destruct (aux_ok (xorb s s') (m * m') (e + e') (x * y) ltac:(lia) HP Q) as (R1 & R2). split; [exact R1|]. intro H. eexists. now apply R2.
Qed.
Lemma align_ok m e ez : ez <= e -> Z.pos (fst (shl_align m e ez)) = Z.pos m * 2 ^ (e - ez).
Proof.
  intro H. unfold shl_align. destruct (ez - e) as [|d|d] eqn:Ed; cbn [fst].
  - replace (e - ez) with 0 by lia. change (2 ^ 0) with 1. lia.
  - lia.
  - rewrite shift_pos_correct. change (Z.pow_pos 2 d) with (2 ^ Z.pos d). replace (e - ez) with (Z.pos d) by lia. ring.
Qed.
(** A storable number is the closest to its own value. *)
Lemma closest_self f v : storable f -> value f = Some v -> closest v f.
Proof.
  intros S V. split; [exact S|]. exists v. split; [exact V|]. intros bits w _ _.
  assert (Z : (Qabs (v - v) == 0)%Q) by (setoid_replace (v - v)%Q with 0%Q by ring; reflexivity). split.
  - rewrite Z. apply Qabs_nonneg.
  - intro H. left. rewrite Z in H. apply Qabs_case in H || idtac. revert H. unfold Qabs, Qeq, Qminus, Qplus, Qopp. destruct v as [a b], w as [c d]. cbn [Qnum Qden]. nia.
Qed.
Lemma closest_eq q r f : (q == r)%Q -> closest q f -> closest r f.
Proof.
  intros E (S & v & V & H). split; [exact S|]. exists v. split; [exact V|]. intros bits w B W. rewrite <- E. exact (H bits w B W).
Qed.
Lemma opp_storable s m e : storable (S754_finite s m e) -> storable (S754_finite (negb s) m e).
Proof.
  intro S. destruct (value (S754_finite s m e)) as [v|] eqn:V.
  - destruct (storable_form _ _ S V) as [(t & X & _)|(t & n & k & X & C & _)]; [discriminate|]. injection X as -> -> ->.
    exists (bits_of (negb t) n k). destruct (bits_ok (negb t) n k C). auto.
  - exfalso. destruct S as (bits & Hb & E). cbn [value] in V. destruct (Z.ltb_spec e (-149)); [|discriminate]. clear V. unfold single in E.
    destruct (_ =? 255)%N; [destruct (_ =? 0)%N; discriminate|]. destruct (_ =? 0)%N eqn:Z0.
    + destruct (bits mod 2 ^ 23)%N; [discriminate|]. injection E as -> -> ->. lia.
    + destruct (bits mod 2 ^ 23 + 2 ^ 23)%N; [discriminate|]. injection E as -> -> ->. apply N.eqb_neq in Z0. lia.
Qed.
Lemma minus_ok a b x y : storable a -> storable b -> value a = Some x -> value b = Some y ->
  (in_range (x - y) -> closest (x - y) (minus a b)) /\ (~ in_range (x - y) -> exists s, minus a b = S754_infinity s).
Proof.
  intros Sa Sb Va Vb. unfold minus.
  assert (Self : forall f v q, storable f -> value f = Some v -> (q == v)%Q -> (in_range q -> closest q f) /\ (~ in_range q -> exists s, f = S754_infinity s)).
  { intros f v q S V Q. split; [intros _; eapply closest_eq; [symmetry; exact Q|]; now apply closest_self|].
    intro H. exfalso. apply H. destruct (storable_form f v S V) as [(s & -> & Ev)|(s & m & e & -> & (C1 & C2 & C3) & Ev)].
    - apply (range_of 0); [|reflexivity]. rewrite Q, Ev. reflexivity.
    - apply (range_of ((if s then Z.neg m else Z.pos m) * 2 ^ (e + 149) * 2 ^ 149)); [rewrite Q, Ev; apply units_D|].
      rewrite !Z.abs_mul, (Z.abs_eq (2 ^ (e + 149))), (Z.abs_eq (2 ^ 149)) by (try apply Z.pow_nonneg; lia).
      replace (Z.abs (if s then Z.neg m else Z.pos m)) with (Z.pos m) by (destruct s; reflexivity).
      rewrite <- Z.mul_assoc, <- Z.pow_add_r by lia. assert (2 ^ (e + 149 + 149) <= 2 ^ (104 + 298)) by (apply Z.pow_le_mono_r; lia).
      eapply Z.le_lt_trans; [apply Z.mul_le_mono_nonneg; [lia| |apply Z.pow_nonneg; lia|exact H0]; instantiate (1 := 2 ^ 24 - 1); lia|]. reflexivity. }
  destruct (storable_form a x Sa Va) as [(s & -> & Ex)|(s & m & e & -> & C & Ex)], (storable_form b y Sb Vb) as [(s' & -> & Ey)|(s' & m' & e' & -> & C' & Ey)]; cbn [SFsub].
  - assert (Q : (x - y == 0)%Q) by (rewrite Ex, Ey; reflexivity). destruct (Bool.eqb s (negb s')).
    + apply (Self _ 0%Q); [apply zero_storable|reflexivity|exact Q].
    + apply (Self _ 0%Q); [apply zero_storable|reflexivity|exact Q].
  - pose proof C' as (C1 & C2 & C3). eapply Self; [now apply opp_storable|cbn [value]; replace (e' <? -149) with false by lia; reflexivity|].
    rewrite Ex, Ey. unfold Qeq, Qminus, Qplus, Qopp. cbn [Qnum Qden]. rewrite Pos.mul_1_l. set (d := Z.pos (2 ^ 149)). set (t := 2 ^ (e' + 149)).
    clearbody d t. destruct s'; cbn [negb]; rewrite <- ?Pos2Z.opp_pos; lia.
  - eapply Self; [exact Sa|exact Va|]. rewrite Ey. ring.
  - destruct C as (A1 & A2 & A3), C' as (B1 & B2 & B3). apply normalize_ok; [lia|].
    rewrite !align_ok by lia. rewrite Ex, Ey, !units_D, minus_D. unfold Qeq. cbn [Qnum Qden]. f_equal.
    assert (P : forall k, Z.min e e' <= k -> 2 ^ (k + 149) * 2 ^ 149 = 2 ^ (k - Z.min e e') * 2 ^ (Z.min e e' + 298)) by (intros k Hk; rewrite <- !Z.pow_add_r by lia; f_equal; lia).
    rewrite <- !(Z.mul_assoc _ (2 ^ (_ + 149))), !P by lia. destruct s, s'; cbn [cond_Zopp]; rewrite <- ?Pos2Z.opp_pos; ring.
Qed.
