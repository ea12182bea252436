(** Rounding to single precision: the result is the closest number. *)
From Coq Require Import Lia ZifyBool ZifyNat ZifyN QArith Qabs Floats.SpecFloat.
From Verif Require Import Base SpecDoc SpecSingle SingleProofs.
Local Open Scope Z_scope.

(** ** Values as whole numbers of 2 ^ -149 *)
Definition units (f : spec_float) : option Z :=
  match f with
  | S754_zero _ => Some 0
  | S754_finite s m e => if e <? -149 then None else Some ((if s then Z.neg m else Z.pos m) * 2 ^ (e + 149))
  | _ => None
  end.
Lemma value_units f v : value f = Some v -> exists u, units f = Some u /\ (v == u # 2 ^ 149)%Q.
Proof.
  destruct f as [s|s| |s m e]; cbn [value units]; try discriminate; intro H.
  - injection H as <-. exists 0. split; [reflexivity|]. reflexivity.
  - destruct (e <? -149); [discriminate|]. injection H as <-. eexists. split; [reflexivity|]. reflexivity.
Qed.
Lemma units_value f u : units f = Some u -> exists v, value f = Some v /\ (v == u # 2 ^ 149)%Q.
Proof.
  destruct f as [s|s| |s m e]; cbn [value units]; try discriminate; intro H.
  - injection H as <-. exists 0%Q. split; reflexivity.
  - destruct (e <? -149); [discriminate|]. injection H as <-. eexists. split; reflexivity.
Qed.
(** A number with at most 24 binary digits, in these units. *)
Definition short (u : Z) : Prop := exists m j, -(2 ^ 24) < m < 2 ^ 24 /\ 0 <= j /\ u = m * 2 ^ j.
Lemma short_opp u : short u -> short (- u).
Proof. intros (m & j & A & B & ->). exists (- m), j. repeat split; lia. Qed.
Lemma single_short bits u : (bits < 2 ^ 32)%N -> units (single bits) = Some u -> short u.
Proof.
  intros Hb. unfold single. set (sg := (1 <=? bits / 2 ^ 31)%N). assert (F : (bits mod 2 ^ 23 < 2 ^ 23)%N) by (apply N.mod_lt; lia).
  set (fr := (bits mod 2 ^ 23)%N) in *. assert (G : (bits / 2 ^ 23 mod 256 < 256)%N) by (apply N.mod_lt; lia). set (ex := (bits / 2 ^ 23 mod 256)%N) in *.
  destruct (N.eqb_spec ex 255) as [|]; [destruct (fr =? 0)%N; discriminate|].
  destruct (N.eqb_spec ex 0) as [|].
  - destruct fr as [|m]; cbn [units].
    + intro H. injection H as <-. exists 0, 0. repeat split; lia.
    + intro H. cbn in H. injection H as <-. exists (if sg then Z.neg m else Z.pos m), 0. change (2 ^ 0) with 1. destruct sg; repeat split; lia.
  - destruct (fr + 2 ^ 23)%N as [|m] eqn:Em; [discriminate|]. cbn [units].
    destruct (Z.ltb_spec (Z.of_N ex - 150) (-149)); [lia|]. intro H'. injection H' as <-.
    exists (if sg then Z.neg m else Z.pos m), (Z.of_N ex - 150 + 149). destruct sg; repeat split; lia.
Qed.
Definition canonical (m : positive) (e : Z) : Prop :=
  Z.pos m < 2 ^ 24 /\ -149 <= e <= 104 /\ (2 ^ 23 <= Z.pos m \/ e = -149).
Definition bits_of (s : bool) (m : positive) (e : Z) : N :=
  (if s then 2 ^ 31 else 0) + (if N.pos m <? 2 ^ 23 then N.pos m else Z.to_N (e + 149) * 2 ^ 23 + N.pos m)%N.
Lemma bits_parity s m e : N.even (bits_of s m e) = Z.even (Z.pos m).
Proof.
  assert (E : forall a b : N, N.even (a * 2 ^ 23 + b)%N = N.even b).
  { intros a b. rewrite N.even_add, N.even_mul. change (N.even (2 ^ 23)) with true. rewrite Bool.orb_true_r. now destruct (N.even b). }
  unfold bits_of. rewrite N.even_add. replace (N.even (if s then 2 ^ 31 else 0)%N) with true by (destruct s; reflexivity).
  destruct (_ <? _)%N; [|rewrite E]; destruct m; reflexivity.
Qed.
Lemma bits_ok s m e : canonical m e -> (bits_of s m e < 2 ^ 32)%N /\ single (bits_of s m e) = S754_finite s m e.
Proof.
  intros (A & B & C). unfold bits_of. destruct (N.ltb_spec (N.pos m) (2 ^ 23)) as [L|G].
  - assert (e = -149) as -> by lia. split; [destruct s; lia|]. unfold single.
    assert (X : forall s : bool, ((if s then 2 ^ 31 else 0) + N.pos m)%N = (((if s then 1 else 0) * 2 ^ 8 + 0) * 2 ^ 23 + N.pos m)%N) by (intros []; lia).
    rewrite (X s). rewrite N.div_add_l, (N.div_small (N.pos m)) by lia. rewrite (N.add_comm (_ * 2 ^ 23)), N.mod_add, (N.mod_small (N.pos m)) by lia.
    replace ((((if s then 1 else 0) * 2 ^ 8 + 0 + 0) mod 256))%N with 0%N by (destruct s; reflexivity). cbn [N.eqb].
    replace ((N.pos m + ((if s then 1 else 0) * 2 ^ 8 + 0) * 2 ^ 23) / 2 ^ 31)%N with (if s then 1 else 0)%N; [destruct s; reflexivity|].
    destruct s; [|rewrite N.div_small; lia]. apply (N.div_unique _ _ _ (N.pos m)); lia.
  - set (x := Z.to_N (e + 149)). assert (Hx : (x < 254)%N) by lia. assert (Ex : Z.of_N x = e + 149) by lia. clearbody x.
    assert (M : exists f, N.pos m = (2 ^ 23 + f)%N /\ (f < 2 ^ 23)%N) by (exists (N.pos m - 2 ^ 23)%N; lia). destruct M as (f & Em & Hf).
    assert (X : ((if s then 2 ^ 31 else 0) + (x * 2 ^ 23 + N.pos m) = ((if s then 256 else 0) + (x + 1)) * 2 ^ 23 + f)%N) by (rewrite Em; destruct s; lia).
    rewrite X. split; [destruct s; lia|]. unfold single.
    rewrite N.div_add_l, (N.div_small f), N.add_0_r by lia. rewrite (N.add_comm (_ * 2 ^ 23)), N.mod_add, (N.mod_small f) by lia.
    replace (((if s then 256 else 0) + (x + 1)) mod 256)%N with (x + 1)%N.
    2: { destruct s; [|rewrite N.mod_small; lia]. apply (N.mod_unique _ _ 1); lia. }
    replace (x + 1 =? 255)%N with false by lia. replace (x + 1 =? 0)%N with false by lia. rewrite (N.add_comm f (2 ^ 23)), <- Em.
    f_equal; [|lia]. destruct s.
    + apply N.leb_le. apply N.div_le_lower_bound; lia.
    + apply N.leb_gt. rewrite N.div_small; lia.
Qed.
Lemma zero_storable s : storable (S754_zero s) /\ exists b, (b < 2 ^ 32)%N /\ S754_zero s = single b /\ N.even b = true.
Proof. split; exists (if s then 2 ^ 31 else 0)%N; destruct s; repeat split. Qed.

(** ** The closest, in units of 2 ^ -298 *)
Definition closest_z (X : Z) (f : spec_float) : Prop :=
  storable f /\ exists u, units f = Some u /\
    forall w, short w -> Z.abs (u * 2 ^ 149 - X) <= Z.abs (w * 2 ^ 149 - X) /\
      (Z.abs (w * 2 ^ 149 - X) = Z.abs (u * 2 ^ 149 - X) -> w = u \/ exists b, (b < 2 ^ 32)%N /\ f = single b /\ N.even b = true).
Definition limit : Z := (2 ^ 25 - 1) * 2 ^ 401.

Lemma round_closest s M E : -298 <= E -> E <= expo M E ->
  let X := Z.pos M * 2 ^ (E + 298) in
  let f := binary_round_aux 24 128 s (Z.pos M) E loc_Exact in
  (X < limit -> closest_z (if s then - X else X) f) /\ (limit <= X -> f = S754_infinity s).
Proof.
  intros HE HP. cbv zeta. rewrite round_aux by exact HP. pose proof (rne_max M E HP) as RB. pose proof (digits_ok M) as (D1 & D2).
  pose proof (rne_near (Z.pos M) (expo M E - E) ltac:(lia)) as RN.
  pose proof (rne_closest (Z.pos M) (expo M E - E) ltac:(lia)) as RC.
  assert (RL : -149 < expo M E -> 2 ^ 23 <= rne (Z.pos M) (expo M E - E)).
  { intro G. apply rne_low; [lia|]. rewrite <- Z.pow_add_r by lia. etransitivity; [|exact D1]. apply Z.pow_le_mono_r; [lia|]. unfold expo in *. lia. }
  set (P := expo M E) in *. set (R := rne (Z.pos M) (P - E)) in *.
  assert (P1 : -149 <= P) by (unfold P, expo; lia).
  set (a := 2 ^ (E + 298)). assert (a0 : 0 < a) by (apply Z.pow_pos_nonneg; lia).
  set (k := 2 ^ (P - E)) in *. assert (k0 : 0 < k) by (apply Z.pow_pos_nonneg; lia).
  assert (ka : 2 ^ (P + 149) * 2 ^ 149 = k * a) by (unfold k, a; rewrite <- !Z.pow_add_r by lia; f_equal; lia).
  (* the result, with its sign, is R * 2^(P+149) *)
  assert (Near : forall w, short w -> Z.abs (R * 2 ^ (P + 149) * 2 ^ 149 - Z.pos M * a) <= Z.abs (w * 2 ^ 149 - Z.pos M * a) /\
    (Z.abs (w * 2 ^ 149 - Z.pos M * a) = Z.abs (R * 2 ^ (P + 149) * 2 ^ 149 - Z.pos M * a) -> w = R * 2 ^ (P + 149) \/ Z.even R = true)).
  { intros w (m & j & B & J & ->). replace (R * 2 ^ (P + 149) * 2 ^ 149 - Z.pos M * a) with ((R * k - Z.pos M) * a) by (rewrite <- Z.mul_assoc, ka; ring).
    destruct (Z.le_gt_cases (P + 149) j) as [L|G].
    - assert (Ej : m * 2 ^ j * 2 ^ 149 - Z.pos M * a = (m * 2 ^ (j - (P + 149)) * k - Z.pos M) * a).
      { replace (2 ^ j) with (2 ^ (j - (P + 149)) * 2 ^ (P + 149)) by (rewrite <- Z.pow_add_r by lia; f_equal; lia).
        transitivity (m * 2 ^ (j - (P + 149)) * (2 ^ (P + 149) * 2 ^ 149) - Z.pos M * a); [ring|]. rewrite ka. ring. }
      rewrite Ej, !Z.abs_mul, (Z.abs_eq a) by lia. destruct (RC (m * 2 ^ (j - (P + 149)))) as (C1 & C2). split; [nia|].
      intro Eq. destruct C2 as [C2|C2]; [nia| |auto]. left. rewrite <- C2, <- Z.mul_assoc, <- Z.pow_add_r by lia. f_equal. f_equal. lia.
    - specialize (RL ltac:(lia)). pose proof (RC (2 ^ 23)) as (C1 & _).
      assert (PD : P = Z.pos (digits2_pos M) + E - 24) by (unfold P, expo in *; lia).
      assert (Mk : 2 ^ 23 * k <= Z.pos M) by (unfold k; rewrite <- Z.pow_add_r by lia; etransitivity; [|exact D1]; apply Z.pow_le_mono_r; lia).
      assert (W : m * 2 ^ j * 2 ^ 149 < 2 ^ 23 * k * a).
      { replace (2 ^ 23 * k * a) with (2 ^ 23 * (k * a)) by ring. rewrite <- ka. replace (2 ^ (P + 149)) with (2 * 2 ^ (P + 148)) by (rewrite <- Z.pow_succ_r by lia; f_equal; lia).
        assert (2 ^ j <= 2 ^ (P + 148)) by (apply Z.pow_le_mono_r; lia). assert (0 < 2 ^ j) by (apply Z.pow_pos_nonneg; lia). assert (0 < 2 ^ 149) by lia.
        replace (2 ^ 23 * (2 * 2 ^ (P + 148) * 2 ^ 149)) with (2 ^ 24 * 2 ^ (P + 148) * 2 ^ 149) by ring. apply Z.mul_lt_mono_pos_r; nia. }
      rewrite Z.abs_mul, (Z.abs_eq a) by lia. rewrite (Z.abs_neq (m * 2 ^ j * 2 ^ 149 - _)) by nia.
      assert (Z.abs (R * k - Z.pos M) * a < - (m * 2 ^ j * 2 ^ 149 - Z.pos M * a)); [|split; lia].
      rewrite (Z.abs_neq (2 ^ 23 * k - Z.pos M)) in C1 by lia. nia. }
  assert (Shape : forall f', storable f' -> units f' = Some (if s then - (R * 2 ^ (P + 149)) else R * 2 ^ (P + 149)) ->
    (Z.even R = true -> exists b, (b < 2 ^ 32)%N /\ f' = single b /\ N.even b = true) -> closest_z (if s then - (Z.pos M * a) else Z.pos M * a) f').
  { intros f' S1 U1 V1. split; [exact S1|]. eexists. split; [exact U1|]. intros w Sw. destruct s.
    - destruct (Near (- w) (short_opp _ Sw)) as (N1 & N2). split.
      + replace (- (R * 2 ^ (P + 149)) * 2 ^ 149 - - (Z.pos M * a)) with (- (R * 2 ^ (P + 149) * 2 ^ 149 - Z.pos M * a)) by ring.
        replace (w * 2 ^ 149 - - (Z.pos M * a)) with (- (- w * 2 ^ 149 - Z.pos M * a)) by ring. rewrite !Z.abs_opp. exact N1.
      + replace (- (R * 2 ^ (P + 149)) * 2 ^ 149 - - (Z.pos M * a)) with (- (R * 2 ^ (P + 149) * 2 ^ 149 - Z.pos M * a)) by ring.
        replace (w * 2 ^ 149 - - (Z.pos M * a)) with (- (- w * 2 ^ 149 - Z.pos M * a)) by ring. rewrite !Z.abs_opp. intro Q. destruct (N2 Q) as [Y|Y]; [left; lia|auto].
    - destruct (Near w Sw) as (N1 & N2). split; [exact N1|]. intro Q. destruct (N2 Q) as [Y|Y]; auto. }
  assert (ka2 : k * a = 2 ^ (P + 298)) by (rewrite <- ka, <- Z.pow_add_r by lia; f_equal; lia).
  assert (Lim : 2 * limit = (2 ^ 25 - 1) * 2 ^ (104 + 298)) by reflexivity.
  assert (Up : P <> -149 -> 2 ^ (P + 321) <= Z.pos M * a).
  { intro N. assert (PD : P = Z.pos (digits2_pos M) + E - 24) by (unfold P, expo in *; lia). unfold a. etransitivity; [|apply Z.mul_le_mono_nonneg_r; [lia|exact D1]].
    rewrite <- Z.pow_add_r by lia. apply Z.pow_le_mono_r; lia. }
  assert (Lo : Z.pos M * a < 2 ^ (P + 322)).
  { unfold a. eapply Z.lt_le_trans; [apply Z.mul_lt_mono_pos_r; [lia|exact D2]|]. rewrite <- Z.pow_add_r by lia. apply Z.pow_le_mono_r; unfold P, expo; lia. }
  split; intro HX.
  - assert (PB : P <= 104).
    { destruct (Z.le_gt_cases P 104) as [L|G]; [exact L|]. specialize (Up ltac:(lia)).
      assert (2 ^ 426 <= 2 ^ (P + 321)) by (apply Z.pow_le_mono_r; lia). assert (limit < 2 ^ 426) by reflexivity. lia. }
    assert (PR : R = 2 ^ 24 -> P <= 103).
    { intro ER. destruct (Z.le_gt_cases P 103) as [L|G]; [exact L|]. assert (EP : P = 104) by lia. rewrite EP in ka2.
      assert ((2 ^ 25 - 1) * k <= 2 * Z.pos M) by (rewrite ER in RN; lia). assert ((2 ^ 25 - 1) * (k * a) <= 2 * (Z.pos M * a)) by nia. rewrite ka2 in *. lia. }
    destruct (Z.eqb_spec R 0) as [R0|R0].
    { apply Shape; [apply zero_storable| |intros _; apply zero_storable]. rewrite R0. cbn [units]. destruct s; reflexivity. }
    destruct (Z.ltb_spec R (2 ^ 24)) as [L|G]; unfold fin.
    + replace (P <=? 104) with true by lia. assert (C : canonical (Z.to_pos R) P) by (unfold canonical; lia).
      destruct (bits_ok s _ _ C) as (B1 & B2). apply Shape.
      * exists (bits_of s (Z.to_pos R) P). auto.
      * cbn [units]. replace (P <? -149) with false by lia. f_equal. destruct s; [|rewrite Z2Pos.id by lia; reflexivity].
        rewrite <- Pos2Z.opp_pos, Z2Pos.id by lia. ring.
      * intro Ev. exists (bits_of s (Z.to_pos R) P). rewrite bits_parity, Z2Pos.id by lia. auto.
    + assert (ER : R = 2 ^ 24) by lia. specialize (PR ER). replace (P + 1 <=? 104) with true by lia.
      assert (C : canonical (Z.to_pos (2 ^ 23)) (P + 1)) by (unfold canonical; cbn; lia).
      destruct (bits_ok s _ _ C) as (B1 & B2). apply Shape.
      * exists (bits_of s (Z.to_pos (2 ^ 23)) (P + 1)). auto.
      * cbn [units]. replace (P + 1 <? -149) with false by lia. f_equal. rewrite ER.
        replace (P + 1 + 149) with (Z.succ (P + 149)) by lia. rewrite Z.pow_succ_r by lia. set (t := 2 ^ (P + 149)). change (Z.to_pos (2 ^ 23)) with 8388608%positive. change (2 ^ 24) with 16777216. destruct s; lia.
      * intros _. exists (bits_of s (Z.to_pos (2 ^ 23)) (P + 1)). rewrite bits_parity. auto.
  - assert (P104 : 104 <= P).
    { destruct (Z.le_gt_cases 104 P) as [L|G]; [exact L|]. assert (2 ^ (P + 322) <= 2 ^ 425) by (apply Z.pow_le_mono_r; lia). assert (2 ^ 425 <= limit) by (apply Z.leb_le; reflexivity). lia. }
    specialize (RL ltac:(lia)). replace (R =? 0) with false by lia. unfold fin. replace (P + 1 <=? 104) with false by lia.
    destruct (Z.ltb_spec R (2 ^ 24)) as [L|G]; [|reflexivity]. destruct (Z.leb_spec P 104) as [L'|G']; [|reflexivity]. exfalso.
    assert (EP : P = 104) by lia. rewrite EP in ka2.
    assert ((2 ^ 25 - 1) * (k * a) <= 2 * (Z.pos M * a)) by (rewrite ka2; lia). assert ((2 ^ 25 - 1) * k <= 2 * Z.pos M) by nia.
    pose proof (rne_tie (Z.pos M) (P - E) ltac:(lia)) as T. fold R k in T. assert (ER : R = 2 ^ 24 - 1) by nia.
    assert (Z.even R = true) by (apply T; rewrite ER in *; lia). rewrite ER in *. discriminate.
Qed.
