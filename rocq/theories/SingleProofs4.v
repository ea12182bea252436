(** Ink coordinates as numbers. *)
From Coq Require Import Lia Lqa ZifyBool ZifyNat ZifyN QArith Qabs Floats.SpecFloat.
From Verif Require Import Base Store Props Nodes Doc SpecDoc SpecSingle SingleProofs SingleProofs2 SingleProofs3 DocProofs.
Local Open Scope Z_scope.

(** ** Whole numbers *)
Lemma whole_z z : Z.abs z < 2 ^ 127 -> closest_z (z * 2 ^ 298) (rounded z).
Proof.
  intro H. assert (G : forall (s : bool) M, Z.pos M < 2 ^ 127 -> closest_z (if s then - (Z.pos M * 2 ^ 298) else Z.pos M * 2 ^ 298) (binary_round 24 128 s M 0)).
  { intros s M L. destruct (binary_round_ok s M 0) as (M' & E' & -> & H1 & H2 & H3); [lia|].
    assert (X : Z.pos M' * 2 ^ (E' + 298) = Z.pos M * 2 ^ 298).
    { replace (E' + 298) with ((E' + 149) + 149) by lia. change (2 ^ 298) with (2 ^ (0 + 149) * 2 ^ 149).
      rewrite (Z.pow_add_r 2 (E' + 149)), !Z.mul_assoc, H3 by lia. reflexivity. }
    pose proof (round_closest s M' E' ltac:(lia) H1) as (C & _). cbv zeta in C. rewrite X in C. apply C.
    eapply Z.lt_le_trans; [apply Z.mul_lt_mono_pos_r; [reflexivity|exact L]|]. apply Z.leb_le. reflexivity. }
  unfold rounded. destruct z as [|M|M]; cbn [binary_normalize].
  - split; [apply zero_storable|]. exists 0. split; [reflexivity|]. intros w _. split; [lia|]. intro T. left. assert (0 < 2 ^ 149) by reflexivity. nia.
  - exact (G false M H).
  - rewrite <- Pos2Z.opp_pos, Z.mul_opp_l. exact (G true M H).
Qed.
Lemma units_whole z u v : units (rounded z) = Some u -> u * 2 ^ 149 = z * 2 ^ 298 -> value (rounded z) = Some v -> (v == inject_Z z)%Q.
Proof.
  intros U E V. destruct (value_units _ _ V) as (u' & U' & Ev). rewrite U in U'. injection U' as <-. rewrite Ev.
  unfold Qeq, inject_Z. cbn [Qnum Qden]. change (Z.pos (2 ^ 149)) with (2 ^ 149). change (2 ^ 298) with (2 ^ 149 * 2 ^ 149) in E.
  assert (0 < 2 ^ 149) by reflexivity. nia.
Qed.
Lemma whole_exact z : Z.abs z <= 2 ^ 24 -> exists v, value (rounded z) = Some v /\ (v == inject_Z z)%Q.
Proof.
  intro H. destruct (whole_z z) as (_ & u & U & C); [lia|]. destruct (units_value _ _ U) as (v & V & _). exists v. split; [exact V|].
  apply (units_whole z u v U); [|exact V]. assert (S : short (z * 2 ^ 149)).
  { destruct (Z.eq_dec (Z.abs z) (2 ^ 24)) as [E|E].
    - exists (z / 2), 150. assert (z = 2 * (z / 2)) by (destruct (Z.abs_spec z) as [[_ A]|[_ A]]; rewrite E in A; [|replace z with (- 2 ^ 24) by lia; reflexivity]; rewrite <- A; reflexivity).
      split; [lia|]. split; [lia|]. change (2 ^ 150) with (2 * 2 ^ 149). lia.
    - exists z, 149. lia. }
  destruct (C _ S) as (C1 & _). rewrite <- Z.mul_assoc in C1. change (2 ^ 149 * 2 ^ 149) with (2 ^ 298) in C1. lia.
Qed.
Lemma whole_error z : Z.abs z < 2 ^ 127 -> exists v, value (rounded z) = Some v /\ (Qabs (v - inject_Z z) * inject_Z (2 ^ 24) <= Qabs (inject_Z z))%Q.
Proof.
  intro H. destruct (whole_z z H) as (_ & u & U & C). destruct (units_value _ _ U) as (v & V & Ev). exists v. split; [exact V|].
  assert (B : 2 ^ 24 * Z.abs (u - z * 2 ^ 149) <= Z.abs z * 2 ^ 149).
  { destruct (Z.le_gt_cases (Z.abs z) (2 ^ 24)) as [L|G].
    - destruct (whole_exact z L) as (v' & V' & E'). rewrite V in V'. injection V' as <-. rewrite Ev in E'.
      unfold Qeq, inject_Z in E'. cbn [Qnum Qden] in E'. change (Z.pos (2 ^ 149)) with (2 ^ 149) in E'. rewrite Z.mul_1_r in E'. rewrite E', Z.sub_diag. lia.
    - assert (K : exists k, 0 <= k /\ 2 ^ 23 * 2 ^ k <= Z.abs z < 2 ^ 24 * 2 ^ k).
      { destruct (Z.abs z) as [|p|p] eqn:Ez; [lia| |lia]. destruct (digits_ok p) as (D1 & D2). exists (Z.pos (digits2_pos p) - 24).
        assert (24 < Z.pos (digits2_pos p)). { destruct (Z.le_gt_cases (Z.pos (digits2_pos p)) 24) as [L|L]; [|exact L]. pose proof (Z.pow_le_mono_r 2 _ 24 ltac:(lia) L). lia. }
        rewrite <- !Z.pow_add_r by lia. replace (23 + (Z.pos (digits2_pos p) - 24)) with (Z.pos (digits2_pos p) - 1) by lia.
        replace (24 + (Z.pos (digits2_pos p) - 24)) with (Z.pos (digits2_pos p)) by lia. lia. }
      destruct K as (k & K0 & K1 & K2). assert (P : 0 < 2 ^ k) by (apply Z.pow_pos_nonneg; lia). set (b := 2 ^ k) in *.
      set (a := Z.abs z / b). pose proof (Z.div_mod (Z.abs z) b ltac:(lia)) as DM. pose proof (Z.mod_pos_bound (Z.abs z) b P) as MB. fold a in DM.
      assert (A : 2 ^ 23 <= a < 2 ^ 24) by (split; [apply Z.div_le_lower_bound; lia|apply Z.div_lt_upper_bound; lia]).
      set (sg := Z.sgn z). assert (Sg : z = sg * Z.abs z /\ (sg = 1 \/ sg = -1)) by (unfold sg; destruct z; cbn; lia). destruct Sg as (Sz & Sg).
      assert (S1 : short (sg * (a * b) * 2 ^ 149)) by (exists (sg * a), (k + 149); rewrite Z.pow_add_r by lia; fold b; repeat split; [destruct Sg as [-> | ->]; lia..|lia|ring]).
      assert (S2 : short (sg * ((a + 1) * b) * 2 ^ 149)).
      { destruct (Z.eq_dec (a + 1) (2 ^ 24)) as [E|E].
        - exists (sg * 2 ^ 23), (k + 150). rewrite Z.pow_add_r by lia. fold b. rewrite E. change (2 ^ 150) with (2 * 2 ^ 149). repeat split; [destruct Sg as [-> | ->]; lia..|lia|].
          change (2 ^ 24) with (2 * 2 ^ 23). ring.
        - exists (sg * (a + 1)), (k + 149). rewrite Z.pow_add_r by lia. fold b. repeat split; [destruct Sg as [-> | ->]; lia..|lia|ring]. }
      destruct (C _ S1) as (C1 & _). destruct (C _ S2) as (C2 & _). change (2 ^ 298) with (2 ^ 149 * 2 ^ 149) in *.
      assert (T : 0 < 2 ^ 149) by reflexivity. set (t := 2 ^ 149) in *. clearbody t.
      replace (u * t - z * (t * t)) with ((u - z * t) * t) in * by ring. rewrite Z.abs_mul, (Z.abs_eq t) in * by lia.
      replace (sg * (a * b) * t * t - z * (t * t)) with (sg * (a * b - Z.abs z) * t * t) in C1 by (rewrite Sz at 2; ring).
      replace (sg * ((a + 1) * b) * t * t - z * (t * t)) with (sg * ((a + 1) * b - Z.abs z) * t * t) in C2 by (rewrite Sz at 2; ring).
      rewrite !Z.abs_mul, (Z.abs_eq t) in C1, C2 by lia. replace (Z.abs sg) with 1 in C1, C2 by lia. rewrite !Z.mul_1_l in C1, C2.
      set (y := Z.abs (u - z * t)) in *. assert (C1' : y <= Z.abs (a * b - Z.abs z) * t) by nia. assert (C2' : y <= Z.abs ((a + 1) * b - Z.abs z) * t) by nia.
      assert (2 * y <= b * t); [|nia]. rewrite (Z.abs_neq (a * b - _)) in C1' by nia. rewrite (Z.abs_eq ((a + 1) * b - _)) in C2' by nia. nia. }
  rewrite Ev. change (2 ^ 24)%Z with 16777216 in *. unfold Qabs, Qle, Qminus, Qplus, Qopp, Qmult, inject_Z. cbn [Qnum Qden]. rewrite !Pos.mul_1_r.
  change (Z.pos (2 ^ 149)) with (2 ^ 149). rewrite !Z.mul_1_r. replace (u + - z * 2 ^ 149) with (u - z * 2 ^ 149) by ring. lia.
Qed.

(** ** Order *)
Lemma closest_order q r f g v w : closest q f -> closest r g -> (q < r)%Q -> value f = Some v -> value g = Some w -> (v <= w)%Q.
Proof.
  intros ((bf & Bf & ->) & v' & V' & Cf) ((bg & Bg & ->) & w' & W' & Cg) L V W. rewrite V in V'. injection V' as <-. rewrite W in W'. injection W' as <-.
  destruct (Cf bg w Bg W) as (A & _). destruct (Cg bf v Bf V) as (B & _). apply Qnot_lt_le. intro G.
  assert (X : (v - q <= q - w \/ v - q <= w - q)%Q).
  { pose proof (Qle_Qabs (v - q)) as H. revert A. apply (Qabs_case (w - q) (fun t => (Qabs (v - q) <= t)%Q -> (v - q <= q - w \/ v - q <= w - q)%Q)); intros _ A; [right|left]; lra. }
  assert (Y : (r - w <= r - v \/ r - w <= v - r)%Q).
  { assert (H : (r - w <= Qabs (w - r))%Q) by (rewrite <- (Qabs_opp (w - r)); setoid_replace (r - w)%Q with (- (w - r))%Q by ring; apply Qle_Qabs).
    revert B. apply (Qabs_case (v - r) (fun t => (Qabs (w - r) <= t)%Q -> (r - w <= r - v \/ r - w <= v - r)%Q)); intros _ B; [right|left]; lra. }
  destruct X as [X|X]; [destruct Y as [Y|Y]|]; lra.
Qed.
Lemma same_value f g v w : storable f -> storable g -> value f = Some v -> value g = Some w -> (v == w)%Q ->
  f = g \/ (exists s t, f = S754_zero s /\ g = S754_zero t).
Proof.
  intros Sf Sg V W E.
  assert (P : forall e, -149 <= e -> 0 < 2 ^ (e + 149)) by (intros; apply Z.pow_pos_nonneg; lia).
  assert (Step : forall (m m' : positive) e e', canonical m e -> canonical m' e' -> e < e' -> Z.pos m * 2 ^ (e + 149) <> Z.pos m' * 2 ^ (e' + 149)).
  { intros m m' e e' (A1 & A2 & A3) (B1 & B2 & B3) L Q. replace (e' + 149) with ((e' - e) + (e + 149)) in Q by lia. rewrite (Z.pow_add_r 2 (e' - e)), Z.mul_assoc in Q by lia.
    apply Z.mul_reg_r in Q; [|specialize (P e); lia]. assert (H : 2 ^ 1 <= 2 ^ (e' - e)) by (apply Z.pow_le_mono_r; lia). change (2 ^ 1) with 2 in H. assert (2 ^ 23 <= Z.pos m') by lia.
    set (t := 2 ^ (e' - e)) in *. clearbody t. nia. }
  destruct (storable_form f v Sf V) as [(s & -> & Ex)|(s & m & e & -> & C & Ex)], (storable_form g w Sg W) as [(s' & -> & Ey)|(s' & m' & e' & -> & C' & Ey)].
  - right. eauto.
  - exfalso. rewrite Ex, Ey in E. unfold Qeq in E. cbn [Qnum Qden] in E. destruct C' as (_ & ? & _). specialize (P e' ltac:(lia)). destruct s'; nia.
  - exfalso. rewrite Ex, Ey in E. unfold Qeq in E. cbn [Qnum Qden] in E. destruct C as (_ & ? & _). specialize (P e ltac:(lia)). destruct s; nia.
  - left. rewrite Ex, Ey in E. unfold Qeq in E. cbn [Qnum Qden] in E. apply Z.mul_reg_r in E; [|discriminate].
    pose proof (P e ltac:(destruct C as (_ & ? & _); lia)) as P1. pose proof (P e' ltac:(destruct C' as (_ & ? & _); lia)) as P2.
    assert (s = s') as <- by (destruct s, s'; try reflexivity; nia).
    assert (E' : Z.pos m * 2 ^ (e + 149) = Z.pos m' * 2 ^ (e' + 149)) by (destruct s; lia).
    destruct (Z.lt_trichotomy e e') as [L|[Ee|G]].
    + destruct (Step m m' e e' C C' L E').
    + subst e'. apply Z.mul_reg_r in E'; [|lia]. injection E' as ->. reflexivity.
    + destruct (Step m' m e' e C' C G (eq_sym E')).
Qed.
Lemma whole_order z z' v v' : Z.abs z < 2 ^ 127 -> Z.abs z' < 2 ^ 127 -> z <= z' -> value (rounded z) = Some v -> value (rounded z') = Some v' -> (v <= v')%Q.
Proof.
  intros A B L V V'. destruct (Z.eq_dec z z') as [<-|N]; [rewrite V in V'; injection V' as <-; apply Qle_refl|].
  eapply closest_order; [apply (whole_ok z A)|apply (whole_ok z' B)|rewrite <- Zlt_Qlt; lia|exact V|exact V'].
Qed.

(** ** Coordinates *)
Lemma factor_storable sc : in_bits sc -> storable (factor sc).
Proof. destruct sc as [b|]; intro H; [exists b; auto|]. exists 0x3F800000%N. split; reflexivity. Qed.
Lemma one_value : value (factor None) = Some (8388608 * 2 ^ 126 # 2 ^ 149)%Q.
Proof. reflexivity. Qed.
Lemma range_whole z v : Z.abs z < 2 ^ 127 -> value (rounded z) = Some v -> in_range v.
Proof.
  intros H V. destruct (whole_error z H) as (v' & V' & E). rewrite V in V'. injection V' as <-. unfold in_range.
  assert (B : (Qabs (inject_Z z) < inject_Z (2 ^ 127))%Q) by (unfold Qabs, inject_Z, Qlt; cbn [Qnum Qden]; lia).
  assert (T : (Qabs v <= Qabs (v - inject_Z z) + Qabs (inject_Z z))%Q) by (setoid_replace v with ((v - inject_Z z) + inject_Z z)%Q at 1 by ring; apply Qabs_triangle).
  assert (N : (0 <= Qabs (v - inject_Z z))%Q) by apply Qabs_nonneg. change (inject_Z (2 ^ 24)) with (16777216 # 1)%Q in E.
  set (e := Qabs (v - inject_Z z)) in *. set (a := Qabs (inject_Z z)) in *. clearbody e a.
  assert (X : (e + a <= (16777217 # 16777216) * a)%Q) by lra.
  eapply Qle_lt_trans; [exact T|]. eapply Qle_lt_trans; [exact X|]. eapply Qlt_trans; [apply Qmult_lt_l; [reflexivity|exact B]|]. reflexivity.
Qed.
(** Without a scale a coordinate is the rounded number. *)
Lemma unscaled z : Z.abs z < 2 ^ 127 -> exists v w, value (rounded z) = Some v /\ value (times (factor None) (rounded z)) = Some w /\ (w == v)%Q.
Proof.
  intro H. destruct (whole_ok z H) as (S & v & V & _). assert (S1 : storable (factor None)) by now apply factor_storable.
  assert (E : ((8388608 * 2 ^ 126 # 2 ^ 149) * v == v)%Q) by (setoid_replace (8388608 * 2 ^ 126 # 2 ^ 149)%Q with 1%Q by reflexivity; ring).
  destruct (times_ok _ _ _ _ S1 S one_value V) as (T & _). destruct T as (_ & w & W & C).
  { unfold in_range. rewrite E. exact (range_whole z v H V). }
  exists v, w. refine (conj V (conj W _)). destruct S as (b & B & Eb). destruct (C b v B) as (C1 & _); [now rewrite <- Eb|].
  rewrite E in C1. assert (Z0 : (Qabs (v - v) == 0)%Q) by (setoid_replace (v - v)%Q with 0%Q by ring; reflexivity). rewrite Z0 in C1.
  assert (N : (Qabs (w - v) == 0)%Q) by (apply Qle_antisym; [exact C1|apply Qabs_nonneg]).
  revert N. apply (Qabs_case (w - v) (fun t => (t == 0)%Q -> (w == v)%Q)); intros _ N; lra.
Qed.
Lemma coordinate_order sc y z z' w w' : in_bits sc -> value (factor sc) = Some y -> (0 <= y)%Q ->
  Z.abs z < 2 ^ 127 -> Z.abs z' < 2 ^ 127 -> z <= z' ->
  value (times (factor sc) (rounded z)) = Some w -> value (times (factor sc) (rounded z')) = Some w' -> (w <= w')%Q.
Proof.
  intros Hs Y Y0 A A' L W W'. pose proof (factor_storable sc Hs) as Sf.
  destruct (whole_ok z A) as (Sz & v & V & _). destruct (whole_ok z' A') as (Sz' & v' & V' & _).
  pose proof (whole_order z z' v v' A A' L V V') as O. destruct (times_ok _ _ _ _ Sf Sz Y V) as (T1 & T2). destruct (times_ok _ _ _ _ Sf Sz' Y V') as (T1' & T2').
  assert (R : in_range (y * v)). { unfold in_range. apply Qnot_le_lt. intro G. destruct T2 as (s & E); [intro K; exact (Qlt_not_le _ _ K G)|]. rewrite E in W. discriminate. }
  assert (R' : in_range (y * v')). { unfold in_range. apply Qnot_le_lt. intro G. destruct T2' as (s & E); [intro K; exact (Qlt_not_le _ _ K G)|]. rewrite E in W'. discriminate. }
  destruct (Qlt_le_dec (y * v) (y * v')) as [Lt|Ge].
  - exact (closest_order _ _ _ _ _ _ (T1 R) (T1' R') Lt W W').
  - assert (Ge' : (y * v == y * v')%Q) by (apply Qle_antisym; [rewrite (Qmult_comm y v), (Qmult_comm y v'); apply Qmult_le_compat_r; assumption|exact Ge]).
    destruct (Qeq_dec y 0) as [Z0|NZ].
    + (* zero times anything is zero *)
      destruct (T1 R) as (_ & u & U & C). rewrite W in U. injection U as <-. destruct (T1' R') as (_ & u' & U' & C'). rewrite W' in U'. injection U' as <-.
      assert (B0 : (0 < 2 ^ 32)%N) by reflexivity. destruct (C 0%N 0%Q B0 eq_refl) as (C1 & _). destruct (C' 0%N 0%Q B0 eq_refl) as (C1' & _).
      assert (Q1 : (y * v == 0)%Q) by (rewrite Z0; ring). assert (Q2 : (y * v' == 0)%Q) by (rewrite Z0; ring). rewrite Q1 in C1. rewrite Q2 in C1'.
      assert (X : forall t, (Qabs (t - 0) <= Qabs (0 - 0))%Q -> (t == 0)%Q).
      { intros t. change (Qabs (0 - 0))%Q with 0%Q. apply (Qabs_case (t - 0) (fun k => (k <= 0)%Q -> (t == 0)%Q)); intros; lra. }
      rewrite (X _ C1), (X _ C1'). apply Qle_refl.
    + assert (Ev : (v == v')%Q) by (apply (Qmult_inj_l _ _ y); assumption).
      destruct (same_value _ _ _ _ Sz Sz' V V' Ev) as [E|(s & t & E & E')].
      * rewrite E, W' in W. injection W as <-. apply Qle_refl.
      * rewrite E in W. rewrite E' in W'. destruct (factor sc); cbn in W, W'; try discriminate; injection W as <-; injection W' as <-; apply Qle_refl.
Qed.

(** ** Paths *)
Lemma path_sources zs props sx sy pts : parse_ink_path zs props sx sy = Ok pts ->
  exists src, sources zs (sp_dimensions props) src /\
    Forall2 (fun s p => ip_x p = times (factor sx) (rounded (fst s)) /\ ip_y p = times (factor sy) (rounded (snd s))) src pts.
Proof.
  intro H. apply points_ok in H as (ix & iy & Dx & Dy & L & P). cbv zeta in *.
  set (n := (length zs / length (sp_dimensions props))%nat) in *.
  assert (X : forall pts' k, (forall i p, nth_error pts' i = Some p -> exists x y, nth_error zs (n * ix + (k + i)) = Some x /\ nth_error zs (n * iy + (k + i)) = Some y /\
                ip_x p = times (factor sx) (rounded x) /\ ip_y p = times (factor sy) (rounded y)) ->
             exists src, length src = length pts' /\ (forall i x y, nth_error src i = Some (x, y) -> nth_error zs (n * ix + (k + i)) = Some x /\ nth_error zs (n * iy + (k + i)) = Some y) /\
               Forall2 (fun s p => ip_x p = times (factor sx) (rounded (fst s)) /\ ip_y p = times (factor sy) (rounded (snd s))) src pts').
  { induction pts' as [|p l IH]; intros k Q.
    - exists []. refine (conj eq_refl (conj _ (Forall2_nil _))). intros [|i] x y E; discriminate.
    - destruct (Q O p eq_refl) as (x & y & A1 & A2 & A3 & A4). destruct (IH (S k)) as (src & B1 & B2 & B3).
      { intros i q E. destruct (Q (S i) q E) as (x' & y' & C). exists x', y'. replace (S k + i)%nat with (k + S i)%nat by lia. exact C. }
      exists ((x, y) :: src). refine (conj _ (conj _ _)); [cbn; congruence| |constructor; auto].
      intros [|i] x' y' E; cbn in E; [injection E as <- <-; auto|]. replace (k + S i)%nat with (S k + i)%nat by lia. auto. }
  destruct (X pts O P) as (src & B1 & B2 & B3). exists src. split; [|exact B3]. exists ix, iy. cbv zeta. refine (conj Dx (conj Dy (conj _ B2))). rewrite B1. exact L.
Qed.
Lemma about_unscaled z : Z.abs z < 2 ^ 127 -> about z (times (factor None) (rounded z)).
Proof.
  intro H. destruct (unscaled z H) as (v & w & V & W & E). exists w. refine (conj W (conj _ _)).
  - destruct (whole_error z H) as (v' & V' & B). rewrite V in V'. injection V' as <-. rewrite E. exact B.
  - intro L. destruct (whole_exact z L) as (v' & V' & B). rewrite V in V'. injection V' as <-. now rewrite E.
Qed.
Lemma sources_in zs dims src x y : sources zs dims src -> In (x, y) src -> In x zs /\ In y zs.
Proof.
  intros (ix & iy & _ & _ & _ & H) I. apply In_nth_error in I as (i & I). destruct (H i x y I) as (A & B). split; eapply nth_error_In; eauto.
Qed.
Lemma path_about zs props pts : Forall (fun z => Z.abs z < 2 ^ 64) zs -> parse_ink_path zs props None None = Ok pts ->
  exists src, sources zs (sp_dimensions props) src /\ Forall2 (fun s p => about (fst s) (ip_x p) /\ about (snd s) (ip_y p)) src pts.
Proof.
  intros F H. destruct (path_sources _ _ _ _ _ H) as (src & S & B). exists src. split; [exact S|].
  assert (I : forall s, In s src -> Z.abs (fst s) < 2 ^ 127 /\ Z.abs (snd s) < 2 ^ 127).
  { intros (x & y) I. destruct (sources_in _ _ _ _ _ S I) as (A1 & A2). rewrite Forall_forall in F. pose proof (F x A1). pose proof (F y A2). cbn [fst snd]. lia. }
  clear S H. induction B as [|s p l l' (A1 & A2) _ IH]; [constructor|]. constructor; [|apply IH; intros; apply I; now right].
  destruct (I s (or_introl eq_refl)). rewrite A1, A2. split; now apply about_unscaled.
Qed.
Lemma path_order zs props sx sy pts y : Forall (fun z => Z.abs z < 2 ^ 64) zs -> in_bits sx -> value (factor sx) = Some y -> (0 <= y)%Q ->
  parse_ink_path zs props sx sy = Ok pts ->
  exists src, sources zs (sp_dimensions props) src /\ length src = length pts /\
    forall i j s t p q v w, nth_error src i = Some s -> nth_error src j = Some t -> nth_error pts i = Some p -> nth_error pts j = Some q ->
      fst s <= fst t -> value (ip_x p) = Some v -> value (ip_x q) = Some w -> (v <= w)%Q.
Proof.
  intros F Hs Y Y0 H. destruct (path_sources _ _ _ _ _ H) as (src & S & B). exists src. split; [exact S|].
  assert (N : forall i s p, nth_error src i = Some s -> nth_error pts i = Some p -> ip_x p = times (factor sx) (rounded (fst s))).
  { clear - B. induction B as [|s p l l' (A1 & _) _ IH]; intros [|i] s' p' E E'; cbn in E, E'; try discriminate; [congruence|eauto]. }
  split. { clear - B. induction B; cbn; congruence. }
  intros i j s t p q v w E1 E2 E3 E4 L V W. rewrite (N _ _ _ E1 E3) in V. rewrite (N _ _ _ E2 E4) in W.
  assert (I : forall i s, nth_error src i = Some s -> Z.abs (fst s) < 2 ^ 127).
  { intros k (a & b) K. apply nth_error_In in K. destruct (sources_in _ _ _ _ _ S K) as (A1 & _). rewrite Forall_forall in F. pose proof (F a A1). cbn [fst]. lia. }
  exact (coordinate_order sx y (fst s) (fst t) v w Hs Y Y0 (I _ _ E1) (I _ _ E2) L V W).
Qed.
Lemma path_order_y zs props sx sy pts y : Forall (fun z => Z.abs z < 2 ^ 64) zs -> in_bits sy -> value (factor sy) = Some y -> (0 <= y)%Q ->
  parse_ink_path zs props sx sy = Ok pts ->
  exists src, sources zs (sp_dimensions props) src /\ length src = length pts /\
    forall i j s t p q v w, nth_error src i = Some s -> nth_error src j = Some t -> nth_error pts i = Some p -> nth_error pts j = Some q ->
      snd s <= snd t -> value (ip_y p) = Some v -> value (ip_y q) = Some w -> (v <= w)%Q.
Proof.
  intros F Hs Y Y0 H. destruct (path_sources _ _ _ _ _ H) as (src & S & B). exists src. split; [exact S|].
  assert (N : forall i s p, nth_error src i = Some s -> nth_error pts i = Some p -> ip_y p = times (factor sy) (rounded (snd s))).
  { clear - B. induction B as [|s p l l' (_ & A1) _ IH]; intros [|i] s' p' E E'; cbn in E, E'; try discriminate; [congruence|eauto]. }
  split. { clear - B. induction B; cbn; congruence. }
  intros i j s t p q v w E1 E2 E3 E4 L V W. rewrite (N _ _ _ E1 E3) in V. rewrite (N _ _ _ E2 E4) in W.
  assert (I : forall i s, nth_error src i = Some s -> Z.abs (snd s) < 2 ^ 127).
  { intros k (a & b) K. apply nth_error_In in K. destruct (sources_in _ _ _ _ _ S K) as (_ & A1). rewrite Forall_forall in F. pose proof (F b A1). cbn [snd]. lia. }
  exact (coordinate_order sy y (snd s) (snd t) v w Hs Y Y0 (I _ _ E1) (I _ _ E2) L V W).
Qed.
Lemma scale_ok b f : let r := ink_box_scale b f in
  product (bb_x b) f (bb_x r) /\ product (bb_y b) f (bb_y r) /\ product (bb_height b) f (bb_height r) /\ product (bb_width b) f (bb_width r).
Proof. cbn. unfold product. refine (conj _ (conj _ (conj _ _))); intros x y; apply times_ok. Qed.
