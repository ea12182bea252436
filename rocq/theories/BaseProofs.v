(** Compositional correctness of parsers: self-delimitation, truncation,
    totality. No model definitions here. *)
From Coq Require Import Lia ZifyBool ZifyNat ZifyN.
From Verif Require Import Base.

(** A successful run of an [exact k] parser depends on a prefix of at least [k]
    bytes and on nothing after it; every proper prefix of that prefix is
    reported as truncated; and any other error does not depend on what follows. *)
Record exact {A} (k : nat) (p : parser A) : Prop := {
  ex_ok : forall bs x rest, p bs = Ok (x, rest) ->
    exists pre, bs = pre ++ rest /\ (k <= length pre)%nat /\
      (forall t, p (pre ++ t) = Ok (x, t)) /\
      (forall q s, pre = q ++ s -> s <> [] -> p q = Err UnexpectedEof);
  ex_err : forall bs e, p bs = Err e -> e <> UnexpectedEof ->
    forall t, p (bs ++ t) = Err e }.

Record good {A} (k : nat) (p : parser A) : Prop := {
  gd_exact : exact k p;
  gd_nopanic : forall bs, p bs <> Panic;
  gd_nofuel : forall bs, p bs <> OutOfFuel }.

Lemma app_eq_split {A} (a b c d : list A) :
  a ++ b = c ++ d ->
  (exists l, c = a ++ l /\ b = l ++ d) \/ (exists l, a = c ++ l /\ d = l ++ b).
Proof.
  revert c; induction a as [|x a IH]; intros c H; cbn in H.
  - left; exists c; auto.
  - destruct c as [|y c]; cbn in H.
    + right; exists (x :: a); auto.
    + injection H as -> H. destruct (IH c H) as [[l [-> ->]]|[l [-> ->]]].
      * left; exists l; auto.
      * right; exists l; auto.
Qed.

(** ** [exact] is closed under the parser combinators *)

Lemma exact_weaken {A} k k' (p : parser A) :
  (k' <= k)%nat -> exact k p -> exact k' p.
Proof.
  intros Hk [Hok Herr]; split; [|exact Herr].
  intros bs x rest H; destruct (Hok _ _ _ H) as (pre & ? & ? & ? & ?).
  exists pre; repeat split; auto; lia.
Qed.

Lemma exact_ext {A} k (p q : parser A) :
  (forall bs, p bs = q bs) -> exact k p -> exact k q.
Proof.
  intros E [Hok Herr]; split.
  - intros bs x rest H; rewrite <- E in H.
    destruct (Hok _ _ _ H) as (pre & ? & ? & Ht & Htr).
    exists pre; repeat split; auto.
    + intro t; rewrite <- E; auto.
    + intros q' s Hq Hs; rewrite <- E; eauto.
  - intros bs e H He t; rewrite <- E in *; auto.
Qed.

Lemma exact_pret {A} (a : A) : exact 0 (pret a).
Proof.
  split; unfold pret.
  - intros bs x rest H; injection H as <- <-.
    exists []; repeat split; auto.
    intros q s H Hs; destruct q; cbn in H; [subst; congruence|discriminate].
  - discriminate.
Qed.

Lemma exact_pfail {A} k e : exact k (@pfail A e).
Proof.
  split; unfold pfail.
  - discriminate.
  - intros bs e' H _ t; exact H.
Qed.

Lemma exact_plift {A} (r : res A) : exact 0 (plift r).
Proof.
  destruct r as [a|e| |].
  - apply (exact_ext 0 (pret a)); [reflexivity|apply exact_pret].
  - apply (exact_ext 0 (pfail e)); [reflexivity|apply exact_pfail].
  - split; [discriminate|discriminate].
  - split; [discriminate|discriminate].
Qed.

Lemma exact_oof {A} k : exact k (fun _ => @OutOfFuel (A * list N)).
Proof. split; discriminate. Qed.

Lemma exact_bind {A B} k1 k2 (p : parser A) (f : A -> parser B) :
  exact k1 p -> (forall a, exact k2 (f a)) -> exact (k1 + k2) (pbind p f).
Proof.
  intros Hp Hf; split; unfold pbind.
  - intros bs x rest H.
    destruct (p bs) as [[a r1]|e| |] eqn:Ep; try discriminate.
    destruct (ex_ok _ _ Hp _ _ _ Ep) as (pre1 & -> & L1 & T1 & R1).
    destruct (ex_ok _ _ (Hf a) _ _ _ H) as (pre2 & -> & L2 & T2 & R2).
    exists (pre1 ++ pre2); repeat split.
    + now rewrite app_assoc.
    + rewrite app_length; lia.
    + intro t; rewrite <- app_assoc, T1; apply T2.
    + intros q s Hq Hs.
      destruct (app_eq_split _ _ _ _ Hq) as [[l [-> ->]]|[l [-> ->]]].
      * rewrite T1. eapply R2; eauto.
      * destruct l as [|b l].
        -- rewrite app_nil_r in *. specialize (T1 []); rewrite app_nil_r in T1.
           rewrite T1. apply (R2 [] pre2); auto.
        -- rewrite (R1 q (b :: l)); auto; discriminate.
  - intros bs e H He t.
    destruct (p bs) as [[a r1]|e'| |] eqn:Ep; try discriminate.
    + destruct (ex_ok _ _ Hp _ _ _ Ep) as (pre1 & -> & _ & T1 & _).
      rewrite <- app_assoc, T1. eapply ex_err; eauto.
    + injection H as ->. now rewrite (ex_err _ _ Hp _ _ Ep).
Qed.

Lemma exact_peek {A} k (f : N -> parser A) :
  (forall b, exact (S k) (f b)) -> exact (S k) (with_peek f).
Proof.
  intros Hf; split; unfold with_peek.
  - intros bs x rest H. destruct bs as [|b bs]; [discriminate|]; cbn [peek] in H.
    destruct (ex_ok _ _ (Hf b) _ _ _ H) as (pre & Hpre & L & T & R).
    exists pre. destruct pre as [|b' pre]; [cbn in L; lia|].
    cbn in Hpre; injection Hpre as <- ->.
    split; [reflexivity|]. split; [exact L|]. split.
    + exact T.
    + intros q s Hq Hs. destruct q as [|b' q]; [reflexivity|].
      cbn in Hq; injection Hq as <- Hq. cbn [peek].
      apply (R _ s); auto. cbn; congruence.
  - intros bs e H He t. destruct bs as [|b bs]; [cbn in H; congruence|].
    cbn [peek app] in *. apply (ex_err _ _ (Hf b) _ _ H He t).
Qed.

Lemma exact_read n : exact (N.to_nat n) (read n).
Proof.
  split; unfold read, remaining.
  - intros bs x rest H.
    destruct (N.of_nat (length bs) <? n) eqn:E; [discriminate|].
    injection H as <- <-.
    exists (firstn (N.to_nat n) bs).
    assert (L : length (firstn (N.to_nat n) bs) = N.to_nat n)
      by (rewrite firstn_length; lia).
    repeat split.
    + now rewrite firstn_skipn.
    + lia.
    + intro t. rewrite app_length, L.
      replace (_ <? _) with false by (symmetry; apply N.ltb_ge; lia).
      rewrite firstn_app, skipn_app, L, Nat.sub_diag, firstn_O, skipn_O, app_nil_r.
      rewrite (firstn_all2 (firstn _ bs)) by lia.
      rewrite skipn_all2 by lia. reflexivity.
    + intros q s Hq Hs.
      assert (length q + length s = N.to_nat n)%nat
        by (rewrite <- L, Hq, app_length; reflexivity).
      assert (length s <> 0)%nat by (destruct s; cbn; congruence).
      replace (_ <? _) with true by (symmetry; apply N.ltb_lt; lia).
      reflexivity.
  - intros bs e H He t. destruct (_ <? _); congruence.
Qed.

Lemma exact_advance n : exact (N.to_nat n) (advance n).
Proof.
  apply (exact_ext _ (read n ;;; pret tt)).
  - intro bs; unfold pbind, read, advance, pret. now destruct (_ <? _).
  - replace (N.to_nat n) with (N.to_nat n + 0)%nat by lia.
    apply exact_bind; [apply exact_read|intros; apply exact_pret].
Qed.

Lemma exact_get_le n : exact (N.to_nat n) (get_le n).
Proof.
  unfold get_le. replace (N.to_nat n) with (N.to_nat n + 0)%nat by lia.
  apply exact_bind; [apply exact_read|intros; apply exact_pret].
Qed.

(** ** [good] *)

Lemma good_weaken {A} k k' (p : parser A) : (k' <= k)%nat -> good k p -> good k' p.
Proof. intros ? []; split; auto. eapply exact_weaken; eauto. Qed.

Lemma good_ext {A} k (p q : parser A) :
  (forall bs, p bs = q bs) -> good k p -> good k q.
Proof.
  intros E []; split; try (intro bs; rewrite <- E; auto).
  eapply exact_ext; eauto.
Qed.

Lemma good_pret {A} (a : A) : good 0 (pret a).
Proof. split; [apply exact_pret|discriminate|discriminate]. Qed.

Lemma good_pfail {A} k e : good k (@pfail A e).
Proof. split; [apply exact_pfail|discriminate|discriminate]. Qed.

Lemma good_plift {A} (r : res A) : r <> Panic -> r <> OutOfFuel -> good 0 (plift r).
Proof.
  intros; split; [apply exact_plift| |]; intros bs H'; destruct r; cbn in H'; congruence.
Qed.

Lemma good_bind {A B} k1 k2 (p : parser A) (f : A -> parser B) :
  good k1 p -> (forall a, good k2 (f a)) -> good (k1 + k2) (pbind p f).
Proof.
  intros Hp Hf; split.
  - apply exact_bind; [apply Hp|intro; apply Hf].
  - intros bs H; unfold pbind in H.
    destruct (p bs) as [[a r]|e| |] eqn:E; try discriminate.
    + now apply (gd_nopanic _ _ (Hf a)) in H.
    + now apply (gd_nopanic _ _ Hp) in E.
  - intros bs H; unfold pbind in H.
    destruct (p bs) as [[a r]|e| |] eqn:E; try discriminate.
    + now apply (gd_nofuel _ _ (Hf a)) in H.
    + now apply (gd_nofuel _ _ Hp) in E.
Qed.

(** [good 0] and [good 1] versions used by the automation. *)
Lemma good_bind_l {A B} k (p : parser A) (f : A -> parser B) :
  good k p -> (forall a, good 0 (f a)) -> good k (pbind p f).
Proof. intros; replace k with (k + 0)%nat by lia; apply good_bind; auto. Qed.

Lemma good_bind_r {A B} k (p : parser A) (f : A -> parser B) :
  good 0 p -> (forall a, good k (f a)) -> good k (pbind p f).
Proof. intros; change k with (0 + k)%nat; apply good_bind; auto. Qed.

Lemma good_peek {A} k (f : N -> parser A) :
  (forall b, good (S k) (f b)) -> good (S k) (with_peek f).
Proof.
  intros Hf; split.
  - apply exact_peek; intro; apply Hf.
  - intros [|b bs]; cbn; [discriminate|apply Hf].
  - intros [|b bs]; cbn; [discriminate|apply Hf].
Qed.

Lemma good_read n : good (N.to_nat n) (read n).
Proof. split; [apply exact_read| |]; intros bs; unfold read; destruct (_ <? _); discriminate. Qed.

Lemma good_advance n : good (N.to_nat n) (advance n).
Proof. split; [apply exact_advance| |]; intros bs; unfold advance; destruct (_ <? _); discriminate. Qed.

Lemma good_get_le n : good (N.to_nat n) (get_le n).
Proof.
  replace (N.to_nat n) with (N.to_nat n + 0)%nat by lia.
  apply good_bind; [apply good_read|intros; apply good_pret].
Qed.

Lemma good_if {A} k (b : bool) (p q : parser A) :
  good k p -> good k q -> good k (if b then p else q).
Proof. now destruct b. Qed.

(** ** Fuelled families *)

Definition fuel_mono {A} (P : nat -> parser A) : Prop :=
  forall f f' bs, (f <= f')%nat -> P f bs <> OutOfFuel -> P f' bs = P f bs.

Lemma fuel_mono_agree {A} (P : nat -> parser A) f f' bs :
  fuel_mono P -> P f bs <> OutOfFuel -> P f' bs <> OutOfFuel -> P f bs = P f' bs.
Proof.
  intros M H H'. destruct (Nat.le_ge_cases f f').
  - symmetry; apply M; auto.
  - apply M; auto.
Qed.

(** A family that is exact at each fuel, monotone, and total when the fuel
    exceeds the input length is good when run with that fuel. *)
Lemma family_good {A} k (P : nat -> parser A) :
  (forall f, exact k (P f)) -> fuel_mono P ->
  (forall f bs, (length bs < f)%nat -> P f bs <> OutOfFuel) ->
  (forall f bs, P f bs <> Panic) ->
  good k (fun bs => P (S (length bs)) bs).
Proof.
  intros E M T NP; split; [split| |].
  - intros bs x rest H.
    destruct (ex_ok _ _ (E _) _ _ _ H) as (pre & Hpre & L & Tt & R).
    exists pre; repeat split; auto.
    + intro t. rewrite <- (Tt t). apply fuel_mono_agree; auto.
      rewrite Tt; discriminate.
    + intros q s Hq Hs. rewrite <- (R q s Hq Hs). apply fuel_mono_agree; auto.
      rewrite (R q s Hq Hs); discriminate.
  - intros bs e H He t.
    rewrite <- (ex_err _ _ (E _) _ _ H He t). apply fuel_mono_agree; auto.
    rewrite (ex_err _ _ (E _) _ _ H He t); discriminate.
  - intro bs; apply NP.
  - intro bs; apply T; lia.
Qed.

(** The remaining input after success is shorter by at least [k]. *)
Lemma exact_shrinks {A} k (p : parser A) bs x rest :
  exact k p -> p bs = Ok (x, rest) -> (length rest + k <= length bs)%nat.
Proof.
  intros E H; destruct (ex_ok _ _ E _ _ _ H) as (pre & -> & L & _).
  rewrite app_length; lia.
Qed.

(** ** [rep] *)

Lemma rep_fuel_exact {A} (p : parser A) f n : exact 0 p -> exact 0 (rep_fuel p f n).
Proof.
  intro E; revert n; induction f as [|f IH]; intro n; cbn [rep_fuel].
  - destruct (n =? 0); [apply exact_pret|apply exact_oof].
  - destruct (n =? 0); [apply exact_pret|].
    change 0%nat with (0 + (0 + 0))%nat.
    apply exact_bind; auto. intro; apply exact_bind; auto. intro; apply exact_pret.
Qed.

(** Congruence for monotonicity: [refines r r'] = [r'] agrees with [r] unless
    [r] ran out of fuel. *)
Definition refines {A} (r r' : res A) : Prop := r <> OutOfFuel -> r' = r.

Lemma refines_bind {A B} (p p' : parser A) (f f' : A -> parser B) bs :
  refines (p bs) (p' bs) -> (forall a r, refines (f a r) (f' a r)) ->
  refines (pbind p f bs) (pbind p' f' bs).
Proof.
  intros H1 H2 H; unfold pbind in *.
  destruct (p bs) as [[a r]|e| |] eqn:E; try (now rewrite H1).
  rewrite H1 by discriminate. apply H2; auto.
Qed.

Lemma refines_refl {A} (r : res A) : refines r r.
Proof. intro; reflexivity. Qed.

(** Both the fuel and the body may grow. *)
Lemma rep_fuel_refines {A} (p p' : parser A) f f' n bs :
  (forall bs, refines (p bs) (p' bs)) -> (f <= f')%nat ->
  refines (rep_fuel p f n bs) (rep_fuel p' f' n bs).
Proof.
  intro Hp; revert f' n bs; induction f as [|f IH]; intros f' n bs L.
  - destruct f'; cbn [rep_fuel]; destruct (n =? 0); try apply refines_refl;
      intro H; congruence.
  - destruct f' as [|f']; [lia|]. cbn [rep_fuel].
    destruct (n =? 0); [apply refines_refl|].
    apply refines_bind; [apply Hp|]. intros a r.
    apply refines_bind; [apply IH; lia|]. intros; apply refines_refl.
Qed.

Lemma rep_fuel_mono {A} (p : parser A) n : fuel_mono (fun f => rep_fuel p f n).
Proof.
  intros f f' bs L H. apply (rep_fuel_refines p p f f' n bs); auto.
  intros; apply refines_refl.
Qed.

Lemma rep_fuel_total {A} (p : parser A) f n bs :
  exact 1 p -> (forall bs', (length bs' <= length bs)%nat -> p bs' <> OutOfFuel) ->
  (length bs < f)%nat -> rep_fuel p f n bs <> OutOfFuel.
Proof.
  intro E; revert n bs; induction f as [|f IH]; intros n bs T L; [lia|].
  cbn [rep_fuel]. destruct (n =? 0); [discriminate|].
  unfold pbind. destruct (p bs) as [[a r]|e| |] eqn:Ep; try discriminate.
  - pose proof (exact_shrinks _ _ _ _ _ E Ep).
    specialize (IH (n - 1) r).
    destruct (rep_fuel p f (n - 1) r) as [[xs r']|e| |] eqn:Er; try discriminate.
    intros _. apply IH; auto; try lia. intros; apply T; lia.
  - exfalso; apply (T bs); auto.
Qed.

Lemma rep_fuel_nopanic {A} (p : parser A) f n bs :
  (forall bs, p bs <> Panic) -> rep_fuel p f n bs <> Panic.
Proof.
  intro T; revert n bs; induction f as [|f IH]; intros n bs; cbn [rep_fuel];
    destruct (n =? 0); try discriminate.
  unfold pbind. destruct (p bs) as [[a r]|e| |] eqn:Ep; try discriminate.
  - specialize (IH (n - 1) r). destruct (rep_fuel p f (n - 1) r) as [[xs r']|e| |];
      try discriminate; congruence.
  - exfalso; apply (T bs); auto.
Qed.

Lemma good_rep {A} (p : parser A) n : good 1 p -> good 0 (rep n p).
Proof.
  intro G. unfold rep. apply (family_good 0 (fun f => rep_fuel p f n)).
  - intro; apply rep_fuel_exact. eapply exact_weaken; [|apply G]; lia.
  - apply rep_fuel_mono.
  - intros f bs L. apply rep_fuel_total; auto; [apply G|intros; apply G].
  - intros; apply rep_fuel_nopanic; apply G.
Qed.

(** ** [until] *)

Lemma until_fuel_exact {A} fin fp (body : A -> parser A) f s :
  exact 1 fp -> (forall s, exact 1 (body s)) -> exact 1 (until_fuel fin fp body f s).
Proof.
  intros Ef Eb; revert s; induction f as [|f IH]; intro s; cbn [until_fuel].
  - apply exact_oof.
  - apply exact_peek; intro b; destruct (fin b).
    + change 1%nat with (1 + 0)%nat. apply exact_bind; auto. intro; apply exact_pret.
    + apply (exact_weaken 2); [lia|]. change 2%nat with (1 + 1)%nat.
      apply exact_bind; auto.
Qed.

Lemma until_fuel_mono {A} fin fp (body : A -> parser A) s :
  fuel_mono (fun f => until_fuel fin fp body f s).
Proof.
  intros f; revert s; induction f as [|f IH]; intros s f' bs L H.
  - exfalso; apply H; reflexivity.
  - destruct f' as [|f']; [lia|]. cbn [until_fuel] in *. unfold with_peek in *.
    destruct bs as [|b bs]; cbn [peek] in *; [reflexivity|].
    destruct (fin b); [reflexivity|]. unfold pbind in *.
    destruct (body s (b :: bs)) as [[s' r]|e| |]; try reflexivity.
    apply (IH s' f' r); [lia|]. exact H.
Qed.

Lemma until_fuel_total {A} fin fp (body : A -> parser A) f s bs :
  good 1 fp -> (forall s, good 1 (body s)) ->
  (length bs < f)%nat -> until_fuel fin fp body f s bs <> OutOfFuel.
Proof.
  intros Gf Gb; revert s bs; induction f as [|f IH]; intros s bs L; [lia|].
  cbn [until_fuel]. unfold with_peek.
  destruct bs as [|b bs]; cbn [peek]; [discriminate|].
  destruct (fin b); unfold pbind.
  - destruct (fp (b :: bs)) as [[u r]|e| |] eqn:E; try discriminate.
    now apply Gf in E.
  - destruct (body s (b :: bs)) as [[s' r]|e| |] eqn:E; try discriminate.
    + apply IH. pose proof (exact_shrinks _ _ _ _ _ (gd_exact _ _ (Gb s)) E). lia.
    + now apply Gb in E.
Qed.

Lemma until_fuel_nopanic {A} fin fp (body : A -> parser A) f s bs :
  good 1 fp -> (forall s, good 1 (body s)) -> until_fuel fin fp body f s bs <> Panic.
Proof.
  intros Gf Gb; revert s bs; induction f as [|f IH]; intros s bs; cbn [until_fuel];
    [discriminate|].
  unfold with_peek. destruct bs as [|b bs]; cbn [peek]; [discriminate|].
  destruct (fin b); unfold pbind.
  - destruct (fp (b :: bs)) as [[u r]|e| |] eqn:E; try discriminate.
    now apply Gf in E.
  - destruct (body s (b :: bs)) as [[s' r]|e| |] eqn:E; try discriminate.
    + apply IH.
    + now apply Gb in E.
Qed.

Lemma good_until {A} fin fp (body : A -> parser A) s :
  good 1 fp -> (forall s, good 1 (body s)) -> good 1 (until fin fp body s).
Proof.
  intros Gf Gb. unfold until.
  apply (family_good 1 (fun f => until_fuel fin fp body f s)).
  - intro; apply until_fuel_exact; [apply Gf|intro; apply Gb].
  - apply until_fuel_mono.
  - intros; apply until_fuel_total; auto.
  - intros; apply until_fuel_nopanic; auto.
Qed.

(** Unfolding equations that hide the fuel. *)
Lemma rep_0 {A} (p : parser A) bs : rep 0 p bs = Ok ([], bs).
Proof. reflexivity. Qed.

Lemma rep_S {A} (p : parser A) n bs x r :
  good 1 p -> p bs = Ok (x, r) ->
  rep (n + 1) p bs =
    match rep n p r with
    | Ok (xs, r') => Ok (x :: xs, r')
    | Err e => Err e | Panic => Panic | OutOfFuel => OutOfFuel
    end.
Proof.
  intros G Hp. unfold rep at 1; cbn [rep_fuel].
  replace (n + 1 =? 0) with false by (symmetry; apply N.eqb_neq; lia).
  unfold pbind; rewrite Hp. replace (n + 1 - 1) with n by lia.
  pose proof (exact_shrinks _ _ _ _ _ (gd_exact _ _ G) Hp).
  replace (rep_fuel p (length bs) n r) with (rep n p r); [reflexivity|].
  unfold rep. apply (fuel_mono_agree (fun f => rep_fuel p f n)).
  - apply rep_fuel_mono.
  - apply rep_fuel_total; [apply G|intros; apply G|lia].
  - apply rep_fuel_total; [apply G|intros; apply G|lia].
Qed.

Lemma until_step {A} fin fp (body : A -> parser A) s s' b bs r :
  good 1 fp -> (forall s, good 1 (body s)) ->
  fin b = false -> body s (b :: bs) = Ok (s', r) ->
  until fin fp body s (b :: bs) = until fin fp body s' r.
Proof.
  intros Gf Gb Hf Hb. unfold until at 1; cbn [until_fuel].
  unfold with_peek; cbn [peek]; rewrite Hf. unfold pbind; rewrite Hb.
  pose proof (exact_shrinks _ _ _ _ _ (gd_exact _ _ (Gb s)) Hb).
  unfold until. apply (fuel_mono_agree (fun f => until_fuel fin fp body f s')).
  - apply until_fuel_mono.
  - apply until_fuel_total; auto; lia.
  - apply until_fuel_total; auto; lia.
Qed.

Lemma until_stop {A} fin fp (body : A -> parser A) s b bs r :
  fin b = true -> fp (b :: bs) = Ok (tt, r) ->
  until fin fp body s (b :: bs) = Ok (s, r).
Proof.
  intros Hf Hp. unfold until; cbn [until_fuel].
  unfold with_peek; cbn [peek]; rewrite Hf. unfold pbind; rewrite Hp; reflexivity.
Qed.
