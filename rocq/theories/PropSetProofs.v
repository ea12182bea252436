(** Totality and self-delimitation of the property-set parsers. *)
From Coq Require Import Lia ZifyBool ZifyNat ZifyN.
From Verif Require Import Base BaseProofs Codec SpecCodec CodecProofs PropSet.
Ltac Zify.zify_post_hook ::= Z.div_mod_to_equations.

Lemma good_compactid : good 1 compactid_parse.
Proof. unfold compactid_parse; gd. Qed.
Lemma good_jcid : good 1 jcid_parse.
Proof. apply good_u32. Qed.
Lemma good_stream_header : good 1 stream_header_parse.
Proof. unfold stream_header_parse; gd. Qed.
Lemma good_pid : good 1 pid_parse.
Proof. apply good_u32. Qed.
Lemma good_pvec : good 1 pvec_parse.
Proof. unfold pvec_parse; gd. Qed.
#[export] Hint Resolve good_compactid good_jcid good_stream_header good_pid good_pvec : gdb.

(** Case analysis on the property type. *)
Lemma pvalue_cases (Q : parser pvalue -> Prop) ps f id :
  (forall p, good 0 p -> Q p) ->
  Q (size <- get_u32 ;; pid <- pid_parse ;; sets <- rep_fuel ps f size ;;
     pret (VPropertyValues pid sets)) ->
  Q (s <- ps ;; pret (VPropertySet s)) ->
  Q (pvalue_parse ps f id).
Proof.
  intros G V S. unfold pvalue_parse. generalize (pid_type id) as n. intros [|p].
  - apply G; gd.
  - do 5 (try destruct p as [p|p|]);
      first [exact V|exact S|apply G; solve [gd]].
Qed.

Lemma exact_pvalue ps f id : exact 0 ps -> exact 0 (pvalue_parse ps f id).
Proof.
  intro E. apply pvalue_cases.
  - intros p [H _ _]; exact H.
  - apply (exact_bind 0 0); [eapply gd_exact, (good_0 1), good_u32|intro].
    apply (exact_bind 0 0); [eapply gd_exact, (good_0 1), good_pid|intro].
    apply (exact_bind 0 0); [apply rep_fuel_exact, E|intro]. apply exact_pret.
  - apply (exact_bind 0 0); [exact E|intro]. apply exact_pret.
Qed.

Lemma exact_pvalues pv idx ids m :
  (forall id, exact 0 (pv id)) -> exact 0 (pvalues_parse pv idx ids m).
Proof.
  intro E. revert idx m; induction ids as [|i r IH]; intros idx m; cbn [pvalues_parse].
  - apply exact_pret.
  - apply (exact_bind 0 0); auto.
Qed.

Lemma exact_propset f : exact 2 (propset_fuel f).
Proof.
  induction f as [|f IH]; [apply exact_oof|]. cbn [propset_fuel].
  apply (exact_bind 2 0); [apply (exact_get_le 2)|intro].
  apply (exact_bind 0 0); [apply gd_exact, good_rep; auto with gdb|intro].
  apply exact_pvalues. intro. apply exact_pvalue. eapply exact_weaken; [|exact IH]. lia.
Qed.

Lemma refines_pvalue ps ps' f f' id bs :
  (forall bs, refines (ps bs) (ps' bs)) -> (f <= f')%nat ->
  refines (pvalue_parse ps f id bs) (pvalue_parse ps' f' id bs).
Proof.
  intros H L. unfold pvalue_parse. generalize (pid_type id) as n. intros [|p].
  - apply refines_refl.
  - do 5 (try destruct p as [p|p|]); try apply refines_refl.
    + apply refines_bind; [apply H|]. intros; apply refines_refl.
    + apply refines_bind; [apply refines_refl|]. intros.
      apply refines_bind; [apply refines_refl|]. intros.
      apply refines_bind; [apply rep_fuel_refines; auto|]. intros; apply refines_refl.
Qed.

Lemma refines_pvalues pv pv' idx ids m bs :
  (forall id bs, refines (pv id bs) (pv' id bs)) ->
  refines (pvalues_parse pv idx ids m bs) (pvalues_parse pv' idx ids m bs).
Proof.
  intro H. revert idx m bs; induction ids as [|i r IH]; intros idx m bs; cbn [pvalues_parse].
  - apply refines_refl.
  - apply refines_bind; auto.
Qed.

Lemma refines_propset f f' bs :
  (f <= f')%nat -> refines (propset_fuel f bs) (propset_fuel f' bs).
Proof.
  revert f' bs; induction f as [|f IH]; intros f' bs L.
  - intro H. now destruct (H eq_refl).
  - destruct f' as [|f']; [lia|]. cbn [propset_fuel].
    apply refines_bind; [apply refines_refl|]. intros.
    apply refines_bind; [apply refines_refl|]. intros.
    apply refines_pvalues. intros. apply refines_pvalue; [|lia]. intro. apply IH. lia.
Qed.

Lemma mono_propset : fuel_mono propset_fuel.
Proof. intros f f' bs L H. now apply refines_propset. Qed.

Lemma bind_total {A B} k (p : parser A) (g : A -> parser B) bs :
  exact k p -> p bs <> OutOfFuel ->
  (forall a r, (length r + k <= length bs)%nat -> g a r <> OutOfFuel) ->
  pbind p g bs <> OutOfFuel.
Proof.
  intros E T H. unfold pbind. destruct (p bs) as [[a r]|e| |] eqn:Ep; try easy.
  apply H. eapply exact_shrinks; eauto.
Qed.

Lemma total_pvalue ps f id bs :
  exact 1 ps -> (forall bs', (length bs' <= length bs)%nat -> ps bs' <> OutOfFuel) ->
  (length bs < f)%nat -> pvalue_parse ps f id bs <> OutOfFuel.
Proof.
  intros E T L.
  apply (pvalue_cases (fun p => p bs <> OutOfFuel)).
  - intros p [_ _ H]; apply H.
  - apply (bind_total 1); [apply good_u32|apply good_u32|]. intros ? r Hr.
    apply (bind_total 1); [apply good_pid|apply good_pid|]. intros ? r' Hr'.
    apply (bind_total 0); [| |easy].
    + apply rep_fuel_exact. eapply exact_weaken; [|exact E]; lia.
    + apply rep_fuel_total; auto; [|lia]. intros. apply T; lia.
  - apply (bind_total 1); [auto|apply T; lia|]. easy.
Qed.

Lemma total_pvalues pv idx ids m bs :
  (forall id, exact 0 (pv id)) ->
  (forall id bs', (length bs' <= length bs)%nat -> pv id bs' <> OutOfFuel) ->
  pvalues_parse pv idx ids m bs <> OutOfFuel.
Proof.
  intro E. revert idx m bs; induction ids as [|i r IH]; intros idx m bs T; cbn [pvalues_parse].
  - easy.
  - apply (bind_total 0); auto. intros. apply IH. intros. apply T. lia.
Qed.

Lemma total_propset f bs : (length bs < f)%nat -> propset_fuel f bs <> OutOfFuel.
Proof.
  revert bs; induction f as [|f IH]; intros bs L; [lia|]. cbn [propset_fuel].
  apply (bind_total 1); [apply good_u16|apply good_u16|]. intros c r Hr.
  apply (bind_total 0); [apply gd_exact, good_rep; auto with gdb
                        |apply gd_nofuel with (k := 0%nat), good_rep; auto with gdb|].
  intros ids r' Hr'. apply total_pvalues.
  - intro. apply exact_pvalue. eapply exact_weaken; [|apply exact_propset]. lia.
  - intros. apply total_pvalue.
    + eapply exact_weaken; [|apply exact_propset]. lia.
    + intros. apply IH. lia.
    + lia.
Qed.

Lemma bind_nopanic {A B} (p : parser A) (g : A -> parser B) bs :
  p bs <> Panic -> (forall a r, g a r <> Panic) -> pbind p g bs <> Panic.
Proof. intros T H. unfold pbind. destruct (p bs) as [[a r]|e| |]; easy. Qed.

Lemma nopanic_propset f bs : propset_fuel f bs <> Panic.
Proof.
  revert bs; induction f as [|f IH]; intro bs; [easy|]. cbn [propset_fuel].
  apply bind_nopanic; [apply good_u16|]. intros c r.
  apply bind_nopanic; [apply gd_nopanic with (k := 0%nat), good_rep; auto with gdb|].
  intros ids r'. clear bs c r. revert r'. generalize 0 as idx. generalize (@nil (N * (N * pvalue))) as m.
  induction ids as [|i ids IHi]; intros m idx r; cbn [pvalues_parse]; [easy|].
  apply bind_nopanic; [|intros; apply IHi].
  apply (pvalue_cases (fun p => p r <> Panic)).
  - intros p [_ H _]; apply H.
  - apply bind_nopanic; [apply good_u32|]. intros.
    apply bind_nopanic; [apply good_pid|]. intros.
    apply bind_nopanic; [apply rep_fuel_nopanic, IH|]. easy.
  - apply bind_nopanic; [apply IH|]. easy.
Qed.

Lemma good_propset2 : good 2 propset_parse.
Proof.
  apply (family_good 2 propset_fuel).
  - apply exact_propset.
  - apply mono_propset.
  - apply total_propset.
  - apply nopanic_propset.
Qed.
Lemma good_propset : good 1 propset_parse.
Proof. eapply good_weaken; [|apply good_propset2]. lia. Qed.
#[export] Hint Resolve good_propset : gdb.

Lemma good_oprops : good 1 oprops_parse.
Proof. unfold oprops_parse; gd. Qed.
#[export] Hint Resolve good_oprops : gdb.
