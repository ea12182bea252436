From Coq Require Import Lia.
From Verif Require Import Base Codec SpecCodec Package PropSet Store SpecStore Props Nodes SpecNodes Doc SpecDoc Notebook SpecNotebook SpecOthers
  NodesProofs DocProofs NotebookProofs NotebookProofs2 NotebookProofs3 OnceProofs.
Local Open Scope nat_scope.

Section Others.
  Variables (sanitise : name -> name) (h : order) (Q : path -> Prop) (fs fs' : filesystem).
  Hypothesis dec : forall p, Q p \/ ~ Q p.
  Hypothesis but : same_but Q fs fs'.
  Hypothesis tocs : no_tocs Q.
  Notation diff := (differs h Q fs fs').
  Lemma diff_same es : Forall2 diff es es. Proof. induction es; constructor; auto. apply df_same. Qed.
  Lemma others_resolve base e : resolve_entry_path sanitise fs base e = resolve_entry_path sanitise fs' base e.
  Proof.
    destruct but as (B & _). unfold resolve_entry_path. destruct (is_absolute e); [reflexivity|].
    destruct (sanitize_components _ _) as [[|c cs]| | |]; try reflexivity. cbn [rbind]. set (q := base ++ c :: cs).
    destruct (B q) as (-> & _ & -> & _). destruct (B base) as (_ & _ & -> & _). reflexivity.
  Qed.
  Lemma others_paths base names : map_res (resolve_entry_path sanitise fs base) names = map_res (resolve_entry_path sanitise fs' base) names.
  Proof. apply map_res_ext_in. intros; apply others_resolve. Qed.
  Lemma others_shown ps : shown_paths fs ps = shown_paths fs' ps.
  Proof. unfold shown_paths. f_equal. apply filter_ext_in2. intros p _. apply (proj1 but). Qed.
  Lemma others_only fuel d : forall p nb nb', ~ Q p ->
    parse_notebook sanitise h d fuel fs p = Ok nb -> parse_notebook sanitise h d fuel fs' p = Ok nb' ->
    nb_color nb = nb_color nb' /\ Forall2 diff (nb_entries nb) (nb_entries nb').
  Proof.
    destruct but as (B & R).
    induction d as [|d IH]; intros p nb nb' Hq H H'; [discriminate H|]. rewrite notebook_step in H, H'. rewrite <- (R p Hq) in H'.
    apply bind_ok in H as (bs & Hb & H). rewrite Hb in H'. cbn [rbind] in H'. apply bind_ok in H as (st & Hs & H). rewrite Hs in H'. cbn [rbind] in H'.
    destruct (N.eqb (st_schema st) toc_schema) eqn:E; [|discriminate H].
    apply bind_ok in H as (base & Hp & H). rewrite Hp in H'. cbn [rbind] in H'.
    apply bind_ok in H as ((names & color) & Ht & H). rewrite Ht in H'. cbn [rbind] in H'.
    apply bind_ok in H as (ps & Hps & H). rewrite <- others_paths, Hps in H'. cbn [rbind] in H'. rewrite <- others_shown in H'.
    apply bind_ok in H as (es & Hes & H). injection H as <-. apply bind_ok in H' as (es' & Hes' & H'). injection H' as <-.
    cbn [nb_entries nb_color]. split; [reflexivity|]. clear - IH Hes Hes' B R dec tocs. revert es es' Hes Hes'.
    induction (shown_paths fs ps) as [|q qs IHl]; intros es es' H H'; cbn [map_res] in *; [injection H as <-; injection H' as <-; constructor|].
    apply bind_ok in H as (e & He & H). apply bind_ok in H as (es1 & Hes & H). injection H as <-.
    apply bind_ok in H' as (e' & He' & H'). apply bind_ok in H' as (es1' & Hes' & H'). injection H' as <-.
    constructor; [|now apply IHl]. clear IHl Hes Hes'. unfold load_entry in He, He'. destruct (B q) as (_ & F & _ & D). rewrite <- F in He'. rewrite <- D in He'.
    destruct (fs_is_file fs q).
    - apply bind_ok in He as (s & Hs & He). injection He as <-. apply bind_ok in He' as (s' & Hs' & He'). injection He' as <-.
      destruct (dec q) as [Hq|Hq].
      + apply (df_section _ _ _ _ q); [exact Hq| |]; eapply section_file_settles; eassumption.
      + rewrite (section_alike h fuel fs fs' q (R q Hq)) in Hs. assert (s = s') as -> by congruence. apply df_same.
    - apply bind_ok in He as (n & Hn & He). rewrite Hn in He'. cbn [rbind] in He'. apply bind_ok in He as (files & Hf & He). rewrite Hf in He'. cbn [rbind] in He'.
      apply bind_ok in He as (toc & Ht & He). rewrite Ht in He'. cbn [rbind] in He'.
      apply bind_ok in He as (g & Hg & He). injection He as <-. apply bind_ok in He' as (g' & Hg' & He'). injection He' as <-.
      apply df_group. eapply (IH _ g g'); eauto. apply tocs. apply find_iff in Ht as (? & ? & _ & Ht & _). exact Ht.
  Qed.
  Lemma others_readable p es c : notebook_at sanitise h fs p es c -> ~ Q p ->
    (forall q s, Q q -> section_at h fs q s -> exists s', section_at h fs' q s') ->
    exists es', notebook_at sanitise h fs' p es' c /\ Forall2 diff es es'.
  Proof.
    destruct but as (B & R). intros H Hp Hr. revert Hp.
    refine (notebook_induct sanitise h fs
      (fun q e => exists e', entry_at sanitise h fs' q e' /\ diff e e')
      (fun p es c => ~ Q p -> exists es', notebook_at sanitise h fs' p es' c /\ Forall2 diff es es') _ _ _ p es c H); clear p es c H.
    - intros q s F Hs. destruct (dec q) as [Hq|Hq].
      + destruct (Hr q s Hq Hs) as (s' & Hs'). exists (EnSection s'). split; [|now apply (df_section _ _ _ _ q)].
        apply ea_section; [|exact Hs']. now rewrite <- (proj1 (proj2 (B q))).
      + exists (EnSection s). split; [|apply df_same]. apply ea_section; [now rewrite <- (proj1 (proj2 (B q)))|].
        destruct Hs as (bs & st & base & n & Hb & Hs). exists bs, st, base, n. split; [now rewrite <- R|exact Hs].
    - intros q base n files toc es c F He Hf Ht IH. destruct IH as (es' & Hn & D); [destruct Ht as (? & ? & _ & Ht & _); now apply tocs|].
      exists (EnGroup n es'). split; [|now apply df_group]. destruct (B q) as (_ & F1 & _ & F2). apply (ea_group _ _ _ q base n files toc es' c); auto; congruence.
    - intros p bs st base last names ps shown es c Hb Ho E Hp Hl Ht Hps Hsh IH Hq.
      assert (X : exists es', Forall2 (entry_at sanitise h fs') shown es' /\ Forall2 diff es es').
      { clear - IH. induction IH as [|q e qs es (e' & He & Hd) _ (es' & H1 & H2)]; [exists []; split; constructor|].
        exists (e' :: es'). split; constructor; auto. }
      destruct X as (es' & X1 & X2). exists es'. split; [|exact X2].
      apply (na sanitise h fs' p bs st base last names ps shown es' c); auto.
      + now rewrite <- R.
      + apply (map_ok (resolve_entry_path sanitise fs base)) in Hps; [|intros; apply resolve_ok].
        rewrite others_paths in Hps. apply (map_ok _ (resolves sanitise fs' base)) in Hps; [exact Hps|intros; apply resolve_ok].
      + apply shown_iff in Hsh. apply shown_iff. now rewrite <- others_shown.
  Qed.
End Others.

Lemma path_dec (p q : path) : {p = q} + {p <> q}.
Proof. decide equality. decide equality. apply (list_eq_dec N.eq_dec). Qed.
Lemma among_dec (qs : list path) p : In p qs \/ ~ In p qs.
Proof. destruct (in_dec path_dec p qs); auto. Qed.
Lemma notebook_both sanitise h fs fs' p d d' f f' nb nb' :
  parse_notebook sanitise h d f fs p = Ok nb -> parse_notebook sanitise h d' f' fs' p = Ok nb' ->
  exists n, parse_notebook sanitise h n n fs p = Ok nb /\ parse_notebook sanitise h n n fs' p = Ok nb'.
Proof.
  intros H H'. apply notebook_sound, notebook_complete in H as (k & Hk), H' as (k' & Hk'). exists (k + k').
  rewrite Hk, Hk' by lia. now destruct nb, nb'.
Qed.
Lemma only sanitise h qs fs fs' p d d' f f' nb nb' : same_but (among qs) fs fs' -> no_tocs (among qs) -> ~ In p qs ->
  parse_notebook sanitise h d f fs p = Ok nb -> parse_notebook sanitise h d' f' fs' p = Ok nb' ->
  nb_color nb' = nb_color nb /\ Forall2 (differs h (among qs) fs fs') (nb_entries nb) (nb_entries nb').
Proof.
  intros Hb Ht Hp H H'. destruct (notebook_both _ _ _ _ _ _ _ _ _ _ _ H H') as (n & E & E').
  destruct (others_only sanitise h (among qs) fs fs' (among_dec qs) Hb Ht n n p nb nb' Hp E E') as (C & D). now rewrite C.
Qed.
Lemma stays_readable sanitise h qs fs fs' p d f nb : same_but (among qs) fs fs' -> no_tocs (among qs) -> ~ In p qs ->
  parse_notebook sanitise h d f fs p = Ok nb ->
  (forall q s, In q qs -> section_at h fs q s -> exists s', section_at h fs' q s') ->
  exists d' f' nb', parse_notebook sanitise h d' f' fs' p = Ok nb'.
Proof.
  intros Hb Ht Hp H Hr. apply notebook_sound in H.
  destruct (others_readable sanitise h (among qs) fs fs' (among_dec qs) Hb Ht _ _ _ H Hp Hr) as (es' & Hn & _).
  apply notebook_iff in Hn as (d' & f' & Hn). eauto.
Qed.
Section DiffersInd.
  Variables (h : order) (Q : path -> Prop) (fs fs' : filesystem).
  Hypothesis none : forall q s, Q q -> ~ section_at h fs' q s.
  Fixpoint differs_eq e e' (H : differs h Q fs fs' e e') {struct H} : e = e' :=
    match H in differs _ _ _ _ e e' return e = e' with
    | df_same _ _ _ _ e => eq_refl
    | df_section _ _ _ _ q s s' Hq _ Hs => match none q s' Hq Hs with end
    | df_group _ _ _ _ n es es' F =>
      f_equal (EnGroup n) ((fix go l l' (F : Forall2 (differs h Q fs fs') l l') : l = l' :=
        match F with
        | Forall2_nil _ => eq_refl
        | @Forall2_cons _ _ _ a b l l' Hab F' => f_equal2 cons (differs_eq a b Hab) (go l l' F')
        end) es es' F)
    end.
End DiffersInd.
Lemma all_or_nothing sanitise h qs fs fs' p d d' f f' nb nb' : same_but (among qs) fs fs' -> no_tocs (among qs) -> ~ In p qs ->
  (forall q s, In q qs -> ~ section_at h fs' q s) ->
  parse_notebook sanitise h d f fs p = Ok nb -> parse_notebook sanitise h d' f' fs' p = Ok nb' -> nb = nb'.
Proof.
  intros Hb Ht Hp Hn H H'. destruct (only _ _ _ _ _ _ _ _ _ _ _ _ Hb Ht Hp H H') as (C & F). destruct nb as [es c], nb' as [es' c'].
  cbn in *. subst c'. f_equal. clear - F Hn. induction F as [|e e' es es' He F IH]; [reflexivity|]. f_equal; [|exact IH].
  exact (differs_eq h (among qs) fs fs' Hn e e' He).
Qed.
