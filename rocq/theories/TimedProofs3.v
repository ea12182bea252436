(** Reading during changes: what does not matter, links, crashes, termination. *)
From Coq Require Import Lia ZifyBool ZifyNat ZifyN.
From Verif Require Import Base Codec SpecCodec Package PropSet Store SpecStore Props Nodes SpecNodes Doc SpecDoc Notebook SpecNotebook
  NodesProofs NodesProofs3 DocProofs DocProofs5 NotebookProofs NotebookProofs2 NotebookProofs3 Timed SpecTimed TimedProofs TimedProofs2.
Local Open Scope nat_scope.

Lemma elsewhere sanitise h w w' t d fuel p base last : ends_in p base last -> last <> RootDir ->
  (forall t, fs_read (w t) p = fs_read (w' t) p) ->
  (forall t ns q, about_path q = base ++ map Normal ns -> reply (w t) q = reply (w' t) q) ->
  run_io w' t (io_notebook sanitise h d fuel p) = run_io w t (io_notebook sanitise h d fuel p).
Proof.
  intros Hp Hl H1 H2. apply run_answers. intros i q Hq. apply nth_error_In in Hq.
  destruct (inside _ _ _ _ _ _ _ _ _ _ Hp Hl Hq) as [->|(ns & E & _)]; [apply H1|now apply (H2 _ ns)].
Qed.
Lemma unchanged sanitise h w t d fuel p fs :
  (forall i q, nth_error (asked w t (io_notebook sanitise h d fuel p)) i = Some q -> reply (w (t + i)) q = reply fs q) ->
  run_io w t (io_notebook sanitise h d fuel p) = parse_notebook sanitise h d fuel fs p.
Proof. intros H. rewrite (quiet w _ fs t H). apply still_notebook. Qed.
Lemma stands_still sanitise h fs t d fuel p :
  run_io (fun _ => fs) t (io_notebook sanitise h d fuel p) = parse_notebook sanitise h d fuel fs p.
Proof. apply unchanged. reflexivity. Qed.

(** ** Links *)
Section Links.
  Variables (sanitise : name -> name) (h : order) (w : world) (fuel : nat) (base p0 : path) (canon : path -> option path).
  Hypothesis fixed : forall t q, fs_canonicalize (w t) q = canon q.
  Hypothesis there : forall t q, canon q <> None -> fs_exists (w t) q = true.
  Definition held (q : path) : Prop := forall cp, canon q = Some cp -> exists cb, canon base = Some cb /\ below_path cp cb.
  Definition toc_path (q : path) : Prop := exists dir n, ends_in q dir (Normal n) /\ toc_name n.
  Definition read_ok (q : query) : Prop := match q with QRead q => q = p0 \/ toc_path q \/ held q | _ => True end.
  Notation al := (along w (fun _ q => read_ok q)).
  Lemma held_resolve b e t : held b -> al held t (io_resolve sanitise b e).
  Proof.
    intros Hb. split.
    - intros i q Hq. unfold io_resolve in Hq. destruct (is_absolute e); [now destruct i|]. rewrite asked_done_bind in Hq.
      destruct (sanitize_components sanitise (components e)) as [[|c cs]| | |]; try (now destruct i). rewrite asked_ask_bind in Hq.
      destruct i as [|i]; [injection Hq as <-; exact I|]. cbn [nth_error reply] in Hq. destruct (fs_exists _ _); [|now destruct i].
      rewrite asked_ask_bind in Hq. destruct i as [|i]; [injection Hq as <-; exact I|]. cbn [nth_error reply] in Hq. rewrite asked_done_bind in Hq.
      destruct (ok_or _ _); try (now destruct i). rewrite asked_ask_bind in Hq. destruct i as [|i]; [injection Hq as <-; exact I|].
      cbn [nth_error] in Hq. rewrite asked_done_bind in Hq. destruct (ok_or _ _); try (now destruct i). destruct (starts_with _ _); now destruct i.
    - intros q Hq.
      assert (S : resolves_seen sanitise w t (t + steps_of w t (io_resolve sanitise b e)) b e q).
      { apply seen_resolve with (t := t). split; [apply le_n|split; [apply le_n|exact Hq]]. }
      destruct S as (ws & ns & _ & _ & _ & _ & _ & -> & [(t' & _ & F)|(cb & cp & (t1 & _ & F1) & (t2 & _ & F2) & Hbl)]).
      + intros cp Hc. rewrite there in F by congruence. discriminate F.
      + rewrite fixed in F1, F2. intros cp' Hc. rewrite F2 in Hc. injection Hc as <-. destruct (Hb cb F1) as (x & Hx & Hy).
        exists x. split; [exact Hx|]. eapply below_trans; eauto.
  Qed.
  Lemma held_notebook d : forall t p b, parent p = Some b -> held b -> (p = p0 \/ toc_path p) ->
    al (fun _ => True) t (io_notebook sanitise h d fuel p).
  Proof.
    induction d as [|d IH]; intros t p b Hp Hb Hq; [now apply along_done|]. rewrite io_step.
    eapply (along_bind w _ (fun _ => True)); [apply along_ask; [destruct Hq as [->|Hq]; [now left|right; now left]|exact I]|]. intros x t1 _ _.
    unfold io_rest. eapply (along_bind w _ (fun _ => True)); [now apply along_done|]. intros bs t2 _ _.
    eapply (along_bind w _ (fun _ => True)); [now apply along_done|]. intros st t3 _ _. destruct (N.eqb _ _); [|now apply along_done].
    rewrite Hp. cbn [ok_or]. rewrite ibind_done_ok. eapply (along_bind w _ (fun _ => True)); [now apply along_done|]. intros (names, c) t4 _ _.
    eapply (along_bind w _ (Forall held)); [apply along_map; intros; now apply held_resolve|]. intros ps t5 _ F.
    eapply (along_bind w _ (fun _ => True)); [|intros; now apply along_done].
    eapply along_entries; [exact F|intros; exact I|]. intros q t6 _ Hh. unfold io_entry.
    eapply (along_bind w _ (fun _ => True)); [apply along_ask; exact I|]. intros f t7 _ _. destruct f.
    - eapply (along_bind w _ (fun _ => True)); [|intros; now apply along_done]. destruct (section_run h w fuel t7 q) as (_ & E).
      split; [|auto]. intros i q' Hi. rewrite E in Hi. destruct i as [|[|i]]; try discriminate Hi. injection Hi as <-. right. now right.
    - eapply (along_bind w _ (fun _ => True)); [now apply along_done|]. intros n t8 _ _.
      eapply (along_bind w _ (fun _ => True)); [apply along_ask; exact I|]. intros dir t9 _ _.
      eapply (along_bind w _ (fun _ => True)); [now apply along_done|]. intros files t10 _ _.
      eapply (along_bind w _ toc_name); [apply along_done; intros toc Ht; now apply find_iff in Ht as (? & ? & _ & Ht & _)|]. intros toc t11 _ Ht.
      eapply along_bind; [|intros; now apply along_done]. apply (IH _ _ q); [apply parent_snoc; discriminate|exact Hh|].
      right. exists q, toc. split; [reflexivity|exact Ht].
  Qed.
End Links.
Lemma links_fixed sanitise h w t d fuel p base last canon q cp : ends_in p base last -> last <> RootDir ->
  (forall t q, fs_canonicalize (w t) q = canon q) -> (forall t q, canon q <> None -> fs_exists (w t) q = true) ->
  In (QRead q) (asked w t (io_notebook sanitise h d fuel p)) -> canon q = Some cp ->
  q = p \/ (exists dir n, ends_in q dir (Normal n) /\ toc_name n) \/ exists cb, canon base = Some cb /\ below_path cp cb.
Proof.
  intros -> Hl Hf Ht Hq Hc.
  assert (R : read_ok base (base ++ [last]) canon (QRead q)).
  { eapply (along_in w (read_ok base (base ++ [last]) canon) (fun _ => True)); [|exact Hq].
    apply held_notebook with (b := base); auto; [now apply parent_snoc|]. intros cp' E. exists cp'. split; [exact E|]. exists []. now rewrite app_nil_r. }
  destruct R as [->|[R|R]]; auto.
Qed.

(** ** Crashes and termination *)
Lemma crash_io {A B} w t (m : io A) (f : A -> io B) : run_io w t (ibind m f) = Panic ->
  run_io w t m = Panic \/ exists x t', run_io w t m = Ok x /\ run_io w t' (f x) = Panic.
Proof. rewrite run_bind. intros H. apply crash_bind in H as [H|(x & Hx & H)]; eauto. Qed.
Lemma fuel_io {A B} w t (m : io A) (f : A -> io B) : run_io w t (ibind m f) = OutOfFuel ->
  run_io w t m = OutOfFuel \/ exists x t', run_io w t m = Ok x /\ run_io w t' (f x) = OutOfFuel.
Proof. rewrite run_bind. intros H. apply fuel_bind in H as [H|(x & Hx & H)]; eauto. Qed.
Lemma resolve_returns sanitise w t b e : returns (run_io w t (io_resolve sanitise b e)).
Proof.
  unfold io_resolve. destruct (is_absolute e); [exact I|]. rewrite run_done_bind.
  destruct (sanitize_err sanitise (components e)) as [->|([|c q] & ->)]; try exact I. cbn [rbind]. rewrite run_ask_bind. cbn [reply].
  destruct (fs_exists _ _); [|exact I]. rewrite run_ask_bind. cbn [reply]. rewrite run_done_bind. destruct (fs_canonicalize _ b); [|exact I].
  cbn [rbind ok_or]. rewrite run_ask_bind. cbn [reply]. rewrite run_done_bind. destruct (fs_canonicalize _ _); [|exact I]. cbn [rbind ok_or].
  destruct (starts_with _ _); exact I.
Qed.
Lemma imap_returns {A B} w (f : A -> io B) : (forall x t, returns (run_io w t (f x))) -> forall l t, returns (run_io w t (imap f l)).
Proof.
  intros H. induction l as [|x l IH]; intros t; [exact I|]. cbn [imap]. rewrite run_bind. apply ret_bind; [apply H|]. intros y.
  rewrite run_bind. apply ret_bind; [apply IH|]. intros ys. exact I.
Qed.
Lemma entries_bad (bad : forall A, res A -> Prop) w (f : path -> io section_entry) ps :
  (forall A B t (m : io A) (k : A -> io B), bad B (run_io w t (ibind m k)) ->
     bad A (run_io w t m) \/ exists x t', run_io w t m = Ok x /\ bad B (run_io w t' (k x))) ->
  (forall A x, ~ bad A (Ok x)) ->
  forall t, bad _ (run_io w t (io_entries f ps)) ->
  exists p t1 t2, In p ps /\ fs_exists (w t1) p = true /\ bad _ (run_io w t2 (f p)).
Proof.
  intros Hb Ho. induction ps as [|p ps IH]; intros t H; [now apply Ho in H|]. cbn [io_entries] in H. rewrite run_ask_bind in H. cbn [reply] in H.
  destruct (fs_exists (w t) p && negb (is_recycle_bin p)) eqn:E.
  - apply andb_true_iff in E as (E & _). apply Hb in H as [H|(e & t' & _ & H)].
    + exists p, t, (S t). split; [now left|auto].
    + apply Hb in H as [H|(es & t2 & _ & H)]; [|now apply Ho in H].
      apply IH in H as (q & t3 & t4 & Hq & R). exists q, t3, t4. split; [now right|exact R].
  - apply IH in H as (q & t3 & t4 & Hq & R). exists q, t3, t4. split; [now right|exact R].
Qed.
Lemma crash_timed sanitise h w fuel d : forall t p, run_io w t (io_notebook sanitise h d fuel p) = Panic ->
  exists t' q, parse_section_file h fuel (w t') q = Panic.
Proof.
  induction d as [|d IH]; intros t p H; [discriminate H|]. rewrite io_step, run_ask_bind in H. cbn [reply] in H. unfold io_rest in H.
  rewrite run_done_bind in H. apply crash_ret in H as (bs & Hb & H); [|apply ret_ok_or].
  rewrite run_done_bind in H. apply crash_bind in H as [H|(st & Hs & H)]; [now apply open_no_panic in H|].
  destruct (N.eqb _ _); [|discriminate H]. rewrite run_done_bind in H. apply crash_ret in H as (base & _ & H); [|apply ret_ok_or].
  rewrite run_done_bind in H. apply crash_bind in H as [H|((names & c) & _ & H)]; [now apply toc_no_panic in H|].
  rewrite run_bind in H. apply crash_ret in H as (ps & Hps & H); [|apply imap_returns; intros; apply resolve_returns].
  apply crash_io in H as [H|(es & t' & _ & H)]; [|discriminate H].
  apply (entries_bad (fun A r => r = Panic)) in H as (q & t1 & t2 & _ & _ & H); [|intros; now apply crash_io|discriminate].
  unfold io_entry in H. rewrite run_ask_bind in H. cbn [reply] in H. destruct (fs_is_file _ _).
  - apply crash_io in H as [H|(s & t3 & _ & H)]; [|discriminate H]. destruct (section_run h w fuel (S t2) q) as (E & _). rewrite E in H. eauto.
  - rewrite run_done_bind in H. apply crash_ret in H as (dn & _ & H); [|apply ret_ok_or]. rewrite run_ask_bind in H. cbn [reply] in H.
    rewrite run_done_bind in H. apply crash_ret in H as (files & _ & H); [|apply ret_ok_or].
    rewrite run_done_bind in H. apply crash_ret in H as (toc & _ & H); [|apply find_ret]. apply crash_io in H as [H|(g & t3 & _ & H)]; [|discriminate H].
    now apply IH in H.
Qed.
Lemma timed_crash sanitise h w fuel d t p : run_io w t (io_notebook sanitise h d fuel p) = Panic ->
  exists t' q bs st c sp id, fs_read (w t') q = Some bs /\ open_store h fuel bs = Ok st /\ object_space st c = Some sp /\
    (short_list_format sp id \/ ink_shortage sp id).
Proof.
  intros H. apply crash_timed in H as (t' & q & H). apply section_file_crash in H as (bs & st & c & sp & id & H). exists t', q, bs, st, c, sp, id. exact H.
Qed.
Lemma timed_terminates sanitise h w fuel base n :
  (forall t, readable h fuel (w t)) -> (forall t, shallow (w t) base n) ->
  forall d ms t last, last <> RootDir -> length ms <= n -> n < d + length ms ->
  run_io w t (io_notebook sanitise h d fuel (base ++ map Normal ms ++ [last])) <> OutOfFuel.
Proof.
  intros R Sh. induction d as [|d IH]; intros ms t last Hl Lm Ld H; [lia|]. rewrite io_step, run_ask_bind in H. cbn [reply] in H. unfold io_rest in H.
  rewrite run_done_bind in H. apply fuel_ret in H as (bs & Hb & H); [|apply ret_ok_or]. apply ok_or_iff in Hb.
  destruct (R _ _ bs Hb) as (R1 & R2). rewrite run_done_bind in H. apply fuel_bind in H as [H|(st & Hs & H)]; [contradiction|].
  destruct (N.eqb _ _); [|discriminate H]. rewrite app_assoc, parent_snoc in H by exact Hl. cbn [ok_or] in H. rewrite ibind_done_ok in H.
  rewrite run_done_bind in H. apply fuel_bind in H as [H|((names & c) & _ & H)]; [now apply (proj1 (R2 st Hs)) in H|].
  rewrite run_bind in H. apply fuel_ret in H as (ps & Hps & H); [|apply imap_returns; intros; apply resolve_returns].
  assert (F : Forall2 (fun e q => exists ns, q = base ++ map Normal (ms ++ ns) /\ ns <> []) names ps).
  { apply (during_map w (S t) (S t + steps_of w (S t) (imap (io_resolve sanitise (base ++ map Normal ms)) names))
      (io_resolve sanitise (base ++ map Normal ms))) with (t := S t).
    - intros t' x y Hy. apply seen_resolve in Hy as (ws & ns & _ & _ & _ & Hn & _ & -> & _). exists ns.
      split; [now rewrite map_app, app_assoc|exact Hn].
    - split; [apply le_n|split; [apply le_n|exact Hps]]. }
  apply fuel_io in H as [H|(es & t' & _ & H)]; [|discriminate H].
  apply (entries_bad (fun A r => r = OutOfFuel)) in H as (q & t1 & t2 & Hq & He & H); [|intros; now apply fuel_io|discriminate].
  assert (Q : exists ns, q = base ++ map Normal (ms ++ ns) /\ ns <> []).
  { clear - F Hq. induction F as [|e p names ps Hp F IH]; [easy|]. destruct Hq as [<-|Hq]; [exact Hp|now apply IH]. }
  destruct Q as (ns & -> & Hn). unfold io_entry in H. rewrite run_ask_bind in H. cbn [reply] in H. destruct (fs_is_file _ _).
  - apply fuel_io in H as [H|(s & t3 & _ & H)]; [|discriminate H]. match type of H with run_io _ ?t (io_section _ _ ?q) = _ => destruct (section_run h w fuel t q) as (E & _) end.
    rewrite E in H. now apply section_file_fuel in H.
  - rewrite run_done_bind in H. apply fuel_ret in H as (dn & _ & H); [|apply ret_ok_or]. rewrite run_ask_bind in H. cbn [reply] in H.
    rewrite run_done_bind in H. apply fuel_ret in H as (files & _ & H); [|apply ret_ok_or].
    rewrite run_done_bind in H. apply fuel_ret in H as (toc & _ & H); [|apply find_ret]. apply fuel_io in H as [H|(g & t3 & _ & H)]; [|discriminate H].
    specialize (Sh _ _ He). rewrite <- app_assoc in H. revert H. apply IH; [discriminate|exact Sh|].
    rewrite app_length in *. destruct ns; [easy|]. cbn in *. lia.
Qed.
Lemma timed_ends sanitise h w fuel t d p base last n : ends_in p base last -> last <> RootDir ->
  (forall t, readable h fuel (w t)) -> (forall t, shallow (w t) base n) -> n < d ->
  run_io w t (io_notebook sanitise h d fuel p) <> OutOfFuel.
Proof. intros -> Hl R Sh L. apply (timed_terminates sanitise h w fuel base n R Sh d [] t last Hl); cbn; lia. Qed.
