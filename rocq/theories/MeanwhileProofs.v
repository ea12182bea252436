(** What stands in the way of reading a notebook while its files change. *)
From Coq Require Import Lia ZifyBool ZifyNat ZifyN.
From Verif Require Import Base Codec SpecCodec Package PropSet Store SpecStore Shapes Props Nodes SpecValues SpecNodes Doc SpecDoc Notebook SpecNotebook
  BaseProofs NodesProofs NodesProofs3 DocProofs DocProofs5 NotebookProofs NotebookProofs2 NotebookProofs3 SpecCause SpecOpen SpecBlame OnceProofs BlameProofs
  CauseProofs2 SpecFate FateProofs3 SpecVoyage VoyageProofs Timed SpecTimed TimedProofs TimedProofs2 TimedProofs3 SpecMeanwhile.
Local Open Scope nat_scope.

Definition fail_of {A} (o : option ekind) : res A := match o with Some e => Err e | None => Panic end.
Lemma fail_bind {A B} (r : res A) (f : A -> res B) o : rbind r f = fail_of o -> r = fail_of o \/ exists x, r = Ok x /\ f x = fail_of o.
Proof. destruct r as [x| | |], o; cbn; intros H; try discriminate H; eauto; left; congruence. Qed.
Lemma fail_ok {A} (x : A) o : Ok x = fail_of o -> False.
Proof. destruct o; discriminate. Qed.
Lemma fail_fuel {A} o : OutOfFuel = @fail_of A o -> False.
Proof. destruct o; discriminate. Qed.
Lemma fail_ok_or {A} k (x : option A) o : ok_or k x = fail_of o -> x = None /\ o = Some k.
Proof. destruct x, o; cbn; intros H; try discriminate H. injection H as ->. auto. Qed.
Lemma fail_err {A} e o : Err e = @fail_of A o -> o = Some e.
Proof. destruct o; cbn; intros H; [congruence|discriminate H]. Qed.

Section Meanwhile.
  Variables (sanitise : name -> name) (h : order) (w : world) (a b : nat).
  Notation once := (once w a b).
  Notation during := (during w a b).
  Notation lists_seen := (lists_seen sanitise h w a b).
  Notation reaches_seen := (reaches_seen sanitise h w a b).
  Notation trouble_seen := (trouble_seen sanitise h w a b).
  Notation crash_seen := (crash_seen sanitise h w a b).
  Notation circle_seen := (circle_seen sanitise h w a b).
  Notation group_seen := (group_seen sanitise h w a b).
  Notation section_seen := (section_seen sanitise h w a b).
  Notation nested_seen := (nested_seen sanitise h w a b).
  Notation plain_words := (plain_words sanitise).

  Definition failing {A} (t : nat) (m : io A) (o : option ekind) : Prop := a <= t /\ t + steps_of w t m <= b /\ run_io w t m = fail_of o.
  Lemma failing_bind {A B} t (m : io A) (f : A -> io B) o : failing t (ibind m f) o ->
    failing t m o \/ exists x, during t m x /\ failing (t + steps_of w t m) (f x) o.
  Proof.
    intros (L & U & H). rewrite run_bind in H. unfold steps_of in U at 1. rewrite asked_bind in U.
    apply fail_bind in H as [H|(x & Hx & H)].
    - left. split; [exact L|]. split; [|exact H]. destruct (run_io w t m); try (destruct o; discriminate H);
        rewrite app_nil_r in U; exact U.
    - right. exists x. rewrite Hx, app_length in U. fold (steps_of w t m) in U. fold (steps_of w (t + steps_of w t m) (f x)) in U.
      split; [split; [exact L|split; [lia|exact Hx]]|split; [lia|split; [lia|exact H]]].
  Qed.
  Lemma failing_ask t q o : failing t (ask q) o -> False.
  Proof. intros (_ & _ & H). exact (fail_ok _ _ H). Qed.
  Lemma failing_done {A} t (r : res A) o : failing t (Done r) o -> r = fail_of o.
  Proof. intros (_ & _ & H). exact H. Qed.
  Lemma failing_map {A B} (f : A -> io B) o l : forall t, failing t (imap f l) o -> exists x t', In x l /\ failing t' (f x) o.
  Proof.
    induction l as [|x l IH]; intros t H; [now apply failing_done, fail_ok in H|]. cbn [imap] in H.
    apply failing_bind in H as [H|(y & _ & H)]; [exists x; eexists; split; [now left|exact H]|].
    apply failing_bind in H as [H|(ys & _ & H)]; [|now apply failing_done, fail_ok in H].
    destruct (IH _ H) as (z & t' & I & F). exists z, t'. split; [now right|exact F].
  Qed.
  Lemma failing_entries (f : path -> io section_entry) o ps : forall t, failing t (io_entries f ps) o ->
    exists r t', In r ps /\ once (fun fs => fs_exists fs r = true) /\ ~ recycled r /\ failing t' (f r) o.
  Proof.
    induction ps as [|p ps IH]; intros t H; [now apply failing_done, fail_ok in H|]. cbn [io_entries] in H.
    apply failing_bind in H as [H|(ex & Hex & H)]; [now apply failing_ask in H|]. apply during_ask in Hex. cbn [reply] in Hex.
    destruct (ex && negb (is_recycle_bin p)) eqn:E.
    - apply andb_true_iff in E as (-> & E). apply negb_true_iff in E.
      apply failing_bind in H as [H|(e & _ & H)].
      + exists p. eexists. split; [now left|]. split; [exact Hex|]. split; [|exact H]. intros K. apply recycle_iff in K. congruence.
      + apply failing_bind in H as [H|(es & _ & H)]; [|now apply failing_done, fail_ok in H].
        destruct (IH _ H) as (r & t' & I & R). exists r, t'. split; [now right|exact R].
    - destruct (IH _ H) as (r & t' & I & R). exists r, t'. split; [now right|exact R].
  Qed.

  Lemma plain_words_fun n ns ms : plain_words n ns -> plain_words n ms -> ns = ms.
  Proof.
    intros (ws & Pw & _ & Pn & _) (ws' & Pw' & _ & Pn' & _). apply pieces_split in Pw as <-. apply pieces_split in Pw' as <-.
    revert ms Pn'. induction Pn; intros ms Pm; inversion Pm; subst; try contradiction; f_equal; auto.
  Qed.
  Lemma resolve_failing base n t o : failing t (io_resolve sanitise base n) o ->
    o = Some InvalidPath /\
    ((forall ns, ~ plain_words n ns) \/ exists ns, plain_words n ns /\ strays_seen w a b base (base ++ map Normal ns)).
  Proof.
    unfold io_resolve. intros H. destruct (is_absolute n) eqn:Ab.
    { apply failing_done, fail_err in H. split; [exact H|]. left. intros ns (ws & _ & K & _). apply absolute_iff in Ab. contradiction. }
    rewrite components_relative in H by exact Ab. apply failing_bind in H as [H|(q & Hq & H)].
    { apply failing_done in H. destruct (sanitize_err sanitise (flat_map piece (split_slash n))) as [E|(q & E)].
      2:{ rewrite E in H. now apply fail_ok in H. }
      rewrite E in H. apply fail_err in H. split; [exact H|]. left. intros ns (ws & Pw & _ & Pn & _ & C). apply pieces_split in Pw as <-.
      assert (X : sanitize_components sanitise (flat_map piece (split_slash n)) = Ok (map Normal ns)) by (apply sanitize_iff; exists ns; auto).
      congruence. }
    apply during_done in Hq. apply sanitize_iff in Hq as (ns & Hp & Hc & ->).
    destruct ns as [|m ns].
    { apply failing_done, fail_err in H. split; [exact H|]. left. intros ns (ws & Pw & _ & Pn & N & _). apply pieces_split in Pw as <-.
      apply N. clear -Hp Pn. revert ns Pn. remember [] as o eqn:Eo. induction Hp; intros ns Pm; inversion Pm; subst; try contradiction; try discriminate; auto. }
    assert (P : plain_words n (m :: ns)).
    { exists (split_slash n). split; [apply split_pieces|]. split; [intros K; apply absolute_iff in K; congruence|].
      split; [exact Hp|]. split; [discriminate|exact Hc]. }
    cbn [map] in H. change (Normal m :: map Normal ns) with (map Normal (m :: ns)) in H. set (c := base ++ map Normal (m :: ns)) in *.
    apply failing_bind in H as [H|(ex & Hex & H)]; [now apply failing_ask in H|]. apply during_ask in Hex. cbn [reply] in Hex.
    destruct ex; [|now apply failing_done, fail_ok in H].
    assert (G : o = Some InvalidPath /\ (once (fun fs => fs_canonicalize fs base = None) \/ once (fun fs => fs_canonicalize fs c = None) \/
      exists cb cr, once (fun fs => fs_canonicalize fs base = Some cb) /\ once (fun fs => fs_canonicalize fs c = Some cr) /\ ~ below_path cr cb)).
    { apply failing_bind in H as [H|(x & Hx & H)]; [now apply failing_ask in H|]. apply during_ask in Hx. cbn [reply] in Hx.
      apply failing_bind in H as [H|(cb & Hcb & H)].
      { apply failing_done, fail_ok_or in H as (-> & ->). auto. }
      apply during_done, ok_or_iff in Hcb. subst x.
      apply failing_bind in H as [H|(x & Hy & H)]; [now apply failing_ask in H|]. apply during_ask in Hy. cbn [reply] in Hy.
      apply failing_bind in H as [H|(cr & Hcr & H)].
      { apply failing_done, fail_ok_or in H as (-> & ->). auto. }
      apply during_done, ok_or_iff in Hcr. subst x.
      destruct (starts_with cr cb) eqn:Es; [now apply failing_done, fail_ok in H|].
      apply failing_done, fail_err in H. split; [exact H|]. right. right. exists cb, cr. split; [exact Hx|]. split; [exact Hy|].
      intros K. apply starts_iff in K. congruence. }
    destruct G as (-> & G). split; [reflexivity|]. right. exists (m :: ns). split; [exact P|]. split; [exact Hex|exact G].
  Qed.

  (** ** From a group to the notebook around it *)
  Lemma around_reaches p r toc q : group_seen p r toc -> reaches_seen (r ++ [Normal toc]) q -> reaches_seen p q.
  Proof.
    intros G. induction 1 as [|q r' toc' H IH G']; [exact (rs_group sanitise h w a b p p r toc (rs_own _ _ _ _ _ p) G)|].
    exact (rs_group sanitise h w a b p q r' toc' IH G').
  Qed.
  Lemma around_nested p r toc n q : group_seen p r toc -> nested_seen (r ++ [Normal toc]) n q -> nested_seen p (S n) q.
  Proof.
    intros G. induction 1 as [|n q r' toc' H IH G']; [exact (nn_group sanitise h w a b p 0 p r toc (nn_own _ _ _ _ _ p) G)|].
    exact (nn_group sanitise h w a b p (S n) q r' toc' IH G').
  Qed.
  Lemma around_section p r toc x : group_seen p r toc -> section_seen (r ++ [Normal toc]) x -> section_seen p x.
  Proof. intros G (q & H & K). exists q. split; [exact (around_reaches p r toc q G H)|exact K]. Qed.
  Lemma around_circle p r toc : group_seen p r toc -> circle_seen (r ++ [Normal toc]) -> circle_seen p.
  Proof.
    intros G [(q & H & K)|(x & H & K)]; [left; exists q; split; [exact (around_reaches p r toc q G H)|exact K]|].
    right. exists x. split; [exact (around_section p r toc x G H)|exact K].
  Qed.

  (** ** Errors and crashes *)
  Lemma once_with (P Q : filesystem -> Prop) : once P -> (forall fs, P fs -> Q fs) -> once Q.
  Proof. intros (t & L & H) I. exists t. split; [exact L|exact (I _ H)]. Qed.
  Lemma resolve_all base l t ps : during t (imap (io_resolve sanitise base) l) ps -> Forall2 (resolves_seen sanitise w a b base) l ps.
  Proof. apply during_map. intros; eapply seen_resolve; eassumption. Qed.
  Lemma listed p base names ps r : toc_seen h w a b p base names -> Forall2 (resolves_seen sanitise w a b base) names ps ->
    In r ps -> once (fun fs => fs_exists fs r = true) -> ~ recycled r -> lists_seen p r.
  Proof.
    intros T H I X Y.
    assert (exists n, In n names /\ resolves_seen sanitise w a b base n r) as (n & In' & Rn).
    { clear -H I. induction H as [|n q ns qs Hq F IHF]; [destruct I|]. destruct I as [->|I].
      - exists n. split; [left; reflexivity | exact Hq].
      - destruct (IHF I) as (m & Im & Hm). exists m. split; [right; exact Im | exact Hm]. }
    exists base, names, n. auto.
  Qed.
  Lemma listed_named q r : lists_seen q r -> exists n, file_name r = Some n.
  Proof.
    intros (bs & ns & m & _ & _ & Rm & _). destruct Rm as (ws & ms & _ & _ & _ & Ne & _ & -> & _).
    destruct (exists_last Ne) as (ms' & z & ->). exists z. apply file_name_iff. exists (bs ++ map Normal ms'). unfold ends_in. now rewrite map_app, app_assoc.
  Qed.
  Lemma section_failing f r t o : failing t (io_section h f r) o -> once (fun fs => parse_section_file h f fs r = fail_of o).
  Proof.
    intros (L & U & H). destruct (section_run h w f t r) as (E1 & E2). rewrite E1 in H. unfold steps_of in U. rewrite E2 in U. cbn in U.
    exists t. split; [lia|exact H].
  Qed.
  Lemma notebook_failing f d : forall t p o, failing t (io_notebook sanitise h d f p) o ->
    match o with
    | Some e => exists q, reaches_seen p q /\ trouble_seen q e
    | None => crash_seen p
    end.
  Proof.
    induction d as [|d IH]; intros t p o H; [now apply failing_done, fail_fuel in H|]. rewrite io_step in H.
    apply failing_bind in H as [H|(x & Hx & H)]; [now apply failing_ask in H|]. apply during_ask in Hx. cbn [reply] in Hx. unfold io_rest in H.
    apply failing_bind in H as [H|(bs & Hb & H)].
    { apply failing_done, fail_ok_or in H as (-> & ->). exists p. split; [constructor|]. now apply ts_toc_unreadable. }
    apply during_done, ok_or_iff in Hb. subst x.
    apply failing_bind in H as [H|(st & Hs & H)].
    { apply failing_done in H. destruct o as [e|]; [|contradiction (open_no_panic _ _ _ H)]. exists p. split; [constructor|].
      apply ts_toc_container. apply (once_with _ _ Hx). intros fs R. exact (open_err h fs f bs e p R H). }
    apply during_done in Hs. assert (Ho : forall fs, fs_read fs p = Some bs -> holds_store h fs p st) by (intros fs R; exact (open_holds h fs f bs st p R Hs)).
    destruct (N.eqb_spec (st_schema st) toc_schema) as [Q|Q].
    2:{ apply failing_done, fail_err in H. subst o. exists p. split; [constructor|]. apply ts_toc_kind.
        apply (once_with _ _ Hx). intros fs R. exists st. split; [exact (Ho fs R)|exact Q]. }
    apply failing_bind in H as [H|(base & Hp & H)].
    { apply failing_done, fail_ok_or in H as (Hp & ->). exists p. split; [constructor|]. apply ts_toc_place.
      - apply (once_with _ _ Hx). intros fs R. exists st. exact (Ho fs R).
      - intros base last E. destruct last; try reflexivity; exfalso;
          (assert (P : parent p = Some base) by (apply parent_iff; eexists; split; [exact E | discriminate]); congruence). }
    apply during_done, ok_or_iff, parent_iff in Hp as (last & Hp & Hl).
    apply failing_bind in H as [H|((names & c) & Ht & H)].
    { apply failing_done in H. destruct o as [e|]; [|contradiction (toc_no_panic _ _ H)]. exists p. split; [constructor|].
      apply ts_toc_content. apply (once_with _ _ Hx). intros fs R. exists st. split; [exact (Ho fs R)|]. split; [exact Q|exact (toc_blame _ f e H)]. }
    apply during_done in Ht. apply toc_settles in Ht.
    assert (T : toc_seen h w a b p base names).
    { apply (once_with _ _ Hx). intros fs R. exists st, last, c. split; [exact (Ho fs R)|auto]. }
    apply failing_bind in H as [H|(ps & Hps & H)].
    { apply failing_map in H as (n & t' & I & H). apply resolve_failing in H as (-> & [N|(ns & P & St)]); exists p; (split; [constructor|]).
      - exact (ts_entry_name sanitise h w a b p base names n T I N).
      - exact (ts_entry_strays sanitise h w a b p base names n ns T I P St). }
    apply resolve_all in Hps.
    apply failing_bind in H as [H|(es & _ & H)]; [|now apply failing_done, fail_ok in H].
    apply failing_entries in H as (r & t' & I & X & Y & H).
    pose proof (listed p base names ps r T Hps I X Y) as L. unfold io_entry in H.
    apply failing_bind in H as [H|(isf & Hf & H)]; [now apply failing_ask in H|]. apply during_ask in Hf. cbn [reply] in Hf. destruct isf.
    - apply failing_bind in H as [H|(s & _ & H)]; [|now apply failing_done, fail_ok in H].
      apply section_failing in H as M.
      destruct o as [e|]; cbn [fail_of] in M.
      + exists p. split; [constructor|]. apply (ts_section sanitise h w a b p r e L Hf). apply (once_with _ _ M). intros fs K. exact (section_file_blame h fs f r e K).
      + exists r. split; [exists p; split; [constructor|split; [exact L|exact Hf]]|]. apply (once_with _ _ M). intros fs K. exact (section_file_crashes h fs f r K).
    - apply failing_bind in H as [H|(n & _ & H)].
      { exfalso. apply failing_done, fail_ok_or in H as (Hn & _). destruct (listed_named p r L) as (n & En). congruence. }
      apply failing_bind in H as [H|(x & Hd & H)]; [now apply failing_ask in H|]. apply during_ask in Hd. cbn [reply] in Hd.
      apply failing_bind in H as [H|(files & Hfs & H)].
      { apply failing_done, fail_ok_or in H as (-> & ->). exists p. split; [constructor|]. exact (ts_directory sanitise h w a b p r L Hf Hd). }
      apply during_done, ok_or_iff in Hfs. subst x.
      apply failing_bind in H as [H|(toc & Htoc & H)].
      { apply failing_done in H. destruct o as [e|]; [|contradiction (proj1 (find_toc_settles files) H)]. exists p. split; [constructor|].
        destruct (find_err files e H) as [(bf & af & -> & Fb & ->)|(l & -> & Fl & ->)].
        - exact (ts_listing sanitise h w a b p r bf af L Hf Hd Fb).
        - exact (ts_no_toc sanitise h w a b p r l L Hf Hd Fl). }
      apply during_done, find_iff in Htoc.
      assert (G : group_seen p r toc) by (split; [exact L|split; [exact Hf|exists files; auto]]).
      apply failing_bind in H as [H|(g & _ & H)]; [|now apply failing_done, fail_ok in H].
      apply IH in H. destruct o as [e|].
      + destruct H as (q & Rq & W). exists q. split; [exact (around_reaches p r toc q G Rq)|exact W].
      + destruct H as (x & Sx & K). exists x. split; [exact (around_section p r toc x G Sx)|exact K].
  Qed.
End Meanwhile.

Lemma run_blame sanitise h w t d f p e : run_io w t (io_notebook sanitise h d f p) = Err e ->
  let b := t + length (asked w t (io_notebook sanitise h d f p)) in
  exists q, reaches_seen sanitise h w t b p q /\ trouble_seen sanitise h w t b q e.
Proof.
  intros H b. apply (notebook_failing sanitise h w t b f d t p (Some e)). split; [lia|]. split; [subst b; unfold steps_of; lia|exact H].
Qed.
Lemma run_crash sanitise h w t d f p : run_io w t (io_notebook sanitise h d f p) = Panic ->
  crash_seen sanitise h w t (t + length (asked w t (io_notebook sanitise h d f p))) p.
Proof.
  intros H. apply (notebook_failing sanitise h w t _ f d t p None). split; [lia|]. split; [unfold steps_of; lia|exact H].
Qed.

(** ** Ending *)
Section More.
  Variables (sanitise : name -> name) (h : order) (w : world) (a b b' : nat).
  Hypothesis Lb : b <= b'.
  Lemma once_more P : once w a b P -> once w a b' P.
  Proof. intros (t & L & H). exists t. split; [lia|exact H]. Qed.
  Lemma resolves_seen_more base n r : resolves_seen sanitise w a b base n r -> resolves_seen sanitise w a b' base n r.
  Proof.
    intros (ws & ns & A & B & C & D & E & F & G). exists ws, ns. do 6 (split; [assumption|]).
    destruct G as [G|(cb & cp & G1 & G2 & G3)]; [left; exact (once_more _ G)|right; exists cb, cp; split; [exact (once_more _ G1)|split; [exact (once_more _ G2)|exact G3]]].
  Qed.
  Lemma lists_seen_more q r : lists_seen sanitise h w a b q r -> lists_seen sanitise h w a b' q r.
  Proof.
    intros (base & names & n & T & I & R & X & Y). exists base, names, n. split; [exact (once_more _ T)|]. split; [exact I|].
    split; [exact (resolves_seen_more _ _ _ R)|]. split; [exact (once_more _ X)|exact Y].
  Qed.
  Lemma group_seen_more q r toc : group_seen sanitise h w a b q r toc -> group_seen sanitise h w a b' q r toc.
  Proof.
    intros (L & F & files & D & T). split; [exact (lists_seen_more _ _ L)|]. split; [exact (once_more _ F)|].
    exists files. split; [exact (once_more _ D)|exact T].
  Qed.
  Lemma reaches_seen_more p q : reaches_seen sanitise h w a b p q -> reaches_seen sanitise h w a b' p q.
  Proof. induction 1 as [|q r toc H IH G]; [constructor|]. exact (rs_group _ _ _ _ _ p q r toc IH (group_seen_more _ _ _ G)). Qed.
  Lemma nested_seen_more p n q : nested_seen sanitise h w a b p n q -> nested_seen sanitise h w a b' p n q.
  Proof. induction 1 as [|n q r toc H IH G]; [constructor|]. exact (nn_group _ _ _ _ _ p n q r toc IH (group_seen_more _ _ _ G)). Qed.
  Lemma section_seen_more p r : section_seen sanitise h w a b p r -> section_seen sanitise h w a b' p r.
  Proof. intros (q & R & L & F). exists q. split; [exact (reaches_seen_more _ _ R)|]. split; [exact (lists_seen_more _ _ L)|exact (once_more _ F)]. Qed.
  Lemma circle_seen_more p : circle_seen sanitise h w a b p -> circle_seen sanitise h w a b' p.
  Proof.
    intros [(q & R & C)|(r & R & C)]; [left; exists q; split; [exact (reaches_seen_more _ _ R)|exact (once_more _ C)]|].
    right. exists r. split; [exact (section_seen_more _ _ R)|exact (once_more _ C)].
  Qed.
End More.

Section Ends.
  Variables (sanitise : name -> name) (h : order) (w : world).
  Definition conv {A} (n t : nat) (m : nat -> nat -> io A) (r : res A) (s : nat) : Prop :=
    exists k, r <> OutOfFuel /\ forall d f, n <= d -> k <= f -> run_io w t (m d f) = r /\ steps_of w t (m d f) = s.
  Definition settled {A} (n t : nat) (m : nat -> nat -> io A) : Prop := exists r s, conv n t m r s.
  Lemma settled_bind {A B} n t (m : nat -> nat -> io A) (F : nat -> nat -> A -> io B) : settled n t m ->
    (forall x s, conv n t m (Ok x) s -> settled n (t + s) (fun d f => F d f x)) -> settled n t (fun d f => ibind (m d f) (F d f)).
  Proof.
    intros (r & s & C) H. destruct r as [x|e| |].
    - destruct (H x s C) as (r' & s' & k' & N & K'). destruct C as (k & _ & K). exists r', (s + s'), (k + k'). split; [exact N|].
      intros d f L1 L2. destruct (K d f L1 ltac:(lia)) as (E1 & E2). destruct (K' d f L1 ltac:(lia)) as (E3 & E4).
      unfold steps_of at 1. rewrite run_bind, asked_bind, E1. cbn [rbind]. rewrite app_length. fold (steps_of w t (m d f)). rewrite E2.
      split; [exact E3|]. f_equal. exact E4.
    - destruct C as (k & _ & K). exists (Err e), s, k. split; [discriminate|]. intros d f L1 L2. destruct (K d f L1 L2) as (E1 & E2).
      unfold steps_of at 1. rewrite run_bind, asked_bind, E1. cbn [rbind]. rewrite app_nil_r. split; [reflexivity|exact E2].
    - destruct C as (k & _ & K). exists Panic, s, k. split; [discriminate|]. intros d f L1 L2. destruct (K d f L1 L2) as (E1 & E2).
      unfold steps_of at 1. rewrite run_bind, asked_bind, E1. cbn [rbind]. rewrite app_nil_r. split; [reflexivity|exact E2].
    - destruct C as (k & N & _). contradiction.
  Qed.
  Lemma settled_const {A} n t (m : io A) : run_io w t m <> OutOfFuel -> settled n t (fun _ _ => m).
  Proof. intros H. exists (run_io w t m), (steps_of w t m), 0. auto. Qed.
  Lemma settled_done {A} n t (R : nat -> res A) k r : r <> OutOfFuel -> (forall f, k <= f -> R f = r) -> settled n t (fun _ f => Done (R f)).
  Proof. intros N K. exists r, 0, k. split; [exact N|]. intros d f _ L. split; [exact (K f L)|reflexivity]. Qed.
  Lemma conv_const {A} n t (m : io A) x s : conv n t (fun _ _ => m) x s -> run_io w t m = x /\ steps_of w t m = s.
  Proof. intros (k & _ & K). exact (K n k ltac:(lia) ltac:(lia)). Qed.
  Lemma settled_deeper {A} n t (M : nat -> nat -> io A) : settled n t M -> settled (S n) t (fun d f => M (pred d) f).
  Proof. intros (r & s & k & N & K). exists r, s, k. split; [exact N|]. intros d f L1 L2. apply K; lia. Qed.
  Lemma settled_ext {A} n t (m m' : nat -> nat -> io A) : (forall d f, n <= d -> m d f = m' d f) -> settled n t m -> settled n t m'.
  Proof. intros E (r & s & k & N & K). exists r, s, k. split; [exact N|]. intros d f L1 L2. rewrite <- E by exact L1. now apply K. Qed.

  Variable t0 : nat.
  Lemma settled_entries n (F : nat -> nat -> path -> io section_entry) ps : forall t, t0 <= t ->
    (forall r t', In r ps -> t <= t' -> once w t0 t' (fun fs => fs_exists fs r = true) -> ~ recycled r -> settled n t' (fun d f => F d f r)) ->
    settled n t (fun d f => io_entries (F d f) ps).
  Proof.
    induction ps as [|p ps IH]; intros t L H; [apply settled_const; discriminate|]. cbn [io_entries].
    apply (settled_bind n t (fun _ _ => ask (QExists p))); [apply settled_const; discriminate|].
    intros x s C. apply conv_const in C as (E1 & E2). rewrite run_ask in E1. injection E1 as <-. rewrite steps_ask in E2. subst s. cbn [reply].
    destruct (fs_exists (w t) p && negb (is_recycle_bin p)) eqn:E.
    - apply andb_true_iff in E as (E & E'). apply negb_true_iff in E'.
      apply (settled_bind n (t + 1) (fun d f => F d f p)).
      { apply H; [now left|lia|exists t; split; [lia|exact E]|]. intros K. apply recycle_iff in K. congruence. }
      intros e s _. apply (settled_bind n (t + 1 + s) (fun d f => io_entries (F d f) ps)).
      { apply IH; [lia|]. intros r t' I Lt. apply H; [now right|lia]. }
      intros es s' _. apply settled_const. discriminate.
    - apply IH; [lia|]. intros r t' I Lt. apply H; [now right|lia].
  Qed.
  Lemma settled_section n t r : ~ section_circle h (w t) r -> settled n t (fun _ f => io_section h f r).
  Proof.
    intros N. destruct (section_file_ends sanitise h (w t) r N) as (k & K).
    exists (parse_section_file h k (w t) r), 1, k. split; [exact (K k (le_n k))|]. intros d f _ L.
    destruct (section_run h w f t r) as (E1 & E2). unfold steps_of. rewrite E1, E2. split; [|reflexivity].
    exact (OnceProofs.section_file_more h k f (w t) r L (K k (le_n k))).
  Qed.
  Lemma settled_notebook n : forall t p, t0 <= t ->
    (forall b q, ~ nested_seen sanitise h w t0 b p n q) -> (forall b, ~ circle_seen sanitise h w t0 b p) ->
    settled n t (fun d f => io_notebook sanitise h d f p).
  Proof.
    induction n as [|n IH]; intros t p L N C; [contradiction (N 0 p); constructor|].
    assert (Cp : ~ toc_circle h (w t) p).
    { intros X. apply (C (S t)). left. exists p. split; [constructor|]. exists t. split; [lia|exact X]. }
    apply (settled_ext (S n) t (fun d f => ibind (ask (QRead p)) (io_rest sanitise h (pred d) f p))).
    { intros [|d] f Ld; [lia|]. reflexivity. }
    apply (settled_bind (S n) t (fun _ _ => ask (QRead p))); [apply settled_const; discriminate|].
    intros x s X. apply conv_const in X as (E1 & E2). rewrite run_ask in E1. injection E1 as <-. rewrite steps_ask in E2. subst s. cbn [reply].
    unfold io_rest. destruct (fs_read (w t) p) as [bs|] eqn:R; cbn [ok_or ibind]; [|apply settled_const; discriminate].
    destruct (file_opens_or_not sanitise h (w t) p bs R) as (k & r & X & K); [intros T; apply Cp; now left|].
    apply (settled_bind (S n) (t + 1) (fun _ f => Done (open_store h f bs))); [exact (settled_done _ _ _ k r X K)|].
    intros st s Y. assert (Hr : r = Ok st /\ s = 0).
    { destruct Y as (k2 & _ & K2). destruct (K2 (S n) (k + k2) (le_n _) ltac:(lia)) as (E1 & E2). cbn [run_io] in E1. rewrite K in E1 by lia.
      split; [exact E1|]. rewrite steps_done in E2. now symmetry. }
    destruct Hr as (-> & ->). clear Y X. rewrite Nat.add_0_r.
    assert (Hs : holds_store h (w t) p st) by (exists bs; split; [exact R|exists k; apply K; lia]). clear K.
    destruct (N.eqb_spec (st_schema st) toc_schema) as [Q|Q]; [|apply settled_const; discriminate].
    destruct (parent p) as [base|] eqn:Hp; cbn [ok_or ibind]; [|apply settled_const; discriminate].
    assert (Tn : ~ toc_comes_round (st_data_root st)) by (intros Y; apply Cp; right; exists st; auto).
    set (k2 := S (length (sp_objects (st_data_root st)))).
    assert (Y : parse_toc k2 (st_data_root st) <> OutOfFuel) by (apply toc_ends; [exact Tn|subst k2; lia]).
    apply (settled_bind (S n) (t + 1) (fun _ f => Done (parse_toc f (st_data_root st)))).
    { apply (settled_done _ _ _ k2 (parse_toc k2 (st_data_root st)) Y). intros f Lf. exact (toc_more k2 f (st_data_root st) Lf Y). }
    intros (names & c) s Z. destruct Z as (k3 & _ & K3). destruct (K3 (S n) k3 (le_n _) (le_n _)) as (Ht & E2). rewrite steps_done in E2. subst s.
    cbn [run_io] in Ht. clear K3. rewrite Nat.add_0_r. apply toc_settles in Ht. apply parent_iff in Hp as (last & Hp & Hl).
    assert (T : toc_seen h w t0 (t + 1) p base names).
    { exists t. split; [lia|]. exists st, last, c. auto. }
    apply (settled_bind (S n) (t + 1) (fun _ _ => imap (io_resolve sanitise base) names)).
    { apply settled_const. pose proof (imap_returns w (io_resolve sanitise base) (fun x u => resolve_returns sanitise w u base x) names (t + 1)) as Z.
      intros Z'. rewrite Z' in Z. exact Z. }
    intros ps s Z. apply conv_const in Z as (Hps & E2).
    assert (Hr : Forall2 (resolves_seen sanitise w t0 (t + 1 + s) base) names ps).
    { apply (resolve_all sanitise w t0 (t + 1 + s) base names (t + 1) ps). split; [lia|]. split; [lia|exact Hps]. }
    apply (settled_bind (S n) (t + 1 + s) (fun d f => io_entries (io_entry sanitise h (pred d) f) ps)); [|intros es s' _; apply settled_const; discriminate].
    apply settled_entries; [lia|]. intros r t' I Lt X Yr.
    assert (Lr : lists_seen sanitise h w t0 t' p r).
    { apply (listed sanitise h w t0 t' p base names ps r); [exact (once_more w t0 (t + 1) t' ltac:(lia) _ T)| |exact I|exact X|exact Yr].
      clear -Hr Lt. induction Hr as [|x y l l' Hx F IHF]; constructor; [exact (resolves_seen_more sanitise w t0 _ t' Lt _ _ _ Hx)|exact IHF]. }
    unfold io_entry. apply (settled_bind (S n) t' (fun _ _ => ask (QIsFile r))); [apply settled_const; discriminate|].
    intros isf s2 Z. apply conv_const in Z as (E1 & E3). rewrite run_ask in E1. injection E1 as <-. rewrite steps_ask in E3. subst s2. cbn [reply].
    destruct (fs_is_file (w t') r) eqn:F.
    - apply (settled_bind (S n) (t' + 1) (fun _ f => io_section h f r)); [|intros z s3 _; apply settled_const; discriminate].
      apply settled_section. intros Z. apply (C (t' + 2)). right. exists r. split; [|exists (t' + 1); split; [lia|exact Z]].
      exists p. split; [constructor|]. split; [exact (lists_seen_more sanitise h w t0 t' (t' + 2) ltac:(lia) p r Lr)|exists t'; split; [lia|exact F]].
    - destruct (file_name r) as [nm|]; cbn [ok_or ibind]; [|apply settled_const; discriminate].
      apply (settled_bind (S n) (t' + 1) (fun _ _ => ask (QReadDir r))); [apply settled_const; discriminate|].
      intros x s3 Z. apply conv_const in Z as (E1 & E4). rewrite run_ask in E1. injection E1 as <-. rewrite steps_ask in E4. subst s3. cbn [reply].
      destruct (fs_read_dir (w (t' + 1)) r) as [files|] eqn:D; cbn [ok_or ibind]; [|apply settled_const; discriminate].
      destruct (find_toc files) as [toc|e| |] eqn:Ft; cbn [ibind]; [|apply settled_const; discriminate ..|contradiction (proj2 (find_toc_settles files) Ft)].
      apply find_iff in Ft.
      assert (G : group_seen sanitise h w t0 (t' + 2) p r toc).
      { split; [exact (lists_seen_more sanitise h w t0 t' (t' + 2) ltac:(lia) p r Lr)|]. split; [exists t'; split; [lia|exact F]|].
        exists files. split; [exists (t' + 1); split; [lia|exact D]|exact Ft]. }
      apply (settled_bind (S n) (t' + 1 + 1) (fun d f => io_notebook sanitise h (pred d) f (r ++ [Normal toc]))); [|intros z s3 _; apply settled_const; discriminate].
      apply (settled_deeper n _ (fun d f => io_notebook sanitise h d f (r ++ [Normal toc]))). apply IH; [lia| |].
      + intros b q Z. apply (N (max b (t' + 2)) q). apply (around_nested sanitise h w t0 _ p r toc).
        * exact (group_seen_more sanitise h w t0 (t' + 2) (max b (t' + 2)) ltac:(lia) p r toc G).
        * exact (nested_seen_more sanitise h w t0 b (max b (t' + 2)) ltac:(lia) _ n q Z).
      + intros b Z. apply (C (max b (t' + 2))). apply (around_circle sanitise h w t0 _ p r toc).
        * exact (group_seen_more sanitise h w t0 (t' + 2) (max b (t' + 2)) ltac:(lia) p r toc G).
        * exact (circle_seen_more sanitise h w t0 b (max b (t' + 2)) ltac:(lia) _ Z).
  Qed.
End Ends.
Lemma run_ends sanitise h w t p n : (forall b q, ~ nested_seen sanitise h w t b p n q) -> (forall b, ~ circle_seen sanitise h w t b p) ->
  exists k r, r <> OutOfFuel /\ forall depth fuel, n <= depth -> k <= fuel -> run_io w t (io_notebook sanitise h depth fuel p) = r.
Proof.
  intros N C. destruct (settled_notebook sanitise h w t n t p (le_n t) N C) as (r & s & k & X & K). exists k, r. split; [exact X|].
  intros d f L1 L2. exact (proj1 (K d f L1 L2)).
Qed.

(** ** When nothing changes *)
Section Still.
  Variables (sanitise : name -> name) (h : order) (fs : filesystem) (a b : nat).
  Hypothesis L : a < b.
  Notation still := (fun _ : nat => fs).
  Lemma once_still P : once still a b P <-> P fs.
  Proof. split; [intros (t & _ & H); exact H|]. intros H. exists a. split; [lia|exact H]. Qed.
  Lemma resolves_still base n r : resolves_seen sanitise still a b base n r <-> resolves sanitise fs base n r.
  Proof.
    unfold resolves_seen, resolves, contained. setoid_rewrite once_still. split; intros (ws & ns & A & B & C & D & E & -> & G); exists ws, ns; do 6 (split; [auto|]).
    - intros X. destruct G as [G|G]; [congruence|]. exact G.
    - destruct (fs_exists fs (base ++ map Normal ns)); [right; exact (G eq_refl)|now left].
  Qed.
  Lemma lists_still q r : lists_seen sanitise h still a b q r <-> lists sanitise h fs q r.
  Proof. unfold lists_seen, lists, toc_seen. setoid_rewrite once_still. setoid_rewrite resolves_still. reflexivity. Qed.
  Lemma group_still q r toc : group_seen sanitise h still a b q r toc <->
    lists sanitise h fs q r /\ fs_is_file fs r = false /\ exists files, fs_read_dir fs r = Some files /\ first_toc files toc.
  Proof. unfold group_seen. setoid_rewrite once_still. setoid_rewrite lists_still. reflexivity. Qed.
  Lemma reaches_still p q : reaches_seen sanitise h still a b p q <-> reaches sanitise h fs p q.
  Proof.
    split; [induction 1 as [|q r toc H IH G]|induction 1 as [|q r files toc H IH Lr F D T]]; try constructor.
    - apply group_still in G as (Lr & F & files & D & T). exact (re_group sanitise h fs p q r files toc IH Lr F D T).
    - apply (rs_group sanitise h still a b p q r toc IH). apply group_still. eauto.
  Qed.
  Lemma nested_still p n q : nested_seen sanitise h still a b p n q <-> nested sanitise h fs p n q.
  Proof.
    split; [induction 1 as [|n q r toc H IH G]|induction 1 as [|n q r files toc H IH Lr F D T]]; try constructor.
    - apply group_still in G as (Lr & F & files & D & T). exact (ne_group sanitise h fs p n q r files toc IH Lr F D T).
    - apply (nn_group sanitise h still a b p n q r toc IH). apply group_still. eauto.
  Qed.
  Lemma section_still p r : section_seen sanitise h still a b p r <-> section_of sanitise h fs p r.
  Proof. unfold section_seen, section_of. setoid_rewrite once_still. setoid_rewrite lists_still. setoid_rewrite reaches_still. reflexivity. Qed.
  Lemma crash_still p : crash_seen sanitise h still a b p <-> crash_in sanitise h fs p.
  Proof.
    unfold crash_seen, crash_in. setoid_rewrite once_still. setoid_rewrite section_still. split.
    - intros (r & S1 & st & K). exists r, st. auto.
    - intros (r & st & S1 & K). exists r. split; [exact S1|]. now exists st.
  Qed.
  Lemma circle_still p : circle_seen sanitise h still a b p <-> circle_in sanitise h fs p.
  Proof. unfold circle_seen, circle_in. setoid_rewrite once_still. setoid_rewrite section_still. setoid_rewrite reaches_still. reflexivity. Qed.
  Lemma trouble_still q e : trouble_seen sanitise h still a b q e <-> trouble sanitise h fs q e.
  Proof.
    split.
    - intros H. inversion H as [U|k U|U|U P|k U|base names n T I N|base names n ns T I P St|r k Lr F U|r Lr F D|r bf af Lr F D Fb|r files Lr F D Fb]; subst;
        try apply (proj1 (once_still _)) in U; try apply (proj1 (once_still _)) in T; try apply (proj1 (once_still _)) in F; try apply (proj1 (once_still _)) in D; try apply lists_still in Lr.
      + now apply tr_toc_unreadable.
      + now apply tr_toc_container.
      + destruct U as (st & U1 & U2). exact (tr_toc_kind sanitise h fs q st U1 U2).
      + destruct U as (st & U). exact (tr_toc_place sanitise h fs q st U P).
      + destruct U as (st & U1 & U2 & U3). exact (tr_toc_content sanitise h fs q st e U1 U2 U3).
      + apply (tr_entry_name sanitise h fs q base names n T I). intros r (ws & ns & A & B & C & D & E & _). apply (N ns). exists ws. auto.
      + apply (tr_entry_name sanitise h fs q base names n T I). intros r (ws & ms & A & B & C & D & E & -> & G).
        assert (ns = ms) as ->. { apply (plain_words_fun sanitise n ns ms P). exists ws. auto. }
        destruct St as (X & Y). apply (proj1 (once_still _)) in X. destruct (G X) as (cb & cp & G1 & G2 & G3).
        destruct Y as [Y|[Y|(cb' & cr & Y1 & Y2 & Y3)]]; [apply (proj1 (once_still _)) in Y; congruence ..|].
        apply (proj1 (once_still _)) in Y1. apply (proj1 (once_still _)) in Y2. apply Y3. congruence.
      + exact (tr_section sanitise h fs q r e Lr F U).
      + exact (tr_directory sanitise h fs q r Lr F D).
      + exact (tr_listing sanitise h fs q r bf af Lr F D Fb).
      + exact (tr_no_toc sanitise h fs q r files Lr F D Fb).
    - intros H. inversion H as [U|k U|st U1 U2|st U P|st k U1 U2 U3|base names n T I N|r k Lr F U|r Lr F D|r bf af Lr F D Fb|r files Lr F D Fb]; subst;
        try apply lists_still in Lr.
      + apply ts_toc_unreadable. now apply (proj2 (once_still _)).
      + apply ts_toc_container. now apply (proj2 (once_still _)).
      + apply ts_toc_kind. apply (proj2 (once_still _)). now exists st.
      + apply ts_toc_place; [apply (proj2 (once_still _)); now exists st|exact P].
      + apply ts_toc_content. apply (proj2 (once_still _)). exists st. auto.
      + assert (T' : toc_seen h still a b q base names) by (apply (proj2 (once_still _)); exact T).
        assert (E : resolve_entry_path sanitise fs base n = Err InvalidPath).
        { destruct (resolve_cases sanitise fs base n) as [E|(r & E)]; [exact E|]. apply resolve_ok in E. contradiction (N r E). }
        rewrite <- (still_resolve sanitise fs base n) in E.
        assert (F : failing still 0 (steps_of still 0 (io_resolve sanitise base n)) 0 (io_resolve sanitise base n) (Some InvalidPath))
          by (split; [lia|split; [lia|exact E]]).
        apply resolve_failing in F as (_ & [Z|(ns & P & X & Y)]); [exact (ts_entry_name sanitise h still a b q base names n T' I Z)|].
        apply (ts_entry_strays sanitise h still a b q base names n ns T' I P). split; [apply (proj2 (once_still _)); destruct X as (t & _ & X); exact X|].
        destruct Y as [(t & _ & Y)|[(t & _ & Y)|(cb & cr & (t & _ & Y1) & (t' & _ & Y2) & Y3)]];
          [left; now apply (proj2 (once_still _))|right; left; now apply (proj2 (once_still _))|right; right; exists cb, cr].
        split; [now apply (proj2 (once_still _))|split; [now apply (proj2 (once_still _))|exact Y3]].
      + apply (ts_section sanitise h still a b q r e Lr); now apply (proj2 (once_still _)).
      + apply (ts_directory sanitise h still a b q r Lr); now apply (proj2 (once_still _)).
      + apply (ts_listing sanitise h still a b q r bf af Lr); [now apply (proj2 (once_still _)) ..|exact Fb].
      + apply (ts_no_toc sanitise h still a b q r files Lr); [now apply (proj2 (once_still _)) ..|exact Fb].
  Qed.
End Still.
