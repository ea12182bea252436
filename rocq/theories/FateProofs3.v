(** What becomes of a section file. *)
From Coq Require Import Lia ZifyBool ZifyNat ZifyN Relations.
From Verif Require Import Base BaseProofs Codec Package PropSet PropIds PackageProofs Store Shapes Props Nodes Doc Notebook
  SpecCodec SpecStore SpecValues SpecNodes SpecKinds StoreProofs StoreProofs3 NodesProofs NodesProofs2 NodesProofs3 SpecDoc DocProofs DocProofs2
  DocProofs3 DocProofs4 DocProofs5 DocProofs6 SpecNotebook NotebookProofs NotebookProofs2 SpecCause CauseProofs CauseProofs2 CauseProofs3 CauseProofs4
  SpecOpen OpenProofs OpenProofs2 OnceProofs SpecFate FateProofs FateProofs2.
Local Open Scope nat_scope.

(** Steps that suffice for all the pages of a store. *)
Definition page_steps (st : store) : nat := S (2 * list_max (map (fun x => length (sp_objects (snd x))) (st_spaces st))).
Lemma page_steps_wide st c sp : object_space st c = Some sp -> wide (page_steps st) sp.
Proof.
  intros H. apply (alookup_in cellid_eqb PackageRT.cellid_eqb_eq) in H. unfold wide, page_steps.
  assert (L : length (sp_objects sp) <= list_max (map (fun x => length (sp_objects (snd x))) (st_spaces st))).
  { apply (in_map (fun x => length (sp_objects (snd x)))) in H. cbn [snd] in H.
    pose proof (proj1 (list_max_le _ _) (le_n (list_max (map (fun x => length (sp_objects (snd x))) (st_spaces st))))) as F.
    exact (proj1 (Forall_forall _ _) F _ H). }
  lia.
Qed.
Section Store.
  Variables (st : store) (name : list N).
  Notation reading f := (parse_section f st name).
  Lemma section_crashes f : reading f = Panic -> crash_at st.
  Proof. apply (section_fate st f name). Qed.
  Lemma section_ends f : page_steps st <= f -> ~ comes_round st -> reading f <> OutOfFuel.
  Proof.
    intros L N H. apply N. apply (proj2 (section_fate st f name) H). intros c sp _ S. apply page_steps_wide in S.
    unfold wide in *. lia.
  Qed.
  Lemma section_clear f s : reading f = Ok s -> (forall e, ~ fault st e) /\ ~ crash_at st /\ ~ comes_round st.
  Proof.
    intros H. assert (S : section_is st name s) by (apply section_iff; exists f; exact H).
    split; [intros e; exact (fault_unreadable st name s e S)|].
    split; [exact (read_no_crash st name s S)|exact (read_no_round st name s S)].
  Qed.
  Lemma section_reads f : (forall e, ~ fault st e) -> ~ crash_at st -> ~ comes_round st -> page_steps st <= f ->
    exists s, reading f = Ok s.
  Proof.
    intros F C R L. destruct (reading f) as [s|e| |] eqn:E.
    - eauto.
    - apply section_blame in E. contradiction (F e E).
    - apply section_crashes in E. contradiction.
    - contradiction (section_ends f L R E).
  Qed.
  Lemma section_read_iff : (exists f s, reading f = Ok s) <-> (forall e, ~ fault st e) /\ ~ crash_at st /\ ~ comes_round st.
  Proof.
    split; [intros (f & s & H); exact (section_clear f s H)|]. intros (F & C & R). exists (page_steps st). now apply section_reads.
  Qed.
End Store.

(** ** The bytes of a file *)
Notation a_section st := (st_schema st = 0x1F937CB4B26F445FB9F817E20160E461%N).
Lemma open_no_panic h f data : open_store h f data <> Panic.
Proof.
  intros H. unfold open_store in H. apply crash_bind in H as [H|(pg & _ & H)].
  - unfold run in H. apply crash_bind in H as [H|([pg r] & _ & H)]; [|discriminate H].
    destruct (PackageFacts.good_total _ _ PackageProofs.good_packaging data) as [(x & r & T)|(e & T)]; congruence.
  - now apply parse_store_no_panic in H.
Qed.
Lemma buffer_of h f data file st : open_store h f data = Ok st -> a_section st ->
  parse_section_buffer h f data file = parse_section f st file.
Proof. intros H S. unfold parse_section_buffer. rewrite H. cbn [rbind]. rewrite S. reflexivity. Qed.
Lemma buffer_case h f data file st : open_store h f data = Ok st -> st_schema st <> 0x1F937CB4B26F445FB9F817E20160E461%N ->
  parse_section_buffer h f data file = Err NotASectionFile.
Proof.
  intros H S. unfold parse_section_buffer. rewrite H. cbn [rbind]. apply N.eqb_neq in S.
  change section_schema with 0x1F937CB4B26F445FB9F817E20160E461%N. now rewrite S.
Qed.
(** Once open, always open. *)
Lemma opened_enough h data st : opens h data st -> exists k, forall f, k <= f -> open_store h f data = Ok st.
Proof. intros (k & H). exists k. intros f L. rewrite <- H. apply (open_fuel h k f data L). rewrite H. discriminate. Qed.
Lemma opened_or_short h data st f : opens h data st -> open_store h f data = Ok st \/ open_store h f data = OutOfFuel.
Proof.
  intros O. destruct (opened_enough h data st O) as (k & K). specialize (K (k + f) ltac:(lia)).
  destruct (open_store h f data) as [x|e| |] eqn:E; [left| | |now right].
  - assert (R := open_fuel h f (k + f) data ltac:(lia)). unfold refines in R. rewrite E, K in R. specialize (R ltac:(discriminate)). congruence.
  - assert (R := open_fuel h f (k + f) data ltac:(lia)). unfold refines in R. rewrite E, K in R. specialize (R ltac:(discriminate)). discriminate R.
  - contradiction (open_no_panic _ _ _ E).
Qed.
Lemma buffer_read_iff h data file : (exists f s, parse_section_buffer h f data file = Ok s) <->
  exists st, opens h data st /\ a_section st /\ (forall e, ~ fault st e) /\ ~ crash_at st /\ ~ comes_round st.
Proof.
  split.
  - intros (f & s & H). assert (H' := H). unfold parse_section_buffer in H'. apply bind_ok in H' as (st & O & H').
    destruct (st_schema st =? section_schema)%N eqn:S; [|discriminate H']. apply N.eqb_eq in S. exists st.
    split; [exists f; exact O|]. split; [exact S|]. exact (section_clear st file f s H').
  - intros (st & O & S & F & C & R). destruct (opened_enough h data st O) as (k & K). exists (k + page_steps st).
    rewrite (buffer_of _ _ _ _ _ (K (k + page_steps st) ltac:(lia)) S). apply section_reads; [exact F|exact C|exact R|lia].
Qed.
Lemma buffer_crashes h data file f : parse_section_buffer h f data file = Panic ->
  exists st, opens h data st /\ a_section st /\ crash_at st.
Proof.
  intros H. unfold parse_section_buffer in H. apply crash_bind in H as [H|(st & O & H)]; [contradiction (open_no_panic _ _ _ H)|].
  destruct (st_schema st =? section_schema)%N eqn:S; [|discriminate H]. apply N.eqb_eq in S. exists st.
  split; [exists f; exact O|]. split; [exact S|]. exact (section_crashes st file f H).
Qed.
Lemma buffer_ends h data file :
  (forall pg rest, packaging_parse data = Ok (pg, rest) -> ~ endless h pg) ->
  (forall st, opens h data st -> a_section st -> ~ comes_round st) ->
  exists k r, r <> OutOfFuel /\ forall f, k <= f -> parse_section_buffer h f data file = r.
Proof.
  intros E R. assert (X : exists k, parse_section_buffer h k data file <> OutOfFuel).
  { destruct (packaging_parse data) as [[pg rest]|e| |] eqn:P;
      [|exists 0; unfold parse_section_buffer, open_store, run; rewrite P; discriminate..|].
    - set (f := S (length (pk_revisions (pg_package pg)))). destruct (open_store h f data) as [st|e| |] eqn:O.
      + assert (OS : opens h data st) by (exists f; exact O).
        destruct (N.eq_dec (st_schema st) 0x1F937CB4B26F445FB9F817E20160E461%N) as [S|S].
        * exists (f + page_steps st).
          assert (O' : open_store h (f + page_steps st) data = Ok st)
            by (rewrite <- O; apply (open_fuel h f (f + page_steps st) data ltac:(lia)); rewrite O; discriminate).
          rewrite (buffer_of _ _ _ _ _ O' S). apply section_ends; [lia|exact (R st OS S)].
        * exists f. rewrite (buffer_case _ _ _ _ _ O S). discriminate.
      + exists f. unfold parse_section_buffer. rewrite O. discriminate.
      + contradiction (open_no_panic _ _ _ O).
      + exfalso. rewrite (open_of _ _ _ _ _ P) in O.
        exact (store_ends h pg (packaging_parse_ok _ _ _ P) f (E pg rest eq_refl) ltac:(subst f; lia) O).
    - destruct (PackageFacts.good_total _ _ PackageProofs.good_packaging data) as [(x & r & T)|(e & T)]; congruence. }
  destruct X as (k & X). exists k, (parse_section_buffer h k data file). split; [exact X|]. intros f L.
  exact (buffer_fuel h k f data file L X).
Qed.
Section Opened.
  Variables (h : order) (data file : list N) (st : store).
  Hypothesis O : opens h data st.
  Hypothesis S : a_section st.
  Notation result f := (parse_section_buffer h f data file).
  Lemma result_cases f : result f = OutOfFuel \/ result f = parse_section f st file.
  Proof.
    destruct (opened_or_short h data st f O) as [E|E].
    - right. exact (buffer_of _ _ _ _ _ E S).
    - left. unfold parse_section_buffer. now rewrite E.
  Qed.
  Lemma result_later : exists k, forall f, k <= f -> result f = parse_section f st file.
  Proof. destruct (opened_enough h data st O) as (k & K). exists k. intros f L. exact (buffer_of _ _ _ _ _ (K f L) S). Qed.
  Lemma only_crash : crash_at st -> (forall e, ~ fault st e) -> ~ comes_round st ->
    exists k, forall f, k <= f -> result f = Panic.
  Proof.
    intros C F R. destruct result_later as (k & K). exists (k + page_steps st). intros f L. rewrite K by lia.
    destruct (parse_section f st file) as [s|e| |] eqn:E; [| |reflexivity|].
    - apply section_clear in E as (_ & E & _). contradiction.
    - apply section_blame in E. contradiction (F e E).
    - contradiction (section_ends st file f ltac:(lia) R E).
  Qed.
  Lemma only_round : comes_round st -> (forall e, ~ fault st e) -> ~ crash_at st -> forall f, result f = OutOfFuel.
  Proof.
    intros R F C f. destruct (result_cases f) as [E| ->]; [exact E|].
    destruct (parse_section f st file) as [s|e| |] eqn:E; [| | |reflexivity].
    - apply section_clear in E as (_ & _ & E). contradiction.
    - apply section_blame in E. contradiction (F e E).
    - apply section_crashes in E. contradiction.
  Qed.
  Lemma only_fault e : fault st e -> (forall e', fault st e' -> e' = e) -> ~ crash_at st -> ~ comes_round st ->
    exists k, forall f, k <= f -> result f = Err e.
  Proof.
    intros F U C R. destruct result_later as (k & K). exists (k + page_steps st). intros f L. rewrite K by lia.
    destruct (parse_section f st file) as [s|e'| |] eqn:E.
    - apply section_clear in E as (E & _). contradiction (E e F).
    - apply section_blame in E. now rewrite (U e' E).
    - apply section_crashes in E. contradiction.
    - contradiction (section_ends st file f ltac:(lia) R E).
  Qed.
End Opened.

(** ** Tables of contents *)
Lemma toc_visits_below sp i j : toc_visits sp i -> clos_trans _ (below sp) i j -> toc_visits sp j.
Proof.
  intros V T. induction T as [i j (o & d & G & D & F & J)|i j k _ IH1 _ IH2]; [exact (tv_child sp i o d j V G D F J)|auto].
Qed.
Definition visited_below (sp : space) (i j : exguid) : Prop := toc_visits sp i /\ below sp i j.
Lemma visited_trans sp i j : clos_trans _ (visited_below sp) i j -> clos_trans _ (below sp) i j.
Proof. induction 1 as [i j (_ & H)|i j k _ IH1 _ IH2]; [now apply t_step|eapply t_trans; eauto]. Qed.
Lemma visited_first sp i j : clos_trans _ (visited_below sp) i j -> toc_visits sp i.
Proof. induction 1 as [i j (H & _)|i j k _ IH1 _ IH2]; assumption. Qed.
Lemma visited_steps sp n i : toc_visits sp i -> steps (below sp) n i -> steps (visited_below sp) n i.
Proof.
  intros V H. revert V. induction H as [a|n a b L H IH]; intros V; [constructor|]. apply (st_more _ _ _ b); [split; assumption|].
  apply IH. apply (toc_visits_below sp a); [exact V|]. now apply t_step.
Qed.
Lemma toc_ends sp f : ~ toc_comes_round sp -> length (sp_objects sp) < f -> parse_toc f sp <> OutOfFuel.
Proof.
  intros N L H. unfold parse_toc in H. apply fuel_bind in H as [H|(i & R & H)]; [now destruct (content_root sp)|].
  apply fuel_bind in H as [H|(e & _ & H)]; [|discriminate H]. apply toc_entry_fuel in H.
  assert (V : toc_visits sp i) by (apply tv_root; destruct (content_root sp); [now injection R as ->|discriminate R]).
  apply (visited_steps sp f i V) in H. apply (steps_bounded _ (map fst (sp_objects sp))) in H.
  - rewrite map_length in H. lia.
  - intros a b (_ & B). exact (below_object sp a b B).
  - intros a C. apply N. exists a. split; [exact (visited_first _ _ _ C)|exact (visited_trans _ _ _ C)].
Qed.
Lemma toc_visited_acc sp i j : toc_visits sp j -> content_root sp = Some i -> Acc (fun b a => below sp a b) i -> Acc (fun b a => below sp a b) j.
Proof.
  intros V R A. induction V as [k K|k o d q V IH G D F J]; [congruence|]. apply IH. exists o, d. auto.
Qed.
Lemma toc_clear sp f r : parse_toc f sp = Ok r -> (forall e, ~ toc_fault sp e) /\ ~ toc_comes_round sp.
Proof.
  intros H. split.
  - intros e F. exact (toc_prevented sp e F f r H).
  - intros (i & V & C). unfold parse_toc in H. apply bind_ok in H as (j & R & H). apply bind_ok in H as (e & H & _).
    apply toc_entry_acc in H. assert (Q : content_root sp = Some j) by (destruct (content_root sp); [now injection R as ->|discriminate R]).
    apply (toc_visited_acc sp j i V Q) in H. revert C. now apply acc_loop.
Qed.
Lemma toc_reads sp f : (forall e, ~ toc_fault sp e) -> ~ toc_comes_round sp -> length (sp_objects sp) < f ->
  exists r, parse_toc f sp = Ok r.
Proof.
  intros F R L. destruct (parse_toc f sp) as [r|e| |] eqn:E.
  - eauto.
  - apply toc_blame in E. contradiction (F e E).
  - contradiction (toc_no_panic _ _ E).
  - contradiction (toc_ends _ _ R L E).
Qed.
Lemma toc_read_iff sp : (exists f r, parse_toc f sp = Ok r) <-> (forall e, ~ toc_fault sp e) /\ ~ toc_comes_round sp.
Proof.
  split; [intros (f & r & H); exact (toc_clear sp f r H)|]. intros (F & R). exists (S (length (sp_objects sp))). apply toc_reads; [exact F|exact R|lia].
Qed.
Lemma toc_round sp : toc_comes_round sp -> (forall e, ~ toc_fault sp e) -> forall f, parse_toc f sp = OutOfFuel.
Proof.
  intros R F f. destruct (parse_toc f sp) as [r|e| |] eqn:E; [| | |reflexivity].
  - apply toc_clear in E as (_ & E). contradiction.
  - apply toc_blame in E. contradiction (F e E).
  - contradiction (toc_no_panic _ _ E).
Qed.
