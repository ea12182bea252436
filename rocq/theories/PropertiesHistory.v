(** C70: a file holds a history of saves, and is read as the state after the last. *)
From Verif Require Import Base Codec SpecCodec Package SpecPackage PropSet SpecPropSet Store SpecStore SpecAccept SpecSame SpecFile SpecHistory Notebook
  HistoryProofs HistoryProofs2 HistoryAuthor FileProofs AuthorProofs ExampleFile PropertiesFile.

(** Whatever the encoding and layout of the file. *)
Theorem C70_read : forall d els H h fuel,
  holds d els -> holds_history (content els) H -> history_fits H ->
  Forall (fun es => (length es <= fuel)%nat) (histories H) ->
  exists st, open_store h fuel d = Ok st /\ store_is (final H) st.
Proof. exact history_read. Qed.
Print Assumptions C70_read.

(** The state after the last save: of every object the version of the last save
    that wrote it, of every role the first declaration. *)
Theorem C70_latest : forall es x, Forall space_fits es ->
  (In x (sd_objects (after es)) <->
   exists older e newer, es = older ++ e :: newer /\ In x (sd_objects e) /\
     forall e', In e' newer -> ~ In (od_id x) (map od_id (sd_objects e'))).
Proof. exact after_latest. Qed.
Print Assumptions C70_latest.
Theorem C70_roots : forall es role x,
  In (role, x) (sd_roots (after es)) <->
  exists older e newer, es = older ++ e :: newer /\ In (role, x) (sd_roots e) /\
    forall e', In e' older -> ~ In role (map fst (sd_roots e')).
Proof. exact after_first. Qed.
Print Assumptions C70_roots.
Theorem C70_fits : forall H, history_fits H -> store_fits (final H).
Proof. exact final_fits. Qed.
Print Assumptions C70_fits.

(** Only the end counts. *)
Theorem C70_section : forall fuel d d' h h' file, ends_alike fuel d d' ->
  parse_section_buffer h fuel d file = parse_section_buffer h' fuel d' file.
Proof. exact ends_section. Qed.
Print Assumptions C70_section.
Theorem C70_notebook : forall fuel fs fs', same_files (fun d d' => d = d' \/ ends_alike fuel d d') fs fs' ->
  forall s h depth p, parse_notebook s h depth fuel fs p = parse_notebook s h depth fuel fs' p.
Proof. exact ends_notebook. Qed.
Print Assumptions C70_notebook.

(** A file with all revisions and a file with the end state alone. *)
Theorem C70_flat : forall d els d' els' H n,
  holds d els -> holds_history (content els) H -> history_fits H ->
  Forall (fun es => (length es <= n)%nat) (histories H) -> (1 <= n)%nat ->
  holds d' els' -> holds_store (content els') (final H) -> ends_alike n d d'.
Proof. exact flat_alike. Qed.
Print Assumptions C70_flat.

(** A save that stopped before the index was written: its elements are there, and
    nothing leads to them. *)
Theorem C70_interrupted : forall d d' els els' H n,
  holds d els -> holds d' els' -> holds_history (content els) H -> history_fits H ->
  Forall (fun es => (length es <= n)%nat) (histories H) ->
  incl (content els) (content els') -> unambiguous (content els') -> ends_alike n d d'.
Proof. exact interrupted. Qed.
Print Assumptions C70_interrupted.

Theorem C70_written : forall H, history_fits H -> history_in_range H ->
  exists d els, bytes_ok d /\ holds d els /\ holds_history (content els) H.
Proof. exact history_author. Qed.
Print Assumptions C70_written.

(** The second save changes one object, adds another and declares a role again; the
    third brings a role. *)
Definition example_history : history := History 7 8 9 (Some 3) 4 (xid 3, xid 4)
  [ td_root example_desc;
    SpaceDesc [(DefaultContent, xid 7)]
      [ObjectDesc (xid 2) 0x20031 (OSet [] None [(8, SU8 1)]) [] [] None;
       ObjectDesc (xid 7) 0x60007 (OSet [CompactId 1 0] None [(5, SObjectIds 1)]) [xid 1] [] None];
    SpaceDesc [(VersionMetadata, xid 7)] [] ]
  [((xid 5, xid 6), [SpaceDesc [] [ObjectDesc (xid 1) 0x60008 (OSet [] None []) [] [] None]])].
Example C70_example_after :
  sd_roots (after (hi_root example_history)) = [(DefaultContent, xid 1); (MetadataRole, xid 2); (VersionMetadata, xid 7)] /\
  sd_objects (after (hi_root example_history)) =
    [ObjectDesc (xid 2) 0x20031 (OSet [] None [(8, SU8 1)]) [] [] None;
     ObjectDesc (xid 7) 0x60007 (OSet [CompactId 1 0] None [(5, SObjectIds 1)]) [xid 1] [] None;
     ObjectDesc (xid 1) 0x60007 (OSet [CompactId 1 0; CompactId 1 1] (Some ([CompactId 2 0], None)) [(5, SObjectIds 2); (6, SSpaceId)])
       [xid 2; xid 1] [(xid 5, xid 6)] None].
Proof. split; reflexivity. Qed.
Ltac fits := unfold space_fits, object_fits; cbn; refine (conj _ (conj _ _)); [nodup|nodup|repeat constructor].
Lemma set_written d : w_oset_ok (od_set d) = true -> set_bytes (os_props (od_set d)) -> (N.of_nat (length (w_oset (od_set d))) <? 2 ^ 64) = true ->
  exists e, l_oset (od_set d) e /\ bytes_ok e /\ N.of_nat (length e) < 2 ^ 64.
Proof. intros A C B. exists (w_oset (od_set d)). split; [now apply in_oset|]. split; [now apply w_oset_bytes|now apply N.ltb_lt]. Qed.
Ltac ranges := refine (conj _ (conj _ eq_refl)); repeat constructor; try reflexivity; apply set_written; repeat constructor.
Example C70_example : history_fits example_history /\ history_in_range example_history.
Proof.
  split.
  - split; [nodup|]. constructor; [|constructor; [|constructor]]; (split; [discriminate|]); repeat (apply Forall_cons; [fits|]); apply Forall_nil.
  - refine (conj eq_refl (conj eq_refl (conj eq_refl (conj eq_refl (conj eq_refl (conj _ (conj _ eq_refl))))))).
    + repeat constructor.
    + constructor; [|constructor; [|constructor]]; repeat (apply Forall_cons; [ranges|]); apply Forall_nil.
Qed.
(** And a file with the three saves and one with a single save are read alike. *)
Example C70_example_alike : exists d d' els els', ends_alike 3 d d' /\
  holds d els /\ holds_history (content els) example_history /\
  holds d' els' /\ holds_history (content els') (saved_once (final example_history)).
Proof.
  destruct C70_example as (F & R). destruct (C70_written _ F R) as (d & els & _ & A & B).
  assert (F' : history_fits (saved_once (final example_history))) by (apply once_fits, C70_fits, F).
  assert (R' : history_in_range (saved_once (final example_history))).
  { refine (conj eq_refl (conj eq_refl (conj eq_refl (conj eq_refl (conj eq_refl (conj _ (conj _ eq_refl))))))).
    - repeat constructor.
    - constructor; [|constructor; [|constructor]]; repeat (apply Forall_cons; [ranges|]); apply Forall_nil. }
  destruct (C70_written _ F' R') as (d' & els' & _ & A' & B'). exists d, d', els, els'.
  refine (conj _ (conj A (conj B (conj A' B')))).
  exists els, els', example_history, (saved_once (final example_history)).
  refine (conj A (conj A' (conj B (conj B' (conj F (conj F' (conj _ (conj _ (flat_end _ F))))))))); repeat constructor.
Qed.
