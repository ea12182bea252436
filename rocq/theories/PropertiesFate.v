(** Property theorems: what becomes of the reading of a section file or a table of
    contents (C85). *)
From Coq Require Import Lia Relations.
From Verif Require Import Base Codec Package PropSet PropIds Store Nodes Doc Notebook SpecStore SpecNotebook SpecDoc SpecCause SpecOpen SpecFate
  NotebookProofs StoreProofs3 DocProofs6 CauseProofs4 OpenProofs2 FateProofs FateProofs3 FateExample
  SpecPackage SpecPropSet ExampleFile PropertiesStore ExampleSection PropertiesDoc ExampleNotebook PropertiesNotebook
  PropertiesCause PropertiesOpen.

(** ** C85 *)
(** A file is read as a section exactly when it opens (C84), says that it is a section,
    nothing in it is at fault (C83), none of its lists and paragraphs makes the reading
    crash, and none of the objects looked at leads back to itself. *)
Theorem C85_read : forall h data file, (exists fuel s, parse_section_buffer h fuel data file = Ok s) <->
  exists st, opens h data st /\ st_schema st = 0x1F937CB4B26F445FB9F817E20160E461 /\
    (forall e, ~ fault st e) /\ ~ crash_at st /\ ~ comes_round st.
Proof. exact buffer_read_iff. Qed.
Print Assumptions C85_read.
(** Only a list or paragraph that is looked at makes the reading crash. *)
Theorem C85_crash : forall h data file fuel, parse_section_buffer h fuel data file = Panic ->
  exists st, opens h data st /\ st_schema st = 0x1F937CB4B26F445FB9F817E20160E461 /\ crash_at st.
Proof. exact buffer_crashes. Qed.
Print Assumptions C85_crash.
(** The reading has a result, always the same from some number of steps on, unless
    revisions or objects lead round in circles. *)
Theorem C85_ends : forall h data file,
  (forall pg rest, packaging_parse data = Ok (pg, rest) -> ~ endless h pg) ->
  (forall st, opens h data st -> st_schema st = 0x1F937CB4B26F445FB9F817E20160E461 -> ~ comes_round st) ->
  exists k r, r <> OutOfFuel /\ forall fuel, (k <= fuel)%nat -> parse_section_buffer h fuel data file = r.
Proof. exact buffer_ends. Qed.
Print Assumptions C85_ends.
(** The steps that suffice for an opened store: two for each object of its largest
    space, and one. *)
Theorem C85_steps : forall st name fuel,
  (forall c sp, page_at st c -> object_space st c = Some sp -> (2 * length (sp_objects sp) < fuel)%nat) ->
  parse_section fuel st name = OutOfFuel -> comes_round st.
Proof. intros st name fuel H E. exact (proj2 (section_fate st fuel name) E H). Qed.
Print Assumptions C85_steps.
(** When there is only one obstacle, it decides: *)
Theorem C85_only_crash : forall h data file st, opens h data st -> st_schema st = 0x1F937CB4B26F445FB9F817E20160E461 ->
  crash_at st -> (forall e, ~ fault st e) -> ~ comes_round st ->
  exists k, forall fuel, (k <= fuel)%nat -> parse_section_buffer h fuel data file = Panic.
Proof. exact only_crash. Qed.
Print Assumptions C85_only_crash.
Theorem C85_only_round : forall h data file st, opens h data st -> st_schema st = 0x1F937CB4B26F445FB9F817E20160E461 ->
  comes_round st -> (forall e, ~ fault st e) -> ~ crash_at st ->
  forall fuel, parse_section_buffer h fuel data file = OutOfFuel.
Proof. exact only_round. Qed.
Print Assumptions C85_only_round.
Theorem C85_only_fault : forall h data file st, opens h data st -> st_schema st = 0x1F937CB4B26F445FB9F817E20160E461 ->
  forall e, fault st e -> (forall e', fault st e' -> e' = e) -> ~ crash_at st -> ~ comes_round st ->
  exists k, forall fuel, (k <= fuel)%nat -> parse_section_buffer h fuel data file = Err e.
Proof. exact only_fault. Qed.
Print Assumptions C85_only_fault.
(** A table of contents never makes the reading crash, and is read exactly when nothing
    in it is at fault and no entry leads back to itself. *)
Theorem C85_toc : forall sp,
  ((exists fuel r, parse_toc fuel sp = Ok r) <-> (forall e, ~ toc_fault sp e) /\ ~ toc_comes_round sp) /\
  (forall fuel, parse_toc fuel sp <> Panic) /\
  (forall fuel, (length (sp_objects sp) < fuel)%nat -> ~ toc_comes_round sp -> parse_toc fuel sp <> OutOfFuel) /\
  (toc_comes_round sp -> (forall e, ~ toc_fault sp e) -> forall fuel, parse_toc fuel sp = OutOfFuel).
Proof.
  intros sp. refine (conj (toc_read_iff sp) (conj (fun f => toc_no_panic sp f) (conj _ (toc_round sp)))).
  intros f L N. exact (toc_ends sp f N L).
Qed.
Print Assumptions C85_toc.

(** Files in which all is well, in which a list has a cut number format, in which a group
    is its own item, and which have no roots. *)
Local Notation opened data := (open_store order_id 20 data).
Definition page_file (os : list ex_object) : list N :=
  section_file None ([page_meta_object; manifest_object; page_obj [] [210]; outline_obj 210 [211]] ++ os) [] [].
Definition cut_list : list N :=
  page_file [element_obj 211 [] [] [213]; obj 213 0x60012 [(0x1D7A, SU32 1); (0x1C1A, SVec [3])] []].
Definition own_item : list N := page_file [group_obj 211 [211]].
Definition in_section : list seen := [(xid 101, R_section); (xid 103, R_series); (xid 102, R_section_meta)].
Definition in_page (more : list seen) : list seen :=
  [(xid 201, R_page_meta); (xid 202, R_manifest); (xid 203, R_page); (xid 210, R_page_content); (xid 210, R_outline); (xid 211, R_item)] ++ more.
Example C85_read_example : exists st, opens order_id rich_file st /\ st_schema st = 0x1F937CB4B26F445FB9F817E20160E461 /\
  (forall e, ~ fault st e) /\ ~ crash_at st /\ ~ comes_round st.
Proof.
  apply (C85_read order_id rich_file [97]).
  assert (R : match parse_section_buffer order_id 20 rich_file [97] with Ok _ => true | _ => false end = true)
    by (vm_compute; reflexivity).
  destruct (parse_section_buffer order_id 20 rich_file [97]) as [s| | |] eqn:Y; try discriminate R. exists 20%nat, s. exact Y.
Qed.
Example C85_crash_example : exists st, opens order_id cut_list st /\ st_schema st = 0x1F937CB4B26F445FB9F817E20160E461 /\
  crash_at st /\ (forall e, ~ fault st e) /\ ~ comes_round st.
Proof.
  assert (P : parse_section_buffer order_id 20 cut_list [97] = Panic) by (vm_compute; reflexivity).
  destruct (C85_crash _ _ _ _ P) as (st & O & S & C). exists st. refine (conj O (conj S (conj C _))).
  assert (X : match opened cut_list with
              | Ok st => let l1 := in_page [(xid 211, R_element); (xid 213, R_list)] in
                surveyed st in_section l1 && sorted (st_data_root st) in_section &&
                forallb (fun c => match object_space st c with Some sp => sorted sp l1 | None => false end) (page_cells st in_section)
              | _ => false end = true) by (vm_compute; reflexivity).
  destruct (opened cut_list) as [st'| | |] eqn:E; try discriminate X.
  assert (st' = st) as -> by (apply (NotebookProofs2.opens_fun order_id cut_list); [exists 20%nat; exact E|exact O]).
  cbv zeta in X. apply andb_prop in X as (X & X3). apply andb_prop in X as (X1 & X2).
  split; [intros e; exact (survey_faultless st _ _ X1 e)|exact (survey_ends st _ _ X1 X2 X3)].
Qed.
Example C85_round_example : exists st, opens order_id own_item st /\ st_schema st = 0x1F937CB4B26F445FB9F817E20160E461 /\
  comes_round st /\ (forall e, ~ fault st e) /\ ~ crash_at st.
Proof.
  assert (X : match opened own_item with
              | Ok st => let l1 := in_page [(xid 211, R_group)] in
                surveyed st in_section l1 && (st_schema st =? 0x1F937CB4B26F445FB9F817E20160E461) &&
                match parse_section (page_steps st) st [97] with OutOfFuel => true | _ => false end
              | _ => false end = true) by (vm_compute; reflexivity).
  destruct (opened own_item) as [st| | |] eqn:E; try discriminate X.
  cbv zeta in X. apply andb_prop in X as (X & X3). apply andb_prop in X as (X1 & X2). apply N.eqb_eq in X2.
  exists st. split; [exists 20%nat; exact E|]. split; [exact X2|].
  refine (conj _ (conj _ _)).
  - apply (C85_steps st [97] (page_steps st)).
    + intros c sp _ S. exact (page_steps_wide st c sp S).
    + destruct (parse_section (page_steps st) st [97]); try discriminate X3. reflexivity.
  - intros e. exact (survey_faultless st _ _ X1 e).
  - apply (survey_crashless st _ _ X1). reflexivity.
Qed.
Example C85_fault_example : exists st, opens order_id rootless st /\ st_schema st = 0x1F937CB4B26F445FB9F817E20160E461 /\
  fault st MalformedOneNoteData /\ (forall e, fault st e -> e = MalformedOneNoteData) /\ ~ crash_at st /\ ~ comes_round st.
Proof.
  assert (H : match opened rootless with
              | Ok st => match metadata_root (st_data_root st), content_root (st_data_root st) with
                         | None, None => st_schema st =? 0x1F937CB4B26F445FB9F817E20160E461 | _, _ => false end
              | _ => false end = true) by (vm_compute; reflexivity).
  destruct (opened rootless) as [st| | |] eqn:X; try discriminate H.
  destruct (metadata_root (st_data_root st)) eqn:M; [discriminate H|].
  destruct (content_root (st_data_root st)) eqn:C; [discriminate H|]. apply N.eqb_eq in H.
  exists st. refine (conj _ (conj H (conj _ _))); [exists 20%nat; exact X|apply fa_section_root; left; exact M|].
  assert (V : forall sp i r, visits st sp i r -> False).
  { intros sp i r V. induction V; congruence || assumption. }
  refine (conj _ (conj _ _)).
  - intros e F. destruct F as [| | | |sp i r o e W]; [reflexivity ..|]. contradiction (V _ _ _ W).
  - intros (sp & i & [(W & _)|(W & _)]); exact (V _ _ _ W).
  - intros (sp & i & r & W & _). exact (V _ _ _ W).
Qed.
(** Neither premise of [C85_ends] fails for a file that is read. *)
Example C85_ends_example :
  (forall pg rest, packaging_parse rich_file = Ok (pg, rest) -> ~ endless order_id pg) /\
  (forall st, opens order_id rich_file st -> st_schema st = 0x1F937CB4B26F445FB9F817E20160E461 -> ~ comes_round st).
Proof.
  destruct C85_read_example as (st & O & S & _ & _ & R). split.
  - intros pg rest P. destruct (proj1 (C84_opens order_id rich_file) (ex_intro _ st O)) as (pg' & rest' & P' & _ & N).
    assert (pg' = pg) as -> by congruence. exact N.
  - intros st' O' _. assert (st' = st) as -> by exact (NotebookProofs2.opens_fun order_id rich_file st' st O' O). exact R.
Qed.
(** A table of contents that is read, and one whose folder contains itself. *)
Example C85_toc_example :
  let sp1 := toc_of (toc_file [toc_folder_obj 101 []]) in
  let sp2 := toc_of (toc_file [toc_folder_obj 101 [101]]) in
  (exists r, parse_toc 5 sp1 = Ok r) /\ ((forall e, ~ toc_fault sp1 e) /\ ~ toc_comes_round sp1) /\
  parse_toc 5 sp2 = OutOfFuel /\ toc_comes_round sp2.
Proof.
  cbv zeta. assert (H : exists r, parse_toc 5 (toc_of (toc_file [toc_folder_obj 101 []])) = Ok r) by (eexists; vm_compute; reflexivity).
  refine (conj H (conj _ (conj _ _))).
  - apply C85_toc. exists 5%nat. exact H.
  - vm_compute. reflexivity.
  - set (sp := toc_of (toc_file [toc_folder_obj 101 [101]])).
    assert (X : match content_root sp with
                | Some i => match get_object sp i with
                            | Some o => match toc_parse o with
                                        | Ok d => match tc_filename d, tc_children d with None, j :: _ => exguid_eqb j i | _, _ => false end
                                        | _ => false end
                            | None => false end
                | None => false end = true) by (vm_compute; reflexivity).
    clearbody sp. destruct (content_root sp) as [i|] eqn:R; [|discriminate X].
    destruct (get_object sp i) as [o|] eqn:G; [|discriminate X]. destruct (toc_parse o) as [d| | |] eqn:D; try discriminate X.
    destruct (tc_filename d) eqn:F; [discriminate X|]. destruct (tc_children d) as [|j l] eqn:C; [discriminate X|].
    apply PackageRT.exguid_eqb_eq in X. subst j. exists i. split; [exact (tv_root sp i R)|]. apply t_step.
    exists o, d. rewrite C. apply NodesProofs2.toc_ok in D. refine (conj G (conj D (conj F _))). now left.
Qed.
