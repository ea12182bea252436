(** Property theorems: why an opened section or table of contents cannot be read
    (C83). *)
From Coq Require Import Lia.
From Verif Require Import Base Codec Package PropSet PropIds Store Shapes Props Nodes Doc SpecCodec SpecStore SpecValues
  SpecNodes SpecDoc SpecNotebook Notebook SpecKinds SpecCause
  BaseProofs NodesProofs DocProofs DocProofs6 NotebookProofs CauseProofs CauseProofs2 CauseProofs3 CauseProofs4
  SpecPackage SpecPropSet ExampleFile PropertiesStore ExampleSection PropertiesDoc
  ExampleNotebook PropertiesNotebook.

(** ** C83 *)
(** An error is given for the bytes, for the kind of file, or for something wrong in
    the document as described in SpecCause.v. *)
Theorem C83_cause : forall h fuel data file e, parse_section_buffer h fuel data file = Err e ->
  ((forall st, ~ opens h data st) /\ In e container_kinds) \/
  exists st, opens h data st /\
    ((st_schema st <> 0x1F937CB4B26F445FB9F817E20160E461 /\ e = NotASectionFile) \/
     (st_schema st = 0x1F937CB4B26F445FB9F817E20160E461 /\ fault st e)).
Proof. exact buffer_cause. Qed.
Print Assumptions C83_cause.
(** Anything wrong in the document prevents a result. *)
Theorem C83_prevented : forall h data st e, opens h data st -> fault st e ->
  forall fuel file s, parse_section_buffer h fuel data file <> Ok s.
Proof. exact buffer_prevented. Qed.
Print Assumptions C83_prevented.
(** So of a document all of whose faults are of one kind no other error is given, and
    of one without faults none. *)
Theorem C83_only : forall h data st e, opens h data st -> st_schema st = 0x1F937CB4B26F445FB9F817E20160E461 ->
  (forall e', fault st e' -> e' = e) ->
  forall fuel file e', parse_section_buffer h fuel data file = Err e' -> e' = e.
Proof. exact buffer_only. Qed.
Print Assumptions C83_only.
Theorem C83_none : forall h data st, opens h data st -> st_schema st = 0x1F937CB4B26F445FB9F817E20160E461 ->
  (forall e, ~ fault st e) -> forall fuel file e, parse_section_buffer h fuel data file <> Err e.
Proof. exact buffer_none. Qed.
Print Assumptions C83_none.
(** The same of tables of contents. *)
Theorem C83_toc : forall fuel sp e, parse_toc fuel sp = Err e -> toc_fault sp e.
Proof. exact (fun f sp e => toc_blame sp f e). Qed.
Print Assumptions C83_toc.
Theorem C83_toc_prevented : forall sp e, toc_fault sp e -> forall fuel r, parse_toc fuel sp <> Ok r.
Proof. exact toc_prevented. Qed.
Print Assumptions C83_toc_prevented.

(** What the kinds mean for a file that opens. Of a half surrogate pair: *)
Theorem C83_character : forall h fuel data file st, opens h data st ->
  parse_section_buffer h fuel data file = Err Utf16Error ->
  exists sp i o run style, visits st sp i R_text /\ get_object sp i = Some o /\ run_of sp o run style /\
    sy_math_formatting style = true /\ half_character run.
Proof. exact character_cause. Qed.
Print Assumptions C83_character.
(** Of data that ends early: *)
Theorem C83_short : forall h fuel data file st, opens h data st ->
  parse_section_buffer h fuel data file = Err UnexpectedEof ->
  exists sp i r o, visits st sp i r /\ get_object sp i = Some o /\
    ((In r [R_section; R_series; R_page_meta] /\ short_guid o) \/ (In r [R_outline; R_cell] /\ short_indents o)).
Proof. exact short_cause. Qed.
Print Assumptions C83_short.
(** A section, series or page with a short GUID is always reported as such. *)
Theorem C83_short_guid : forall o, short_guid o ->
  (ob_jcid o = 0x00060007 -> section_node_parse o = Err UnexpectedEof) /\
  (ob_jcid o = 0x00060008 -> page_series_node_parse o = Err UnexpectedEof) /\
  (ob_jcid o = 0x00020030 -> page_metadata_parse o = Err UnexpectedEof).
Proof. exact short_guid_reported. Qed.
Print Assumptions C83_short_guid.

(** Pages with a missing object, an item of a wrong kind, a page of a wrong kind, a
    short GUID, short indents, half a character in a formula; and one that is read. *)
Definition page_of (os : list ex_object) : res section :=
  parse_section_buffer order_id 20 (section_file None os [] []) [97].
Definition page_with (os : list ex_object) : res section :=
  page_of ([page_meta_object; manifest_object; page_obj [] [210]; style_obj 240 []] ++ os).
Example C83_example :
  page_with [] = Err MalformedOneNoteData /\
  page_with [outline_obj 210 [240]] = Err MalformedOneNoteData /\
  page_of [page_meta_object; manifest_object; style_obj 203 []] = Err MalformedOneNoteFileData /\
  page_of [obj 201 0x20030 [(0x1C30, SVec [1; 2; 3])] []; manifest_object; page_obj [] []] = Err UnexpectedEof /\
  page_with [obj 210 0x6000C [(0x1D7A, SU32 1); (0x1C20, ids 0); (0x1C03, SU8 1); (0x1C12, SVec [1; 0; 0; 0])] []]
    = Err UnexpectedEof /\
  page_with [outline_obj 210 [211]; element_obj 211 [] [212] []; style_obj 241 [(0x3401, SBool true)];
             text_obj 212 [] [241] [[(0x3453, SU16 0xD800)]] []] = Err Utf16Error /\
  (exists s, page_with [outline_obj 210 []] = Ok s).
Proof. repeat (split; [vm_compute; reflexivity|]). eexists. vm_compute. reflexivity. Qed.
(** A file with a fault, one without, and one without roots, all of whose faults are of
    one kind. *)
Local Notation opened data := (open_store order_id 20 data).
Definition rootless : list N :=
  ex_file 0x1F937CB4B26F445FB9F817E20160E461 [IxCell root_cell (xid 30) (xser 30)]
    [xel 30 (ElCell (xid 31)); xel 31 (ElRevision (xid 31) (ExGuid 0 0) [])].
Example C83_faults :
  (exists st, opens order_id (section_file None [page_meta_object; manifest_object; page_obj [] [210]] [] []) st /\
    st_schema st = 0x1F937CB4B26F445FB9F817E20160E461 /\ fault st MalformedOneNoteData) /\
  (exists st, opens order_id rich_file st /\ st_schema st = 0x1F937CB4B26F445FB9F817E20160E461 /\ forall e, ~ fault st e) /\
  (exists st, opens order_id rootless st /\ st_schema st = 0x1F937CB4B26F445FB9F817E20160E461 /\
    fault st MalformedOneNoteData /\ forall e, fault st e -> e = MalformedOneNoteData).
Proof.
  refine (conj _ (conj _ _)).
  - pose (data := section_file None [page_meta_object; manifest_object; page_obj [] [210]] [] []).
    assert (H : parse_section_buffer order_id 20 data [97] = Err MalformedOneNoteData) by (vm_compute; reflexivity).
    assert (O : match opened data with Ok _ => true | _ => false end = true) by (vm_compute; reflexivity).
    destruct (opened data) as [st| | |] eqn:X; try discriminate O.
    assert (Hs : opens order_id data st) by (exists 20%nat; exact X). exists st. split; [exact Hs|].
    destruct (opened_cause _ _ _ _ _ _ Hs H) as [(_ & K)|K]; [discriminate K|exact K].
  - assert (H : match opened rich_file with Ok st => st_schema st =? 0x1F937CB4B26F445FB9F817E20160E461 | _ => false end = true)
      by (vm_compute; reflexivity).
    assert (R : match parse_section_buffer order_id 20 rich_file [97] with Ok _ => true | _ => false end = true)
      by (vm_compute; reflexivity).
    destruct (opened rich_file) as [st| | |] eqn:X; try discriminate H. apply N.eqb_eq in H.
    assert (Hs : opens order_id rich_file st) by (exists 20%nat; exact X). exists st. refine (conj Hs (conj H _)).
    destruct (parse_section_buffer order_id 20 rich_file [97]) as [s| | |] eqn:Y; try discriminate R.
    intros e F. exact (C83_prevented _ _ _ _ Hs F _ _ _ Y).
  - assert (H : match opened rootless with
                | Ok st => match metadata_root (st_data_root st), content_root (st_data_root st) with
                           | None, None => st_schema st =? 0x1F937CB4B26F445FB9F817E20160E461 | _, _ => false end
                | _ => false end = true) by (vm_compute; reflexivity).
    destruct (opened rootless) as [st| | |] eqn:X; try discriminate H.
    destruct (metadata_root (st_data_root st)) eqn:M; [discriminate H|].
    destruct (content_root (st_data_root st)) eqn:C; [discriminate H|]. apply N.eqb_eq in H.
    exists st. refine (conj _ (conj H (conj _ _))); [exists 20%nat; exact X|apply fa_section_root; left; exact M|].
    assert (V : forall sp i r, visits st sp i r -> False).
    { intros sp i r V. induction V; congruence || assumption. }
    intros e F. destruct F as [| | | |sp i r o e W]; [reflexivity ..|]. contradiction (V _ _ _ W).
Qed.
(** Tables of contents with a missing entry, an entry without a number and one of another
    kind, and their faults. *)
Example C83_toc_example :
  let sp1 := toc_of (toc_file [toc_folder_obj 101 [102]]) in
  let sp2 := toc_of (toc_file [obj 101 0x20001 [(0x1D6B, utf16 [97])] []]) in
  let sp3 := toc_of (toc_file [toc_folder_obj 101 [102]; style_obj 102 []]) in
  parse_toc 5 sp1 = Err MalformedOneNoteData /\ parse_toc 5 sp2 = Err MalformedOneNoteData /\
  parse_toc 5 sp3 = Err MalformedOneNoteFileData /\
  toc_fault sp1 MalformedOneNoteData /\ toc_fault sp2 MalformedOneNoteData /\ toc_fault sp3 MalformedOneNoteFileData.
Proof.
  cbv zeta. refine (conj _ (conj _ (conj _ (conj _ (conj _ _)))));
    [vm_compute; reflexivity .. | apply (C83_toc 5) | apply (C83_toc 5) | apply (C83_toc 5)]; vm_compute; reflexivity.
Qed.
