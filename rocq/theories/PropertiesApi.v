(** Property theorems about the entry points as a whole: cut files and trailing
    bytes (C56), kinds of errors (C57) and what a section depends on (C58). *)
From Coq Require Import Lia.
From Verif Require Import Base Codec SpecCodec Package SpecPackage PropSet SpecPropSet Store Shapes Props Nodes Doc SpecStore
  Notebook SpecApi SpecKinds ApiProofs KindsProofs ExtendProofs ExampleFile PropertiesStore ExampleSection ExampleNotebook.

Ltac computes := repeat match goal with |- _ /\ _ => split end; vm_compute; reflexivity.
Definition is_err {A} (r : res A) (e : ekind) : bool :=
  match r with
  | Err x => match x, e with
    | UnexpectedEof, UnexpectedEof | NotATocFile, NotATocFile | NotASectionFile, NotASectionFile
    | TocFileMissing, TocFileMissing | MalformedData, MalformedData | MalformedOneNoteData, MalformedOneNoteData
    | MalformedOneNoteFileData, MalformedOneNoteFileData | MalformedOneStoreData, MalformedOneStoreData
    | MalformedFssHttpBData, MalformedFssHttpBData | IO, IO | Utf16Error, Utf16Error | InvalidPath, InvalidPath => true
    | _, _ => false end
  | _ => false
  end.

(** ** C56 *)
(** Any answer but [UnexpectedEof] is final: it stays when more bytes follow. *)
Theorem C56_answer_is_final : forall h fuel data file,
  parse_section_buffer h fuel data file <> Err UnexpectedEof ->
  forall t, parse_section_buffer h fuel (data ++ t) file = parse_section_buffer h fuel data file.
Proof. exact buffer_more. Qed.
Print Assumptions C56_answer_is_final.

(** A section that is returned depends on the first [k] bytes exactly: cut before,
    the data is reported as cut; what follows is ignored. *)
Theorem C56_section_cut : forall h fuel data file s,
  parse_section_buffer h fuel data file = Ok s ->
  exists k, (k <= length data)%nat /\
    (forall m, (m < k)%nat -> parse_section_buffer h fuel (firstn m data) file = Err UnexpectedEof) /\
    (forall t, parse_section_buffer h fuel (firstn k data ++ t) file = Ok s).
Proof. exact buffer_ok_cut. Qed.
Print Assumptions C56_section_cut.

(** The same for notebooks: appending bytes to files changes no answer but
    [UnexpectedEof]. *)
Theorem C56_notebook : forall sanitise h depth fuel fs fs' p,
  longer_files fs fs' ->
  parse_notebook sanitise h depth fuel fs p <> Err UnexpectedEof ->
  parse_notebook sanitise h depth fuel fs' p = parse_notebook sanitise h depth fuel fs p.
Proof. exact notebook_more. Qed.
Print Assumptions C56_notebook.

(** The sample section is returned with two bytes after it, and is reported as cut
    after 700 bytes. *)
Definition is_ok {A} (r : res A) : bool := match r with Ok _ => true | _ => false end.
Example C56_example :
  is_ok (parse_section_buffer order_id 5 (sample_section ++ [1; 2]) [97]) = true /\
  is_err (parse_section_buffer order_id 5 (firstn 700 sample_section) [97]) UnexpectedEof = true.
Proof. computes. Qed.
Example C56_notebook_example :
  longer_files sample_fs (plain_fs (map (fun f => (fst f, snd f ++ [7])) sample_files) sample_dirs) /\
  is_ok (parse_notebook (fun n => n) order_id 3 5 sample_fs (home ++ [Normal name_toc])) = true.
Proof.
  split; [|vm_compute; reflexivity]. unfold sample_fs, plain_fs, longer_files, sample_files.
  cbn [fs_exists fs_is_file fs_canonicalize fs_read_dir fs_read map fst snd find].
  repeat apply conj; intro p; destruct (path_eqb p (home ++ [Normal name_toc]));
    try (destruct (path_eqb p (home ++ [Normal name_one])));
    try (destruct (path_eqb p (home ++ [Normal name_a; Normal name_toc]))); cbn [option_map snd]; try reflexivity;
    exists [7]; reflexivity.
Qed.

(** ** C57 *)
(** The kind of an error tells at which stage reading failed. *)
Theorem C57_stages : forall h fuel data file e,
  parse_section_buffer h fuel data file = Err e ->
  (open_store h fuel data = Err e /\
   In e [UnexpectedEof; MalformedData; MalformedFssHttpBData; MalformedOneStoreData]) \/
  (exists st, open_store h fuel data = Ok st /\ st_schema st <> section_schema /\ e = NotASectionFile) \/
  (exists st, open_store h fuel data = Ok st /\ st_schema st = section_schema /\
     Doc.parse_section fuel st file = Err e /\
     In e [UnexpectedEof; MalformedOneNoteData; MalformedOneNoteFileData; Utf16Error]).
Proof. exact section_stages. Qed.
Print Assumptions C57_stages.

Theorem C57_section_file : forall h fuel fs p e, parse_section_file h fuel fs p = Err e ->
  In e [IO; InvalidPath; NotASectionFile; UnexpectedEof; MalformedData; MalformedFssHttpBData; MalformedOneStoreData;
        UnexpectedEof; MalformedOneNoteData; MalformedOneNoteFileData; Utf16Error].
Proof. exact section_file_kinds. Qed.
Print Assumptions C57_section_file.

(** [InvalidUuid] and [Utf16MissingNull] are never returned. *)
Theorem C57_notebook : forall sanitise h depth fuel fs p e,
  parse_notebook sanitise h depth fuel fs p = Err e -> e <> InvalidUuid /\ e <> Utf16MissingNull.
Proof. exact notebook_never. Qed.
Print Assumptions C57_notebook.

(** A table of contents by itself fails in two ways only. *)
Theorem C57_toc : forall fuel sp e, parse_toc fuel sp = Err e ->
  e = MalformedOneNoteData \/ e = MalformedOneNoteFileData.
Proof. exact toc_two_kinds. Qed.
Print Assumptions C57_toc.

(** Every kind listed in [C57_stages] occurs, [UnexpectedEof] at both stages. *)
Definition file_start : list N :=
  guid_enc 1 ++ guid_enc 1 ++ guid_enc 0 ++ guid_enc 0x638DE92FA6D44BC19A36B3FC2511A5B7.
Definition math_page (c : N) : list ex_object :=
  [ page_meta_object; manifest_object; page_obj [] [210]; outline_obj 210 [211]; element_obj 211 [] [212] [];
    text_obj 212 [] [241] [[(0x3453, SU16 c)]] []; style_obj 240 []; style_obj 241 [(0x3401, SBool true)] ].
Definition kind_witnesses : list (list N * ekind) :=
  [ ([], UnexpectedEof); (repeat 0 64, MalformedOneStoreData); (file_start ++ [1; 0; 0; 0], MalformedFssHttpBData);
    (file_start ++ le_bytes 4 0 ++ w_h32 OneNotePackaging ++ [1], MalformedData);
    (empty_toc, NotASectionFile);
    (section_file None [] [] [], MalformedOneNoteData);
    (section_file None [obj 201 0x20030 [] []] [] [], MalformedOneNoteFileData);
    (section_file None [obj 201 0x20030 [(0x1C30, SVec [1])] []] [] [], UnexpectedEof);
    (section_file None (math_page 0xD800) [] [], Utf16Error) ].
Example C57_example :
  forallb (fun w => is_err (parse_section_buffer order_id 10 (fst w) [97]) (snd w)) kind_witnesses = true /\
  is_ok (open_store order_id 10 (section_file None [obj 201 0x20030 [(0x1C30, SVec [1])] []] [] [])) = true.
Proof. computes. Qed.
(** And those of the file system. *)
Definition group_fs (names : list name) : filesystem :=
  plain_fs [(home ++ [Normal name_toc], toc_file [toc_folder_obj 101 [102]; toc_entry_obj 102 1 name_a])]
    [(home, [name_toc; name_a]); (home ++ [Normal name_a], names)].
Example C57_notebook_example :
  is_err (parse_notebook (fun n => n) order_id 3 5 (group_fs []) (home ++ [Normal name_toc])) TocFileMissing = true /\
  is_err (parse_notebook (fun n => n) order_id 3 5 (group_fs [name_toc]) (home ++ [Normal name_toc])) IO = true /\
  is_err (parse_notebook (fun n => n) order_id 3 5 sample_fs (home ++ [Normal name_one])) NotATocFile = true /\
  is_err (parse_notebook (fun n => n) order_id 3 5 bare_fs [Normal name_toc]) InvalidPath = true.
Proof. computes. Qed.

(** ** C58 *)
(** Further objects, roots and spaces change nothing in what is returned. *)
Theorem C58_section : forall fuel st st' file s, store_within st st' ->
  Doc.parse_section fuel st file = Ok s -> Doc.parse_section fuel st' file = Ok s.
Proof. exact (fun fuel st st' file s W => section_keeps st st' fuel file W s). Qed.
Print Assumptions C58_section.
Theorem C58_page : forall fuel sp sp' p, space_within sp sp' ->
  parse_page fuel sp = Ok p -> parse_page fuel sp' = Ok p.
Proof. exact (fun fuel sp sp' p W => page_keeps sp sp' fuel W p). Qed.
Print Assumptions C58_page.
Theorem C58_toc : forall fuel sp sp' r, space_within sp sp' ->
  parse_toc fuel sp = Ok r -> parse_toc fuel sp' = Ok r.
Proof. exact (fun fuel sp sp' r W => toc_keeps sp sp' fuel W r). Qed.
Print Assumptions C58_toc.
(** The file name decides nothing but the name shown: pages, colour and errors are
    the same under any name. *)
Theorem C58_file_name : forall h fuel data file file',
  (let! s := parse_section_buffer h fuel data file in Ok (se_page_series s, se_color s)) =
  (let! s := parse_section_buffer h fuel data file' in Ok (se_page_series s, se_color s)).
Proof. exact buffer_name. Qed.
Print Assumptions C58_file_name.
(** The sample section with an object added to its page, and a page added to its
    store. *)
Definition store_or {A} (d : A) (r : res A) : A := match r with Ok a => a | _ => d end.
Definition st_small : store := Eval vm_compute in
  store_or (Store 0 (StoreHeader 0 0 None 0) (Space (xid 0) (xid 0) [] []) []) (open_store order_id 5 sample_section).
Definition with_object (id : exguid) (o : object) (sp : space) : space :=
  Space (sp_id sp) (sp_context sp) (sp_roots sp) (sp_objects sp ++ [(id, o)]).
Definition st_bigger : store :=
  Store (st_schema st_small) (st_header st_small) (st_data_root st_small)
    (map (fun e => (fst e, with_object (xid 7) (Object (xid 8) 0 (OProps [] [] [] []) None (MappingTable [] [])) (snd e)))
         (st_spaces st_small)
     ++ [((xid 77, xid 78), Space (xid 78) (xid 77) [] [])]).
Example C58_example : open_store order_id 5 sample_section = Ok st_small /\ store_within st_small st_bigger /\
  is_ok (Doc.parse_section 5 st_small [97]) = true.
Proof.
  split; [vm_compute; reflexivity|]. split; [|vm_compute; reflexivity].
  assert (E : forall id o sp x y, get_object sp x = Some y -> get_object (with_object id o sp) x = Some y).
  { intros id o sp x y. unfold get_object, with_object. cbn [sp_objects].
    induction (sp_objects sp) as [|[k v] l IH]; cbn [alookup app]; [discriminate|].
    destruct (exguid_eqb x k); auto. }
  split; [repeat split; auto|].
  intros c sp. unfold object_space, st_bigger. cbn [st_spaces]. generalize (st_spaces st_small).
  intro l. induction l as [|[k v] l IH]; cbn [alookup map app fst snd]; [discriminate|].
  destruct (cellid_eqb c k); [|exact IH]. intro Q. injection Q as <-. eexists. split; [reflexivity|].
  split; [apply E|]. split; auto.
Qed.
