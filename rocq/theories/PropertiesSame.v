(** Property theorems C59: the answer depends on the content of a file only. *)
From Coq Require Import Lia Permutation.
From Verif Require Import Base Codec SpecCodec Package SpecPackage SpecAccept AcceptProofs PropSet SpecPropSet Store Shapes
  Props Nodes Doc SpecStore Notebook SpecSame SameProofs ExampleFile WriterProofs PropertiesStore ExampleSection
  ExampleNotebook PropertiesApi.

(** C59: how the elements are written does not matter. *)
Theorem C59_encoding : forall d d', same_elements d d' ->
  forall h fuel file, parse_section_buffer h fuel d file = parse_section_buffer h fuel d' file.
Proof. exact buffer_elements. Qed.
Print Assumptions C59_encoding.

(** The sample section in the layout with a revision store header and a
    transaction log of four bytes. *)
Definition sample_elems : list elem :=
  ex_base 0x1F937CB4B26F445FB9F817E20160E461
    [IxCell root_cell (xid 30) (xser 30); IxCell page_cell (xid 40) (xser 40)]
  ++ [ xel 30 (ElCell (xid 31));
       xel 31 (ElRevision (xid 31) (ExGuid 0 0)
         [RvRoot (role_id DefaultContent) (xid 101); RvRoot (role_id MetadataRole) (xid 102); RvGroup (xid 32)]);
       xel 32 (ex_group (section_objects None));
       xel 40 (ElCell (xid 41));
       xel 41 (ElRevision (xid 41) (ExGuid 0 0)
         [RvRoot (role_id DefaultContent) (xid 202); RvRoot (role_id MetadataRole) (xid 201); RvGroup (xid 42)]);
       xel 42 (group_with [page_meta_object; manifest_object; page_obj [] []] []) ].
Definition four (a b c d : guid) : list N := guid_enc a ++ guid_enc b ++ guid_enc c ++ guid_enc d.
Definition header_section : list N :=
  four 1 2 0 0x109ADD3F911B49F5A5D01791EDC8AED8
  ++ (le_bytes 4 0x2A ++ le_bytes 4 0x1B ++ le_bytes 4 0x2A ++ le_bytes 4 0x2A ++ repeat 9 80
      ++ le_bytes 8 172 ++ le_bytes 4 4)
  ++ [1; 2; 3; 4] ++ four 5 6 7 8
  ++ (le_bytes 4 0 ++ w_h32 OneNotePackaging ++ w_exguid (xid 10) ++ guid_enc 12
      ++ w_h16 DataElementPackage ++ [0] ++ flat_map w_elem sample_elems ++ w_fin8 DataElementPackage
      ++ w_fin16 OneNotePackaging).

Lemma guids_in a b c d : forallb (fun g => g <? 2 ^ 128) [a; b; c; d] = true -> l_guids a b c d (four a b c d).
Proof.
  intro H. cbn [forallb] in H. unfold l_guids, four.
  apply PackageFacts.cat_intro; [split; [lia|reflexivity]|].
  apply PackageFacts.cat_intro; [split; [lia|reflexivity]|].
  apply PackageFacts.cat_intro; split; try reflexivity; lia.
Qed.

Example C59_encoding_example : same_elements sample_section header_section /\
  is_ok (parse_section_buffer order_id 5 header_section [97]) = true.
Proof.
  split; [|vm_compute; reflexivity].
  exists sample_section, []. do 4 eexists. exists header_section, [].
  exists 5, 6, 7, 8, (xid 10), 5, 12, (map AElem sample_elems).
  split; [now rewrite app_nil_r|]. split; [|split; [now rewrite app_nil_r|]].
  - left. split; [now left|]. apply plain_lenient.
    apply (in_file 0xE4525C7B8CD8A7AEB15378D02996D3 (xid 10) sample_elems); vm_compute; reflexivity.
  - right. exists 1, 2, 172, 4. split; [lia|]. apply PackageFacts.cat_intro; [now apply guids_in|].
    apply PackageFacts.cat_intro.
    + unfold l_file_header. repeat (apply PackageFacts.cat_intro);
        first [left; split; reflexivity | right; split; reflexivity | split; reflexivity | apply repeat_length].
    + apply PackageFacts.cat_intro; [reflexivity|]. apply PackageFacts.cat_intro; [now apply guids_in|].
      apply content_lenient. apply in_content; vm_compute; reflexivity.
Qed.

(** C59: nor do their order, their serial numbers, fragments and the identifier
    of the index, when no element is ambiguous. *)
Theorem C59_content : forall d d', same_content d d' ->
  forall h fuel file, parse_section_buffer h fuel d file = parse_section_buffer h fuel d' file.
Proof. exact buffer_same. Qed.
Print Assumptions C59_content.

(** C59: the same for all files of a notebook at once. *)
Theorem C59_notebook : forall fs fs',
  same_files (fun d d' => d = d' \/ same_elements d d' \/ same_content d d') fs fs' ->
  forall sanitise h depth fuel p,
    parse_notebook sanitise h depth fuel fs p = parse_notebook sanitise h depth fuel fs' p.
Proof. exact notebook_same. Qed.
Print Assumptions C59_notebook.

(** The sample section again, with the elements reversed, other serial numbers, another index identifier, another file type,
    and bytes after the end. *)
Definition renumbered (x : elem) : elem := Elem (el_id x) (Serial 3 4) (el_content x).
Definition turned_elems : list elem := map renumbered (rev sample_elems).
Definition turned_section : list N := w_file 77 (ExGuid 0 0) turned_elems ++ [1; 2; 3].

Lemma file_holds ft index els t :
  ft < 2 ^ 128 -> w_exguid_ok index = true -> forallb w_elem_ok els = true ->
  holds (w_file ft index els ++ t) (map AElem els).
Proof.
  intros Hf Hi He. exists (w_file ft index els), t. do 6 eexists. split; [reflexivity|].
  left. split; [now left|]. apply plain_lenient. now apply in_file.
Qed.

Lemma proper_elems els : content (map AElem els) = map (fun x => (el_id x, el_content x)) els.
Proof. unfold content, proper. f_equal. induction els; cbn; congruence. Qed.

Fixpoint distinctb (l : list (exguid * N)) : bool :=
  match l with
  | [] => true
  | x :: r => negb (existsb (fun y => exguid_eqb (fst x) (fst y) && (snd x =? snd y)) r) && distinctb r
  end.
Lemma distinct_nodup l : distinctb l = true -> NoDup l.
Proof.
  induction l as [|x r IH]; cbn; intro H; [constructor|]. apply andb_true_iff in H as [H1 H2].
  constructor; [|auto]. intro I. apply negb_true_iff in H1. rewrite <- not_true_iff_false in H1. apply H1.
  apply existsb_exists. exists x. split; [exact I|]. rewrite N.eqb_refl, andb_true_r.
  now apply PackageRT.exguid_eqb_eq.
Qed.

Example C59_example : same_content sample_section turned_section /\
  is_ok (parse_section_buffer order_id 5 sample_section [97]) = true.
Proof.
  split; [|vm_compute; reflexivity].
  exists (map AElem sample_elems), (map AElem turned_elems). refine (conj _ (conj _ (conj _ _))).
  - rewrite <- (app_nil_r sample_section).
    apply (file_holds 0xE4525C7B8CD8A7AEB15378D02996D3 (xid 10) sample_elems); vm_compute; reflexivity.
  - apply file_holds; vm_compute; reflexivity.
  - rewrite !proper_elems. unfold turned_elems. rewrite map_map. cbn [renumbered el_id el_content].
    rewrite map_rev. apply Permutation_rev.
  - rewrite proper_elems. repeat split.
    + apply distinct_nodup. vm_compute. reflexivity.
    + apply Nat.leb_le. vm_compute. reflexivity.
    + apply Nat.leb_le. vm_compute. reflexivity.
Qed.

(** A notebook directory in which the section is written the other way. *)
Example C59_notebook_example :
  same_files (fun d d' => d = d' \/ same_elements d d' \/ same_content d d') sample_fs
    (plain_fs [ (home ++ [Normal name_toc], sample_toc); (home ++ [Normal name_one], turned_section);
                (home ++ [Normal name_a; Normal name_toc], empty_toc) ] sample_dirs) /\
  is_ok (parse_notebook (fun n => n) order_id 3 5 sample_fs (home ++ [Normal name_toc])) = true.
Proof.
  split; [|vm_compute; reflexivity]. pose proof (proj1 C59_example) as S.
  unfold sample_fs, plain_fs, same_files, sample_files.
  cbn [fs_exists fs_is_file fs_canonicalize fs_read_dir fs_read map fst snd find].
  repeat apply conj; intro p; destruct (path_eqb p (home ++ [Normal name_toc]));
    try (destruct (path_eqb p (home ++ [Normal name_one])));
    try (destruct (path_eqb p (home ++ [Normal name_a; Normal name_toc]))); try reflexivity;
    cbn [option_map snd opt_rel]; auto.
Qed.

(** C59: refutation of the claim for ambiguous elements: of two groups with the
    same identifier the later one counts. *)
Definition empty_group : elem := xel 22 (ElGroup [] []).
Theorem C59_ambiguous_refuted : exists d d' els els',
  holds d els /\ holds d' els' /\ Permutation (content els) (content els') /\
  parse_section_buffer order_id 5 d [97] <> parse_section_buffer order_id 5 d' [97].
Proof.
  exists (w_file 0 (xid 10) (empty_group :: sample_elems) ++ []), (w_file 0 (xid 10) (sample_elems ++ [empty_group]) ++ []),
    (map AElem (empty_group :: sample_elems)), (map AElem (sample_elems ++ [empty_group])).
  repeat apply conj.
  - apply file_holds; vm_compute; reflexivity.
  - apply file_holds; vm_compute; reflexivity.
  - rewrite !proper_elems, map_app. apply Permutation_cons_append.
  - intro E. apply (f_equal is_ok) in E. vm_compute in E. discriminate.
Qed.
Print Assumptions C59_ambiguous_refuted.
