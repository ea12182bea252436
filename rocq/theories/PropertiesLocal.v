(** C72: a section, page by page. *)
From Verif Require Import Base Codec SpecCodec Package SpecPackage PropSet SpecPropSet Store Props Nodes Doc SpecDoc SpecAccept SpecSame Notebook SpecFile FileProofs
  AuthorProofs SpecHistory HistoryProofs HistoryProofs2 ExampleFile ExampleSection PropertiesFile PropertiesHistory SpecLocal LocalProofs.

(** The pages of a section are the pages in the spaces that it lists, one for each. *)
Theorem C72_pages : forall h n d file s, parse_section_buffer h n d file = Ok s ->
  exists st refs, open_store h n d = Ok st /\ lists st refs /\ Forall2 (Forall2 (page_in st)) refs (se_page_series s).
Proof. exact pages_of. Qed.
Print Assumptions C72_pages.
(** All or nothing: one listed space without a page, and there is no section. *)
Theorem C72_all_or_nothing : forall h n d file st refs i j c, open_store h n d = Ok st -> lists st refs -> place refs i j = Some c ->
  (forall p, ~ page_in st c p) -> forall s, parse_section_buffer h n d file <> Ok s.
Proof. exact all_or_nothing. Qed.
Print Assumptions C72_all_or_nothing.

(** A page whose space has the same end in two files is the same page in both sections,
    whatever else the files hold and wherever the sections list it. *)
Theorem C72_page : forall n n' d d' H H' h h' file file' s s' st st' refs refs' c i j i' j',
  keeps n d H -> keeps n' d' H' -> same_at H H' c ->
  parse_section_buffer h n d file = Ok s -> parse_section_buffer h' n' d' file' = Ok s' ->
  open_store h n d = Ok st -> open_store h' n' d' = Ok st' -> lists st refs -> lists st' refs' ->
  place refs i j = Some c -> place refs' i' j' = Some c ->
  exists p, place (se_page_series s) i j = Some p /\ place (se_page_series s') i' j' = Some p.
Proof. exact page_same. Qed.
Print Assumptions C72_page.
(** Saves of some pages change those pages and nothing else. *)
Theorem C72_others : forall cs n d d' H H' h h' file s s', keeps n d H -> keeps n d' H' -> differ_in cs H H' ->
  parse_section_buffer h n d file = Ok s -> parse_section_buffer h' n d' file = Ok s' ->
  se_display_name s = se_display_name s' /\ se_color s = se_color s' /\
  exists st st' refs, open_store h n d = Ok st /\ open_store h' n d' = Ok st' /\ lists st refs /\ lists st' refs /\
    Forall2 (Forall2 (page_in st)) refs (se_page_series s) /\ Forall2 (Forall2 (page_in st')) refs (se_page_series s') /\
    forall i j c, place refs i j = Some c -> ~ In c cs -> place (se_page_series s) i j = place (se_page_series s') i j.
Proof. exact others. Qed.
Print Assumptions C72_others.
(** And the section can be read after such saves if the saved pages can. *)
Theorem C72_readable : forall cs n d d' H H' h h' file s st', keeps n d H -> keeps n d' H' -> differ_in cs H H' ->
  parse_section_buffer h n d file = Ok s -> open_store h' n d' = Ok st' ->
  (forall refs i j c, lists st' refs -> place refs i j = Some c -> In c cs -> exists p, page_in st' c p) ->
  exists s' k, forall m, (k <= m)%nat -> parse_section_buffer h' m d' file = Ok s'.
Proof. exact breaks. Qed.
Print Assumptions C72_readable.

(** A section with two pages; a second save gives the first page another author, or
    leaves something that is no page. *)
Definition desc (o : ex_object) : object_desc :=
  ObjectDesc (xo_id o) (xo_jcid o)
    (OSet (cids 1 (length (xo_refs o))) (match xo_cells o with [] => None | _ => Some (cids 2 (length (xo_cells o)), None) end) (xo_props o))
    (xo_refs o) (xo_cells o) None.
Definition second_cell : cellid := (xid 7, xid 8).
Definition a_page : space_desc := SpaceDesc [(DefaultContent, xid 202); (MetadataRole, xid 201)] (map desc [page_meta_object; manifest_object; page_obj [] []]).
Definition a_section : space_desc := SpaceDesc [(DefaultContent, xid 101); (MetadataRole, xid 102)]
  (map desc [obj 101 0x60007 [(0x1C30, SVec (guid_enc 11)); (0x1C20, ids 1); (0x1C65, SU64 5)] [103];
             obj 102 0x20031 [(0x1D82, SU32 1); (0x348B, SU32 2); (0x1CBE, SU32 0x00030201)] [];
             ExObject (xid 103) 0x60008 [(0x1C30, SVec (guid_enc 12)); (0x1D63, SSpaceIds 2)] [] [page_cell; second_cell]]).
Definition two_pages (more : list space_desc) : history :=
  History 0x1F937CB4B26F445FB9F817E20160E461 8 9 (Some 3) 4 root_cell [a_section] [(page_cell, a_page :: more); (second_cell, [a_page])].
Definition other_author : space_desc := SpaceDesc [] [desc (obj 203 0x6000B [(0x1C20, ids 0); (0x1D75, utf16 [66; 111; 98])] [])].
Definition no_page : space_desc := SpaceDesc [] [desc (obj 203 0x6000C [] [])].

Lemma two_fits more : Forall space_fits more -> history_fits (two_pages more).
Proof.
  intro F. split; [nodup|]. constructor; [|constructor; [|constructor; [|constructor]]]; (split; [discriminate|]); repeat (apply Forall_cons; [fits|]); auto.
Qed.
Lemma two_range more : Forall space_in_range more -> (length more <= 9)%nat -> history_in_range (two_pages more).
Proof.
  intros F L. refine (conj eq_refl (conj eq_refl (conj eq_refl (conj eq_refl (conj eq_refl (conj _ (conj _ _))))))).
  - repeat constructor.
  - constructor; [|constructor; [|constructor; [|constructor]]]; repeat (apply Forall_cons; [ranges|]); auto.
  - do 10 (destruct more as [|? more]; [reflexivity|]). cbn in L. exfalso. do 9 apply le_S_n in L. inversion L.
Qed.
Lemma two_kept more : Forall space_fits more -> Forall space_in_range more -> (length more <= 9)%nat -> exists d, keeps 10 d (two_pages more).
Proof.
  intros F R L. destruct (C70_written _ (two_fits more F) (two_range more R L)) as (d & els & _ & A & B). exists d, els. refine (conj A (conj B (conj (two_fits more F) _))).
  constructor; [repeat constructor|]. constructor; [cbn; now apply le_n_S|]. repeat constructor.
Qed.
Example C72_example : exists d d' d'', keeps 10 d (two_pages []) /\ keeps 10 d' (two_pages [other_author]) /\ keeps 10 d'' (two_pages [no_page]) /\
  differ_in [page_cell] (two_pages []) (two_pages [other_author]) /\
  forall h file,
    (exists s, parse_section_buffer h 10 d file = Ok s /\ map (map pg_author) (se_page_series s) = [[Some [65; 110; 110]; Some [65; 110; 110]]]) /\
    (exists s, parse_section_buffer h 10 d' file = Ok s /\ map (map pg_author) (se_page_series s) = [[Some [66; 111; 98]; Some [65; 110; 110]]]) /\
    parse_section_buffer h 10 d'' file = Err MalformedOneNoteFileData.
Proof.
  destruct (two_kept []) as (d & K); [constructor|constructor|apply Nat.le_0_l|]. destruct (two_kept [other_author]) as (d' & K'); [constructor; [fits|constructor]|constructor; [ranges|constructor]|apply le_n_S, Nat.le_0_l|].
  destruct (two_kept [no_page]) as (d'' & K''); [constructor; [fits|constructor]|constructor; [ranges|constructor]|apply le_n_S, Nat.le_0_l|].
  exists d, d', d''. refine (conj K (conj K' (conj K'' (conj _ _)))).
  - refine (conj eq_refl (conj eq_refl (conj (same_space_refl _) _))). intros c N I. assert (c = second_cell) as ->.
    { cbn in N, I. intuition congruence. }
    exists [a_page], [a_page]. refine (conj _ (conj _ (same_space_refl _))); cbn; auto.
  - intros h file. refine (conj _ (conj _ _)).
    + rewrite (keeps_section _ _ _ h file K). eexists. split; [vm_compute; reflexivity|]. reflexivity.
    + rewrite (keeps_section _ _ _ h file K'). eexists. split; [vm_compute; reflexivity|]. reflexivity.
    + rewrite (keeps_section _ _ _ h file K''). vm_compute. reflexivity.
Qed.
