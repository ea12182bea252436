(** C98: what is looked up while a section is made, and how often. *)
From Coq Require Import Lia.
From Verif Require Import Base Codec SpecCodec Package PropSet Store Doc Notebook SpecSize SpecWeight Looks SpecLooks
  LooksProofs LooksProofs2 LooksProofs3 QuarticProofs2 PropertiesStore PropertiesDoc ExampleFile ExampleSection PropertiesSize.
Local Open Scope nat_scope.

(** The functions that note their look-ups have the same results. *)
Theorem C98_same : forall h fuel d file, snd (parse_section_buffer_t h fuel d file) = parse_section_buffer h fuel d file.
Proof. exact same_buffer. Qed.
Print Assumptions C98_same.

(** Nothing is used that was not looked up: a store that gives the same answers to these
    look-ups gives the same section or the same error, by the same look-ups. *)
Theorem C98_only : forall st st' fuel file, roots (st_data_root st') = roots (st_data_root st) ->
  Forall (same_answer st st') (fst (parse_section_t fuel st file)) ->
  parse_section_t fuel st' file = parse_section_t fuel st file.
Proof. exact sfollow_section. Qed.
Print Assumptions C98_only.

(** The page of C62 once more, with an element that nothing refers to and without it:
    the stores differ, and give the same answers. *)
Definition extra_file : list N := section_file None
  [ page_meta_object; manifest_object; page_obj [] [210]; outline_obj 210 [211; 213]; element_obj 211 [214] [212; 215] [];
    text_obj 212 [72; 105] [] [] []; group_obj 213 [216]; element_obj 214 [] [] []; table_obj 215 [217] 1; element_obj 216 [] [] [];
    row_obj 217 [219]; cell_obj 219 [220]; element_obj 220 [] [] []; element_obj 221 [] [] []; style_obj 240 [] ]%N [] [].
Definition st_tree : store := Eval vm_compute in store_of tree_file.
Definition st_extra : store := Eval vm_compute in store_of extra_file.
Example C98_only_example : st_tree <> st_extra /\ roots (st_data_root st_extra) = roots (st_data_root st_tree) /\
  Forall (same_answer st_tree st_extra) (fst (parse_section_t 50 st_tree [97]%N)) /\
  length (fst (parse_section_t 50 st_tree [97]%N)) = 25.
Proof.
  split; [intro E; apply (f_equal (fun st => length (match object_space st page_cell with Some sp => sp_objects sp | None => [] end))) in E; vm_compute in E; discriminate E|].
  split; [reflexivity|]. split; [|vm_compute; reflexivity].
  assert (E : exists l, fst (parse_section_t 50 st_tree [97]%N) = l /\ Forall (same_answer st_tree st_extra) l).
  { eexists. split; [vm_compute; reflexivity|]. repeat (apply Forall_cons; [reflexivity|]). apply Forall_nil. }
  destruct E as (l & -> & F). exact F.
Qed.

(** Every part of the document was looked up. *)
Theorem C98_parts : forall fuel st file s, snd (parse_section_t fuel st file) = Ok s ->
  section_size s <= length (fst (parse_section_t fuel st file)).
Proof. exact least_section. Qed.
Print Assumptions C98_parts.

(** If no object of a page's space is listed twice, the look-ups made for the page are at
    most a square: of the properties, bytes and references that the space holds. This holds
    also if the page cannot be read, and however deep it is nested. *)
Theorem C98_page : forall sp, tree sp -> forall fuel,
  length (fst (parse_page_t fuel sp)) <= 3 + space_weight sp * (2 * space_weight sp + 6).
Proof. exact (fun sp T fuel => within_all _ _ (need_page sp fuel T)). Qed.
Print Assumptions C98_page.

(** For a section they are at most a fourth power: it may list a series, and a series a
    page, many times. *)
Theorem C98_section : forall h fuel d file,
  (forall st cell sp, open_store h fuel d = Ok st -> object_space st cell = Some sp -> tree sp) ->
  length (fst (parse_section_buffer_t h fuel d file)) <= 2 * (length d + 2) ^ 4.
Proof. exact looks_buffer. Qed.
Print Assumptions C98_section.

(** The tree of C62: 25 look-ups, for 11 parts. *)
Example C98_example : exists s, parse_section_buffer order_id 50 tree_file [97]%N = Ok s /\ section_size s = 11 /\
  (forall st cell sp, open_store order_id 50 tree_file = Ok st -> object_space st cell = Some sp -> tree sp) /\
  length (fst (parse_section_buffer_t order_id 50 tree_file [97]%N)) = 25.
Proof.
  destruct C62_example as (s & p & E & S & Sp & T & Z). exists s. split; [exact E|]. split; [unfold section_size; rewrite S; cbn [total]; rewrite Z; reflexivity|].
  assert (O : open_store order_id 50 tree_file = Ok st_tree) by (vm_compute; reflexivity).
  split.
  - intros st cell sp E' F. rewrite O in E'. injection E' as <-. replace sp with sp_tree; [exact T|].
    unfold object_space in F. cbn in F. destruct (cellid_eqb cell _); [|discriminate F]. injection F as <-. reflexivity.
  - vm_compute. reflexivity.
Qed.

(** The fourth power is reached, by documents that can be read: a file of
    [400 * (k + 15)] bytes has [k ^ 4] strokes, and each was looked up. *)
Theorem C98_reached : forall k, (N.of_nat k < 2 ^ 22)%N ->
  exists d, bytes_ok d /\ length d <= 400 * (k + 15) /\ forall h, exists st s, open_store h 1 d = Ok st /\
    (forall cell sp, object_space st cell = Some sp -> tree sp) /\ section_strokes s = k ^ 4 /\
    forall file, exists f, forall fuel, f <= fuel ->
      snd (parse_section_t fuel st file) = Ok s /\ k ^ 4 <= length (fst (parse_section_t fuel st file)).
Proof. exact quartic. Qed.
Print Assumptions C98_reached.

(** A file of 406000 bytes with a million million strokes. *)
Example C98_reached_example : exists d, bytes_ok d /\ length d <= 400 * (1000 + 15) /\
  forall h, exists st s, open_store h 1 d = Ok st /\ section_strokes s = 1000 ^ 4.
Proof.
  destruct (C98_reached 1000 ltac:(reflexivity)) as (d & B & L & H). exists d. split; [exact B|]. split; [exact L|].
  intro h. destruct (H h) as (st & s & E & _ & S & _). exists st, s. split; [exact E|exact S].
Qed.

(** Otherwise they can be exponentially many in the length of the file. *)
Theorem C98_shared_refuted : forall k, (N.of_nat k < 2 ^ 31)%N ->
  exists d, bytes_ok d /\ length d <= 320 * k + 5000 /\ forall h, exists st, open_store h 1 d = Ok st /\
    forall file, exists f, forall fuel, f <= fuel ->
      exists s, snd (parse_section_t fuel st file) = Ok s /\ 2 ^ k <= length (fst (parse_section_t fuel st file)).
Proof. exact looks_shared. Qed.
Print Assumptions C98_shared_refuted.
