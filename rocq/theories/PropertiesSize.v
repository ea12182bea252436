(** C62: the size of what is read. *)
From Coq Require Import Lia Relations.
From Verif Require Import Base Codec SpecCodec Package SpecPackage PropSet PropIds Store Shapes Props Nodes Doc Notebook SpecNodes SpecDoc SpecSize
  SizeProofs WriteProofs4 DoubleProofs WriteNodes PropertiesStore PropertiesDoc ExampleFile ExampleSection.

(** If no object of a page's space is listed twice, the page has no more parts than
    there are objects. *)
Theorem C62_page_bound : forall h fuel d file st s ps p,
  parse_section_buffer h fuel d file = Ok s -> open_store h fuel d = Ok st ->
  In ps (se_page_series s) -> In p ps ->
  exists cell sp, object_space st cell = Some sp /\ page_is sp p /\ (tree sp -> has_objects sp (page_size p)).
Proof. exact section_bound. Qed.
Print Assumptions C62_page_bound.

(** A page whose objects form a tree: an outline with an element and a group, a
    paragraph, and a table. *)
Definition tree_file : list N := section_file None
  [ page_meta_object; manifest_object; page_obj [] [210]; outline_obj 210 [211; 213]; element_obj 211 [214] [212; 215] [];
    text_obj 212 [72; 105] [] [] []; group_obj 213 [216]; element_obj 214 [] [] []; table_obj 215 [217] 1; element_obj 216 [] [] [];
    row_obj 217 [219]; cell_obj 219 [220]; element_obj 220 [] [] []; style_obj 240 [] ] [] [].
Definition sp_tree : space := Eval vm_compute in page_of (store_of tree_file).
Definition rank (x : exguid) : nat := N.to_nat (eg_value x).
Example C62_example : exists s p, parse_section_buffer order_id 50 tree_file [97] = Ok s /\ se_page_series s = [[p]] /\
  object_space (store_of tree_file) page_cell = Some sp_tree /\ tree sp_tree /\ page_size p = 11%nat.
Proof.
  eexists _, _. split; [vm_compute; reflexivity|]. split; [reflexivity|]. split; [vm_compute; reflexivity|]. split; [|reflexivity].
  apply (tree_ranked _ rank).
  - vm_compute. repeat (apply NoDup_cons; [cbn; intuition (try discriminate)|]). apply NoDup_nil.
  - intros a I b J. assert (E : forallb (fun a => forallb (fun b => rank a <? rank b)%nat (kids sp_tree a)) (map fst (sp_objects sp_tree)) = true) by (vm_compute; reflexivity).
    rewrite forallb_forall in E. specialize (E _ I). cbn beta in E. rewrite forallb_forall in E. apply Nat.ltb_lt. exact (E _ J).
Qed.

(** Without that, a page can have a number of parts exponential in
    the length of the file: an object that is
    listed twice is read twice, with all its parts. *)
Theorem C62_shared_refuted : forall k, N.of_nat k < 2 ^ 31 ->
  exists d, bytes_ok d /\ (length d <= 320 * k + 5000)%nat /\ forall h, exists st s, open_store h 1 d = Ok st /\
    (forall cell sp n, object_space st cell = Some sp -> has_objects sp n -> (n <= k + 5)%nat) /\
    (forall file, exists f, forall fuel, (f <= fuel)%nat -> parse_section_buffer h fuel d file = Ok s) /\
    exists ps p, In ps (se_page_series s) /\ In p ps /\ (2 ^ k <= page_size p)%nat.
Proof. exact doubled_grows. Qed.
Print Assumptions C62_shared_refuted.
