(** C82: the size of an opened store. *)
From Coq Require Import Lia.
From Verif Require Import Base Codec SpecCodec Package SpecPackage PropSet Store Doc Notebook SpecDoc SpecSize SpecWeight WeightProofs CrowdProofs
  PropertiesStore PropertiesDoc ExampleFile ExampleSection PropertiesSize.
Local Open Scope nat_scope.

(** C11, for the data of one object: its properties (with everything nested in them and
    the bytes of their values) and its three lists of identifiers. *)
Theorem C11_properties_bounded : forall bs p rest, oprops_parse bs = Ok (p, rest) ->
  S (set_weight (op_props p) + length (op_object_ids p) + length (op_space_ids p) + length (op_context_ids p)) +
  length rest <= length bs.
Proof. exact oprops_light. Qed.
Print Assumptions C11_properties_bounded.

(** A flag and a text of three bytes, with two object ids and two bytes that follow. *)
Example C11_properties_example : exists p, oprops_parse
  [2; 0; 0; 128; 5; 0; 0; 0; 6; 0; 0; 0;
   2; 0; 0; 28; 0; 136; 34; 28; 0; 28; 3; 0; 0; 0; 65; 66; 67; 7; 7]%N = Ok (p, [7; 7]%N) /\
  length (op_object_ids p) = 2 /\ set_weight (op_props p) = 5.
Proof. eexists. vm_compute. auto. Qed.

(** One space is never larger than the file, and what the other spaces take is not
    available to it. *)
Theorem C82_space : forall h fuel bs st s, open_store h fuel bs = Ok st -> space_of st s ->
  length (st_spaces st) + space_weight s <= length bs.
Proof. exact (fun h fuel bs st s E I => proj1 (open_light h fuel bs st E s I)). Qed.
Print Assumptions C82_space.

(** With the file data of any one object of the space. *)
Theorem C82_file : forall h fuel bs st s x o b, open_store h fuel bs = Ok st -> space_of st s ->
  In (x, o) (sp_objects s) -> ob_file o = Some b -> length (st_spaces st) + space_weight s + length b <= length bs.
Proof. exact (fun h fuel bs st s x o b E I => proj2 (open_light h fuel bs st E s I) x o b). Qed.
Print Assumptions C82_file.

(** All spaces together: at most a quarter of the square. *)
Theorem C82_store : forall h fuel bs st, open_store h fuel bs = Ok st ->
  4 * SpecPackage.total (fun e => space_weight (snd e)) (st_spaces st) <= length bs * length bs.
Proof. exact open_square. Qed.
Print Assumptions C82_store.

(** A page is no larger than the file if no object of its space is listed twice. *)
Theorem C82_page : forall h fuel d file s ps p, parse_section_buffer h fuel d file = Ok s ->
  In ps (se_page_series s) -> In p ps ->
  exists st cell sp, open_store h fuel d = Ok st /\ object_space st cell = Some sp /\ page_is sp p /\
    (tree sp -> page_size p <= length d).
Proof. exact section_light. Qed.
Print Assumptions C82_page.

(** A page with two file attachments; and C62's example of a page whose objects form
    a tree. *)
Example C82_example : exists sp x o, open_store order_id 3 rich_file = Ok st_rich /\ space_of st_rich sp /\
  In (x, o) (sp_objects sp) /\ ob_file o = Some [1; 2; 3]%N /\
  length (st_spaces st_rich) = 1 /\ space_weight sp = 357 /\ N.of_nat (length rich_file) = 7353%N.
Proof.
  exists sp_rich, (ExGuid 225%N 221%N). eexists. split; [vm_compute; reflexivity|]. split; [right; eexists; left; reflexivity|].
  split; [|split; [|vm_compute; auto]].
  - do 18 right. left. reflexivity.
  - reflexivity.
Qed.

(** The square is real: cells that share one revision. *)
Theorem C82_shared : forall k, (N.of_nat k < 2 ^ 31)%N -> exists d, bytes_ok d /\ length d <= 400 * k + 2500 /\
  forall h fuel, 1 <= fuel -> exists st, open_store h fuel d = Ok st /\
    k * k <= SpecPackage.total (fun e => length (sp_objects (snd e))) (st_spaces st).
Proof. exact crowd_grows. Qed.
Print Assumptions C82_shared.
