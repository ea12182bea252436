(** C100: how large a section can be. *)
From Coq Require Import Lia.
From Verif Require Import Base Codec SpecCodec Package PropSet Store Doc Notebook SpecSize SpecWeight Looks SpecLooks SpecBulk
  BulkProofs BulkProofs2 PropertiesStore PropertiesDoc ExampleFile ExampleSection PropertiesSize PropertiesLooks.
Local Open Scope nat_scope.

(** All that a section holds was brought by look-ups: it is at most eight times as large as
    the objects that were looked up, an object counted as often as it was. Only the name
    may be the file's. *)
Theorem C100_brought : forall fuel st file s, parse_section fuel st file = Ok s ->
  section_bulk s <= length file + 8 * total (brings st) (fst (parse_section_t fuel st file)).
Proof. intros fuel st file s H. apply paid_section. now rewrite LooksProofs.same_section. Qed.
Print Assumptions C100_brought.

(** A look-up in an opened store brings no more than the file has. *)
Theorem C100_look : forall h fuel d st l, open_store h fuel d = Ok st -> brings st l <= length d.
Proof. exact brings_bound. Qed.
Print Assumptions C100_look.

(** If no object of a page's space is listed twice, the section is at most a fifth power. *)
Theorem C100_section : forall h fuel d file s,
  (forall st cell sp, open_store h fuel d = Ok st -> object_space st cell = Some sp -> tree sp) ->
  parse_section_buffer h fuel d file = Ok s -> section_bulk s <= length file + 16 * (length d + 2) ^ 5.
Proof. exact section_fifth. Qed.
Print Assumptions C100_section.

(** The tree of C62. *)
Example C100_example : exists s, parse_section_buffer order_id 50 tree_file [97]%N = Ok s /\ section_bulk s = 21 /\
  (forall st cell sp, open_store order_id 50 tree_file = Ok st -> object_space st cell = Some sp -> tree sp) /\
  8 * total (brings st_tree) (fst (parse_section_t 50 st_tree [97]%N)) = 8 * 286.
Proof.
  destruct C98_example as (s & E & _ & T & _). exists s. split; [exact E|]. split; [|split; [exact T|vm_compute; reflexivity]].
  assert (B : match parse_section_buffer order_id 50 tree_file [97]%N with Ok s => section_bulk s | _ => 0 end = 21) by (vm_compute; reflexivity).
  rewrite E in B. exact B.
Qed.

(** The fifth power is reached, by documents that can be read: a file of [400 * (k + 15)]
    bytes has [k ^ 5] points. *)
Theorem C100_reached : forall k, (N.of_nat k < 2 ^ 22)%N ->
  exists d, bytes_ok d /\ length d <= 400 * (k + 15) /\ forall h,
    (forall st cell sp, open_store h 1 d = Ok st -> object_space st cell = Some sp -> tree sp) /\
    forall file, exists f s, section_points s = k ^ 5 /\ forall fuel, f <= fuel -> parse_section_buffer h fuel d file = Ok s.
Proof. exact quintic. Qed.
Print Assumptions C100_reached.
(** Points are part of what a section holds. *)
Theorem C100_points : forall s, section_points s <= section_bulk s.
Proof. exact points_held. Qed.
Print Assumptions C100_points.

(** A file of 406000 bytes with a thousand million million points. *)
Example C100_reached_example : exists d, bytes_ok d /\ length d <= 400 * (1000 + 15) /\
  forall h file, exists f s, section_points s = 1000 ^ 5 /\ forall fuel, f <= fuel -> parse_section_buffer h fuel d file = Ok s.
Proof.
  destruct (C100_reached 1000 ltac:(reflexivity)) as (d & B & L & H). exists d. split; [exact B|]. split; [exact L|]. intro h. exact (proj2 (H h)).
Qed.

(** Otherwise it can be exponential in the length of the file. *)
Theorem C100_shared_refuted : forall k, (N.of_nat k < 2 ^ 31)%N ->
  exists d, bytes_ok d /\ length d <= 320 * k + 5000 /\ forall h file, exists f s, 2 ^ k <= section_bulk s /\
    forall fuel, f <= fuel -> parse_section_buffer h fuel d file = Ok s.
Proof. exact doubled_bulk. Qed.
Print Assumptions C100_shared_refuted.
