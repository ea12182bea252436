(** C92: how many steps opening a file takes. *)
From Coq Require Import Lia.
From Verif Require Import Base Codec SpecCodec Package PropSet Store Notebook Steps StepsProofs StoreSteps StoreStepsProofs CubeProofs ExampleFile ExampleSection ExampleNotebook PropertiesApi PropertiesStore.
Local Open Scope nat_scope.

(** The counted parsers give the results of the others. *)
Theorem C92_container_result : forall bs, snd (packaging_parse_n bs) = packaging_parse bs.
Proof. exact same_packaging. Qed.
Print Assumptions C92_container_result.

Theorem C92_object_result : forall bs, snd (oprops_parse_n bs) = oprops_parse bs.
Proof. exact same_oprops. Qed.
Print Assumptions C92_object_result.

Theorem C92_open_result : forall h fuel bs, snd (open_store_w h fuel bs) = open_store h fuel bs.
Proof. exact open_same. Qed.
Print Assumptions C92_open_result.

(** Taking the container apart: four steps for each byte, accepted or not. *)
Theorem C92_container : forall bs, fst (packaging_parse_n bs) <= 4 * length bs + 4.
Proof. exact (cheap_bound 4 _ (packaging_cheap 4 (le_n 4))). Qed.
Print Assumptions C92_container.

(** The sample section is taken apart, and its first bytes are refused. *)
Example C92_container_example : let (n, r) := packaging_parse_n sample_section in
  (200 <? n) = true /\ is_ok r = true /\ is_err (snd (packaging_parse_n (firstn 100 sample_section))) UnexpectedEof = true /\
  (fst (packaging_parse_n (firstn 100 sample_section)) <? n) = true.
Proof. vm_compute. auto. Qed.

(** The data of one object. *)
Theorem C92_object : forall bs, fst (oprops_parse_n bs) <= 4 * length bs + 1.
Proof. exact (cheap_bound 1 _ (oprops_cheap 1 (le_n 1))). Qed.
Print Assumptions C92_object.

(** An object that announces 2^24 - 1 identifiers and holds one: four steps, not 2^24. *)
Example C92_object_example : oprops_parse_n [255; 255; 255; 128; 5; 0; 0; 0]%N = (4, Err UnexpectedEof).
Proof. vm_compute. reflexivity. Qed.

(** From the bytes to the store. The only way out of the bound are revisions that come
    round (C18): following them ends for no number of steps. *)
Theorem C92_open : forall h fuel bs, open_store h fuel bs <> OutOfFuel ->
  fst (open_store_w h fuel bs) <= (length bs + 2) ^ 3.
Proof. exact open_cost. Qed.
Print Assumptions C92_open.

Example C92_open_example : let (n, r) := open_store_w order_id 5 sample_section in
  (300 <? n) = true /\ is_ok r = true.
Proof. vm_compute. auto. Qed.

(** The bound cannot be lowered: there are files that are read, and take cubically many
    steps (cells that share a revision, references that share a group, declarations that
    share an object; each is taken apart again for each use). *)
Theorem C92_cubic : forall k, (N.of_nat k < 2 ^ 31)%N -> exists d, bytes_ok d /\ length d <= 230 * k + 2500 /\
  forall h fuel, 1 <= fuel -> (exists st, open_store h fuel d = Ok st) /\ k * k * k <= fst (open_store_w h fuel d).
Proof. exact cube. Qed.
Print Assumptions C92_cubic.

(** The file for three of each. *)
Example C92_cubic_example : let (n, r) := open_store_w order_id 1 (b_file 3) in
  (27 <? n) = true /\ is_ok r = true /\ (length (b_file 3) <? 2000) = true.
Proof. vm_compute. auto. Qed.
