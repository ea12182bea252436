(** Property theorems: how deep a document nests, and how many steps decide (C90). *)
From Verif Require Import Base Codec SpecCodec Package PropSet Store SpecStore StoreProofs3 Props Nodes Doc Notebook SpecDeep DeepProofs DeepProofs2 DeepProofs3
  ExampleFile PropertiesStore ExampleSection PropertiesDoc ExampleNotebook PropertiesNotebook.

(** ** C90 *)
(** The calls that must be open at once to read a page can be read off the page. *)
Theorem C90_depth : forall sp fuel p, parse_page fuel sp = Ok p ->
  forall fuel', parse_page fuel' sp = Ok p <-> (page_calls p <= fuel')%nat.
Proof. exact page_exact. Qed.
Print Assumptions C90_depth.
Theorem C90_section : forall st name fuel s, parse_section fuel st name = Ok s ->
  forall fuel', parse_section fuel' st name = Ok s <-> (section_calls s <= fuel')%nat.
Proof. exact (fun st name fuel s => section_exact st fuel name s). Qed.
Print Assumptions C90_section.
(** They are at most two for each level, and one. *)
Theorem C90_levels : forall p, (page_calls p <= 2 * page_levels p + 1)%nat.
Proof. exact page_calls_levels. Qed.
Print Assumptions C90_levels.
(** A page has no more levels than its space has objects, and than the file has bytes. *)
Theorem C90_objects : forall sp fuel p, parse_page fuel sp = Ok p -> (page_levels p <= length (sp_objects sp))%nat.
Proof. exact page_objects. Qed.
Print Assumptions C90_objects.
Theorem C90_bytes : forall h fuel data file s series p, parse_section_buffer h fuel data file = Ok s ->
  In series (se_page_series s) -> In p series -> (page_levels p <= length data)%nat.
Proof. exact buffer_levels. Qed.
Print Assumptions C90_bytes.

(** Two open calls for each byte of the file, and one, decide what becomes of it: what
    is not known then never will be. *)
Theorem C90_decides : forall h data file,
  let decided := parse_section_buffer h (2 * length data + 1) data file in
  (decided = OutOfFuel -> forall fuel, parse_section_buffer h fuel data file = OutOfFuel) /\
  (forall fuel, parse_section_buffer h fuel data file <> OutOfFuel -> parse_section_buffer h fuel data file = decided).
Proof. exact buffer_decided. Qed.
Print Assumptions C90_decides.
Theorem C90_file : forall h fs p data, fs_read fs p = Some data ->
  let decided := parse_section_file h (2 * length data + 1) fs p in
  (decided = OutOfFuel -> forall fuel, parse_section_file h fuel fs p = OutOfFuel) /\
  (forall fuel, parse_section_file h fuel fs p <> OutOfFuel -> parse_section_file h fuel fs p = decided).
Proof. exact file_decided. Qed.
Print Assumptions C90_file.
(** For a notebook, twice the bytes of its largest file, and one. *)
Theorem C90_notebook : forall sanitise h fs depth p size, (forall q data, fs_read fs q = Some data -> (length data <= size)%nat) ->
  let decided := parse_notebook sanitise h depth (2 * size + 1) fs p in
  (decided = OutOfFuel -> forall fuel, parse_notebook sanitise h depth fuel fs p = OutOfFuel) /\
  (forall fuel, parse_notebook sanitise h depth fuel fs p <> OutOfFuel -> parse_notebook sanitise h depth fuel fs p = decided).
Proof. exact notebook_decided. Qed.
Print Assumptions C90_notebook.

(** No fixed number of open calls reads every file that can be read: a file of
    320 bytes for each level can need as many calls as it has levels. *)
Theorem C90_limit_refuted : forall k, N.of_nat k < 2 ^ 31 -> exists data, bytes_ok data /\ (length data <= 320 * k + 5000)%nat /\ forall h file, exists s p,
  (exists fuel, parse_section_buffer h fuel data file = Ok s) /\ se_page_series s = [[p]] /\ page_levels p = S k /\
  forall fuel, (fuel <= k)%nat -> parse_section_buffer h fuel data file = OutOfFuel.
Proof. exact deep_written. Qed.
Print Assumptions C90_limit_refuted.

(** A page of the sample file: five levels, read with five open calls and not with four. *)
Example C90_depth_example : exists p, parse_page 5 sp_rich = Ok p /\ page_levels p = 5%nat /\ page_calls p = 5%nat /\
  parse_page 4 sp_rich = OutOfFuel /\ length (sp_objects sp_rich) = 27%nat.
Proof.
  assert (R : match parse_page 5 sp_rich with Ok p => page_levels p = 5%nat /\ page_calls p = 5%nat | _ => False end) by (vm_compute; split; reflexivity).
  destruct (parse_page 5 sp_rich) as [p| | |]; try destruct R. exists p. refine (conj eq_refl (conj _ (conj _ (conj _ eq_refl)))); try assumption.
  vm_compute. reflexivity.
Qed.
(** A section file of which nine steps know the outcome, and so the number of C90_decides. *)
Example C90_decides_example : parse_section_buffer order_id 9 sample_section name_one <> OutOfFuel /\
  parse_section_file order_id 9 sample_fs (home ++ [Normal name_one]) <> OutOfFuel /\
  exists s, parse_section_buffer order_id (2 * length sample_section + 1) sample_section name_one = Ok s.
Proof.
  assert (R : is_ok (parse_section_buffer order_id 9 sample_section name_one) = true) by (vm_compute; reflexivity).
  destruct (parse_section_buffer order_id 9 sample_section name_one) as [s| | |] eqn:E; try discriminate R.
  split; [discriminate|]. split; [intros H; revert H; vm_compute; discriminate|].
  exists s. rewrite <- E. symmetry. apply (proj2 (C90_decides order_id sample_section name_one) 9%nat). rewrite E. discriminate.
Qed.
(** The sample notebook: no file has more than 5000 bytes, and nine steps are enough. *)
Example C90_notebook_example : (forall q data, fs_read sample_fs q = Some data -> (length data <= 5000)%nat) /\
  parse_notebook same order_id 9 9 sample_fs (home ++ [Normal name_toc]) <> OutOfFuel.
Proof.
  split; [|vm_compute; discriminate].
  intros p d H. unfold sample_fs, plain_fs in H. cbn [fs_read] in H.
  destruct (find _ sample_files) as [[q e]|] eqn:F; [|discriminate H]. apply find_some in F as (I & _).
  cbn in H. injection H as <-. cbn [sample_files In] in I.
  destruct I as [E|[E|[E|[]]]]; injection E as <- <-; apply PeanoNat.Nat.leb_le; vm_compute; reflexivity.
Qed.
