(** C91: one result on every target. *)
From Verif Require Import Base Codec SpecCodec Package PropSet Store Doc Notebook PropertiesStore ExampleSection Target TargetDoc SpecTarget
  TargetProofs3 TargetProofs4 TargetExample.

(** A section, from its bytes and from its file. *)
Theorem C91_section : forall T h fuel d file, 1 < usize_count T -> plain_on T h fuel d ->
  parse_section_buffer_on T h fuel d file = parse_section_buffer h fuel d file.
Proof. exact plain_buffer. Qed.
Print Assumptions C91_section.
Theorem C91_file : forall T h fuel fs p, 1 < usize_count T -> (forall d, fs_read fs p = Some d -> plain_on T h fuel d) ->
  parse_section_file_on T h fuel fs p = parse_section_file h fuel fs p.
Proof. exact plain_file. Qed.
Print Assumptions C91_file.

(** A notebook. *)
Theorem C91_notebook : forall T sanitise h depth fuel fs p, 1 < usize_count T ->
  (forall q d, fs_read fs q = Some d -> plain_on T h fuel d) ->
  parse_notebook_on T sanitise h depth fuel fs p = parse_notebook sanitise h depth fuel fs p.
Proof. exact plain_notebook. Qed.
Print Assumptions C91_notebook.

Example C91_example : plain_on release_32 order_id 3 rich_file /\ plain_on debug_32 order_id 3 rich_file /\
  (exists st o, open_store order_id 3 rich_file = Ok st /\ get_object (st_data_root st) (ExampleFile.xid 101) = Some o /\ announced o = 1).
Proof. exact rich_plain. Qed.

(** On a 64-bit target all files of less than 4 GiB are read as in the other
    properties, whatever they hold, in release and in debug builds. *)
Theorem C91_64 : forall checks h fuel d file, bytes_ok d -> N.of_nat (length d) < 2 ^ 32 ->
  parse_section_buffer_on (build_64 checks) h fuel d file = parse_section_buffer h fuel d file.
Proof. exact buffer_64. Qed.
Print Assumptions C91_64.
Theorem C91_64_file : forall checks h fuel fs p, (forall d, fs_read fs p = Some d -> bytes_ok d /\ N.of_nat (length d) < 2 ^ 32) ->
  parse_section_file_on (build_64 checks) h fuel fs p = parse_section_file h fuel fs p.
Proof. exact file_64. Qed.
Print Assumptions C91_64_file.
Theorem C91_64_notebook : forall checks sanitise h depth fuel fs p,
  (forall q d, fs_read fs q = Some d -> bytes_ok d /\ N.of_nat (length d) < 2 ^ 32) ->
  parse_notebook_on (build_64 checks) sanitise h depth fuel fs p = parse_notebook sanitise h depth fuel fs p.
Proof. exact notebook_64. Qed.
Print Assumptions C91_64_notebook.
Example C91_64_example : bytes_ok heavy_file /\ N.of_nat (length heavy_file) < 2 ^ 32 /\
  parse_section_buffer order_id 4 heavy_file [65] = Ok (Section_ [78] [] (Some (Props.Color 255 1 2 3))).
Proof. exact heavy_example. Qed.

(** A build with overflow checks never reads anything else without saying so: it gives
    the same result or panics. *)
Theorem C91_checked : forall T h fuel d file, overflow_checks T = true -> 2 ^ 32 <= usize_count T ->
  bytes_ok d -> N.of_nat (length d) < usize_count T -> open_store h fuel d <> Err UnexpectedEof ->
  parse_section_buffer_on T h fuel d file = parse_section_buffer h fuel d file \/
  parse_section_buffer_on T h fuel d file = Panic.
Proof. exact checked_buffer. Qed.
Print Assumptions C91_checked.
Theorem C91_checked_file : forall T h fuel fs p, overflow_checks T = true -> 2 ^ 32 <= usize_count T ->
  (forall d, fs_read fs p = Some d -> bytes_ok d /\ N.of_nat (length d) < usize_count T /\ open_store h fuel d <> Err UnexpectedEof) ->
  parse_section_file_on T h fuel fs p = parse_section_file h fuel fs p \/ parse_section_file_on T h fuel fs p = Panic.
Proof. exact checked_file. Qed.
Print Assumptions C91_checked_file.
Theorem C91_checked_notebook : forall T sanitise h depth fuel fs p, overflow_checks T = true -> 2 ^ 32 <= usize_count T ->
  (forall q d, fs_read fs q = Some d -> bytes_ok d /\ N.of_nat (length d) < usize_count T /\ open_store h fuel d <> Err UnexpectedEof) ->
  parse_notebook_on T sanitise h depth fuel fs p = parse_notebook sanitise h depth fuel fs p \/
  parse_notebook_on T sanitise h depth fuel fs p = Panic.
Proof. exact checked_notebook. Qed.
Print Assumptions C91_checked_notebook.
Example C91_checked_example : overflow_checks debug_32 = true /\ 2 ^ 32 <= usize_count debug_32 /\
  bytes_ok heavy_file /\ N.of_nat (length heavy_file) < usize_count debug_32 /\ open_store order_id 4 heavy_file <> Err UnexpectedEof /\
  parse_section_buffer_on debug_32 order_id 4 heavy_file [65] = Panic.
Proof. exact heavy_checked. Qed.

(** On a 32-bit target a file that is cut off can be read as if it were not. *)
Theorem C91_truncated_refuted : exists h fuel d file s, bytes_ok d /\ (length d < 5000)%nat /\
  parse_section_buffer h fuel d file = Err UnexpectedEof /\ parse_section_buffer_on release_32 h fuel d file = Ok s /\
  parse_section_buffer_on debug_32 h fuel d file = Ok s.
Proof. exact truncated_read. Qed.
Print Assumptions C91_truncated_refuted.

(** And the counts of references overflow: a release build reads another section, a
    debug build panics. *)
Theorem C91_references_refuted : exists h fuel d file s s', bytes_ok d /\ (length d < 5000)%nat /\
  parse_section_buffer h fuel d file = Ok s /\ parse_section_buffer_on release_32 h fuel d file = Ok s' /\ s <> s' /\
  parse_section_buffer_on debug_32 h fuel d file = Panic.
Proof. exact counts_overflow. Qed.
Print Assumptions C91_references_refuted.
