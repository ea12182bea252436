(** C81: where the reading of a damaged file stops. *)
From Verif Require Import Base Codec SpecCodec Package SpecPackage Store Notebook SpecStop StopProofs PropertiesStore
  PackageFacts ExampleFile PropertiesApi ExampleNotebook.

(** Every answer but [UnexpectedEof] is given by a shortest beginning of the data:
    with fewer bytes more is asked for, and no bytes after it change the answer. *)
Theorem C81_decided : forall h fuel data file r,
  parse_section_buffer h fuel data file = r -> r <> Err UnexpectedEof ->
  exists k, decided_by (fun d => parse_section_buffer h fuel d file) data k r.
Proof. exact buffer_decided. Qed.
Print Assumptions C81_decided.

(** [MalformedData]: the byte at which reading stopped does not start an extended
    GUID, and one was wanted there: with the null one in its place reading goes on. *)
Theorem C81_exguid : forall h fuel data file, parse_section_buffer h fuel data file = Err MalformedData ->
  exists k, decided_by (fun d => parse_section_buffer h fuel d file) data (S k) (Err MalformedData) /\
    ~ starts_exguid (nth k data 0) /\
    parse_section_buffer h fuel (firstn k data ++ [0]) file = Err UnexpectedEof.
Proof. exact buffer_exguid. Qed.
Print Assumptions C81_exguid.

(** [UnexpectedEof]: the container is complete, or some bytes after the data complete
    it or bring another answer. *)
Theorem C81_ended_early : forall h fuel data file, parse_section_buffer h fuel data file = Err UnexpectedEof ->
  whole data \/
  exists t, whole (data ++ t) \/ parse_section_buffer h fuel (data ++ t) file <> Err UnexpectedEof.
Proof. exact ended_early. Qed.
Print Assumptions C81_ended_early.

(** [MalformedOneStoreData]: the file names no known layout, or its header misplaces
    the container, or the container is complete. The first two suffice. *)
Theorem C81_layout_cause : forall h fuel data file, bytes_ok data ->
  parse_section_buffer h fuel data file = Err MalformedOneStoreData ->
  (exists e t, data = e ++ t /\ (unknown_layout e \/ bad_log e)) \/ whole data.
Proof. exact layout_cause. Qed.
Print Assumptions C81_layout_cause.

Theorem C81_layout_error : forall h fuel e t file, unknown_layout e \/ bad_log e ->
  parse_section_buffer h fuel (e ++ t) file = Err MalformedOneStoreData.
Proof. exact layout_error. Qed.
Print Assumptions C81_layout_error.

(** A file that stops at its 73rd byte, one with a zero layout identifier, and one
    whose transaction log ends within the header. *)
Definition stopped : list N := file_start ++ le_bytes 4 0 ++ w_h32 OneNotePackaging ++ [1; 7; 7].
Definition short_log : list N :=
  (guid_enc 1 ++ guid_enc 1 ++ guid_enc 0 ++ guid_enc 0x109ADD3F911B49F5A5D01791EDC8AED8) ++
  le_bytes 4 0x2A ++ le_bytes 4 0x2A ++ le_bytes 4 0x1B ++ le_bytes 4 0x1B ++ repeat 9 80 ++
  le_bytes 8 100 ++ le_bytes 4 71.
Lemma guids_meet : forall a b c d, a < 2 ^ 128 -> b < 2 ^ 128 -> c < 2 ^ 128 -> d < 2 ^ 128 ->
  l_guids a b c d (guid_enc a ++ guid_enc b ++ guid_enc c ++ guid_enc d).
Proof. intros. unfold l_guids. repeat (apply cat_intro; [split; [assumption|reflexivity]|]). split; [assumption|reflexivity]. Qed.
Lemma uint_meets : forall w n, n < 2 ^ (8 * N.of_nat w) -> l_uint w n (le_bytes w n).
Proof. intros. split; [assumption|reflexivity]. Qed.
Example C81_example :
  parse_section_buffer order_id 5 stopped [97] = Err MalformedData /\
  parse_section_buffer order_id 5 (firstn 72 stopped) [97] = Err UnexpectedEof /\
  parse_section_buffer order_id 5 (firstn 72 stopped ++ [0]) [97] = Err UnexpectedEof /\
  nth 72 stopped 0 = 1 /\ ~ starts_exguid 1 /\ unknown_layout (repeat 0 64) /\ bad_log short_log.
Proof.
  do 4 (split; [vm_compute; reflexivity|]). split; [cbv; intuition discriminate|]. split.
  - exists 0, 0, 0, 0. split; [discriminate|]. split; [discriminate|].
    exact (guids_meet 0 0 0 0 eq_refl eq_refl eq_refl eq_refl).
  - exists 1, 1, 100, 71. split; [left; reflexivity|]. apply cat_intro.
    { apply guids_meet; reflexivity. }
    unfold l_file_header.
    do 4 (apply cat_intro; [first [left; apply uint_meets; reflexivity|right; apply uint_meets; reflexivity]|]).
    apply cat_intro; [apply (repeat_length 9 80)|]. apply cat_intro; apply uint_meets; reflexivity.
Qed.

(** The sample section is complete, and cut after 700 bytes it is not. *)
Example C81_whole_example :
  is_ok (packaging_parse sample_section) = true /\ is_err (packaging_parse (firstn 700 sample_section)) UnexpectedEof = true /\
  is_err (parse_section_buffer order_id 5 (firstn 700 sample_section) [97]) UnexpectedEof = true.
Proof. computes. Qed.
