(** Property theorems: GUIDs as texts (C88). *)
From Coq Require Import Lia String.
From Verif Require Import Base Codec SpecCodec Package Store Doc Notebook GuidText SpecGuidText GuidTextProofs.
Local Open Scope list_scope.

(** ** C88 *)
(** Exactly the texts of a GUID are read, as that GUID. *)
Theorem C88_read : forall s g, guid_from_str s = Ok g <-> guid_text s g.
Proof. exact from_str_iff. Qed.
Print Assumptions C88_read.
(** Any other is refused, and nothing crashes. *)
Theorem C88_refused : forall s, (forall g, ~ guid_text s g) -> guid_from_str s = Err InvalidUuid.
Proof.
  exact (fun s N => match from_str_err s _ eq_refl with
    | or_introl (ex_intro _ g E) => False_ind _ (N g (proj1 (from_str_iff s g) E))
    | or_intror E => E end).
Qed.
Print Assumptions C88_refused.
(** What is read has 128 bits. *)
Theorem C88_bound : forall s g, guid_text s g -> g < 2 ^ 128.
Proof. exact text_bound. Qed.
Print Assumptions C88_bound.
(** The text written for a GUID is the one in braces, with hyphens and capitals. *)
Theorem C88_written : forall s g, g < 2 ^ 128 ->
  s = guid_display g <-> exists t, s = 123 :: t ++ [125] /\ hyphenated t g /\ Forall not_lower t.
Proof. exact display_iff. Qed.
Print Assumptions C88_written.
(** It is read as the same GUID, so that different GUIDs have different texts. *)
Theorem C88_round : forall g, g < 2 ^ 128 -> guid_from_str (guid_display g) = Ok g.
Proof. exact display_read. Qed.
Print Assumptions C88_round.
Theorem C88_different : forall g g', g < 2 ^ 128 -> g' < 2 ^ 128 -> guid_display g = guid_display g' -> g = g'.
Proof. exact display_fun. Qed.
Print Assumptions C88_different.
(** The text of a GUID in a file: its first three numbers are stored with the lowest byte
    first, the rest byte by byte. *)
Theorem C88_stored : forall b0 b1 b2 b3 b4 b5 b6 b7 b8 b9 b10 b11 b12 b13 b14 b15 t,
  bytes_ok [b0; b1; b2; b3; b4; b5; b6; b7; b8; b9; b10; b11; b12; b13; b14; b15] ->
  exists g a b c d e, guid_parse ([b0; b1; b2; b3; b4; b5; b6; b7; b8; b9; b10; b11; b12; b13; b14; b15] ++ t) = Ok (g, t) /\
    guid_display g = [123] ++ a ++ [45] ++ b ++ [45] ++ c ++ [45] ++ d ++ [45] ++ e ++ [125] /\
    List.length a = 8%nat /\ List.length b = 4%nat /\ List.length c = 4%nat /\ List.length d = 4%nat /\ List.length e = 12%nat /\
    hexadecimal a (b0 + 2 ^ 8 * b1 + 2 ^ 16 * b2 + 2 ^ 24 * b3) /\ hexadecimal b (b4 + 2 ^ 8 * b5) /\ hexadecimal c (b6 + 2 ^ 8 * b7) /\
    hexadecimal d (2 ^ 8 * b8 + b9) /\
    hexadecimal e (2 ^ 40 * b10 + 2 ^ 32 * b11 + 2 ^ 24 * b12 + 2 ^ 16 * b13 + 2 ^ 8 * b14 + b15).
Proof. exact display_wire. Qed.
Print Assumptions C88_stored.
(** All GUIDs written out in the program are texts of GUIDs, so that using them never
    crashes, and they are the ones of the model: mod.rs:65, mod.rs:111 and 134,
    packaging.rs:35-36, revision_role.rs:19, onestore/mod.rs:139 and 147, ink.rs:271
    and 278. *)
Theorem C88_literals :
  guid_literal (ascii_bytes "E4DBFD38-E5C7-408B-A8A1-0E7B421E1F5F") = Ok toc_schema /\
  guid_literal (ascii_bytes "1F937CB4-B26F-445F-B9F8-17E20160E461") = Ok section_schema /\
  guid_literal (ascii_bytes "109ADD3F-911B-49F5-A5D0-1791EDC8AED8") = Ok revision_store_format /\
  guid_literal (ascii_bytes "638DE92F-A6D4-4BC1-9A36-B3FC2511A5B7") = Ok package_store_format /\
  guid_literal (ascii_bytes "4A3717F8-1C14-49E7-9526-81D942DE1741") = Ok 0x4A3717F81C1449E7952681D942DE1741 /\
  guid_literal (ascii_bytes "1A5A319C-C26B-41AA-B9C5-9BD8C44E07D4") = Ok (eg_guid header_cell_root) /\
  guid_literal (ascii_bytes "84DEFAB9-AAA3-4A0D-A3A8-520C77AC7073") = Ok (eg_guid data_root) /\
  guid_literal (ascii_bytes "598a6a8f-52c0-4ba0-93af-af357411a561") = Ok guid_x /\
  guid_literal (ascii_bytes "b53f9f75-04e0-4498-a7ee-c30dbb5a9011") = Ok guid_y.
Proof. repeat apply conj; reflexivity. Qed.
Print Assumptions C88_literals.
(** All four forms, in both cases, and some texts that are none. *)
Example C88_example :
  let g := 0x00112233445566778899AABBCCDDEEFF in
  guid_text (ascii_bytes "00112233445566778899aabbccddeeff") g /\
  guid_text (ascii_bytes "00112233-4455-6677-8899-aAbBccddeeff") g /\
  guid_text (ascii_bytes "{00112233-4455-6677-8899-AABBCCDDEEFF}") g /\
  guid_text (ascii_bytes "urn:uuid:00112233-4455-6677-8899-aabbccddeeff") g /\
  guid_display g = ascii_bytes "{00112233-4455-6677-8899-AABBCCDDEEFF}" /\
  (forall g', ~ guid_text (ascii_bytes "0011223-34455-6677-8899-aabbccddeeff") g') /\
  (forall g', ~ guid_text (ascii_bytes "(00112233-4455-6677-8899-AABBCCDDEEFF)") g').
Proof.
  cbn zeta. do 4 (split; [apply C88_read; reflexivity|]). split; [reflexivity|].
  split; intros g' H; apply C88_read in H; discriminate H.
Qed.
