(** Property theorems C01-C07 and C24: primitive encodings. *)
From Coq Require Import Lia ZifyBool ZifyNat ZifyN.
From Verif Require Import Base Codec SpecCodec CodecRT CodecRT2 CodecRT3 CodecRT4.

(** C01: reading or skipping [n] bytes takes exactly the first [n] bytes or reports
    [UnexpectedEof]. *)
Theorem C01_read_exact : forall n bs,
  (n <= N.of_nat (length bs) ->
     exists x rest, read n bs = Ok (x, rest) /\ bs = x ++ rest /\ N.of_nat (length x) = n) /\
  (N.of_nat (length bs) < n -> read n bs = Err UnexpectedEof).
Proof. exact read_spec. Qed.
Print Assumptions C01_read_exact.

Theorem C01_advance_exact : forall n bs,
  (n <= N.of_nat (length bs) ->
     exists x rest, advance n bs = Ok (tt, rest) /\ bs = x ++ rest /\ N.of_nat (length x) = n) /\
  (N.of_nat (length bs) < n -> advance n bs = Err UnexpectedEof).
Proof. exact advance_spec. Qed.
Print Assumptions C01_advance_exact.

(** C01: the integer readers decode exactly the little-endian encodings
    ([exact_int_reader] in SpecCodec.v); for [get_f32] the value is the bit
    pattern. *)
Theorem C01_integers_exact :
  exact_int_reader 1 get_u8 /\ exact_int_reader 2 get_u16 /\ exact_int_reader 4 get_u32 /\
  exact_int_reader 8 get_u64 /\ exact_int_reader 16 get_u128 /\ exact_int_reader 4 get_f32.
Proof. exact int_readers_exact. Qed.
Print Assumptions C01_integers_exact.

Example C01_example :
  read 2 [1; 2; 3] = Ok ([1; 2], [3]) /\ get_u16 [0x34; 0x12; 9] = Ok (0x1234, [9]) /\
  get_u32 [1; 2; 3] = Err UnexpectedEof.
Proof. repeat split. Qed.

(** C02: decoding returns [v] and leaves [rest] exactly when the input is one of the
    nine compact encodings of [v] followed by [rest]. *)
Theorem C02_compact_exact : forall bs v rest, bytes_ok bs ->
  (compact_parse bs = Ok (v, rest) <-> exists e, bs = e ++ rest /\ compact_encodes v e).
Proof. exact compact_iff. Qed.
Print Assumptions C02_compact_exact.

Theorem C02_compact_range : forall bs v rest, bytes_ok bs ->
  compact_parse bs = Ok (v, rest) -> v < 2 ^ 64.
Proof. exact compact_bound. Qed.
Print Assumptions C02_compact_range.

(** C02: the only possible failure is a truncated integer. *)
Theorem C02_compact_only_eof : forall bs e, bytes_ok bs ->
  compact_parse bs = Err e -> e = UnexpectedEof.
Proof. exact compact_only_eof. Qed.
Print Assumptions C02_compact_only_eof.

Example C02_example :
  compact_encodes 300 (le_bytes 2 (300 * 2 ^ 2 + 2 ^ 1)) /\
  compact_parse (le_bytes 2 (300 * 2 ^ 2 + 2 ^ 1) ++ [7]) = Ok (300, [7]) /\
  compact_parse (0x80 :: le_bytes 8 (2 ^ 64 - 1) ++ [7]) = Ok (2 ^ 64 - 1, [7]).
Proof.
  split; [|split; reflexivity].
  apply (ce_short 2 300); [lia|reflexivity].
Qed.

(** C03: decoding returns the extended GUID [e] and leaves [rest] exactly when the
    input is one of its five encodings followed by [rest]; a first byte that is none
    of the five tags is malformed data. *)
Theorem C03_exguid_exact : forall bs e rest, bytes_ok bs ->
  (exguid_parse bs = Ok (e, rest) <-> exists p, bs = p ++ rest /\ exguid_encodes e p).
Proof. exact exguid_iff. Qed.
Print Assumptions C03_exguid_exact.

Theorem C03_exguid_bad_tag : forall b t,
  b <> 0 -> b mod 8 <> 4 -> b mod 64 <> 32 -> b mod 128 <> 64 -> b <> 128 ->
  exguid_parse (b :: t) = Err MalformedData.
Proof. exact exguid_bad_tag. Qed.
Print Assumptions C03_exguid_bad_tag.

Example C03_example :
  exguid_encodes (ExGuid 0x84DEFAB9AAA34A0DA3A8520C77AC7073 700)
    (le_bytes 2 (32 + 700 * 64) ++ guid_enc 0x84DEFAB9AAA34A0DA3A8520C77AC7073) /\
  exguid_parse (le_bytes 2 (32 + 700 * 64) ++ guid_enc 0x84DEFAB9AAA34A0DA3A8520C77AC7073 ++ [5])
    = Ok (ExGuid 0x84DEFAB9AAA34A0DA3A8520C77AC7073 700, [5]) /\
  exguid_parse [3; 1; 1] = Err MalformedData.
Proof. split; [apply ege_10; reflexivity|split; reflexivity]. Qed.

(** C04: GUIDs. *)
Theorem C04_guid_exact : forall bs g rest, bytes_ok bs ->
  (guid_parse bs = Ok (g, rest) <-> g < 2 ^ 128 /\ bs = guid_enc g ++ rest).
Proof. exact guid_iff. Qed.
Print Assumptions C04_guid_exact.

Theorem C04_guid_injective : forall a b g,
  bytes_ok a -> bytes_ok b -> length a = 16%nat -> length b = 16%nat ->
  guid_parse a = Ok (g, []) -> guid_parse b = Ok (g, []) -> a = b.
Proof. exact guid_injective. Qed.
Print Assumptions C04_guid_injective.

(** C04: the sixteen bytes of the text, left to right, are the wire bytes with the
    first three fields reversed. *)
Theorem C04_guid_byte_order : forall b0 b1 b2 b3 b4 b5 b6 b7 b8 b9 b10 b11 b12 b13 b14 b15 t,
  bytes_ok [b0;b1;b2;b3;b4;b5;b6;b7;b8;b9;b10;b11;b12;b13;b14;b15] ->
  exists g,
  guid_parse ([b0;b1;b2;b3;b4;b5;b6;b7;b8;b9;b10;b11;b12;b13;b14;b15] ++ t) = Ok (g, t) /\
  be_bytes 16 g = [b3;b2;b1;b0;b5;b4;b7;b6;b8;b9;b10;b11;b12;b13;b14;b15].
Proof. exact guid_byte_order. Qed.
Print Assumptions C04_guid_byte_order.

Example C04_example :
  guid_parse [0x33;0x22;0x11;0x00; 0x55;0x44; 0x77;0x66; 0x88;0x99; 0xAA;0xBB;0xCC;0xDD;0xEE;0xFF]
  = Ok (0x00112233445566778899AABBCCDDEEFF, []).
Proof. reflexivity. Qed.

(** C05: any 7-bit encoding (padded or not) of each value and any encoding of twice
    the count (lowest bit ignored) decodes to the list, whatever follows. *)
Theorem C05_multibyte_roundtrip : forall vs ls n l t,
  Forall2 mb_encodes vs ls -> Forall (fun v => v < 2 ^ 64) vs ->
  Forall (fun l => (length l <= 10)%nat) ls ->
  mb_encodes n l -> (length l <= 10)%nat -> n < 2 ^ 64 ->
  n / 2 = N.of_nat (length vs) ->
  decode (l ++ concat ls ++ t) = Ok vs.
Proof. exact decode_roundtrip. Qed.
Print Assumptions C05_multibyte_roundtrip.

(** C05: in particular the shortest encoding of every list of u64 values. *)
Theorem C05_unsigned_roundtrip : forall vs t,
  Forall (fun v => v < 2 ^ 64) vs -> N.of_nat (length vs) < 2 ^ 63 ->
  decode (mb_stream vs ++ t) = Ok vs.
Proof. exact mb_stream_decode. Qed.
Print Assumptions C05_unsigned_roundtrip.

Theorem C05_signed_roundtrip : forall zs t,
  Forall (fun z => (- 2 ^ 63 < z < 2 ^ 63)%Z) zs -> N.of_nat (length zs) < 2 ^ 63 ->
  decode_signed (mb_stream (map sign_magnitude zs) ++ t) = Ok zs.
Proof. exact decode_signed_roundtrip. Qed.
Print Assumptions C05_signed_roundtrip.

(** C05: on every input, no panic, termination, values in range. *)
Theorem C05_signed_total : forall input,
  decode_signed input <> Panic /\ decode_signed input <> OutOfFuel /\
  forall zs, decode_signed input = Ok zs -> Forall (fun z => (- 2 ^ 63 < z < 2 ^ 63)%Z) zs.
Proof. exact decode_signed_facts. Qed.
Print Assumptions C05_signed_total.

(** C05: the result has exactly as many values as the leading count says, and fewer
    than there are input bytes. *)
Theorem C05_count_respected : forall input vs,
  decode input = Ok vs ->
  Forall (fun v => v < 2 ^ 64) vs /\ (length vs < length input)%nat /\
  exists n off, decode_uint input = Ok (n, off) /\ N.of_nat (length vs) = n / 2.
Proof. exact decode_facts. Qed.
Print Assumptions C05_count_respected.

Example C05_example :
  decode_signed (mb_stream (map sign_magnitude [5; -1000; 0; 123456789]%Z) ++ [1; 2])
  = Ok [5; -1000; 0; 123456789]%Z.
Proof. reflexivity. Qed.

(** C06, actual rule: an integer cut off after 1..10 continuation bytes is accepted,
    with the missing groups taken as zero. *)
Theorem C06_truncated_accepted : forall l,
  l <> [] -> Forall (fun b => 128 <= b < 256) l -> (length l <= 10)%nat ->
  decode_uint l = Ok (mb_groups l mod 2 ^ 64, N.of_nat (length l)).
Proof. exact mb_truncated. Qed.
Print Assumptions C06_truncated_accepted.

(** C06, actual rule: up to ten bytes are reduced modulo 2^64; an eleventh byte is an
    error. *)
Theorem C06_overwide_reduced : forall v l t,
  mb_encodes v l -> (length l <= 10)%nat ->
  decode_uint (l ++ t) = Ok (v mod 2 ^ 64, N.of_nat (length l)).
Proof. exact mb_decode. Qed.
Print Assumptions C06_overwide_reduced.

Theorem C06_eleven_bytes_rejected : forall l t,
  Forall (fun b => 128 <= b < 256) l -> length l = 10%nat -> t <> [] ->
  decode_uint (l ++ t) = Err MalformedOneNoteFileData.
Proof. exact mb_too_long. Qed.
Print Assumptions C06_eleven_bytes_rejected.

(** C06, refutations of "cut-off integers are rejected" and of "an accepted integer
    is the encoded one". *)
Theorem C06_truncation_rejected_refuted :
  exists v l cut, mb_encodes v l /\ l = cut ++ [1] /\ exists w n, decode_uint cut = Ok (w, n).
Proof. exact truncation_refuted. Qed.
Print Assumptions C06_truncation_rejected_refuted.

Theorem C06_overwide_rejected_refuted :
  exists v l w n, mb_encodes v l /\ decode_uint l = Ok (w, n) /\ w <> v.
Proof. exact overwide_refuted. Qed.
Print Assumptions C06_overwide_rejected_refuted.

Example C06_example :
  decode_uint [0x85] = Ok (5, 1) /\
  decode_uint [0xFF;0xFF;0xFF;0xFF;0xFF;0xFF;0xFF;0xFF;0xFF;0x7F] = Ok (2 ^ 64 - 1, 10) /\
  decode_uint [0xFF;0xFF;0xFF;0xFF;0xFF;0xFF;0xFF;0xFF;0xFF;0xFF;0] = Err MalformedOneNoteFileData.
Proof. repeat split. Qed.

(** C07: start and end headers decode exactly the encodings of their fields. *)
Theorem C07_start_exact : forall bs c t n rest, bytes_ok bs ->
  (header_parse bs = Ok (OHeader c t n, rest) <->
   exists p, bs = p ++ rest /\
     (start16_encodes c (otype_code t) n p \/ start32_encodes c (otype_code t) n p)).
Proof. exact starts_iff. Qed.
Print Assumptions C07_start_exact.

Theorem C07_start16_exact : forall bs c t n rest, bytes_ok bs ->
  (header_parse_16 bs = Ok (OHeader c t n, rest) <->
   exists p, bs = p ++ rest /\ start16_encodes c (otype_code t) n p).
Proof. exact starts16_iff. Qed.
Print Assumptions C07_start16_exact.

Theorem C07_start32_exact : forall bs c t n rest, bytes_ok bs ->
  (header_parse_32 bs = Ok (OHeader c t n, rest) <->
   exists p, bs = p ++ rest /\ start32_encodes c (otype_code t) n p).
Proof. exact starts32_iff. Qed.
Print Assumptions C07_start32_exact.

Theorem C07_end8_exact : forall bs t rest, bytes_ok bs ->
  (end_parse_8 bs = Ok (t, rest) <-> exists p, bs = p ++ rest /\ end8_encodes (otype_code t) p).
Proof. exact ends8_iff. Qed.
Print Assumptions C07_end8_exact.

Theorem C07_end16_exact : forall bs t rest, bytes_ok bs ->
  (end_parse_16 bs = Ok (t, rest) <-> exists p, bs = p ++ rest /\ end16_encodes (otype_code t) p).
Proof. exact ends16_iff. Qed.
Print Assumptions C07_end16_exact.

(** C07: the type numbers are those of the format's table, and distinct. *)
Theorem C07_type_numbers :
  map otype_code
    [DataElement; ObjectDataBlob; ObjectGroupDataExcluded; ObjectGroupDataBlob;
     StorageManifestRoot; RevisionManifestRoot; CellManifest; StorageManifest;
     StorageIndexRevisionMapping; StorageIndexCellMapping; StorageIndexManifestMapping;
     DataElementPackage; ObjectGroupDataObject; ObjectGroupObject;
     RevisionManifestGroupReference; RevisionManifest; ObjectGroupBlobReference;
     ObjectGroupDeclaration; ObjectGroupData; DataElementFragment; ObjectGroupMetadata;
     ObjectGroupMetadataBlock; OneNotePackaging]
  = [0x01; 0x02; 0x03; 0x05; 0x07; 0x0A; 0x0B; 0x0C; 0x0D; 0x0E; 0x11; 0x15; 0x16; 0x18;
     0x19; 0x1A; 0x1C; 0x1D; 0x1E; 0x6A; 0x78; 0x79; 0x7A]
  /\ forall a b, otype_code a = otype_code b -> a = b.
Proof. exact type_numbers. Qed.
Print Assumptions C07_type_numbers.

(** C07: parsing with a required type succeeds exactly when the header has that type. *)
Theorem C07_required_type : forall t bs rest,
  (try_parse t bs = Ok (tt, rest) <-> exists h, header_parse bs = Ok (h, rest) /\ oh_type h = t) /\
  (try_parse_16 t bs = Ok (tt, rest) <-> exists h, header_parse_16 bs = Ok (h, rest) /\ oh_type h = t) /\
  (try_parse_32 t bs = Ok (tt, rest) <-> exists h, header_parse_32 bs = Ok (h, rest) /\ oh_type h = t) /\
  (try_parse_end_8 t bs = Ok (tt, rest) <-> end_parse_8 bs = Ok (t, rest)) /\
  (try_parse_end_16 t bs = Ok (tt, rest) <-> end_parse_16 bs = Ok (t, rest)).
Proof. exact header_required_type. Qed.
Print Assumptions C07_required_type.

Example C07_example :
  start32_encodes true (otype_code OneNotePackaging) 70000
    (le_bytes 4 (2 + 4 + 0x7A * 8 + 32767 * 2 ^ 17) ++ le_bytes 3 (70000 * 8 + 4)) /\
  header_parse (le_bytes 4 (2 + 4 + 0x7A * 8 + 32767 * 2 ^ 17) ++ le_bytes 3 (70000 * 8 + 4) ++ [1])
  = Ok (OHeader true OneNotePackaging 70000, [1]).
Proof.
  split; [|reflexivity]. apply (s32_large true 0x7A 70000); [reflexivity|].
  apply (ce_short 3 70000); [lia|reflexivity].
Qed.

(** C24: UTF-16 text. *)
Theorem C24_utf16_roundtrip : forall s t,
  Forall scalar s -> Forall (fun c => c <> 0) s -> (length t <= 1)%nat ->
  utf16_to_string (u16_bytes (utf16_enc s) ++ t) = Ok s.
Proof. exact utf16_roundtrip. Qed.
Print Assumptions C24_utf16_roundtrip.

Theorem C24_utf16_stops_at_nul : forall s t,
  Forall scalar s -> Forall (fun c => c <> 0) s ->
  utf16_to_string (u16_bytes (utf16_enc s) ++ 0 :: 0 :: t) = Ok s.
Proof. exact utf16_stops_at_nul. Qed.
Print Assumptions C24_utf16_stops_at_nul.

(** C24: on every byte string the code units [us] before the first NUL either are the
    encoding of the returned text, or are no text's encoding and the result is a
    malformed-data error. No panic. *)
Theorem C24_utf16_complete : forall bs, bytes_ok bs ->
  exists us rest odd, bs = u16_bytes (us ++ rest) ++ odd /\ (length odd <= 1)%nat /\
    Forall (fun u => 0 < u < 65536) us /\ (rest = [] \/ exists r, rest = 0 :: r) /\
    ((exists s, utf16_to_string bs = Ok s /\ Forall scalar s /\ us = utf16_enc s) \/
     (utf16_to_string bs = Err MalformedOneNoteData /\
      ~ exists s, Forall scalar s /\ us = utf16_enc s)).
Proof. exact utf16_complete. Qed.
Print Assumptions C24_utf16_complete.

Example C24_example :
  utf16_to_string (u16_bytes (utf16_enc [0x48; 0x1F600; 0xE9]) ++ [0]) = Ok [0x48; 0x1F600; 0xE9] /\
  utf16_to_string [0x00; 0xD8; 0x41; 0x00] = Err MalformedOneNoteData.
Proof. split; reflexivity. Qed.
