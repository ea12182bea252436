(** Independent description of the wire encodings, written from the format
    documents ([MS-FSSHTTPB], [MS-DTYP], [MS-ISF], UTF-16), not from the parsers.
    Used to state the round-trip properties. *)
From Coq Require Export List NArith ZArith Bool.
Export ListNotations.
From Verif Require Import Base Codec.
Open Scope N_scope.

(** A Rust [&[u8]]. *)
Definition bytes_ok (bs : list N) : Prop := Forall (fun b => b < 256) bs.

(** [n]-byte little-endian form of [v]. *)
Fixpoint le_bytes (n : nat) (v : N) : list N :=
  match n with
  | O => []
  | S n' => v mod 256 :: le_bytes n' (v / 256)
  end.

(** [n]-byte big-endian form of [v]. *)
Definition be_bytes (n : nat) (v : N) : list N := rev (le_bytes n v).

(** [MS-FSSHTTPB] 2.2.1.1: [compact_encodes v e] when [e] is one of the nine
    compact encodings of [v]: the zero byte; for k = 1..7, a k-byte
    little-endian number whose low k bits are 10..0 and whose upper 7k bits are
    [v]; the byte 0x80 followed by eight bytes. *)
Inductive compact_encodes : N -> list N -> Prop :=
| ce_zero : compact_encodes 0 [0]
| ce_short (k : nat) (v : N) :
    (1 <= k <= 7)%nat -> v < 2 ^ (7 * N.of_nat k) ->
    compact_encodes v (le_bytes k (v * 2 ^ N.of_nat k + 2 ^ (N.of_nat k - 1)))
| ce_full (v : N) : v < 2 ^ 64 -> compact_encodes v (0x80 :: le_bytes 8 v).

(** [MS-DTYP] 2.3.4.2: a GUID is Data1 (32 bit), Data2, Data3 (16 bit) and the
    eight bytes Data4; its text shows the four fields in this order, and on the
    wire the first three are little-endian. Here a GUID is the 128-bit number
    spelled by the text. *)
Definition guid_text (d1 d2 d3 d4 : N) : N :=
  d1 * 2 ^ 96 + d2 * 2 ^ 80 + d3 * 2 ^ 64 + d4.

Definition guid_enc (g : N) : list N :=
  le_bytes 4 (g / 2 ^ 96) ++ le_bytes 2 (g / 2 ^ 80 mod 2 ^ 16)
  ++ le_bytes 2 (g / 2 ^ 64 mod 2 ^ 16) ++ be_bytes 8 (g mod 2 ^ 64).

(** [MS-FSSHTTPB] 2.2.1.7: the five forms of an extended GUID. *)
Inductive exguid_encodes : exguid -> list N -> Prop :=
| ege_null : exguid_encodes (ExGuid 0 0) [0]
| ege_5 g v : g < 2 ^ 128 -> v < 2 ^ 5 ->
    exguid_encodes (ExGuid g v) ((4 + v * 8) :: guid_enc g)
| ege_10 g v : g < 2 ^ 128 -> v < 2 ^ 10 ->
    exguid_encodes (ExGuid g v) (le_bytes 2 (32 + v * 64) ++ guid_enc g)
| ege_17 g v : g < 2 ^ 128 -> v < 2 ^ 17 ->
    exguid_encodes (ExGuid g v) (le_bytes 3 (64 + v * 128) ++ guid_enc g)
| ege_32 g v : g < 2 ^ 128 -> v < 2 ^ 32 ->
    exguid_encodes (ExGuid g v) (128 :: le_bytes 4 v ++ guid_enc g).

(** [MS-FSSHTTPB] 2.2.1.9: serial numbers. *)
Inductive serial_encodes : serial -> list N -> Prop :=
| se_null : serial_encodes (Serial 0 0) [0]
| se_full g n : g < 2 ^ 128 -> n < 2 ^ 64 ->
    serial_encodes (Serial g n) (128 :: guid_enc g ++ le_bytes 8 n).

(** [MS-FSSHTTPB] 2.2.1.5: stream object headers. [start_encodes c t n e]: [e]
    is a start header with compound flag [c], object type number [t], payload
    length [n]. *)
Definition flag (c : bool) : N := if c then 1 else 0.

Inductive start16_encodes (c : bool) (t n : N) : list N -> Prop :=
| s16 : t < 64 -> n < 128 ->
    start16_encodes c t n (le_bytes 2 (flag c * 4 + t * 2 ^ 3 + n * 2 ^ 9)).

Inductive start32_encodes (c : bool) (t n : N) : list N -> Prop :=
| s32 : t < 2 ^ 14 -> n < 32767 ->
    start32_encodes c t n (le_bytes 4 (2 + flag c * 4 + t * 2 ^ 3 + n * 2 ^ 17))
| s32_large e : t < 2 ^ 14 -> compact_encodes n e ->
    start32_encodes c t n
      (le_bytes 4 (2 + flag c * 4 + t * 2 ^ 3 + 32767 * 2 ^ 17) ++ e).

Inductive end8_encodes (t : N) : list N -> Prop :=
| e8 : t < 64 -> end8_encodes t [1 + t * 4].

Inductive end16_encodes (t : N) : list N -> Prop :=
| e16 : t < 2 ^ 14 -> end16_encodes t (le_bytes 2 (3 + t * 4)).

(** [MS-ISF] multi-byte integers: 7 bits per byte, least significant group first,
    the high bit set on every byte but the last. Any number of zero groups may
    pad the end. *)
Inductive mb_encodes : N -> list N -> Prop :=
| mb_last b : b < 128 -> mb_encodes b [b]
| mb_more b v l : b < 128 -> mb_encodes v l ->
    mb_encodes (b + 128 * v) ((128 + b) :: l).

(** The number spelled by the low seven bits of each byte, whether or not the
    last byte ends the integer. *)
Fixpoint mb_groups (l : list N) : N :=
  match l with [] => 0 | b :: r => b mod 128 + 128 * mb_groups r end.

(** The shortest encoding. *)
Fixpoint mb_enc_fuel (n : nat) (v : N) : list N :=
  match n with
  | O => [v mod 128]
  | S n' => if v <? 128 then [v] else (128 + v mod 128) :: mb_enc_fuel n' (v / 128)
  end.
Definition mb_enc (v : N) : list N := mb_enc_fuel 9 v.

(** A stream of multi-byte integers: twice the count, then the values. *)
Definition mb_stream (vs : list N) : list N :=
  mb_enc (2 * N.of_nat (length vs)) ++ concat (map mb_enc vs).

(** Signed values carry the sign in the lowest bit. *)
Definition sign_magnitude (z : Z) : N :=
  2 * Z.abs_N z + (if (z <? 0)%Z then 1 else 0).

(** ** Unicode *)

(** Unicode scalar values. *)
Definition scalar (c : N) : Prop := c < 0xD800 \/ (0xE000 <= c /\ c < 0x110000).

(** UTF-16 code units of a scalar value. *)
Definition utf16_units (c : N) : list N :=
  if c <? 0x10000 then [c]
  else [0xD800 + (c - 0x10000) / 0x400; 0xDC00 + (c - 0x10000) mod 0x400].

Definition utf16_enc (s : list N) : list N := flat_map utf16_units s.

(** Code units as little-endian bytes. *)
Definition u16_bytes (us : list N) : list N := flat_map (le_bytes 2) us.

(** ** What it means to be an exact [w]-byte little-endian reader *)
Definition exact_int_reader (w : nat) (p : parser N) : Prop :=
  (forall v rest, v < 2 ^ (8 * N.of_nat w) -> p (le_bytes w v ++ rest) = Ok (v, rest)) /\
  (forall bs v rest, bytes_ok bs -> p bs = Ok (v, rest) ->
     v < 2 ^ (8 * N.of_nat w) /\ bs = le_bytes w v ++ rest) /\
  (forall bs, (w <= length bs)%nat -> exists v rest, p bs = Ok (v, rest)) /\
  (forall bs, (length bs < w)%nat -> p bs = Err UnexpectedEof).
