(** Where the reading of a damaged file stops. *)
From Verif Require Import Base Codec SpecCodec Package SpecPackage.

(** The first byte of an extended GUID in one of its five forms
    ([MS-FSSHTTPB] 2.2.1.7): null, and numbers of 5, 10, 17 and 32 bits. *)
Definition starts_exguid (b : N) : Prop :=
  b = 0 \/ b mod 8 = 4 \/ b mod 64 = 32 \/ b mod 128 = 64 \/ b = 128.

(** The answers of [f] to the prefixes of [data]: up to [k] bytes [f] asks for more,
    from there on it has made up its mind. *)
Definition decided_by {A} (f : list N -> res A) (data : list N) (k : nat) (r : res A) : Prop :=
  (k <= length data)%nat /\
  (forall m, (m < k)%nat -> f (firstn m data) = Err UnexpectedEof) /\
  (forall t, f (firstn k data ++ t) = r).

(** A file whose fourth identifier names neither of the two layouts. *)
Definition unknown_layout : lang := fun e => exists ft f lv ff,
  ff <> 0x638DE92FA6D44BC19A36B3FC2511A5B7 /\ ff <> 0x109ADD3F911B49F5A5D01791EDC8AED8 /\
  l_guids ft f lv ff e.

(** A header whose transaction log ends before the header does, or beyond the largest
    64-bit number. *)
Definition bad_log : lang := fun e => exists h1 h2 stp cb,
  (stp + cb < 172 \/ 2 ^ 64 <= stp + cb) /\
  (l_guids h1 h2 0 0x109ADD3F911B49F5A5D01791EDC8AED8 +++ l_file_header stp cb) e.

(** A file with a complete container at its beginning; C55 says which these are. *)
Definition whole (data : list N) : Prop := exists pg rest, packaging_parse data = Ok (pg, rest).
