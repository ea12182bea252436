(** What the numbers of ink are worth. *)
From Coq Require Import QArith Qabs Floats.SpecFloat.
From Verif Require Import Base Store Props Nodes Doc SpecDoc.

(** The value of a number in single precision. All are multiples of 2 ^ -149. *)
Definition value (f : spec_float) : option Q :=
  match f with
  | S754_zero _ => Some 0%Q
  | S754_finite s m e =>
    if (e <? -149)%Z then None
    else Some (((if s then Z.neg m else Z.pos m) * 2 ^ (e + 149))%Z # 2 ^ 149)
  | _ => None
  end.
(** [f] can be stored in 32 bits. *)
Definition storable (f : spec_float) : Prop := exists bits, bits < 2 ^ 32 /\ f = single bits.
(** [f] is the closest there is to [q]. Of two that are equally close it is the one
    with an even last bit. *)
Definition closest (q : Q) (f : spec_float) : Prop :=
  storable f /\
  exists v, value f = Some v /\
    forall bits w, bits < 2 ^ 32 -> value (single bits) = Some w ->
      (Qabs (v - q) <= Qabs (w - q))%Q /\
      ((Qabs (w - q) == Qabs (v - q))%Q -> (w == v)%Q \/ exists b, b < 2 ^ 32 /\ f = single b /\ N.even b = true).
(** The largest number is (2 ^ 24 - 1) * 2 ^ 104; numbers from half a step above it on
    are out of range. *)
Definition in_range (q : Q) : Prop := (Qabs q < inject_Z ((2 ^ 25 - 1) * 2 ^ 103))%Q.
(** [f] is worth [z], with a relative error of at most 2 ^ -24, and exactly if [z] is at
    most 2 ^ 24 in size. *)
Definition about (z : Z) (f : spec_float) : Prop :=
  exists v, value f = Some v /\
    (Qabs (v - inject_Z z) * inject_Z (2 ^ 24) <= Qabs (inject_Z z))%Q /\
    ((Z.abs z <= 2 ^ 24)%Z -> (v == inject_Z z)%Q).
(** The pairs of stored numbers that the points of a path are made of. *)
Definition sources (zs : list Z) (dims : list ink_dimension) (src : list (Z * Z)) : Prop :=
  exists ix iy,
    let n := (length zs / length dims)%nat in
    dimension dims 0x598a6a8f52c04ba093afaf357411a561 ix /\
    dimension dims 0xb53f9f7504e04498a7eec30dbb5a9011 iy /\
    length src = n /\
    forall i x y, nth_error src i = Some (x, y) ->
      nth_error zs (n * ix + i) = Some x /\ nth_error zs (n * iy + i) = Some y.
Definition in_bits (sc : option N) : Prop := match sc with Some b => b < 2 ^ 32 | None => True end.
(** [r] is [a] times [f]: the closest number there is, or out of range infinity. *)
Definition product (a f r : spec_float) : Prop :=
  forall x y, storable a -> storable f -> value a = Some x -> value f = Some y ->
    (in_range (x * y) -> closest (x * y) r) /\ (~ in_range (x * y) -> exists s, r = S754_infinity s).
