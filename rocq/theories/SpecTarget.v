(** C91: what a file may hold to be read alike on every target. *)
From Verif Require Import Base Codec Package PropSet Store Doc Notebook Target.

(** A release and a debug build for a 32-bit target, and builds for a 64-bit target. *)
Definition release_32 : target := Target (2 ^ 32) false.
Definition debug_32 : target := Target (2 ^ 32) true.
Definition build_64 (checks : bool) : target := Target (2 ^ 64) checks.

(** The number of references a value announces: one, as many as its count says, or
    those of the property sets in it. *)
Fixpoint references (v : pvalue) : N :=
  match v with
  | VObjectId | VObjectSpaceId => 1
  | VObjectIds n | VObjectSpaceIds n => n
  | VPropertyValues _ sets =>
    fold_right (fun s n => fold_right (fun e m => references (snd (snd e)) + m) 0 s + n) 0 sets
  | _ => 0
  end.
(** All that the properties of an object announce. *)
Definition announced (o : object) : N :=
  fold_right (fun e n => references (snd (snd e)) + n) 0 (op_props (ob_props o)).

(** No object of the store announces [n] references or more. *)
Definition announces_below (n : N) (st : store) : Prop :=
  forall sp x o, sp = st_data_root st \/ (exists cell, object_space st cell = Some sp) ->
  get_object sp x = Some o -> announced o < n.

(** The file is shorter than the memory, is not cut off, and no object in it announces
    more references than a [usize] can count. *)
Definition plain_on (T : target) (h : order) (fuel : nat) (d : list N) : Prop :=
  N.of_nat (length d) < usize_count T /\ open_store h fuel d <> Err UnexpectedEof /\
  forall st, open_store h fuel d = Ok st -> announces_below (usize_count T) st.
