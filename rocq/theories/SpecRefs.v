(** Independent description of how the references of an object are laid out
    ([MS-ONESTORE] 2.6.6-2.6.9): every reference property takes its identifiers
    from the object's streams, in file order, nested properties included. *)
From Verif Require Import Base Codec SpecCodec SpecPackage PropSet SpecPropSet.

Definition total {A} (f : A -> N) (l : list A) : N := fold_right (fun x n => f x + n) 0 l.

(** Identifiers taken by a value with no nested sets, from the object stream and
    from the object space stream. *)
Definition own_objects (v : sval) : N :=
  match v with SObjectId => 1 | SObjectIds n => n | _ => 0 end.
Definition own_spaces (v : sval) : N :=
  match v with SSpaceId => 1 | SSpaceIds n => n | _ => 0 end.

(** Identifiers taken by a value together with everything nested in it. *)
Fixpoint taken (own : sval -> N) (v : sval) : N :=
  match v with
  | SValues _ sets => total (fun s => total (fun p => taken own (snd p)) s) sets
  | SSet s => total (fun p => taken own (snd p)) s
  | _ => own v
  end.

Definition all {A} (P : A -> Prop) (l : list A) : Prop := fold_right (fun x Q => P x /\ Q) True l.

(** No property id occurs twice in a set, and no directly nested set takes
    identifiers. (Arrays of property sets may.) *)
Fixpoint regular (own : sval -> N) (v : sval) : Prop :=
  match v with
  | SValues _ sets =>
    all (fun s => NoDup (map fst s) /\ all (fun p => regular own (snd p)) s) sets
  | SSet s => taken own (SSet s) = 0
  | _ => True
  end.
Definition regular_set (own : sval -> N) (s : list (N * sval)) : Prop :=
  NoDup (map fst s) /\ all (fun p => regular own (snd p)) s.

(** [out] is what remains of [l], whose first element has position [k], when each
    element is replaced by what [f] gives for its position, if anything. *)
Inductive picks {A B} (f : N -> A -> option B) : N -> list A -> list B -> Prop :=
| pk_nil k : picks f k [] []
| pk_some k a l b out : f k a = Some b -> picks f (k + 1) l out -> picks f k (a :: l) (b :: out)
| pk_none k a l out : f k a = None -> picks f (k + 1) l out -> picks f k (a :: l) out.
