(** Independent description of object property sets ([MS-ONESTORE] 2.1.1, 2.6.5,
    2.6.6, 2.6.7, 2.6.9): abstract syntax, byte encodings and meaning. *)
From Verif Require Import Base Codec SpecCodec SpecPackage PropSet.

(** A property value; a property set is the list of its properties in file
    order, each with its 26-bit id. *)
Inductive sval :=
| SEmpty
| SBool (b : bool)
| SU8 (n : N)
| SU16 (n : N)
| SU32 (n : N)
| SU64 (n : N)
| SVec (d : list N)
| SObjectId
| SObjectIds (count : N)
| SSpaceId
| SSpaceIds (count : N)
| SContextId
| SContextIds (count : N)
| SValues (id : N) (sets : list (list (N * sval)))
| SSet (set : list (N * sval)).

(** [MS-ONESTORE] 2.6.6: the type number in bits 26-30 of a property id. *)
Definition stype (v : sval) : N :=
  match v with
  | SEmpty => 1 | SBool _ => 2 | SU8 _ => 3 | SU16 _ => 4 | SU32 _ => 5 | SU64 _ => 6
  | SVec _ => 7 | SObjectId => 8 | SObjectIds _ => 9 | SSpaceId => 10 | SSpaceIds _ => 11
  | SContextId => 12 | SContextIds _ => 13 | SValues _ _ => 16 | SSet _ => 17
  end.

(** The 32-bit property id: id, type, and in bit 31 the value of a boolean (the
    bit may be anything for other types). *)
Definition l_propid (p : N * sval) : lang := fun e => exists b,
  match snd p with SBool x => b = x | _ => True end /\
  fst p < 2 ^ 26 /\ l_uint 4 (fst p + stype (snd p) * 2 ^ 26 + flag b * 2 ^ 31) e.

(** Property set: number of properties, all ids, then all values. *)
Definition l_props (V : sval -> lang) (s : list (N * sval)) : lang :=
  l_uint 2 (N.of_nat (length s)) +++ many l_propid s +++ many (fun p => V (snd p)) s.

Fixpoint l_val (v : sval) : lang :=
  match v with
  | SEmpty | SBool _ | SObjectId | SSpaceId | SContextId => eps
  | SU8 n => l_uint 1 n
  | SU16 n => l_uint 2 n
  | SU32 n => l_uint 4 n
  | SU64 n => l_uint 8 n
  | SVec d => l_uint 4 (N.of_nat (length d)) +++ lit d
  | SObjectIds n | SSpaceIds n | SContextIds n => l_uint 4 n
  | SValues id sets =>
    l_uint 4 (N.of_nat (length sets)) +++ l_uint 4 id +++ many (fun s => l_props l_val s) sets
  | SSet s => l_props l_val s
  end.

Definition l_set (s : list (N * sval)) : lang := l_props l_val s.

(** The last property with id [id] in a list whose first has position [k]:
    its position and value. *)
Fixpoint last_at {A} (k id : N) (s : list (N * A)) : option (N * A) :=
  match s with
  | [] => None
  | (i, v) :: r =>
    match last_at (k + 1) id r with
    | Some x => Some x
    | None => if i =? id then Some (k, v) else None
    end
  end.

(** What a parsed value must be. A set is a finite map whose entry for an id is
    the last property with that id and its position. *)
Inductive val_means : sval -> pvalue -> Prop :=
| vm_empty : val_means SEmpty VEmpty
| vm_bool b : val_means (SBool b) (VBool b)
| vm_u8 n : val_means (SU8 n) (VU8 n)
| vm_u16 n : val_means (SU16 n) (VU16 n)
| vm_u32 n : val_means (SU32 n) (VU32 n)
| vm_u64 n : val_means (SU64 n) (VU64 n)
| vm_vec d : val_means (SVec d) (VVec d)
| vm_object : val_means SObjectId VObjectId
| vm_objects n : val_means (SObjectIds n) (VObjectIds n)
| vm_space : val_means SSpaceId VObjectSpaceId
| vm_spaces n : val_means (SSpaceIds n) (VObjectSpaceIds n)
| vm_context : val_means SContextId VContextId
| vm_contexts n : val_means (SContextIds n) (VContextIds n)
| vm_values id sets ms : sets_mean sets ms -> val_means (SValues id sets) (VPropertyValues id ms)
| vm_set s m : set_means s m -> val_means (SSet s) (VPropertySet m)
with sets_mean : list (list (N * sval)) -> list propset -> Prop :=
| ssm_nil : sets_mean [] []
| ssm_cons s m ss ms : set_means s m -> sets_mean ss ms -> sets_mean (s :: ss) (m :: ms)
with set_means : list (N * sval) -> propset -> Prop :=
| sm_intro s m :
    NoDup (map fst m) ->
    (forall id, last_at 0 id s = None -> alookup N.eqb id m = None) ->
    (forall id k v, last_at 0 id s = Some (k, v) ->
       exists w, alookup N.eqb id m = Some (k, w) /\ val_means v w) ->
    set_means s m.

(** ** Objects: three streams of compact ids, then the property set *)
Definition l_compactid (c : compactid) : lang := fun e =>
  ci_n c < 2 ^ 8 /\ ci_index c < 2 ^ 24 /\ l_uint 4 (ci_n c + ci_index c * 2 ^ 8) e.

(** Stream header: 24-bit count, six reserved bits, the two flags. *)
Definition l_stream (count : N) (ext absent : bool) : lang := fun e =>
  count < 2 ^ 24 /\ exists r, r < 2 ^ 6 /\
  l_uint 4 (count + r * 2 ^ 24 + flag ext * 2 ^ 30 + flag absent * 2 ^ 31) e.

Definition l_ids (ext absent : bool) (l : list compactid) : lang :=
  l_stream (N.of_nat (length l)) ext absent +++ many l_compactid l.

(** Object ids; optionally object space ids; and only then optionally context ids. *)
Record oset := OSet {
  os_objects : list compactid;
  os_spaces : option (list compactid * option (list compactid));
  os_props : list (N * sval) }.

Definition l_oset (o : oset) : lang := fun e => exists b1 b2 b3 b4,
  match os_spaces o with
  | None => (l_ids b1 true (os_objects o) +++ l_set (os_props o)) e
  | Some (sp, None) =>
    (l_ids b1 false (os_objects o) +++ l_ids false b2 sp +++ l_set (os_props o)) e
  | Some (sp, Some ctx) =>
    (l_ids b1 false (os_objects o) +++ l_ids true b2 sp +++ l_ids b3 b4 ctx
     +++ l_set (os_props o)) e
  end.

Definition oset_means (o : oset) (p : oprops) : Prop :=
  op_object_ids p = os_objects o /\
  op_space_ids p = match os_spaces o with Some (sp, _) => sp | None => [] end /\
  op_context_ids p = match os_spaces o with Some (_, Some ctx) => ctx | _ => [] end /\
  set_means (os_props o) (op_props p).

(** Number of property sets nested directly inside a property set. *)
Inductive nested : nat -> propset -> Prop :=
| ne_leaf s : nested 0 s
| ne_step n s t id k : In (id, (k, VPropertySet t)) s -> nested n t -> nested (S n) s.
