(** The size of a store that was opened. *)
From Verif Require Import Base Codec Package SpecPackage PropSet Store.

(** Properties and bytes in a value, in a property set. *)
Fixpoint value_weight (v : pvalue) : nat :=
  match v with
  | VVec d => length d
  | VPropertyValues _ sets => total (fun s => S (total (fun p => S (value_weight (snd (snd p)))) s)) sets
  | VPropertySet s => total (fun p => S (value_weight (snd (snd p)))) s
  | _ => 0%nat
  end.
Definition set_weight (s : propset) : nat := total (fun p => S (value_weight (snd (snd p)))) s.

(** An object with its properties, and with the references in its tables. *)
Definition object_weight (o : object) : nat :=
  S (set_weight (op_props (ob_props o)) +
     total (fun e => length (snd e)) (mt_objects (ob_mapping o)) +
     total (fun e => length (snd e)) (mt_spaces (ob_mapping o))).
(** Its compact ids. *)
Definition object_ids (o : object) : nat :=
  length (op_object_ids (ob_props o)) + length (op_space_ids (ob_props o)) + length (op_context_ids (ob_props o)).

(** A space with all its objects. *)
Definition space_weight (s : space) : nat :=
  total (fun e => object_weight (snd e) + object_ids (snd e))%nat (sp_objects s).

(** A space of the store: the root or one of the others. *)
Definition space_of (st : store) (s : space) : Prop :=
  s = st_data_root st \/ exists cell, In (cell, s) (st_spaces st).
