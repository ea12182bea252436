(** Vocabulary for statements about the entry points. *)
From Verif Require Import Base Codec Store Notebook.

(** The same files and directories, with bytes appended to some files. *)
Definition longer_files (fs fs' : filesystem) : Prop :=
  (forall p, fs_exists fs' p = fs_exists fs p) /\
  (forall p, fs_is_file fs' p = fs_is_file fs p) /\
  (forall p, fs_canonicalize fs' p = fs_canonicalize fs p) /\
  (forall p, fs_read_dir fs' p = fs_read_dir fs p) /\
  (forall p, match fs_read fs p with
             | None => fs_read fs' p = None
             | Some d => exists t, fs_read fs' p = Some (d ++ t)
             end).

(** [space_within sp sp']: [sp'] has all objects and roots of [sp], and perhaps
    more. *)
Definition space_within (sp sp' : space) : Prop :=
  (forall id o, get_object sp id = Some o -> get_object sp' id = Some o) /\
  (forall id, content_root sp = Some id -> content_root sp' = Some id) /\
  (forall id, metadata_root sp = Some id -> metadata_root sp' = Some id).

(** The same for a store: more objects, more spaces; the header, the kind and the
    roles that are not read may be anything. *)
Definition store_within (st st' : store) : Prop :=
  space_within (st_data_root st) (st_data_root st') /\
  (forall c sp, object_space st c = Some sp ->
     exists sp', object_space st' c = Some sp' /\ space_within sp sp').
