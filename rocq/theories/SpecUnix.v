(** For the statements about paths as texts. *)
From Verif Require Import Base Notebook Unix.

(** Without ["/"] or ["/."] at the end, except that of the root (with them the operating
    system accepts only a directory). *)
Definition plain (t : text) : Prop := t = [slash] \/ forall s, t <> s ++ [slash] /\ t <> s ++ [slash; dot].

(** A name that stays where it is. *)
Definition proper_name (n : name) : Prop := ~ In slash n /\ n <> [] /\ n <> [dot] /\ n <> [dot; dot].

(** The operating system takes a path apart as [Path::components] does (doubled
    separators and ["."] inside of a path do not matter), if the path is plain; the names of directory entries are proper ([read_dir] skips ["."] and [".."]). *)
Record takes_apart (T : tfilesystem) (F : filesystem) : Prop := {
  ta_exists : forall t, plain t -> tfs_exists T t = fs_exists F (components t);
  ta_is_file : forall t, plain t -> tfs_is_file T t = fs_is_file F (components t);
  ta_canonicalize : forall t, plain t -> option_map components (tfs_canonicalize T t) = fs_canonicalize F (components t);
  ta_read : forall t, plain t -> tfs_read T t = fs_read F (components t);
  ta_read_dir : forall t, plain t -> tfs_read_dir T t = fs_read_dir F (components t);
  ta_names : forall t l n, tfs_read_dir T t = Some l -> In (Some n) l -> proper_name n }.

(** The names with a separator between them. *)
Fixpoint joined (l : list name) : text :=
  match l with
  | [] => []
  | [n] => n
  | n :: r => n ++ slash :: joined r
  end.
(** A directory, a separator if there is none, the names. *)
Definition below (base : text) (names : list name) (t : text) : Prop :=
  exists sep, t = base ++ sep ++ joined names /\
    (sep = [] /\ (base = [] \/ exists s, base = s ++ [slash]) \/
     sep = [slash] /\ base <> [] /\ forall s, base <> s ++ [slash]).
