(** Independent description of the arguments the command line program takes for
    tables of contents. *)
From Verif Require Import Base Notebook SpecNotebook.

(** The last part of the path [arg] that counts is a file name with the extension
    ".onetoc2". *)
Definition names_toc (arg : list N) : Prop :=
  exists ws ns n, pieces arg ws /\ picks not_dot ws (ns ++ [n]) /\ toc_name n.

(** The call ended without a result. *)
Definition failed {A} (r : res A) : Prop := r = Panic \/ exists e, r = Err e.
