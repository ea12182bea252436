(** Tables of contents in which no object is listed twice. *)
From Coq Require Import Relations.
From Verif Require Import Base Codec PropSet Store Nodes Doc Notebook SpecNodes SpecDoc SpecNotebook SpecShelf SpecSize SpecBulk.

(** The object [a] is a folder of the table of contents and lists the objects [l]. *)
Definition folder_lists (sp : space) (a : exguid) (l : list exguid) : Prop :=
  found sp a (fun o => exists d, toc_object o d /\ tc_filename d = None /\ l = tc_children d).
(** No object is listed twice, by one folder or by two, and none is below itself. *)
Definition toc_tree (sp : space) : Prop :=
  (forall a b la lb i j x, folder_lists sp a la -> folder_lists sp b lb ->
     nth_error la i = Some x -> nth_error lb j = Some x -> a = b /\ i = j) /\
  no_toc_loop sp.

(** The sections of an entry, of the groups below it too. *)
Fixpoint entry_sections (e : section_entry) : nat :=
  match e with
  | EnSection _ => 1
  | EnGroup _ es => total entry_sections es
  end.
Definition notebook_sections (nb : notebook) : nat := total entry_sections (nb_entries nb).

(** How much an entry holds: its sections, the groups and the characters of their names. *)
Fixpoint entry_bulk (e : section_entry) : nat :=
  match e with
  | EnSection s => section_bulk s
  | EnGroup n es => 1 + length n + total entry_bulk es
  end.
Definition notebook_bulk (nb : notebook) : nat := total entry_bulk (nb_entries nb).

(** A directory with a table of contents [d], a section "a" with the bytes [e] and
    another, "b", with the same. *)
Definition pair_of (d e : list N) : node :=
  DirNode [([116; 46; 111; 110; 101; 116; 111; 99; 50], FileNode d); ([97], FileNode e); ([98], FileNode e)].
(** Directories in one another, all with the table of contents [d]; in the innermost a
    section "a" with the bytes [e], in the others the next directory under this name. *)
Fixpoint nest (d e : list N) (k : nat) : node :=
  DirNode [([116; 46; 111; 110; 101; 116; 111; 99; 50], FileNode d);
           ([97], match k with O => FileNode e | S i => nest d e i end)].
(** The same with the next directory, or the section, under two names, "a" and "b". *)
Fixpoint both (d e : list N) (k : nat) : node :=
  DirNode [([116; 46; 111; 110; 101; 116; 111; 99; 50], FileNode d);
           ([97], match k with O => FileNode e | S i => both d e i end);
           ([98], match k with O => FileNode e | S i => both d e i end)].
