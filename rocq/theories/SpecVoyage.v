(** Independent description of what becomes of reading a notebook: the files it is made
    of, those that make the reading crash or go round in circles, and how deep its
    section groups are nested. Nothing here has fuel. *)
From Coq Require Import Relations.
From Verif Require Import Base Codec Package PropSet Store Shapes Props Nodes Doc
  SpecCodec SpecStore SpecValues SpecNodes SpecDoc Notebook SpecNotebook SpecCause SpecOpen SpecBlame SpecFate.

Section Voyage.
  Variables (sanitise : name -> name) (h : order) (fs : filesystem).

  (** The section files of the notebook at [p]: those that its tables of contents name. *)
  Definition section_of (p r : path) : Prop :=
    exists q, reaches sanitise h fs p q /\ lists sanitise h fs q r /\ fs_is_file fs r = true.

  (** One of them holds a section whose reading crashes (C85). *)
  Definition crash_in (p : path) : Prop :=
    exists r st, section_of p r /\ holds_store h fs r st /\
      st_schema st = 0x1F937CB4B26F445FB9F817E20160E461 /\ crash_at st.

  (** The revisions in the file at [q] lead round in circles (C84). *)
  Definition turns (q : path) : Prop :=
    exists bs pg rest, fs_read fs q = Some bs /\ packaging_parse bs = Ok (pg, rest) /\ endless h pg.
  (** Something in the section file at [r] leads round in circles: its revisions or its objects. *)
  Definition section_circle (r : path) : Prop :=
    turns r \/
    exists st, holds_store h fs r st /\ st_schema st = 0x1F937CB4B26F445FB9F817E20160E461 /\ comes_round st.
  (** Likewise in the table of contents at [q]. *)
  Definition toc_circle (q : path) : Prop :=
    turns q \/
    exists st, holds_store h fs q st /\ st_schema st = 0xE4DBFD38E5C7408BA8A10E7B421E1F5F /\
      toc_comes_round (st_data_root st).
  (** There is such a file in the notebook at [p]. *)
  Definition circle_in (p : path) : Prop :=
    (exists q, reaches sanitise h fs p q /\ toc_circle q) \/ (exists r, section_of p r /\ section_circle r).

  (** [q] is the table of contents of a section group [n] levels inside the notebook at [p]. *)
  Inductive nested (p : path) : nat -> path -> Prop :=
  | ne_own : nested p 0 p
  | ne_group n q r files toc : nested p n q -> lists sanitise h fs q r -> fs_is_file fs r = false ->
      fs_read_dir fs r = Some files -> first_toc files toc -> nested p (S n) (r ++ [Normal toc]).
  (** There are no groups [n] levels inside. *)
  Definition not_deeper (p : path) (n : nat) : Prop := forall q, ~ nested p n q.
  (** There are groups at every level. *)
  Definition bottomless (p : path) : Prop := forall n, exists q, nested p n q.
End Voyage.
