(** Which files are opened, in which order, and how often the file system is asked. *)
From Verif Require Import Base Codec PropSet Store Package Shapes Props Nodes Doc
  SpecCodec SpecStore SpecValues SpecNodes SpecDoc Notebook SpecNotebook SpecKinds SpecBlame Timed SpecTimed.

(** The files opened by a run, in order. *)
Definition reads (l : list query) : list path :=
  flat_map (fun q => match q with QRead p => [p] | _ => [] end) l.

(** The sections and section groups of a notebook, at every depth. *)
Fixpoint parts (e : section_entry) : nat :=
  match e with
  | EnSection _ => 1
  | EnGroup _ es => S (list_sum (map parts es))
  end.
Definition all_parts (es : list section_entry) : nat := list_sum (map parts es).

Section Access.
  Variables (sanitise : name -> name) (h : order) (fs : filesystem).
  (** The answer to the question [q] is a failure of kind [e]: a file or directory that
      cannot be read, or a file whose content is not a OneNote file. *)
  Definition fails (fuel : nat) (q : query) (e : ekind) : Prop :=
    match q with
    | QRead p => fs_read fs p = None /\ e = IO \/ exists bs, fs_read fs p = Some bs /\ open_store h fuel bs = Err e
    | QReadDir p => fs_read_dir fs p = None /\ e = IO
    | _ => False
    end.
  (** The files that have to be opened for the notebook at [p], in document order, and
      the number of names its tables of contents list: the table of contents, then what
      is shown of the names in it, each a section file or the files of a group. *)
  Inductive opened_entry : path -> list path -> nat -> Prop :=
  | oe_section q : fs_is_file fs q = true -> opened_entry q [q] 0
  | oe_group q files toc l k : fs_is_file fs q = false -> fs_read_dir fs q = Some files -> first_toc files toc ->
      opened (q ++ [Normal toc]) l k -> opened_entry q l k
  with opened : path -> list path -> nat -> Prop :=
  | on p base names ps shown rs :
      toc_at h fs p base names -> Forall2 (resolves sanitise fs base) names ps ->
      picks (fun q => fs_exists fs q = true /\ ~ recycled q) ps shown ->
      Forall2 (fun q r => opened_entry q (fst r) (snd r)) shown rs ->
      opened p (p :: concat (map fst rs)) (length names + list_sum (map snd rs)).
End Access.
