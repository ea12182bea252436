(** Runs of programs while the file system changes, and what a notebook that was read
    in such a run is made of. *)
From Verif Require Import Base Codec Package PropSet Store Props Nodes Doc SpecDoc SpecNodes SpecStore Notebook SpecNotebook Timed.

Definition reply (fs : filesystem) (q : query) : answer q :=
  match q with
  | QRead p => fs_read fs p
  | QExists p => fs_exists fs p
  | QIsFile p => fs_is_file fs p
  | QCanonicalize p => fs_canonicalize fs p
  | QReadDir p => fs_read_dir fs p
  end.
(** The file system at every moment; a moment is a question of the run. *)
Definition world := nat -> filesystem.
(** The result of a run that starts at moment [t]. *)
Fixpoint run_io {A} (w : world) (t : nat) (m : io A) : res A :=
  match m with
  | Done r => r
  | Ask q k => run_io w (S t) (k (reply (w t) q))
  end.
(** The questions of that run, the first at moment [t]. *)
Fixpoint asked {A} (w : world) (t : nat) (m : io A) : list query :=
  match m with
  | Done _ => []
  | Ask q k => q :: asked w (S t) (k (reply (w t) q))
  end.

Definition about_path (q : query) : path :=
  match q with QRead p | QExists p | QIsFile p | QCanonicalize p | QReadDir p => p end.

Section Seen.
  Variables (sanitise : name -> name) (h : order) (w : world) (a b : nat).
  (** At some moment of the run. *)
  Definition once (P : filesystem -> Prop) : Prop := exists t, (a <= t < b)%nat /\ P (w t).
  (** The path a name of a table of contents stands for. It was not there, or it was
      inside the directory, links followed, each at the moment of its test. *)
  Definition resolves_seen (base : path) (e : name) (p : path) : Prop :=
    exists ws ns,
      pieces e ws /\ hd_error e <> Some 47 /\ picks not_dot ws ns /\ ns <> [] /\
      Forall (fun n => n <> [46; 46] /\ sanitise n = n) ns /\ p = base ++ map Normal ns /\
      (once (fun fs => fs_exists fs p = false) \/
       exists cb cp, once (fun fs => fs_canonicalize fs base = Some cb) /\
                     once (fun fs => fs_canonicalize fs p = Some cp) /\ below_path cp cb).
  Inductive shown_seen : list path -> list path -> Prop :=
  | sh_nil : shown_seen [] []
  | sh_take p l r : once (fun fs => fs_exists fs p = true) -> ~ recycled p -> shown_seen l r -> shown_seen (p :: l) (p :: r)
  | sh_skip p l r : once (fun fs => fs_exists fs p = false) \/ recycled p -> shown_seen l r -> shown_seen (p :: l) r.
  (** As [entry_at] and [notebook_at], every fact at its own moment of the run. *)
  Inductive entry_seen : path -> section_entry -> Prop :=
  | es_section p s :
      once (fun fs => fs_is_file fs p = true) -> once (fun fs => section_at h fs p s) -> entry_seen p (EnSection s)
  | es_group p base n files toc es c :
      once (fun fs => fs_is_file fs p = false) -> ends_in p base (Normal n) ->
      once (fun fs => fs_read_dir fs p = Some files) -> first_toc files toc ->
      notebook_seen (p ++ [Normal toc]) es c -> entry_seen p (EnGroup n es)
  with notebook_seen : path -> list section_entry -> option color -> Prop :=
  | ns_notebook p bs st base last names ps shown es c :
      once (fun fs => fs_read fs p = Some bs) -> opens h bs st ->
      st_schema st = 0xE4DBFD38E5C7408BA8A10E7B421E1F5F ->
      ends_in p base last -> last <> RootDir ->
      toc_is (st_data_root st) names c ->
      Forall2 (resolves_seen base) names ps ->
      shown_seen ps shown ->
      Forall2 entry_seen shown es -> notebook_seen p es c.
End Seen.
