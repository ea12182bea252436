(** Property theorems: names listed by a table of contents, on Windows (C80). *)
From Coq Require Import Lia.
From Verif Require Import Base Codec Package PropSet Store Props Nodes Doc SpecCodec SpecStore SpecNodes SpecDoc
  Notebook SpecNotebook NotebookProofs NotebookProofs2 Windows SpecWindows WindowsProofs.

(** ** C80 *)
(** If the sanitiser lets no separator and no colon pass, a name is accepted exactly if
    it is relative, without a drive, of names that are not [".."] and are left alone by
    the sanitiser; and it stands for those names put behind the directory. *)
Theorem C80_names : forall other sanitise fs base e p, windows_safe sanitise ->
  win_resolve other sanitise fs base e = Ok p <->
  (exists ns, wlexical sanitise base e p ns) /\ wcontained other fs base p.
Proof. exact win_resolve_ok. Qed.
Print Assumptions C80_names.
(** So it is below the directory, by name. *)
Theorem C80_below : forall other sanitise fs base e p, windows_safe sanitise -> ~ two_seps base ->
  win_resolve other sanitise fs base e = Ok p ->
  exists ns, ns <> [] /\ Forall (fun n => not_dot n /\ n <> [46; 46]) ns /\
    wcomponents other p = wcomponents other base ++ map WNormal ns.
Proof. exact win_components. Qed.
Print Assumptions C80_below.
(** With any sanitiser: drives, roots, servers and [".."] are refused, *)
Theorem C80_refused : forall other sanitise fs base e,
  starts_at_root e \/ has_drive e -> win_resolve other sanitise fs base e = Err InvalidPath.
Proof. exact refused_prefix. Qed.
Print Assumptions C80_refused.
Theorem C80_parent_refused : forall other sanitise fs base e ws,
  wpieces e ws -> In [46; 46] ws -> win_resolve other sanitise fs base e = Err InvalidPath.
Proof. exact refused_parent. Qed.
Print Assumptions C80_parent_refused.
(** what exists is inside the directory, links followed, *)
Theorem C80_links : forall other sanitise fs base e p,
  win_resolve other sanitise fs base e = Ok p -> wcontained other fs base p.
Proof. exact win_contained. Qed.
Print Assumptions C80_links.
(** and there is always an answer. *)
Theorem C80_answers : forall other sanitise fs base e,
  (exists p, win_resolve other sanitise fs base e = Ok p) \/ win_resolve other sanitise fs base e = Err InvalidPath.
Proof. exact win_answers. Qed.
Print Assumptions C80_answers.
(** A name without a backslash and without a colon means the same names on Unix; *)
Theorem C80_same_on_unix : forall sanitise base e ns, ~ In 92 e -> ~ In 58 e ->
  (exists p, wlexical sanitise base e p ns) <->
  exists ws, pieces e ws /\ hd_error e <> Some 47 /\ picks not_dot ws ns /\ ns <> [] /\
    Forall (fun n => n <> [46; 46] /\ sanitise n = n) ns.
Proof. exact both_platforms. Qed.
Print Assumptions C80_same_on_unix.
(** every other name is refused on Unix. *)
Theorem C80_unix_refuses : forall sanitise fs base e p, windows_safe sanitise ->
  In 92 e \/ In 58 e -> ~ resolves sanitise fs base e p.
Proof. exact unix_refuses. Qed.
Print Assumptions C80_unix_refuses.

(** "C:\n" with the names "a\b.one", "a/./b.one", "..\x", "C:x", "\x" and "a/C:x". The
    sanitiser drops separators and colons. *)
Definition no_other : list N -> option nat := fun _ => None.
Definition dropping : name -> name := filter (fun c => negb ((c =? 47) || (c =? 92) || (c =? 58))).
Lemma dropping_safe : windows_safe dropping.
Proof.
  intros n c E I. rewrite <- E in I. unfold dropping in I. apply filter_In in I as (_ & H). apply negb_true_iff in H.
  rewrite !orb_false_iff, !N.eqb_neq in H. unfold separator. lia.
Qed.
Definition nothing_there : wfilesystem := WFs (fun _ => false) (fun _ => None).
Definition win_home : list N := [67; 58; 92; 110].
Example C80_example :
  windows_safe dropping /\ ~ two_seps win_home /\
  win_resolve no_other dropping nothing_there win_home [97; 92; 98; 46; 111; 110; 101] = Ok (win_home ++ [92; 97; 92; 98; 46; 111; 110; 101]) /\
  win_resolve no_other dropping nothing_there win_home [97; 47; 46; 47; 98] = Ok (win_home ++ [92; 97; 92; 98]) /\
  win_resolve no_other dropping nothing_there win_home [46; 46; 92; 120] = Err InvalidPath /\
  win_resolve no_other dropping nothing_there win_home [67; 58; 120] = Err InvalidPath /\
  win_resolve no_other dropping nothing_there win_home [92; 120] = Err InvalidPath /\
  win_resolve no_other dropping nothing_there win_home [97; 47; 67; 58; 120] = Err InvalidPath.
Proof.
  split; [exact dropping_safe|]. split; [intros (c & d & r & [->| ->] & _ & K); discriminate K|].
  repeat (split; [vm_compute; reflexivity|]). vm_compute; reflexivity.
Qed.
(** The sanitiser is needed: with one that changes nothing, the name "a/C:x" stands for
    "C:x", whatever the directory. *)
Theorem C80_any_sanitiser_refuted : forall other base,
  win_resolve other (fun n => n) nothing_there base [97; 47; 67; 58; 120] = Ok [67; 58; 120].
Proof. reflexivity. Qed.
Print Assumptions C80_any_sanitiser_refuted.
