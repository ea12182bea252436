From Coq Require Import Lia ZifyBool ZifyNat ZifyN.
From Verif Require Import Base Codec SpecCodec Package PropSet Store SpecStore Props Nodes SpecNodes Doc SpecDoc Notebook SpecNotebook
  NodesProofs DocProofs NotebookProofs NotebookProofs2 NotebookProofs3 Timed SpecTimed.
Local Open Scope nat_scope.

(** ** Runs *)
Definition steps_of {A} (w : world) (t : nat) (m : io A) : nat := length (asked w t m).

Lemma run_bind {A B} w (m : io A) (f : A -> io B) : forall t,
  run_io w t (ibind m f) = rbind (run_io w t m) (fun a => run_io w (t + steps_of w t m) (f a)).
Proof.
  unfold steps_of. induction m as [r|q k IH]; intros t.
  - destruct r; cbn; try reflexivity. now rewrite Nat.add_0_r.
  - cbn. rewrite IH. now rewrite Nat.add_succ_r.
Qed.
Lemma asked_bind {A B} w (m : io A) (f : A -> io B) : forall t,
  asked w t (ibind m f) = asked w t m ++ match run_io w t m with Ok a => asked w (t + steps_of w t m) (f a) | _ => [] end.
Proof.
  unfold steps_of. induction m as [r|q k IH]; intros t.
  - destruct r; cbn; try reflexivity. now rewrite Nat.add_0_r.
  - cbn. rewrite IH. now rewrite Nat.add_succ_r.
Qed.
Lemma run_done {A} w t (r : res A) : run_io w t (Done r) = r. Proof. reflexivity. Qed.
Lemma steps_done {A} w t (r : res A) : steps_of w t (Done r) = 0. Proof. reflexivity. Qed.
Lemma run_ask w t q : run_io w t (ask q) = Ok (reply (w t) q). Proof. reflexivity. Qed.
Lemma steps_ask w t q : steps_of w t (ask q) = 1. Proof. reflexivity. Qed.
Lemma run_ask_bind {B} w t q (f : answer q -> io B) : run_io w t (ibind (ask q) f) = run_io w (S t) (f (reply (w t) q)).
Proof. reflexivity. Qed.
Lemma asked_ask_bind {B} w t q (f : answer q -> io B) : asked w t (ibind (ask q) f) = q :: asked w (S t) (f (reply (w t) q)).
Proof. reflexivity. Qed.
Lemma run_done_bind {A B} w t (r : res A) (f : A -> io B) : run_io w t (ibind (Done r) f) = rbind r (fun a => run_io w t (f a)).
Proof. now destruct r. Qed.
Lemma asked_done_bind {A B} w t (r : res A) (f : A -> io B) :
  asked w t (ibind (Done r) f) = match r with Ok a => asked w t (f a) | _ => [] end.
Proof. now destruct r. Qed.
Lemma ibind_done_ok {A B} (a : A) (f : A -> io B) : ibind (Done (Ok a)) f = f a. Proof. reflexivity. Qed.

(** The questions of a run, and their answers, are all a run depends on. *)
Lemma run_answers {A} w w' (m : io A) : forall t,
  (forall i q, nth_error (asked w t m) i = Some q -> reply (w (t + i)) q = reply (w' (t + i)) q) ->
  run_io w' t m = run_io w t m /\ asked w' t m = asked w t m.
Proof.
  induction m as [r|q k IH]; intros t H; [split; reflexivity|]. cbn. pose proof (H 0 q eq_refl) as E. rewrite Nat.add_0_r in E.
  rewrite <- E. destruct (IH (reply (w t) q) (S t)) as (E1 & E2).
  { intros i q' Hi. specialize (H (S i) q' Hi). rewrite Nat.add_succ_r in H. exact H. }
  split; [exact E1|now f_equal].
Qed.
Lemma run_shift {A} fs (m : io A) : forall t t', run_io (fun _ => fs) t m = run_io (fun _ => fs) t' m.
Proof. induction m as [r|q k IH]; intros t t'; [reflexivity|]. cbn. apply IH. Qed.

(** ** A file system that stands still *)
Section Still.
  Variables (sanitise : name -> name) (h : order) (fs : filesystem).
  Definition still {A} (m : io A) : res A := run_io (fun _ => fs) 0 m.
  Lemma still_bind {A B} (m : io A) (f : A -> io B) : still (ibind m f) = rbind (still m) (fun a => still (f a)).
  Proof. unfold still. rewrite run_bind. destruct (run_io _ 0 m); cbn; auto. apply run_shift. Qed.
  Lemma still_ask q : still (ask q) = Ok (reply fs q). Proof. reflexivity. Qed.
  Lemma still_done {A} (r : res A) : still (Done r) = r. Proof. reflexivity. Qed.
  Lemma still_map {A B} (f : A -> io B) (g : A -> res B) l : (forall a, still (f a) = g a) -> still (imap f l) = map_res g l.
  Proof.
    intros H. induction l as [|a l IH]; [reflexivity|]. cbn [imap map_res]. rewrite still_bind, H.
    destruct (g a); cbn [rbind]; try reflexivity. rewrite still_bind, IH. destruct (map_res g l); reflexivity.
  Qed.
  Lemma still_resolve base e : still (io_resolve sanitise base e) = resolve_entry_path sanitise fs base e.
  Proof.
    unfold io_resolve, resolve_entry_path. destruct (is_absolute e); [reflexivity|]. rewrite still_bind, still_done.
    destruct (sanitize_components sanitise (components e)) as [[|c cs]| | |]; cbn [rbind]; try reflexivity.
    rewrite still_bind, still_ask. cbn [rbind reply]. destruct (fs_exists fs _); [|reflexivity].
    rewrite still_bind, still_ask. cbn [rbind reply]. rewrite still_bind, still_done. destruct (fs_canonicalize fs base) as [b|]; [|reflexivity].
    cbn [ok_or rbind]. rewrite still_bind, still_ask. cbn [rbind reply]. rewrite still_bind, still_done.
    destruct (fs_canonicalize fs (base ++ c :: cs)) as [b'|]; [|reflexivity]. cbn [ok_or rbind]. destruct (starts_with b' b); reflexivity.
  Qed.
  Lemma still_section fuel p : still (io_section h fuel p) = parse_section_file h fuel fs p.
  Proof.
    unfold io_section, parse_section_file. rewrite still_bind, still_ask. cbn [rbind reply]. rewrite still_bind, still_done.
    destruct (fs_read fs p); [|reflexivity]. cbn [ok_or rbind]. rewrite still_bind, still_done. destruct (open_store _ _ _) as [st| | |]; try reflexivity.
    cbn [rbind]. destruct (N.eqb _ _); [|reflexivity]. rewrite still_bind, still_done. destruct (file_name p); reflexivity.
  Qed.
  Lemma still_entries f g ps : (forall p, still (f p) = g p) -> still (io_entries f ps) = map_res g (shown_paths fs ps).
  Proof.
    intros H. unfold shown_paths. induction ps as [|p ps IH]; [reflexivity|]. cbn [io_entries filter]. rewrite still_bind, still_ask. cbn [rbind reply].
    destruct (fs_exists fs p); cbn [andb filter]; [|exact IH]. destruct (is_recycle_bin p); cbn [negb map_res]; [exact IH|].
    rewrite still_bind, H. destruct (g p); cbn [rbind]; try reflexivity. rewrite still_bind, IH.
    destruct (map_res g _); reflexivity.
  Qed.
  Lemma still_notebook fuel d : forall p, still (io_notebook sanitise h d fuel p) = parse_notebook sanitise h d fuel fs p.
  Proof.
    induction d as [|d IH]; intros p; [reflexivity|]. rewrite notebook_step. cbn [io_notebook]. rewrite still_bind, still_ask. cbn [rbind reply].
    rewrite still_bind, still_done. destruct (fs_read fs p); [|reflexivity]. cbn [ok_or rbind]. rewrite still_bind, still_done.
    destruct (open_store _ _ _) as [st| | |]; try reflexivity. cbn [rbind]. destruct (N.eqb _ _); [|reflexivity].
    rewrite still_bind, still_done. destruct (parent p) as [base|]; [|reflexivity]. cbn [ok_or rbind].
    rewrite still_bind, still_done. destruct (parse_toc _ _) as [[names c]| | |]; try reflexivity. cbn [rbind].
    rewrite still_bind, (still_map _ (resolve_entry_path sanitise fs base)) by apply still_resolve.
    destruct (map_res _ names) as [ps| | |]; try reflexivity. cbn [rbind].
    rewrite still_bind, (still_entries _ (load_entry sanitise h d fuel fs)).
    - destruct (map_res _ (shown_paths fs ps)); reflexivity.
    - intros q. unfold load_entry. rewrite still_bind, still_ask. cbn [rbind reply]. destruct (fs_is_file fs q).
      + rewrite still_bind, still_section. destruct (parse_section_file _ _ _ _); reflexivity.
      + rewrite still_bind, still_done. destruct (file_name q); [|reflexivity]. cbn [ok_or rbind]. rewrite still_bind, still_ask. cbn [rbind reply].
        rewrite still_bind, still_done. destruct (fs_read_dir fs q); [|reflexivity]. cbn [ok_or rbind]. rewrite still_bind, still_done.
        destruct (find_toc _) as [toc| | |]; try reflexivity. cbn [rbind]. rewrite still_bind, IH. destruct (parse_notebook _ _ _ _ _ _); reflexivity.
  Qed.
End Still.
Lemma quiet {A} w (m : io A) fs t :
  (forall i q, nth_error (asked w t m) i = Some q -> reply (w (t + i)) q = reply fs q) -> run_io w t m = still fs m.
Proof.
  intros H. destruct (run_answers w (fun _ => fs) m t H) as (E & _). rewrite <- E. apply run_shift.
Qed.
