(** Property theorems: what stands in the way of reading a notebook while its files
    change (C87). Every theorem is about an arbitrary [world]: an arbitrary file system
    at every moment. *)
From Coq Require Import Lia.
From Verif Require Import Base Codec Package PropSet PropIds Store Nodes Doc SpecStore SpecDoc Notebook SpecNotebook SpecCause SpecOpen SpecBlame SpecFate SpecVoyage
  NotebookProofs2 NotebookProofs3 OnceProofs Timed SpecTimed SpecMeanwhile MeanwhileProofs ExampleMeanwhile ExampleVoyage SpecPackage SpecPropSet ExampleFile PropertiesStore
  ExampleSection PropertiesDoc ExampleNotebook PropertiesNotebook PropertiesCause PropertiesOpen PropertiesFate.

(** ** C87 *)
(** An error has its reason in one of the tables of contents of the notebook or in what
    it names, as it was at some moment of the run. *)
Theorem C87_cause : forall sanitise h w t depth fuel p e,
  run_io w t (io_notebook sanitise h depth fuel p) = Err e ->
  let b := (t + length (asked w t (io_notebook sanitise h depth fuel p)))%nat in
  exists q, reaches_seen sanitise h w t b p q /\ trouble_seen sanitise h w t b q e.
Proof. exact run_blame. Qed.
Print Assumptions C87_cause.
(** A crash has its reason in a section file of the notebook, as it was at some moment
    of the run. *)
Theorem C87_crash : forall sanitise h w t depth fuel p,
  run_io w t (io_notebook sanitise h depth fuel p) = Panic ->
  crash_seen sanitise h w t (t + length (asked w t (io_notebook sanitise h depth fuel p)))%nat p.
Proof. exact run_crash. Qed.
Print Assumptions C87_crash.
(** If no file of the notebook ever leads round in circles and there never are groups
    [n] levels inside, the run has a result, the same from some number of steps on. *)
Theorem C87_ends : forall sanitise h w t p n,
  (forall b q, ~ nested_seen sanitise h w t b p n q) -> (forall b, ~ circle_seen sanitise h w t b p) ->
  exists k r, r <> OutOfFuel /\
    forall depth fuel, (n <= depth)%nat -> (k <= fuel)%nat -> run_io w t (io_notebook sanitise h depth fuel p) = r.
Proof. exact run_ends. Qed.
Print Assumptions C87_ends.
(** If nothing changes, these are the obstacles of C68 and C86. *)
Theorem C87_still : forall sanitise h fs a b, (a < b)%nat ->
  let w := fun _ : nat => fs in
  (forall p q, reaches_seen sanitise h w a b p q <-> reaches sanitise h fs p q) /\
  (forall q e, trouble_seen sanitise h w a b q e <-> trouble sanitise h fs q e) /\
  (forall p, crash_seen sanitise h w a b p <-> crash_in sanitise h fs p) /\
  (forall p, circle_seen sanitise h w a b p <-> circle_in sanitise h fs p) /\
  (forall p n q, nested_seen sanitise h w a b p n q <-> SpecVoyage.nested sanitise h fs p n q).
Proof.
  exact (fun s h fs a b L => conj (reaches_still s h fs a b L) (conj (trouble_still s h fs a b L)
    (conj (crash_still s h fs a b L) (conj (circle_still s h fs a b L) (nested_still s h fs a b L))))).
Qed.
Print Assumptions C87_still.

(** A section that is written again during the run: first one that is read, then one
    without a root object (an error), or one whose list format is cut (a crash). *)
Definition then_ (data : list N) (t : nat) : list N := if Nat.ltb t 6 then sample_section else data.
Example C87_cause_example :
  run_io (rewritten (then_ rootless)) 0 (io_notebook same order_id 1 20 lone_path) = Err MalformedOneNoteData /\
  length (asked (rewritten (then_ rootless)) 0 (io_notebook same order_id 1 20 lone_path)) = 7%nat.
Proof. split; vm_compute; reflexivity. Qed.
Example C87_crash_example :
  run_io (rewritten (then_ cut_list)) 0 (io_notebook same order_id 1 20 lone_path) = Panic.
Proof. vm_compute. reflexivity. Qed.
(** Written in turns, for ever; it is never of the kind that leads round in circles. *)
Definition in_turns (t : nat) : list N := if Nat.even t then cut_list else rootless.
Example C87_ends_example :
  (forall b q, ~ nested_seen same order_id (rewritten in_turns) 3 b lone_path 1 q) /\
  (forall b, ~ circle_seen same order_id (rewritten in_turns) 3 b lone_path).
Proof.
  split; [intros b q; exact (rewritten_shallow in_turns 3 b q)|]. intros b. apply (rewritten_circle in_turns 3 b). intros t X. unfold in_turns in X.
  destruct (Nat.even t).
  - destruct C85_crash_example as (st & O & Q & C & F & R). apply R. exact (proj1 (lone_round cut_list st O Q) X).
  - destruct C85_fault_example as (st & O & Q & F & U & C & R). apply R. exact (proj1 (lone_round rootless st O Q) X).
Qed.
(** There need not be a moment to blame: while a section makes way for a section group
    of the same name, reading can fail, although at every moment the notebook can be
    read. *)
Theorem C87_one_moment_refuted : exists w p,
  run_io w 0 (io_notebook same order_id 3 50 p) = Err IO /\
  forall t, exists nb, parse_notebook same order_id 3 50 (w t) p = Ok nb.
Proof.
  exists (regrouped 6), (home ++ [Normal name_toc]). split; [vm_compute; reflexivity|].
  assert (A : match parse_notebook same order_id 3 50 as_section (home ++ [Normal name_toc]) with Ok _ => true | _ => false end = true) by (vm_compute; reflexivity).
  assert (B : match parse_notebook same order_id 3 50 as_group (home ++ [Normal name_toc]) with Ok _ => true | _ => false end = true) by (vm_compute; reflexivity).
  intros t. unfold regrouped. destruct (Nat.ltb t 6).
  - destruct (parse_notebook same order_id 3 50 as_section (home ++ [Normal name_toc])) as [nb| | |]; try discriminate A. now exists nb.
  - destruct (parse_notebook same order_id 3 50 as_group (home ++ [Normal name_toc])) as [nb| | |]; try discriminate B. now exists nb.
Qed.
Print Assumptions C87_one_moment_refuted.
