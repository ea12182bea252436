(** Property theorems: what becomes of the reading of a notebook (C86). *)
From Coq Require Import Lia Relations.
From Verif Require Import Base Codec Package PropSet PropIds Store Nodes Doc SpecStore SpecDoc Notebook SpecNotebook SpecCause SpecOpen SpecBlame SpecFate SpecVoyage
  NotebookProofs2 VoyageProofs ExampleVoyage SpecPackage SpecPropSet ExampleFile PropertiesStore ExampleSection PropertiesDoc ExampleNotebook PropertiesNotebook
  LinkProofs PropertiesCause PropertiesOpen PropertiesFate.

(** ** C86 *)
(** A notebook is read exactly when nothing is wrong with the tables of contents it is
    made of or with what they name (C68), none of its section files makes the reading
    crash, nothing in its files leads round in circles, and its groups are nested only
    so deep. *)
Theorem C86_read : forall sanitise h fs p,
  (exists depth fuel nb, parse_notebook sanitise h depth fuel fs p = Ok nb) <->
  (forall q e, reaches sanitise h fs p q -> ~ trouble sanitise h fs q e) /\
  ~ crash_in sanitise h fs p /\ ~ circle_in sanitise h fs p /\ exists n, not_deeper sanitise h fs p n.
Proof. exact notebook_read_iff. Qed.
Print Assumptions C86_read.
(** The same for a section file given by its path. *)
Theorem C86_section : forall h fs p,
  (exists fuel s, parse_section_file h fuel fs p = Ok s) <->
  (forall e, ~ section_trouble h fs p e) /\
  (forall st, holds_store h fs p st -> st_schema st = 0x1F937CB4B26F445FB9F817E20160E461 -> ~ crash_at st) /\
  ~ section_circle h fs p.
Proof. exact (section_file_read_iff (fun n => n)). Qed.
Print Assumptions C86_section.
(** Only a section file of the notebook makes the reading crash. *)
Theorem C86_crash : forall sanitise h depth fuel fs p, parse_notebook sanitise h depth fuel fs p = Panic ->
  crash_in sanitise h fs p.
Proof. exact (fun s h d f fs p => notebook_crashes s h fs f d p). Qed.
Print Assumptions C86_crash.
(** The reading has a result, always the same from some number of steps on, unless
    something leads round in circles; as many levels suffice as there are. *)
Theorem C86_ends : forall sanitise h fs p n, not_deeper sanitise h fs p n -> ~ circle_in sanitise h fs p ->
  exists k r, r <> OutOfFuel /\
    forall depth fuel, (n <= depth)%nat -> (k <= fuel)%nat -> parse_notebook sanitise h depth fuel fs p = r.
Proof. exact notebook_result. Qed.
Print Assumptions C86_ends.
(** No fewer levels suffice for a notebook that is read. *)
Theorem C86_levels : forall sanitise h depth fuel fs p nb, parse_notebook sanitise h depth fuel fs p = Ok nb ->
  not_deeper sanitise h fs p depth.
Proof. exact (fun s h d f fs p nb => notebook_shallow s h fs f d p nb). Qed.
Print Assumptions C86_levels.
(** When there is only one obstacle, it decides: *)
Theorem C86_only_crash : forall sanitise h fs p n, crash_in sanitise h fs p ->
  (forall q e, reaches sanitise h fs p q -> ~ trouble sanitise h fs q e) ->
  ~ circle_in sanitise h fs p -> not_deeper sanitise h fs p n ->
  exists k, forall depth fuel, (n <= depth)%nat -> (k <= fuel)%nat -> parse_notebook sanitise h depth fuel fs p = Panic.
Proof. exact notebook_only_crash. Qed.
Print Assumptions C86_only_crash.
Theorem C86_only_endless : forall sanitise h fs p, circle_in sanitise h fs p \/ bottomless sanitise h fs p ->
  (forall q e, reaches sanitise h fs p q -> ~ trouble sanitise h fs q e) -> ~ crash_in sanitise h fs p ->
  forall depth fuel, parse_notebook sanitise h depth fuel fs p = OutOfFuel.
Proof. exact notebook_only_endless. Qed.
Print Assumptions C86_only_endless.
Theorem C86_only_trouble : forall sanitise h fs p n q e, reaches sanitise h fs p q -> trouble sanitise h fs q e ->
  (forall q' e', reaches sanitise h fs p q' -> trouble sanitise h fs q' e' -> e' = e) ->
  ~ crash_in sanitise h fs p -> ~ circle_in sanitise h fs p -> not_deeper sanitise h fs p n ->
  exists k, forall depth fuel, (n <= depth)%nat -> (k <= fuel)%nat -> parse_notebook sanitise h depth fuel fs p = Err e.
Proof. exact notebook_only_trouble. Qed.
Print Assumptions C86_only_trouble.

(** The sample of C51 is read, with two levels and no fewer. *)
Local Notation sample_read d := (parse_notebook same order_id d 50 sample_fs (home ++ [Normal name_toc])).
Example C86_read_example :
  (forall q e, reaches same order_id sample_fs (home ++ [Normal name_toc]) q -> ~ trouble same order_id sample_fs q e) /\
  ~ crash_in same order_id sample_fs (home ++ [Normal name_toc]) /\
  ~ circle_in same order_id sample_fs (home ++ [Normal name_toc]) /\
  not_deeper same order_id sample_fs (home ++ [Normal name_toc]) 2 /\ sample_read 1 = OutOfFuel.
Proof.
  assert (K : match sample_read 2 with Ok _ => true | _ => false end = true) by (vm_compute; reflexivity).
  destruct (sample_read 2) as [nb| | |] eqn:E; try discriminate K.
  destruct (proj1 (C86_read same order_id sample_fs _) (ex_intro _ 2%nat (ex_intro _ 50%nat (ex_intro _ nb E)))) as (T & C & R & _).
  refine (conj T (conj C (conj R (conj (C86_levels _ _ _ _ _ _ _ E) _)))). vm_compute. reflexivity.
Qed.
(** Notebooks with one section, whose file is one of those of C85. *)
Example C86_crash_example :
  crash_in same order_id (lone_fs cut_list) lone_path /\
  (forall q e, reaches same order_id (lone_fs cut_list) lone_path q -> ~ trouble same order_id (lone_fs cut_list) q e) /\
  ~ circle_in same order_id (lone_fs cut_list) lone_path /\ not_deeper same order_id (lone_fs cut_list) lone_path 1.
Proof.
  destruct C85_crash_example as (st & O & Q & C & F & R). split; [apply (lone_crash cut_list st O Q); exact C|].
  split.
  { intros q e H W. exact (F e (proj1 (lone_section_trouble cut_list st O Q e) (lone_trouble cut_list q e H W))). }
  split; [|exact (lone_shallow cut_list)]. intros X. apply R. apply (lone_round cut_list st O Q). apply (lone_circle cut_list). exact X.
Qed.
Example C86_circle_example :
  circle_in same order_id (lone_fs own_item) lone_path /\
  (forall q e, reaches same order_id (lone_fs own_item) lone_path q -> ~ trouble same order_id (lone_fs own_item) q e) /\
  ~ crash_in same order_id (lone_fs own_item) lone_path.
Proof.
  destruct C85_round_example as (st & O & Q & R & F & C). split.
  { apply (lone_circle own_item). apply (lone_round own_item st O Q). exact R. }
  split; [|intros X; apply C; apply (lone_crash own_item st O Q); exact X].
  intros q e H W. exact (F e (proj1 (lone_section_trouble own_item st O Q e) (lone_trouble own_item q e H W))).
Qed.
Example C86_trouble_example :
  reaches same order_id (lone_fs rootless) lone_path lone_path /\
  trouble same order_id (lone_fs rootless) lone_path MalformedOneNoteData /\
  (forall q e, reaches same order_id (lone_fs rootless) lone_path q -> trouble same order_id (lone_fs rootless) q e -> e = MalformedOneNoteData) /\
  ~ crash_in same order_id (lone_fs rootless) lone_path /\
  ~ circle_in same order_id (lone_fs rootless) lone_path /\ not_deeper same order_id (lone_fs rootless) lone_path 1.
Proof.
  destruct C85_fault_example as (st & O & Q & F & U & C & R). split; [constructor|].
  split; [apply (lone_troubled rootless); apply (lone_section_trouble rootless st O Q); exact F|].
  split; [intros q e H W; exact (U e (proj1 (lone_section_trouble rootless st O Q e) (lone_trouble rootless q e H W)))|].
  split; [intros X; apply C; apply (lone_crash rootless st O Q); exact X|].
  split; [|exact (lone_shallow rootless)]. intros X. apply R. apply (lone_round rootless st O Q). apply (lone_circle rootless). exact X.
Qed.
(** The notebook of C27 whose groups are links to its directory: nothing in it is wrong. *)
Example C86_bottomless_example :
  bottomless same order_id (link_fs None) (home ++ [Normal name_toc]) /\
  (forall q e, reaches same order_id (link_fs None) (home ++ [Normal name_toc]) q -> ~ trouble same order_id (link_fs None) q e) /\
  ~ crash_in same order_id (link_fs None) (home ++ [Normal name_toc]).
Proof.
  split; [exact link_bottomless|]. split; [exact link_no_trouble|]. intros (r & st & H & _). exact (link_no_section r H).
Qed.
(** The section file of the sample is read. *)
Example C86_section_example :
  (forall e, ~ section_trouble order_id sample_fs (home ++ [Normal name_one]) e) /\
  ~ section_circle order_id sample_fs (home ++ [Normal name_one]).
Proof.
  assert (K : match parse_section_file order_id 50 sample_fs (home ++ [Normal name_one]) with Ok _ => true | _ => false end = true) by (vm_compute; reflexivity).
  destruct (parse_section_file order_id 50 sample_fs (home ++ [Normal name_one])) as [s| | |] eqn:E; try discriminate K.
  destruct (proj1 (C86_section order_id sample_fs _) (ex_intro _ 50%nat (ex_intro _ s E))) as (T & _ & R). exact (conj T R).
Qed.
