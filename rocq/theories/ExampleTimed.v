(** Changing file systems, used only in [Example]s and in witnesses of [_refuted]
    theorems. *)
From Coq Require Import Lia.
From Verif Require Import Base Codec Package PropSet Store Props Nodes Doc Notebook SpecNotebook SpecStore ExampleFile ExampleSection ExampleNotebook
  PropertiesStore PropertiesNotebook NotebookProofs2 NotebookProofs3 Timed SpecTimed TimedProofs TimedProofs2.

Definition toc_path_ : path := home ++ [Normal name_toc].
(** The notebook lists "a" and "b"; one section file is there, under one of the names. *)
Definition one_section (n : name) : filesystem :=
  plain_fs [(toc_path_, link_toc); (home ++ [Normal n], sample_section)] [(home, [name_toc; n])].
(** It is renamed from [n] to [m] just before question [k]. *)
Definition renaming (n m : name) (k : nat) : world := fun t => if Nat.ltb t k then one_section n else one_section m.

(** "a" is a section file of the notebook until question 4, and then a link to the
    file "/s" outside. *)
Definition a_toc : list N := toc_file [toc_folder_obj 101 [102]; toc_entry_obj 102 1 name_a].
Definition swapped : world := fun t =>
  let fs := plain_fs [(toc_path_, a_toc); (home ++ [Normal name_a], sample_section); (outside, sample_section)] [(home, [name_toc; name_a])] in
  if Nat.ltb t 4 then fs
  else FileSystem (fs_exists fs) (fs_is_file fs)
         (fun p => if path_eqb p (home ++ [Normal name_a]) then Some outside else fs_canonicalize fs p) (fs_read fs) (fs_read_dir fs).

(** A tree without links, all files of which hold [content]. *)
Definition tree_fs (root : tree) (content : list N) : filesystem :=
  FileSystem (fun p => match walk [] root p with Some _ => true | None => false end)
    (fun p => match walk [] root p with Some File => true | _ => false end)
    (fun p => match walk [] root p with Some _ => Some p | None => None end)
    (fun p => match walk [] root p with Some File => Some content | _ => None end)
    (fun p => match walk [] root p with Some (Directory es) => Some (map (fun e => Some (fst e)) es) | _ => None end).
(** [n] section groups, one inside the other. *)
Fixpoint chain (n : nat) : tree :=
  match n with
  | O => Directory [(name_toc, File)]
  | S n => Directory [(name_toc, File); (name_a, chain n)]
  end.
Definition chain_root (n : nat) : tree := Directory [([110], chain n)].
(** Another section group is created, inside the innermost, before every question. *)
Definition digging : world := fun t => tree_fs (chain_root (S t)) a_toc.

Definition inner (k : nat) : path := home ++ map Normal (repeat name_a k).
Lemma walk_inner n k rest : (k <= n)%nat -> exists above, walk [] (chain_root n) (inner k ++ rest) = walk above (chain (n - k)) rest.
Proof.
  intros L. unfold inner. cbn [home app walk chain_root last child find fst snd name_eqb option_map].
  change (110 =? 110) with true. cbn [andb option_map snd]. fold (chain_root n). generalize [chain_root n]. revert n L. induction k as [|k IH]; intros n L above.
  - exists above. now rewrite Nat.sub_0_r.
  - destruct n as [|n]; [lia|]. cbn. apply IH. lia.
Qed.
Lemma a_toc_store : exists st, open_store order_id 50 a_toc = Ok st /\ st_schema st = toc_schema /\
  exists c, parse_toc 50 (st_data_root st) = Ok ([name_a], c).
Proof.
  eexists. split; [vm_compute; reflexivity|]. split; [reflexivity|]. eexists. vm_compute. reflexivity.
Qed.
Lemma inner_snoc k : inner (S k) = inner k ++ [Normal name_a].
Proof.
  unfold inner. rewrite <- app_assoc. f_equal. change [Normal name_a] with (map Normal [name_a]). rewrite <- map_app. f_equal.
  induction k as [|k IH]; [reflexivity|]. cbn. now f_equal.
Qed.
Lemma digging_toc t k : (k <= S t)%nat -> fs_read (digging t) (inner k ++ [Normal name_toc]) = Some a_toc.
Proof.
  intros L. unfold digging. cbn [tree_fs fs_read]. destruct (walk_inner (S t) k [Normal name_toc] L) as (above & E). rewrite E.
  destruct (S t - k)%nat; reflexivity.
Qed.
Lemma digging_dir t k : (k <= S t)%nat -> exists es, walk [] (chain_root (S t)) (inner k) = Some (Directory ((name_toc, File) :: es)).
Proof.
  intros L. destruct (walk_inner (S t) k [] L) as (above & E). rewrite app_nil_r in E. rewrite E. destruct (S t - k)%nat; eexists; reflexivity.
Qed.
Lemma digging_exists t k : (k <= S t)%nat -> fs_exists (digging t) (inner k) = true.
Proof. intros L. unfold digging. cbn [tree_fs fs_exists]. now destruct (digging_dir t k L) as (es & ->). Qed.
Lemma digging_canon t k : (k <= S t)%nat -> fs_canonicalize (digging t) (inner k) = Some (inner k).
Proof. intros L. unfold digging. cbn [tree_fs fs_canonicalize]. now destruct (digging_dir t k L) as (es & ->). Qed.
Lemma digging_file t k : (k <= S t)%nat -> fs_is_file (digging t) (inner k) = false.
Proof. intros L. unfold digging. cbn [tree_fs fs_is_file]. now destruct (digging_dir t k L) as (es & ->). Qed.
Lemma digging_list t k : (k <= S t)%nat -> exists r, fs_read_dir (digging t) (inner k) = Some (Some name_toc :: r).
Proof. intros L. unfold digging. cbn [tree_fs fs_read_dir]. destruct (digging_dir t k L) as (es & ->). eexists. reflexivity. Qed.
Lemma dig d : forall t k, (k <= t)%nat ->
  run_io digging t (io_notebook same order_id d 50 (inner k ++ [Normal name_toc])) = OutOfFuel.
Proof.
  destruct a_toc_store as (st & Ho & Hs & c & Ht).
  induction d as [|d IH]; intros t k L; [reflexivity|]. rewrite io_step, run_ask_bind. cbn [reply]. rewrite digging_toc by lia.
  unfold io_rest. rewrite run_done_bind. cbn [ok_or rbind]. rewrite Ho, ibind_done_ok, Hs. replace (toc_schema =? toc_schema) with true by reflexivity.
  rewrite parent_snoc by discriminate. cbn [ok_or]. rewrite ibind_done_ok, Ht, ibind_done_ok. cbn [imap].
  assert (R : run_io digging (S t) (io_resolve same (inner k) name_a) = Ok (inner (S k)) /\ steps_of digging (S t) (io_resolve same (inner k) name_a) = 3%nat).
  { unfold io_resolve, steps_of. cbn [is_absolute name_a]. change (97 =? slash) with false. cbv iota.
    change (sanitize_components same (components name_a)) with (@Ok path [Normal name_a]). rewrite !ibind_done_ok. cbv iota. rewrite <- inner_snoc.
    rewrite run_ask_bind, asked_ask_bind. cbn [reply]. rewrite digging_exists by lia.
    rewrite run_ask_bind, asked_ask_bind. cbn [reply]. rewrite digging_canon by lia. cbn [ok_or].
    rewrite !ibind_done_ok, run_ask_bind, asked_ask_bind. cbn [reply]. rewrite digging_canon by lia.
    cbn [ok_or]. rewrite !ibind_done_ok. assert (B : starts_with (inner (S k)) (inner k) = true) by (apply starts_iff; rewrite inner_snoc; eexists; reflexivity).
    rewrite B. split; reflexivity. }
  destruct R as (R1 & R2). rewrite run_bind, run_bind, R1. cbn [rbind]. rewrite run_done_bind. cbn [rbind run_io].
  set (t' := (S t + _)%nat). assert (E : t' = (S t + 3)%nat).
  { subst t'. unfold steps_of. rewrite asked_bind, R1, app_length. fold (steps_of digging (S t) (io_resolve same (inner k) name_a)). rewrite R2. reflexivity. }
  rewrite E. clear t' E. rewrite run_bind. cbn [io_entries]. rewrite run_ask_bind. cbn [reply]. rewrite digging_exists by lia.
  assert (B : is_recycle_bin (inner (S k)) = false) by (rewrite inner_snoc; unfold is_recycle_bin; rewrite rev_app_distr; reflexivity). rewrite B.
  cbn [negb andb]. rewrite run_bind. unfold io_entry. rewrite run_ask_bind. cbn [reply]. rewrite digging_file by lia.
  assert (F : file_name (inner (S k)) = Some name_a) by (rewrite inner_snoc; unfold file_name; rewrite rev_app_distr; reflexivity). rewrite F. cbn [ok_or].
  rewrite ibind_done_ok, run_ask_bind. cbn [reply]. 
  destruct (digging_list (S (S (S t + 3))) (S k) ltac:(lia)) as (es2 & ->). cbn [ok_or]. rewrite ibind_done_ok.
  assert (T : forall r, find_toc (Some name_toc :: r) = Ok name_toc) by reflexivity. rewrite T, ibind_done_ok, run_bind, IH by lia. reflexivity.
Qed.
Lemma digging_tree t : without_links (digging t) [] (chain_root (S t)).
Proof. intros p H. unfold digging in H. cbn [tree_fs fs_exists] in H. now destruct (walk [] (chain_root (S t)) p). Qed.
Lemma digging_readable t : readable order_id 50 (digging t).
Proof.
  intros p bs H. unfold digging in H. cbn [tree_fs fs_read] in H. destruct (walk _ _ p) as [[|]|]; try discriminate H. injection H as <-.
  split; [vm_compute; discriminate|]. intros st E.
  match type of E with ?t = _ => let v := eval vm_compute in t in assert (E' : t = v) by (vm_compute; reflexivity) end.
  rewrite E' in E; injection E as <-; split; [|intros n]; vm_compute; discriminate.
Qed.
