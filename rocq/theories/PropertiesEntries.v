(** C101: how many sections a notebook can have. *)
From Coq Require Import Lia.
From Verif Require Import Base Codec SpecCodec Package PropSet Store StoreProofs Nodes Doc SpecNodes SpecNotebook Notebook SpecShelf SpecSize SpecWeight SpecBulk Timed SpecTimed SpecAccess SpecEntries SizeProofs EntriesProofs EntriesProofs2 EntriesProofs3 EntriesProofs4 EntriesProofs5
  PropertiesStore PropertiesDoc ExampleFile ExampleSection ExampleNotebook PropertiesNotebook.
From Verif Require PackageRT TimedProofs3 AccessProofs.
Local Open Scope nat_scope.

(** If no object of the table of contents is listed twice, it gives no more names than
    there are objects, *)
Theorem C101_names : forall sp fuel names c, toc_tree sp -> parse_toc fuel sp = Ok (names, c) -> has_objects sp (length names).
Proof. exact (fun sp fuel names c => names_bound sp fuel names c). Qed.
Print Assumptions C101_names.
(** and a notebook has no more entries than its table of contents has bytes. *)
Theorem C101_entries : forall sanitise h depth fuel fs p nb bs,
  (forall st, open_store h fuel bs = Ok st -> st_schema st = 0xE4DBFD38E5C7408BA8A10E7B421E1F5F%N -> toc_tree (st_data_root st)) ->
  parse_notebook sanitise h depth fuel fs p = Ok nb -> fs_read fs p = Some bs -> length (nb_entries nb) <= length bs.
Proof. exact entries_bound. Qed.
Print Assumptions C101_entries.
(** With the groups below it, it has at most [n ^ depth] sections if its files have at most
    [n] bytes and the groups are nested less than [depth] deep. *)
Theorem C101_sections : forall sanitise h fuel fs n,
  (forall p bs, fs_read fs p = Some bs -> length bs <= n /\
     forall st, open_store h fuel bs = Ok st -> st_schema st = 0xE4DBFD38E5C7408BA8A10E7B421E1F5F%N -> toc_tree (st_data_root st)) -> 1 <= n ->
  forall depth p nb, parse_notebook sanitise h depth fuel fs p = Ok nb -> notebook_sections nb <= n ^ depth.
Proof. exact sections_bound. Qed.
Print Assumptions C101_sections.

(** The sample of C25 and C51. *)
Lemma sample_trees p bs : fs_read sample_fs p = Some bs -> length bs <= 4000 /\
  forall st, open_store order_id 50 bs = Ok st -> st_schema st = 0xE4DBFD38E5C7408BA8A10E7B421E1F5F%N -> toc_tree (st_data_root st).
Proof.
  intro R. apply plain_read in R.
  assert (L : forallb (fun b => length b <=? 4000) (map snd sample_files) = true) by (vm_compute; reflexivity).
  assert (K : forallb (fun b => match open_store order_id 50 b with
      | Ok st => forallb (fun e => forallb (fun b => eg_value (fst e) <? eg_value b)%N (toc_kids e)) (sp_objects (st_data_root st))
      | _ => true end) (map snd sample_files) = true) by (vm_compute; reflexivity).
  assert (D : forallb (fun b => match open_store order_id 50 b with Ok st => once (flat_map toc_kids (sp_objects (st_data_root st))) | _ => true end)
    (map snd sample_files) = true) by (vm_compute; reflexivity).
  rewrite forallb_forall in L, K, D. specialize (L _ R). specialize (K _ R). specialize (D _ R). cbv beta in K, D, L.
  split; [now apply Nat.leb_le in L|]. intros st E _. rewrite E in K, D. now apply toc_tree_checked.
Qed.
Example C101_example : exists nb bs, parse_notebook same order_id 3 50 sample_fs (home ++ [Normal name_toc]) = Ok nb /\
  fs_read sample_fs (home ++ [Normal name_toc]) = Some bs /\ length (nb_entries nb) = 3 /\ notebook_sections nb = 2 /\
  (forall p bs, fs_read sample_fs p = Some bs -> length bs <= 4000 /\
     forall st, open_store order_id 50 bs = Ok st -> st_schema st = 0xE4DBFD38E5C7408BA8A10E7B421E1F5F%N -> toc_tree (st_data_root st)).
Proof.
  destruct C51_example as (s & c & E & _). eexists _, _. split; [exact E|]. split; [reflexivity|]. split; [reflexivity|]. split; [reflexivity|exact sample_trees].
Qed.

(** This is reached but for a constant factor of [n]: tables of contents that are trees, of
    [320 * k + 3200] bytes, give [k ^ (j + 1)] sections in directories [j] deep. *)
Theorem C101_reached : forall k, (N.of_nat k < 2 ^ 22)%N -> exists d e, length d <= 320 * k + 3200 /\ length e <= 5000 /\
  (forall h fuel st, open_store h fuel d = Ok st -> toc_tree (st_data_root st)) /\
  forall j, node_ok (both d e j) /\
    forall sanitise h, sanitise [97]%N = [97]%N -> sanitise [98]%N = [98]%N -> exists nb f, notebook_sections nb = k ^ (j + 1) /\
      forall n, f <= n -> parse_notebook sanitise h n n (fs_of (both d e j)) [RootDir; Normal [116; 46; 111; 110; 101; 116; 111; 99; 50]%N] = Ok nb.
Proof. exact wide_grows. Qed.
Print Assumptions C101_reached.
(** Directories four deep, files of less than 36000 bytes, 10000000000 sections. *)
Example C101_reached_example : exists d e, length d <= 320 * 100 + 3200 /\ length e <= 5000 /\
  forall sanitise h, (forall n, sanitise n = n) -> exists nb f, notebook_sections nb = 100 ^ 5 /\
    forall n, f <= n -> parse_notebook sanitise h n n (fs_of (both d e 4)) [RootDir; Normal [116; 46; 111; 110; 101; 116; 111; 99; 50]%N] = Ok nb.
Proof.
  destruct (C101_reached 100 ltac:(reflexivity)) as (d & e & A & B & _ & H). exists d, e. split; [exact A|]. split; [exact B|]. intros sanitise h S.
  exact (proj2 (H 4) sanitise h (S _) (S _)).
Qed.

(** The files opened for a notebook, counted as often as they are, in a file system that
    does not change. *)
Theorem C101_opened : forall sanitise h fuel fs n,
  (forall p bs, fs_read fs p = Some bs -> length bs <= n /\
     forall st, open_store h fuel bs = Ok st -> st_schema st = 0xE4DBFD38E5C7408BA8A10E7B421E1F5F%N -> toc_tree (st_data_root st)) -> 1 <= n ->
  forall depth t p nb, run_io (fun _ => fs) t (io_notebook sanitise h depth fuel p) = Ok nb ->
    length (reads (asked (fun _ => fs) t (io_notebook sanitise h depth fuel p))) <= 1 + (2 * n) ^ depth.
Proof. exact opened_bound. Qed.
Print Assumptions C101_opened.
(** The questions put to the file system: is it there, is it a file, what is in it. This
    holds of every call, of those too that fail, and while the files change. *)
Theorem C101_asked : forall sanitise h fuel w n,
  (forall i p bs, fs_read (w i) p = Some bs -> length bs <= n /\
     forall st, open_store h fuel bs = Ok st -> st_schema st = 0xE4DBFD38E5C7408BA8A10E7B421E1F5F%N -> toc_tree (st_data_root st)) -> 1 <= n ->
  forall depth t p, length (asked w t (io_notebook sanitise h depth fuel p)) <= 7 * (2 * n) ^ depth.
Proof. exact asked_always. Qed.
Print Assumptions C101_asked.
(** The sample, all of whose files vanish as soon as the table of contents has been read:
    the notebook is empty, and this is found out by eleven questions. *)
Definition vanishing : world := fun t => match t with O => sample_fs | S _ => plain_fs [] [] end.
Example C101_asked_example :
  (forall i p bs, fs_read (vanishing i) p = Some bs -> length bs <= 4000 /\
     forall st, open_store order_id 50 bs = Ok st -> st_schema st = 0xE4DBFD38E5C7408BA8A10E7B421E1F5F%N -> toc_tree (st_data_root st)) /\
  length (asked vanishing 0 (io_notebook same order_id 3 50 (home ++ [Normal name_toc]))) = 11 /\
  exists c, run_io vanishing 0 (io_notebook same order_id 3 50 (home ++ [Normal name_toc])) = Ok (Notebook_ [] c).
Proof.
  split; [|split; [vm_compute; reflexivity|eexists; vm_compute; reflexivity]].
  intros [|i] p bs R; [exact (sample_trees p bs R)|discriminate R].
Qed.
(** The sample, whose files are as [C101_example] says. *)
Example C101_opened_example : exists nb, run_io (fun _ => sample_fs) 0 (io_notebook same order_id 3 50 (home ++ [Normal name_toc])) = Ok nb /\
  length (reads (asked (fun _ => sample_fs) 0 (io_notebook same order_id 3 50 (home ++ [Normal name_toc])))) = 4.
Proof.
  destruct C51_example as (s & c & E & _). rewrite <- (TimedProofs3.stands_still same order_id sample_fs 0) in E. eexists. split; [exact E|].
  rewrite (AccessProofs.notebook_count _ _ _ _ _ _ _ _ E). reflexivity.
Qed.

(** If besides no object of a page's space is listed twice and file names have at most [m]
    characters, there is a bound on all that a notebook holds. *)
Theorem C101_size : forall sanitise h fuel fs n m,
  (forall p bs, fs_read fs p = Some bs -> length bs <= n /\ forall st, open_store h fuel bs = Ok st ->
     (st_schema st = 0xE4DBFD38E5C7408BA8A10E7B421E1F5F%N -> toc_tree (st_data_root st)) /\ forall cell sp, object_space st cell = Some sp -> tree sp) ->
  (forall p f, fs_exists fs p = true -> file_name p = Some f -> length f <= m) -> 1 <= n ->
  forall depth p nb, parse_notebook sanitise h depth fuel fs p = Ok nb -> notebook_bulk nb <= (2 * n) ^ depth * (1 + m + 16 * (n + 2) ^ 5).
Proof. exact notebook_size. Qed.
Print Assumptions C101_size.

(** The sample again. *)
Example C101_size_example : exists nb, parse_notebook same order_id 3 50 sample_fs (home ++ [Normal name_toc]) = Ok nb /\ 0 < notebook_bulk nb /\
  (forall p bs, fs_read sample_fs p = Some bs -> length bs <= 4000 /\ forall st, open_store order_id 50 bs = Ok st ->
     (st_schema st = 0xE4DBFD38E5C7408BA8A10E7B421E1F5F%N -> toc_tree (st_data_root st)) /\ forall cell sp, object_space st cell = Some sp -> tree sp) /\
  (forall p f, fs_exists sample_fs p = true -> file_name p = Some f -> length f <= 18).
Proof.
  destruct C51_example as (s & c & E & _). eexists. split; [exact E|]. split; [cbn [notebook_bulk total entry_bulk nb_entries]; apply Nat.lt_0_succ|]. split.
  - intros p bs R. destruct (sample_trees p bs R) as (L & T). split; [exact L|]. intros st O. split; [exact (T st O)|]. intros cell sp C.
    apply plain_read in R. unfold object_space in C. apply (alookup_in cellid_eqb PackageRT.cellid_eqb_eq) in C.
    assert (K : forallb (fun b => match open_store order_id 50 b with
      | Ok st => forallb (fun x => let sp := snd x in once (flat_map (kids sp) (map fst (sp_objects sp))) &&
          forallb (fun a => forallb (fun b => N.to_nat (eg_value a) <? N.to_nat (eg_value b)) (kids sp a)) (map fst (sp_objects sp))) (st_spaces st)
      | _ => true end) (map snd sample_files) = true) by (vm_compute; reflexivity).
    rewrite forallb_forall in K. specialize (K _ R). cbv beta in K. rewrite O in K. rewrite forallb_forall in K. specialize (K _ C). cbn [snd] in K. apply andb_true_iff in K as (D & K).
    apply (tree_ranked _ (fun a => N.to_nat (eg_value a))); [now apply once_nodup|]. intros a I b J. rewrite forallb_forall in K. specialize (K _ I). cbv beta in K.
    rewrite forallb_forall in K. apply Nat.ltb_lt. exact (K _ J).
  - intros p f X F. assert (K : In p (map fst sample_files ++ map fst sample_dirs)).
    { unfold sample_fs, plain_fs in X. cbn [fs_exists] in X. apply in_app_iff. apply orb_true_iff in X as [X|X]; [left|right].
      - destruct (find _ sample_files) as [(q, b)|] eqn:Y; [|discriminate X]. apply find_some in Y as (Y & Q). cbn [fst] in Q. apply path_eqb_eq in Q as ->. now apply (in_map fst) in Y.
      - destruct (find _ sample_dirs) as [(q, b)|] eqn:Y; [|discriminate X]. apply find_some in Y as (Y & Q). cbn [fst] in Q. apply path_eqb_eq in Q as ->. now apply (in_map fst) in Y. }
    assert (G : forallb (fun p => match file_name p with Some f => length f <=? 18 | None => true end) (map fst sample_files ++ map fst sample_dirs) = true) by (vm_compute; reflexivity).
    rewrite forallb_forall in G. specialize (G _ K). cbv beta in G. rewrite F in G. now apply Nat.leb_le in G.
Qed.

(** Otherwise the entries can be exponential in the length of the table of contents: one
    directory with three files, [2 ^ (k + 1)] sections. *)
Theorem C101_shared_refuted : forall k, (N.of_nat k < 2 ^ 31)%N ->
  exists d e, node_ok (pair_of d e) /\ length d <= 320 * k + 3200 /\ length e <= 5000 /\
    forall sanitise h, sanitise [97]%N = [97]%N -> sanitise [98]%N = [98]%N -> exists nb f, length (nb_entries nb) = 2 ^ (k + 1) /\
      forall n, f <= n -> parse_notebook sanitise h n n (fs_of (pair_of d e)) [RootDir; Normal [116; 46; 111; 110; 101; 116; 111; 99; 50]%N] = Ok nb.
Proof. exact many_entries. Qed.
Print Assumptions C101_shared_refuted.
(** And the sections are exponential in the depth even with one short table of contents in
    every directory: it names the directory inside as "a" and as "./a". *)
Theorem C101_nested_refuted : exists d e, bytes_ok d /\ bytes_ok e /\ forall k, node_ok (nest d e k) /\
  forall sanitise h, sanitise [97]%N = [97]%N -> exists nb f, notebook_sections nb = 2 ^ (k + 1) /\
    forall n, f <= n -> parse_notebook sanitise h n n (fs_of (nest d e k)) [RootDir; Normal [116; 46; 111; 110; 101; 116; 111; 99; 50]%N] = Ok nb.
Proof. exact nested_grows. Qed.
Print Assumptions C101_nested_refuted.
