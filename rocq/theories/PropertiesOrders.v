(** Property theorems: one result in every process (C89). *)
From Coq Require Import Lia Relations Permutation.
From Verif Require Import Base Codec SpecCodec Package SpecPackage PropSet SpecPropSet Store SpecStore StoreProofs StoreProofs3 Props Nodes Doc Notebook
  Orders SpecOrders OrdersProofs NotebookProofs3 OnceProofs FateProofs3 ExampleFile PropertiesStore ExampleSection ExampleNotebook PropertiesNotebook.

(** ** C89 *)
(** A determined section file gives the same section, or crashes, in every process, after
    the same number of steps. *)
Theorem C89_section : forall data, determined data -> forall h1 h2 fuel file,
  (forall s, parse_section_buffer h1 fuel data file = Ok s <-> parse_section_buffer h2 fuel data file = Ok s) /\
  (parse_section_buffer h1 fuel data file = Panic <-> parse_section_buffer h2 fuel data file = Panic).
Proof. exact (fun data D h1 h2 fuel file => buffer_agrees h1 h2 fuel data file D). Qed.
Print Assumptions C89_section.
(** Where its store is built, even the errors are the same. *)
Theorem C89_opened : forall data, determined data -> forall h1 h2 fuel file st, open_store h1 fuel data = Ok st ->
  parse_section_buffer h1 fuel data file = parse_section_buffer h2 fuel data file.
Proof. exact (fun data D h1 h2 fuel file st => buffer_opened h1 h2 fuel data file st D). Qed.
Print Assumptions C89_opened.
Theorem C89_file : forall fs, all_determined fs -> forall h1 h2 fuel p,
  (forall s, parse_section_file h1 fuel fs p = Ok s <-> parse_section_file h2 fuel fs p = Ok s) /\
  (parse_section_file h1 fuel fs p = Panic <-> parse_section_file h2 fuel fs p = Panic).
Proof. exact (fun fs D h1 h2 fuel p => file_agrees h1 h2 fuel fs p D). Qed.
Print Assumptions C89_file.
(** The same for a notebook of determined files. *)
Theorem C89_notebook : forall fs, all_determined fs -> forall sanitise h1 h2 depth fuel p,
  (forall nb, parse_notebook sanitise h1 depth fuel fs p = Ok nb <-> parse_notebook sanitise h2 depth fuel fs p = Ok nb) /\
  (parse_notebook sanitise h1 depth fuel fs p = Panic <-> parse_notebook sanitise h2 depth fuel fs p = Panic).
Proof. exact (fun fs D s h1 h2 depth fuel p => notebook_agrees s h1 h2 depth fuel fs p D). Qed.
Print Assumptions C89_notebook.
(** Even if every file that is opened has its tables in an order of its own. *)
Theorem C89_each : forall fs, all_determined fs -> forall sanitise h hs depth fuel n p,
  (forall nb, parse_notebook sanitise h depth fuel fs p = Ok nb <->
              exists m, notebook_each sanitise hs depth fuel fs n p = Ok (nb, m)) /\
  (parse_notebook sanitise h depth fuel fs p = Panic <-> notebook_each sanitise hs depth fuel fs n p = Panic).
Proof. exact (fun fs D s h hs depth fuel n p => notebook_agreen s h hs fuel fs D depth n p). Qed.
Print Assumptions C89_each.

(** The sample notebook, every other file in reverse order. Four files are opened, one
    of them for the second time. *)
Lemma sample_determined : all_determined sample_fs.
Proof.
  intros p d H. unfold sample_fs, plain_fs in H. cbn [fs_read] in H.
  destruct (find _ sample_files) as [[q e]|] eqn:F; [|discriminate H]. apply find_some in F as (I & _).
  cbn in H. injection H as <-. cbn [sample_files In] in I.
  destruct I as [E|[E|[E|[]]]]; injection E as <- <-; apply determined_test_ok; vm_compute; reflexivity.
Qed.
Definition by_turns (n : nat) : order := if Nat.even n then order_id else order_rev.
Example C89_example : all_determined sample_fs /\
  (exists nb, notebook_each same by_turns 9 9 sample_fs 0 (home ++ [Normal name_toc]) = Ok (nb, 4%nat) /\
    parse_notebook same order_rev 9 9 sample_fs (home ++ [Normal name_toc]) = Ok nb /\ length (nb_entries nb) = 3%nat) /\
  determined sample_section /\ is_ok (parse_section_buffer order_rev 9 sample_section name_one) = true.
Proof.
  refine (conj sample_determined (conj _ (conj (sample_determined (home ++ [Normal name_one]) _ eq_refl) _))).
  - eexists. split; [vm_compute; reflexivity|]. split; vm_compute; reflexivity.
  - vm_compute. reflexivity.
Qed.

(** A determined file that one process rejects and another reads for ever: one cell has no
    manifest, another a revision based on itself. *)
Definition ex_either : list N := ex_file 77
  [IxCell root_cell (xid 30) (xser 30); IxCell (xid 3, xid 4) (xid 50) (xser 31);
   IxCell (xid 5, xid 6) (xid 60) (xser 32)]
  [xel 30 (ElCell (xid 31)); xel 31 (ElRevision (xid 31) nilx []);
   xel 50 (ElCell (xid 51)); xel 51 (ElRevision (xid 51) (xid 51) []);
   xel 60 (ElCell (xid 61)); xel 61 (ElRevision (xid 61) nilx [RvGroup (xid 62)])].
Definition pg_either : packaging := Eval vm_compute in get_pg ex_either.
Theorem C89_ends_refuted : exists data, determined data /\
  (forall fuel file, (2 <= fuel)%nat -> parse_section_buffer order_rev fuel data file = Err MalformedOneStoreData) /\
  (forall fuel file, parse_section_buffer order_id fuel data file = OutOfFuel).
Proof.
  exists ex_either. split; [apply determined_test_ok; vm_compute; reflexivity|].
  assert (P : packaging_parse ex_either = Ok (pg_either, [])) by (vm_compute; reflexivity).
  split.
  - intros fuel file L. unfold parse_section_buffer.
    assert (O : open_store order_rev 2 ex_either = Err MalformedOneStoreData).
    { unfold open_store, run. rewrite P. vm_compute. reflexivity. }
    rewrite (open_fuel order_rev 2 fuel ex_either L); rewrite O; [reflexivity|discriminate].
  - intros fuel file. unfold parse_section_buffer, open_store, run. rewrite P. cbn [rbind].
    assert (W : parse_store order_id fuel pg_either = OutOfFuel); [|now rewrite W].
    destruct fuel as [|[|f]]; [vm_compute; reflexivity..|].
    assert (L : forall f objs rts,
      revision_walk f (xid 3) (xid 4) (snd (hd (xid 0, storage_index_empty) (pk_indexes (pg_package pg_either)))) (pg_package pg_either) [] (Some (xid 51)) objs rts = OutOfFuel).
    { clear. intros f. induction f as [|f IH]; intros objs rts; [reflexivity|]. cbn [revision_walk].
      destruct (revision_parse _ _ _ _ _ _ _ _) as [[[b o] r]| | |] eqn:E; vm_compute in E; try discriminate E.
      injection E as <- <- <-. cbn [rbind]. apply IH. }
    unfold parse_store.
    match goal with |- context [ok_or ?e (or_else ?a ?b)] =>
      replace (ok_or e (or_else a b)) with (Ok (snd (hd (xid 0, storage_index_empty) (pk_indexes (pg_package pg_either)))))
        by (vm_compute; reflexivity) end.
    cbn [rbind]. set (si := snd _) in *.
    match goal with |- context [ok_or ?e (find_storage_manifest order_id ?p)] =>
      let v := eval vm_compute in (ok_or e (find_storage_manifest order_id p)) in
      change (ok_or e (find_storage_manifest order_id p)) with v end.
    cbn [rbind].
    match goal with |- context [find_header_cell_id ?p] =>
      let v := eval vm_compute in (find_header_cell_id p) in change (find_header_cell_id p) with v end.
    cbn [rbind].
    match goal with |- context [find_cell_mapping_id ?p ?q] =>
      let v := eval vm_compute in (find_cell_mapping_id p q) in change (find_cell_mapping_id p q) with v end.
    cbn [rbind ok_or].
    match goal with |- context [find_objects ?h ?p ?q ?r] =>
      let v := eval vm_compute in (find_objects order_id p q r) in
      replace (find_objects h p q r) with v by (vm_compute; reflexivity) end.
    cbn [rbind ok_or hd_error].
    match goal with |- context [header_parse_store ?p] =>
      let v := eval vm_compute in (header_parse_store p) in
      replace (header_parse_store p) with v by (vm_compute; reflexivity) end.
    cbn [rbind].
    match goal with |- context [find_data_root_cell_id ?p] =>
      let v := eval vm_compute in (find_data_root_cell_id p) in change (find_data_root_cell_id p) with v end.
    cbn [rbind].
    match goal with |- context [parse_object_space order_id (S (S f)) ?c si ?p []] =>
      let v := eval vm_compute in (parse_object_space order_id (S (S f)) c si p []) in
      replace (parse_object_space order_id (S (S f)) c si p []) with v by (vm_compute; reflexivity) end.
    cbn [rbind].
    match goal with |- context [o_cells order_id ?l] =>
      let v := eval vm_compute in (o_cells order_id l) in change (o_cells order_id l) with v end.
    assert (W : parse_object_space order_id (S (S f)) (xid 3, xid 4) si (pg_package pg_either) [] = OutOfFuel).
    { unfold parse_object_space.
      replace (alookup cellid_eqb (xid 3, xid 4) (si_cells si)) with (Some (CellMapping (xid 3, xid 4) (xid 50) (xser 31)))
        by (vm_compute; reflexivity).
      cbn [rbind ok_or]. unfold space_parse. cbn [cm_cell cm_id fst snd].
      replace (resolve_cell_revision_manifest_id (pg_package pg_either) si (xid 50)) with (Some (xid 51))
        by (vm_compute; reflexivity).
      cbn [or_else]. rewrite L. reflexivity. }
    cbn [parse_spaces cm_id cm_cell].
    repeat match goal with |- context [if ?b then _ else _] =>
      let v := eval vm_compute in b in change b with v; cbn iota end.
    match goal with |- rbind (rbind ?x _) _ = _ => replace x with (@OutOfFuel (cellid * space)) by (symmetry; exact W) end.
    reflexivity.
Qed.
Print Assumptions C89_ends_refuted.
