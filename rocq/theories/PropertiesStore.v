(** Property theorems for the object store (C10, C15-C18, C21, C44, C45). *)
From Coq Require Import Relations Permutation.
From Verif Require Import Base Codec SpecCodec Package SpecPackage PropSet SpecPropSet Store SpecStore
  StoreProofs StoreProofs2 StoreProofs3 ExampleFile.

(** Two concrete hash orders for the examples. *)
Definition order_id : order :=
  Order (fun l => l) (fun l => l) (fun l => l) (fun l => l)
    (@Permutation_refl _) (@Permutation_refl _) (@Permutation_refl _) (@Permutation_refl _).
Definition order_rev : order :=
  Order (@rev _) (@rev _) (@rev _) (@rev _)
    (@Permutation_rev _) (@Permutation_rev _) (@Permutation_rev _) (@Permutation_rev _).

(** C10: building the store from any package panics under no hash order. *)
Theorem C10_store_no_panic : forall h fuel pg, parse_store h fuel pg <> Panic.
Proof. exact parse_store_no_panic. Qed.
Print Assumptions C10_store_no_panic.

(** ** C15 *)
Theorem C15_order_independent : forall bs pg rest h1 h2 fuel st,
  packaging_parse bs = Ok (pg, rest) ->
  (length (pk_manifests (pg_package pg)) <= 1)%nat ->
  index_determined pg ->
  (forall k si, In (k, si) (pk_indexes (pg_package pg)) -> serials_unique si) ->
  parse_store h1 fuel pg = Ok st ->
  exists st', parse_store h2 fuel pg = Ok st' /\ same_store st st'.
Proof.
  exact (fun bs pg rest h1 h2 fuel st P =>
           parse_store_order h1 h2 fuel pg st (packaging_parse_ok bs pg rest P)).
Qed.
Print Assumptions C15_order_independent.

(** A file with two revisions of the data root, a second space, and objects in
    both revisions. *)
Definition role1 : exguid := ExGuid 0x4A3717F81C1449E7952681D942DE1741 1.
Definition role2 : exguid := ExGuid 0x4A3717F81C1449E7952681D942DE1741 2.
Definition nilx : exguid := ExGuid 0 0.
Definition ex_two : list N := ex_file 77
  [IxCell root_cell (xid 30) (xser 30); IxCell (xid 3, xid 4) (xid 50) (xser 31);
   IxRevision (xid 32) (xid 33) (xser 32)]
  [xel 30 (ElCell (xid 31));
   xel 31 (ElRevision (xid 31) (xid 32) [RvRoot role1 (xid 40); RvGroup (xid 41)]);
   xel 33 (ElRevision (xid 32) nilx [RvRoot role1 (xid 42); RvRoot role2 (xid 40); RvGroup (xid 43)]);
   xel 41 (ex_group [ExObject (xid 40) 5 [(1, SObjectIds 1)] [xid 42] []]);
   xel 43 (ex_group [ExObject (xid 40) 6 [] [] []; ExObject (xid 42) 7 [] [] [(xid 3, xid 4)]]);
   xel 50 (ElCell (xid 51));
   xel 51 (ElRevision (xid 51) nilx [RvGroup (xid 41)])].
Definition get_pg (bs : list N) : packaging :=
  match packaging_parse bs with
  | Ok (p, _) => p
  | _ => Packaging 0 0 0 0 nilx 0 package_empty
  end.
Definition pg_two : packaging := Eval vm_compute in get_pg ex_two.

Lemma serials_two : forall k si, In (k, si) (pk_indexes (pg_package pg_two)) -> serials_unique si.
Proof.
  intros k si [E|[]]. injection E as <- <-. split; cbn.
  - intros k1 m1 k2 m2 [E1|[]] [E2|[]]. congruence.
  - intros k1 m1 k2 m2 [E1|[E1|[E1|[]]]] [E2|[E2|[E2|[]]]] H; injection E1 as <- <-; injection E2 as <- <-;
      first [reflexivity | discriminate H].
Qed.

Example C15_example : packaging_parse ex_two = Ok (pg_two, []) /\
  (length (pk_manifests (pg_package pg_two)) <= 1)%nat /\ index_determined pg_two /\
  (forall k si, In (k, si) (pk_indexes (pg_package pg_two)) -> serials_unique si) /\
  exists st, parse_store order_id 3 pg_two = Ok st /\ st_schema st = 77 /\ length (st_spaces st) = 1%nat.
Proof.
  split; [vm_compute; reflexivity|]. split; [apply le_n|]. split; [right; apply le_n|].
  split; [exact serials_two|]. eexists. split; [vm_compute; reflexivity|]. split; reflexivity.
Qed.

(** Without the condition on storage manifests, the same file gives different
    stores in different processes. *)
Definition ex_ambiguous : list N := ex_file 77
  [IxCell root_cell (xid 30) (xser 30)]
  [xel 30 (ElCell (xid 31)); xel 31 (ElRevision (xid 31) nilx []);
   xel 12 (ElManifest 78
      [(ExGuid 0x1A5A319CC26B41AAB9C59BD8C44E07D4 1, header_cell);
       (ExGuid 0x84DEFAB9AAA34A0DA3A8520C77AC7073 2, root_cell)])].
Theorem C15_two_manifests_refuted : exists bs pg st st',
  packaging_parse bs = Ok (pg, []) /\
  parse_store order_id 2 pg = Ok st /\ parse_store order_rev 2 pg = Ok st' /\
  st_schema st <> st_schema st'.
Proof.
  exists ex_ambiguous. eexists _, _, _. split; [vm_compute; reflexivity|].
  split; [vm_compute; reflexivity|]. split; [vm_compute; reflexivity|]. vm_compute. discriminate.
Qed.
Print Assumptions C15_two_manifests_refuted.

(** Two revision mappings with one serial number: a cell found through it is
    built from either revision. *)
Definition ex_serials : list N := ex_file 77
  [IxCell root_cell (xid 30) (xser 31); IxRevision (xid 91) (xid 31) (xser 31);
   IxRevision (xid 92) (xid 32) (xser 31)]
  [xel 31 (ElRevision (xid 31) nilx [RvRoot role1 (xid 40)]);
   xel 32 (ElRevision (xid 32) nilx [RvRoot role1 (xid 41)])].
Theorem C15_shared_serial_refuted : exists bs pg st st',
  packaging_parse bs = Ok (pg, []) /\ (length (pk_manifests (pg_package pg)) <= 1)%nat /\
  index_determined pg /\
  parse_store order_id 2 pg = Ok st /\ parse_store order_rev 2 pg = Ok st' /\
  content_root (st_data_root st) <> content_root (st_data_root st').
Proof.
  exists ex_serials. eexists _, _, _. split; [vm_compute; reflexivity|].
  split; [apply le_n|]. split; [right; apply le_n|].
  split; [vm_compute; reflexivity|]. split; [vm_compute; reflexivity|]. vm_compute. discriminate.
Qed.
Print Assumptions C15_shared_serial_refuted.

(** Even under all conditions of [C15_order_independent], which error a broken
    file gives depends on the order. *)
Definition ex_errors : list N := ex_file 77
  [IxCell root_cell (xid 30) (xser 30); IxCell (xid 3, xid 4) (xid 50) (xser 31);
   IxCell (xid 5, xid 6) (xid 60) (xser 32)]
  [xel 30 (ElCell (xid 31)); xel 31 (ElRevision (xid 31) nilx []);
   xel 50 (ElCell (xid 51)); xel 51 (ElRevision (xid 51) nilx [RvGroup (xid 52)]);
   xel 52 (ElGroup [DeclObject (xid 53) 4 0 0 0; DeclObject (xid 53) 1 0 0 0]
                   [DataObject [] [] []; DataObject [] [] []])].
Theorem C15_error_kind_refuted : exists bs pg,
  packaging_parse bs = Ok (pg, []) /\ (length (pk_manifests (pg_package pg)) <= 1)%nat /\
  index_determined pg /\
  (forall k si, In (k, si) (pk_indexes (pg_package pg)) -> serials_unique si) /\
  parse_store order_id 2 pg = Err UnexpectedEof /\
  parse_store order_rev 2 pg = Err MalformedOneStoreData.
Proof.
  exists ex_errors. eexists. split; [vm_compute; reflexivity|].
  split; [apply le_n|]. split; [right; apply le_n|]. split.
  - intros k si [E|[]]. injection E as <- <-. split; cbn.
    + intros k1 m1 k2 m2 [].
    + intros k1 m1 k2 m2 [E1|[E1|[E1|[E1|[]]]]] [E2|[E2|[E2|[E2|[]]]]] H; injection E1 as <- <-; injection E2 as <- <-;
        first [reflexivity | discriminate H].
  - split; vm_compute; reflexivity.
Qed.
Print Assumptions C15_error_kind_refuted.

(** ** C16, C17: what an object space contains *)
Theorem C16_newest_object_wins : forall h fuel m si pk c s,
  space_parse h fuel m si pk [] = Ok (c, s) ->
  c = cm_cell m /\ sp_id s = snd c /\ sp_context s = fst c /\
  ((sp_objects s = [] /\ sp_roots s = [] /\
    alookup exguid_eqb (cm_id m) (pk_cells pk) = Some nil_id /\ forall id, ~ newest pk si m id)
   \/
   exists id revs gs,
     newest pk si m id /\ chain pk si id revs /\ chain_groups pk revs gs /\
     (forall oid o, get_object s oid = Some o -> exists g,
        first_declaring gs oid g /\ object_of pk (fst c) (snd c) g oid o) /\
     (forall oid, get_object s oid = None <-> forall g, In g gs -> ~ declares g oid) /\
     (forall d, In d (flat_map rm_roots revs) -> exists r, fst d = role_id r) /\
     (forall r oid, alookup role_eqb r (sp_roots s) = Some oid <->
                    last_root (flat_map rm_roots revs) r oid)).
Proof. exact space_parse_ok. Qed.
Print Assumptions C16_newest_object_wins.

(** Conversely, a cell with a finite chain of complete revisions is accepted. *)
Theorem C16_complete_chain_accepted : forall h fuel m si pk id revs gs,
  newest pk si m id -> (forall id', newest pk si m id' -> id' = id) ->
  chain pk si id revs -> chain_groups pk revs gs ->
  (forall d, In d (flat_map rm_roots revs) -> exists r, fst d = role_id r) ->
  (forall oid g, first_declaring gs oid g ->
     exists o, object_of pk (fst (cm_cell m)) (snd (cm_cell m)) g oid o) ->
  (length revs <= fuel)%nat ->
  exists s, space_parse h fuel m si pk [] = Ok (cm_cell m, s).
Proof. exact space_parse_accepts. Qed.
Print Assumptions C16_complete_chain_accepted.

(** Object 40 is in both revisions, with types 5 (newest) and 6; 42 in the base only. *)
Example C16_example : exists st o40 o42,
  parse_store order_id 3 pg_two = Ok st /\
  get_object (st_data_root st) (xid 40) = Some o40 /\ ob_jcid o40 = 5 /\
  get_object (st_data_root st) (xid 42) = Some o42 /\ ob_jcid o42 = 7 /\
  get_object (st_data_root st) (xid 43) = None.
Proof.
  eexists _, _, _. split; [vm_compute; reflexivity|]. split; [vm_compute; reflexivity|].
  split; [reflexivity|]. split; [vm_compute; reflexivity|]. split; reflexivity.
Qed.

(** C17: the roots are those of the oldest revision that declares the role. *)
Theorem C17_oldest_root_wins : forall h fuel m si pk c s,
  space_parse h fuel m si pk [] = Ok (c, s) ->
  (exists id, newest pk si m id) ->
  exists id revs, newest pk si m id /\ chain pk si id revs /\
    forall oid, (content_root s = Some oid <-> last_root (flat_map rm_roots revs) DefaultContent oid) /\
                (metadata_root s = Some oid <-> last_root (flat_map rm_roots revs) MetadataRole oid).
Proof.
  exact (fun h fuel m si pk c s E N =>
    match space_parse_ok h fuel m si pk c s E with
    | conj _ (conj _ (conj _ (or_introl (conj _ (conj _ (conj _ F)))))) =>
        match N with ex_intro _ i Hi => False_ind _ (F i Hi) end
    | conj _ (conj _ (conj _ (or_intror
        (ex_intro _ id (ex_intro _ revs (ex_intro _ gs (conj A (conj B (conj _ (conj _ (conj _ (conj _ R)))))))))))) =>
        ex_intro _ id (ex_intro _ revs (conj A (conj B (fun oid =>
          conj (R DefaultContent oid) (R MetadataRole oid)))))
    end).
Qed.
Print Assumptions C17_oldest_root_wins.

(** The newest revision of [ex_two] declares 40 as content root; under every hash
    order 42 is reported. *)
Definition si_two : storage_index := Eval vm_compute in
  match pk_indexes (pg_package pg_two) with (_, si) :: _ => si | [] => storage_index_empty end.
Definition revs_two : list revision_manifest := Eval vm_compute in
  flat_map (fun i => match alookup exguid_eqb i (pk_revisions (pg_package pg_two)) with
                     | Some r => [r] | None => [] end) [xid 31; xid 33].

Lemma chain_two : chain (pg_package pg_two) si_two (xid 31) revs_two.
Proof.
  eapply chain_more with (id' := xid 33); [reflexivity|discriminate| |].
  - left. eexists. split; vm_compute; reflexivity.
  - apply chain_base; reflexivity.
Qed.

Theorem C17_newest_root_refuted : exists bs pg si m id revs,
  packaging_parse bs = Ok (pg, []) /\
  In (xid 10, si) (pk_indexes (pg_package pg)) /\ In (root_cell, m) (si_cells si) /\
  newest (pg_package pg) si m id /\ chain (pg_package pg) si id revs /\
  first_root (flat_map rm_roots revs) DefaultContent (xid 40) /\
  forall h, exists st, parse_store h 3 pg = Ok st /\ content_root (st_data_root st) = Some (xid 42).
Proof.
  exists ex_two, pg_two, si_two, (CellMapping root_cell (xid 30) (xser 30)), (xid 31), revs_two.
  split; [vm_compute; reflexivity|]. split; [left; reflexivity|].
  split; [right; left; reflexivity|].
  split; [left; exists (xid 31); split; [reflexivity|right; split; [reflexivity|split; [reflexivity|]]]; eexists; vm_compute; reflexivity|].
  split; [exact chain_two|]. split.
  - exists [], (tl (flat_map rm_roots revs_two)). split; [reflexivity|intros x []].
  - intro h.
    destruct (parse_store order_id 3 pg_two) as [st| | |] eqn:E; try (vm_compute in E; discriminate E).
    assert (P : packaging_parse ex_two = Ok (pg_two, [])) by (vm_compute; reflexivity).
    destruct (C15_order_independent ex_two pg_two [] order_id h 3 st P) as (st' & H & _ & _ & R & _); auto.
    + right; apply le_n.
    + exact serials_two.
    + exists st'. split; auto. rewrite <- R. clear H R. vm_compute in E. injection E as <-. reflexivity.
Qed.
Print Assumptions C17_newest_root_refuted.

(** ** C18 *)
Theorem C18_acyclic_terminates : forall h fuel pg,
  (forall k si, In (k, si) (pk_indexes (pg_package pg)) -> acyclic (pg_package pg) si) ->
  (S (length (pk_revisions (pg_package pg))) <= fuel)%nat ->
  parse_store h fuel pg <> OutOfFuel.
Proof. exact parse_store_terminates. Qed.
Print Assumptions C18_acyclic_terminates.

Theorem C18_cycle_gives_no_result : forall h fuel m si pk,
  (forall id, newest pk si m id -> reaches_cycle pk si id) -> (exists id, newest pk si m id) ->
  forall c s, space_parse h fuel m si pk [] <> Ok (c, s).
Proof. exact space_parse_cycle. Qed.
Print Assumptions C18_cycle_gives_no_result.

Example C18_example : acyclic (pg_package pg_two) si_two /\ length (pk_revisions (pg_package pg_two)) = 4%nat.
Proof.
  split; [|reflexivity].
  (* every base step lowers this rank *)
  set (rank := fun id : exguid => match eg_value id with 31 => 1%nat | _ => 0%nat end).
  assert (R : forall a b, based_on (pg_package pg_two) si_two a b -> (rank b < rank a)%nat).
  { intros a b (rm & H & N & K). apply (alookup_in exguid_eqb PackageRT.exguid_eqb_eq) in H.
    cbn in H. destruct H as [H|[H|[H|[H|[]]]]]; injection H as <- <-; try (exfalso; apply N; reflexivity).
    destruct K as [(mm & E & <-)|(E & _)]; vm_compute in E; [injection E as <-|discriminate E].
    cbn. apply le_n. }
  intros id T. assert (L : forall a b, clos_trans _ (based_on (pg_package pg_two) si_two) a b -> (rank b < rank a)%nat).
  { induction 1; eauto using Nat.lt_trans. }
  exact (Nat.lt_irrefl _ (L _ _ T)).
Qed.

(** A file of under 4000 bytes whose only revision is based on itself: building
    its store never ends, whatever the number of steps and the hash order. *)
Definition ex_loop : list N := ex_file 77
  [IxCell root_cell (xid 30) (xser 30)]
  [xel 30 (ElCell (xid 31));
   xel 31 (ElRevision (xid 31) (xid 31) [RvRoot role1 (xid 40); RvGroup (xid 41)]);
   xel 41 (ex_group [ExObject (xid 40) 5 [] [] []])].
Definition pg_loop : packaging := Eval vm_compute in get_pg ex_loop.

Theorem C18_termination_refuted : exists bs pg,
  packaging_parse bs = Ok (pg, []) /\ (length bs < 4000)%nat /\
  forall h fuel, parse_store h fuel pg = OutOfFuel.
Proof.
  exists ex_loop, pg_loop. split; [vm_compute; reflexivity|].
  split; [apply Nat.ltb_lt; vm_compute; reflexivity|].
  intros h fuel.
  assert (M : find_storage_manifest h (pg_package pg_loop) = find_storage_manifest order_id (pg_package pg_loop)).
  { unfold find_storage_manifest. f_equal. eapply hd_perm; [|apply o_manifests_perm|apply o_manifests_perm]. apply le_n. }
  unfold parse_store. rewrite M. clear M.
  change (find_storage_index_by_id (pg_package pg_loop) (pg_storage_index pg_loop))
    with (Some (snd (hd (xid 0, storage_index_empty) (pk_indexes (pg_package pg_loop))))).
  cbn [or_else ok_or rbind]. set (si := snd _).
  match goal with |- context [ok_or ?e (find_storage_manifest order_id ?p)] =>
    let v := eval vm_compute in (ok_or e (find_storage_manifest order_id p)) in
    change (ok_or e (find_storage_manifest order_id p)) with v end.
  cbn [rbind].
  match goal with |- context [find_header_cell_id ?p] =>
    let v := eval vm_compute in (find_header_cell_id p) in change (find_header_cell_id p) with v end.
  cbn [rbind].
  match goal with |- context [find_cell_mapping_id ?p ?q] =>
    let v := eval vm_compute in (find_cell_mapping_id p q) in change (find_cell_mapping_id p q) with v end.
  cbn [rbind ok_or].
  match goal with |- context [find_objects h ?p ?q ?r] =>
    let v := eval vm_compute in (find_objects order_id p q r) in
    replace (find_objects h p q r) with v by (vm_compute; reflexivity) end.
  cbn [rbind ok_or hd_error].
  match goal with |- context [header_parse_store ?p] =>
    let v := eval vm_compute in (header_parse_store p) in
    replace (header_parse_store p) with v by (vm_compute; reflexivity) end.
  cbn [rbind].
  match goal with |- context [find_data_root_cell_id ?p] =>
    let v := eval vm_compute in (find_data_root_cell_id p) in change (find_data_root_cell_id p) with v end.
  cbn [rbind].
  assert (W : parse_object_space h fuel root_cell si (pg_package pg_loop) [] = OutOfFuel).
  { unfold parse_object_space.
    replace (alookup cellid_eqb root_cell (si_cells si)) with (Some (CellMapping root_cell (xid 30) (xser 30)))
      by (vm_compute; reflexivity).
    cbn [rbind ok_or]. unfold space_parse. cbn [cm_cell cm_id fst snd].
    replace (resolve_cell_revision_manifest_id (pg_package pg_loop) si (xid 30)) with (Some (xid 31))
      by (vm_compute; reflexivity).
    cbn [or_else].
    assert (L : forall f objs rts,
      revision_parse (xid 31) (fst root_cell) (snd root_cell) si (pg_package pg_loop) [] objs rts = Ok (Some (xid 31), objs, rts) ->
      revision_walk f (fst root_cell) (snd root_cell) si (pg_package pg_loop) [] (Some (xid 31)) objs rts = OutOfFuel).
    { intros f objs rts E. induction f as [|f IH]; [reflexivity|]. cbn [revision_walk]. rewrite E. exact IH. }
    destruct fuel as [|f]; [reflexivity|]. cbn [revision_walk].
    destruct (revision_parse (xid 31) (fst root_cell) (snd root_cell) si (pg_package pg_loop) [] [] []) as [[[b o] r]| | |] eqn:E;
      vm_compute in E; try discriminate E. injection E as <- <- <-.
    cbn [rbind]. rewrite L; [reflexivity|]. vm_compute. reflexivity. }
  match goal with |- rbind ?x _ = _ => replace x with (@OutOfFuel (cellid * space)) by (symmetry; exact W) end.
  reflexivity.
Qed.
Print Assumptions C18_termination_refuted.

Example C18_cycle_example : exists k si m,
  In (k, si) (pk_indexes (pg_package pg_loop)) /\ In (root_cell, m) (si_cells si) /\
  (exists id, newest (pg_package pg_loop) si m id) /\
  forall id, newest (pg_package pg_loop) si m id -> reaches_cycle (pg_package pg_loop) si id.
Proof.
  eexists (xid 10), _, (CellMapping root_cell (xid 30) (xser 30)).
  split; [left; reflexivity|]. split; [right; left; reflexivity|].
  assert (A : by_manifest (pg_package pg_loop)
                (snd (hd (xid 0, storage_index_empty) (pk_indexes (pg_package pg_loop))))
                (CellMapping root_cell (xid 30) (xser 30)) (xid 31)).
  { exists (xid 31). split; [reflexivity|]. right. split; [reflexivity|]. split; [reflexivity|].
    eexists. vm_compute. reflexivity. }
  split; [exists (xid 31); left; exact A|].
  intros id [(r & E & [(mm & F & _)|(_ & G & _)])|[(F & _)|(F & _)]];
    [vm_compute in E; injection E as <-; vm_compute in F; discriminate F| |exfalso; exact (F _ A)|exfalso; exact (F _ A)].
  subst id. vm_compute in E. injection E as <-.
  exists (xid 31). split; [apply rt_refl|]. apply t_step.
  eexists. split; [vm_compute; reflexivity|]. split; [discriminate|].
  right. split; [reflexivity|]. split; [reflexivity|]. eexists. vm_compute. reflexivity.
Qed.

(** ** C21: an object's own table *)
Theorem C21_mapping_table_rule : forall objs spaces i cid,
  resolves objs i cid (mapping_get_object (mapping_from_entries objs spaces) i cid) /\
  resolves spaces i cid (mapping_get_space (mapping_from_entries objs spaces) i cid).
Proof. exact (fun objs spaces i cid => conj (mapping_resolves objs i cid) (mapping_resolves spaces i cid)). Qed.
Print Assumptions C21_mapping_table_rule.

Example C21_example :
  let a := CompactId 1 0 in let b := CompactId 1 1 in let c := CompactId 2 0 in
  let l := [(a, xid 10); (b, xid 11); (a, xid 12)] in
  let t := mapping_from_entries l [] in
  resolves l 7 b (Some (xid 11)) /\ mapping_get_object t 7 b = Some (xid 11) /\
  mapping_get_object t 0 a = Some (xid 10) /\ mapping_get_object t 2 a = Some (xid 12) /\
  mapping_get_object t 1 a = None /\ mapping_get_object t 0 c = None.
Proof. split; [exists 1%nat, (xid 11); split; reflexivity|]. vm_compute. repeat split. Qed.

(** ** C44: the spaces of a store are the cells of its index *)
Theorem C44_store_contents : forall bs pg rest h fuel st,
  packaging_parse bs = Ok (pg, rest) -> parse_store h fuel pg = Ok st ->
  exists k si j sm hc rc m,
    In (k, si) (pk_indexes (pg_package pg)) /\ In (j, sm) (pk_manifests (pg_package pg)) /\
    alookup exguid_eqb (ExGuid 0x1A5A319CC26B41AAB9C59BD8C44E07D4 1) (sm_roots sm) = Some hc /\
    alookup exguid_eqb (ExGuid 0x84DEFAB9AAA34A0DA3A8520C77AC7073 2) (sm_roots sm) = Some rc /\
    st_schema st = sm_id sm /\
    alookup cellid_eqb rc (si_cells si) = Some m /\
    space_parse h fuel m si (pg_package pg) [] = Ok (rc, st_data_root st) /\
    (forall c x, alookup cellid_eqb c (si_cells si) = Some x ->
       cm_id x <> nil_id -> c <> hc -> c <> rc -> exists s, object_space st c = Some s) /\
    (forall c s, object_space st c = Some s -> exists x,
       alookup cellid_eqb c (si_cells si) = Some x /\ cm_id x <> nil_id /\ c <> hc /\ c <> rc /\
       space_parse h fuel x si (pg_package pg) [] = Ok (c, s)).
Proof.
  exact (fun bs pg rest h fuel st P S =>
           sc_all _ _ _ _ (parse_store_contents h fuel pg st (packaging_parse_ok bs pg rest P) S)).
Qed.
Print Assumptions C44_store_contents.

(** [C15_example] shows a store with one such space besides the data root. *)
Example C44_example : exists st s, parse_store order_id 3 pg_two = Ok st /\
  object_space st (xid 3, xid 4) = Some s /\ object_space st root_cell = None /\
  object_space st header_cell = None.
Proof.
  eexists _, _. split; [vm_compute; reflexivity|]. split; [vm_compute; reflexivity|]. split; vm_compute; reflexivity.
Qed.

(** ** C45: a group with missing or surplus data *)
Theorem C45_incomplete_group_contributes_nothing : forall h fuel m si pk c s oid o,
  space_parse h fuel m si pk [] = Ok (c, s) -> get_object s oid = Some o ->
  exists id revs gs g, newest pk si m id /\ chain pk si id revs /\ chain_groups pk revs gs /\
    first_declaring gs oid g /\ length (og_decls g) = length (og_objects g).
Proof. exact space_object_complete. Qed.
Print Assumptions C45_incomplete_group_contributes_nothing.

(** A group of a base revision that declares two entries and carries one is
    accepted without an error, because the newer revision has the object. *)
Definition ex_incomplete : list N := ex_file 77
  [IxCell root_cell (xid 30) (xser 30)]
  [xel 30 (ElCell (xid 31));
   xel 31 (ElRevision (xid 31) (xid 32) [RvGroup (xid 41)]);
   xel 32 (ElRevision (xid 32) nilx [RvGroup (xid 43)]);
   xel 41 (ex_group [ExObject (xid 40) 5 [] [] []]);
   xel 43 (ElGroup [DeclObject (xid 40) 4 0 0 0; DeclObject (xid 40) 1 0 0 0] [DataObject [] [] [1]])].
Theorem C45_mismatch_reported_refuted : exists bs pg k g st,
  packaging_parse bs = Ok (pg, []) /\ In (k, g) (pk_groups (pg_package pg)) /\
  length (og_decls g) <> length (og_objects g) /\
  (exists r rm, In (r, rm) (pk_revisions (pg_package pg)) /\ In k (rm_groups rm)) /\
  parse_store order_id 3 pg = Ok st.
Proof.
  exists ex_incomplete. eexists _, (xid 43), _, _. split; [vm_compute; reflexivity|].
  split; [right; right; left; reflexivity|]. split; [discriminate|].
  split; [eexists (xid 32), _; split; [right; right; left; reflexivity|left; reflexivity]|].
  vm_compute. reflexivity.
Qed.
Print Assumptions C45_mismatch_reported_refuted.
