(** Property theorems for object references (C20, C22, C46). *)
From Verif Require Import Base Codec SpecCodec CodecProofs Package SpecPackage PackageFacts PropSet
  SpecPropSet PropIds Store SpecStore StoreProofs Shapes Props SpecRefs RefsProofs ExampleFile PropertiesPropSet.

(** ** C20
    [object_parse] builds the object [oid] of a group from its data record: the
    list of references and the bytes of its properties, which encode [w]. The
    reference list falls apart into one run per property, in file order, and each
    reference property reads back exactly its own run. *)
Theorem C20_reference_runs : forall oid ctx sid g pk o refs cells d w e t,
  object_parse oid ctx sid g pk = Ok o ->
  find_object oid partition_object_data g = Some (DataObject refs cells d) ->
  d = e ++ t -> l_oset w e ->
  length refs = length (os_objects w) ->
  regular_set own_objects (os_props w) ->
  total (fun p => taken own_objects (snd p)) (os_props w) <= N.of_nat (length refs) ->
  exists runs rest,
    refs = concat runs ++ rest /\
    Forall2 (fun p run => N.of_nat (length run) = taken own_objects (snd p)) (os_props w) runs /\
    forall i raw run,
      nth_error runs i = Some run ->
      (forall n, nth_error (os_props w) i = Some (pid_id raw, SObjectIds n) ->
         prop_objects raw o = Ok (Some run)) /\
      (nth_error (os_props w) i = Some (pid_id raw, SObjectId) ->
         exists x, run = [x] /\ prop_object raw o = Ok (Some x)).
Proof. exact object_runs. Qed.
Print Assumptions C20_reference_runs.

(** An example object: its properties, compact ids and references. *)
Definition no_package : package := package_empty.
Definition rec_group (refs : list exguid) (cells : list cellid) (w : oset) : group_data :=
  [((xid 1, 4), DataObject [] [] (le_bytes 4 0x60001)); ((xid 1, 1), DataObject refs cells (w_oset w))].
Definition ex_refs_oset : oset :=
  OSet [CompactId 1 0; CompactId 1 1; CompactId 1 0; CompactId 1 2; CompactId 1 0] None
    [(3, SObjectId); (9, SValues 0x24000001 [[(1, SObjectIds 1); (2, SBool true)]; [(1, SObjectIds 0)]]);
     (4, SObjectIds 2); (5, SObjectIds 1)].
Definition ex_refs : list exguid := [xid 10; xid 11; xid 12; xid 13; xid 14].

Ltac nodup := repeat constructor; cbn; intuition discriminate.

Example C20_example : exists o,
  object_parse (xid 1) (xid 2) (xid 3) (rec_group ex_refs [] ex_refs_oset) no_package = Ok o /\
  l_oset ex_refs_oset (w_oset ex_refs_oset) /\
  length ex_refs = length (os_objects ex_refs_oset) /\
  regular_set own_objects (os_props ex_refs_oset) /\
  total (fun p => taken own_objects (snd p)) (os_props ex_refs_oset) <= N.of_nat (length ex_refs) /\
  prop_object 0x20000003 o = Ok (Some (xid 10)) /\
  prop_objects 0x24000004 o = Ok (Some [xid 12; xid 13]) /\
  prop_objects 0x24000005 o = Ok (Some [xid 14]).
Proof.
  eexists. split; [vm_compute; reflexivity|]. split.
  { unfold ex_refs_oset. exists false, false, false, false. cbn [os_spaces os_objects os_props].
    unfold w_oset. cbn [os_spaces os_objects os_props].
    unfold l_ids, l_set, l_props. enc_ps. }
  split; [reflexivity|]. split.
  { split; [nodup|]. cbn. repeat split; nodup. }
  split; [vm_compute; discriminate|]. vm_compute. repeat split.
Qed.

(** With a property id that occurs twice, a later property reads someone else's
    identifiers. *)
Theorem C20_repeated_id_refuted : exists g o refs w raw i n run,
  object_parse (xid 1) (xid 2) (xid 3) g no_package = Ok o /\
  find_object (xid 1) partition_object_data g = Some (DataObject refs [] (w_oset w)) /\
  length refs = length (os_objects w) /\
  all (fun p => regular own_objects (snd p)) (os_props w) /\
  total (fun p => taken own_objects (snd p)) (os_props w) = N.of_nat (length refs) /\
  nth_error (os_props w) i = Some (pid_id raw, SObjectIds n) /\
  prop_objects raw o = Ok (Some run) /\
  run <> firstn (N.to_nat n)
           (skipn (N.to_nat (total (fun p => taken own_objects (snd p)) (firstn i (os_props w)))) refs).
Proof.
  set (w := OSet [CompactId 1 0; CompactId 1 1] None [(5, SObjectIds 1); (5, SU8 0); (6, SObjectIds 1)]).
  exists (rec_group [xid 10; xid 11] [] w). eexists. exists [xid 10; xid 11], w, 0x24000006, 2%nat, 1. eexists.
  split; [vm_compute; reflexivity|]. split; [reflexivity|]. split; [reflexivity|].
  split; [cbn; tauto|]. split; [reflexivity|]. split; [reflexivity|]. split; [vm_compute; reflexivity|].
  vm_compute. discriminate.
Qed.
Print Assumptions C20_repeated_id_refuted.

(** And likewise after a directly nested set that holds a reference. *)
Theorem C20_nested_set_refuted : exists g o refs w raw i n run,
  object_parse (xid 1) (xid 2) (xid 3) g no_package = Ok o /\
  find_object (xid 1) partition_object_data g = Some (DataObject refs [] (w_oset w)) /\
  length refs = length (os_objects w) /\
  NoDup (map fst (os_props w)) /\
  total (fun p => taken own_objects (snd p)) (os_props w) = N.of_nat (length refs) /\
  nth_error (os_props w) i = Some (pid_id raw, SObjectIds n) /\
  prop_objects raw o = Ok (Some run) /\
  run <> firstn (N.to_nat n)
           (skipn (N.to_nat (total (fun p => taken own_objects (snd p)) (firstn i (os_props w)))) refs).
Proof.
  set (w := OSet [CompactId 1 0; CompactId 1 1] None [(5, SSet [(1, SObjectId)]); (6, SObjectIds 1)]).
  exists (rec_group [xid 10; xid 11] [] w). eexists. exists [xid 10; xid 11], w, 0x24000006, 1%nat, 1. eexists.
  split; [vm_compute; reflexivity|]. split; [reflexivity|]. split; [reflexivity|].
  split; [nodup|]. split; [reflexivity|]. split; [reflexivity|]. split; [vm_compute; reflexivity|].
  vm_compute. discriminate.
Qed.
Print Assumptions C20_nested_set_refuted.

(** ** C22: what a reference list gives for any table: a run of the identifier
    stream, in order, without those that do not resolve. *)
Theorem C22_resolvable_in_order : forall raw o out,
  prop_objects raw o = Ok (Some out) ->
  exists n pre ids post,
    oprops_get raw (ob_props o) = Some (VObjectIds n) /\
    op_object_ids (ob_props o) = pre ++ ids ++ post /\
    (length ids = N.to_nat n \/ (length ids < N.to_nat n)%nat /\ post = []) /\
    picks (mapping_get_object (ob_mapping o)) (N.of_nat (length pre)) ids out.
Proof. exact objects_picked. Qed.
Print Assumptions C22_resolvable_in_order.

(** Three identifiers, two references: the object is accepted and the list it
    stores with three entries is reported with two, without an error. *)
Theorem C22_missing_reference_reported_refuted : exists g o refs w raw out,
  object_parse (xid 1) (xid 2) (xid 3) g no_package = Ok o /\
  find_object (xid 1) partition_object_data g = Some (DataObject refs [] (w_oset w)) /\
  os_props w = [(pid_id raw, SObjectIds 3)] /\ length (os_objects w) = 3%nat /\
  prop_objects raw o = Ok (Some out) /\ out = [xid 10; xid 11].
Proof.
  set (w := OSet [CompactId 1 0; CompactId 1 1; CompactId 1 2] None [(5, SObjectIds 3)]).
  exists (rec_group [xid 10; xid 11] [] w). eexists. exists [xid 10; xid 11], w, 0x24000005. eexists.
  split; [vm_compute; reflexivity|]. split; [reflexivity|]. split; [reflexivity|].
  split; [reflexivity|]. split; [vm_compute; reflexivity|]. vm_compute. reflexivity.
Qed.
Print Assumptions C22_missing_reference_reported_refuted.

(** ** C46: references to object spaces.
    [spaces] are the cells the object names outside its own space. *)
Theorem C46_space_runs : forall oid ctx sid g pk o refs cells d w e t ids,
  object_parse oid ctx sid g pk = Ok o ->
  find_object oid partition_object_data g = Some (DataObject refs cells d) ->
  d = e ++ t -> l_oset w e ->
  ids = match os_spaces w with Some (sp, _) => sp | None => [] end ->
  let spaces := filter (fun c => negb (exguid_eqb (snd c) sid)) cells in
  length spaces = length ids -> NoDup ids ->
  regular_set own_spaces (os_props w) ->
  total (fun p => taken own_spaces (snd p)) (os_props w) <= N.of_nat (length ids) ->
  exists runs rest,
    spaces = concat runs ++ rest /\
    Forall2 (fun p run => N.of_nat (length run) = taken own_spaces (snd p)) (os_props w) runs /\
    forall i raw run n,
      nth_error runs i = Some run ->
      nth_error (os_props w) i = Some (pid_id raw, SSpaceIds n) ->
      prop_spaces raw o = Ok (Some run).
Proof. exact space_runs. Qed.
Print Assumptions C46_space_runs.

Definition ex_space_oset (c : compactid) : oset :=
  OSet [] (Some ([CompactId 2 0; c], None)) [(7, SSpaceIds 1); (8, SSpaceIds 1)].
Definition ex_cells : list cellid := [(xid 20, xid 21); (xid 22, xid 23)].

Example C46_example :
  let w := ex_space_oset (CompactId 2 1) in exists o,
  object_parse (xid 1) (xid 2) (xid 3) (rec_group [] ex_cells w) no_package = Ok o /\
  l_oset w (w_oset w) /\
  filter (fun c => negb (exguid_eqb (snd c) (xid 3))) ex_cells = ex_cells /\
  NoDup [CompactId 2 0; CompactId 2 1] /\ regular_set own_spaces (os_props w) /\
  prop_spaces 0x2C000007 o = Ok (Some [(xid 20, xid 21)]) /\
  prop_spaces 0x2C000008 o = Ok (Some [(xid 22, xid 23)]).
Proof.
  intro w. eexists. split; [vm_compute; reflexivity|]. split.
  { unfold w, ex_space_oset. exists false, false, false, false. cbn [os_spaces os_objects os_props].
    unfold w_oset. cbn [os_spaces os_objects os_props]. rewrite <- app_assoc.
    unfold l_ids, l_set, l_props. enc_ps. }
  split; [vm_compute; reflexivity|]. split; [nodup|]. split.
  { split; [nodup|]. cbn. tauto. }
  vm_compute. split; reflexivity.
Qed.

(** If the two properties use the same compact id for different spaces, the
    second reads the space of the first. *)
Theorem C46_repeated_compact_id_refuted : exists g o cells w raw i run,
  object_parse (xid 1) (xid 2) (xid 3) g no_package = Ok o /\
  find_object (xid 1) partition_object_data g = Some (DataObject [] cells (w_oset w)) /\
  filter (fun c => negb (exguid_eqb (snd c) (xid 3))) cells = cells /\
  regular_set own_spaces (os_props w) /\
  total (fun p => taken own_spaces (snd p)) (os_props w) = N.of_nat (length cells) /\
  nth_error (os_props w) i = Some (pid_id raw, SSpaceIds 1) /\
  prop_spaces raw o = Ok (Some run) /\
  i = 1%nat /\ run = firstn 1 cells /\ run <> firstn 1 (skipn 1 cells).
Proof.
  exists (rec_group [] ex_cells (ex_space_oset (CompactId 2 0))). eexists.
  exists ex_cells, (ex_space_oset (CompactId 2 0)), 0x2C000008, 1%nat. eexists.
  split; [vm_compute; reflexivity|]. split; [reflexivity|]. split; [reflexivity|].
  split. { split; [nodup|]. cbn. tauto. }
  split; [reflexivity|]. split; [reflexivity|]. split; [vm_compute; reflexivity|].
  split; [reflexivity|]. split; [reflexivity|]. vm_compute. discriminate.
Qed.
Print Assumptions C46_repeated_compact_id_refuted.
