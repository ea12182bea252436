(** Property theorems: which files open as a store, and why others do not (C84). *)
From Coq Require Import Lia Relations.
From Verif Require Import Base Codec Package PropSet PropIds Store Doc Notebook SpecStore SpecNotebook SpecDoc SpecCause SpecOpen
  NodesProofs StoreProofs3 DocProofs6 NotebookProofs CauseProofs3 CauseProofs4 OpenProofs OpenProofs2
  SpecPackage SpecPropSet ExampleFile PropertiesStore ExampleSection PropertiesDoc PropertiesCause.

(** ** C84 *)
(** A file opens exactly when it can be taken apart (C66, C76), nothing that stands in
    the way (SpecOpen.v) is in it, and no cell leads round in circles. *)
Theorem C84_opens : forall h data, (exists st, opens h data st) <->
  exists pg rest, packaging_parse data = Ok (pg, rest) /\ (forall e, ~ store_fault h pg e) /\ ~ endless h pg.
Proof. exact opens_iff. Qed.
Print Assumptions C84_opens.
(** The error of a file that does not open is that of taking it apart, or that of
    something which stands in the way. *)
Theorem C84_cause : forall h fuel data e, open_store h fuel data = Err e ->
  packaging_parse data = Err e \/ exists pg rest, packaging_parse data = Ok (pg, rest) /\ store_fault h pg e.
Proof. exact opening_cause. Qed.
Print Assumptions C84_cause.
(** If all that stands in the way is of one kind, that is the error, given enough steps. *)
Theorem C84_only : forall h data pg rest e, packaging_parse data = Ok (pg, rest) ->
  store_fault h pg e -> (forall e', store_fault h pg e' -> e' = e) -> ~ endless h pg ->
  forall fuel, (length (pk_revisions (pg_package pg)) < fuel)%nat -> open_store h fuel data = Err e.
Proof. exact opening_only. Qed.
Print Assumptions C84_only.
(** Where a cell leads round in circles there is an error or no result at all. *)
Theorem C84_endless : forall h data pg rest, packaging_parse data = Ok (pg, rest) -> endless h pg ->
  forall fuel, (exists e, open_store h fuel data = Err e /\ store_fault h pg e) \/ open_store h fuel data = OutOfFuel.
Proof. exact opening_endless. Qed.
Print Assumptions C84_endless.
(** The error of a section file, from the bytes to the last object. *)
Theorem C84_section : forall h fuel data file e, parse_section_buffer h fuel data file = Err e ->
  packaging_parse data = Err e \/
  exists pg rest, packaging_parse data = Ok (pg, rest) /\
    (store_fault h pg e \/
     exists st, opens h data st /\
       ((st_schema st <> 0x1F937CB4B26F445FB9F817E20160E461 /\ e = NotASectionFile) \/
        (st_schema st = 0x1F937CB4B26F445FB9F817E20160E461 /\ fault st e))).
Proof. exact section_cause. Qed.
Print Assumptions C84_section.

(** Files without the content's cell; without the header's group; with a header whose GUID
    is cut off; with an object whose kind is cut off; with an object that has more
    references than identifiers; and one that opens. *)
Definition file_of (els : list elem) : list N := w_file 0xE4525C7B8CD8A7AEB15378D02996D3 (xid 10) els.
Definition tables (items : list index_item) : list elem :=
  [ xel 10 (ElIndex (IxCell header_cell (xid 20) (xser 20) :: items));
    xel 11 (ElManifest 5
      [(ExGuid 0x1A5A319CC26B41AAB9C59BD8C44E07D4 1, header_cell);
       (ExGuid 0x84DEFAB9AAA34A0DA3A8520C77AC7073 2, root_cell)]);
    xel 20 (ElCell (xid 21));
    xel 21 (ElRevision (xid 21) (ExGuid 0 0) [RvGroup (xid 22)]) ].
Definition root_map : index_item := IxCell root_cell (xid 30) (xser 30).
Definition root_with (base : exguid) (g : element) : list elem :=
  [ xel 30 (ElCell (xid 31)); xel 31 (ElRevision (xid 31) base [RvGroup (xid 32)]); xel 32 g ].
Definition head : elem := xel 22 (ex_group [ex_header]).
Definition no_cell := file_of (tables [] ++ [head]).
Definition no_header := file_of (tables [root_map] ++ root_with (ExGuid 0 0) (ex_group [])).
Definition short_header := file_of (tables [root_map] ++
  xel 22 (ex_group [ExObject (xid 900) 0x20001 [(0x1D94, SVec [1; 2])] [] []]) :: root_with (ExGuid 0 0) (ex_group [])).
Definition short_kind := file_of (tables [root_map] ++ head :: root_with (ExGuid 0 0)
  (ElGroup [DeclObject (xid 40) 4 0 0 0; DeclObject (xid 40) 1 0 0 0]
           [DataObject [] [] [1; 2; 3]; DataObject [] [] (w_object ex_header)])).
Definition loose_reference := file_of (tables [root_map] ++ head :: root_with (ExGuid 0 0)
  (ElGroup [DeclObject (xid 40) 4 0 0 0; DeclObject (xid 40) 1 0 0 0]
           [DataObject [] [] [1; 2; 3; 4]; DataObject [xid 41] [] (w_object ex_header)])).
Definition fine := file_of (tables [root_map] ++ head :: root_with (ExGuid 0 0) (ex_group [ex_header])).
Definition circle := file_of (tables [root_map] ++ head :: root_with (xid 31) (ex_group [])).
Local Notation opened data := (open_store order_id 5 data).
Example C84_example :
  opened no_cell = Err MalformedOneStoreData /\ opened no_header = Err MalformedFssHttpBData /\
  opened short_header = Err UnexpectedEof /\ opened short_kind = Err UnexpectedEof /\
  opened loose_reference = Err MalformedOneStoreData /\
  (exists st, opened fine = Ok st) /\ opened circle = OutOfFuel.
Proof. repeat (split; [vm_compute; reflexivity|]). split; [eexists|]; vm_compute; reflexivity. Qed.
(** The first has something in the way, the last two do not; the last leads round in
    circles. *)
Example C84_faults :
  (exists pg rest, packaging_parse no_header = Ok (pg, rest) /\ store_fault order_id pg MalformedFssHttpBData) /\
  (exists pg rest, packaging_parse fine = Ok (pg, rest) /\ (forall e, ~ store_fault order_id pg e) /\ ~ endless order_id pg) /\
  (exists pg rest, packaging_parse circle = Ok (pg, rest) /\ endless order_id pg).
Proof.
  refine (conj _ (conj _ _)).
  - assert (H : opened no_header = Err MalformedFssHttpBData) by (vm_compute; reflexivity).
    destruct (C84_cause _ _ _ _ H) as [K|K]; [|exact K].
    assert (X : match packaging_parse no_header with Ok _ => true | _ => false end = true) by (vm_compute; reflexivity).
    rewrite K in X. discriminate X.
  - apply C84_opens.
    assert (X : match opened fine with Ok _ => true | _ => false end = true) by (vm_compute; reflexivity).
    destruct (opened fine) as [st| | |] eqn:E; try discriminate X. exists st. exists 5%nat. exact E.
  - assert (X : match packaging_parse circle with
                | Ok (pg, rest) =>
                  match alookup exguid_eqb (pg_storage_index pg) (pk_indexes (pg_package pg)),
                        hd_error (o_manifests order_id (map snd (pk_manifests (pg_package pg)))) with
                  | Some si, Some sm =>
                    match alookup exguid_eqb content_cell_root (sm_roots sm) with
                    | Some c =>
                      match alookup cellid_eqb c (si_cells si) with
                      | Some m =>
                        match alookup exguid_eqb (cm_id m) (pk_cells (pg_package pg)) with
                        | Some r =>
                          match alookup exguid_eqb r (pk_revisions (pg_package pg)), alookup exguid_eqb r (si_revs si) with
                          | Some rm, None => exguid_eqb (rm_base_rev_id rm) r && negb (exguid_eqb r nil_id)
                          | _, _ => false
                          end
                        | None => false
                        end
                      | None => false
                      end
                    | None => false
                    end
                  | _, _ => false
                  end
                | _ => false
                end = true) by (vm_compute; reflexivity).
    destruct (packaging_parse circle) as [[pg rest]| | |]; try discriminate X. exists pg, rest. split; [reflexivity|].
    destruct (alookup exguid_eqb (pg_storage_index pg) (pk_indexes (pg_package pg))) as [si|] eqn:Hi; [|discriminate X].
    destruct (o_manifests order_id (map snd (pk_manifests (pg_package pg)))) as [|sm l] eqn:Hm; [discriminate X|].
    cbn [hd_error] in X.
    destruct (alookup exguid_eqb content_cell_root (sm_roots sm)) as [c|] eqn:Hc; [|discriminate X].
    destruct (alookup cellid_eqb c (si_cells si)) as [m|] eqn:Hl; [|discriminate X].
    destruct (alookup exguid_eqb (cm_id m) (pk_cells (pg_package pg))) as [r|] eqn:Hr; [|discriminate X].
    destruct (alookup exguid_eqb r (pk_revisions (pg_package pg))) as [rm|] eqn:Hv; [|discriminate X].
    destruct (alookup exguid_eqb r (si_revs si)) as [x|] eqn:Hs; [discriminate X|].
    apply andb_prop in X as (X1 & X2). apply PackageRT.exguid_eqb_eq in X1.
    assert (N : rm_base_rev_id rm <> nil_id).
    { rewrite X1. intros ->. discriminate X2. }
    assert (W : names_revision (pg_package pg) si r r) by (right; split; [exact Hs|split; [reflexivity|exists rm; exact Hv]]).
    exists si, m, r. split; [left; exact Hi|]. split; [exists sm, c; split; [exists l; exact Hm|auto]|].
    split; [left; exists r; auto|].
    exists r. split; [apply rt_refl|]. apply t_step. exists rm. split; [exact Hv|]. split; [exact N|]. rewrite X1. exact W.
Qed.
(** A file all of whose obstacles are of one kind: there is no table of cells. *)
Example C84_only_example : exists pg rest, packaging_parse (file_of []) = Ok (pg, rest) /\
  store_fault order_id pg MalformedOneStoreData /\ (forall e, store_fault order_id pg e -> e = MalformedOneStoreData) /\
  ~ endless order_id pg.
Proof.
  assert (X : match packaging_parse (file_of []) with
              | Ok (pg, _) => match pk_indexes (pg_package pg), pk_manifests (pg_package pg) with [], [] => true | _, _ => false end
              | _ => false end = true) by (vm_compute; reflexivity).
  destruct (packaging_parse (file_of [])) as [[pg rest]| | |]; try discriminate X. exists pg, rest. split; [reflexivity|].
  assert (I : forall si, ~ chosen_index order_id pg si).
  { intros si [H|(_ & l & H)]; destruct (pk_indexes (pg_package pg)); discriminate H || discriminate X. }
  split; [exact (st_index _ _ I)|]. split.
  - intros e F. destruct F; try reflexivity; match goal with H : chosen_index _ _ _ |- _ => contradiction (I _ H) end.
  - intros (si & m & id & H & _). contradiction (I _ H).
Qed.
