(** Independent description of why a file that can be taken apart does not open as a
    store: which table, revision, group or object stands in the way. Uses the data types
    of [Package.v], [PropSet.v] and [Store.v], table lookup, the relations of
    [SpecStore.v] and the property set reader (specified by C19). Nothing here has
    fuel. *)
From Verif Require Import Base Codec Package PropSet Store SpecStore.

(** The first element that satisfies the condition. *)
Definition first_of {A} (P : A -> Prop) (l : list A) (x : A) : Prop :=
  exists pre suf, l = pre ++ x :: suf /\ P x /\ forall y, In y pre -> ~ P y.

(** What can be wrong with the object [oid] of a group. *)
Inductive object_fault (pk : package) (g : object_group) (oid : exguid) : ekind -> Prop :=
| of_incomplete : length (og_decls g) <> length (og_objects g) -> object_fault pk g oid MalformedOneStoreData
(** No metadata entry, or one that is no object data; no object data. *)
| of_no_entry p : In p [4; 1] -> (forall refs cells d, ~ group_entry g oid p (DataObject refs cells d)) ->
    object_fault pk g oid MalformedOneStoreData
(** The kind number is cut off. *)
| of_kind refs cells d : group_entry g oid 4 (DataObject refs cells d) -> (length d < 4)%nat ->
    object_fault pk g oid UnexpectedEof
(** The property set cannot be read. *)
| of_set refs cells d e : group_entry g oid 1 (DataObject refs cells d) -> run oprops_parse d = Err e ->
    object_fault pk g oid e
(** More object references than identifiers, or another number of cells than
    identifiers. *)
| of_references refs cells d ps : group_entry g oid 1 (DataObject refs cells d) -> run oprops_parse d = Ok ps ->
    (length (op_object_ids ps) < length refs)%nat -> object_fault pk g oid MalformedOneStoreData
| of_cells refs cells d ps : group_entry g oid 1 (DataObject refs cells d) -> run oprops_parse d = Ok ps ->
    (length cells <> length (op_context_ids ps) + length (op_space_ids ps))%nat ->
    object_fault pk g oid MalformedOneStoreData
(** A file entry that does not refer to a file, or to one that is missing. *)
| of_file od : group_entry g oid 2 od -> (forall os cs b, od <> DataBlobRef os cs b) ->
    object_fault pk g oid MalformedOneStoreData
| of_blob os cs b : group_entry g oid 2 (DataBlobRef os cs b) -> (forall d, ~ blob_at pk b d) ->
    object_fault pk g oid MalformedOneStoreData.

(** What can be wrong with the properties of the header of the file. *)
Inductive header_set_fault (ps : oprops) : ekind -> Prop :=
| hs_guid p : In p [0x1C001D94; 0x1C001D95] -> (forall d, oprops_get p ps <> Some (VVec d)) ->
    header_set_fault ps MalformedOneStoreData
| hs_short p d : In p [0x1C001D94; 0x1C001D95] -> oprops_get p ps = Some (VVec d) -> (length d < 16)%nat ->
    header_set_fault ps UnexpectedEof
| hs_crc : (forall n, oprops_get 0x14001D93 ps <> Some (VU32 n)) -> header_set_fault ps MalformedOneStoreData
| hs_version v : oprops_get 0x14001D99 ps = Some v -> (forall n, v <> VU32 n) ->
    header_set_fault ps MalformedOneStoreData.
(** What can be wrong with the group the header is in: its first entry of object data. *)
Inductive header_group_fault (g : object_group) : ekind -> Prop :=
| hg_entry : (forall d refs cells bs, ~ first_of (fun p => decl_partition (fst p) = 1)
      (combine (og_decls g) (og_objects g)) (d, DataObject refs cells bs)) ->
    header_group_fault g MalformedOneStoreData
| hg_set d refs cells bs e : first_of (fun p => decl_partition (fst p) = 1)
      (combine (og_decls g) (og_objects g)) (d, DataObject refs cells bs) -> run oprops_parse bs = Err e ->
    header_group_fault g e
| hg_content d refs cells bs ps e : first_of (fun p => decl_partition (fst p) = 1)
      (combine (og_decls g) (og_objects g)) (d, DataObject refs cells bs) -> run oprops_parse bs = Ok ps ->
    header_set_fault ps e -> header_group_fault g e.

Section Open.
  Variables (h : order) (pg : packaging).
  Notation pk := (pg_package pg).

  (** The index the header of the file names, or else the first there is. *)
  Definition chosen_index (si : storage_index) : Prop :=
    alookup exguid_eqb (pg_storage_index pg) (pk_indexes pk) = Some si \/
    (alookup exguid_eqb (pg_storage_index pg) (pk_indexes pk) = None /\
     exists l, o_indexes h (map snd (pk_indexes pk)) = si :: l).
  Definition chosen_manifest (sm : storage_manifest) : Prop :=
    exists l, o_manifests h (map snd (pk_manifests pk)) = sm :: l.

  (** The revision a cell starts from. *)
  Definition serial_start (si : storage_index) (s : serial) (id : exguid) : Prop :=
    exists r, first_of (fun r => rv_serial r = s) (o_revs h (map snd (si_revs si))) r /\ rv_mapping r = id.
  Definition start_at (si : storage_index) (m : cell_mapping) (id : exguid) : Prop :=
    by_manifest pk si m id \/
    ((forall i, ~ by_manifest pk si m i) /\ by_mapping pk si m id) \/
    ((forall i, ~ by_manifest pk si m i) /\ (forall i, ~ by_mapping pk si m i) /\ serial_start si (cm_serial m) id).
  (** For the cell of the header any mapping with its number gives the serial number. *)
  Definition header_start (si : storage_index) (m : cell_mapping) (id : exguid) : Prop :=
    by_manifest pk si m id \/
    ((forall i, ~ by_manifest pk si m i) /\ by_mapping pk si m id) \/
    ((forall i, ~ by_manifest pk si m i) /\ (forall i, ~ by_mapping pk si m i) /\
     exists m', first_of (fun x => cm_id x = cm_id m) (o_cells h (map snd (si_cells si))) m' /\
       serial_start si (cm_serial m') id).

  (** From the revision [id], through the given revisions, one comes to [j]. *)
  Inductive trail (si : storage_index) : exguid -> list revision_manifest -> exguid -> Prop :=
  | tl_here id : trail si id [] id
  | tl_on id rm id' l j : revision_at pk id rm -> rm_base_rev_id rm <> nil_id ->
      names_revision pk si (rm_base_rev_id rm) id' -> trail si id' l j -> trail si id (rm :: l) j.

  (** What can be wrong with the cell of the mapping [m]. *)
  Inductive space_fault (si : storage_index) (m : cell_mapping) : ekind -> Prop :=
  | sf_start : (forall id, ~ start_at si m id) -> alookup exguid_eqb (cm_id m) (pk_cells pk) <> Some nil_id ->
      space_fault si m MalformedOneStoreData
  | sf_revision id l j : start_at si m id -> trail si id l j -> (forall rm, ~ revision_at pk j rm) ->
      space_fault si m MalformedOneStoreData
  | sf_base id l j rm : start_at si m id -> trail si id l j -> revision_at pk j rm ->
      rm_base_rev_id rm <> nil_id -> (forall i, ~ names_revision pk si (rm_base_rev_id rm) i) ->
      space_fault si m MalformedOneStoreData
  | sf_root id l j rm d : start_at si m id -> trail si id l j -> revision_at pk j rm ->
      In d (rm_roots rm) -> (forall r, fst d <> role_id r) -> space_fault si m MalformedOneStoreData
  | sf_group id l j rm gid : start_at si m id -> trail si id l j -> revision_at pk j rm ->
      In gid (rm_groups rm) -> (forall g, ~ group_at pk gid g) -> space_fault si m MalformedOneStoreData
  (** Objects that a newer revision, or an earlier group of this one, has already given
      are not looked at. *)
  | sf_object id l j rm before gid after gs g oid e : start_at si m id -> trail si id l j -> revision_at pk j rm ->
      rm_groups rm = before ++ gid :: after -> Forall2 (group_at pk) (flat_map rm_groups l ++ before) gs ->
      group_at pk gid g -> declares g oid -> (forall g', In g' gs -> ~ declares g' oid) ->
      object_fault pk g oid e -> space_fault si m e.
  (** What can be wrong with the cell of the header. *)
  Inductive header_fault (si : storage_index) (m : cell_mapping) : ekind -> Prop :=
  | hf_start : (forall id, ~ header_start si m id) -> header_fault si m MalformedFssHttpBData
  | hf_revision id : header_start si m id -> (forall rm, ~ revision_at pk id rm) ->
      header_fault si m MalformedFssHttpBData
  | hf_group id rm gid : header_start si m id -> revision_at pk id rm -> In gid (rm_groups rm) ->
      (forall g, ~ group_at pk gid g) -> header_fault si m MalformedFssHttpBData
  | hf_none id rm : header_start si m id -> revision_at pk id rm -> rm_groups rm = [] ->
      header_fault si m MalformedOneStoreData
  | hf_content id rm gid l g e : header_start si m id -> revision_at pk id rm -> rm_groups rm = gid :: l ->
      group_at pk gid g -> header_group_fault g e -> header_fault si m e.

  Definition header_root : exguid := ExGuid 0x1A5A319CC26B41AAB9C59BD8C44E07D4 1.
  Definition content_cell_root : exguid := ExGuid 0x84DEFAB9AAA34A0DA3A8520C77AC7073 2.
  (** The cells that are read: the one of the content, and all others but the one of the
      header and those without a number. *)
  Definition cell_read (si : storage_index) (m : cell_mapping) : Prop :=
    exists sm c, chosen_manifest sm /\ alookup cellid_eqb c (si_cells si) = Some m /\
      (alookup exguid_eqb content_cell_root (sm_roots sm) = Some c \/
       (cm_id m <> nil_id /\ alookup exguid_eqb header_root (sm_roots sm) <> Some c)).

  (** What stands in the way of opening the file. *)
  Inductive store_fault : ekind -> Prop :=
  | st_index : (forall si, ~ chosen_index si) -> store_fault MalformedOneStoreData
  | st_manifest : (forall sm, ~ chosen_manifest sm) -> store_fault MalformedOneStoreData
  | st_cell sm r : chosen_manifest sm -> In r [header_root; content_cell_root] ->
      alookup exguid_eqb r (sm_roots sm) = None -> store_fault MalformedOneStoreData
  | st_mapping si sm r c : chosen_index si -> chosen_manifest sm -> In r [header_root; content_cell_root] ->
      alookup exguid_eqb r (sm_roots sm) = Some c -> alookup cellid_eqb c (si_cells si) = None ->
      store_fault MalformedOneStoreData
  | st_header si sm c m e : chosen_index si -> chosen_manifest sm ->
      alookup exguid_eqb header_root (sm_roots sm) = Some c -> alookup cellid_eqb c (si_cells si) = Some m ->
      header_fault si m e -> store_fault e
  | st_space si m e : chosen_index si -> cell_read si m -> space_fault si m e -> store_fault e.

  (** A cell that is read leads round in circles. *)
  Definition endless : Prop :=
    exists si m id, chosen_index si /\ cell_read si m /\ start_at si m id /\ reaches_cycle pk si id.
End Open.
(** Why bytes do not open: they cannot be taken apart (C81), or something stands in the
    way. *)
Definition opening_fault (h : order) (data : list N) (e : ekind) : Prop :=
  packaging_parse data = Err e \/ exists pg rest, packaging_parse data = Ok (pg, rest) /\ store_fault h pg e.
