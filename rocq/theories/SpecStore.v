(** What an object space built from a package has to contain, stated on the
    package's tables alone. Uses only the data types of [Package.v], [PropSet.v]
    and [Store.v] and table lookup; none of the functions of [Store.v] except the
    property-set reader (specified by C19) through [run]. *)
From Coq Require Import Relations Permutation.
From Verif Require Import Base Codec Package PropSet Store.

(** Table lookups. *)
Definition revision_at (pk : package) (id : exguid) (rm : revision_manifest) : Prop :=
  alookup exguid_eqb id (pk_revisions pk) = Some rm.
Definition group_at (pk : package) (id : exguid) (g : object_group) : Prop :=
  alookup exguid_eqb id (pk_groups pk) = Some g.
Definition blob_at (pk : package) (id : exguid) (d : list N) : Prop :=
  alookup exguid_eqb id (pk_blobs pk) = Some d.

Definition nil_id : exguid := ExGuid 0 0.

(** The revision an identifier stands for: the one the index maps it to, or,
    if the index does not map it, the revision manifest with that very id. *)
Definition names_revision (pk : package) (si : storage_index) (id rid : exguid) : Prop :=
  (exists m, alookup exguid_eqb id (si_revs si) = Some m /\ rv_mapping m = rid) \/
  (alookup exguid_eqb id (si_revs si) = None /\ rid = id /\ exists rm, revision_at pk id rm).

(** Revision [id] is based on revision [id']. *)
Definition based_on (pk : package) (si : storage_index) (id id' : exguid) : Prop :=
  exists rm, revision_at pk id rm /\ rm_base_rev_id rm <> nil_id /\
             names_revision pk si (rm_base_rev_id rm) id'.

(** The revisions from [id] back to one that has no base. *)
Inductive chain (pk : package) (si : storage_index) : exguid -> list revision_manifest -> Prop :=
| chain_base id rm :
    revision_at pk id rm -> rm_base_rev_id rm = nil_id -> chain pk si id [rm]
| chain_more id rm id' l :
    revision_at pk id rm -> rm_base_rev_id rm <> nil_id ->
    names_revision pk si (rm_base_rev_id rm) id' -> chain pk si id' l ->
    chain pk si id (rm :: l).

(** The revision a cell starts from. *)
Definition by_manifest (pk : package) (si : storage_index) (m : cell_mapping) (id : exguid) : Prop :=
  exists r, alookup exguid_eqb (cm_id m) (pk_cells pk) = Some r /\ names_revision pk si r id.
Definition by_mapping (pk : package) (si : storage_index) (m : cell_mapping) (id : exguid) : Prop :=
  names_revision pk si (cm_id m) id.
Definition by_serial (si : storage_index) (m : cell_mapping) (id : exguid) : Prop :=
  exists k r, In (k, r) (si_revs si) /\ rv_serial r = cm_serial m /\ rv_mapping r = id.
Definition newest (pk : package) (si : storage_index) (m : cell_mapping) (id : exguid) : Prop :=
  by_manifest pk si m id \/
  ((forall i, ~ by_manifest pk si m i) /\ by_mapping pk si m id) \/
  ((forall i, ~ by_manifest pk si m i) /\ (forall i, ~ by_mapping pk si m i) /\ by_serial si m id).

(** The groups of a chain, newest revision first, in the order each lists them. *)
Definition chain_groups (pk : package) (revs : list revision_manifest) (gs : list object_group)
  : Prop := Forall2 (group_at pk) (flat_map rm_groups revs) gs.

Definition declares (g : object_group) (oid : exguid) : Prop :=
  exists d, In d (og_decls g) /\ decl_object_id d = oid.
Definition first_declaring (gs : list object_group) (oid : exguid) (g : object_group) : Prop :=
  exists pre suf, gs = pre ++ g :: suf /\ declares g oid /\ (forall g', In g' pre -> ~ declares g' oid).

(** The last entry of a group for an object and partition number. *)
Definition group_entry (g : object_group) (oid : exguid) (partition : N) (od : odata) : Prop :=
  exists pre d suf,
    combine (og_decls g) (og_objects g) = pre ++ (d, od) :: suf /\
    decl_object_id d = oid /\ decl_partition d = partition /\
    forall d' od', In (d', od') suf -> ~ (decl_object_id d' = oid /\ decl_partition d' = partition).

(** The references an object's compact ids are matched with, in order: object
    references, then for the context ids the contexts of the cells in the same
    space. Surplus ids or references at the end have no partner. *)
Definition own_table (ps : oprops) (refs : list exguid) (cells : list cellid) (space_id : exguid)
  : list (compactid * exguid) :=
  combine (op_object_ids ps) refs ++
  combine (op_context_ids ps) (map fst (filter (fun c => exguid_eqb (snd c) space_id) cells)).
Definition space_table (ps : oprops) (cells : list cellid) (space_id : exguid)
  : list (compactid * cellid) :=
  combine (op_space_ids ps) (filter (fun c => negb (exguid_eqb (snd c) space_id)) cells).

(** How a table resolves a compact id for position [i]. *)
Definition count_id {T} (cid : compactid) (l : list (compactid * T)) : nat :=
  length (filter (fun e => compactid_eqb cid (fst e)) l).
Definition resolves {T} (l : list (compactid * T)) (i : N) (cid : compactid) (r : option T) : Prop :=
  match count_id cid l with
  | O => r = None
  | S O => exists p x, nth_error l p = Some (cid, x) /\ r = Some x
  | _ => match nth_error l (N.to_nat i) with
         | Some (c, x) => r = if compactid_eqb cid c then Some x else None
         | None => r = None
         end
  end.

(** The object a group gives for an identifier. *)
Record object_of (pk : package) (ctx space_id : exguid) (g : object_group) (oid : exguid)
       (o : object) : Prop := ObjectOf {
  oo_complete : length (og_decls g) = length (og_objects g);
  oo_context : ob_context o = ctx;
  oo_kind : exists gr ce md, group_entry g oid 4 (DataObject gr ce md) /\ run jcid_parse md = Ok (ob_jcid o);
  oo_data : exists refs cells d,
    group_entry g oid 1 (DataObject refs cells d) /\
    run oprops_parse d = Ok (ob_props o) /\
    (length refs <= length (op_object_ids (ob_props o)))%nat /\
    (length cells = length (op_context_ids (ob_props o)) + length (op_space_ids (ob_props o)))%nat /\
    (forall i cid, resolves (own_table (ob_props o) refs cells space_id) i cid
                     (mapping_get_object (ob_mapping o) i cid)) /\
    (forall i cid, resolves (space_table (ob_props o) cells space_id) i cid
                     (mapping_get_space (ob_mapping o) i cid));
  oo_file : (ob_file o = None /\ forall od, ~ group_entry g oid 2 od) \/
            (exists os cs b d, group_entry g oid 2 (DataBlobRef os cs b) /\ blob_at pk b d /\
                               ob_file o = Some d) }.

(** Root declarations. *)
Definition role_id (r : role) : exguid :=
  ExGuid 0x4A3717F81C1449E7952681D942DE1741
    (match r with DefaultContent => 1 | MetadataRole => 2 | EncryptionKey => 3
                | VersionMetadata => 4 end).
(** The last declaration for a role. *)
Definition last_root (decls : list (exguid * exguid)) (r : role) (oid : exguid) : Prop :=
  exists pre suf, decls = pre ++ (role_id r, oid) :: suf /\
                  (forall x, In x suf -> fst x <> role_id r).
(** The first, that is, for a chain, the one of the newest declaring revision. *)
Definition first_root (decls : list (exguid * exguid)) (r : role) (oid : exguid) : Prop :=
  exists pre suf, decls = pre ++ (role_id r, oid) :: suf /\
                  (forall x, In x pre -> fst x <> role_id r).

(** No revision is, through any number of steps, based on itself. *)
Definition acyclic (pk : package) (si : storage_index) : Prop :=
  forall id, ~ clos_trans _ (based_on pk si) id id.
(** [id] leads into a cycle. *)
Definition reaches_cycle (pk : package) (si : storage_index) (id : exguid) : Prop :=
  exists x, clos_refl_trans _ (based_on pk si) id x /\ clos_trans _ (based_on pk si) x x.

(** Tables as the package reader builds them: unique keys, and each cell mapping
    is filed under its own cell. *)
Definition cells_ok (si : storage_index) : Prop :=
  NoDup (map fst (si_cells si)) /\ forall c m, In (c, m) (si_cells si) -> cm_cell m = c.

(** The storage index in use is determined. *)
Definition index_determined (pg : packaging) : Prop :=
  (exists si, alookup exguid_eqb (pg_storage_index pg) (pk_indexes (pg_package pg)) = Some si) \/
  (length (pk_indexes (pg_package pg)) <= 1)%nat.
(** No serial number is used for two different revisions, no cell manifest id
    with two different serial numbers. *)
Definition serials_unique (si : storage_index) : Prop :=
  (forall k1 m1 k2 m2, In (k1, m1) (si_revs si) -> In (k2, m2) (si_revs si) ->
     rv_serial m1 = rv_serial m2 -> rv_mapping m1 = rv_mapping m2) /\
  (forall k1 m1 k2 m2, In (k1, m1) (si_cells si) -> In (k2, m2) (si_cells si) ->
     cm_id m1 = cm_id m2 -> cm_serial m1 = cm_serial m2).

(** Two stores no caller can tell apart. *)
Definition same_store (a b : store) : Prop :=
  st_schema a = st_schema b /\ st_header a = st_header b /\ st_data_root a = st_data_root b /\
  forall id, alookup cellid_eqb id (st_spaces a) = alookup cellid_eqb id (st_spaces b).
