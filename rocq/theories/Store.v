(** The object store built from a package: finders, object mapping, revision
    walk, object spaces. Models /repo/src/onestore/*.rs,
    /repo/src/fsshttpb/data_element/mod.rs:73-164 and
    /repo/src/fsshttpb/data_element/storage_index.rs:35-42. *)
From Coq Require Import Permutation.
From Verif Require Import Base Codec Package PropSet PropIds.

(** Iteration orders of the four [HashMap]s this part iterates over. Each is some
    permutation of the map's values, chosen by the map's hash seed, and is the
    same each time an unchanged map is iterated. The orders are independent of
    each other and may depend on the content. Every run of the program is
    described by one such choice. *)
Record order := Order {
  o_indexes : list storage_index -> list storage_index;
  o_manifests : list storage_manifest -> list storage_manifest;
  o_cells : list cell_mapping -> list cell_mapping;
  o_revs : list rev_mapping -> list rev_mapping;
  o_indexes_perm : forall l, Permutation l (o_indexes l);
  o_manifests_perm : forall l, Permutation l (o_manifests l);
  o_cells_perm : forall l, Permutation l (o_cells l);
  o_revs_perm : forall l, Permutation l (o_revs l) }.

(** [Vec::len] *)
Definition len {A} (l : list A) : N := N.of_nat (length l).

(** ** Finders *)

(** /repo/src/fsshttpb/data_element/storage_index.rs:35-42 *)
Definition find_revision_mapping_by_serial (h : order) (si : storage_index) (s : serial)
  : option exguid :=
  option_map rv_mapping
    (find (fun m => (sn_guid (rv_serial m) =? sn_guid s)
                    && (sn_serial (rv_serial m) =? sn_serial s))
          (o_revs h (map snd (si_revs si)))).

(** /repo/src/fsshttpb/data_element/mod.rs:110-112 *)
Definition find_blob (pk : package) (id : exguid) : option (list N) :=
  alookup exguid_eqb id (pk_blobs pk).

(** /repo/src/fsshttpb/data_element/mod.rs:115-117 *)
Definition find_storage_index (h : order) (pk : package) : option storage_index :=
  hd_error (o_indexes h (map snd (pk_indexes pk))).

(** /repo/src/fsshttpb/data_element/mod.rs:120-122 *)
Definition find_storage_index_by_id (pk : package) (id : exguid) : option storage_index :=
  alookup exguid_eqb id (pk_indexes pk).

(** /repo/src/fsshttpb/data_element/mod.rs:125-127 *)
Definition find_storage_manifest (h : order) (pk : package) : option storage_manifest :=
  hd_error (o_manifests h (map snd (pk_manifests pk))).

(** [Option::or_else] *)
Definition or_else {A} (o : option A) (d : option A) : option A :=
  match o with Some x => Some x | None => d end.

(** /repo/src/fsshttpb/data_element/mod.rs:157-159 *)
Definition find_revision_manifest (pk : package) (id : exguid) : option revision_manifest :=
  alookup exguid_eqb id (pk_revisions pk).

(** /repo/src/fsshttpb/data_element/mod.rs:162-164 *)
Definition find_object_group (pk : package) (id : exguid) : option object_group :=
  alookup exguid_eqb id (pk_groups pk).

(** /repo/src/fsshttpb/data_element/mod.rs:130-138 *)
Definition resolve_revision_manifest_id (pk : package) (si : storage_index) (id : exguid)
  : option exguid :=
  or_else (find_revision_mapping_id si id)
          (option_map (fun _ => id) (find_revision_manifest pk id)).

(** /repo/src/fsshttpb/data_element/mod.rs:141-143 *)
Definition find_cell_revision_id (pk : package) (id : exguid) : option exguid :=
  alookup exguid_eqb id (pk_cells pk).

(** /repo/src/fsshttpb/data_element/mod.rs:146-154 *)
Definition resolve_cell_revision_manifest_id (pk : package) (si : storage_index)
           (cell_manifest : exguid) : option exguid :=
  or_else
    (match find_cell_revision_id pk cell_manifest with
     | Some rev => resolve_revision_manifest_id pk si rev
     | None => None
     end)
    (resolve_revision_manifest_id pk si cell_manifest).

(** /repo/src/fsshttpb/data_element/mod.rs:73-107 *)
Definition find_objects (h : order) (pk : package) (cell : exguid) (si : storage_index)
  : res (list object_group) :=
  let! rev := ok_or MalformedFssHttpBData
    (or_else (resolve_cell_revision_manifest_id pk si cell)
       (match find (fun m => exguid_eqb (cm_id m) cell) (o_cells h (map snd (si_cells si))) with
        | Some m => find_revision_mapping_by_serial h si (cm_serial m)
        | None => None
        end)) in
  let! rm := ok_or MalformedFssHttpBData (find_revision_manifest pk rev) in
  map_res (fun r => ok_or MalformedFssHttpBData (find_object_group pk r)) (rm_groups rm).

(** ** Mapping tables *)

(** /repo/src/onestore/mapping_table.rs:18-21 *)
Record mapping_table := MappingTable {
  mt_objects : amap compactid (list (N * exguid));
  mt_spaces : amap compactid (list (N * cellid)) }.

(** /repo/src/onestore/mapping_table.rs:31-34 and 36-39: one of the two loops of
    [from_entries], with [enumerate] made explicit. *)
Fixpoint mapping_entries {T} (i : N) (l : list (compactid * T))
         (m : amap compactid (list (N * T))) : amap compactid (list (N * T)) :=
  match l with
  | [] => m
  | (cid, id) :: r =>
    let old := match alookup compactid_eqb cid m with Some v => v | None => [] end in
    mapping_entries (i + 1) r (ainsert compactid_eqb cid (old ++ [(i, id)]) m)
  end.

(** /repo/src/onestore/mapping_table.rs:24-45 *)
Definition mapping_from_entries (objects : list (compactid * exguid))
           (spaces : list (compactid * cellid)) : mapping_table :=
  MappingTable (mapping_entries 0 objects []) (mapping_entries 0 spaces []).

(** /repo/src/onestore/mapping_table.rs:55-74 *)
Definition mapping_get {T} (index : N) (cid : compactid) (t : amap compactid (list (N * T)))
  : option T :=
  match alookup compactid_eqb cid t with
  | Some [(_, id)] => Some id
  | Some entries => option_map snd (find (fun e => fst e =? index) entries)
  | None => None
  end.

(** /repo/src/onestore/mapping_table.rs:47-49 *)
Definition mapping_get_object (m : mapping_table) (index : N) (cid : compactid) : option exguid :=
  mapping_get index cid (mt_objects m).
(** /repo/src/onestore/mapping_table.rs:51-53 *)
Definition mapping_get_space (m : mapping_table) (index : N) (cid : compactid) : option cellid :=
  mapping_get index cid (mt_spaces m).

(** ** Objects *)

(** /repo/src/onestore/object.rs:18-25 *)
Record object := Object {
  ob_context : exguid;
  ob_jcid : N;
  ob_props : oprops;
  ob_file : option (list N);
  ob_mapping : mapping_table }.

(** /repo/src/onestore/object_space.rs:12, [GroupData] *)
Definition group_data := amap (exguid * N) odata.

(** Key comparison of [GroupData]. *)
Definition gkey_eqb (a b : exguid * N) : bool :=
  exguid_eqb (fst a) (fst b) && (snd a =? snd b).

(** /repo/src/onestore/object.rs:28-32, [Partition] *)
Definition partition_metadata : N := 4.
Definition partition_object_data : N := 1.
Definition partition_file_data : N := 2.

(** /repo/src/onestore/object.rs:161-167 *)
Definition find_object (id : exguid) (partition : N) (g : group_data) : option odata :=
  alookup gkey_eqb (id, partition) g.

(** /repo/src/onestore/object.rs:169-178 *)
Definition find_blob_id (id : exguid) (g : group_data) : res (option exguid) :=
  opt_map_res (fun o => match o with
                        | DataBlobRef _ _ b => Ok b
                        | _ => Err MalformedOneStoreData
                        end)
              (find_object id partition_file_data g).

(** The value of a parser run on its own reader, [P::parse(&mut Reader::new(d))?]. *)
Definition run {A} (p : parser A) (d : list N) : res A :=
  let! (a, _) := p d in Ok a.

(** /repo/src/onestore/object.rs:57-159 *)
Definition object_parse (object_id context_id space_id : exguid) (g : group_data) (pk : package)
  : res object :=
  let! metadata_object := ok_or MalformedOneStoreData (find_object object_id partition_metadata g) in
  let! data_object := ok_or MalformedOneStoreData (find_object object_id partition_object_data g) in
  let! metadata := match metadata_object with
                   | DataObject _ _ d => Ok d
                   | _ => Err MalformedOneStoreData
                   end in
  let! jc := run jcid_parse metadata in
  let! (data, refs, cells) := match data_object with
                              | DataObject gr c d => Ok (d, gr, c)
                              | _ => Err MalformedOneStoreData
                              end in
  let! props := run oprops_parse data in
  let! blob := find_blob_id object_id g in
  let! file := opt_map_res (fun b => ok_or MalformedOneStoreData (find_blob pk b)) blob in
  let context_refs := map fst (filter (fun c => exguid_eqb (snd c) space_id) cells) in
  let space_refs := filter (fun c => negb (exguid_eqb (snd c) space_id)) cells in
  if len (op_object_ids props) <? len refs then Err MalformedOneStoreData
  else if negb (len (op_context_ids props) + len (op_space_ids props)
                =? len cells) then Err MalformedOneStoreData
  else
    Ok (Object context_id jc props file
          (mapping_from_entries
             (combine (op_object_ids props) refs ++ combine (op_context_ids props) context_refs)
             (combine (op_space_ids props) space_refs))).

(** ** Revisions *)

(** /repo/src/onestore/revision_role.rs:10-15 *)
Inductive role := DefaultContent | MetadataRole | EncryptionKey | VersionMetadata.

Definition role_eqb (a b : role) : bool :=
  match a, b with
  | DefaultContent, DefaultContent | MetadataRole, MetadataRole
  | EncryptionKey, EncryptionKey | VersionMetadata, VersionMetadata => true
  | _, _ => false
  end.

(** /repo/src/onestore/revision_role.rs:18-37 *)
Definition role_parse (id : exguid) : res role :=
  if negb (eg_guid id =? 0x4A3717F81C1449E7952681D942DE1741) then Err MalformedOneStoreData
  else match eg_value id with
       | 1 => Ok DefaultContent
       | 2 => Ok MetadataRole
       | 3 => Ok EncryptionKey
       | 4 => Ok VersionMetadata
       | _ => Err MalformedOneStoreData
       end.

Definition objects := amap exguid object.
Definition roots := amap role exguid.

(** /repo/src/onestore/revision.rs:17-20 *)
Record revision := Revision { rev_objects : objects; rev_roots : roots }.

(** /repo/src/onestore/revision.rs:97-118: the loop over the declared ids. *)
Fixpoint group_objects (pk : package) (context_id space_id : exguid) (g : object_group)
         (data : group_data) (ids : list exguid) (objs : objects) : res objects :=
  match ids with
  | [] => Ok objs
  | id :: r =>
    if amember exguid_eqb id objs then group_objects pk context_id space_id g data r objs
    else if negb (len (og_decls g) =? len (og_objects g))
    then Err MalformedOneStoreData
    else
      let! o := object_parse id context_id space_id data pk in
      group_objects pk context_id space_id g data r (ainsert exguid_eqb id o objs)
  end.

(** /repo/src/onestore/revision.rs:76-121 *)
Definition parse_group (pk : package) (context_id group_id space_id : exguid) (objs : objects)
  : res objects :=
  let! g := ok_or MalformedOneStoreData (find_object_group pk group_id) in
  let ids := map decl_object_id (og_decls g) in
  let data := aextend gkey_eqb []
    (map (fun '(d, o) => ((decl_object_id d, decl_partition d), o))
         (combine (og_decls g) (og_objects g))) in
  group_objects pk context_id space_id g data ids objs.

(** /repo/src/onestore/revision.rs:69-71 *)
Fixpoint parse_groups (pk : package) (context_id space_id : exguid) (gs : list exguid)
         (objs : objects) : res objects :=
  match gs with
  | [] => Ok objs
  | g :: r =>
    let! objs' := parse_group pk context_id g space_id objs in
    parse_groups pk context_id space_id r objs'
  end.

(** /repo/src/onestore/revision.rs:24-74. Returns the base revision and the two
    maps it updates. The cache is passed along unchanged by all callers. *)
Definition revision_parse (rev_id context_id space_id : exguid) (si : storage_index) (pk : package)
           (cache : amap cellid revision) (objs : objects) (rts : roots)
  : res (option exguid * objects * roots) :=
  let! rm := ok_or MalformedOneStoreData (find_revision_manifest pk rev_id) in
  let! base := opt_map_res
    (fun m => ok_or MalformedOneStoreData (resolve_revision_manifest_id pk si m))
    (exguid_as_option (rm_base_rev_id rm)) in
  match alookup cellid_eqb (context_id, rm_rev_id rm) cache with
  | Some rev =>
    Ok (base, aextend exguid_eqb objs (rev_objects rev), aextend role_eqb rts (rev_roots rev))
  | None =>
    let! new := map_res (fun d => let! r := role_parse (fst d) in Ok (r, snd d)) (rm_roots rm) in
    let rts' := aextend role_eqb rts new in
    let! objs' := parse_groups pk context_id space_id (rm_groups rm) objs in
    Ok (base, objs', rts')
  end.

(** ** Object spaces: /repo/src/onestore/object_space.rs:23-28 *)
Record space := Space {
  sp_id : exguid; sp_context : exguid; sp_roots : roots; sp_objects : objects }.

(** /repo/src/onestore/object_space.rs:31-33 *)
Definition get_object (s : space) (id : exguid) : option object :=
  alookup exguid_eqb id (sp_objects s).
(** /repo/src/onestore/object_space.rs:35-37 *)
Definition content_root (s : space) : option exguid := alookup role_eqb DefaultContent (sp_roots s).
(** /repo/src/onestore/object_space.rs:39-41 *)
Definition metadata_root (s : space) : option exguid := alookup role_eqb MetadataRole (sp_roots s).

(** /repo/src/onestore/object_space.rs:85-98: the [while let] loop. Fuel bounds
    the number of iterations; running out means the loop is still going. *)
Fixpoint revision_walk (fuel : nat) (context_id space_id : exguid) (si : storage_index)
         (pk : package) (cache : amap cellid revision) (rev_id : option exguid)
         (objs : objects) (rts : roots) : res (objects * roots) :=
  match rev_id with
  | None => Ok (objs, rts)
  | Some id =>
    match fuel with
    | O => OutOfFuel
    | S f =>
      let! (base, objs', rts') := revision_parse id context_id space_id si pk cache objs rts in
      revision_walk f context_id space_id si pk cache base objs' rts'
    end
  end.

(** /repo/src/onestore/object_space.rs:43-108, [ObjectSpace::parse] *)
Definition space_parse (h : order) (fuel : nat) (m : cell_mapping) (si : storage_index)
           (pk : package) (cache : amap cellid revision) : res (cellid * space) :=
  let cell_id := cm_cell m in
  let context_id := fst cell_id in
  let space_id := snd cell_id in
  let cell_revision_id := find_cell_revision_id pk (cm_id m) in
  let manifest_id := or_else (resolve_cell_revision_manifest_id pk si (cm_id m))
                             (find_revision_mapping_by_serial h si (cm_serial m)) in
  match manifest_id, cell_revision_id with
  | None, Some c =>
    if exguid_is_nil c then Ok (cell_id, Space space_id context_id [] [])
    else Err MalformedOneStoreData
  | None, None => Err MalformedOneStoreData
  | Some id, _ =>
    let! (objs, rts) := revision_walk fuel context_id space_id si pk cache (Some id) [] [] in
    Ok (cell_id, Space space_id context_id rts objs)
  end.

(** ** The store header: /repo/src/onestore/header.rs:16-21 *)
Record store_header := StoreHeader {
  sth_file_identity : guid; sth_ancestor_identity : guid;
  sth_last_code_version : option N; sth_file_name_crc : N }.

(** /repo/src/onestore/header.rs:78-84 *)
Definition header_guid (v : pvalue) : res guid :=
  match v with VVec d => run guid_parse d | _ => Err MalformedOneStoreData end.
(** /repo/src/onestore/header.rs:86-92 *)
Definition header_u32 (v : pvalue) : res N :=
  match v with VU32 n => Ok n | _ => Err MalformedOneStoreData end.

(** /repo/src/onestore/header.rs:24-76 *)
Definition header_parse_store (g : object_group) : res store_header :=
  let! (_, o) := ok_or MalformedOneStoreData
    (find (fun p => decl_partition (fst p) =? 1) (combine (og_decls g) (og_objects g))) in
  let! d := match o with DataObject _ _ d => Ok d | _ => Err MalformedOneStoreData end in
  let! ps := run oprops_parse d in
  let! fi := opt_map_res header_guid (oprops_get P_FileIdentityGuid ps) in
  let! fi := ok_or MalformedOneStoreData fi in
  let! ai := opt_map_res header_guid (oprops_get P_FileAncestorIdentityGuid ps) in
  let! ai := ok_or MalformedOneStoreData ai in
  let! lc := opt_map_res header_u32 (oprops_get P_FileLastCodeVersionThatWroteToIt ps) in
  let! crc := opt_map_res header_u32 (oprops_get P_FileNameCrc ps) in
  let! crc := ok_or MalformedOneStoreData crc in
  Ok (StoreHeader fi ai lc crc).

(** ** The store: /repo/src/onestore/mod.rs:22-27 *)
Record store := Store {
  st_schema : guid;
  st_header : store_header;
  st_data_root : space;
  st_spaces : amap cellid space }.

(** /repo/src/onestore/mod.rs:38-40 *)
Definition object_space (s : store) (id : cellid) : option space :=
  alookup cellid_eqb id (st_spaces s).

(** /repo/src/onestore/mod.rs:136-142 *)
Definition header_cell_root : exguid := ExGuid 0x1A5A319CC26B41AAB9C59BD8C44E07D4 1.
Definition find_header_cell_id (m : storage_manifest) : res cellid :=
  ok_or MalformedOneStoreData (alookup exguid_eqb header_cell_root (sm_roots m)).
(** /repo/src/onestore/mod.rs:144-150 *)
Definition data_root : exguid := ExGuid 0x84DEFAB9AAA34A0DA3A8520C77AC7073 2.
Definition find_data_root_cell_id (m : storage_manifest) : res cellid :=
  ok_or MalformedOneStoreData (alookup exguid_eqb data_root (sm_roots m)).

(** /repo/src/onestore/mod.rs:122-134 *)
Definition parse_object_space (h : order) (fuel : nat) (cell : cellid) (si : storage_index)
           (pk : package) (cache : amap cellid revision) : res (cellid * space) :=
  let! m := ok_or MalformedOneStoreData (alookup cellid_eqb cell (si_cells si)) in
  space_parse h fuel m si pk cache.

(** /repo/src/onestore/mod.rs:100-112: the loop over the cell mappings. *)
Fixpoint parse_spaces (h : order) (fuel : nat) (si : storage_index) (pk : package)
         (cache : amap cellid revision) (done : list cellid) (ms : list cell_mapping)
         (spaces : amap cellid space) : res (amap cellid space) :=
  match ms with
  | [] => Ok spaces
  | m :: r =>
    if exguid_is_nil (cm_id m) then parse_spaces h fuel si pk cache done r spaces
    else if existsb (cellid_eqb (cm_cell m)) done then
      parse_spaces h fuel si pk cache done r spaces
    else
      let! (id, s) := parse_object_space h fuel (cm_cell m) si pk cache in
      parse_spaces h fuel si pk cache done r (ainsert cellid_eqb id s spaces)
  end.

(** /repo/src/onestore/mod.rs:43-120. Fuel bounds the revision walks. *)
Definition parse_store (h : order) (fuel : nat) (pg : packaging) : res store :=
  let pk := pg_package pg in
  let! si := ok_or MalformedOneStoreData
    (or_else (find_storage_index_by_id pk (pg_storage_index pg)) (find_storage_index h pk)) in
  let! sm := ok_or MalformedOneStoreData (find_storage_manifest h pk) in
  let! header_cell := find_header_cell_id sm in
  let! header_mapping := ok_or MalformedOneStoreData (find_cell_mapping_id si header_cell) in
  let! groups := find_objects h pk header_mapping si in
  let! header_group := ok_or MalformedOneStoreData (hd_error groups) in
  let! header := header_parse_store header_group in
  let! root_cell := find_data_root_cell_id sm in
  let! (_, root) := parse_object_space h fuel root_cell si pk [] in
  let! spaces := parse_spaces h fuel si pk [] [header_cell; root_cell]
                              (o_cells h (map snd (si_cells si))) [] in
  Ok (Store (sm_id sm) header root spaces).
