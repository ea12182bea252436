(** Data elements, the data element package and the file packaging.
    Models /repo/src/fsshttpb/data_element/*.rs and
    /repo/src/fsshttpb/packaging.rs. *)
From Verif Require Import Base Codec.

(** ** Cell manifest: /repo/src/fsshttpb/data_element/cell_manifest.rs:14-22 *)
Definition cell_manifest_parse : parser exguid :=
  try_parse_16 CellManifest ;;;
  id <- exguid_parse ;;
  try_parse_end_8 DataElement ;;;
  pret id.

(** ** Data element fragment *)

(** /repo/src/fsshttpb/data_element/data_element_fragment.rs:16-28 *)
Record fragment := Fragment {
  fr_id : exguid; fr_size : N; fr_offset : N; fr_length : N; fr_data : list N }.

(** /repo/src/fsshttpb/data_element/data_element_fragment.rs:36-55 *)
Definition fragment_parse : parser fragment :=
  try_parse DataElementFragment ;;;
  id <- exguid_parse ;;
  size <- compact_parse ;;
  offset <- compact_parse ;;
  length <- compact_parse ;;
  data <- read size ;;
  pret (Fragment id size offset length data).

(** ** Object data blob: /repo/src/fsshttpb/data_element/object_data_blob.rs:29-37 *)
Definition blob_parse : parser (list N) :=
  try_parse ObjectDataBlob ;;;
  data <- binary_item_parse ;;
  try_parse_end_8 DataElement ;;;
  pret data.

(** ** Revision manifest *)

(** /repo/src/fsshttpb/data_element/revision_manifest.rs:14-26. A root
    declaration is the pair (root_id, object_id). *)
Record revision_manifest := RevManifest {
  rm_rev_id : exguid;
  rm_base_rev_id : exguid;
  rm_roots : list (exguid * exguid);
  rm_groups : list exguid }.

(** /repo/src/fsshttpb/data_element/revision_manifest.rs:29-34 *)
Definition root_declare_parse : parser (exguid * exguid) :=
  r <- exguid_parse ;; o <- exguid_parse ;; pret (r, o).

(** /repo/src/fsshttpb/data_element/revision_manifest.rs:47-68, loop body *)
Definition revision_manifest_item (s : list (exguid * exguid) * list exguid)
  : parser (list (exguid * exguid) * list exguid) :=
  h <- header_parse_16 ;;
  match oh_type h with
  | RevisionManifestRoot =>
    d <- root_declare_parse ;; pret (fst s ++ [d], snd s)
  | RevisionManifestGroupReference =>
    g <- exguid_parse ;; pret (fst s, snd s ++ [g])
  | _ => pfail MalformedFssHttpBData
  end.

(** /repo/src/fsshttpb/data_element/revision_manifest.rs:38-80 *)
Definition revision_manifest_parse : parser revision_manifest :=
  try_parse_16 RevisionManifest ;;;
  rev_id <- exguid_parse ;;
  base <- exguid_parse ;;
  s <- until_end_8 DataElement revision_manifest_item ([], []) ;;
  pret (RevManifest rev_id base (fst s) (snd s)).

(** ** Storage index *)

(** /repo/src/fsshttpb/data_element/storage_index.rs:48-68. A manifest mapping
    is the pair (mapping_id, serial). *)
Record cell_mapping := CellMapping {
  cm_cell : cellid; cm_id : exguid; cm_serial : serial }.
Record rev_mapping := RevMapping { rv_mapping : exguid; rv_serial : serial }.

(** /repo/src/fsshttpb/data_element/storage_index.rs:18-22 *)
Record storage_index := StorageIndex {
  si_manifests : list (exguid * serial);
  si_cells : amap cellid cell_mapping;
  si_revs : amap exguid rev_mapping }.

Definition storage_index_empty : storage_index := StorageIndex [] [] [].

(** /repo/src/fsshttpb/data_element/storage_index.rs:25-27 *)
Definition find_cell_mapping_id (s : storage_index) (c : cellid) : option exguid :=
  option_map cm_id (alookup cellid_eqb c (si_cells s)).

(** /repo/src/fsshttpb/data_element/storage_index.rs:29-33 *)
Definition find_revision_mapping_id (s : storage_index) (id : exguid) : option exguid :=
  option_map rv_mapping (alookup exguid_eqb id (si_revs s)).

(** /repo/src/fsshttpb/data_element/storage_index.rs:114-119 *)
Definition manifest_mapping_parse : parser (exguid * serial) :=
  m <- exguid_parse ;; s <- serial_parse ;; pret (m, s).

(** /repo/src/fsshttpb/data_element/storage_index.rs:121-135 *)
Definition cell_mapping_parse : parser (cellid * cell_mapping) :=
  c <- cellid_parse ;; id <- exguid_parse ;; s <- serial_parse ;;
  pret (c, CellMapping c id s).

(** /repo/src/fsshttpb/data_element/storage_index.rs:137-150 *)
Definition rev_mapping_parse : parser (exguid * rev_mapping) :=
  id <- exguid_parse ;; m <- exguid_parse ;; s <- serial_parse ;;
  pret (id, RevMapping m s).

(** /repo/src/fsshttpb/data_element/storage_index.rs:76-103, loop body *)
Definition storage_index_item (s : storage_index) : parser storage_index :=
  h <- header_parse_16 ;;
  match oh_type h with
  | StorageIndexManifestMapping =>
    m <- manifest_mapping_parse ;;
    pret (StorageIndex (si_manifests s ++ [m]) (si_cells s) (si_revs s))
  | StorageIndexCellMapping =>
    m <- cell_mapping_parse ;;
    pret (StorageIndex (si_manifests s)
            (ainsert cellid_eqb (fst m) (snd m) (si_cells s)) (si_revs s))
  | StorageIndexRevisionMapping =>
    m <- rev_mapping_parse ;;
    pret (StorageIndex (si_manifests s) (si_cells s)
            (ainsert exguid_eqb (fst m) (snd m) (si_revs s)))
  | _ => pfail MalformedFssHttpBData
  end.

(** /repo/src/fsshttpb/data_element/storage_index.rs:71-112 *)
Definition storage_index_parse : parser storage_index :=
  until_end_8 DataElement storage_index_item storage_index_empty.

(** ** Storage manifest *)

(** /repo/src/fsshttpb/data_element/storage_manifest.rs:17-20 *)
Record storage_manifest := StorageManifestV {
  sm_id : guid; sm_roots : amap exguid cellid }.

(** /repo/src/fsshttpb/data_element/storage_manifest.rs:30-41, loop body *)
Definition storage_manifest_item (s : amap exguid cellid) : parser (amap exguid cellid) :=
  try_parse_16 StorageManifestRoot ;;;
  r <- exguid_parse ;;
  c <- cellid_parse ;;
  pret (ainsert exguid_eqb r c s).

(** /repo/src/fsshttpb/data_element/storage_manifest.rs:23-46 *)
Definition storage_manifest_parse : parser storage_manifest :=
  try_parse_16 StorageManifest ;;;
  id <- guid_parse ;;
  roots <- until_end_8 DataElement storage_manifest_item [] ;;
  pret (StorageManifestV id roots).

(** ** Object group *)

(** /repo/src/fsshttpb/data_element/object_group.rs:32-47 *)
Inductive odecl :=
| DeclObject (object_id : exguid) (partition_id data_size oref_count cref_count : N)
| DeclBlob (object_id blob_id : exguid) (partition_id oref_count cref_count : N).

(** /repo/src/fsshttpb/data_element/object_group.rs:50-55 *)
Definition decl_partition (d : odecl) : N :=
  match d with
  | DeclObject _ p _ _ _ => p
  | DeclBlob _ _ p _ _ => p
  end.

(** /repo/src/fsshttpb/data_element/object_group.rs:57-62 *)
Definition decl_object_id (d : odecl) : exguid :=
  match d with
  | DeclObject i _ _ _ _ => i
  | DeclBlob i _ _ _ _ => i
  end.

(** /repo/src/fsshttpb/data_element/object_group.rs:109-140 *)
Inductive odata :=
| DataObject (group : list exguid) (cells : list cellid) (data : list N)
| DataExcluded (group : list exguid) (cells : list cellid) (size : N)
| DataBlobRef (objects : list exguid) (cells : list cellid) (blob : exguid).

(** /repo/src/fsshttpb/data_element/object_group.rs:19-23. Metadata is the list
    of change frequency discriminants. *)
Record object_group := ObjectGroup {
  og_decls : list odecl; og_metadata : list N; og_objects : list odata }.

(** /repo/src/fsshttpb/data_element/object_group.rs:86-106; the result is the
    discriminant (object_group.rs:78-84). *)
Definition change_frequency (v : N) : res N :=
  if v <=? 4 then Ok v else Err MalformedFssHttpBData.

(** /repo/src/fsshttpb/data_element/object_group.rs:223-267, loop body *)
Definition odecl_item (s : list odecl) : parser (list odecl) :=
  h <- header_parse ;;
  match oh_type h with
  | ObjectGroupObject =>
    i <- exguid_parse ;; p <- compact_parse ;; d <- compact_parse ;;
    o <- compact_parse ;; c <- compact_parse ;;
    pret (s ++ [DeclObject i p d o c])
  | ObjectGroupDataBlob =>
    i <- exguid_parse ;; b <- exguid_parse ;; p <- compact_parse ;;
    o <- compact_parse ;; c <- compact_parse ;;
    pret (s ++ [DeclBlob i b p o c])
  | _ => pfail MalformedFssHttpBData
  end.

(** /repo/src/fsshttpb/data_element/object_group.rs:218-272 *)
Definition odecls_parse : parser (list odecl) :=
  try_parse ObjectGroupDeclaration ;;;
  until_end_8 ObjectGroupDeclaration odecl_item [].

(** /repo/src/fsshttpb/data_element/object_group.rs:277-288, loop body *)
Definition ometa_item (s : list N) : parser (list N) :=
  try_parse_32 ObjectGroupMetadata ;;;
  f <- compact_parse ;;
  v <- plift (change_frequency f) ;;
  pret (s ++ [v]).

(** /repo/src/fsshttpb/data_element/object_group.rs:274-293 *)
Definition ometa_parse : parser (list N) :=
  until_end_8 ObjectGroupMetadataBlock ometa_item [].

(** /repo/src/fsshttpb/data_element/object_group.rs:298-337, loop body *)
Definition odata_item (s : list odata) : parser (list odata) :=
  h <- header_parse ;;
  match oh_type h with
  | ObjectGroupDataExcluded =>
    g <- exguid_parse_array ;; c <- cellid_parse_array ;; n <- compact_parse ;;
    pret (s ++ [DataExcluded g c n])
  | ObjectGroupDataObject =>
    g <- exguid_parse_array ;; c <- cellid_parse_array ;; d <- binary_item_parse ;;
    pret (s ++ [DataObject g c d])
  | ObjectGroupBlobReference =>
    g <- exguid_parse_array ;; c <- cellid_parse_array ;; b <- exguid_parse ;;
    pret (s ++ [DataBlobRef g c b])
  | _ => pfail MalformedFssHttpBData
  end.

(** /repo/src/fsshttpb/data_element/object_group.rs:295-342 *)
Definition odata_parse : parser (list odata) :=
  until_end_8 ObjectGroupData odata_item [].

(** /repo/src/fsshttpb/data_element/object_group.rs:180-216 *)
Definition object_group_parse : parser object_group :=
  decls <- odecls_parse ;;
  h <- header_parse ;;
  metadata <- match oh_type h with
              | ObjectGroupMetadataBlock =>
                m <- ometa_parse ;;
                h2 <- header_parse ;;
                if otype_eqb (oh_type h2) ObjectGroupData then pret m
                else pfail MalformedFssHttpBData
              | ObjectGroupData => pret []
              | _ => pfail MalformedFssHttpBData
              end ;;
  objects <- odata_parse ;;
  try_parse_end_8 DataElement ;;;
  pret (ObjectGroup decls metadata objects).

(** ** Data element package *)

(** /repo/src/fsshttpb/data_element/mod.rs:31-39 *)
Record package := Package {
  pk_indexes : amap exguid storage_index;
  pk_manifests : amap exguid storage_manifest;
  pk_cells : amap exguid exguid;
  pk_revisions : amap exguid revision_manifest;
  pk_groups : amap exguid object_group;
  pk_fragments : amap exguid fragment;
  pk_blobs : amap exguid (list N) }.

(** /repo/src/fsshttpb/data_element/mod.rs:49-57 *)
Definition package_empty : package := Package [] [] [] [] [] [] [].

Definition ins {V} := @ainsert exguid V exguid_eqb.

(** /repo/src/fsshttpb/data_element/mod.rs:183-225: the [match]. *)
Definition element_body (id : exguid) (ty : N) (p : package) : parser package :=
  let '(Package si sm ce re og fr bl) := p in
  if ty =? 0x01 then
    v <- storage_index_parse ;; pret (Package (ins id v si) sm ce re og fr bl)
  else if ty =? 0x02 then
    v <- storage_manifest_parse ;; pret (Package si (ins id v sm) ce re og fr bl)
  else if ty =? 0x03 then
    v <- cell_manifest_parse ;; pret (Package si sm (ins id v ce) re og fr bl)
  else if ty =? 0x04 then
    v <- revision_manifest_parse ;; pret (Package si sm ce (ins id v re) og fr bl)
  else if ty =? 0x05 then
    v <- object_group_parse ;; pret (Package si sm ce re (ins id v og) fr bl)
  else if ty =? 0x06 then
    v <- fragment_parse ;; pret (Package si sm ce re og (ins id v fr) bl)
  else if ty =? 0x0A then
    v <- blob_parse ;; pret (Package si sm ce re og fr (ins id v bl))
  else pfail MalformedFssHttpBData.

(** /repo/src/fsshttpb/data_element/mod.rs:176-228 *)
Definition element_parse (p : package) : parser package :=
  try_parse_16 DataElement ;;;
  id <- exguid_parse ;;
  _s <- serial_parse ;;
  ty <- compact_parse ;;
  element_body id ty p.

(** /repo/src/fsshttpb/data_element/mod.rs:42-70 *)
Definition package_parse : parser package :=
  try_parse_16 DataElementPackage ;;;
  pad <- get_u8 ;;
  if negb (pad =? 0) then pfail MalformedFssHttpBData
  else until_end_8 DataElementPackage element_parse package_empty.

(** ** File packaging *)

(** /repo/src/fsshttpb/packaging.rs:16-24 *)
Record packaging := Packaging {
  pg_file_type : guid;
  pg_file : guid;
  pg_legacy_version : guid;
  pg_file_format : guid;
  pg_storage_index : exguid;
  pg_cell_schema : guid;
  pg_package : package }.

(** /repo/src/fsshttpb/packaging.rs:35-36 *)
Definition revision_store_format : guid := 0x109ADD3F911B49F5A5D01791EDC8AED8.
Definition package_store_format : guid := 0x638DE92FA6D44BC19A36B3FC2511A5B7.

(** /repo/src/fsshttpb/packaging.rs:135-164 *)
Definition parse_legacy (file_type file legacy_version file_format : guid)
  : parser packaging :=
  pad <- get_u32 ;;
  if negb (pad =? 0) then pfail MalformedFssHttpBData
  else
    try_parse_32 OneNotePackaging ;;;
    si <- exguid_parse ;;
    schema <- guid_parse ;;
    pk <- package_parse ;;
    try_parse_end_16 OneNotePackaging ;;;
    pret (Packaging file_type file legacy_version file_format si schema pk).

(** /repo/src/fsshttpb/packaging.rs:166-171; (stp, cb). *)
Definition fcr64x32_parse : parser (N * N) :=
  stp <- get_u64 ;; cb <- get_u32 ;; pret (stp, cb).

(** /repo/src/fsshttpb/packaging.rs:180-186 *)
Definition fcr_end (c : N * N) : res N :=
  if fst c + snd c <? 2 ^ 64 then Ok (fst c + snd c) else Err MalformedOneStoreData.

(** /repo/src/fsshttpb/packaging.rs:72-73 and the three repetitions to 97 *)
Definition version_check : parser unit :=
  v <- get_u32 ;;
  if negb (v =? 0x2A) && negb (v =? 0x1B) then pfail MalformedFssHttpBData
  else pret tt.

(** /repo/src/fsshttpb/packaging.rs:71-113: the fixed-size header fields; the
    result is the transaction log reference. *)
Definition revision_store_header : parser (N * N) :=
  version_check ;;;
  version_check ;;;
  version_check ;;;
  version_check ;;;
  _free_chunk_list <- get_u64 ;;
  _legacy_transaction_log <- get_u64 ;;
  _transaction_count <- get_u32 ;;
  _expected_file_length <- get_u32 ;;
  _placeholder <- get_u64 ;;
  _file_node_list_root <- get_u64 ;;
  _free_space <- get_u32 ;;
  _needs_defrag <- get_u8 ;;
  _repaired <- get_u8 ;;
  _needs_gc <- get_u8 ;;
  _no_embedded <- get_u8 ;;
  _ancestor <- guid_parse ;;
  _crc_name <- get_u32 ;;
  _hashed_chunk_list <- fcr64x32_parse ;;
  fcr64x32_parse.

(** /repo/src/fsshttpb/packaging.rs:116-124: [checked_sub]; on a 64-bit target
    [offset > usize::MAX] never holds. *)
Definition log_offset (log : N * N) (read : N) : res N :=
  let! e := fcr_end log in
  if e <? read then Err MalformedOneStoreData else Ok (e - read).

(** /repo/src/fsshttpb/packaging.rs:63-133. [start] is the number of bytes
    remaining when [parse] was entered. *)
Definition parse_packaging (start : N) : parser packaging :=
  log <- revision_store_header ;;
  (fun bs =>
     let read := start - remaining bs in
     (offset <- plift (log_offset log read) ;;
      advance offset ;;;
      file_type <- guid_parse ;;
      file <- guid_parse ;;
      legacy_version <- guid_parse ;;
      file_format <- guid_parse ;;
      parse_legacy file_type file legacy_version file_format) bs).

(** /repo/src/fsshttpb/packaging.rs:27-61 *)
Definition packaging_parse : parser packaging :=
  fun bs0 =>
    let start := remaining bs0 in
    (file_type <- guid_parse ;;
     file <- guid_parse ;;
     legacy_version <- guid_parse ;;
     file_format <- guid_parse ;;
     if file_format =? package_store_format then
       parse_legacy file_type file legacy_version file_format
     else if negb (file_format =? revision_store_format) then
       pfail MalformedOneStoreData
     else if negb (guid_is_nil legacy_version) then
       parse_legacy file_type file legacy_version file_format
     else parse_packaging start) bs0.
