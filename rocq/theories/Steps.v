(** How much work taking a file apart is. The parsers of [Codec.v], [Package.v] and
    [PropSet.v] once more, with the steps counted that they take until they return a
    result or an error: each call of a method of [Reader] that looks at or takes bytes
    (/repo/src/reader.rs:11-74), each look at the next byte, and each finished turn of a
    counted loop. Everything else the code does between two such steps (comparisons,
    insertion into a hash table, appending to a vector) is done a bounded number of
    times; it is not counted. A read of many bytes is one step: it makes a slice. *)
From Verif Require Import Base Codec Package PropSet.

Definition counted (A : Type) := list N -> nat * res (A * list N).

Definition nret {A} (a : A) : counted A := fun bs => (0%nat, Ok (a, bs)).
Definition nfail {A} (e : ekind) : counted A := fun _ => (0%nat, Err e).
Definition nlift {A} (r : res A) : counted A := fun bs => (0%nat, let! a := r in Ok (a, bs)).
(** One step. *)
Definition call {A} (p : parser A) : counted A := fun bs => (1%nat, p bs).
(** The steps of the first, and of the second if it comes to that. *)
Definition nbind {A B} (p : counted A) (f : A -> counted B) : counted B :=
  fun bs =>
    match p bs with
    | (n, Ok (a, rest)) => let (m, r) := f a rest in ((n + m)%nat, r)
    | (n, Err e) => (n, Err e)
    | (n, Panic) => (n, Panic)
    | (n, OutOfFuel) => (n, OutOfFuel)
    end.

Notation "x <~ p ;; q" := (nbind p (fun x => q))
  (at level 61, p at next level, right associativity).
Notation "p ~;; q" := (nbind p (fun _ => q))
  (at level 61, right associativity).

(** /repo/src/reader.rs:11-20, 30-38, 40-68 *)
Definition read_n (cnt : N) : counted (list N) := call (read cnt).
Definition advance_n (cnt : N) : counted unit := call (advance cnt).
Definition get_u8_n : counted N := call get_u8.
Definition get_u16_n : counted N := call get_u16.
Definition get_u32_n : counted N := call get_u32.
Definition get_u64_n : counted N := call get_u64.
Definition get_u128_n : counted N := call get_u128.

(** [reader.bytes().first().ok_or(UnexpectedEof)?]: compact_u64.rs:24-26,
    stream_object.rs:27 and 200 *)
Definition npeek {A} (f : N -> counted A) : counted A :=
  fun bs =>
    match peek bs with
    | Ok b => let (n, r) := f b bs in (S n, r)
    | Err e => (1%nat, Err e)
    | Panic => (1%nat, Panic)
    | OutOfFuel => (1%nat, OutOfFuel)
    end.

(** A finished turn of a loop. *)
Definition turn : counted unit := fun bs => (1%nat, Ok (tt, bs)).

(** [(0..n).map(|_| p(reader)).collect::<Result<Vec<_>>>()?] *)
Fixpoint rep_fuel_n {A} (p : counted A) (fuel : nat) (n : N) : counted (list A) :=
  if n =? 0 then nret []
  else
    match fuel with
    | O => fun _ => (0%nat, OutOfFuel)
    | S f => x <~ p ;; turn ~;; xs <~ rep_fuel_n p f (n - 1) ;; nret (x :: xs)
    end.

Definition rep_n {A} (n : N) (p : counted A) : counted (list A) :=
  fun bs => rep_fuel_n p (S (length bs)) n bs.

(** [loop { if <next byte satisfies fin>? { break; } state = body(reader)? }] followed
    by [fin_parse(reader)?] *)
Fixpoint until_fuel_n {A} (fin : N -> bool) (fin_parse : counted unit)
         (body : A -> counted A) (fuel : nat) (s : A) : counted A :=
  match fuel with
  | O => fun _ => (0%nat, OutOfFuel)
  | S f =>
    npeek (fun b =>
      if fin b then fin_parse ~;; nret s
      else s' <~ body s ;; until_fuel_n fin fin_parse body f s')
  end.

Definition until_n {A} (fin : N -> bool) (fin_parse : counted unit)
           (body : A -> counted A) (s : A) : counted A :=
  fun bs => until_fuel_n fin fin_parse body (S (length bs)) s bs.

(** ** Encodings: as in [Codec.v] *)

(** /repo/src/shared/guid.rs:23-51 *)
Definition guid_parse_n : counted guid :=
  v <~ get_u128_n ;;
  nret (be [ as_u8 (N.shiftr v 24); as_u8 (N.shiftr v 16);
             as_u8 (N.shiftr v 8); as_u8 v;
             as_u8 (N.shiftr v 40); as_u8 (N.shiftr v 32);
             as_u8 (N.shiftr v 56); as_u8 (N.shiftr v 48);
             as_u8 (N.shiftr v 64); as_u8 (N.shiftr v 72);
             as_u8 (N.shiftr v 80); as_u8 (N.shiftr v 88);
             as_u8 (N.shiftr v 96); as_u8 (N.shiftr v 104);
             as_u8 (N.shiftr v 112); as_u8 (N.shiftr v 120) ]).

(** /repo/src/fsshttpb/data/compact_u64.rs:23-117 *)
Definition compact_parse_n : counted N :=
  npeek (fun first_byte =>
    if first_byte =? 0 then advance_n 1 ~;; nret 0
    else if negb (N.land first_byte 1 =? 0) then
      v <~ get_u8_n ;; nret (N.shiftr v 1)
    else if negb (N.land first_byte 2 =? 0) then
      v <~ get_u16_n ;; nret (N.shiftr v 2)
    else if negb (N.land first_byte 4 =? 0) then
      bs <~ read_n 3 ;; nret (N.shiftr (le bs) 3)
    else if negb (N.land first_byte 8 =? 0) then
      bs <~ read_n 4 ;; nret (N.shiftr (le bs) 4)
    else if negb (N.land first_byte 16 =? 0) then
      bs <~ read_n 5 ;; nret (N.shiftr (le bs) 5)
    else if negb (N.land first_byte 32 =? 0) then
      bs <~ read_n 6 ;; nret (N.shiftr (le bs) 6)
    else if negb (N.land first_byte 64 =? 0) then
      bs <~ read_n 7 ;; nret (N.shiftr (le bs) 7)
    else if negb (N.land first_byte 128 =? 0) then
      advance_n 1 ~;; get_u64_n
    else nfail MalformedFssHttpBData).

(** /repo/src/fsshttpb/data/exguid.rs:31-84 *)
Definition exguid_parse_n : counted exguid :=
  data <~ get_u8_n ;;
  if data =? 0 then nret (ExGuid guid_nil 0)
  else if N.land data 7 =? 4 then
    g <~ guid_parse_n ;; nret (ExGuid g (N.shiftr data 3))
  else if N.land data 63 =? 32 then
    hi <~ get_u8_n ;;
    g <~ guid_parse_n ;;
    nret (ExGuid g (N.lor (N.shiftl hi 2) (N.shiftr data 6)))
  else if N.land data 127 =? 64 then
    hi <~ get_u16_n ;;
    g <~ guid_parse_n ;;
    nret (ExGuid g (N.lor (N.shiftl hi 1) (N.shiftr data 7)))
  else if data =? 128 then
    v <~ get_u32_n ;;
    g <~ guid_parse_n ;;
    nret (ExGuid g v)
  else nfail MalformedData.

(** /repo/src/fsshttpb/data/exguid.rs:91-100 *)
Definition exguid_parse_array_n : counted (list exguid) :=
  n <~ compact_parse_n ;; rep_n n exguid_parse_n.

(** /repo/src/fsshttpb/data/cell_id.rs:16-21 *)
Definition cellid_parse_n : counted cellid :=
  a <~ exguid_parse_n ;; b <~ exguid_parse_n ;; nret (a, b).

(** /repo/src/fsshttpb/data/cell_id.rs:23-32 *)
Definition cellid_parse_array_n : counted (list cellid) :=
  n <~ compact_parse_n ;; rep_n n cellid_parse_n.

(** /repo/src/fsshttpb/data/binary_item.rs:13-18 *)
Definition binary_item_parse_n : counted (list N) :=
  n <~ compact_parse_n ;; read_n n.

(** /repo/src/fsshttpb/data/serial_number.rs:18-34 *)
Definition serial_parse_n : counted serial :=
  ty <~ get_u8_n ;;
  if ty =? 0 then nret (Serial guid_nil 0)
  else g <~ guid_parse_n ;; s <~ get_u64_n ;; nret (Serial g s).

(** /repo/src/fsshttpb/data/stream_object.rs:48-80 *)
Definition header_parse_16_n : counted oheader :=
  data <~ get_u16_n ;;
  if negb (N.land data 3 =? 0) then nfail MalformedFssHttpBData
  else
    let compound := N.land data 4 =? 4 in
    match otype_of (N.land (N.shiftr data 3) 0x3f) with
    | None => nfail MalformedFssHttpBData
    | Some t => nret (OHeader compound t (N.shiftr data 9))
    end.

(** /repo/src/fsshttpb/data/stream_object.rs:91-127 *)
Definition header_parse_32_n : counted oheader :=
  data <~ get_u32_n ;;
  if negb (N.land data 3 =? 2) then nfail MalformedFssHttpBData
  else
    let compound := N.land data 4 =? 4 in
    match otype_of (N.land (N.shiftr data 3) 0x3fff) with
    | None => nfail MalformedFssHttpBData
    | Some t =>
      let length := N.shiftr data 17 in
      if length =? 0x7fff then
        l <~ compact_parse_n ;; nret (OHeader compound t l)
      else nret (OHeader compound t length)
    end.

(** /repo/src/fsshttpb/data/stream_object.rs:26-37 *)
Definition header_parse_n : counted oheader :=
  npeek (fun b =>
    let ht := N.land b 3 in
    if ht =? 0 then header_parse_16_n
    else if ht =? 2 then header_parse_32_n
    else nfail MalformedFssHttpBData).

(** /repo/src/fsshttpb/data/stream_object.rs:138-162 *)
Definition end_parse_16_n : counted otype :=
  data <~ get_u16_n ;;
  if negb (N.land data 3 =? 3) then nfail MalformedFssHttpBData
  else
    match otype_of (N.shiftr data 2) with
    | Some t => nret t
    | None => nfail MalformedFssHttpBData
    end.

(** /repo/src/fsshttpb/data/stream_object.rs:173-197 *)
Definition end_parse_8_n : counted otype :=
  data <~ get_u8_n ;;
  if negb (N.land data 3 =? 1) then nfail MalformedFssHttpBData
  else
    match otype_of (N.shiftr data 2) with
    | Some t => nret t
    | None => nfail MalformedFssHttpBData
    end.

(** /repo/src/fsshttpb/data/stream_object.rs:208-221 *)
Definition try_parse_start_n (p : counted oheader) (t : otype) : counted unit :=
  h <~ p ;;
  if otype_eqb (oh_type h) t then nret tt else nfail MalformedFssHttpBData.

(** /repo/src/fsshttpb/data/stream_object.rs:223-236 *)
Definition try_parse_end_n (p : counted otype) (t : otype) : counted unit :=
  h <~ p ;;
  if otype_eqb h t then nret tt else nfail MalformedFssHttpBData.

(** /repo/src/fsshttpb/data/stream_object.rs:21-23, 39-41, 82-84, 129-131, 164-166 *)
Definition try_parse_n := try_parse_start_n header_parse_n.
Definition try_parse_16_n := try_parse_start_n header_parse_16_n.
Definition try_parse_32_n := try_parse_start_n header_parse_32_n.
Definition try_parse_end_16_n := try_parse_end_n end_parse_16_n.
Definition try_parse_end_8_n := try_parse_end_n end_parse_8_n.

Definition until_end_8_n {A} (t : otype) (body : A -> counted A) (s : A) : counted A :=
  until_n (is_end_8 t) (try_parse_end_8_n t) body s.

(** ** Packages: as in [Package.v] *)

(** /repo/src/fsshttpb/data_element/cell_manifest.rs:14-22 *)
Definition cell_manifest_parse_n : counted exguid :=
  try_parse_16_n CellManifest ~;;
  id <~ exguid_parse_n ;;
  try_parse_end_8_n DataElement ~;;
  nret id.

(** /repo/src/fsshttpb/data_element/data_element_fragment.rs:36-55 *)
Definition fragment_parse_n : counted fragment :=
  try_parse_n DataElementFragment ~;;
  id <~ exguid_parse_n ;;
  size <~ compact_parse_n ;;
  offset <~ compact_parse_n ;;
  length <~ compact_parse_n ;;
  data <~ read_n size ;;
  nret (Fragment id size offset length data).

(** /repo/src/fsshttpb/data_element/object_data_blob.rs:29-37 *)
Definition blob_parse_n : counted (list N) :=
  try_parse_n ObjectDataBlob ~;;
  data <~ binary_item_parse_n ;;
  try_parse_end_8_n DataElement ~;;
  nret data.

(** /repo/src/fsshttpb/data_element/revision_manifest.rs:29-34 *)
Definition root_declare_parse_n : counted (exguid * exguid) :=
  r <~ exguid_parse_n ;; o <~ exguid_parse_n ;; nret (r, o).

(** /repo/src/fsshttpb/data_element/revision_manifest.rs:47-68 *)
Definition revision_manifest_item_n (s : list (exguid * exguid) * list exguid)
  : counted (list (exguid * exguid) * list exguid) :=
  h <~ header_parse_16_n ;;
  match oh_type h with
  | RevisionManifestRoot =>
    d <~ root_declare_parse_n ;; nret (fst s ++ [d], snd s)
  | RevisionManifestGroupReference =>
    g <~ exguid_parse_n ;; nret (fst s, snd s ++ [g])
  | _ => nfail MalformedFssHttpBData
  end.

(** /repo/src/fsshttpb/data_element/revision_manifest.rs:38-80 *)
Definition revision_manifest_parse_n : counted revision_manifest :=
  try_parse_16_n RevisionManifest ~;;
  rev_id <~ exguid_parse_n ;;
  base <~ exguid_parse_n ;;
  s <~ until_end_8_n DataElement revision_manifest_item_n ([], []) ;;
  nret (RevManifest rev_id base (fst s) (snd s)).

(** /repo/src/fsshttpb/data_element/storage_index.rs:114-119 *)
Definition manifest_mapping_parse_n : counted (exguid * serial) :=
  m <~ exguid_parse_n ;; s <~ serial_parse_n ;; nret (m, s).

(** /repo/src/fsshttpb/data_element/storage_index.rs:121-135 *)
Definition cell_mapping_parse_n : counted (cellid * cell_mapping) :=
  c <~ cellid_parse_n ;; id <~ exguid_parse_n ;; s <~ serial_parse_n ;;
  nret (c, CellMapping c id s).

(** /repo/src/fsshttpb/data_element/storage_index.rs:137-150 *)
Definition rev_mapping_parse_n : counted (exguid * rev_mapping) :=
  id <~ exguid_parse_n ;; m <~ exguid_parse_n ;; s <~ serial_parse_n ;;
  nret (id, RevMapping m s).

(** /repo/src/fsshttpb/data_element/storage_index.rs:76-103 *)
Definition storage_index_item_n (s : storage_index) : counted storage_index :=
  h <~ header_parse_16_n ;;
  match oh_type h with
  | StorageIndexManifestMapping =>
    m <~ manifest_mapping_parse_n ;;
    nret (StorageIndex (si_manifests s ++ [m]) (si_cells s) (si_revs s))
  | StorageIndexCellMapping =>
    m <~ cell_mapping_parse_n ;;
    nret (StorageIndex (si_manifests s)
            (ainsert cellid_eqb (fst m) (snd m) (si_cells s)) (si_revs s))
  | StorageIndexRevisionMapping =>
    m <~ rev_mapping_parse_n ;;
    nret (StorageIndex (si_manifests s) (si_cells s)
            (ainsert exguid_eqb (fst m) (snd m) (si_revs s)))
  | _ => nfail MalformedFssHttpBData
  end.

(** /repo/src/fsshttpb/data_element/storage_index.rs:71-112 *)
Definition storage_index_parse_n : counted storage_index :=
  until_end_8_n DataElement storage_index_item_n storage_index_empty.

(** /repo/src/fsshttpb/data_element/storage_manifest.rs:30-41 *)
Definition storage_manifest_item_n (s : amap exguid cellid) : counted (amap exguid cellid) :=
  try_parse_16_n StorageManifestRoot ~;;
  r <~ exguid_parse_n ;;
  c <~ cellid_parse_n ;;
  nret (ainsert exguid_eqb r c s).

(** /repo/src/fsshttpb/data_element/storage_manifest.rs:23-46 *)
Definition storage_manifest_parse_n : counted storage_manifest :=
  try_parse_16_n StorageManifest ~;;
  id <~ guid_parse_n ;;
  roots <~ until_end_8_n DataElement storage_manifest_item_n [] ;;
  nret (StorageManifestV id roots).

(** /repo/src/fsshttpb/data_element/object_group.rs:223-267 *)
Definition odecl_item_n (s : list odecl) : counted (list odecl) :=
  h <~ header_parse_n ;;
  match oh_type h with
  | ObjectGroupObject =>
    i <~ exguid_parse_n ;; p <~ compact_parse_n ;; d <~ compact_parse_n ;;
    o <~ compact_parse_n ;; c <~ compact_parse_n ;;
    nret (s ++ [DeclObject i p d o c])
  | ObjectGroupDataBlob =>
    i <~ exguid_parse_n ;; b <~ exguid_parse_n ;; p <~ compact_parse_n ;;
    o <~ compact_parse_n ;; c <~ compact_parse_n ;;
    nret (s ++ [DeclBlob i b p o c])
  | _ => nfail MalformedFssHttpBData
  end.

(** /repo/src/fsshttpb/data_element/object_group.rs:218-272 *)
Definition odecls_parse_n : counted (list odecl) :=
  try_parse_n ObjectGroupDeclaration ~;;
  until_end_8_n ObjectGroupDeclaration odecl_item_n [].

(** /repo/src/fsshttpb/data_element/object_group.rs:277-288 *)
Definition ometa_item_n (s : list N) : counted (list N) :=
  try_parse_32_n ObjectGroupMetadata ~;;
  f <~ compact_parse_n ;;
  v <~ nlift (change_frequency f) ;;
  nret (s ++ [v]).

(** /repo/src/fsshttpb/data_element/object_group.rs:274-293 *)
Definition ometa_parse_n : counted (list N) :=
  until_end_8_n ObjectGroupMetadataBlock ometa_item_n [].

(** /repo/src/fsshttpb/data_element/object_group.rs:298-337 *)
Definition odata_item_n (s : list odata) : counted (list odata) :=
  h <~ header_parse_n ;;
  match oh_type h with
  | ObjectGroupDataExcluded =>
    g <~ exguid_parse_array_n ;; c <~ cellid_parse_array_n ;; n <~ compact_parse_n ;;
    nret (s ++ [DataExcluded g c n])
  | ObjectGroupDataObject =>
    g <~ exguid_parse_array_n ;; c <~ cellid_parse_array_n ;; d <~ binary_item_parse_n ;;
    nret (s ++ [DataObject g c d])
  | ObjectGroupBlobReference =>
    g <~ exguid_parse_array_n ;; c <~ cellid_parse_array_n ;; b <~ exguid_parse_n ;;
    nret (s ++ [DataBlobRef g c b])
  | _ => nfail MalformedFssHttpBData
  end.

(** /repo/src/fsshttpb/data_element/object_group.rs:295-342 *)
Definition odata_parse_n : counted (list odata) :=
  until_end_8_n ObjectGroupData odata_item_n [].

(** /repo/src/fsshttpb/data_element/object_group.rs:180-216 *)
Definition object_group_parse_n : counted object_group :=
  decls <~ odecls_parse_n ;;
  h <~ header_parse_n ;;
  metadata <~ match oh_type h with
              | ObjectGroupMetadataBlock =>
                m <~ ometa_parse_n ;;
                h2 <~ header_parse_n ;;
                if otype_eqb (oh_type h2) ObjectGroupData then nret m
                else nfail MalformedFssHttpBData
              | ObjectGroupData => nret []
              | _ => nfail MalformedFssHttpBData
              end ;;
  objects <~ odata_parse_n ;;
  try_parse_end_8_n DataElement ~;;
  nret (ObjectGroup decls metadata objects).

(** /repo/src/fsshttpb/data_element/mod.rs:183-225 *)
Definition element_body_n (id : exguid) (ty : N) (p : package) : counted package :=
  let '(Package si sm ce re og fr bl) := p in
  if ty =? 0x01 then
    v <~ storage_index_parse_n ;; nret (Package (ins id v si) sm ce re og fr bl)
  else if ty =? 0x02 then
    v <~ storage_manifest_parse_n ;; nret (Package si (ins id v sm) ce re og fr bl)
  else if ty =? 0x03 then
    v <~ cell_manifest_parse_n ;; nret (Package si sm (ins id v ce) re og fr bl)
  else if ty =? 0x04 then
    v <~ revision_manifest_parse_n ;; nret (Package si sm ce (ins id v re) og fr bl)
  else if ty =? 0x05 then
    v <~ object_group_parse_n ;; nret (Package si sm ce re (ins id v og) fr bl)
  else if ty =? 0x06 then
    v <~ fragment_parse_n ;; nret (Package si sm ce re og (ins id v fr) bl)
  else if ty =? 0x0A then
    v <~ blob_parse_n ;; nret (Package si sm ce re og fr (ins id v bl))
  else nfail MalformedFssHttpBData.

(** /repo/src/fsshttpb/data_element/mod.rs:176-228 *)
Definition element_parse_n (p : package) : counted package :=
  try_parse_16_n DataElement ~;;
  id <~ exguid_parse_n ;;
  _s <~ serial_parse_n ;;
  ty <~ compact_parse_n ;;
  element_body_n id ty p.

(** /repo/src/fsshttpb/data_element/mod.rs:42-70 *)
Definition package_parse_n : counted package :=
  try_parse_16_n DataElementPackage ~;;
  pad <~ get_u8_n ;;
  if negb (pad =? 0) then nfail MalformedFssHttpBData
  else until_end_8_n DataElementPackage element_parse_n package_empty.

(** /repo/src/fsshttpb/packaging.rs:135-164 *)
Definition parse_legacy_n (file_type file legacy_version file_format : guid)
  : counted packaging :=
  pad <~ get_u32_n ;;
  if negb (pad =? 0) then nfail MalformedFssHttpBData
  else
    try_parse_32_n OneNotePackaging ~;;
    si <~ exguid_parse_n ;;
    schema <~ guid_parse_n ;;
    pk <~ package_parse_n ;;
    try_parse_end_16_n OneNotePackaging ~;;
    nret (Packaging file_type file legacy_version file_format si schema pk).

(** /repo/src/fsshttpb/packaging.rs:166-171 *)
Definition fcr64x32_parse_n : counted (N * N) :=
  stp <~ get_u64_n ;; cb <~ get_u32_n ;; nret (stp, cb).

(** /repo/src/fsshttpb/packaging.rs:72-73 *)
Definition version_check_n : counted unit :=
  v <~ get_u32_n ;;
  if negb (v =? 0x2A) && negb (v =? 0x1B) then nfail MalformedFssHttpBData
  else nret tt.

(** /repo/src/fsshttpb/packaging.rs:71-113 *)
Definition revision_store_header_n : counted (N * N) :=
  version_check_n ~;;
  version_check_n ~;;
  version_check_n ~;;
  version_check_n ~;;
  _free_chunk_list <~ get_u64_n ;;
  _legacy_transaction_log <~ get_u64_n ;;
  _transaction_count <~ get_u32_n ;;
  _expected_file_length <~ get_u32_n ;;
  _placeholder <~ get_u64_n ;;
  _file_node_list_root <~ get_u64_n ;;
  _free_space <~ get_u32_n ;;
  _needs_defrag <~ get_u8_n ;;
  _repaired <~ get_u8_n ;;
  _needs_gc <~ get_u8_n ;;
  _no_embedded <~ get_u8_n ;;
  _ancestor <~ guid_parse_n ;;
  _crc_name <~ get_u32_n ;;
  _hashed_chunk_list <~ fcr64x32_parse_n ;;
  fcr64x32_parse_n.

(** /repo/src/fsshttpb/packaging.rs:63-133 *)
Definition parse_packaging_n (start : N) : counted packaging :=
  log <~ revision_store_header_n ;;
  (fun bs =>
     let read_n := start - remaining bs in
     (offset <~ nlift (log_offset log read_n) ;;
      advance_n offset ~;;
      file_type <~ guid_parse_n ;;
      file <~ guid_parse_n ;;
      legacy_version <~ guid_parse_n ;;
      file_format <~ guid_parse_n ;;
      parse_legacy_n file_type file legacy_version file_format) bs).

(** /repo/src/fsshttpb/packaging.rs:27-61 *)
Definition packaging_parse_n : counted packaging :=
  fun bs0 =>
    let start := remaining bs0 in
    (file_type <~ guid_parse_n ;;
     file <~ guid_parse_n ;;
     legacy_version <~ guid_parse_n ;;
     file_format <~ guid_parse_n ;;
     if file_format =? package_store_format then
       parse_legacy_n file_type file legacy_version file_format
     else if negb (file_format =? revision_store_format) then
       nfail MalformedOneStoreData
     else if negb (guid_is_nil legacy_version) then
       parse_legacy_n file_type file legacy_version file_format
     else parse_packaging_n start) bs0.

(** ** Property sets: as in [PropSet.v] *)

(** /repo/src/onestore/types/compact_id.rs:16-23 *)
Definition compactid_parse_n : counted compactid :=
  data <~ get_u32_n ;;
  nret (CompactId (N.land data 0xFF) (N.shiftr data 8)).

(** /repo/src/onestore/types/object_stream_header.rs:17-29 *)
Definition stream_header_parse_n : counted stream_header :=
  data <~ get_u32_n ;;
  nret (StreamHeader (N.land data 0xFFFFFF)
                     (negb (N.land (N.shiftr data 30) 1 =? 0))
                     (negb (N.shiftr data 31 =? 0))).

(** /repo/src/onestore/types/property.rs:205-207 *)
Definition pid_parse_n : counted N := get_u32_n.

(** /repo/src/onestore/types/property.rs:151-156 *)
Definition pvec_parse_n : counted pvalue :=
  size <~ get_u32_n ;;
  d <~ read_n size ;;
  nret (VVec d).

(** /repo/src/onestore/types/property.rs:116-149 *)
Definition pvalue_parse_n (ps : counted propset) (f : nat) (id : N) : counted pvalue :=
  match pid_type id with
  | 0x1 => nret VEmpty
  | 0x2 => nret (VBool (pid_bool id))
  | 0x3 => v <~ get_u8_n ;; nret (VU8 v)
  | 0x4 => v <~ get_u16_n ;; nret (VU16 v)
  | 0x5 => v <~ get_u32_n ;; nret (VU32 v)
  | 0x6 => v <~ get_u64_n ;; nret (VU64 v)
  | 0x7 => pvec_parse_n
  | 0x8 => nret VObjectId
  | 0x9 => n <~ get_u32_n ;; nret (VObjectIds n)
  | 0xA => nret VObjectSpaceId
  | 0xB => n <~ get_u32_n ;; nret (VObjectSpaceIds n)
  | 0xC => nret VContextId
  | 0xD => n <~ get_u32_n ;; nret (VContextIds n)
  | 0x10 =>
    size <~ get_u32_n ;;
    pid <~ pid_parse_n ;;
    sets <~ rep_fuel_n ps f size ;;
    nret (VPropertyValues pid sets)
  | 0x11 => s <~ ps ;; nret (VPropertySet s)
  | _ => nfail MalformedOneStoreData
  end.

(** /repo/src/onestore/types/prop_set.rs:24-28 *)
Fixpoint pvalues_parse_n (pv : N -> counted pvalue) (idx : N) (ids : list N)
         (m : propset) : counted propset :=
  match ids with
  | [] => nret m
  | id :: r =>
    v <~ pv id ;;
    turn ~;;
    pvalues_parse_n pv (idx + 1) r (ainsert N.eqb (pid_id id) (idx, v) m)
  end.

(** /repo/src/onestore/types/prop_set.rs:17-31 *)
Fixpoint propset_fuel_n (fuel : nat) : counted propset :=
  match fuel with
  | O => fun _ => (0%nat, OutOfFuel)
  | S f =>
    count <~ get_u16_n ;;
    ids <~ rep_n count pid_parse_n ;;
    pvalues_parse_n (pvalue_parse_n (propset_fuel_n f) f) 0 ids []
  end.

Definition propset_parse_n : counted propset :=
  fun bs => propset_fuel_n (S (length bs)) bs.

(** /repo/src/onestore/types/object_prop_set.rs:41-73 *)
Definition oprops_parse_n : counted oprops :=
  h <~ stream_header_parse_n ;;
  oids <~ rep_n (sh_count h) compactid_parse_n ;;
  sc <~ (if sh_osid_absent h then nret ([], [])
         else
           h2 <~ stream_header_parse_n ;;
           sids <~ rep_n (sh_count h2) compactid_parse_n ;;
           cids <~ (if sh_extended h2 then
                      h3 <~ stream_header_parse_n ;;
                      rep_n (sh_count h3) compactid_parse_n
                    else nret []) ;;
           nret (sids, cids)) ;;
  p <~ propset_parse_n ;;
  nret (OProps oids (fst sc) (snd sc) p).
