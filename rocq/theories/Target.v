(** Reading on a target with another size of [usize], and with or without overflow
    checks. The other model files are for targets where [usize] has 64 bits, and
    leave out that the sums of /repo/src/one/property/object_reference.rs:74-86 can
    overflow. Here [usize] is a parameter. The functions below follow those of the
    same name without [_on]; those that do not use [usize] are the same on every
    target. Files and buffers that do not fit into the memory of the target are
    outside of the model. *)
From Verif Require Import Base Codec Package PropSet PropIds Store Shapes Props.

(** [usize_count] is [usize::MAX + 1]. [overflow_checks] says whether [+] panics on
    overflow (a debug build) or wraps around (a release build). *)
Record target := Target { usize_count : N; overflow_checks : bool }.

Section On.
Context (T : target).

(** [n as usize] *)
Definition as_usize (n : N) : N := n mod usize_count T.

(** [a + b] *)
Definition usize_add (a b : N) : res N :=
  if a + b <? usize_count T then Ok (a + b)
  else if overflow_checks T then Panic else Ok ((a + b) mod usize_count T).

(** [iter.map(f).sum::<usize>()] *)
Definition usize_sum {A} (f : A -> res N) : N -> list A -> res N :=
  fix go acc l := match l with
                  | [] => Ok acc
                  | x :: r => let! n := f x in let! a := usize_add acc n in go a r
                  end.

(** ** Packages *)

(** /repo/src/fsshttpb/data/binary_item.rs:13-18 *)
Definition binary_item_parse_on : parser (list N) :=
  n <- compact_parse ;; read (as_usize n).

(** /repo/src/fsshttpb/data_element/data_element_fragment.rs:36-55 *)
Definition fragment_parse_on : parser fragment :=
  try_parse DataElementFragment ;;;
  id <- exguid_parse ;;
  size <- compact_parse ;;
  offset <- compact_parse ;;
  length <- compact_parse ;;
  data <- read (as_usize size) ;;
  pret (Fragment id size offset length data).

(** /repo/src/fsshttpb/packaging.rs:116-124 *)
Definition log_offset_on (log : N * N) (read : N) : res N :=
  let! e := fcr_end log in
  if e <? read then Err MalformedOneStoreData
  else if usize_count T - 1 <? e - read then Err MalformedOneStoreData
  else Ok (e - read).

(** ** Object data blob: /repo/src/fsshttpb/data_element/object_data_blob.rs:29-37 *)
Definition blob_parse_on : parser (list N) :=
  try_parse ObjectDataBlob ;;;
  data <- binary_item_parse_on ;;
  try_parse_end_8 DataElement ;;;
  pret data.

(** /repo/src/fsshttpb/data_element/object_group.rs:298-337, loop body *)
Definition odata_item_on (s : list odata) : parser (list odata) :=
  h <- header_parse ;;
  match oh_type h with
  | ObjectGroupDataExcluded =>
    g <- exguid_parse_array ;; c <- cellid_parse_array ;; n <- compact_parse ;;
    pret (s ++ [DataExcluded g c n])
  | ObjectGroupDataObject =>
    g <- exguid_parse_array ;; c <- cellid_parse_array ;; d <- binary_item_parse_on ;;
    pret (s ++ [DataObject g c d])
  | ObjectGroupBlobReference =>
    g <- exguid_parse_array ;; c <- cellid_parse_array ;; b <- exguid_parse ;;
    pret (s ++ [DataBlobRef g c b])
  | _ => pfail MalformedFssHttpBData
  end.

(** /repo/src/fsshttpb/data_element/object_group.rs:295-342 *)
Definition odata_parse_on : parser (list odata) :=
  until_end_8 ObjectGroupData odata_item_on [].

(** /repo/src/fsshttpb/data_element/object_group.rs:180-216 *)
Definition object_group_parse_on : parser object_group :=
  decls <- odecls_parse ;;
  h <- header_parse ;;
  metadata <- match oh_type h with
              | ObjectGroupMetadataBlock =>
                m <- ometa_parse ;;
                h2 <- header_parse ;;
                if otype_eqb (oh_type h2) ObjectGroupData then pret m
                else pfail MalformedFssHttpBData
              | ObjectGroupData => pret []
              | _ => pfail MalformedFssHttpBData
              end ;;
  objects <- odata_parse_on ;;
  try_parse_end_8 DataElement ;;;
  pret (ObjectGroup decls metadata objects).

(** /repo/src/fsshttpb/data_element/mod.rs:183-225: the [match]. *)
Definition element_body_on (id : exguid) (ty : N) (p : package) : parser package :=
  let '(Package si sm ce re og fr bl) := p in
  if ty =? 0x01 then
    v <- storage_index_parse ;; pret (Package (ins id v si) sm ce re og fr bl)
  else if ty =? 0x02 then
    v <- storage_manifest_parse ;; pret (Package si (ins id v sm) ce re og fr bl)
  else if ty =? 0x03 then
    v <- cell_manifest_parse ;; pret (Package si sm (ins id v ce) re og fr bl)
  else if ty =? 0x04 then
    v <- revision_manifest_parse ;; pret (Package si sm ce (ins id v re) og fr bl)
  else if ty =? 0x05 then
    v <- object_group_parse_on ;; pret (Package si sm ce re (ins id v og) fr bl)
  else if ty =? 0x06 then
    v <- fragment_parse_on ;; pret (Package si sm ce re og (ins id v fr) bl)
  else if ty =? 0x0A then
    v <- blob_parse_on ;; pret (Package si sm ce re og fr (ins id v bl))
  else pfail MalformedFssHttpBData.

(** /repo/src/fsshttpb/data_element/mod.rs:176-228 *)
Definition element_parse_on (p : package) : parser package :=
  try_parse_16 DataElement ;;;
  id <- exguid_parse ;;
  _s <- serial_parse ;;
  ty <- compact_parse ;;
  element_body_on id ty p.

(** /repo/src/fsshttpb/data_element/mod.rs:42-70 *)
Definition package_parse_on : parser package :=
  try_parse_16 DataElementPackage ;;;
  pad <- get_u8 ;;
  if negb (pad =? 0) then pfail MalformedFssHttpBData
  else until_end_8 DataElementPackage element_parse_on package_empty.

(** /repo/src/fsshttpb/packaging.rs:135-164 *)
Definition parse_legacy_on (file_type file legacy_version file_format : guid)
  : parser packaging :=
  pad <- get_u32 ;;
  if negb (pad =? 0) then pfail MalformedFssHttpBData
  else
    try_parse_32 OneNotePackaging ;;;
    si <- exguid_parse ;;
    schema <- guid_parse ;;
    pk <- package_parse_on ;;
    try_parse_end_16 OneNotePackaging ;;;
    pret (Packaging file_type file legacy_version file_format si schema pk).

(** /repo/src/fsshttpb/packaging.rs:63-133. [start] is the number of bytes
    remaining when [parse] was entered. *)
Definition parse_packaging_on (start : N) : parser packaging :=
  log <- revision_store_header ;;
  (fun bs =>
     let read := start - remaining bs in
     (offset <- plift (log_offset_on log read) ;;
      advance offset ;;;
      file_type <- guid_parse ;;
      file <- guid_parse ;;
      legacy_version <- guid_parse ;;
      file_format <- guid_parse ;;
      parse_legacy_on file_type file legacy_version file_format) bs).

(** /repo/src/fsshttpb/packaging.rs:27-61 *)
Definition packaging_parse_on : parser packaging :=
  fun bs0 =>
    let start := remaining bs0 in
    (file_type <- guid_parse ;;
     file <- guid_parse ;;
     legacy_version <- guid_parse ;;
     file_format <- guid_parse ;;
     if file_format =? package_store_format then
       parse_legacy_on file_type file legacy_version file_format
     else if negb (file_format =? revision_store_format) then
       pfail MalformedOneStoreData
     else if negb (guid_is_nil legacy_version) then
       parse_legacy_on file_type file legacy_version file_format
     else parse_packaging_on start) bs0.

(** ** References *)

(** /repo/src/one/property/object_reference.rs:74-86 *)
Fixpoint count_object_refs_on (v : pvalue) : res N :=
  match v with
  | VObjectId => Ok 1
  | VObjectIds c => Ok (as_usize c)
  | VPropertyValues _ sets =>
    usize_sum (fun s => usize_sum (fun e => match e with (_, (_, w)) => count_object_refs_on w end) 0 s)
              0 sets
  | _ => Ok 0
  end.

(** /repo/src/one/property/object_space_reference.rs:55-67 *)
Fixpoint count_space_refs_on (v : pvalue) : res N :=
  match v with
  | VObjectSpaceId => Ok 1
  | VObjectSpaceIds c => Ok (as_usize c)
  | VPropertyValues _ sets =>
    usize_sum (fun s => usize_sum (fun e => match e with (_, (_, w)) => count_space_refs_on w end) 0 s)
              0 sets
  | _ => Ok 0
  end.

(** /repo/src/one/property/object_reference.rs:67-72 *)
Definition object_offset_on (id : N) (o : object) : res N :=
  let! ps := predecessors id o in usize_sum count_object_refs_on 0 ps.
(** /repo/src/one/property/object_space_reference.rs:48-53 *)
Definition space_offset_on (id : N) (o : object) : res N :=
  let! ps := predecessors id o in usize_sum count_space_refs_on 0 ps.

(** /repo/src/one/property/object_reference.rs:16-34 *)
Definition prop_object_on (id : N) (o : object) : res (option exguid) :=
  let! v := get_prop to_object_id id o in
  match v with
  | None => Ok None
  | Some _ =>
    let! index := object_offset_on id o in
    let! cid := ok_or MalformedOneNoteFileData
                      (nth_error (op_object_ids (ob_props o)) (N.to_nat index)) in
    Ok (mapping_get_object (ob_mapping o) index cid)
  end.

(** /repo/src/one/property/object_reference.rs:36-65. [index + offset] (line 61) is an
    index into the list of ids and so does not overflow. *)
Definition prop_objects_on (id : N) (o : object) : res (option (list exguid)) :=
  let! v := get_prop to_object_ids id o in
  match v with
  | None => Ok None
  | Some count =>
    let! offset := object_offset_on id o in
    Ok (Some (flat_resolve (mapping_get_object (ob_mapping o)) offset
                (take (as_usize count) (skip offset (op_object_ids (ob_props o))))))
  end.

(** /repo/src/one/property/object_space_reference.rs:16-46 *)
Definition prop_spaces_on (id : N) (o : object) : res (option (list cellid)) :=
  let! v := get_prop to_object_space_ids id o in
  match v with
  | None => Ok None
  | Some count =>
    let! offset := space_offset_on id o in
    Ok (Some (flat_resolve (mapping_get_space (ob_mapping o)) 0
                (take (as_usize count) (skip offset (op_space_ids (ob_props o))))))
  end.

(** /repo/src/one/property_set/note_tag_container.rs:74-116 and
    /repo/src/one/property_set/text_run_data.rs:30-75 *)
Definition nested_object_on (prop id : N) (o : object) (props : propset) : res object :=
  let values := map (fun e => snd (snd e)) props in
  let! off := object_offset_on prop o in
  let! n := usize_sum count_object_refs_on 0 values in
  let oids := take n (skip off (op_object_ids (ob_props o))) in
  let! soff := space_offset_on prop o in
  let! m := usize_sum count_space_refs_on 0 values in
  let sids := take m (skip soff (op_object_ids (ob_props o))) in
  Ok (Object (ob_context o) id (OProps oids sids [] props) None (ob_mapping o)).
End On.
