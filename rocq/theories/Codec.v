(** Primitive encodings of the FSSHTTPB layer and the shared decoders.
    Models /repo/src/fsshttpb/data/*.rs, /repo/src/shared/*.rs and
    /repo/src/utils.rs. *)
From Verif Require Import Base.

(** The cast [x as u8]. *)
Definition as_u8 (x : N) : N := N.modulo x 256.

(** Big-endian value of a byte list, used only to name a [Uuid] by its 128-bit
    number (the number whose hexadecimal digits are its textual form). *)
Definition be (bs : list N) : N := fold_left (fun acc b => acc * 256 + b) bs 0.

(** /repo/src/shared/guid.rs:15-16. A [Guid] is the 128-bit big-endian number of
    its [Uuid] bytes. *)
Definition guid := N.

(** /repo/src/shared/guid.rs:23-51 *)
Definition guid_parse : parser guid :=
  v <- get_u128 ;;
  pret (be [ as_u8 (N.shiftr v 24); as_u8 (N.shiftr v 16);
             as_u8 (N.shiftr v 8); as_u8 v;
             as_u8 (N.shiftr v 40); as_u8 (N.shiftr v 32);
             as_u8 (N.shiftr v 56); as_u8 (N.shiftr v 48);
             as_u8 (N.shiftr v 64); as_u8 (N.shiftr v 72);
             as_u8 (N.shiftr v 80); as_u8 (N.shiftr v 88);
             as_u8 (N.shiftr v 96); as_u8 (N.shiftr v 104);
             as_u8 (N.shiftr v 112); as_u8 (N.shiftr v 120) ]).

(** /repo/src/shared/guid.rs:53-59 *)
Definition guid_nil : guid := 0.
Definition guid_is_nil (g : guid) : bool := g =? 0.

(** /repo/src/fsshttpb/data/compact_u64.rs:23-117. The three- to seven-byte
    forms index [bytes[i]] after checking [remaining() < k] and then advance by
    [k]; that is a [read k]. *)
Definition compact_parse : parser N :=
  with_peek (fun first_byte =>
    if first_byte =? 0 then advance 1 ;;; pret 0
    else if negb (N.land first_byte 1 =? 0) then
      v <- get_u8 ;; pret (N.shiftr v 1)
    else if negb (N.land first_byte 2 =? 0) then
      v <- get_u16 ;; pret (N.shiftr v 2)
    else if negb (N.land first_byte 4 =? 0) then
      bs <- read 3 ;; pret (N.shiftr (le bs) 3)
    else if negb (N.land first_byte 8 =? 0) then
      bs <- read 4 ;; pret (N.shiftr (le bs) 4)
    else if negb (N.land first_byte 16 =? 0) then
      bs <- read 5 ;; pret (N.shiftr (le bs) 5)
    else if negb (N.land first_byte 32 =? 0) then
      bs <- read 6 ;; pret (N.shiftr (le bs) 6)
    else if negb (N.land first_byte 64 =? 0) then
      bs <- read 7 ;; pret (N.shiftr (le bs) 7)
    else if negb (N.land first_byte 128 =? 0) then
      advance 1 ;;; get_u64
    else pfail MalformedFssHttpBData).

(** /repo/src/fsshttpb/data/exguid.rs:12-16 *)
Record exguid := ExGuid { eg_guid : guid; eg_value : N }.

(** The derived [PartialEq] of exguid.rs:12. *)
Definition exguid_eqb (a b : exguid) : bool :=
  (eg_guid a =? eg_guid b) && (eg_value a =? eg_value b).

(** /repo/src/fsshttpb/data/exguid.rs:19-21 *)
Definition exguid_is_nil (e : exguid) : bool :=
  guid_is_nil (eg_guid e) && (eg_value e =? 0).

(** /repo/src/fsshttpb/data/exguid.rs:23-25 *)
Definition exguid_as_option (e : exguid) : option exguid :=
  if exguid_is_nil e then None else Some e.

(** /repo/src/fsshttpb/data/exguid.rs:31-84 *)
Definition exguid_parse : parser exguid :=
  data <- get_u8 ;;
  if data =? 0 then pret (ExGuid guid_nil 0)
  else if N.land data 7 =? 4 then
    g <- guid_parse ;; pret (ExGuid g (N.shiftr data 3))
  else if N.land data 63 =? 32 then
    hi <- get_u8 ;;
    g <- guid_parse ;;
    pret (ExGuid g (N.lor (N.shiftl hi 2) (N.shiftr data 6)))
  else if N.land data 127 =? 64 then
    hi <- get_u16 ;;
    g <- guid_parse ;;
    pret (ExGuid g (N.lor (N.shiftl hi 1) (N.shiftr data 7)))
  else if data =? 128 then
    v <- get_u32 ;;
    g <- guid_parse ;;
    pret (ExGuid g v)
  else pfail MalformedData.

(** /repo/src/fsshttpb/data/exguid.rs:91-100 *)
Definition exguid_parse_array : parser (list exguid) :=
  n <- compact_parse ;; rep n exguid_parse.

(** /repo/src/fsshttpb/data/cell_id.rs:12-13 *)
Definition cellid := (exguid * exguid)%type.

(** The derived [PartialEq] of cell_id.rs:12. *)
Definition cellid_eqb (a b : cellid) : bool :=
  exguid_eqb (fst a) (fst b) && exguid_eqb (snd a) (snd b).

(** /repo/src/fsshttpb/data/cell_id.rs:16-21 *)
Definition cellid_parse : parser cellid :=
  a <- exguid_parse ;; b <- exguid_parse ;; pret (a, b).

(** /repo/src/fsshttpb/data/cell_id.rs:23-32 *)
Definition cellid_parse_array : parser (list cellid) :=
  n <- compact_parse ;; rep n cellid_parse.

(** /repo/src/fsshttpb/data/binary_item.rs:13-18. [size as usize] is the
    identity on a 64-bit target. *)
Definition binary_item_parse : parser (list N) :=
  n <- compact_parse ;; read n.

(** /repo/src/fsshttpb/data/serial_number.rs:12-15 *)
Record serial := Serial { sn_guid : guid; sn_serial : N }.

(** /repo/src/fsshttpb/data/serial_number.rs:18-34 *)
Definition serial_parse : parser serial :=
  ty <- get_u8 ;;
  if ty =? 0 then pret (Serial guid_nil 0)
  else g <- guid_parse ;; s <- get_u64 ;; pret (Serial g s).

(** /repo/src/fsshttpb/data/object_types.rs:14-44 *)
Inductive otype :=
| CellManifest
| DataElement
| DataElementFragment
| DataElementPackage
| ObjectDataBlob
| ObjectGroupBlobReference
| ObjectGroupData
| ObjectGroupDataBlob
| ObjectGroupDataExcluded
| ObjectGroupDataObject
| ObjectGroupDeclaration
| ObjectGroupMetadata
| ObjectGroupMetadataBlock
| ObjectGroupObject
| OneNotePackaging
| RevisionManifest
| RevisionManifestGroupReference
| RevisionManifestRoot
| StorageIndexCellMapping
| StorageIndexManifestMapping
| StorageIndexRevisionMapping
| StorageManifest
| StorageManifestRoot.

(** The discriminants of object_types.rs:15-44 ([ToPrimitive]). *)
Definition otype_code (t : otype) : N :=
  match t with
  | CellManifest => 0x0B
  | DataElement => 0x01
  | DataElementFragment => 0x6A
  | DataElementPackage => 0x15
  | ObjectDataBlob => 0x02
  | ObjectGroupBlobReference => 0x1C
  | ObjectGroupData => 0x1E
  | ObjectGroupDataBlob => 0x05
  | ObjectGroupDataExcluded => 0x03
  | ObjectGroupDataObject => 0x16
  | ObjectGroupDeclaration => 0x1D
  | ObjectGroupMetadata => 0x78
  | ObjectGroupMetadataBlock => 0x79
  | ObjectGroupObject => 0x18
  | OneNotePackaging => 0x7A
  | RevisionManifest => 0x1A
  | RevisionManifestGroupReference => 0x19
  | RevisionManifestRoot => 0x0A
  | StorageIndexCellMapping => 0x0E
  | StorageIndexManifestMapping => 0x11
  | StorageIndexRevisionMapping => 0x0D
  | StorageManifest => 0x0C
  | StorageManifestRoot => 0x07
  end.

Definition all_otypes : list otype :=
  [CellManifest; DataElement; DataElementFragment; DataElementPackage;
   ObjectDataBlob; ObjectGroupBlobReference; ObjectGroupData;
   ObjectGroupDataBlob; ObjectGroupDataExcluded; ObjectGroupDataObject;
   ObjectGroupDeclaration; ObjectGroupMetadata; ObjectGroupMetadataBlock;
   ObjectGroupObject; OneNotePackaging; RevisionManifest;
   RevisionManifestGroupReference; RevisionManifestRoot;
   StorageIndexCellMapping; StorageIndexManifestMapping;
   StorageIndexRevisionMapping; StorageManifest; StorageManifestRoot].

(** [ObjectType::from_u8/from_u16/from_u32] (derived [FromPrimitive]). *)
Definition otype_of (v : N) : option otype :=
  find (fun t => otype_code t =? v) all_otypes.

(** The derived [PartialEq] of object_types.rs:14. *)
Definition otype_eqb (a b : otype) : bool := otype_code a =? otype_code b.

(** /repo/src/fsshttpb/data/stream_object.rs:14-18 *)
Record oheader := OHeader { oh_compound : bool; oh_type : otype; oh_length : N }.

(** /repo/src/fsshttpb/data/stream_object.rs:48-80 *)
Definition header_parse_16 : parser oheader :=
  data <- get_u16 ;;
  if negb (N.land data 3 =? 0) then pfail MalformedFssHttpBData
  else
    let compound := N.land data 4 =? 4 in
    match otype_of (N.land (N.shiftr data 3) 0x3f) with
    | None => pfail MalformedFssHttpBData
    | Some t => pret (OHeader compound t (N.shiftr data 9))
    end.

(** /repo/src/fsshttpb/data/stream_object.rs:91-127 *)
Definition header_parse_32 : parser oheader :=
  data <- get_u32 ;;
  if negb (N.land data 3 =? 2) then pfail MalformedFssHttpBData
  else
    let compound := N.land data 4 =? 4 in
    match otype_of (N.land (N.shiftr data 3) 0x3fff) with
    | None => pfail MalformedFssHttpBData
    | Some t =>
      let length := N.shiftr data 17 in
      if length =? 0x7fff then
        l <- compact_parse ;; pret (OHeader compound t l)
      else pret (OHeader compound t length)
    end.

(** /repo/src/fsshttpb/data/stream_object.rs:26-37 *)
Definition header_parse : parser oheader :=
  with_peek (fun b =>
    let ht := N.land b 3 in
    if ht =? 0 then header_parse_16
    else if ht =? 2 then header_parse_32
    else pfail MalformedFssHttpBData).

(** /repo/src/fsshttpb/data/stream_object.rs:138-162 *)
Definition end_parse_16 : parser otype :=
  data <- get_u16 ;;
  if negb (N.land data 3 =? 3) then pfail MalformedFssHttpBData
  else
    match otype_of (N.shiftr data 2) with
    | Some t => pret t
    | None => pfail MalformedFssHttpBData
    end.

(** /repo/src/fsshttpb/data/stream_object.rs:173-197 *)
Definition end_parse_8 : parser otype :=
  data <- get_u8 ;;
  if negb (N.land data 3 =? 1) then pfail MalformedFssHttpBData
  else
    match otype_of (N.shiftr data 2) with
    | Some t => pret t
    | None => pfail MalformedFssHttpBData
    end.

(** /repo/src/fsshttpb/data/stream_object.rs:199-206, on the peeked byte.
    [to_u8] never fails: all discriminants are below 256. *)
Definition is_end_8 (t : otype) (b : N) : bool :=
  (N.land b 3 =? 1) && (N.shiftr b 2 =? otype_code t).

(** /repo/src/fsshttpb/data/stream_object.rs:208-221 *)
Definition try_parse_start (p : parser oheader) (t : otype) : parser unit :=
  h <- p ;;
  if otype_eqb (oh_type h) t then pret tt else pfail MalformedFssHttpBData.

(** /repo/src/fsshttpb/data/stream_object.rs:223-236 *)
Definition try_parse_end (p : parser otype) (t : otype) : parser unit :=
  h <- p ;;
  if otype_eqb h t then pret tt else pfail MalformedFssHttpBData.

(** /repo/src/fsshttpb/data/stream_object.rs:21-23, 39-41, 82-84, 129-131, 164-166 *)
Definition try_parse := try_parse_start header_parse.
Definition try_parse_16 := try_parse_start header_parse_16.
Definition try_parse_32 := try_parse_start header_parse_32.
Definition try_parse_end_16 := try_parse_end end_parse_16.
Definition try_parse_end_8 := try_parse_end end_parse_8.

(** [loop { if has_end_8(t)? {break;} body }; try_parse_end_8(t)?], the shape of
    every element loop in /repo/src/fsshttpb/data_element. *)
Definition until_end_8 {A} (t : otype) (body : A -> parser A) (s : A) : parser A :=
  until (is_end_8 t) (try_parse_end_8 t) body s.

(** ** Multi-byte integers: /repo/src/shared/multi_byte.rs *)

(** /repo/src/shared/multi_byte.rs:58-94, the [for byte in data] loop.
    [<< shift] on [u64] drops the bits above bit 63. *)
Fixpoint decode_uint_loop (data : list N) (value : N) (count : N) : res (N * N) :=
  match data with
  | [] => Ok (value, count)
  | byte :: rest =>
    if count =? 10 then Err MalformedOneNoteFileData
    else
      let shift := count * 7 in
      if 64 <=? shift then Err MalformedOneNoteFileData
      else
        let flag := N.land byte 0x80 =? 0x80 in
        let value' :=
          N.lor value (N.modulo (N.shiftl (N.land byte 0x7f) shift) (2 ^ 64)) in
        if flag then decode_uint_loop rest value' (count + 1)
        else Ok (value', count + 1)
  end.

(** /repo/src/shared/multi_byte.rs:58-94 *)
Definition decode_uint (data : list N) : res (N * N) :=
  let! (value, count) := decode_uint_loop data 0 0 in
  if count =? 0 then Err MalformedOneNoteFileData else Ok (value, count).

(** /repo/src/shared/multi_byte.rs:38-53, the [for _ in 0..length] loop.
    [data] is [&input[index..]]; [index >= input.len()] is emptiness of it.
    [index.checked_add] cannot fail below the input length. *)
Fixpoint decode_loop (fuel : nat) (n : N) (data : list N) : res (list N) :=
  if n =? 0 then Ok []
  else
    match fuel with
    | O => OutOfFuel
    | S f =>
      match data with
      | [] => Err MalformedOneNoteFileData
      | _ :: _ =>
        let! (value, offset) := decode_uint data in
        let! vs := decode_loop f (n - 1) (skipn (N.to_nat offset) data) in
        Ok (value :: vs)
      end
    end.

(** /repo/src/shared/multi_byte.rs:26-56 *)
Definition decode (input : list N) : res (list N) :=
  let! (len, offset) := decode_uint input in
  decode_loop (S (length input)) (N.shiftr len 1) (skipn (N.to_nat offset) input).

(** /repo/src/shared/multi_byte.rs:14-22. [value >> 1] is below [2^63], so the
    cast to [i64] and the negation are exact. *)
Definition zigzag (value : N) : Z :=
  let shifted := Z.of_N (N.shiftr value 1) in
  if N.land value 1 =? 1 then (- shifted)%Z else shifted.

(** /repo/src/shared/multi_byte.rs:10-24 *)
Definition decode_signed (input : list N) : res (list Z) :=
  let! vs := decode input in Ok (map zigzag vs).

(** ** UTF-16: /repo/src/utils.rs *)

(** [chunks_exact(2).map(u16::from_le_bytes)]: utils.rs:10-13. *)
Fixpoint u16_chunks (bs : list N) : list N :=
  match bs with
  | a :: b :: r => (a + 256 * b) :: u16_chunks r
  | _ => []
  end.

(** [U16CString::from_vec_truncate]: stops before the first nul (widestring). *)
Fixpoint truncate_nul (us : list N) : list N :=
  match us with
  | [] => []
  | u :: r => if u =? 0 then [] else u :: truncate_nul r
  end.

Definition is_high_surrogate (u : N) : bool := (0xD800 <=? u) && (u <=? 0xDBFF).
Definition is_low_surrogate (u : N) : bool := (0xDC00 <=? u) && (u <=? 0xDFFF).

(** [U16CStr::to_string] = [String::from_utf16]: strict decoding to scalar
    values, an unpaired surrogate is an error. *)
Fixpoint from_utf16 (us : list N) : option (list N) :=
  match us with
  | [] => Some []
  | u :: r =>
    if is_high_surrogate u then
      match r with
      | v :: r' =>
        if is_low_surrogate v then
          match from_utf16 r' with
          | Some s => Some (0x10000 + (u - 0xD800) * 0x400 + (v - 0xDC00) :: s)
          | None => None
          end
        else None
      | [] => None
      end
    else if is_low_surrogate u then None
    else match from_utf16 r with Some s => Some (u :: s) | None => None end
  end.

(** /repo/src/utils.rs:8-23. A [String] is its list of Unicode scalar values. *)
Definition utf16_to_string (bs : list N) : res (list N) :=
  ok_or MalformedOneNoteData (from_utf16 (truncate_nul (u16_chunks bs))).
