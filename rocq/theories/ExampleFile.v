(** A writer for example files, used only in [Example]s and in witnesses of
    [_refuted] theorems: it turns the abstract syntax of [SpecPackage.v] and
    [SpecPropSet.v] into bytes, always choosing one fixed encoding. WriterProofs.v
    proves that the container it writes is in the format. *)
From Verif Require Import Base Codec SpecCodec Package SpecPackage PropSet SpecPropSet.

Definition w_compact (v : N) : list N := if v =? 0 then [0] else 0x80 :: le_bytes 8 v.
Definition w_exguid (x : exguid) : list N :=
  if exguid_is_nil x then [0] else 128 :: le_bytes 4 (eg_value x) ++ guid_enc (eg_guid x).
Definition w_cellid (c : cellid) : list N := w_exguid (fst c) ++ w_exguid (snd c).
Definition w_serial (s : serial) : list N := 128 :: guid_enc (sn_guid s) ++ le_bytes 8 (sn_serial s).
Definition w_array {A} (f : A -> list N) (l : list A) : list N :=
  w_compact (N.of_nat (length l)) ++ flat_map f l.
Definition w_h16 (t : otype) : list N := le_bytes 2 (otype_code t * 8).
Definition w_h32 (t : otype) : list N := le_bytes 4 (2 + otype_code t * 8).
Definition w_fin8 (t : otype) : list N := [1 + otype_code t * 4].
Definition w_fin16 (t : otype) : list N := le_bytes 2 (3 + otype_code t * 4).

Definition w_index_item (i : index_item) : list N :=
  match i with
  | IxManifest m s => w_h16 StorageIndexManifestMapping ++ w_exguid m ++ w_serial s
  | IxCell c m s => w_h16 StorageIndexCellMapping ++ w_cellid c ++ w_exguid m ++ w_serial s
  | IxRevision r m s => w_h16 StorageIndexRevisionMapping ++ w_exguid r ++ w_exguid m ++ w_serial s
  end.
Definition w_rev_item (i : rev_item) : list N :=
  match i with
  | RvRoot r o => w_h16 RevisionManifestRoot ++ w_exguid r ++ w_exguid o
  | RvGroup g => w_h16 RevisionManifestGroupReference ++ w_exguid g
  end.
Definition w_decl (d : odecl) : list N :=
  match d with
  | DeclObject i p s o c =>
    w_h16 ObjectGroupObject ++ w_exguid i ++ w_compact p ++ w_compact s ++ w_compact o ++ w_compact c
  | DeclBlob i b p o c =>
    w_h16 ObjectGroupDataBlob ++ w_exguid i ++ w_exguid b ++ w_compact p ++ w_compact o ++ w_compact c
  end.
Definition w_data (d : odata) : list N :=
  match d with
  | DataObject g c b =>
    w_h16 ObjectGroupDataObject ++ w_array w_exguid g ++ w_array w_cellid c ++ w_array (fun b => [b]) b
  | DataExcluded g c n =>
    w_h16 ObjectGroupDataExcluded ++ w_array w_exguid g ++ w_array w_cellid c ++ w_compact n
  | DataBlobRef g c b =>
    w_h16 ObjectGroupBlobReference ++ w_array w_exguid g ++ w_array w_cellid c ++ w_exguid b
  end.
Definition w_body (x : element) : list N :=
  match x with
  | ElIndex items => flat_map w_index_item items
  | ElManifest g roots => w_h16 StorageManifest ++ guid_enc g
      ++ flat_map (fun r => w_h16 StorageManifestRoot ++ w_exguid (fst r) ++ w_cellid (snd r)) roots
  | ElCell r => w_h16 CellManifest ++ w_exguid r
  | ElRevision r b items =>
    w_h16 RevisionManifest ++ w_exguid r ++ w_exguid b ++ flat_map w_rev_item items
  | ElGroup decls data =>
    w_h16 ObjectGroupDeclaration ++ flat_map w_decl decls ++ w_fin8 ObjectGroupDeclaration
    ++ w_h16 ObjectGroupData ++ flat_map w_data data ++ w_fin8 ObjectGroupData
  | ElBlob bs => w_h16 ObjectDataBlob ++ w_array (fun b => [b]) bs
  end.
Definition w_elem (x : elem) : list N :=
  w_h16 DataElement ++ w_exguid (el_id x) ++ w_serial (el_serial x)
  ++ w_compact (kind (el_content x)) ++ w_body (el_content x) ++ w_fin8 DataElement.
(** A whole file in the plain layout. *)
Definition w_file (ft : guid) (index : exguid) (els : list elem) : list N :=
  guid_enc ft ++ guid_enc 1 ++ guid_enc 0 ++ guid_enc 0x638DE92FA6D44BC19A36B3FC2511A5B7
  ++ le_bytes 4 0 ++ w_h32 OneNotePackaging ++ w_exguid index ++ guid_enc 5
  ++ w_h16 DataElementPackage ++ [0] ++ flat_map w_elem els ++ w_fin8 DataElementPackage
  ++ w_fin16 OneNotePackaging.

(** Property sets and objects. *)
Definition w_propid (p : N * sval) : list N :=
  le_bytes 4 (fst p + stype (snd p) * 2 ^ 26
              + match snd p with SBool true => 2 ^ 31 | _ => 0 end).
Definition w_props (V : sval -> list N) (s : list (N * sval)) : list N :=
  le_bytes 2 (N.of_nat (length s)) ++ flat_map w_propid s
  ++ (fix go s := match s with [] => [] | p :: r => V (snd p) ++ go r end) s.
Fixpoint w_val (v : sval) : list N :=
  match v with
  | SEmpty | SBool _ | SObjectId | SSpaceId | SContextId => []
  | SU8 n => le_bytes 1 n
  | SU16 n => le_bytes 2 n
  | SU32 n => le_bytes 4 n
  | SU64 n => le_bytes 8 n
  | SVec d => le_bytes 4 (N.of_nat (length d)) ++ d
  | SObjectIds n | SSpaceIds n | SContextIds n => le_bytes 4 n
  | SValues id sets =>
    le_bytes 4 (N.of_nat (length sets)) ++ le_bytes 4 id
    ++ (fix go ss := match ss with [] => [] | s :: r => w_props w_val s ++ go r end) sets
  | SSet s => w_props w_val s
  end.
Definition w_cid (c : compactid) : list N := le_bytes 4 (ci_n c + ci_index c * 2 ^ 8).
Definition w_ids (ext absent : bool) (l : list compactid) : list N :=
  le_bytes 4 (N.of_nat (length l) + flag ext * 2 ^ 30 + flag absent * 2 ^ 31) ++ flat_map w_cid l.
Definition w_oset (o : oset) : list N :=
  match os_spaces o with
  | None => w_ids false true (os_objects o)
  | Some (sp, None) => w_ids false false (os_objects o) ++ w_ids false false sp
  | Some (sp, Some ctx) =>
    w_ids false false (os_objects o) ++ w_ids true false sp ++ w_ids false false ctx
  end ++ w_props w_val (os_props o).

(** An object in a group: metadata (its type) and data. References are given as
    extended GUIDs; compact ids are numbered per list. *)
Record ex_object := ExObject {
  xo_id : exguid; xo_jcid : N; xo_props : list (N * sval);
  xo_refs : list exguid; xo_cells : list cellid }.
Definition cids (base : N) (n : nat) : list compactid :=
  map (fun i => CompactId base (N.of_nat i)) (seq 0 n).
Definition w_object (o : ex_object) : list N :=
  w_oset (OSet (cids 1 (length (xo_refs o)))
               (match xo_cells o with [] => None | _ => Some (cids 2 (length (xo_cells o)), None) end)
               (xo_props o)).
Definition ex_group (os : list ex_object) : element :=
  ElGroup (flat_map (fun o => [DeclObject (xo_id o) 4 0 0 0; DeclObject (xo_id o) 1 0 0 0]) os)
          (flat_map (fun o => [DataObject [] [] (le_bytes 4 (xo_jcid o));
                               DataObject (xo_refs o) (xo_cells o) (w_object o)]) os).

(** Identifiers used throughout. *)
Definition xid (n : N) : exguid := ExGuid 0xE1 n.
Definition xser (n : N) : serial := Serial 0xE2 n.
Definition xel (n : N) (c : element) : elem := Elem (xid n) (xser n) c.

(** The header object every store needs. *)
Definition ex_header : ex_object :=
  ExObject (xid 900) 0x20001 [(0x1D94, SVec (guid_enc 7)); (0x1D95, SVec (guid_enc 8)); (0x1D99, SU32 3); (0x1D93, SU32 99)] [] [].
Definition header_cell : cellid := (xid 901, xid 902).
Definition root_cell : cellid := (xid 1, xid 2).

(** The elements every example store shares: index 10 with the given cell and
    revision mappings, manifest 11, header cell. *)
Definition ex_base (schema : guid) (items : list index_item) : list elem :=
  [ xel 10 (ElIndex (IxCell header_cell (xid 20) (xser 20) :: items));
    xel 11 (ElManifest schema
      [(ExGuid 0x1A5A319CC26B41AAB9C59BD8C44E07D4 1, header_cell);
       (ExGuid 0x84DEFAB9AAA34A0DA3A8520C77AC7073 2, root_cell)]);
    xel 20 (ElCell (xid 21));
    xel 21 (ElRevision (xid 21) (ExGuid 0 0) [RvGroup (xid 22)]);
    xel 22 (ex_group [ex_header]) ].

Definition ex_file (schema : guid) (items : list index_item) (els : list elem) : list N :=
  w_file 0xE4525C7B8CD8A7AEB15378D02996D3 (xid 10) (ex_base schema items ++ els).
