(** Independent description of the package format ([MS-FSSHTTPB] 2.2.1.12,
    [MS-ONESTORE] 2.8), written as languages of byte strings, and of what a
    package means as a set of maps. *)
From Verif Require Import Base Codec SpecCodec Package.

(** ** Languages of byte strings *)
Definition lang := list N -> Prop.
Definition eps : lang := fun e => e = [].
Definition cat (P Q : lang) : lang := fun e => exists a b, e = a ++ b /\ P a /\ Q b.
Infix "+++" := cat (at level 60, right associativity).
Definition many {A} (E : A -> lang) : list A -> lang :=
  fix many l := match l with [] => eps | x :: r => E x +++ many r end.
Definition lit (bs : list N) : lang := fun e => e = bs.

(** ** Building blocks *)
Definition l_guid (g : guid) : lang := fun e => g < 2 ^ 128 /\ e = guid_enc g.
Definition l_exguid (x : exguid) : lang := exguid_encodes x.
Definition l_cellid (c : cellid) : lang := l_exguid (fst c) +++ l_exguid (snd c).
Definition l_serial (s : serial) : lang := serial_encodes s.
Definition l_compact (v : N) : lang := compact_encodes v.
Definition l_array {A} (E : A -> lang) (l : list A) : lang :=
  l_compact (N.of_nat (length l)) +++ many E l.
Definition l_blob (bs : list N) : lang := l_compact (N.of_nat (length bs)) +++ lit bs.
Definition l_uint (w : nat) (v : N) : lang :=
  fun e => v < 2 ^ (8 * N.of_nat w) /\ e = le_bytes w v.

(** Stream object headers of type [t]; the compound flag and the length may be
    anything the form can hold. *)
Definition h16 (t : otype) : lang := fun e => exists c n, start16_encodes c (otype_code t) n e.
Definition h32 (t : otype) : lang := fun e => exists c n, start32_encodes c (otype_code t) n e.
Definition h_any (t : otype) : lang := fun e => h16 t e \/ h32 t e.
Definition fin8 (t : otype) : lang := end8_encodes (otype_code t).
Definition fin16 (t : otype) : lang := end16_encodes (otype_code t).

(** ** Data elements *)
Inductive index_item :=
| IxManifest (mapping : exguid) (s : serial)
| IxCell (cell : cellid) (mapping : exguid) (s : serial)
| IxRevision (revision mapping : exguid) (s : serial).

Definition l_index_item (i : index_item) : lang :=
  match i with
  | IxManifest m s => h16 StorageIndexManifestMapping +++ l_exguid m +++ l_serial s
  | IxCell c m s => h16 StorageIndexCellMapping +++ l_cellid c +++ l_exguid m +++ l_serial s
  | IxRevision r m s =>
    h16 StorageIndexRevisionMapping +++ l_exguid r +++ l_exguid m +++ l_serial s
  end.

Inductive rev_item :=
| RvRoot (root object : exguid)
| RvGroup (group : exguid).

Definition l_rev_item (i : rev_item) : lang :=
  match i with
  | RvRoot r o => h16 RevisionManifestRoot +++ l_exguid r +++ l_exguid o
  | RvGroup g => h16 RevisionManifestGroupReference +++ l_exguid g
  end.

Definition l_root (r : exguid * cellid) : lang :=
  h16 StorageManifestRoot +++ l_exguid (fst r) +++ l_cellid (snd r).

Definition l_decl (d : odecl) : lang :=
  match d with
  | DeclObject i p s o c =>
    h_any ObjectGroupObject +++ l_exguid i +++ l_compact p +++ l_compact s +++ l_compact o
    +++ l_compact c
  | DeclBlob i b p o c =>
    h_any ObjectGroupDataBlob +++ l_exguid i +++ l_exguid b +++ l_compact p +++ l_compact o
    +++ l_compact c
  end.

Definition l_data (d : odata) : lang :=
  match d with
  | DataObject g c b =>
    h_any ObjectGroupDataObject +++ l_array l_exguid g +++ l_array l_cellid c +++ l_blob b
  | DataExcluded g c n =>
    h_any ObjectGroupDataExcluded +++ l_array l_exguid g +++ l_array l_cellid c +++ l_compact n
  | DataBlobRef g c b =>
    h_any ObjectGroupBlobReference +++ l_array l_exguid g +++ l_array l_cellid c +++ l_exguid b
  end.

Definition l_meta (f : N) : lang :=
  fun e => f <= 4 /\ (h32 ObjectGroupMetadata +++ l_compact f) e.

Inductive element :=
| ElIndex (items : list index_item)
| ElManifest (schema : guid) (roots : list (exguid * cellid))
| ElCell (revision : exguid)
| ElRevision (rev base : exguid) (items : list rev_item)
| ElGroup (decls : list odecl) (data : list odata)
| ElBlob (bytes : list N).

Definition kind (x : element) : N :=
  match x with
  | ElIndex _ => 1 | ElManifest _ _ => 2 | ElCell _ => 3 | ElRevision _ _ _ => 4
  | ElGroup _ _ => 5 | ElBlob _ => 10
  end.

Definition l_group (decls : list odecl) (data : list odata) : lang :=
  h_any ObjectGroupDeclaration +++ many l_decl decls +++ fin8 ObjectGroupDeclaration
  +++ h_any ObjectGroupData +++ many l_data data +++ fin8 ObjectGroupData.

Definition l_body (x : element) : lang :=
  match x with
  | ElIndex items => many l_index_item items
  | ElManifest g roots => h16 StorageManifest +++ l_guid g +++ many l_root roots
  | ElCell r => h16 CellManifest +++ l_exguid r
  | ElRevision r b items =>
    h16 RevisionManifest +++ l_exguid r +++ l_exguid b +++ many l_rev_item items
  | ElGroup decls data => l_group decls data
  | ElBlob bs => h_any ObjectDataBlob +++ l_blob bs
  end.

(** A data element: its identifier, serial number and content. *)
Record elem := Elem { el_id : exguid; el_serial : serial; el_content : element }.

Definition l_elem (x : elem) : lang :=
  h16 DataElement +++ l_exguid (el_id x) +++ l_serial (el_serial x)
  +++ l_compact (kind (el_content x)) +++ l_body (el_content x) +++ fin8 DataElement.

Definition l_package (els : list elem) : lang :=
  h16 DataElementPackage +++ lit [0] +++ many l_elem els +++ fin8 DataElementPackage.

(** ** The two file layouts *)
Definition l_content (index : exguid) (schema : guid) (els : list elem) : lang :=
  l_uint 4 0 +++ h32 OneNotePackaging +++ l_exguid index +++ l_guid schema
  +++ l_package els +++ fin16 OneNotePackaging.

Definition l_guids (ft f lv ff : guid) : lang :=
  l_guid ft +++ l_guid f +++ l_guid lv +++ l_guid ff.

(** [MS-ONESTORE] 2.8.1: the identifiers followed by the packaging structure. *)
Definition l_plain (ft f lv ff : guid) (index : exguid) (schema : guid) (els : list elem) : lang :=
  l_guids ft f lv ff +++ l_content index schema els.

(** [MS-ONESTORE] 2.3.1: the revision store header fields after the four
    identifiers; versions are 0x2A or 0x1B, the transaction log reference is
    (stp, cb), everything else is arbitrary. *)
Definition l_any (n : nat) : lang := fun e => length e = n.
Definition l_version : lang := fun e => l_uint 4 0x2A e \/ l_uint 4 0x1B e.
Definition l_file_header (stp cb : N) : lang :=
  l_version +++ l_version +++ l_version +++ l_version
  +++ l_any 80 +++ l_uint 8 stp +++ l_uint 4 cb.

(** A file whose header points past the transaction log, where the identifiers
    are repeated and the packaging structure follows. The first 172 bytes are the
    identifiers and the header. *)
Definition l_with_header (h1 h2 : guid) (stp cb : N) (ft f lv ff : guid)
  (index : exguid) (schema : guid) (els : list elem) : lang :=
  fun e => 172 <= stp + cb < 2 ^ 64 /\
  (l_guids h1 h2 0 0x109ADD3F911B49F5A5D01791EDC8AED8 +++ l_file_header stp cb
   +++ l_any (N.to_nat (stp + cb - 172)) +++ l_guids ft f lv ff
   +++ l_content index schema els) e.

(** ** What a list of data elements means *)

(** The value given by the last entry selected for a key. *)
Fixpoint last_for {A B} (sel : A -> option B) (l : list A) : option B :=
  match l with
  | [] => None
  | x :: r => match last_for sel r with Some b => Some b | None => sel x end
  end.

Definition of_elem {B} (f : element -> option B) (id : exguid) (x : elem) : option B :=
  if exguid_eqb (el_id x) id then f (el_content x) else None.

Definition index_means (items : list index_item) (si : storage_index) : Prop :=
  si_manifests si =
    flat_map (fun i => match i with IxManifest m s => [(m, s)] | _ => [] end) items /\
  (forall c, alookup cellid_eqb c (si_cells si) =
    last_for (fun i => match i with
                       | IxCell c' m s => if cellid_eqb c' c then Some (CellMapping c' m s) else None
                       | _ => None end) items) /\
  (forall r, alookup exguid_eqb r (si_revs si) =
    last_for (fun i => match i with
                       | IxRevision r' m s => if exguid_eqb r' r then Some (RevMapping m s) else None
                       | _ => None end) items).

Definition manifest_means (schema : guid) (roots : list (exguid * cellid)) (sm : storage_manifest)
  : Prop :=
  sm_id sm = schema /\
  forall r, alookup exguid_eqb r (sm_roots sm) =
    last_for (fun e => if exguid_eqb (fst e) r then Some (snd e) else None) roots.

Definition revision_means (rev base : exguid) (items : list rev_item) (rm : revision_manifest)
  : Prop :=
  rm = RevManifest rev base
         (flat_map (fun i => match i with RvRoot r o => [(r, o)] | _ => [] end) items)
         (flat_map (fun i => match i with RvGroup g => [g] | _ => [] end) items).

(** Both absent, or both present and related. *)
Definition opt_rel {A B} (R : A -> B -> Prop) (a : option A) (b : option B) : Prop :=
  match a, b with
  | None, None => True
  | Some x, Some y => R x y
  | _, _ => False
  end.

(** The package holds, under every identifier and for every kind, the last
    element of that kind with that identifier, and nothing else. *)
Definition package_means (els : list elem) (pk : package) : Prop :=
  (forall id, opt_rel index_means
     (last_for (of_elem (fun x => match x with ElIndex l => Some l | _ => None end) id) els)
     (alookup exguid_eqb id (pk_indexes pk))) /\
  (forall id, opt_rel (fun e => manifest_means (fst e) (snd e))
     (last_for (of_elem (fun x => match x with ElManifest g l => Some (g, l) | _ => None end) id) els)
     (alookup exguid_eqb id (pk_manifests pk))) /\
  (forall id,
     last_for (of_elem (fun x => match x with ElCell c => Some c | _ => None end) id) els
     = alookup exguid_eqb id (pk_cells pk)) /\
  (forall id, opt_rel (fun e => revision_means (fst (fst e)) (snd (fst e)) (snd e))
     (last_for (of_elem (fun x => match x with ElRevision r b l => Some (r, b, l) | _ => None end) id) els)
     (alookup exguid_eqb id (pk_revisions pk))) /\
  (forall id, opt_rel (fun e g => g = ObjectGroup (fst e) [] (snd e))
     (last_for (of_elem (fun x => match x with ElGroup d o => Some (d, o) | _ => None end) id) els)
     (alookup exguid_eqb id (pk_groups pk))) /\
  (forall id,
     last_for (of_elem (fun x => match x with ElBlob b => Some b | _ => None end) id) els
     = alookup exguid_eqb id (pk_blobs pk)) /\
  pk_fragments pk = [].

(** ** How much a parser produced *)
Definition total {A} (f : A -> nat) (l : list A) : nat := fold_right (fun x n => (f x + n)%nat) 0%nat l.
Definition index_size (s : storage_index) : nat :=
  length (si_manifests s) + length (si_cells s) + length (si_revs s).
Definition revision_size (r : revision_manifest) : nat := length (rm_roots r) + length (rm_groups r).
Definition odata_size (d : odata) : nat :=
  match d with
  | DataObject g c b => length g + length c + length b
  | DataExcluded g c _ => length g + length c
  | DataBlobRef g c _ => length g + length c
  end.
Definition group_size (g : object_group) : nat :=
  length (og_decls g) + length (og_metadata g) + total (fun d => S (odata_size d)) (og_objects g).
(** Number of elements, mappings, roots, declarations, objects, identifiers and
    payload bytes in a package. *)
Definition package_size (p : package) : nat :=
  total (fun e => S (index_size (snd e))) (pk_indexes p) +
  total (fun e => S (length (sm_roots (snd e)))) (pk_manifests p) +
  length (pk_cells p) +
  total (fun e => S (revision_size (snd e))) (pk_revisions p) +
  total (fun e => S (group_size (snd e))) (pk_groups p) +
  total (fun e => S (length (fr_data (snd e)))) (pk_fragments p) +
  total (fun e => S (length (snd e))) (pk_blobs p).

(** ** Object groups with a metadata block ([MS-FSSHTTPB] 2.2.1.12.6.3) *)
Definition l_decls (decls : list odecl) : lang :=
  h_any ObjectGroupDeclaration +++ many l_decl decls +++ fin8 ObjectGroupDeclaration.

Definition l_group_with_metadata (decls : list odecl) (meta : list N) (data : list odata) : lang :=
  l_decls decls
  +++ h32 ObjectGroupMetadataBlock +++ many l_meta meta +++ fin16 ObjectGroupMetadataBlock
  +++ h_any ObjectGroupData +++ many l_data data +++ fin8 ObjectGroupData.

(** ** Data element fragments ([MS-FSSHTTPB] 2.2.1.12.7) *)
Definition l_fragment (f : fragment) : lang :=
  fun e => fr_size f = N.of_nat (length (fr_data f)) /\
  (h32 DataElementFragment +++ l_exguid (fr_id f) +++ l_compact (fr_size f)
   +++ l_compact (fr_offset f) +++ l_compact (fr_length f) +++ lit (fr_data f)) e.

Definition l_fragment_elem (id : exguid) (s : serial) (f : fragment) : lang :=
  h16 DataElement +++ l_exguid id +++ l_serial s +++ l_compact 6 +++ l_fragment f
  +++ fin8 DataElement.

(** ** Parser contracts *)

(** A success depends on a prefix only. *)
Definition self_delimiting {A} (p : parser A) : Prop :=
  forall bs x rest, p bs = Ok (x, rest) ->
  exists pre, bs = pre ++ rest /\ forall t, p (pre ++ t) = Ok (x, t).

(** Cutting the input anywhere inside the consumed part gives [UnexpectedEof]. *)
Definition truncation_reported {A} (p : parser A) : Prop :=
  forall bs x rest n, p bs = Ok (x, rest) -> (n < length bs - length rest)%nat ->
  p (firstn n bs) = Err UnexpectedEof.

(** Every input gives a value or a documented error, in finitely many steps. *)
Definition total_parser {A} (p : parser A) : Prop :=
  forall bs, (exists x rest, p bs = Ok (x, rest)) \/ (exists e, p bs = Err e).
