(** Stores as an author would describe them, and the files that hold them. Uses
    the abstract syntax of the container (SpecPackage.v), of property sets
    (SpecPropSet.v) and the languages of accepted files (SpecAccept.v). *)
From Verif Require Import Base Codec SpecCodec Package SpecPackage PropSet SpecPropSet Store SpecStore SpecAccept SpecSame.

(** An object: identifier, kind, compact ids and properties, the objects and
    cells it refers to, attached file data. *)
Record object_desc := ObjectDesc {
  od_id : exguid;
  od_kind : N;
  od_set : oset;
  od_refs : list exguid;
  od_cells : list cellid;
  od_file : option (list N) }.
(** An object space: its roots by role, and its objects. *)
Record space_desc := SpaceDesc {
  sd_roots : list (role * exguid);
  sd_objects : list object_desc }.
(** A store: schema, the four values of the header, the cell and content of the root
    space and of the others. *)
Record store_desc := StoreDesc {
  td_schema : guid;
  td_identity : guid;
  td_ancestor : guid;
  td_version : option N;
  td_crc : N;
  td_cell : cellid;
  td_root : space_desc;
  td_spaces : list (cellid * space_desc) }.

(** Descriptions that make sense: no identifier twice, and as many compact ids as
    references. *)
Definition object_fits (d : object_desc) : Prop :=
  length (od_refs d) = length (os_objects (od_set d)) /\
  length (od_cells d) = match os_spaces (od_set d) with
                        | None => 0
                        | Some (s, None) => length s
                        | Some (s, Some c) => length c + length s
                        end%nat.
Definition space_fits (d : space_desc) : Prop :=
  NoDup (map fst (sd_roots d)) /\ NoDup (map od_id (sd_objects d)) /\ Forall object_fits (sd_objects d).
Definition store_fits (d : store_desc) : Prop :=
  space_fits (td_root d) /\ NoDup (td_cell d :: map fst (td_spaces d)) /\ Forall (fun s => space_fits (snd s)) (td_spaces d).

(** ... and whose values fit the fields of the format. *)
Definition id_fits (x : exguid) : Prop := eg_guid x < 2 ^ 128 /\ eg_value x < 2 ^ 32.
Definition cell_fits (c : cellid) : Prop := id_fits (fst c) /\ id_fits (snd c).
Definition object_in_range (d : object_desc) : Prop :=
  id_fits (od_id d) /\ od_kind d < 2 ^ 32 /\
  (exists e, l_oset (od_set d) e /\ bytes_ok e /\ N.of_nat (length e) < 2 ^ 64) /\
  Forall id_fits (od_refs d) /\ Forall cell_fits (od_cells d) /\
  match od_file d with Some b => bytes_ok b /\ N.of_nat (length b) < 2 ^ 64 | None => True end.
Definition space_in_range (d : space_desc) : Prop :=
  Forall (fun r => id_fits (snd r)) (sd_roots d) /\ Forall object_in_range (sd_objects d) /\
  N.of_nat (length (sd_objects d)) < 2 ^ 32.
Definition store_in_range (d : store_desc) : Prop :=
  td_schema d < 2 ^ 128 /\ td_identity d < 2 ^ 128 /\ td_ancestor d < 2 ^ 128 /\
  match td_version d with Some v => v < 2 ^ 32 | None => True end /\ td_crc d < 2 ^ 32 /\
  cell_fits (td_cell d) /\ space_in_range (td_root d) /\
  Forall (fun s => cell_fits (fst s) /\ space_in_range (snd s)) (td_spaces d) /\
  N.of_nat (length (td_spaces d)) < 2 ^ 64.

(** ** Files *)
(** The entries of an object group. *)
Definition entry := (odecl * odata)%type.
Definition entry_for (id : exguid) (partition : N) (e : entry) : Prop :=
  decl_object_id (fst e) = id /\ decl_partition (fst e) = partition.

(** The content [c] with index [items] holds under [cell] one revision, without a
    base, with these root declarations and groups. *)
Definition indexed_revision (items : list index_item) (r e : exguid) : Prop :=
  (exists s, In (IxRevision r e s) items) \/ (e = r /\ forall e' s, ~ In (IxRevision r e' s) items).
Definition holds_revision (c : list (exguid * element)) (items : list index_item) (cell : cellid)
  (roots : list (exguid * exguid)) (groups : list (list entry)) : Prop :=
  exists m s r e rev its,
    In (IxCell cell m s) items /\ m <> nil_id /\ In (m, ElCell r) c /\
    indexed_revision items r e /\ In (e, ElRevision rev nil_id its) c /\
    flat_map (fun i => match i with RvRoot r o => [(r, o)] | _ => [] end) its = roots /\
    Forall2 (fun g es => exists ds os, In (g, ElGroup ds os) c /\ length ds = length os /\ combine ds os = es)
      (flat_map (fun i => match i with RvGroup g => [g] | _ => [] end) its) groups.

(** The entries of one group hold an object: its kind under partition 4, its data
    under partition 1, and under partition 2 the blob with its file data. *)
Definition holds_object (c : list (exguid * element)) (es : list entry) (d : object_desc) : Prop :=
  (exists dcl gr ce bs t, In (dcl, DataObject gr ce bs) es /\ entry_for (od_id d) 4 (dcl, DataObject gr ce bs) /\
     bs = le_bytes 4 (od_kind d) ++ t /\ od_kind d < 2 ^ 32) /\
  (exists dcl bs e t, In (dcl, DataObject (od_refs d) (od_cells d) bs) es /\
     entry_for (od_id d) 1 (dcl, DataObject (od_refs d) (od_cells d) bs) /\
     bs = e ++ t /\ l_oset (od_set d) e) /\
  match od_file d with
  | Some b => exists dcl gr ce bid, In (dcl, DataBlobRef gr ce bid) es /\
      entry_for (od_id d) 2 (dcl, DataBlobRef gr ce bid) /\ In (bid, ElBlob b) c
  | None => forall e, In e es -> ~ entry_for (od_id d) 2 e
  end.
Definition holds_group (c : list (exguid * element)) (es : list entry) (ds : list object_desc) : Prop :=
  NoDup (map (fun e => (decl_object_id (fst e), decl_partition (fst e))) es) /\
  Forall (holds_object c es) ds /\
  forall e, In e es -> In (decl_object_id (fst e)) (map od_id ds).
Definition holds_space (c : list (exguid * element)) (items : list index_item) (cell : cellid) (d : space_desc) : Prop :=
  exists groups parts,
    holds_revision c items cell (map (fun r => (role_id (fst r), snd r)) (sd_roots d)) groups /\
    Forall2 (holds_group c) groups parts /\ sd_objects d = concat parts.

(** The header: the first entry of partition 1 in the first group of its cell. *)
Definition holds_header (c : list (exguid * element)) (items : list index_item) (cell : cellid) (d : store_desc) : Prop :=
  exists roots groups pre dcl gr ce e t suf set,
    holds_revision c items cell roots ((pre ++ (dcl, DataObject gr ce (e ++ t)) :: suf) :: groups) /\
    (forall x, In x pre -> decl_partition (fst x) <> 1) /\ decl_partition dcl = 1 /\ l_oset set e /\
    td_identity d < 2 ^ 128 /\ td_ancestor d < 2 ^ 128 /\
    (exists k, last_at 0 0x1D94 (os_props set) = Some (k, SVec (guid_enc (td_identity d)))) /\
    (exists k, last_at 0 0x1D95 (os_props set) = Some (k, SVec (guid_enc (td_ancestor d)))) /\
    match td_version d with
    | Some v => exists k, last_at 0 0x1D99 (os_props set) = Some (k, SU32 v)
    | None => last_at 0 0x1D99 (os_props set) = None
    end /\
    (exists k, last_at 0 0x1D93 (os_props set) = Some (k, SU32 (td_crc d))).

(** One index with every cell once, one manifest naming header and root, and the
    described spaces, each in its cell. *)
Definition holds_store (c : list (exguid * element)) (d : store_desc) : Prop :=
  exists ix items mf roots hc,
    let rc := td_cell d in
    unambiguous c /\ In (ix, ElIndex items) c /\ In (mf, ElManifest (td_schema d) roots) c /\
    (forall x, In (ExGuid 0x1A5A319CC26B41AAB9C59BD8C44E07D4 1, x) roots <-> x = hc) /\
    (forall x, In (ExGuid 0x84DEFAB9AAA34A0DA3A8520C77AC7073 2, x) roots <-> x = rc) /\
    NoDup (flat_map (fun i => match i with IxCell c _ _ => [c] | _ => [] end) items) /\
    NoDup (flat_map (fun i => match i with IxRevision r _ _ => [r] | _ => [] end) items) /\
    holds_header c items hc d /\
    holds_space c items rc (td_root d) /\
    Forall (fun s => fst s <> hc /\ fst s <> rc /\ holds_space c items (fst s) (snd s)) (td_spaces d) /\
    (forall x m s, In (IxCell x m s) items -> m = nil_id \/ x = hc \/ x = rc \/ In x (map fst (td_spaces d))).

(** ** Stores *)
(** An object of the store is the described one. Its compact ids stand for the
    references at the same positions; contexts are those of the cells in the
    object's own space. *)
Definition object_is (cell : cellid) (d : object_desc) (o : object) : Prop :=
  ob_context o = fst cell /\ ob_jcid o = od_kind d /\ oset_means (od_set d) (ob_props o) /\ ob_file o = od_file d /\
  (forall i cid, resolves (own_table (ob_props o) (od_refs d) (od_cells d) (snd cell)) i cid
                   (mapping_get_object (ob_mapping o) i cid)) /\
  (forall i cid, resolves (space_table (ob_props o) (od_cells d) (snd cell)) i cid
                   (mapping_get_space (ob_mapping o) i cid)).
Definition space_is (cell : cellid) (d : space_desc) (sp : space) : Prop :=
  sp_id sp = snd cell /\ sp_context sp = fst cell /\
  (forall r x, alookup role_eqb r (sp_roots sp) = Some x <-> In (r, x) (sd_roots d)) /\
  (forall x, In x (sd_objects d) -> exists o, get_object sp (od_id x) = Some o /\ object_is cell x o) /\
  (forall id o, get_object sp id = Some o -> In id (map od_id (sd_objects d))).
Definition store_is (d : store_desc) (st : store) : Prop :=
  st_schema st = td_schema d /\
  st_header st = StoreHeader (td_identity d) (td_ancestor d) (td_version d) (td_crc d) /\
  space_is (td_cell d) (td_root d) (st_data_root st) /\
  (forall cell x, In (cell, x) (td_spaces d) -> exists sp, object_space st cell = Some sp /\ space_is cell x sp) /\
  (forall cell sp, object_space st cell = Some sp -> In cell (map fst (td_spaces d))).
