(** How many steps the reader takes to open a file: [Store.v] once more, counting each
    finished turn of a loop (with every element an iterator looks at) and the steps of
    [Steps.v]. A look-up in a hash table and an insertion into one are not counted: each
    is done a bounded number of times between two steps. *)
From Verif Require Import Base Codec Package PropSet PropIds Store Notebook Steps.

Definition work (A : Type) := (nat * res A)%type.

Definition wret {A} (a : A) : work A := (0%nat, Ok a).
(** No loop. *)
Definition free {A} (r : res A) : work A := (0%nat, r).
(** [n] turns. *)
Definition turns (n : nat) : work unit := (n, Ok tt).
Definition wbind {A B} (w : work A) (f : A -> work B) : work B :=
  match w with
  | (n, Ok a) => let (m, r) := f a in ((n + m)%nat, r)
  | (n, Err e) => (n, Err e)
  | (n, Panic) => (n, Panic)
  | (n, OutOfFuel) => (n, OutOfFuel)
  end.
Notation "'let#' p := w 'in' k" := (wbind w (fun p => k))
  (at level 200, p pattern, right associativity).

(** [Iterator::find]: an element looked at is a turn. *)
Fixpoint find_w {A} (f : A -> bool) (l : list A) : nat * option A :=
  match l with
  | [] => (0%nat, None)
  | x :: r => if f x then (1%nat, Some x) else let (n, o) := find_w f r in (S n, o)
  end.

(** [iter.map(f).collect::<Result<Vec<_>>>()?] *)
Fixpoint map_res_w {A B} (f : A -> res B) (l : list A) : work (list B) :=
  match l with
  | [] => wret []
  | a :: t =>
    let# b := free (f a) in
    let# _ := turns 1 in
    let# bs := map_res_w f t in
    wret (b :: bs)
  end.

(** The value of a parser run on its own reader. *)
Definition run_w {A} (p : counted A) (d : list N) : work A :=
  let (n, r) := p d in (n, let! (a, _) := r in Ok a).

(** /repo/src/fsshttpb/data_element/storage_index.rs:35-42 *)
Definition find_revision_mapping_by_serial_w (h : order) (si : storage_index) (s : serial)
  : work (option exguid) :=
  let (n, o) := find_w (fun m => (sn_guid (rv_serial m) =? sn_guid s)
                                 && (sn_serial (rv_serial m) =? sn_serial s))
                       (o_revs h (map snd (si_revs si))) in
  (n, Ok (option_map rv_mapping o)).

(** [Option::or_else] with a search that is only made if there is no value yet. *)
Definition or_else_w {A} (o : option A) (w : work (option A)) : work (option A) :=
  match o with Some x => wret (Some x) | None => w end.

(** /repo/src/fsshttpb/data_element/mod.rs:73-107 *)
Definition find_objects_w (h : order) (pk : package) (cell : exguid) (si : storage_index)
  : work (list object_group) :=
  let# found := or_else_w (resolve_cell_revision_manifest_id pk si cell)
    (let (n, o) := find_w (fun m => exguid_eqb (cm_id m) cell) (o_cells h (map snd (si_cells si))) in
     let# _ := turns n in
     match o with
     | Some m => find_revision_mapping_by_serial_w h si (cm_serial m)
     | None => wret None
     end) in
  let# rev := free (ok_or MalformedFssHttpBData found) in
  let# rm := free (ok_or MalformedFssHttpBData (find_revision_manifest pk rev)) in
  map_res_w (fun r => ok_or MalformedFssHttpBData (find_object_group pk r)) (rm_groups rm).

(** /repo/src/onestore/object.rs:57-159: the metadata, the data, the two sweeps over the
    referenced cells, and one turn for each entry of the mapping table. *)
Definition object_parse_w (object_id context_id space_id : exguid) (g : group_data) (pk : package)
  : work object :=
  let# metadata_object := free (ok_or MalformedOneStoreData (find_object object_id partition_metadata g)) in
  let# data_object := free (ok_or MalformedOneStoreData (find_object object_id partition_object_data g)) in
  let# metadata := free (match metadata_object with
                         | DataObject _ _ d => Ok d
                         | _ => Err MalformedOneStoreData
                         end) in
  let# jc := run_w (call jcid_parse) metadata in
  let# (data, refs, cells) := free (match data_object with
                                    | DataObject gr c d => Ok (d, gr, c)
                                    | _ => Err MalformedOneStoreData
                                    end) in
  let# props := run_w oprops_parse_n data in
  let# blob := free (find_blob_id object_id g) in
  let# file := free (opt_map_res (fun b => ok_or MalformedOneStoreData (find_blob pk b)) blob) in
  let# _ := turns (length cells) in
  let context_refs := map fst (filter (fun c => exguid_eqb (snd c) space_id) cells) in
  let# _ := turns (length cells) in
  let space_refs := filter (fun c => negb (exguid_eqb (snd c) space_id)) cells in
  if len (op_object_ids props) <? len refs then free (Err MalformedOneStoreData)
  else if negb (len (op_context_ids props) + len (op_space_ids props)
                =? len cells) then free (Err MalformedOneStoreData)
  else
    let objs := combine (op_object_ids props) refs ++ combine (op_context_ids props) context_refs in
    let spaces := combine (op_space_ids props) space_refs in
    let# _ := turns (length objs + length spaces) in
    wret (Object context_id jc props file (mapping_from_entries objs spaces)).

(** /repo/src/onestore/revision.rs:97-118 *)
Fixpoint group_objects_w (pk : package) (context_id space_id : exguid) (g : object_group)
         (data : group_data) (ids : list exguid) (objs : objects) : work objects :=
  match ids with
  | [] => wret objs
  | id :: r =>
    let# _ := turns 1 in
    if amember exguid_eqb id objs then group_objects_w pk context_id space_id g data r objs
    else if negb (len (og_decls g) =? len (og_objects g))
    then free (Err MalformedOneStoreData)
    else
      let# o := object_parse_w id context_id space_id data pk in
      group_objects_w pk context_id space_id g data r (ainsert exguid_eqb id o objs)
  end.

(** /repo/src/onestore/revision.rs:76-121 *)
Definition parse_group_w (pk : package) (context_id group_id space_id : exguid) (objs : objects)
  : work objects :=
  let# g := free (ok_or MalformedOneStoreData (find_object_group pk group_id)) in
  let# _ := turns (length (og_decls g)) in
  let ids := map decl_object_id (og_decls g) in
  let# _ := turns (length (combine (og_decls g) (og_objects g))) in
  let data := aextend gkey_eqb []
    (map (fun '(d, o) => ((decl_object_id d, decl_partition d), o))
         (combine (og_decls g) (og_objects g))) in
  group_objects_w pk context_id space_id g data ids objs.

(** /repo/src/onestore/revision.rs:69-71 *)
Fixpoint parse_groups_w (pk : package) (context_id space_id : exguid) (gs : list exguid)
         (objs : objects) : work objects :=
  match gs with
  | [] => wret objs
  | g :: r =>
    let# objs' := parse_group_w pk context_id g space_id objs in
    let# _ := turns 1 in
    parse_groups_w pk context_id space_id r objs'
  end.

(** /repo/src/onestore/revision.rs:24-74 *)
Definition revision_parse_w (rev_id context_id space_id : exguid) (si : storage_index) (pk : package)
           (cache : amap cellid revision) (objs : objects) (rts : roots)
  : work (option exguid * objects * roots) :=
  let# rm := free (ok_or MalformedOneStoreData (find_revision_manifest pk rev_id)) in
  let# base := free (opt_map_res
    (fun m => ok_or MalformedOneStoreData (resolve_revision_manifest_id pk si m))
    (exguid_as_option (rm_base_rev_id rm))) in
  match alookup cellid_eqb (context_id, rm_rev_id rm) cache with
  | Some rev =>
    let# _ := turns (length (rev_roots rev) + length (rev_objects rev)) in
    wret (base, aextend exguid_eqb objs (rev_objects rev), aextend role_eqb rts (rev_roots rev))
  | None =>
    let# new := map_res_w (fun d => let! r := role_parse (fst d) in Ok (r, snd d)) (rm_roots rm) in
    let# _ := turns (length new) in
    let rts' := aextend role_eqb rts new in
    let# objs' := parse_groups_w pk context_id space_id (rm_groups rm) objs in
    wret (base, objs', rts')
  end.

(** /repo/src/onestore/object_space.rs:85-98 *)
Fixpoint revision_walk_w (fuel : nat) (context_id space_id : exguid) (si : storage_index)
         (pk : package) (cache : amap cellid revision) (rev_id : option exguid)
         (objs : objects) (rts : roots) : work (objects * roots) :=
  match rev_id with
  | None => wret (objs, rts)
  | Some id =>
    match fuel with
    | O => free OutOfFuel
    | S f =>
      let# (base, objs', rts') := revision_parse_w id context_id space_id si pk cache objs rts in
      let# _ := turns 1 in
      revision_walk_w f context_id space_id si pk cache base objs' rts'
    end
  end.

(** /repo/src/onestore/object_space.rs:43-108 *)
Definition space_parse_w (h : order) (fuel : nat) (m : cell_mapping) (si : storage_index)
           (pk : package) (cache : amap cellid revision) : work (cellid * space) :=
  let cell_id := cm_cell m in
  let context_id := fst cell_id in
  let space_id := snd cell_id in
  let cell_revision_id := find_cell_revision_id pk (cm_id m) in
  let# manifest_id := or_else_w (resolve_cell_revision_manifest_id pk si (cm_id m))
                                (find_revision_mapping_by_serial_w h si (cm_serial m)) in
  match manifest_id, cell_revision_id with
  | None, Some c =>
    if exguid_is_nil c then wret (cell_id, Space space_id context_id [] [])
    else free (Err MalformedOneStoreData)
  | None, None => free (Err MalformedOneStoreData)
  | Some id, _ =>
    let# (objs, rts) := revision_walk_w fuel context_id space_id si pk cache (Some id) [] [] in
    wret (cell_id, Space space_id context_id rts objs)
  end.

(** /repo/src/onestore/header.rs:78-84 *)
Definition header_guid_w (v : pvalue) : work guid :=
  match v with VVec d => run_w guid_parse_n d | _ => free (Err MalformedOneStoreData) end.

Definition opt_map_w {A B} (f : A -> work B) (o : option A) : work (option B) :=
  match o with
  | None => wret None
  | Some a => let# b := f a in wret (Some b)
  end.

(** /repo/src/onestore/header.rs:24-76 *)
Definition header_parse_store_w (g : object_group) : work store_header :=
  let (n, p) := find_w (fun p => decl_partition (fst p) =? 1) (combine (og_decls g) (og_objects g)) in
  let# _ := turns n in
  let# (_, o) := free (ok_or MalformedOneStoreData p) in
  let# d := free (match o with DataObject _ _ d => Ok d | _ => Err MalformedOneStoreData end) in
  let# ps := run_w oprops_parse_n d in
  let# fi := opt_map_w header_guid_w (oprops_get P_FileIdentityGuid ps) in
  let# fi := free (ok_or MalformedOneStoreData fi) in
  let# ai := opt_map_w header_guid_w (oprops_get P_FileAncestorIdentityGuid ps) in
  let# ai := free (ok_or MalformedOneStoreData ai) in
  let# lc := free (opt_map_res header_u32 (oprops_get P_FileLastCodeVersionThatWroteToIt ps)) in
  let# crc := free (opt_map_res header_u32 (oprops_get P_FileNameCrc ps)) in
  let# crc := free (ok_or MalformedOneStoreData crc) in
  wret (StoreHeader fi ai lc crc).

(** /repo/src/onestore/mod.rs:122-134 *)
Definition parse_object_space_w (h : order) (fuel : nat) (cell : cellid) (si : storage_index)
           (pk : package) (cache : amap cellid revision) : work (cellid * space) :=
  let# m := free (ok_or MalformedOneStoreData (alookup cellid_eqb cell (si_cells si))) in
  space_parse_w h fuel m si pk cache.

(** /repo/src/onestore/mod.rs:100-112 *)
Fixpoint parse_spaces_w (h : order) (fuel : nat) (si : storage_index) (pk : package)
         (cache : amap cellid revision) (done : list cellid) (ms : list cell_mapping)
         (spaces : amap cellid space) : work (amap cellid space) :=
  match ms with
  | [] => wret spaces
  | m :: r =>
    let# _ := turns 1 in
    if exguid_is_nil (cm_id m) then parse_spaces_w h fuel si pk cache done r spaces
    else if existsb (cellid_eqb (cm_cell m)) done then
      parse_spaces_w h fuel si pk cache done r spaces
    else
      let# (id, s) := parse_object_space_w h fuel (cm_cell m) si pk cache in
      parse_spaces_w h fuel si pk cache done r (ainsert cellid_eqb id s spaces)
  end.

(** /repo/src/onestore/mod.rs:43-120 *)
Definition parse_store_w (h : order) (fuel : nat) (pg : packaging) : work store :=
  let pk := pg_package pg in
  let# si := free (ok_or MalformedOneStoreData
    (or_else (find_storage_index_by_id pk (pg_storage_index pg)) (find_storage_index h pk))) in
  let# sm := free (ok_or MalformedOneStoreData (find_storage_manifest h pk)) in
  let# header_cell := free (find_header_cell_id sm) in
  let# header_mapping := free (ok_or MalformedOneStoreData (find_cell_mapping_id si header_cell)) in
  let# groups := find_objects_w h pk header_mapping si in
  let# header_group := free (ok_or MalformedOneStoreData (hd_error groups)) in
  let# header := header_parse_store_w header_group in
  let# root_cell := free (find_data_root_cell_id sm) in
  let# (_, root) := parse_object_space_w h fuel root_cell si pk [] in
  let# spaces := parse_spaces_w h fuel si pk [] [header_cell; root_cell]
                                (o_cells h (map snd (si_cells si))) [] in
  wret (Store (sm_id sm) header root spaces).

(** /repo/src/onenote/mod.rs:62-63, 108-109, 130-131: from bytes to a store. *)
Definition open_store_w (h : order) (fuel : nat) (data : list N) : work store :=
  let# pg := run_w packaging_parse_n data in
  parse_store_w h fuel pg.
