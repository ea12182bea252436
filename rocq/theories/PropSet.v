(** Object property sets. Models /repo/src/onestore/types/*.rs. *)
From Verif Require Import Base Codec.

(** ** Compact ids: /repo/src/onestore/types/compact_id.rs:10-13 *)
Record compactid := CompactId { ci_n : N; ci_index : N }.

(** Derived [PartialEq] ([Eq], [Hash]) of [CompactId]: compact_id.rs:9 *)
Definition compactid_eqb (a b : compactid) : bool :=
  (ci_n a =? ci_n b) && (ci_index a =? ci_index b).

(** /repo/src/onestore/types/compact_id.rs:16-23 *)
Definition compactid_parse : parser compactid :=
  data <- get_u32 ;;
  pret (CompactId (N.land data 0xFF) (N.shiftr data 8)).

(** /repo/src/onestore/types/jcid.rs:14-16, [JcId] kept as its number. *)
Definition jcid_parse : parser N := get_u32.

(** ** Stream headers: /repo/src/onestore/types/object_stream_header.rs:10-14 *)
Record stream_header := StreamHeader {
  sh_count : N; sh_extended : bool; sh_osid_absent : bool }.

(** /repo/src/onestore/types/object_stream_header.rs:17-29 *)
Definition stream_header_parse : parser stream_header :=
  data <- get_u32 ;;
  pret (StreamHeader (N.land data 0xFFFFFF)
                     (negb (N.land (N.shiftr data 30) 1 =? 0))
                     (negb (N.shiftr data 31 =? 0))).

(** ** Properties *)

(** /repo/src/onestore/types/property.rs:9-25, [PropertyValue]; a property set
    ([PropertySet], /repo/src/onestore/types/prop_set.rs:13-15) maps a property
    id to the position of the property and its value. [PropertyId] is kept as
    its number. *)
Inductive pvalue :=
| VEmpty
| VBool (b : bool)
| VU8 (n : N)
| VU16 (n : N)
| VU32 (n : N)
| VU64 (n : N)
| VVec (d : list N)
| VObjectId
| VObjectIds (count : N)
| VObjectSpaceId
| VObjectSpaceIds (count : N)
| VContextId
| VContextIds (count : N)
| VPropertyValues (id : N) (sets : list (list (N * (N * pvalue))))
| VPropertySet (set : list (N * (N * pvalue))).

Definition propset := list (N * (N * pvalue)).

(** /repo/src/onestore/types/property.rs:193-195, [PropertyId::id] *)
Definition pid_id (v : N) : N := N.land v 0x3ffffff.
(** /repo/src/onestore/types/property.rs:197-199, [PropertyId::prop_type] *)
Definition pid_type (v : N) : N := N.land (N.shiftr v 26) 0x1f.
(** /repo/src/onestore/types/property.rs:201-203, [PropertyId::bool] *)
Definition pid_bool (v : N) : bool := N.shiftr v 31 =? 1.
(** /repo/src/onestore/types/property.rs:205-207, [PropertyId::parse] *)
Definition pid_parse : parser N := get_u32.

(** /repo/src/onestore/types/property.rs:151-156, [parse_vec] *)
Definition pvec_parse : parser pvalue :=
  size <- get_u32 ;;
  d <- read size ;;
  pret (VVec d).

(** /repo/src/onestore/types/property.rs:116-149, [PropertyValue::parse], and
    158-172, [parse_property_values]. [ps] is the recursive call to
    [PropertySet::parse]; [f] bounds the number of nested sets read. *)
Definition pvalue_parse (ps : parser propset) (f : nat) (id : N) : parser pvalue :=
  match pid_type id with
  | 0x1 => pret VEmpty
  | 0x2 => pret (VBool (pid_bool id))
  | 0x3 => v <- get_u8 ;; pret (VU8 v)
  | 0x4 => v <- get_u16 ;; pret (VU16 v)
  | 0x5 => v <- get_u32 ;; pret (VU32 v)
  | 0x6 => v <- get_u64 ;; pret (VU64 v)
  | 0x7 => pvec_parse
  | 0x8 => pret VObjectId
  | 0x9 => n <- get_u32 ;; pret (VObjectIds n)
  | 0xA => pret VObjectSpaceId
  | 0xB => n <- get_u32 ;; pret (VObjectSpaceIds n)
  | 0xC => pret VContextId
  | 0xD => n <- get_u32 ;; pret (VContextIds n)
  | 0x10 =>
    size <- get_u32 ;;
    pid <- pid_parse ;;
    sets <- rep_fuel ps f size ;;
    pret (VPropertyValues pid sets)
  | 0x11 => s <- ps ;; pret (VPropertySet s)
  | _ => pfail MalformedOneStoreData
  end.

(** /repo/src/onestore/types/prop_set.rs:24-28: the enumerated ids are parsed
    in order and collected into the map; a later entry replaces an earlier one
    with the same id. *)
Fixpoint pvalues_parse (pv : N -> parser pvalue) (idx : N) (ids : list N)
         (m : propset) : parser propset :=
  match ids with
  | [] => pret m
  | id :: r =>
    v <- pv id ;;
    pvalues_parse pv (idx + 1) r (ainsert N.eqb (pid_id id) (idx, v) m)
  end.

(** /repo/src/onestore/types/prop_set.rs:17-31, [PropertySet::parse]. Fuel: the
    nesting depth; the caller supplies more than the number of bytes left. *)
Fixpoint propset_fuel (fuel : nat) : parser propset :=
  match fuel with
  | O => fun _ => OutOfFuel
  | S f =>
    count <- get_u16 ;;
    ids <- rep count pid_parse ;;
    pvalues_parse (pvalue_parse (propset_fuel f) f) 0 ids []
  end.

Definition propset_parse : parser propset :=
  fun bs => propset_fuel (S (length bs)) bs.

(** /repo/src/onestore/types/prop_set.rs:33-35, [PropertySet::get] (the caller
    passes a raw property id). *)
Definition propset_get (id : N) (s : propset) : option pvalue :=
  option_map snd (alookup N.eqb (pid_id id) s).
(** /repo/src/onestore/types/prop_set.rs:37-39, [PropertySet::index] *)
Definition propset_index (id : N) (s : propset) : option N :=
  option_map fst (alookup N.eqb (pid_id id) s).

(** ** Object property sets: object_prop_set.rs:15-20 *)
Record oprops := OProps {
  op_object_ids : list compactid;
  op_space_ids : list compactid;
  op_context_ids : list compactid;
  op_props : propset }.

(** /repo/src/onestore/types/object_prop_set.rs:41-73, [ObjectPropSet::parse] *)
Definition oprops_parse : parser oprops :=
  h <- stream_header_parse ;;
  oids <- rep (sh_count h) compactid_parse ;;
  sc <- (if sh_osid_absent h then pret ([], [])
         else
           h2 <- stream_header_parse ;;
           sids <- rep (sh_count h2) compactid_parse ;;
           cids <- (if sh_extended h2 then
                      h3 <- stream_header_parse ;;
                      rep (sh_count h3) compactid_parse
                    else pret []) ;;
           pret (sids, cids)) ;;
  p <- propset_parse ;;
  pret (OProps oids (fst sc) (snd sc) p).

(** /repo/src/onestore/types/object_prop_set.rs:75-77, [ObjectPropSet::get] *)
Definition oprops_get (id : N) (p : oprops) : option pvalue :=
  propset_get id (op_props p).
