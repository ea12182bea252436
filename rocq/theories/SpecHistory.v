(** Histories of saves. A save of an object space writes a revision with the
    objects that are new or changed, on top of the revision before. *)
From Verif Require Import Base Codec SpecCodec Package SpecPackage PropSet SpecPropSet Store SpecStore SpecAccept SpecSame SpecFile.

(** What a save does to a space. [e] is what it writes: the objects of [e] take the
    place of those with the same identifier, all others stay. A root declaration
    counts only for a role that was not declared before. *)
Definition save (old e : space_desc) : space_desc :=
  SpaceDesc
    (sd_roots old ++ filter (fun r => negb (existsb (fun q => role_eqb (fst r) (fst q)) (sd_roots old))) (sd_roots e))
    (sd_objects e ++ filter (fun x => negb (existsb (fun y => exguid_eqb (od_id x) (od_id y)) (sd_objects e))) (sd_objects old)).
(** The state after a list of saves, first save first. *)
Definition after (es : list space_desc) : space_desc := fold_left save es (SpaceDesc [] []).

(** The history of a store: of every object space the saves, first save first, and the
    values of the header. *)
Record history := History {
  hi_schema : guid;
  hi_identity : guid;
  hi_ancestor : guid;
  hi_version : option N;
  hi_crc : N;
  hi_cell : cellid;
  hi_root : list space_desc;
  hi_spaces : list (cellid * list space_desc) }.
Definition final (H : history) : store_desc :=
  StoreDesc (hi_schema H) (hi_identity H) (hi_ancestor H) (hi_version H) (hi_crc H) (hi_cell H)
    (after (hi_root H)) (map (fun s => (fst s, after (snd s))) (hi_spaces H)).
Definition histories (H : history) : list (list space_desc) := hi_root H :: map snd (hi_spaces H).

(** At least one save each; every save makes sense and fits the format. *)
Definition history_fits (H : history) : Prop :=
  NoDup (hi_cell H :: map fst (hi_spaces H)) /\
  Forall (fun es => es <> [] /\ Forall space_fits es) (histories H).
Definition history_in_range (H : history) : Prop :=
  hi_schema H < 2 ^ 128 /\ hi_identity H < 2 ^ 128 /\ hi_ancestor H < 2 ^ 128 /\
  match hi_version H with Some v => v < 2 ^ 32 | None => True end /\ hi_crc H < 2 ^ 32 /\
  Forall cell_fits (hi_cell H :: map fst (hi_spaces H)) /\
  Forall (Forall space_in_range) (histories H) /\
  N.of_nat (length (concat (histories H))) < 2 ^ 64.

(** ** Files *)
(** The items of one revision: root declarations and object groups. *)
Definition holds_edit (c : list (exguid * element)) (its : list rev_item) (d : space_desc) : Prop :=
  exists parts,
    flat_map (fun i => match i with RvRoot r o => [(r, o)] | _ => [] end) its =
      map (fun r => (role_id (fst r), snd r)) (sd_roots d) /\
    Forall2 (fun g part => exists ds os, In (g, ElGroup ds os) c /\ length ds = length os /\ holds_group c (combine ds os) part)
      (flat_map (fun i => match i with RvGroup g => [g] | _ => [] end) its) parts /\
    sd_objects d = concat parts.
(** The revisions from [r] back to the first hold these saves, last save first. *)
Inductive holds_edits (c : list (exguid * element)) (items : list index_item) : exguid -> list space_desc -> Prop :=
| he_first r e rev its d :
    indexed_revision items r e -> In (e, ElRevision rev nil_id its) c -> holds_edit c its d ->
    holds_edits c items r [d]
| he_next r e rev base its d older :
    indexed_revision items r e -> In (e, ElRevision rev base its) c -> holds_edit c its d ->
    base <> nil_id -> holds_edits c items base older ->
    holds_edits c items r (d :: older).
Definition holds_saves (c : list (exguid * element)) (items : list index_item) (cell : cellid) (es : list space_desc) : Prop :=
  exists m s r, In (IxCell cell m s) items /\ m <> nil_id /\ In (m, ElCell r) c /\ holds_edits c items r (rev es).

Definition holds_history (c : list (exguid * element)) (H : history) : Prop :=
  exists ix items mf roots hc,
    let rc := hi_cell H in
    unambiguous c /\ In (ix, ElIndex items) c /\ In (mf, ElManifest (hi_schema H) roots) c /\
    (forall x, In (ExGuid 0x1A5A319CC26B41AAB9C59BD8C44E07D4 1, x) roots <-> x = hc) /\
    (forall x, In (ExGuid 0x84DEFAB9AAA34A0DA3A8520C77AC7073 2, x) roots <-> x = rc) /\
    NoDup (flat_map (fun i => match i with IxCell c _ _ => [c] | _ => [] end) items) /\
    NoDup (flat_map (fun i => match i with IxRevision r _ _ => [r] | _ => [] end) items) /\
    holds_header c items hc (final H) /\
    holds_saves c items rc (hi_root H) /\
    Forall (fun s => fst s <> hc /\ fst s <> rc /\ holds_saves c items (fst s) (snd s)) (hi_spaces H) /\
    (forall x m s, In (IxCell x m s) items -> m = nil_id \/ x = hc \/ x = rc \/ In x (map fst (hi_spaces H))).

(** Two histories that end in the same state. *)
Definition same_space (a b : space_desc) : Prop :=
  (forall r, In r (sd_roots a) <-> In r (sd_roots b)) /\ (forall x, In x (sd_objects a) <-> In x (sd_objects b)).
Definition same_end (a b : history) : Prop :=
  hi_schema a = hi_schema b /\ hi_cell a = hi_cell b /\
  same_space (after (hi_root a)) (after (hi_root b)) /\
  (forall c, In c (map fst (hi_spaces a)) <-> In c (map fst (hi_spaces b))) /\
  (forall c x y, In (c, x) (hi_spaces a) -> In (c, y) (hi_spaces b) -> same_space (after x) (after y)).

(** Two files that hold histories with the same end, of at most [n] saves per space. *)
Definition ends_alike (n : nat) (d d' : list N) : Prop :=
  exists els els' H H', holds d els /\ holds d' els' /\
    holds_history (content els) H /\ holds_history (content els') H' /\ history_fits H /\ history_fits H' /\
    Forall (fun es => (length es <= n)%nat) (histories H) /\ Forall (fun es => (length es <= n)%nat) (histories H') /\
    same_end H H'.

(** The history of a store that was saved once. *)
Definition saved_once (d : store_desc) : history :=
  History (td_schema d) (td_identity d) (td_ancestor d) (td_version d) (td_crc d) (td_cell d)
    [td_root d] (map (fun s => (fst s, [snd s])) (td_spaces d)).
