(** Files that differ only in the identifiers they use: every identifier of a data
    element, an object, a context or an object space is replaced by another one, in
    the same way wherever it occurs. The identifiers the format gives a meaning
    stay: the null identifier, the names of the roots of a storage manifest and the
    roles of the roots of a revision. *)
From Verif Require Import Base Codec Package SpecPackage SpecAccept SpecSame.

Section Rename.
  Context (f : exguid -> exguid).

  Definition rename_cell (c : cellid) : cellid := (f (fst c), f (snd c)).

  Definition rename_index_item (i : index_item) : index_item :=
    match i with
    | IxManifest m s => IxManifest (f m) s
    | IxCell c m s => IxCell (rename_cell c) (f m) s
    | IxRevision r m s => IxRevision (f r) (f m) s
    end.

  Definition rename_rev_item (i : rev_item) : rev_item :=
    match i with
    | RvRoot role o => RvRoot role (f o)
    | RvGroup g => RvGroup (f g)
    end.

  Definition rename_decl (d : odecl) : odecl :=
    match d with
    | DeclObject o p s a b => DeclObject (f o) p s a b
    | DeclBlob o bl p a b => DeclBlob (f o) (f bl) p a b
    end.

  (** The bytes of an object hold no such identifier: they refer to the lists
      declared with the object. *)
  Definition rename_data (d : odata) : odata :=
    match d with
    | DataObject g c bytes => DataObject (map f g) (map rename_cell c) bytes
    | DataExcluded g c n => DataExcluded (map f g) (map rename_cell c) n
    | DataBlobRef g c b => DataBlobRef (map f g) (map rename_cell c) (f b)
    end.

  Definition rename_element (x : element) : element :=
    match x with
    | ElIndex items => ElIndex (map rename_index_item items)
    | ElManifest schema roots => ElManifest schema (map (fun r => (fst r, rename_cell (snd r))) roots)
    | ElCell r => ElCell (f r)
    | ElRevision r b items => ElRevision (f r) (f b) (map rename_rev_item items)
    | ElGroup decls data => ElGroup (map rename_decl decls) (map rename_data data)
    | ElBlob bytes => ElBlob bytes
    end.
End Rename.

(** [f] is a one-to-one correspondence, with inverse [g], that keeps the null
    identifier. *)
Definition renaming (f g : exguid -> exguid) : Prop :=
  (forall i, g (f i) = i) /\ (forall i, f (g i) = i) /\ f (ExGuid 0 0) = ExGuid 0 0.

(** [d'] holds the elements of [d], renamed. Encodings, layouts, file identifiers,
    serial numbers of the elements and what follows them may differ. *)
Definition renamed (f : exguid -> exguid) (d d' : list N) : Prop :=
  exists e t ft fi lv ff e' t' ft' fi' lv' ff' index schema schema' els els',
    d = e ++ t /\ a_file ft fi lv ff index schema els e /\
    d' = e' ++ t' /\ a_file ft' fi' lv' ff' (f index) schema' els' e' /\
    content els' = map (fun x => (f (fst x), rename_element f (snd x))) (content els).
