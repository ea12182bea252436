(** Which byte strings the package readers accept: the format of SpecPackage.v
    with its three known liberties, written as languages again.

    - Any nonzero byte introduces a full serial number (the format has 0x80).
    - A data element fragment is not followed by the end marker of its data
      element (the format requires one).
    - Object groups have no metadata block (the format allows one). *)
From Verif Require Import Base Codec SpecCodec Package SpecPackage.

Inductive serial_accepted : serial -> list N -> Prop :=
| sa_null : serial_accepted (Serial 0 0) [0]
| sa_full tag g n : 0 < tag < 256 -> g < 2 ^ 128 -> n < 2 ^ 64 ->
    serial_accepted (Serial g n) (tag :: guid_enc g ++ le_bytes 8 n).
Definition a_serial (s : serial) : lang := serial_accepted s.

Definition a_index_item (i : index_item) : lang :=
  match i with
  | IxManifest m s => h16 StorageIndexManifestMapping +++ l_exguid m +++ a_serial s
  | IxCell c m s => h16 StorageIndexCellMapping +++ l_cellid c +++ l_exguid m +++ a_serial s
  | IxRevision r m s =>
    h16 StorageIndexRevisionMapping +++ l_exguid r +++ l_exguid m +++ a_serial s
  end.

(** Bodies differ from [l_body] in the index only. *)
Definition a_body (x : element) : lang :=
  match x with
  | ElIndex items => many a_index_item items
  | _ => l_body x
  end.

Definition a_fragment (f : fragment) : lang :=
  fun e => fr_size f = N.of_nat (length (fr_data f)) /\
  (h_any DataElementFragment +++ l_exguid (fr_id f) +++ l_compact (fr_size f)
   +++ l_compact (fr_offset f) +++ l_compact (fr_length f) +++ lit (fr_data f)) e.

Inductive aelem :=
| AElem (x : elem)
| AFragment (id : exguid) (s : serial) (f : fragment).

Definition a_elem (x : aelem) : lang :=
  match x with
  | AElem x =>
    h16 DataElement +++ l_exguid (el_id x) +++ a_serial (el_serial x)
    +++ l_compact (kind (el_content x)) +++ a_body (el_content x) +++ fin8 DataElement
  | AFragment id s f =>
    h16 DataElement +++ l_exguid id +++ a_serial s +++ l_compact 6 +++ a_fragment f
  end.

Definition a_package (els : list aelem) : lang :=
  h16 DataElementPackage +++ lit [0] +++ many a_elem els +++ fin8 DataElementPackage.

Definition a_content (index : exguid) (schema : guid) (els : list aelem) : lang :=
  l_uint 4 0 +++ h32 OneNotePackaging +++ l_exguid index +++ l_guid schema
  +++ a_package els +++ fin16 OneNotePackaging.

Definition a_plain (ft f lv ff : guid) (index : exguid) (schema : guid) (els : list aelem) : lang :=
  l_guids ft f lv ff +++ a_content index schema els.

Definition a_with_header (h1 h2 : guid) (stp cb : N) (ft f lv ff : guid)
  (index : exguid) (schema : guid) (els : list aelem) : lang :=
  fun e => 172 <= stp + cb < 2 ^ 64 /\
  (l_guids h1 h2 0 0x109ADD3F911B49F5A5D01791EDC8AED8 +++ l_file_header stp cb
   +++ l_any (N.to_nat (stp + cb - 172)) +++ l_guids ft f lv ff
   +++ a_content index schema els) e.

(** What the elements mean: the proper elements as in [package_means], and each
    fragment under its identifier. *)
Definition proper (els : list aelem) : list elem :=
  flat_map (fun x => match x with AElem x => [x] | AFragment _ _ _ => [] end) els.

Definition without_fragments (pk : package) : package :=
  Package (pk_indexes pk) (pk_manifests pk) (pk_cells pk) (pk_revisions pk) (pk_groups pk) []
    (pk_blobs pk).

Definition a_means (els : list aelem) (pk : package) : Prop :=
  package_means (proper els) (without_fragments pk) /\
  forall id, alookup exguid_eqb id (pk_fragments pk) =
    last_for (fun x => match x with
                       | AFragment i _ f => if exguid_eqb i id then Some f else None
                       | AElem _ => None end) els.

(** A file in one of its two layouts. *)
Definition a_file (ft f lv ff : guid) (index : exguid) (schema : guid) (els : list aelem) : lang :=
  fun e =>
  ((ff = 0x638DE92FA6D44BC19A36B3FC2511A5B7 \/
    (ff = 0x109ADD3F911B49F5A5D01791EDC8AED8 /\ lv <> 0)) /\
   a_plain ft f lv ff index schema els e) \/
  (exists h1 h2 stp cb, a_with_header h1 h2 stp cb ft f lv ff index schema els e).
