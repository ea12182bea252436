(** When two files have the same content: the same data elements, whatever their
    order, their serial numbers, the encoding chosen for every integer and
    identifier, the layout of the file and what follows it. *)
From Coq Require Import Permutation.
From Verif Require Import Base Codec Package SpecPackage SpecAccept Notebook.

(** The content of a list of elements: identifiers and bodies. *)
Definition content (els : list aelem) : list (exguid * element) :=
  map (fun x => (el_id x, el_content x)) (proper els).

(** No two elements of the same kind have the same identifier, and there is at
    most one storage index and at most one storage manifest. *)
Definition unambiguous (c : list (exguid * element)) : Prop :=
  NoDup (map (fun x => (fst x, kind (snd x))) c) /\
  (length (filter (fun x => (kind (snd x) =? 1)%N) c) <= 1)%nat /\
  (length (filter (fun x => (kind (snd x) =? 2)%N) c) <= 1)%nat.

(** The file [d] starts with the elements [els]. *)
Definition holds (d : list N) (els : list aelem) : Prop :=
  exists e t ft f lv ff index schema, d = e ++ t /\ a_file ft f lv ff index schema els e.

Definition same_content (d d' : list N) : Prop :=
  exists els els', holds d els /\ holds d' els' /\
    Permutation (content els) (content els') /\ unambiguous (content els).

(** The same with everything that names an element or an order kept: only the
    encoding, the layout and what follows differ. *)
Definition same_elements (d d' : list N) : Prop :=
  exists e t ft f lv ff e' t' ft' f' lv' ff' index schema schema' els,
    d = e ++ t /\ a_file ft f lv ff index schema els e /\
    d' = e' ++ t' /\ a_file ft' f' lv' ff' index schema' els e'.

(** Directories with the same entries, whose files are the same up to [R]. *)
Definition same_files (R : list N -> list N -> Prop) (fs fs' : filesystem) : Prop :=
  (forall p, fs_exists fs' p = fs_exists fs p) /\
  (forall p, fs_is_file fs' p = fs_is_file fs p) /\
  (forall p, fs_canonicalize fs' p = fs_canonicalize fs p) /\
  (forall p, fs_read_dir fs' p = fs_read_dir fs p) /\
  (forall p, opt_rel R (fs_read fs p) (fs_read fs' p)).
