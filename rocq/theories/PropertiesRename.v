(** Property theorems C66: identifiers are only names. *)
From Coq Require Import Lia.
From Verif Require Import Base Codec SpecCodec Package SpecPackage SpecAccept AcceptProofs PropSet SpecPropSet Store Shapes
  Props Nodes Doc SpecStore Notebook SpecSame SpecRename RenameProofs RenameProofs2 RenameProofs3 ExampleFile WriterProofs
  PropertiesStore ExampleSection ExampleNotebook PropertiesApi PropertiesSame.

(** C66: a file and the same file with other identifiers have the same possible
    answers, errors and panics included: what one gives under some iteration order of
    its hash maps, the other gives under some iteration order. *)
Theorem C66_section : forall f g d d', renaming f g -> renamed f d d' ->
  (forall h, exists h', forall fuel file,
     parse_section_buffer h' fuel d' file = parse_section_buffer h fuel d file) /\
  (forall h', exists h, forall fuel file,
     parse_section_buffer h' fuel d' file = parse_section_buffer h fuel d file).
Proof. exact section_answers. Qed.
Print Assumptions C66_section.

(** C66: when the answer for one does not depend on such orders, the other has the
    same answer. *)
Theorem C66_determined : forall f g d d', renaming f g -> renamed f d d' ->
  forall fuel file r, (forall h, parse_section_buffer h fuel d file = r) ->
  forall h, parse_section_buffer h fuel d' file = r.
Proof. exact section_determined. Qed.
Print Assumptions C66_determined.

(** C66: the same for all files of a notebook at once. *)
Theorem C66_notebook : forall f g fs fs', renaming f g -> same_files (renamed f) fs fs' ->
  (forall h, exists h', forall sanitise depth fuel p,
     parse_notebook sanitise h' depth fuel fs' p = parse_notebook sanitise h depth fuel fs p) /\
  (forall h', exists h, forall sanitise depth fuel p,
     parse_notebook sanitise h' depth fuel fs' p = parse_notebook sanitise h depth fuel fs p).
Proof. exact notebook_answers. Qed.
Print Assumptions C66_notebook.

(** The bits of the first part of every identifier flipped by a mask; the two
    identifiers that would become or were null are kept. *)
Definition mask : N := 0xABCDEF0123456789.
Definition flip (i : exguid) : exguid :=
  if (eg_guid i =? 0) || (eg_guid i =? mask) then i else ExGuid (N.lxor (eg_guid i) mask) (eg_value i).
Lemma flip_renaming : renaming flip flip.
Proof.
  assert (F : forall i, flip (flip i) = i).
  { intros [i v]. unfold flip. cbn [eg_guid eg_value].
    destruct (i =? 0) eqn:A; cbn [orb].
    - cbn [eg_guid]. now rewrite A.
    - destruct (i =? mask) eqn:B; cbn [eg_guid eg_value]; [now rewrite A, B|]. apply N.eqb_neq in A, B.
      destruct (N.lxor i mask =? 0) eqn:C.
      + apply N.eqb_eq, N.lxor_eq in C. congruence.
      + destruct (N.lxor i mask =? mask) eqn:D; cbn [orb eg_guid eg_value].
        * apply N.eqb_eq in D. apply (f_equal (fun x => N.lxor x mask)) in D.
          rewrite N.lxor_assoc, N.lxor_nilpotent, N.lxor_0_r in D. congruence.
        * now rewrite N.lxor_assoc, N.lxor_nilpotent, N.lxor_0_r. }
  repeat split; auto.
Qed.
Definition flip_elem (x : elem) : elem := Elem (flip (el_id x)) (el_serial x) (rename_element flip (el_content x)).
Definition flipped (t : list N) : list N := w_file 77 (flip (xid 10)) (map flip_elem sample_elems) ++ t.

Lemma written_renamed f ft ft' index els els' t t' :
  ft < 2 ^ 128 -> ft' < 2 ^ 128 -> w_exguid_ok index = true -> w_exguid_ok (f index) = true ->
  forallb w_elem_ok els = true -> forallb w_elem_ok els' = true ->
  map (fun x => (el_id x, el_content x)) els' = map (fun x => (f (el_id x), rename_element f (el_content x))) els ->
  renamed f (w_file ft index els ++ t) (w_file ft' (f index) els' ++ t').
Proof.
  intros A A' B B' C C' E. exists (w_file ft index els), t. do 4 eexists. exists (w_file ft' (f index) els'), t'. do 4 eexists.
  exists index. do 2 eexists. exists (map AElem els), (map AElem els').
  refine (conj eq_refl (conj _ (conj eq_refl (conj _ _)))).
  - left. split; [now left|]. apply plain_lenient. now apply in_file.
  - left. split; [now left|]. apply plain_lenient. now apply in_file.
  - rewrite !proper_elems, map_map. exact E.
Qed.

(** The sample section with other identifiers. It is another file, and is read. *)
Example C66_example : renaming flip flip /\ renamed flip sample_section (flipped [1; 2]) /\
  flip (xid 10) <> xid 10 /\
  is_ok (parse_section_buffer order_id 5 sample_section [97]) = true /\
  parse_section_buffer order_id 5 (flipped [1; 2]) [97] = parse_section_buffer order_id 5 sample_section [97].
Proof.
  refine (conj flip_renaming (conj _ (conj _ (conj _ _)))).
  - rewrite <- (app_nil_r sample_section). unfold flipped.
    apply (written_renamed flip 0xE4525C7B8CD8A7AEB15378D02996D3 77 (xid 10) sample_elems (map flip_elem sample_elems));
      vm_compute; reflexivity.
  - vm_compute. discriminate.
  - vm_compute. reflexivity.
  - vm_compute. reflexivity.
Qed.

(** Names that are told apart must stay apart: with two of them made equal, the
    answer is another. *)
Definition merge (i : exguid) : exguid := if exguid_eqb i (xid 102) then xid 101 else i.
Theorem C66_merged_refuted : exists d d', renamed merge d d' /\
  merge (ExGuid 0 0) = ExGuid 0 0 /\
  is_ok (parse_section_buffer order_id 5 d [97]) = true /\
  is_ok (parse_section_buffer order_id 5 d' [97]) = false.
Proof.
  exists sample_section,
    (w_file 77 (merge (xid 10)) (map (fun x => Elem (merge (el_id x)) (el_serial x) (rename_element merge (el_content x))) sample_elems) ++ []).
  refine (conj _ (conj _ (conj _ _))).
  - rewrite <- (app_nil_r sample_section).
    apply (written_renamed merge 0xE4525C7B8CD8A7AEB15378D02996D3 77 (xid 10) sample_elems);
      vm_compute; reflexivity.
  - reflexivity.
  - vm_compute. reflexivity.
  - vm_compute. reflexivity.
Qed.
Print Assumptions C66_merged_refuted.
