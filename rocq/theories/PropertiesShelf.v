(** C65: every valid notebook is the notebook of some directory tree. *)
From Coq Require Import Lia Floats.SpecFloat.
From Verif Require Import Base Codec SpecCodec Package PropSet Store Shapes Props Nodes Doc Notebook SpecDoc SpecValid SpecShelf RangeProofs3 ShelfProofs
  PropertiesStore PropertiesWrite.

Theorem C65_round_trip : forall sanitise w nb, (forall n, seven_digits n -> sanitise n = n) ->
  short w -> notebook_ok sanitise nb -> notebook_small w nb ->
  exists t p, node_ok t /\ forall h, exists k, forall n, (k <= n)%nat -> parse_notebook sanitise h n n (fs_of t) p = Ok nb.
Proof. exact notebook_shelved. Qed.
Print Assumptions C65_round_trip.

(** Any other supply of names will do. *)
Theorem C65_any_names : forall sanitise w nb, stocked sanitise w -> short w -> notebook_ok sanitise nb -> notebook_small w nb ->
  exists t, node_ok t /\ forall h, exists k, forall n, (k <= n)%nat ->
    parse_notebook sanitise h n n (fs_of t) [RootDir; Normal [116; 46; 111; 110; 101; 116; 111; 99; 50]] = Ok nb.
Proof. exact notebook_placed. Qed.
Print Assumptions C65_any_names.

(** With C64: the notebooks that are read, within these limits, are exactly the valid
    ones. *)
Theorem C65_exact : forall sanitise w nb, (forall n, seven_digits n -> sanitise n = n) -> short w -> notebook_small w nb ->
  ((exists h depth fuel fs p, holds_bytes fs /\ parse_notebook sanitise h depth fuel fs p = Ok nb) <-> notebook_ok sanitise nb).
Proof.
  intros sanitise w nb H S L. split.
  - intros (h & depth & fuel & fs & p & B & E). exact (notebook_valid sanitise h depth fuel fs p nb B E).
  - intro V. destruct (notebook_shelved sanitise w nb H S V L) as (t & p & N & E). destruct (E order_id) as (k & K).
    exists order_id, k, k, (fs_of t), p. split; [now apply tree_bytes|now apply K].
Qed.
Print Assumptions C65_exact.

(** A sanitiser that drops colons, and a notebook with two groups of the same name, one
    of them in a group of that name, and sections before and in them. *)
Definition no_colons (n : name) : name := filter (fun c => negb (c =? 58)) n.
Definition a_notebook : notebook := Notebook_
  [EnSection a_section; EnGroup [65] [EnGroup [65] []; EnSection a_section]; EnGroup [65] [EnSection a_section]; EnSection a_section] (Some (Color 0 1 2 3)).
Lemma colons_plain : forall n, ~ In 58 n -> no_colons n = n.
Proof.
  induction n as [|c n IH]; intro H; [reflexivity|]. cbn. destruct (N.eqb_spec c 58) as [->|E]; [elim H; now left|]. cbn. f_equal. apply IH. intro I. apply H. now right.
Qed.
Lemma group_a : folder_name no_colons [65].
Proof.
  refine (conj (conj _ _) (conj _ (conj _ (conj _ (conj _ (conj _ (conj _ _))))))); try discriminate.
  - constructor; [left; reflexivity|constructor].
  - constructor; [discriminate|constructor].
  - intros [E|[]]. discriminate E.
  - reflexivity.
  - intros [|x [|y a]] b c E; discriminate E.
Qed.
Example C65_example :
  (forall n, seven_digits n -> no_colons n = n) /\ short 4 /\ notebook_ok no_colons a_notebook /\ notebook_small 4 a_notebook /\
  exists t p, node_ok t /\ forall h, exists k, forall n, (k <= n)%nat -> parse_notebook no_colons h n n (fs_of t) p = Ok a_notebook.
Proof.
  assert (A : forall n, seven_digits n -> no_colons n = n).
  { intros n (_ & F). apply colons_plain. intro I. rewrite Forall_forall in F. apply F in I. destruct I as (_ & I). now apply I. }
  assert (V : section_ok a_section) by exact (proj1 C63_example).
  assert (L : N.of_nat (section_size a_section) < 2 ^ 21) by exact (proj2 C63_example).
  assert (B : notebook_ok no_colons a_notebook).
  { pose proof group_a as G. clear - V G. unfold notebook_ok, a_notebook. cbn [nb_entries nb_color every entry_ok if_any].
    refine (conj (conj V (conj (conj G (conj (conj G I) (conj V I))) (conj (conj G (conj V I)) (conj V I)))) _). unfold color_ok, u8. cbn. repeat split; reflexivity. }
  assert (S : notebook_small 4 a_notebook).
  { clear - L. unfold notebook_small, a_notebook. cbn [nb_entries every entry_small length].
    assert (s1 : short 1) by reflexivity.
    refine (conj _ (conj L (conj (conj s1 (conj _ (conj (conj s1 (conj _ I)) (conj L I)))) (conj (conj s1 (conj _ (conj L I))) (conj L I))))); lia. }
  refine (conj A (conj eq_refl (conj B (conj S _)))). apply (C65_round_trip no_colons 4); [exact A|reflexivity|exact B|exact S].
Qed.
