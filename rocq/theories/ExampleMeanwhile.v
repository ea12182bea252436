(** Changing notebooks for C87: one whose single section is written again and again,
    and one whose section makes way for a section group. *)
From Coq Require Import Lia ZifyBool ZifyNat ZifyN.
From Verif Require Import Base Codec Package PropSet PropIds Store Shapes Props Nodes Doc SpecCodec SpecStore SpecValues SpecNodes
  NodesProofs PropertiesStore SpecDoc SpecNotebook Notebook NotebookProofs NotebookProofs2 NotebookProofs3 SpecCause SpecOpen OpenProofs2 SpecBlame BlameProofs
  SpecFate FateProofs3 SpecVoyage VoyageProofs ExampleFile ExampleSection ExampleNotebook ExampleVoyage Timed SpecTimed SpecMeanwhile MeanwhileProofs.
Local Open Scope nat_scope.

Section Rewritten.
  (** What is in the section file at every moment. *)
  Variable data : nat -> list N.
  Definition rewritten : world := fun t => lone_fs (data t).
  Variables a b : nat.
  Notation lists_seen := (lists_seen plainly order_id rewritten a b).
  Lemma rewritten_lists r : lists_seen lone_path r -> r = lone_section.
  Proof.
    intros (base & names & n & (t & _ & T) & I & R & _). destruct (lone_reads (data t)) as (st & c & Rd & O & Q & P).
    destruct (toc_at_fun order_id (lone_fs (data t)) lone_path _ _ base names
      (read_toc_at _ lone_path home (Normal name_toc) _ c _ st 3 Rd O Q eq_refl ltac:(discriminate) P) T) as (<- & <-).
    destruct I as [<-|[]]. destruct R as (ws & ns & A & B & C & D & E & -> & _).
    destruct (lone_resolves (data t)) as (ws' & ns' & A' & B' & C' & D' & E' & F' & _).
    rewrite (plain_words_fun plainly name_one ns ns'); [now symmetry|exists ws; auto|exists ws'; auto].
  Qed.
  Lemma rewritten_file : ~ once rewritten a b (fun fs => fs_is_file fs lone_section = false).
  Proof. intros (t & _ & F). unfold rewritten in F. rewrite lone_file in F. discriminate F. Qed.
  Lemma rewritten_reaches q : reaches_seen plainly order_id rewritten a b lone_path q -> q = lone_path.
  Proof.
    induction 1 as [|q r toc H IH (L & F & _)]; [reflexivity|]. subst q. rewrite (rewritten_lists r L) in F. contradiction (rewritten_file F).
  Qed.
  Lemma rewritten_shallow q : ~ nested_seen plainly order_id rewritten a b lone_path 1 q.
  Proof.
    intros H. inversion H as [|n q' r toc H' (L & F & _)]; subst. inversion H'; subst. rewrite (rewritten_lists r L) in F. contradiction (rewritten_file F).
  Qed.
  Lemma rewritten_circle : (forall t, ~ section_circle order_id (lone_fs (data t)) lone_section) ->
    ~ circle_seen plainly order_id rewritten a b lone_path.
  Proof.
    intros N [(q & H & t & _ & C)|(r & (q & H & L & _) & t & _ & C)]; apply rewritten_reaches in H as ->.
    - destruct (lone_reads (data t)) as (st & c & Rd & O & Q & P).
      exact (read_no_circle _ lone_path _ c _ st 3 Rd O P C).
    - rewrite (rewritten_lists r L) in C. exact (N t C).
  Qed.
End Rewritten.

(** "a" is a section until question [k], and then a section group. *)
Definition as_section : filesystem :=
  plain_fs [(home ++ [Normal name_toc], toc_file [toc_folder_obj 101 [102%N]; toc_entry_obj 102 1 name_a]); (home ++ [Normal name_a], sample_section)]
    [(home, [name_toc; name_a])].
Definition as_group : filesystem :=
  plain_fs [(home ++ [Normal name_toc], toc_file [toc_folder_obj 101 [102%N]; toc_entry_obj 102 1 name_a]); (home ++ [Normal name_a; Normal name_toc], empty_toc)]
    [(home, [name_toc; name_a]); (home ++ [Normal name_a], [name_toc])].
Definition regrouped (k : nat) : world := fun t => if Nat.ltb t k then as_section else as_group.
