(** For every table of contents, a file that is read as it. *)
From Coq Require Import Lia ZifyBool ZifyNat ZifyN Permutation.
From Verif Require Import Base Codec SpecCodec Package PropSet PropIds SpecPropSet Store Shapes Props Nodes Doc Notebook SpecRefs SpecStore SpecValues SpecNodes SpecDoc
  SpecNotebook SpecValid SpecFile DescProofs DescProofs2 DescProofs3 EncodeProofs WriteNodes WriteProofs WriteProofs2 WriteProofs3 WriteProofs4 DocProofs4 NotebookProofs2
  FileProofs AuthorProofs.

Definition unmarked (n : name) : Prop := forall a b c, n = a ++ [94; c] ++ b -> c <> 77 /\ c <> 74.
Lemma unmarked_tail x n : unmarked (x :: n) -> unmarked n.
Proof. intros H a b c E. apply (H (x :: a) b c). now rewrite E. Qed.
Lemma unmarked_same c by_ n : c = 77 \/ c = 74 -> unmarked n -> unescape c by_ n n.
Proof.
  intros C. induction n as [|x n IH]; intro H; [constructor|]. apply ue_char; [|apply IH; now apply unmarked_tail in H].
  intros (-> & E). destruct n as [|y n]; [discriminate E|]. injection E as ->. specialize (H [] n c eq_refl). lia.
Qed.
Lemma e_escaped n : plain n -> unmarked n -> N.of_nat (length n) < 2 ^ 22 -> enc escaped_name n.
Proof.
  intros P U L. destruct (e_text n P L) as (s & G & H). exists s. split; [exact G|]. intros v V. exists n, n. split; [now apply H|].
  split; apply unmarked_same; auto.
Qed.

Lemma w_toc cell id d : id_fits id -> ids_ok (tc_children d) ->
  has (opt_rel escaped_name (tc_filename d)) -> has (opt_rel dword (tc_ordering_id d)) -> has (opt_rel argb (tc_color d)) ->
  written cell id (fun o => toc_object o d).
Proof.
  intros Hid (H1 & L1) (s2 & H2) (s3 & H3) (s4 & H4).
  exists (AObject id 0x00020001 [(0x24001CF6, frefs (tc_children d)); (0x1C001D6B, fv s2); (0x14001CB9, fv s3); (0x14001CBE, fv s4)] None None).
  enough_good.
  { node_good Hid. eexists; exists (0%nat). refine (conj _ (conj _ _)).
    - eapply fg_cons; [refine (fg_refs _ H1 _); lia|]. eapply fg_cons; [exact (fg_fv _ _ H2)|]. eapply fg_cons; [exact (fg_fv _ _ H3)|].
      eapply fg_cons; [exact (fg_fv _ _ H4)|]. apply fg_nil.
    - exact I.
    - lia. }
  intros o O. node_read O W M.
  split; [exact (kind_is _ _ o O)|].
  split; [eapply (r_children _ _ o W O); [reflexivity|reflexivity]|].
  split; [eapply (r_optional _ o W M); [reflexivity|reflexivity|exact H2]|].
  split; [eapply (r_optional _ o W M); [reflexivity|reflexivity|exact H3]|].
  eapply (r_optional _ o W M); [reflexivity|reflexivity|exact H4].
Qed.

Definition line_ok (n : name) : Prop := plain n /\ unmarked n /\ N.of_nat (length n) < 2 ^ 22.
Definition numbered_lines (ns : list name) : list (N * name) := combine (map N.of_nat (seq 0 (length ns))) ns.
Definition toc_at (sp : space) (id : exguid) (ts : list (N * name)) (c : option color) : Prop :=
  listing sp id ts /\ found sp id (fun o => exists d, toc_object o d /\ c = tc_color d).

Lemma singles {A} (l : list A) : concat (map (fun x => [x]) l) = l.
Proof. induction l as [|x l IH]; cbn; [reflexivity|now rewrite IH]. Qed.
Lemma toc_wrote cell (ts : list (N * name)) c : Forall (fun kn => fst kn < 2 ^ 32 /\ line_ok (snd kn)) ts -> N.of_nat (length ts) < 2 ^ 21 -> if_any color_ok c ->
  wrote cell id_fits (fun sp id => toc_at sp id ts c) (length ts + 1).
Proof.
  intros F L C.
  assert (S : wrote cell (all_good id_fits ts) (fun sp ids => Forall2 (fun id kn => listing sp id [kn]) ids ts) (sum_of (fun _ => 1%nat) ts)).
  { apply (w_list cell id_fits (fun sp id kn => listing sp id [kn])). intros (k & n) I. rewrite Forall_forall in F. destruct (F _ I) as (K & P & U & Ln). cbn [fst snd] in *.
    eapply w_impl; [apply (w_object _ (fun o => toc_object o (TocData [] (Some n) (Some k) None)))|].
    - intros id Hid. apply w_toc; [exact Hid|split; [constructor|reflexivity]|..]; proj; [|hv|hv].
      apply has_opt. now apply e_escaped.
    - intros sp id _ (o & Eo & Ho). eapply ls_name; [exact Eo|exact Ho|reflexivity|reflexivity]. }
  assert (E : sum_of (fun _ : N * name => 1%nat) ts = length ts) by (clear; induction ts as [|x l IH]; cbn; [reflexivity|now rewrite IH]).
  rewrite E in S. clear E.
  eapply w_node with (Q := fun ids o => toc_object o (TocData ids None None c)); [exact S|..].
  - intros ids id (Fi & E) Hid. apply w_toc; [exact Hid|split; [exact Fi|proj; lia]|..]; hv.
  - intros sp ids id _ R (o & Eo & Ho). split.
    + rewrite <- (singles ts). eapply ls_folder; [exact Eo|exact Ho|reflexivity|]. cbn [tc_children].
      clear - R. induction R as [|a b l m H _ IH]; cbn; constructor; [exact H|exact IH].
    + exists o. split; [exact Eo|]. eexists. split; [exact Ho|reflexivity].
Qed.

Definition distinct_neighbours (ns : list name) : Prop := squeezed ns ns.
Lemma nodup_squeezed (ns : list name) : NoDup ns -> squeezed ns ns.
Proof.
  induction ns as [|n [|m ns] IH]; intro H; [constructor|constructor|]. inversion H as [|? ? N1 N2]; subst. apply sq_other; [|now apply IH].
  intros ->. apply N1. now left.
Qed.
Lemma lines_snd ns : map snd (numbered_lines ns) = ns.
Proof. unfold numbered_lines. apply combine_seconds. now rewrite map_length, seq_length. Qed.
Lemma lines_length ns : length (numbered_lines ns) = length ns.
Proof. unfold numbered_lines. rewrite combine_length, map_length, seq_length. lia. Qed.
Lemma lines_nth ns i kn : nth_error (numbered_lines ns) i = Some kn -> fst kn = N.of_nat i.
Proof.
  intro H. assert (L : (i < length (numbered_lines ns))%nat) by (apply nth_error_Some; congruence). rewrite lines_length in L.
  apply (map_nth_error fst) in H. unfold numbered_lines in H. rewrite combine_firsts in H by (now rewrite map_length, seq_length).
  rewrite nth_error_map in H. rewrite nth_error_nth' with (d := 0%nat) in H by (now rewrite seq_length).
  rewrite seq_nth in H by exact L. cbn in H. injection H as <-. reflexivity.
Qed.
Lemma lines_sorted ns : stably_sorted (numbered_lines ns) (numbered_lines ns).
Proof.
  split; [apply Permutation_refl|]. split; [|reflexivity]. intros i j a b L A B. apply lines_nth in A, B. lia.
Qed.
Lemma toc_of_lines sp id ns c : content_root sp = Some id -> toc_at sp id (numbered_lines ns) c -> NoDup ns -> toc_is sp ns c.
Proof.
  intros R (A & B) N. exists id, (numbered_lines ns), (numbered_lines ns). refine (conj R (conj A (conj (lines_sorted ns) (conj _ B)))).
  rewrite lines_snd. now apply nodup_squeezed.
Qed.

Definition toc_schema_ : guid := 0xE4DBFD38E5C7408BA8A10E7B421E1F5F.
Lemma toc_written ns c : Forall line_ok ns -> NoDup ns -> N.of_nat (length ns) < 2 ^ 21 -> if_any color_ok c ->
  exists d, bytes_ok d /\ forall h, exists st, opens h d st /\ st_schema st = toc_schema_ /\ toc_is (st_data_root st) ns c.
Proof.
  intros F Nd L C.
  destruct (toc_wrote (pcell 0) (numbered_lines ns) c) with (n := 0%nat) as (id & os & B1 & B2 & B3 & B4 & B6).
  - apply Forall_forall. intros kn I. split.
    + destruct (In_nth_error _ _ I) as (i & Ei). rewrite (lines_nth _ _ _ Ei).
      assert (i < length (numbered_lines ns))%nat by (apply nth_error_Some; congruence). rewrite lines_length in *. lia.
    + rewrite Forall_forall in F. apply F. rewrite <- (lines_snd ns). now apply in_map.
  - now rewrite lines_length.
  - exact C.
  - rewrite lines_length. lia.
  - rewrite lines_length in B1.
    destruct (space_of_good (id, id) os 0 B2 B3 ltac:(lia) B4 B4) as (Fs & R).
    set (D := StoreDesc toc_schema_ 0 0 None 0 (pcell 0) (space_of (id, id) os) []).
    assert (DF : store_fits D).
    { refine (conj Fs (conj _ (Forall_nil _))). cbn [D td_cell td_spaces map]. repeat constructor. intros []. }
    assert (DR : store_in_range D).
    { refine (conj eq_refl (conj eq_refl (conj eq_refl (conj I (conj eq_refl (conj _ (conj R (conj (Forall_nil _) eq_refl)))))))). now apply pcell_fits. }
    destruct (store_author D DF DR) as (d & els & B & Hd & Hs). exists d. split; [exact B|]. intros h.
    destruct (store_described d els D h 1 Hd Hs DF (le_n _)) as (st & E & S1 & _ & S2 & _). exists st. split; [now exists 1%nat|]. split; [exact S1|].
    cbn [D td_cell td_root] in S2. destruct (space_of_present _ _ _ _ S2) as (P & _ & Ct). eapply toc_of_lines; [exact Ct|now apply B6|exact Nd].
Qed.
