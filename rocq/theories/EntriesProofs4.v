(** Tables of contents that are trees, with as many names as their length allows. *)
From Coq Require Import Lia ZifyBool ZifyNat ZifyN Permutation Relations.
From Verif Require Import Base BaseProofs Codec SpecCodec CodecProofs CodecRT2 CodecRT3 Package PropSet PropIds SpecPropSet Store Shapes Props Nodes Doc Notebook SpecRefs SpecStore SpecValues SpecNodes SpecDoc
  SpecNotebook SpecValid SpecShelf SpecFile NodesProofs NodesProofs2 DescProofs DescProofs2 DescProofs3 EncodeProofs WriteNodes WriteProofs WriteProofs2 WriteProofs3 DocProofs4 NotebookProofs NotebookProofs2 FileProofs
  ExampleFile AuthorProofs WriteProofs4 WriteProofs5 ShelfProofs DoubleNodes CrowdProofs DoubleProofs QuarticProofs SpecEntries EntriesProofs2.
Local Open Scope N_scope.

(** ** The objects *)
Definition letter (j : nat) : name := if Nat.even j then name_a else name_b.
Definition kid_ids (k : nat) : list exguid := map oid (seq 0 k).
Definition flat_os (k : nat) : list aobject := map (fun j => a_entry (oid j) (letter j)) (seq 0 k) ++ [a_folder (oid k) (kid_ids k)].
Definition flat_desc (k : nat) : space_desc := space_of (oid k, oid k) (flat_os k).
Definition flat_store (k : nat) : store_desc := StoreDesc toc_schema_ 0 0 None 0 (pcell 0) (flat_desc k) [].
Lemma letter_two j : letter j = name_a \/ letter j = name_b.
Proof. unfold letter. destruct (Nat.even j); auto. Qed.
Lemma flat_os_length k : length (flat_os k) = (k + 1)%nat.
Proof. unfold flat_os. rewrite app_length, map_length, seq_length. reflexivity. Qed.
Lemma flat_os_ids k : map ao_id (flat_os k) = map oid (seq 0 (length (flat_os k))).
Proof. rewrite flat_os_length, seq_app, map_app. unfold flat_os. rewrite map_app, map_map. reflexivity. Qed.

Section Flat.
  Variable k : nat.
  Hypothesis bound : N.of_nat k < 2 ^ 22.
  Lemma one_written j : (j < k)%nat -> as_written (pcell 0) (a_entry (oid j) (letter j)) (fun o => toc_object o (TocData [] (Some (letter j)) (Some 0) None)).
  Proof.
    intros L. apply (as_toc _ _ (TocData [] (Some (letter j)) (Some 0) None)); [apply oid_fits; lia|split; [constructor|reflexivity]|..].
    - assert (P : plain (letter j) /\ unmarked (letter j)).
      { destruct (letter_two j) as [-> | ->]; (split; [split; repeat constructor; try discriminate; left; reflexivity|]); intros [|x [|y a]] b c E; discriminate E. }
      destruct P as (P & U). apply writes_opt; [apply text_good; destruct (letter_two j) as [-> | ->]; reflexivity|]. intros v V. exists (letter j), (letter j). split; [now apply text_means|].
      split; apply unmarked_same; auto.
    - apply writes_opt; [leaf_of; reflexivity|]. intros v V. inversion V. reflexivity.
    - exact eq_refl.
  Qed.
  Lemma all_written : as_written (pcell 0) (a_folder (oid k) (kid_ids k)) (fun o => toc_object o (TocData (kid_ids k) None None None)).
  Proof.
    apply (as_toc _ _ (TocData (kid_ids k) None None None)); [apply oid_fits; lia| |exact eq_refl..]. cbn [tc_children]. split.
    - apply Forall_map, Forall_forall. intros j I. apply in_seq in I. apply oid_fits. lia.
    - unfold kid_ids. rewrite map_length, seq_length. exact bound.
  Qed.
  Lemma flat_good : Forall ao_good (flat_os k).
  Proof.
    apply Forall_app. split; [|constructor; [exact (proj1 all_written)|constructor]].
    apply Forall_map, Forall_forall. intros j I. apply in_seq in I. exact (proj1 (one_written j ltac:(lia))).
  Qed.
  Lemma flat_fits : store_fits (flat_store k) /\ store_in_range (flat_store k).
  Proof.
    destruct (space_of_good (oid k, oid k) (flat_os k) 0 (flat_os_ids k) flat_good) as (F & R); [rewrite flat_os_length; lia|apply oid_fits; lia..|].
    split.
    - refine (conj F (conj _ (Forall_nil _))). cbn [flat_store td_cell td_spaces map]. repeat constructor. intros [].
    - refine (conj eq_refl (conj eq_refl (conj eq_refl (conj I (conj eq_refl (conj _ (conj R (conj (Forall_nil _) eq_refl)))))))). now apply pcell_fits.
  Qed.
  Definition flat_names : list name := map letter (seq 0 k).
  Definition flat_lines : list (N * name) := map (fun j => (0, letter j)) (seq 0 k).
  Section Space.
    Variable sp : space.
    Hypothesis S : space_is (pcell 0) (flat_desc k) sp.
    Lemma flat_found a Q : as_written (pcell 0) a Q -> In a (flat_os k) -> found sp (ao_id a) Q.
    Proof. intros (_ & H) I. destruct (space_of_present _ _ _ _ S) as (P & _). destruct (P a I) as (o & Eo & Ho). exists o. split; [exact Eo|now apply H]. Qed.
    Lemma entry_in j : (j < k)%nat -> In (a_entry (oid j) (letter j)) (flat_os k).
    Proof. intro L. apply in_or_app. left. apply in_map_iff. exists j. split; [reflexivity|apply in_seq; lia]. Qed.
    Lemma folder_in : In (a_folder (oid k) (kid_ids k)) (flat_os k).
    Proof. apply in_or_app. right. now left. Qed.
    Lemma flat_listing : listing sp (oid k) flat_lines.
    Proof.
      destruct (flat_found _ _ all_written folder_in) as (o & Eo & Ho). unfold flat_lines. rewrite <- (singles (map _ _)), map_map. eapply ls_folder; [exact Eo|exact Ho|reflexivity|]. cbn [tc_children].
      assert (G : forall n m, (m + n <= k)%nat -> Forall2 (listing sp) (map oid (seq m n)) (map (fun x => [(0, letter x)]) (seq m n))).
      { induction n as [|n IH]; intros m L; cbn [seq map]; constructor; [|apply IH; lia].
        destruct (flat_found _ _ (one_written m ltac:(lia)) (entry_in m ltac:(lia))) as (o' & Eo' & Ho'). eapply ls_name; [exact Eo'|exact Ho'|reflexivity..]. }
      apply G. lia.
    Qed.
    Lemma flat_is : toc_is sp flat_names None.
    Proof.
      destruct (space_of_present _ _ _ _ S) as (_ & _ & C). cbn [snd] in C. exists (oid k), flat_lines, flat_lines. refine (conj C (conj flat_listing (conj _ (conj _ _)))).
      - split; [apply Permutation_refl|]. split; [|reflexivity]. intros i i' a b _ A B. apply nth_error_In in A, B. unfold flat_lines in A, B.
        apply in_map_iff in A as (? & <- & _). apply in_map_iff in B as (? & <- & _). cbn. lia.
      - unfold flat_lines. rewrite map_map. cbn [snd]. fold flat_names.
        assert (G : forall n m, squeezed (map letter (seq m n)) (map letter (seq m n))).
        { induction n as [|[|n] IH]; intro m; cbn [seq map]; [constructor..|]. apply sq_other; [|exact (IH (Datatypes.S m))].
          unfold letter. rewrite Nat.even_succ, <- Nat.negb_even. destruct (Nat.even m); discriminate. }
        apply G.
      - destruct (flat_found _ _ all_written folder_in) as (o & Eo & Ho). exists o. split; [exact Eo|]. eexists. split; [exact Ho|reflexivity].
    Qed.
    Lemma flat_lists a l : folder_lists sp a l -> a = oid k /\ l = kid_ids k.
    Proof.
      intros (o & Eo & d & Hd & Hn & ->). destruct S as (_ & _ & _ & _ & O). pose proof (O _ _ Eo) as I. cbn [flat_desc space_of sd_objects] in I. rewrite map_map in I.
      apply in_map_iff in I as (x & Ex & I). cbn [describe od_id] in Ex. subst a. apply in_app_or in I as [I|[<-|[]]].
      - exfalso. apply in_map_iff in I as (j & <- & I). apply in_seq in I. destruct (flat_found _ _ (one_written j ltac:(lia)) (entry_in j ltac:(lia))) as (o' & Eo' & Ho').
        rewrite Eo in Eo'. injection Eo' as <-. apply toc_ok in Hd, Ho'. rewrite Hd in Ho'. injection Ho' as ->. discriminate Hn.
      - split; [reflexivity|]. destruct (flat_found _ _ all_written folder_in) as (o' & Eo' & Ho'). rewrite Eo in Eo'. injection Eo' as <-. apply toc_ok in Hd, Ho'. rewrite Hd in Ho'. injection Ho' as ->. reflexivity.
    Qed.
    Lemma flat_tree : toc_tree sp.
    Proof.
      split.
      - intros a b la lb i j x La Lb X Y. apply flat_lists in La as (-> & ->). apply flat_lists in Lb as (-> & ->). split; [reflexivity|].
        eapply (proj1 (NoDup_nth_error (kid_ids k))); [|apply nth_error_Some; rewrite X; discriminate|congruence].
        apply FinFun.Injective_map_NoDup; [intros c d; apply oid_inj|apply seq_NoDup].
      - assert (Q : forall a b, clos_trans _ (SpecNotebook.below sp) a b -> a = oid k /\ In b (kid_ids k)).
        { induction 1 as [a b (o & d & Eo & Ho & Hn & I)|a b c _ (-> & _) _ (_ & IH)]; [|auto]. destruct (flat_lists a (tc_children d)) as (-> & E); [|rewrite <- E; auto].
          exists o. split; [exact Eo|]. exists d. auto. }
        intros a H. apply Q in H as (-> & H). apply in_map_iff in H as (j & E & I). apply in_seq in I. apply oid_inj in E. lia.
    Qed.
  End Space.
End Flat.

(** ** The file *)
Local Open Scope nat_scope.
From Verif Require Import SpecPackage.
Definition flat_ps (k : nat) : pspace := pspace_for (pcell 0) (oid k, oid k) (flat_os k).
Definition flat_bytes (k : nat) (hc : cellid) : list N :=
  w_file 0x109ADD3F911B49F5A5D01791EDC8AED8%N (w_id 0 0) (w_elems (w_store toc_schema_ hc (pcell 0)
    [(hc, [], [(header_desc (flat_store k), w_oset (header_set (flat_store k)))]); flat_ps k])).
Lemma all_bytes id l : object_bytes (describe (a_folder id l), w_oset (ao_set (a_folder id l))) <= 243 + 25 * length l.
Proof.
  etransitivity; [apply (object_bytes_le _ 4)|].
  - repeat constructor.
  - cbn [ao_props a_folder given ao_fields flat_map snd fst frefs fv option_map app given_last ao_last refs_of cells_of ap_refs ap_cells length]. rewrite ?app_nil_r. lia.
Qed.
Lemma one_bytes j : object_bytes (describe (a_entry (oid j) (letter j)), w_oset (ao_set (a_entry (oid j) (letter j)))) <= 290.
Proof. unfold object_bytes. destruct (letter_two j) as [-> | ->]; cbn; lia. Qed.
Lemma flat_ps_len k : length (flat_map w_elem (w_elems (w_space 1 (flat_ps k)))) <= 320 * k + 1500.
Proof.
  pose proof (space_sum 1 (flat_ps k)) as Sp. cbn [flat_ps pspace_for fst snd space_of sd_roots map length] in Sp.
  specialize (Sp (no_file (flat_os k) ltac:(unfold flat_os; apply Forall_app; split; [apply Forall_map, Forall_forall; reflexivity|repeat constructor]))).
  etransitivity; [exact Sp|]. unfold flat_os. rewrite !map_app, sum_app.
  assert (G : sum (map object_bytes (map (fun a => (describe a, w_oset (ao_set a))) (map (fun j => a_entry (oid j) (letter j)) (seq 0 k)))) <= 290 * k).
  { etransitivity; [apply (sum_le _ 290)|rewrite !map_length, seq_length; lia]. intros x I. apply in_map_iff in I as (p & <- & I). apply in_map_iff in I as (a & <- & I).
    apply in_map_iff in I as (j & <- & _). apply one_bytes. }
  pose proof (all_bytes (oid k) (kid_ids k)) as B. unfold kid_ids in B at 3. rewrite map_length, seq_length in B. cbn [map sum]. lia.
Qed.
Lemma flat_length k hc : (N.of_nat k < 2 ^ 22)%N -> length (flat_bytes k hc) <= 320 * k + 3200.
Proof.
  intro L. destruct (header_encodes (flat_store k) (proj2 (flat_fits k L))) as (_ & HL).
  unfold flat_bytes, w_file. rewrite !app_length. unfold w_store, w_elems. cbn [map flat_map fst snd w_spaces]. rewrite app_nil_r, !map_app, !flat_map_app.
  fold (w_elems (w_space 0 (hc, [], [(header_desc (flat_store k), w_oset (header_set (flat_store k)))]))). fold (w_elems (w_space 1 (flat_ps k))).
  rewrite !app_length.
  pose proof (w_space_len 0 (hc, [], [(header_desc (flat_store k), w_oset (header_set (flat_store k)))]) 100) as A. cbn [fst snd] in A.
  specialize (A ltac:(intros d e [H|[]]; injection H as <- <-; repeat split; assumption) eq_refl). cbn [length] in A.
  pose proof (flat_ps_len k) as B.
  set (l := [(hc, [], [(header_desc (flat_store k), w_oset (header_set (flat_store k)))]); flat_ps k]).
  assert (X : length (w_body (ElIndex (w_items 0 l))) <= 270).
  { cbn [w_body]. etransitivity; [apply (flat_len _ 90); intros x _; destruct x; cbn [w_index_item]; lens; lia|]. unfold l. cbn [w_items length]. lia. }
  apply (elem_len (w_id 0 0, ElIndex (w_items 0 l))) in X. cbn [fst snd] in X.
  pose proof (elem_len (w_id 0 0, ElManifest toc_schema_ [(ExGuid 0x1A5A319CC26B41AAB9C59BD8C44E07D4 1, hc); (ExGuid 0x84DEFAB9AAA34A0DA3A8520C77AC7073 2, pcell 0)]%N) 160
    ltac:(cbn [snd w_body flat_map]; lens; lia)) as Y. cbn [fst snd] in Y.
  rewrite !guid_enc_length, le_bytes_length, h32_len, h16_len, fin16_len. pose proof (exguid_len (w_id 0 0)). cbn [w_fin8 length].
  fold l. lia.
Qed.
Lemma flat_written k : (N.of_nat k < 2 ^ 22)%N -> exists d, bytes_ok d /\ length d <= 320 * k + 3200 /\ forall h, exists st, opens h d st /\
  st_schema st = toc_schema_ /\ toc_is (st_data_root st) (flat_names k) None /\ toc_tree (st_data_root st).
Proof.
  intros L. destruct (flat_fits k L) as (F & R).
  assert (P : Forall2 prepared ((pcell 0, flat_desc k) :: []) [flat_ps k]).
  { constructor; [|constructor].
    apply (prepared_for (pcell 0) (oid k, oid k) (flat_os k) 0); [now apply pcell_fits|apply flat_os_ids|exact (flat_good k L)| |apply oid_fits; lia..].
    rewrite flat_os_length. lia. }
  destruct (store_author_with (flat_store k) _ F R P) as (hc & els & B & Hd & Hs). exists (flat_bytes k hc). split; [exact B|]. split; [now apply flat_length|].
  intros h. destruct (store_described _ els (flat_store k) h 1 Hd Hs F (le_n _)) as (st & E & S1).
  exists st. split; [now exists 1|]. destruct S1 as (S0 & _ & S1 & _). cbn [flat_store td_cell td_root] in S1.
  split; [exact S0|]. split; [exact (flat_is k L _ S1)|exact (flat_tree k L _ S1)].
Qed.

(** ** The directories *)
Fixpoint wide (s : section) (k j : nat) : list section_entry :=
  map (fun i => match j with O => EnSection s | S j' => EnGroup (letter i) (wide s k j') end) (seq 0 k).
Lemma total_const {A} (f : A -> nat) c l : (forall x, In x l -> f x = c) -> SpecSize.total f l = length l * c.
Proof.
  induction l as [|a l IH]; intro H; [reflexivity|]. cbn [SpecSize.total length]. rewrite (H a (or_introl eq_refl)), (IH (fun x I => H x (or_intror I))). cbn. lia.
Qed.
Lemma wide_sections s k j : SpecSize.total entry_sections (wide s k j) = k ^ (j + 1).
Proof.
  induction j as [|j IH].
  - cbn [wide]. rewrite (total_const _ 1); [rewrite map_length, seq_length; cbn; lia|]. intros x I. apply in_map_iff in I as (i & <- & _). reflexivity.
  - cbn [wide]. rewrite (total_const _ (k ^ (j + 1))); [rewrite map_length, seq_length; cbn; lia|]. intros x I. apply in_map_iff in I as (i & <- & _). exact IH.
Qed.
Definition inner (d e : list N) (j : nat) : node := match j with O => FileNode e | S i => both d e i end.
Lemma both_is d e j : both d e j = DirNode [(toc_file, FileNode d); (name_a, inner d e j); (name_b, inner d e j)].
Proof. destruct j; reflexivity. Qed.
Lemma both_names d e j : NoDup (map fst [(toc_file, FileNode d); (name_a, inner d e j); (name_b, inner d e j)]).
Proof. cbn [map fst]. repeat constructor; cbn [In]; intuition discriminate. Qed.
Lemma both_ok d e j : bytes_ok d -> bytes_ok e -> node_ok (both d e j).
Proof.
  intros D E. assert (G : forall n, n = name_a \/ n = name_b -> file_name_ok n) by (intros n Hn; exact (good_ok (fun x => x) n (letter_good (fun x => x) n Hn eq_refl))).
  assert (K : forall j, node_ok (inner d e j) -> node_ok (both d e j)).
  { intros i I0. rewrite both_is. split; [exact (both_names d e i)|].
    exact (conj (conj toc_file_ok D) (conj (conj (G _ (or_introl eq_refl)) I0) (conj (conj (G _ (or_intror eq_refl)) I0) I))). }
  induction j as [|j IH]; apply K; [exact E|exact IH].
Qed.
Lemma both_at sanitise h d e s k : sanitise name_a = name_a -> sanitise name_b = name_b ->
  (exists st, opens h d st /\ st_schema st = toc_schema_ /\ toc_is (st_data_root st) (flat_names k) None) ->
  (forall n, exists st, opens h e st /\ st_schema st = section_schema /\ section_is st n s) ->
  forall j root P, node_at root P = Some (both d e j) -> notebook_at sanitise h (fs_of root) (abs (P ++ [toc_file])) (wide s k j) None.
Proof.
  intros Sa Sb (st & E & Sc & T) He. induction j as [|j IH]; intros root P At.
  all: rewrite both_is in At.
  all: assert (Toc : node_at root (P ++ [toc_file]) = Some (FileNode d)) by (rewrite node_at_app, At; exact (node_at_child _ toc_file (FileNode d) [] (both_names d e _) (or_introl eq_refl))).
  all: match type of At with _ = Some (DirNode [_; (_, inner _ _ ?j0); _]) =>
    assert (Sub : forall i, node_at root (P ++ [letter i]) = Some (inner d e j0))
     by (intro i; rewrite node_at_app, At; destruct (letter_two i) as [-> | ->];
         [exact (node_at_child _ name_a (inner d e j0) [] (both_names d e j0) (or_intror (or_introl eq_refl)))
         |exact (node_at_child _ name_b (inner d e j0) [] (both_names d e j0) (or_intror (or_intror (or_introl eq_refl))))]) end; cbn [inner] in Sub.
  all: assert (Sp : forall i, spot_ok sanitise (letter i, [])) by (intro i; split; [apply letter_good; [apply letter_two|destruct (letter_two i) as [-> | ->]; assumption]|now left]).
  all: set (q := fun i => abs (P ++ [letter i])).
  all: assert (R : forall i, resolves sanitise (fs_of root) (abs P) (letter i) (q i)) by (intro i; exact (line_resolves sanitise root P (letter i, []) _ (Sp i) At)).
  all: eapply na with (bs := d) (st := st) (base := abs P) (last := Normal toc_file) (names := flat_names k) (ps := map q (seq 0 k)) (shown := map q (seq 0 k));
    [now rewrite at_read, Toc|exact E|exact Sc|unfold ends_in, abs; now rewrite map_app|discriminate|exact T
    |unfold flat_names; generalize (seq 0 k) as l; intro l; induction l as [|i l IHl]; cbn [map]; constructor; [exact (R i)|exact IHl]
    |apply picks_all, Forall_map, Forall_forall; intros i _; split; [unfold q; now rewrite at_exists, (Sub i)|exact (line_not_recycled sanitise P (letter i, []) (Sp i))]|].
  - cbn [wide]. generalize (seq 0 k) as l. intro l. induction l as [|i l IHl]; cbn [map]; constructor; [|exact IHl].
    apply ea_section; [unfold q; now rewrite at_is_file, (Sub i)|]. destruct (He (letter i)) as (st' & E' & Sc' & T'). exists e, st', (abs P), (letter i). split; [unfold q; now rewrite at_read, (Sub i)|].
    split; [exact E'|]. split; [exact Sc'|]. split; [unfold ends_in, q, abs; now rewrite map_app|exact T'].
  - cbn [wide]. generalize (seq 0 k) as l. intro l. induction l as [|i l IHl]; cbn [map]; constructor; [|exact IHl].
    specialize (IH root (P ++ [letter i]) (Sub i)). eapply ea_group with (base := abs P) (toc := toc_file) (c := None).
    + unfold q. rewrite at_is_file, (Sub i), both_is. reflexivity.
    + unfold ends_in, q, abs. now rewrite map_app.
    + unfold q. rewrite at_read_dir, (Sub i), both_is. reflexivity.
    + exists [], [Some name_a; Some name_b]. refine (conj eq_refl (conj toc_file_toc (Forall_nil _))).
    + unfold q, abs in *. rewrite map_app in IH. exact IH.
Qed.
Lemma wide_grows k : (N.of_nat k < 2 ^ 22)%N -> exists d e, length d <= 320 * k + 3200 /\ length e <= 5000 /\
  (forall h fuel st, open_store h fuel d = Ok st -> toc_tree (st_data_root st)) /\
  forall j, node_ok (both d e j) /\ forall sanitise h, sanitise name_a = name_a -> sanitise name_b = name_b -> exists nb f, notebook_sections nb = k ^ (j + 1) /\
    forall n, f <= n -> parse_notebook sanitise h n n (fs_of (both d e j)) [RootDir; Normal toc_file] = Ok nb.
Proof.
  intro L. destruct (flat_written k L) as (d & B & Ld & H). destruct (short_written 0 eq_refl) as (e & Be & Le & He). exists d, e.
  split; [exact Ld|]. split; [lia|]. split.
  { intros h fuel st E. destruct (H h) as (st' & E' & _ & _ & T). assert (X : st = st') by (apply (opens_fun h d); [now exists fuel|exact E']). now rewrite X. }
  intro j. split; [now apply both_ok|]. intros sanitise h Sa Sb.
  assert (S : forall n, exists st, opens h e st /\ st_schema st = section_schema /\ section_is st n (doubled_section 0)).
  { intro n. destruct (He h) as (st & E & _ & P). destruct (P n) as (f & Pf). specialize (Pf f (le_n _)). unfold parse_section_buffer in Pf. apply bind_ok in Pf as (st' & Hs & Pf).
    destruct (N.eqb (st_schema st') section_schema) eqn:Es; [|discriminate Pf]. apply N.eqb_eq in Es. exists st'. split; [now exists f|]. split; [exact Es|].
    apply section_settles with (n := f) in Pf. exact Pf. }
  assert (T : exists st, opens h d st /\ st_schema st = toc_schema_ /\ toc_is (st_data_root st) (flat_names k) None) by (destruct (H h) as (st & E & Sc & T & _); now exists st).
  pose proof (both_at sanitise h d e (doubled_section 0) k Sa Sb T S j (both d e j) [] eq_refl) as K.
  apply notebook_complete in K as (f & K). exists (Notebook_ (wide (doubled_section 0) k j) None), f. split; [apply wide_sections|exact K].
Qed.
