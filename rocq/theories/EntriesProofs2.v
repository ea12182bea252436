(** Short tables of contents with many entries. *)
From Coq Require Import Lia ZifyBool ZifyNat ZifyN Permutation.
From Verif Require Import Base BaseProofs Codec SpecCodec CodecProofs CodecRT2 CodecRT3 Package PropSet PropIds SpecPropSet Store Shapes Props Nodes Doc Notebook SpecRefs SpecStore SpecValues SpecNodes SpecDoc
  SpecNotebook SpecValid SpecShelf SpecFile NodesProofs DescProofs DescProofs2 DescProofs3 EncodeProofs WriteNodes WriteProofs WriteProofs2 WriteProofs3 DocProofs4 NotebookProofs NotebookProofs2 FileProofs
  ExampleFile AuthorProofs WriteProofs4 WriteProofs5 ShelfProofs DoubleNodes CrowdProofs DoubleProofs SpecEntries.
Local Open Scope N_scope.

Lemma as_toc cell id d s2 s3 s4 : id_fits id -> ids_ok (tc_children d) ->
  writes (opt_rel escaped_name (tc_filename d)) s2 -> writes (opt_rel dword (tc_ordering_id d)) s3 -> writes (opt_rel argb (tc_color d)) s4 ->
  as_written cell (AObject id 0x00020001 [(0x24001CF6, frefs (tc_children d)); (0x1C001D6B, fv s2); (0x14001CB9, fv s3); (0x14001CBE, fv s4)] None None) (fun o => toc_object o d).
Proof.
  intros Hid (H1 & L1) H2 H3 H4. enough_as.
  { node_good Hid. eexists; exists (0%nat). refine (conj _ (conj _ _)).
    - eapply fg_cons; [refine (fg_refs _ H1 _); lia|]. eapply fg_cons; [exact (fg_fv _ _ H2)|]. eapply fg_cons; [exact (fg_fv _ _ H3)|].
      eapply fg_cons; [exact (fg_fv _ _ H4)|]. apply fg_nil.
    - exact I.
    - lia. }
  intros o O. node_read O W M.
  split; [exact (kind_is _ _ o O)|].
  split; [eapply (r_children _ _ o W O); [reflexivity|reflexivity]|].
  split; [eapply (r_optional _ o W M); [reflexivity|reflexivity|exact H2]|].
  split; [eapply (r_optional _ o W M); [reflexivity|reflexivity|exact H3]|].
  eapply (r_optional _ o W M); [reflexivity|reflexivity|exact H4].
Qed.

(** ** The objects *)
Definition a_entry (id : exguid) (n : name) : aobject :=
  AObject id 0x00020001 [(0x24001CF6, frefs []); (0x1C001D6B, fv (v_text n)); (0x14001CB9, fv v_dword); (0x14001CBE, fv None)] None None.
Definition a_folder (id : exguid) (l : list exguid) : aobject :=
  AObject id 0x00020001 [(0x24001CF6, frefs l); (0x1C001D6B, fv None); (0x14001CB9, fv None); (0x14001CBE, fv None)] None None.
Definition name_a : name := [97].
Definition name_b : name := [98].
Definition folder_at (j : nat) : aobject := a_folder (oid (j + 2)) (match j with O => [oid 0; oid 1] | S i => [oid (i + 2); oid (i + 2)] end).
Definition toc_os (k : nat) : list aobject := [a_entry (oid 0) name_a; a_entry (oid 1) name_b] ++ map folder_at (seq 0 (S k)).
Definition toc_desc (k : nat) : space_desc := space_of (oid (k + 2), oid (k + 2)) (toc_os k).
Definition toc_store (k : nat) : store_desc := StoreDesc toc_schema_ 0 0 None 0 (pcell 0) (toc_desc k) [].

Lemma toc_os_length k : length (toc_os k) = (k + 3)%nat.
Proof. unfold toc_os. rewrite app_length, map_length, seq_length. cbn. lia. Qed.
Lemma toc_os_ids k : map ao_id (toc_os k) = map oid (seq 0 (length (toc_os k))).
Proof.
  rewrite toc_os_length. replace (k + 3)%nat with (2 + S k)%nat by lia. rewrite seq_app, map_app. unfold toc_os. rewrite map_app. apply (f_equal2 (@app _)); [reflexivity|].
  change (0 + 2)%nat with 2%nat. rewrite <- !seq_shift, !map_map. apply map_ext. intro j. cbn [folder_at a_folder ao_id]. f_equal. lia.
Qed.

Section Written.
  Variable k : nat.
  Hypothesis bound : N.of_nat k < 2 ^ 31.
  Lemma entry_written j n : (j <= 1)%nat -> n = name_a \/ n = name_b -> as_written (pcell 0) (a_entry (oid j) n) (fun o => toc_object o (TocData [] (Some n) (Some 0) None)).
  Proof.
    intros L N. apply (as_toc _ _ (TocData [] (Some n) (Some 0) None)); [apply oid_fits; lia|split; [constructor|reflexivity]|..].
    - assert (P : plain n /\ unmarked n).
      { destruct N as [-> | ->]; (split; [split; repeat constructor; try discriminate; left; reflexivity|]); intros [|x [|y a]] b c E; discriminate E. }
      destruct P as (P & U). apply writes_opt; [apply text_good; destruct N as [-> | ->]; reflexivity|]. intros v V. exists n, n. split; [now apply text_means|].
      split; apply unmarked_same; auto.
    - apply writes_opt; [leaf_of; reflexivity|]. intros v V. inversion V. reflexivity.
    - exact eq_refl.
  Qed.
  Lemma folder_written j : (j <= k)%nat -> as_written (pcell 0) (folder_at j)
    (fun o => toc_object o (TocData (match j with O => [oid 0; oid 1] | S i => [oid (i + 2); oid (i + 2)] end) None None None)).
  Proof.
    intros L. unfold folder_at. match goal with |- context[a_folder _ ?l] => set (m := l) end. apply (as_toc _ _ (TocData m None None None)); [apply oid_fits; lia| |exact eq_refl..].
    subst m. destruct j as [|i]; (apply ids_fit; [|cbn; lia]); repeat constructor; cbn; lia.
  Qed.
  Lemma toc_good : Forall ao_good (toc_os k).
  Proof.
    unfold toc_os. apply Forall_app. split.
    - apply Forall_cons; [exact (proj1 (entry_written 0 name_a ltac:(lia) (or_introl eq_refl)))|].
      apply Forall_cons; [exact (proj1 (entry_written 1 name_b ltac:(lia) (or_intror eq_refl)))|constructor].
    - apply Forall_map, Forall_forall. intros j I. apply in_seq in I. exact (proj1 (folder_written j ltac:(lia))).
  Qed.
  Lemma toc_fits : store_fits (toc_store k) /\ store_in_range (toc_store k).
  Proof.
    destruct (space_of_good (oid (k + 2), oid (k + 2)) (toc_os k) 0 (toc_os_ids k) toc_good) as (F & R); [rewrite toc_os_length; lia|apply oid_fits; lia..|].
    split.
    - refine (conj F (conj _ (Forall_nil _))). cbn [toc_store td_cell td_spaces map]. repeat constructor. intros [].
    - refine (conj eq_refl (conj eq_refl (conj eq_refl (conj I (conj eq_refl (conj _ (conj R (conj (Forall_nil _) eq_refl)))))))). now apply pcell_fits.
  Qed.
  Fixpoint lines_of (j : nat) : list (N * name) := match j with O => [(0, name_a); (0, name_b)] | S i => lines_of i ++ lines_of i end.
  Lemma toc_listing sp : present (pcell 0) sp (toc_os k) -> forall j, (j <= k)%nat -> listing sp (oid (j + 2)) (lines_of j).
  Proof.
    intros P.
    assert (F : forall a Q, as_written (pcell 0) a Q -> In a (toc_os k) -> found sp (ao_id a) Q).
    { intros a Q (_ & H) I. destruct (P a I) as (o & Eo & Ho). exists o. split; [exact Eo|now apply H]. }
    assert (A : listing sp (oid 0) [(0, name_a)]).
    { destruct (F _ _ (entry_written 0 name_a ltac:(lia) (or_introl eq_refl)) ltac:(now left)) as (o & Eo & Ho). eapply ls_name; [exact Eo|exact Ho|reflexivity..]. }
    assert (B : listing sp (oid 1) [(0, name_b)]).
    { destruct (F _ _ (entry_written 1 name_b ltac:(lia) (or_intror eq_refl)) ltac:(right; now left)) as (o & Eo & Ho). eapply ls_name; [exact Eo|exact Ho|reflexivity..]. }
    assert (G : forall j, (j <= k)%nat -> In (folder_at j) (toc_os k)) by (intros j L; unfold toc_os; apply in_or_app; right; apply in_map, in_seq; lia).
    induction j as [|j IH]; intro L; destruct (F _ _ (folder_written _ L) (G _ L)) as (o & Eo & Ho).
    - change (lines_of 0) with (concat [[(0, name_a)]; [(0, name_b)]]). eapply ls_folder; [exact Eo|exact Ho|reflexivity|].
      constructor; [exact A|]. constructor; [exact B|constructor].
    - replace (lines_of (S j)) with (concat [lines_of j; lines_of j]) by (cbn; now rewrite app_nil_r). eapply ls_folder; [exact Eo|exact Ho|reflexivity|].
      specialize (IH ltac:(lia)). constructor; [exact IH|]. constructor; [exact IH|constructor].
  Qed.
End Written.

Lemma lines_zero j x : In x (lines_of j) -> fst x = 0.
Proof. induction j as [|j IH]; cbn [lines_of]; [intros [<-|[<-|[]]]; reflexivity|]. intro I. apply in_app_iff in I as [I|I]; auto. Qed.
Lemma lines_stay j : stably_sorted (lines_of j) (lines_of j).
Proof.
  split; [apply Permutation_refl|]. split; [|reflexivity]. intros i i' a b _ A B. apply nth_error_In, lines_zero in A. apply nth_error_In, lines_zero in B. lia.
Qed.
Local Open Scope nat_scope.
Fixpoint turns (n : nat) : list name := match n with O => [] | S m => name_a :: name_b :: turns m end.
Lemma turns_app n m : turns n ++ turns m = turns (n + m).
Proof. induction n as [|n IH]; [reflexivity|]. cbn. now rewrite IH. Qed.
Lemma lines_turns j : map snd (lines_of j) = turns (2 ^ j).
Proof. induction j as [|j IH]; [reflexivity|]. cbn [lines_of]. rewrite map_app, IH, turns_app. f_equal. cbn. lia. Qed.
Lemma turns_length n : length (turns n) = 2 * n.
Proof. induction n as [|n IH]; [reflexivity|]. cbn [turns length]. lia. Qed.
Lemma turns_squeezed n : squeezed (turns n) (turns n).
Proof.
  induction n as [|n IH]; [constructor|]. cbn [turns]. apply sq_other; [discriminate|]. destruct n as [|n]; [constructor|]. cbn [turns] in *. apply sq_other; [discriminate|exact IH].
Qed.
Lemma toc_turns k st : (N.of_nat k < 2 ^ 31)%N -> store_is (toc_store k) st -> toc_is (st_data_root st) (turns (2 ^ k)) None.
Proof.
  intros L (_ & _ & S & _). cbn [toc_store td_cell td_root] in S. destruct (space_of_present _ _ _ _ S) as (P & _ & C). cbn [snd] in C.
  exists (oid (k + 2)), (lines_of k), (lines_of k). refine (conj C (conj (toc_listing k L _ P k (le_n _)) (conj (lines_stay k) (conj _ _)))).
  - rewrite lines_turns. apply turns_squeezed.
  - destruct (P (folder_at k)) as (o & Eo & Ho); [unfold toc_os; apply in_or_app; right; apply in_map, in_seq; lia|]. exists o. split; [exact Eo|].
    eexists. split; [exact (proj2 (folder_written k L k (le_n _)) o Ho)|reflexivity].
Qed.

(** ** The file *)
From Verif Require Import SpecPackage.
Definition toc_ps (k : nat) : pspace := pspace_for (pcell 0) (oid (k + 2), oid (k + 2)) (toc_os k).
Definition toc_bytes (k : nat) (hc : cellid) : list N :=
  w_file 0x109ADD3F911B49F5A5D01791EDC8AED8%N (w_id 0 0) (w_elems (w_store toc_schema_ hc (pcell 0)
    [(hc, [], [(header_desc (toc_store k), w_oset (header_set (toc_store k)))]); toc_ps k])).
Lemma folder_bytes j : object_bytes (describe (folder_at j), w_oset (ao_set (folder_at j))) <= 320.
Proof. unfold object_bytes. cbn [fst snd]. destruct j as [|i]; cbn; lia. Qed.
Lemma toc_ps_len k : length (flat_map w_elem (w_elems (w_space 1 (toc_ps k)))) <= 320 * k + 1500.
Proof.
  pose proof (space_sum 1 (toc_ps k)) as Sp. cbn [toc_ps pspace_for fst snd space_of sd_roots map length] in Sp.
  specialize (Sp (no_file (toc_os k) ltac:(unfold toc_os; apply Forall_app; split; [repeat constructor|apply Forall_map, Forall_forall; reflexivity]))).
  etransitivity; [exact Sp|]. unfold toc_os. rewrite !map_app, sum_app.
  assert (G : sum (map object_bytes (map (fun a => (describe a, w_oset (ao_set a))) (map folder_at (seq 0 (S k))))) <= 320 * S k).
  { etransitivity; [apply (sum_le _ 320)|rewrite !map_length, seq_length; lia]. intros x I. apply in_map_iff in I as (p & <- & I). apply in_map_iff in I as (a & <- & I).
    apply in_map_iff in I as (j & <- & _). apply folder_bytes. }
  match goal with |- context[sum (map object_bytes (map ?f [?a; ?b]))] => assert (T : sum (map object_bytes (map f [a; b])) <= 600) end; [|lia].
  unfold object_bytes. cbn. lia.
Qed.
Lemma toc_length k hc : (N.of_nat k < 2 ^ 31)%N -> length (toc_bytes k hc) <= 320 * k + 3200.
Proof.
  intro L. destruct (header_encodes (toc_store k) (proj2 (toc_fits k L))) as (_ & HL).
  unfold toc_bytes, w_file. rewrite !app_length. unfold w_store, w_elems. cbn [map flat_map fst snd w_spaces]. rewrite app_nil_r, !map_app, !flat_map_app.
  fold (w_elems (w_space 0 (hc, [], [(header_desc (toc_store k), w_oset (header_set (toc_store k)))]))). fold (w_elems (w_space 1 (toc_ps k))).
  rewrite !app_length.
  pose proof (w_space_len 0 (hc, [], [(header_desc (toc_store k), w_oset (header_set (toc_store k)))]) 100) as A. cbn [fst snd] in A.
  specialize (A ltac:(intros d e [H|[]]; injection H as <- <-; repeat split; assumption) eq_refl). cbn [length] in A.
  pose proof (toc_ps_len k) as B.
  set (l := [(hc, [], [(header_desc (toc_store k), w_oset (header_set (toc_store k)))]); toc_ps k]).
  assert (X : length (w_body (ElIndex (w_items 0 l))) <= 270).
  { cbn [w_body]. etransitivity; [apply (flat_len _ 90); intros x _; destruct x; cbn [w_index_item]; lens; lia|]. unfold l. cbn [w_items length]. lia. }
  apply (elem_len (w_id 0 0, ElIndex (w_items 0 l))) in X. cbn [fst snd] in X.
  pose proof (elem_len (w_id 0 0, ElManifest toc_schema_ [(ExGuid 0x1A5A319CC26B41AAB9C59BD8C44E07D4 1, hc); (ExGuid 0x84DEFAB9AAA34A0DA3A8520C77AC7073 2, pcell 0)]%N) 160
    ltac:(cbn [snd w_body flat_map]; lens; lia)) as Y. cbn [fst snd] in Y.
  rewrite !guid_enc_length, le_bytes_length, h32_len, h16_len, fin16_len. pose proof (exguid_len (w_id 0 0)). cbn [w_fin8 length].
  fold l. lia.
Qed.
Lemma toc_written_short k : (N.of_nat k < 2 ^ 31)%N -> exists d, bytes_ok d /\ length d <= 320 * k + 3200 /\ forall h, exists st, open_store h 1 d = Ok st /\
  st_schema st = toc_schema_ /\ toc_is (st_data_root st) (turns (2 ^ k)) None.
Proof.
  intros L. destruct (toc_fits k L) as (F & R).
  assert (P : Forall2 prepared ((pcell 0, toc_desc k) :: []) [toc_ps k]).
  { constructor; [|constructor].
    apply (prepared_for (pcell 0) (oid (k + 2), oid (k + 2)) (toc_os k) 0); [now apply pcell_fits|apply toc_os_ids|exact (toc_good k L)| |apply oid_fits; lia..].
    rewrite toc_os_length. lia. }
  destruct (store_author_with (toc_store k) _ F R P) as (hc & els & B & Hd & Hs). exists (toc_bytes k hc). split; [exact B|]. split; [now apply toc_length|].
  intros h. destruct (store_described _ els (toc_store k) h 1 Hd Hs F (le_n _)) as (st & E & S1).
  exists st. split; [exact E|]. split; [exact (proj1 S1)|now apply toc_turns].
Qed.

(** ** The directory *)
Lemma letter_good sanitise n : n = name_a \/ n = name_b -> sanitise n = n -> good_name sanitise n.
Proof.
  intros H S. split; [|destruct H as [-> | ->]; reflexivity].
  assert (K : exists c, n = [c] /\ (c = 97 \/ c = 98)%N) by (destruct H as [-> | ->]; eexists; split; [reflexivity|auto|reflexivity|auto]).
  destruct K as (c & -> & C). clear H. assert (c <> 47 /\ c <> 46 /\ c <> 0 /\ c < 0xD800)%N as (C1 & C2 & C3 & C4) by lia.
  refine (conj _ (conj _ (conj _ (conj _ (conj _ (conj S (conj _ _))))))); try discriminate.
  - split; (constructor; [|constructor]); [left; exact C4|exact C3].
  - congruence.
  - intros [E|[]]. congruence.
  - intros [|x [|y a]] b z E; discriminate E.
Qed.
Lemma many_entries k : (N.of_nat k < 2 ^ 31)%N -> exists d e, node_ok (pair_of d e) /\ length d <= 320 * k + 3200 /\ length e <= 5000 /\
  forall sanitise h, sanitise name_a = name_a -> sanitise name_b = name_b -> exists nb f, length (nb_entries nb) = 2 ^ (k + 1) /\
    forall n, f <= n -> parse_notebook sanitise h n n (fs_of (pair_of d e)) [RootDir; Normal toc_file] = Ok nb.
Proof.
  intro L. destruct (toc_written_short k L) as (d & B & Ld & H). destruct (short_written 0 eq_refl) as (e & Be & Le & He). exists d, e.
  assert (Nt : NoDup (map fst [(toc_file, FileNode d); (name_a, FileNode e); (name_b, FileNode e)])).
  { cbn [map fst]. repeat constructor; cbn [In]; intuition discriminate. }
  split; [|split; [exact Ld|split; [lia|]]].
  { split; [exact Nt|]. assert (G : forall n, n = name_a \/ n = name_b -> file_name_ok n) by (intros n Hn; exact (good_ok (fun x => x) n (letter_good (fun x => x) n Hn eq_refl))).
    cbn [every fst snd]. refine (conj (conj toc_file_ok B) (conj (conj (G _ (or_introl eq_refl)) Be) (conj (conj (G _ (or_intror eq_refl)) Be) I))). }
  intros sanitise h Sa Sb. set (root := pair_of d e).
  set (nb := map (fun _ => EnSection (doubled_section 0)) (turns (2 ^ k))).
  assert (K : notebook_at sanitise h (fs_of root) (abs ([] ++ [toc_file])) nb None).
  { destruct (H h) as (st & E & Sc & T).
    assert (In_t : forall n, In n (turns (2 ^ k)) -> n = name_a \/ n = name_b).
    { generalize (2 ^ k). intro m. induction m as [|m IH]; cbn [turns]; intros n I; [destruct I|]. destruct I as [<-|[<-|I]]; auto. }
    assert (At : forall n, n = name_a \/ n = name_b -> node_at root ([] ++ [n]) = Some (FileNode e)).
    { intros n [-> | ->]; apply (node_at_child _ _ _ [] Nt); cbn; auto. }
    assert (Sp : forall n, n = name_a \/ n = name_b -> spot_ok sanitise (n, [])).
    { intros n Hn. split; [|now left]. apply letter_good; [exact Hn|]. destruct Hn as [-> | ->]; assumption. }
    set (ps := map (fun n => abs ([] ++ [n])) (turns (2 ^ k))).
    eapply na with (bs := d) (st := st) (base := abs []) (last := Normal toc_file) (names := turns (2 ^ k)) (ps := ps) (shown := ps).
    - rewrite at_read. cbn [app]. assert (X : node_at root [toc_file] = Some (FileNode d)) by exact (node_at_child _ toc_file (FileNode d) [] Nt (or_introl eq_refl)). now rewrite X.
    - now exists 1.
    - exact Sc.
    - reflexivity.
    - discriminate.
    - exact T.
    - unfold ps. clear - In_t Sp. induction (turns (2 ^ k)) as [|n l IH]; cbn [map]; constructor.
      + exact (line_resolves sanitise root [] (n, []) root (Sp n (In_t n (or_introl eq_refl))) eq_refl).
      + apply IH. intros m I. apply In_t. now right.
    - apply picks_all. unfold ps. apply Forall_map, Forall_forall. intros n I. apply In_t in I. split.
      + now rewrite at_exists, (At n I).
      + exact (line_not_recycled sanitise [] (n, []) (Sp n I)).
    - unfold ps, nb. clear - In_t At He. induction (turns (2 ^ k)) as [|n l IH]; cbn [map]; constructor.
      + specialize (In_t n (or_introl eq_refl)). apply ea_section; [now rewrite at_is_file, (At n In_t)|].
        destruct (He h) as (st & E & _ & P). destruct (P n) as (f & Pf). specialize (Pf f (le_n _)). unfold parse_section_buffer in Pf. apply bind_ok in Pf as (st' & Hs & Pf).
        destruct (N.eqb (st_schema st') section_schema) eqn:Es; [|discriminate Pf]. apply N.eqb_eq in Es.
        exists e, st', (abs []), n. split; [now rewrite at_read, (At n In_t)|]. split; [now exists f|]. split; [exact Es|]. split; [reflexivity|].
        apply section_settles with (n := f) in Pf. exact Pf.
      + apply IH. intros m I. apply In_t. now right. }
  apply notebook_complete in K as (f & K). exists (Notebook_ nb None), f. split; [|exact K].
  cbn [nb_entries]. unfold nb. rewrite map_length, turns_length, Nat.pow_add_r. cbn. lia.
Qed.

(** ** Directories in directories *)
Definition name_dot_a : name := [46; 47; 97]%N.
Definition twice : list name := [name_a; name_dot_a].
Lemma twice_written : exists d, bytes_ok d /\ forall h, exists st, opens h d st /\ st_schema st = toc_schema_ /\ toc_is (st_data_root st) twice None.
Proof.
  apply toc_written; [|repeat constructor; cbn; intuition discriminate|reflexivity|exact I].
  assert (K : forall n, Forall (fun c => c <> 94 /\ c <> 0 /\ c < 0xD800)%N n -> length n <= 3 -> line_ok n).
  { intros n F L. refine (conj (conj _ _) (conj _ _)); [| | |lia].
    - eapply Forall_impl; [|exact F]. intros c (_ & _ & C). left. exact C.
    - eapply Forall_impl; [|exact F]. intros c C. apply C.
    - intros a b c ->. apply Forall_app in F as (_ & F). inversion F as [|? ? (C & _) _]; subst. now elim C. }
  apply Forall_cons; [|apply Forall_cons; [|apply Forall_nil]]; (apply K; [|cbn; lia]); repeat (apply Forall_cons; [repeat split; discriminate|]); apply Forall_nil.
Qed.
Fixpoint nested (s : section) (k : nat) : list section_entry :=
  let e := match k with O => EnSection s | S i => EnGroup name_a (nested s i) end in [e; e].
Lemma nested_sections s k : SpecSize.total entry_sections (nested s k) = 2 ^ (k + 1).
Proof.
  induction k as [|k IH]; [reflexivity|]. cbn [nested SpecSize.total entry_sections]. change (SpecSize.total entry_sections (nested s k)) with (SpecSize.total entry_sections (nested s k)).
  rewrite IH. cbn [Nat.add Nat.pow]. lia.
Qed.
Lemma nest_names d e k : NoDup (map fst [(toc_file, FileNode d); (name_a, match k with O => FileNode e | S i => nest d e i end)]).
Proof. cbn [map fst]. repeat constructor; cbn [In]; intuition discriminate. Qed.
Lemma nest_ok d e k : bytes_ok d -> bytes_ok e -> node_ok (nest d e k).
Proof.
  intros D E. assert (A : file_name_ok name_a) by exact (good_ok (fun x => x) name_a (letter_good (fun x => x) name_a (or_introl eq_refl) eq_refl)).
  induction k as [|k IH].
  - split; [exact (nest_names d e 0)|]. exact (conj (conj toc_file_ok D) (conj (conj A E) I)).
  - split; [exact (nest_names d e (S k))|]. exact (conj (conj toc_file_ok D) (conj (conj A IH) I)).
Qed.
Lemma nest_toc d e k : node_at (nest d e k) [toc_file] = Some (FileNode d).
Proof.
  destruct k as [|k]; [exact (node_at_child _ toc_file (FileNode d) [] (nest_names d e 0) (or_introl eq_refl))|].
  exact (node_at_child _ toc_file (FileNode d) [] (nest_names d e (S k)) (or_introl eq_refl)).
Qed.
Lemma nest_sub d e k : node_at (nest d e k) [name_a] = Some (match k with O => FileNode e | S i => nest d e i end).
Proof.
  destruct k as [|k]; [exact (node_at_child _ name_a (FileNode e) [] (nest_names d e 0) (or_intror (or_introl eq_refl)))|].
  exact (node_at_child _ name_a (nest d e k) [] (nest_names d e (S k)) (or_intror (or_introl eq_refl))).
Qed.
Lemma nest_at sanitise h d e s : sanitise name_a = name_a -> (exists st, opens h d st /\ st_schema st = toc_schema_ /\ toc_is (st_data_root st) twice None) ->
  (exists st, opens h e st /\ st_schema st = section_schema /\ section_is st name_a s) ->
  forall k root P, node_at root P = Some (nest d e k) -> notebook_at sanitise h (fs_of root) (abs (P ++ [toc_file])) (nested s k) None.
Proof.
  intros Sa (st & E & Sc & T) (st' & E' & Sc' & T'). induction k as [|k IH]; intros root P At.
  all: set (q := abs (P ++ [name_a])).
  all: assert (Toc : node_at root (P ++ [toc_file]) = Some (FileNode d)) by (rewrite node_at_app, At; apply nest_toc).
  all: match type of At with _ = Some (nest _ _ ?j) =>
    assert (Sub : node_at root (P ++ [name_a]) = Some (match j with O => FileNode e | S i => nest d e i end))
      by (rewrite node_at_app, At; apply nest_sub) end; cbv iota in Sub.
  all: assert (Sp : spot_ok sanitise (name_a, [])) by (split; [apply letter_good; auto|now left]).
  all: assert (R : resolves sanitise (fs_of root) (abs P) name_a q) by exact (line_resolves sanitise root P (name_a, []) _ Sp At).
  all: assert (R' : resolves sanitise (fs_of root) (abs P) name_dot_a q)
    by (destruct R as (_ & _ & _ & _ & _ & _ & _ & _ & C); exists [[46%N]; name_a], [name_a];
        refine (conj (conj _ (conj _ _)) (conj _ (conj _ (conj _ (conj _ (conj _ C)))))); try discriminate;
        [repeat constructor; cbn; intuition discriminate|reflexivity
        |apply pk_skip; [intros (_ & X); now apply X|apply pk_take; [split; discriminate|constructor]]
        |constructor; [split; [discriminate|exact Sa]|constructor]
        |unfold q, abs; now rewrite map_app]).
  all: eapply na with (bs := d) (st := st) (base := abs P) (last := Normal toc_file) (names := twice) (ps := [q; q]) (shown := [q; q]);
    [now rewrite at_read, Toc|exact E|exact Sc|unfold ends_in, abs; now rewrite map_app|discriminate|exact T|constructor; [exact R|constructor; [exact R'|constructor]]
    |apply picks_all; assert (X : fs_exists (fs_of root) q = true /\ ~ recycled q)
       by (split; [unfold q; now rewrite at_exists, Sub|exact (line_not_recycled sanitise P (name_a, []) Sp)]); constructor; [exact X|constructor; [exact X|constructor]]|].
  - assert (X : entry_at sanitise h (fs_of root) q (EnSection s)).
    { apply ea_section; [unfold q; now rewrite at_is_file, Sub|]. exists e, st', (abs P), name_a. split; [unfold q; now rewrite at_read, Sub|].
      split; [exact E'|]. split; [exact Sc'|]. split; [unfold ends_in, q, abs; now rewrite map_app|exact T']. }
    cbn [nested]. constructor; [exact X|constructor; [exact X|constructor]].
  - assert (X : entry_at sanitise h (fs_of root) q (EnGroup name_a (nested s k))).
    { specialize (IH root (P ++ [name_a]) Sub). eapply ea_group with (base := abs P) (toc := toc_file) (c := None).
      - unfold q. rewrite at_is_file, Sub. destruct k; reflexivity.
      - unfold ends_in, q, abs. now rewrite map_app.
      - unfold q. rewrite at_read_dir, Sub. destruct k; reflexivity.
      - exists [], [Some name_a]. refine (conj eq_refl (conj toc_file_toc (Forall_nil _))).
      - unfold q, abs in *. rewrite map_app in IH. exact IH. }
    cbn [nested]. constructor; [exact X|constructor; [exact X|constructor]].
Qed.
Lemma nested_grows : exists d e, bytes_ok d /\ bytes_ok e /\ forall k, node_ok (nest d e k) /\
  forall sanitise h, sanitise name_a = name_a -> exists nb f, notebook_sections nb = 2 ^ (k + 1) /\
    forall n, f <= n -> parse_notebook sanitise h n n (fs_of (nest d e k)) [RootDir; Normal toc_file] = Ok nb.
Proof.
  destruct twice_written as (d & B & H). destruct (short_written 0 eq_refl) as (e & Be & Le & He). exists d, e. split; [exact B|]. split; [exact Be|].
  intro k. split; [now apply nest_ok|]. intros sanitise h Sa.
  assert (S : exists st, opens h e st /\ st_schema st = section_schema /\ section_is st name_a (doubled_section 0)).
  { destruct (He h) as (st & E & _ & P). destruct (P name_a) as (f & Pf). specialize (Pf f (le_n _)). unfold parse_section_buffer in Pf. apply bind_ok in Pf as (st' & Hs & Pf).
    destruct (N.eqb (st_schema st') section_schema) eqn:Es; [|discriminate Pf]. apply N.eqb_eq in Es. exists st'. split; [now exists f|]. split; [exact Es|].
    apply section_settles with (n := f) in Pf. exact Pf. }
  pose proof (nest_at sanitise h d e (doubled_section 0) Sa (H h) S k (nest d e k) [] eq_refl) as K.
  apply notebook_complete in K as (f & K). exists (Notebook_ (nested (doubled_section 0) k) None), f. split; [apply nested_sections|exact K].
Qed.
