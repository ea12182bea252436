(** A family of files that take cubically many steps to open: many cells, all of the
    same revision, which refers to one group many times, which declares one object many
    times. *)
From Coq Require Import Lia ZifyBool ZifyNat ZifyN Permutation.
From Verif Require Import Base BaseProofs Codec SpecCodec CodecProofs CodecRT2 Package SpecPackage PackageRT PackageFacts PropSet PropIds SpecPropSet
  PropSetRT Store SpecStore StoreProofs SpecAccept AcceptProofs SpecSame Notebook ExampleFile WriterProofs SpecFile AuthorProofs FileProofs SpecDoc CrowdProofs
  Steps StepsProofs StoreSteps StoreStepsProofs.

(** ** The file *)
Definition b_header : pspace := (c_header, [], [(header_desc (crowd 0), w_oset (header_set (crowd 0)))]).
Definition b_id : exguid := ExGuid 1 1.
Definition b_kind : entry := (DeclObject b_id 4 0 0 0, DataObject [] [] (le_bytes 4 0)).
Definition b_entry : entry := (DeclObject b_id 1 0 0 0, DataObject [] [] (w_oset c_set)).
Definition b_entries (k : nat) : list entry := b_kind :: b_entry :: repeat b_entry k.
Definition b_items (k : nat) : list index_item :=
  IxCell c_header (w_id 0 0) (Serial 0 0) :: IxCell c_root (w_id 1 0) (Serial 0 0)
  :: map (fun i => IxCell (c_cell i) (w_id 1 0) (Serial 0 0)) (seq 0 k).
Definition b_content (k : nat) : list (exguid * element) :=
  (w_id 0 0, ElIndex (b_items k))
  :: (w_id 0 0, ElManifest 7 [(ExGuid 0x1A5A319CC26B41AAB9C59BD8C44E07D4 1, c_header); (ExGuid 0x84DEFAB9AAA34A0DA3A8520C77AC7073 2, c_root)])
  :: w_space 0 b_header
  ++ [(w_id 1 0, ElCell (w_id 1 0)); (w_id 1 0, ElRevision (w_id 1 0) nil_id (repeat (RvGroup (w_id 1 0)) k));
      (w_id 1 0, ElGroup (map fst (b_entries k)) (map snd (b_entries k)))].
Definition b_file (k : nat) : list N := w_file 0x109ADD3F911B49F5A5D01791EDC8AED8 (w_id 0 0) (w_elems (b_content k)).

Lemma map_repeat {A B} (f : A -> B) x n : map f (repeat x n) = repeat (f x) n.
Proof. induction n; cbn; congruence. Qed.

Lemma b_ok k : N.of_nat k < 2 ^ 31 -> forallb w_pair_ok (b_content k) = true.
Proof.
  intro L. unfold b_content. cbn [forallb]. rewrite forallb_app. replace (forallb w_pair_ok (w_space 0 b_header)) with true by (vm_compute; reflexivity).
  cbn [forallb]. unfold w_pair_ok. cbn [fst snd w_body_ok forallb].
  assert (A : forallb w_index_item_ok (b_items k) = true).
  { unfold b_items. cbn [forallb]. rewrite forallb_map. replace (forallb _ (seq 0 k)) with true; [reflexivity|]. symmetry. apply forallb_forall. intros i H. apply in_seq in H.
    cbn [w_index_item_ok]. rewrite cell_fits_w; [reflexivity|]. unfold cell_fits, id_fits, c_cell. cbn [fst snd eg_guid eg_value]. lia. }
  assert (R : forall {A} (f : A -> bool) x n, f x = true -> forallb f (repeat x n) = true).
  { intros A0 f x n H. induction n; cbn; [reflexivity|]. now rewrite H. }
  rewrite A, R by reflexivity. unfold b_entries. cbn [map]. rewrite !map_repeat. cbn [forallb]. rewrite !R by reflexivity. reflexivity.
Qed.
Lemma b_bytes k : bytes_ok (b_file k).
Proof.
  apply w_file_bytes. unfold b_content. constructor; [exact I|]. constructor; [exact I|]. apply Forall_app. split.
  - apply space_bytes. exact (Forall_inv (c_ready 0 eq_refl)).
  - constructor; [exact I|]. constructor; [exact I|]. constructor; [|constructor]. cbn [el_bytes snd b_entries map].
    assert (W : data_bytes (snd b_entry)) by (apply w_oset_bytes; exact I).
    constructor; [apply le_bytes_ok|]. constructor; [exact W|]. rewrite map_repeat. apply Forall_forall. intros x H. apply repeat_spec in H. now subst x.
Qed.
Lemma b_length k : (length (b_file k) <= 230 * k + 2500)%nat.
Proof.
  assert (H0 : (length (flat_map w_elem (w_elems (w_space 0 b_header))) <= 700)%nat) by (apply Nat.leb_le; vm_compute; reflexivity).
  unfold b_file, w_file. rewrite !app_length. unfold b_content, w_elems. cbn [map flat_map fst snd]. rewrite map_app, flat_map_app. fold (w_elems (w_space 0 b_header)).
  cbn [map flat_map fst snd]. rewrite !app_length. cbn [length].
  assert (X : (length (w_body (ElIndex (b_items k))) <= 90 * k + 180)%nat).
  { cbn [w_body]. etransitivity; [apply (flat_len _ 90); intros x _; destruct x; cbn [w_index_item]; lens; lia|].
    unfold b_items. cbn [length]. rewrite map_length, seq_length. lia. }
  apply (elem_len (w_id 0 0, ElIndex (b_items k))) in X. cbn [fst snd] in X.
  pose proof (elem_len (w_id 0 0, ElManifest 7%N [(ExGuid 0x1A5A319CC26B41AAB9C59BD8C44E07D4 1, c_header); (ExGuid 0x84DEFAB9AAA34A0DA3A8520C77AC7073 2, c_root)]%N) 160
    ltac:(cbn [snd w_body flat_map]; lens; lia)) as Y. cbn [fst snd] in Y.
  pose proof (elem_len (w_id 1 0, ElCell (w_id 1 0)) 30 ltac:(cbn [snd w_body]; lens; lia)) as Z. cbn [fst snd] in Z.
  assert (V : (length (w_body (ElRevision (w_id 1 0) nil_id (repeat (RvGroup (w_id 1 0)) k))) <= 25 * k + 60)%nat).
  { cbn [w_body]. pose proof (flat_len w_rev_item 25 (repeat (RvGroup (w_id 1 0)) k)) as F. rewrite repeat_length in F.
    assert (F' := F ltac:(intros x I; apply repeat_spec in I; subst x; cbn [w_rev_item]; lens; lia)). lens. lia. }
  apply (elem_len (w_id 1 0, ElRevision (w_id 1 0) nil_id (repeat (RvGroup (w_id 1 0)) k))) in V. cbn [fst snd] in V.
  pose proof (group_len (b_entries k) 115) as W.
  assert (W' := W ltac:(intros e I; pose proof (decl_len (fst e)) as D; destruct I as [<-|[<-|I]]; [| |apply repeat_spec in I; subst e];
     (pose proof (plain_len (le_bytes 4 0)); pose proof (plain_len (w_oset c_set)); change (length (le_bytes 4 0)) with 4%nat in *; change (length (w_oset c_set)) with 6%nat in *; cbn [snd b_kind b_entry] in *; lia))).
  apply (elem_len (w_id 1 0, ElGroup (map fst (b_entries k)) (map snd (b_entries k)))) in W'. cbn [fst snd] in W'.
  assert (B : length (b_entries k) = (k + 2)%nat) by (unfold b_entries; cbn [length]; rewrite repeat_length; lia). rewrite B in W'.
  rewrite !guid_enc_length, le_bytes_length, h32_len, h16_len, fin16_len. pose proof (exguid_len (w_id 0 0)). cbn [w_fin8 length]. lia.
Qed.

(** ** What is read *)
Definition b_mapping (c : cellid) (n : nat) : cell_mapping := CellMapping c (w_id n 0) (Serial 0 0).
Definition b_cells (k : nat) : list (cellid * cell_mapping) :=
  (c_header, b_mapping c_header 0) :: (c_root, b_mapping c_root 1) :: map (fun i => (c_cell i, b_mapping (c_cell i) 1)) (seq 0 k).
Definition b_index (k : nat) : storage_index := StorageIndex [] (b_cells k) [].
Definition b_manifest : storage_manifest :=
  StorageManifestV 7 [(ExGuid 0x1A5A319CC26B41AAB9C59BD8C44E07D4 1, c_header); (ExGuid 0x84DEFAB9AAA34A0DA3A8520C77AC7073 2, c_root)].
Definition b_head : list entry := w_entries 0 0 (snd b_header).
Definition b_package (k : nat) : package := Package [(w_id 0 0, b_index k)] [(w_id 0 0, b_manifest)]
  [(w_id 0 0, w_id 0 0); (w_id 1 0, w_id 1 0)]
  [(w_id 0 0, RevManifest (w_id 0 0) nil_id [] [w_id 0 0]); (w_id 1 0, RevManifest (w_id 1 0) nil_id [] (repeat (w_id 1 0) k))]
  [(w_id 0 0, ObjectGroup (map fst b_head) [] (map snd b_head)); (w_id 1 0, ObjectGroup (map fst (b_entries k)) [] (map snd (b_entries k)))] [] [].

Definition b_packaging (k : nat) : packaging :=
  Packaging 0x109ADD3F911B49F5A5D01791EDC8AED8 1 0 0x638DE92FA6D44BC19A36B3FC2511A5B7 (w_id 0 0) 5 (b_package k).

Lemma filter_keeps {A} (f : A -> bool) l : (forall x, In x l -> f x = true) -> filter f l = l.
Proof. induction l as [|a l IH]; intro H; cbn; [reflexivity|]. rewrite (H a (or_introl eq_refl)), IH; [reflexivity|]. intros x I. apply H. now right. Qed.
Lemma cells_step l : forall acc, NoDup (map c_cell l) -> (forall i, In i l -> ~ In (c_cell i) (map fst acc)) ->
  fold_left index_step (map (fun i => IxCell (c_cell i) (w_id 1 0) (Serial 0 0)) l) (StorageIndex [] acc []) =
  StorageIndex [] (acc ++ map (fun i => (c_cell i, b_mapping (c_cell i) 1)) l) [].
Proof.
  induction l as [|i l IH]; intros acc ND F; cbn [map fold_left]; [now rewrite app_nil_r|]. inversion ND as [|? ? NI ND']; subst.
  cbn [index_step si_manifests si_cells si_revs]. unfold ainsert. rewrite filter_keeps.
  - rewrite IH; [now rewrite <- app_assoc|exact ND'|]. intros j J. rewrite map_app, in_app_iff. cbn. intros [H|[H|[]]].
    + exact (F j (or_intror J) H).
    + apply NI. rewrite H. now apply in_map.
  - intros x X. destruct (cellid_eqb (c_cell i) (fst x)) eqn:E; [|reflexivity]. apply cellid_eqb_eq in E.
    exfalso. apply (F i (or_introl eq_refl)). rewrite E. now apply in_map.
Qed.
Lemma index_read k : fold_left index_step (b_items k) storage_index_empty = b_index k.
Proof.
  unfold b_items. cbn [fold_left]. change (index_step (index_step storage_index_empty _) _) with (StorageIndex [] [(c_header, b_mapping c_header 0); (c_root, b_mapping c_root 1)] []).
  rewrite cells_step; [reflexivity|apply c_cells_nodup|]. intros i _ [H|[H|[]]]; discriminate H.
Qed.
Lemma groups_read k : forall acc, fold_left rev_step (repeat (RvGroup (w_id 1 0)) k) acc = (fst acc, snd acc ++ repeat (w_id 1 0) k).
Proof. induction k as [|k IH]; intros [a b]; cbn [repeat fold_left]; [cbn; now rewrite app_nil_r|]. rewrite IH. cbn. now rewrite <- app_assoc. Qed.
Lemma b_read k : N.of_nat k < 2 ^ 31 ->
  packaging_parse (b_file k) = Ok (b_packaging k, []).
Proof.
  intro L. rewrite <- (app_nil_r (b_file k)).
  erewrite file_reads; [|left; split; [now left|apply plain_lenient, in_file; [reflexivity|reflexivity|apply elems_ok, b_ok, L]]].
  unfold b_packaging. do 2 f_equal. f_equal. unfold w_elems, b_content. cbn [map]. rewrite map_app. cbn [w_space fst snd app map b_header w_blobs header_desc od_file].
  cbn [fold_left aelem_step elem_step el_content el_id fst snd]. unfold package_empty. cbn [aelem_step elem_step el_content el_id].
  rewrite index_read, groups_read. reflexivity.
Qed.

(** ** What it costs *)
Local Open Scope nat_scope.
Definition atleast {A} (n : nat) (w : work A) : Prop := exists m a, w = (m, Ok a) /\ n <= m.
Lemma atleast_bind {A B} n k (w : work A) (f : A -> work B) : atleast n w -> (forall a, snd w = Ok a -> atleast k (f a)) -> atleast (n + k) (wbind w f).
Proof.
  intros (m & a & -> & H) F. destruct (F a eq_refl) as (m' & b & E & H'). unfold wbind. rewrite E. exists (m + m'), b. split; [reflexivity|lia].
Qed.
Lemma atleast_turns {B} n k (w : work B) : atleast k w -> atleast (n + k) (let# _ := turns n in w).
Proof. intro H. apply (atleast_bind n k); [exists n, tt; auto|auto]. Qed.
Lemma atleast_free {A B} k (a : A) (f : A -> work B) : atleast k (f a) -> atleast k (wbind (free (Ok a)) f).
Proof. intro H. apply (atleast_bind 0 k (free (Ok a)) f); [exists 0, a; auto|]. intros b E. injection E as <-. exact H. Qed.
Lemma atleast_ret {A} (a : A) : atleast 0 (wret a).
Proof. exists 0, a. auto. Qed.
Lemma atleast_le {A} n m (w : work A) : n <= m -> atleast m w -> atleast n w.
Proof. intros L (x & a & E & H). exists x, a. split; [exact E|lia]. Qed.
Lemma atleast_snd {A} (w : work A) a : snd w = Ok a -> atleast (fst w) w.
Proof. intro E. exists (fst w), a. rewrite <- E. split; [now destruct w|lia]. Qed.

(** One object, declared many times. *)
Definition b_data (k : nat) : group_data := aextend gkey_eqb []
  (map (fun '(d, o) => ((decl_object_id d, decl_partition d), o)) (combine (map fst (b_entries k)) (map snd (b_entries k)))).
Lemma combine_repeat {A B} (a : A) (b : B) n : combine (repeat a n) (repeat b n) = repeat (a, b) n.
Proof. induction n; cbn; congruence. Qed.
Lemma b_data_eq k : b_data k = [((b_id, 4%N), snd b_kind); ((b_id, 1%N), snd b_entry)].
Proof.
  unfold b_data, b_entries. cbn [map combine]. rewrite !map_repeat, combine_repeat, map_repeat. unfold aextend. cbn [fold_left].
  change (ainsert gkey_eqb _ _ (ainsert gkey_eqb _ _ [])) with [((b_id, 4%N), snd b_kind); ((b_id, 1%N), snd b_entry)].
  induction k as [|k IH]; cbn [repeat fold_left]; [reflexivity|]. exact IH.
Qed.
Lemma b_object_read ctx sp k pk : exists n o, object_parse_w b_id ctx sp (b_data k) pk = (n, Ok o).
Proof. rewrite b_data_eq. do 2 eexists. vm_compute. reflexivity. Qed.
Definition b_group (k : nat) : object_group := ObjectGroup (map fst (b_entries k)) [] (map snd (b_entries k)).
Lemma b_group_read ctx sp k pk n : forall objs, atleast 0 (group_objects_w pk ctx sp (b_group k) (b_data k) (repeat b_id n) objs).
Proof.
  induction n as [|n IH]; intro objs; cbn [repeat group_objects_w]; [apply atleast_ret|]. apply (atleast_le 0 (1 + 0)); [lia|]. apply atleast_turns.
  destruct (amember _ _ _); [apply IH|]. unfold len, b_group at 1 2. cbn [og_decls og_objects]. rewrite !map_length, N.eqb_refl. cbn [negb].
  apply (atleast_bind 0 0).
  - destruct (b_object_read ctx sp k pk) as (m & o & E). exists m, o. split; [exact E|lia].
  - intros o _. apply IH.
Qed.
Lemma b_parse_group ctx sp k objs : atleast k (parse_group_w (b_package k) ctx (w_id 1 0) sp objs).
Proof.
  unfold parse_group_w. change (find_object_group (b_package k) (w_id 1 0)) with (Some (b_group k)). cbn [ok_or]. apply atleast_free. cbv zeta.
  assert (B : length (og_decls (b_group k)) = k + 2) by (cbn [b_group og_decls]; rewrite map_length; unfold b_entries; cbn [length]; rewrite repeat_length; lia).
  rewrite B. apply (atleast_le k (k + 2 + 0)); [lia|]. apply atleast_turns. apply (atleast_le 0 (length (combine (og_decls (b_group k)) (og_objects (b_group k))) + 0)); [lia|]. apply atleast_turns.
  replace (map decl_object_id (og_decls (b_group k))) with (repeat b_id (2 + k)); [apply b_group_read|].
  cbn [b_group og_decls b_entries map repeat Nat.add]. rewrite !map_repeat. reflexivity.
Qed.
Lemma b_parse_groups ctx sp k n : forall objs, atleast (n * k) (parse_groups_w (b_package k) ctx sp (repeat (w_id 1 0) n) objs).
Proof.
  induction n as [|n IH]; intro objs; cbn [repeat parse_groups_w Nat.mul]; [apply atleast_ret|]. apply atleast_bind; [apply b_parse_group|].
  intros o _. apply (atleast_le _ (1 + n * k)); [lia|]. apply atleast_turns, IH.
Qed.

(** One space. *)
Lemma b_space_cost h fuel cell k : atleast (k * k) (space_parse_w h (S fuel) (b_mapping cell 1) (b_index k) (b_package k) []).
Proof.
  unfold space_parse_w. cbv zeta. cbn [b_mapping cm_id cm_cell].
  change (resolve_cell_revision_manifest_id (b_package k) (b_index k) (w_id 1 0)) with (Some (w_id 1 0)). cbn [or_else_w].
  change (wret (Some (w_id 1 0))) with (free (Ok (Some (w_id 1 0)))). apply atleast_free.
  rewrite <- (Nat.add_0_r (k * k)). apply atleast_bind; [|intros [? ?] _; apply atleast_ret]. cbn [revision_walk_w].
  rewrite <- (Nat.add_0_r (k * k)). apply atleast_bind.
  - unfold revision_parse_w. change (find_revision_manifest (b_package k) (w_id 1 0)) with (Some (RevManifest (w_id 1 0) nil_id [] (repeat (w_id 1 0) k))).
    cbn [ok_or]. apply atleast_free. cbn [rm_base_rev_id]. change (exguid_as_option nil_id) with (@None exguid). cbn [opt_map_res]. apply atleast_free.
    cbn [alookup rm_roots map_res_w]. change (wret (@nil (role * exguid))) with (free (Ok (@nil (role * exguid)))). apply atleast_free. cbn [length].
    apply (atleast_turns 0 (k * k)). cbn [rm_groups]. rewrite <- (Nat.add_0_r (k * k)). apply atleast_bind; [apply b_parse_groups|]. intros ? _. apply atleast_ret.
  - intros [[base objs] rts] E. rewrite snd_revision in E. unfold revision_parse in E.
    change (find_revision_manifest (b_package k) (w_id 1 0)) with (Some (RevManifest (w_id 1 0) nil_id [] (repeat (w_id 1 0) k))) in E.
    cbn [ok_or rbind rm_base_rev_id] in E. change (exguid_as_option nil_id) with (@None exguid) in E. cbn [opt_map_res rbind alookup rm_roots map_res] in E.
    destruct (parse_groups _ _ _ _ _) as [o| | |]; cbn [rbind] in E; try discriminate E. injection E as <- _ _.
    apply (atleast_le 0 (1 + 0)); [lia|]. apply atleast_turns. destruct fuel; apply atleast_ret.
Qed.
Lemma lookup_in_nodup {V} c (v : V) l : NoDup (map fst l) -> In (c, v) l -> alookup cellid_eqb c l = Some v.
Proof.
  induction l as [|[x w] l IH]; cbn [map fst alookup]; [intros _ []|]. intros ND [H|H]; inversion ND as [|? ? NI ND']; subst.
  - injection H as -> ->. now rewrite (proj2 (cellid_eqb_eq c c) eq_refl).
  - destruct (cellid_eqb c x) eqn:E; [|now apply IH]. apply cellid_eqb_eq in E. subst x. exfalso. apply NI. exact (in_map fst _ _ H).
Qed.
Lemma b_keys k : NoDup (map fst (b_cells k)).
Proof.
  unfold b_cells. cbn [map fst]. rewrite map_map. cbn [fst]. constructor; [|constructor; [|apply c_cells_nodup]]; cbn [In]; intro H.
  - destruct H as [H|H]; [discriminate H|]. apply in_map_iff in H as (i & Q & _). discriminate Q.
  - apply in_map_iff in H as (i & Q & _). discriminate Q.
Qed.
Lemma b_object_space h fuel cell k : In (cell, b_mapping cell 1) (b_cells k) -> atleast (k * k) (parse_object_space_w h (S fuel) cell (b_index k) (b_package k) []).
Proof.
  intro I. unfold parse_object_space_w. cbn [b_index si_cells]. rewrite (lookup_in_nodup _ _ _ (b_keys k) I). cbn [ok_or]. apply atleast_free. apply b_space_cost.
Qed.
Definition b_skipped (m : cell_mapping) : bool := existsb (cellid_eqb (cm_cell m)) [c_header; c_root].
Lemma b_spaces h fuel k ms : (forall m, In m ms -> In (cm_cell m, m) (b_cells k)) -> forall acc,
  atleast (k * k * length (filter (fun m => negb (b_skipped m)) ms)) (parse_spaces_w h (S fuel) (b_index k) (b_package k) [] [c_header; c_root] ms acc).
Proof.
  induction ms as [|m ms IH]; intros F acc; cbn [parse_spaces_w filter].
  { cbn [length]. rewrite Nat.mul_0_r. apply atleast_ret. }
  assert (F' : forall x, In x ms -> In (cm_cell x, x) (b_cells k)) by (intros x X; apply F; now right). specialize (IH F').
  assert (Im := F m (or_introl eq_refl)).
  assert (NZ : exguid_is_nil (cm_id m) = false).
  { destruct Im as [H|[H|H]]; [injection H as H; subst m; reflexivity..|]. apply in_map_iff in H as (i & H & _). injection H as _ H. subst m. reflexivity. }
  rewrite NZ. fold (b_skipped m). destruct (b_skipped m) eqn:SK; cbn [negb].
  - apply (atleast_le _ (1 + (k * k * length (filter (fun m => negb (b_skipped m)) ms)))); [lia|]. apply atleast_turns. unfold b_skipped in SK. apply IH.
  - cbn [length]. apply (atleast_le _ (1 + (k * k + k * k * length (filter (fun m => negb (b_skipped m)) ms)))); [lia|]. apply atleast_turns.
    apply atleast_bind; [|intros [? ?] _; apply IH]. apply b_object_space.
    assert (Q : m = b_mapping (cm_cell m) 1).
    { destruct Im as [H|[H|H]]; [injection H as H; subst m; discriminate SK..|]. apply in_map_iff in H as (i & H & _). injection H as _ H. subst m. reflexivity. }
    rewrite <- Q. exact Im.
Qed.
Lemma filter_perm {A} (f : A -> bool) l m : Permutation l m -> length (filter f l) = length (filter f m).
Proof.
  induction 1 as [|x l m _ IH|x y l|l m n _ IH1 _ IH2]; cbn [filter]; [reflexivity| | |congruence].
  - destruct (f x); cbn [length]; congruence.
  - destruct (f x), (f y); reflexivity.
Qed.
Lemma b_count h k : length (filter (fun m => negb (b_skipped m)) (o_cells h (map snd (b_cells k)))) = k.
Proof.
  rewrite <- (filter_perm _ _ _ (o_cells_perm h (map snd (b_cells k)))). unfold b_cells. cbn [map snd filter].
  change (b_skipped (b_mapping c_header 0)) with true. change (b_skipped (b_mapping c_root 1)) with true. cbn [negb]. rewrite map_map. cbn [snd].
  rewrite filter_keeps; [now rewrite map_length, seq_length|]. intros m H. apply in_map_iff in H as (i & <- & _). reflexivity.
Qed.

Lemma single {A} (x : A) l : Permutation [x] l -> l = [x].
Proof. intro P. apply Permutation_length_1_inv in P. exact P. Qed.
Lemma b_store h fuel k : atleast (k * k * k) (parse_store_w h (S fuel) (b_packaging k)).
Proof.
  unfold parse_store_w. cbv zeta. cbn [b_packaging pg_package pg_storage_index].
  change (find_storage_index_by_id (b_package k) (w_id 0 0)) with (Some (b_index k)). cbn [or_else ok_or]. apply atleast_free.
  unfold find_storage_manifest. change (map snd (pk_manifests (b_package k))) with [b_manifest]. rewrite (single _ _ (o_manifests_perm h [b_manifest])). cbn [hd_error ok_or]. apply atleast_free.
  change (find_header_cell_id b_manifest) with (Ok c_header). apply atleast_free.
  change (find_cell_mapping_id (b_index k) c_header) with (Some (w_id 0 0)). cbn [ok_or]. apply atleast_free.
  assert (G : find_objects_w h (b_package k) (w_id 0 0) (b_index k) = (1, Ok [ObjectGroup (map fst b_head) [] (map snd b_head)])) by reflexivity.
  rewrite G. apply (atleast_bind 0 (k * k * k)); [exists 1; eexists; split; [reflexivity|lia]|]. intros gs E. cbn [snd] in E. injection E as <-. cbn [hd_error ok_or]. apply atleast_free.
  apply (atleast_bind 0 (k * k * k)).
  { do 2 eexists. split; [vm_compute; reflexivity|apply Nat.le_0_l]. }
  intros hd _. change (find_data_root_cell_id b_manifest) with (Ok c_root). apply atleast_free.
  apply (atleast_le _ (k * k + k * k * k)); [lia|]. apply atleast_bind; [apply b_object_space; right; now left|]. intros [? ?] _.
  rewrite <- (Nat.add_0_r (k * k * k)). apply atleast_bind; [|intros ? _; apply atleast_ret].
  pose proof (b_count h k) as C. cbn [b_index si_cells]. rewrite <- C at 3. apply b_spaces. intros m H.
  apply (Permutation_in _ (Permutation_sym (o_cells_perm h _))) in H. apply in_map_iff in H as (x & Q & H). destruct x as [cell m0]. cbn [snd] in Q. subst m0.
  assert (cell = cm_cell m); [|now subst cell]. destruct H as [H|[H|H]]; [apply pair_equal_spec in H as [<- <-]; reflexivity..|]. apply in_map_iff in H as (i & H & _). apply pair_equal_spec in H as [<- <-]. reflexivity.
Qed.

Lemma b_open h fuel k : (N.of_nat k < 2 ^ 31)%N -> atleast (k * k * k) (open_store_w h (S fuel) (b_file k)).
Proof.
  intro L. unfold open_store_w.
  assert (R : snd (run_w packaging_parse_n (b_file k)) = Ok (b_packaging k)).
  { rewrite (snd_run _ _ _ same_packaging). unfold run. rewrite b_read by exact L. reflexivity. }
  apply (atleast_bind 0 (k * k * k)).
  - eapply atleast_le; [|eapply atleast_snd, R]. lia.
  - intros pg E. rewrite R in E. injection E as <-. apply b_store.
Qed.

Theorem cube k : (N.of_nat k < 2 ^ 31)%N -> exists d, bytes_ok d /\ length d <= 230 * k + 2500 /\
  forall h fuel, 1 <= fuel -> (exists st, open_store h fuel d = Ok st) /\ k * k * k <= fst (open_store_w h fuel d).
Proof.
  intro L. exists (b_file k). refine (conj (b_bytes k) (conj (b_length k) _)). intros h [|fuel] F; [lia|].
  destruct (b_open h fuel k L) as (n & st & E & B). split; [|now rewrite E].
  exists st. rewrite <- open_same, E. reflexivity.
Qed.
