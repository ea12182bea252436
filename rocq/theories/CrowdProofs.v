(** A file whose store is quadratically larger: many cells, one revision. *)
From Coq Require Import Lia ZifyBool ZifyNat ZifyN Permutation.
From Verif Require Import Base BaseProofs Codec SpecCodec CodecProofs CodecRT2 Package SpecPackage PackageRT PackageFacts PropSet PropIds SpecPropSet
  PropSetRT Store SpecStore StoreProofs SpecAccept AcceptProofs SpecSame Notebook ExampleFile WriterProofs SpecFile AuthorProofs FileProofs SpecWeight WeightProofs SizeProofs SpecDoc SpecSize Doc.
Local Notation total := SpecPackage.total.

(** ** The file *)
Definition c_header : cellid := (ExGuid 3 1, ExGuid 3 1).
Definition c_root : cellid := (ExGuid 4 1, ExGuid 4 1).
Definition c_cell (i : nat) : cellid := (ExGuid 5 (N.of_nat i + 1), ExGuid 5 1).
Definition c_set : oset := OSet [] None [].
Definition c_object (i : nat) : object_desc := ObjectDesc (ExGuid 1 (N.of_nat i + 1)) 0 c_set [] [] None.
Definition c_space (k : nat) : space_desc := SpaceDesc [] (map c_object (seq 0 k)).
Definition crowd (k : nat) : store_desc :=
  StoreDesc 7 8 9 None 4 c_root (c_space k) (map (fun i => (c_cell i, c_space k)) (seq 0 k)).
Definition c_base (k : nat) : list pspace :=
  [(c_header, [], [(header_desc (crowd k), w_oset (header_set (crowd k)))]);
   (c_root, [], map (fun i => (c_object i, w_oset c_set)) (seq 0 k))].
Definition c_items (k : nat) : list index_item :=
  w_items 0 (c_base k) ++ map (fun i => IxCell (c_cell i) (w_id 1 0) (Serial 0 0)) (seq 0 k).
Definition c_content (k : nat) : list (exguid * element) :=
  (w_id 0 0, ElIndex (c_items k))
  :: (w_id 0 0, ElManifest 7 [(ExGuid 0x1A5A319CC26B41AAB9C59BD8C44E07D4 1, c_header); (ExGuid 0x84DEFAB9AAA34A0DA3A8520C77AC7073 2, c_root)])
  :: w_spaces 0 (c_base k).
Definition c_file (k : nat) : list N := w_file 0x109ADD3F911B49F5A5D01791EDC8AED8 (w_id 0 0) (w_elems (c_content k)).

Lemma c_unambiguous k : unambiguous (c_content k).
Proof.
  assert (S0 : forall x, In x (w_spaces 0 (c_base k)) -> 3 <= kind (snd x)) by (intros x I; apply spaces_names in I as (? & ? & _ & _ & K); exact K).
  unfold unambiguous, c_content. refine (conj _ (conj _ _)).
  - cbn [map fst snd kind]. constructor; [|constructor; [|apply spaces_nodup]].
    + cbn [In]. intros [H|H]; [discriminate H|]. apply in_map_iff in H as (x & Q & I). apply S0 in I. injection Q. lia.
    + intro H. apply in_map_iff in H as (x & Q & I). apply S0 in I. injection Q. lia.
  - cbn [filter snd kind]. rewrite filter_nil; [cbn; lia|]. intros x I. apply S0 in I. lia.
  - cbn [filter snd kind]. rewrite filter_nil; [cbn; lia|]. intros x I. apply S0 in I. lia.
Qed.

Lemma c_in_range k : N.of_nat k < 2 ^ 31 -> store_in_range (crowd k).
Proof.
  intro L. assert (S0 : space_in_range (c_space k)).
  { refine (conj (Forall_nil _) (conj _ _)); cbn [c_space sd_objects]; [|rewrite map_length, seq_length; lia].
    rewrite Forall_forall. intros x H. apply in_map_iff in H as (i & <- & H). apply in_seq in H.
    refine (conj _ (conj _ (conj _ (conj (Forall_nil _) (conj (Forall_nil _) I))))); cbn [c_object od_id od_kind od_set].
    - unfold id_fits. cbn [eg_guid eg_value]. lia.
    - reflexivity.
    - exists (w_oset c_set). split; [now apply in_oset|]. split; [apply w_oset_bytes; exact I|reflexivity]. }
  unfold store_in_range, crowd. cbn [td_schema td_identity td_ancestor td_version td_crc td_cell td_root td_spaces].
  refine (conj _ (conj _ (conj _ (conj I (conj _ (conj _ (conj S0 (conj _ _)))))))); try reflexivity.
  - split; split; reflexivity.
  - rewrite Forall_forall. intros x H. apply in_map_iff in H as (i & <- & H). apply in_seq in H. cbn [fst snd]. split; [|exact S0].
    unfold cell_fits, id_fits, c_cell. cbn [fst snd eg_guid eg_value]. lia.
  - rewrite map_length, seq_length. lia.
Qed.
Lemma c_cells_nodup k : NoDup (map c_cell (seq 0 k)).
Proof. apply FinFun.Injective_map_NoDup; [|apply seq_NoDup]. intros i j H. injection H. lia. Qed.
Lemma c_ids_nodup k : NoDup (map od_id (map c_object (seq 0 k))).
Proof. rewrite map_map. apply FinFun.Injective_map_NoDup; [|apply seq_NoDup]. intros i j H. injection H. lia. Qed.
Lemma c_fits k : store_fits (crowd k).
Proof.
  assert (S0 : space_fits (c_space k)).
  { refine (conj (NoDup_nil _) (conj (c_ids_nodup k) _)). cbn [c_space sd_objects]. rewrite Forall_forall. intros x H. apply in_map_iff in H as (i & <- & _). split; reflexivity. }
  refine (conj S0 (conj _ _)); cbn [crowd td_cell td_spaces].
  - rewrite map_map. cbn [fst]. constructor; [|apply c_cells_nodup]. intro H. apply in_map_iff in H as (i & Q & _). discriminate Q.
  - rewrite Forall_forall. intros x H. apply in_map_iff in H as (i & <- & _). exact S0.
Qed.

Lemma c_ready k : N.of_nat k < 2 ^ 31 -> Forall space_ready (c_base k).
Proof.
  intro L. destruct (header_encodes (crowd k) (c_in_range k L)) as (E & HL). constructor; [|constructor; [|constructor]].
  - refine (conj _ (conj (Forall_nil _) (conj _ _))); [split; split; reflexivity| |reflexivity]. constructor; [|constructor]. unfold object_ready, header_desc. cbn [fst snd od_id od_refs od_cells od_file].
    refine (conj _ (conj _ (conj (Forall_nil _) (conj _ (conj (Forall_nil _) (conj _ I)))))); [split; reflexivity| |reflexivity..]. split; [|lia].
    apply w_oset_bytes. unfold header_set. cbn [os_props set_bytes snd val_bytes crowd td_version]. split; [apply guid_enc_ok|split; [apply guid_enc_ok|repeat split]].
  - refine (conj _ (conj (Forall_nil _) (conj _ _))); cbn [fst snd]; [split; split; reflexivity| |rewrite map_length, seq_length; lia].
    rewrite Forall_forall. intros x H. apply in_map_iff in H as (i & <- & H). apply in_seq in H. unfold object_ready. cbn [fst snd c_object od_id od_refs od_cells od_file].
    refine (conj _ (conj _ (conj (Forall_nil _) (conj _ (conj (Forall_nil _) (conj _ I)))))); try reflexivity.
    + unfold id_fits. cbn [eg_guid eg_value]. lia.
    + split; [apply w_oset_bytes; exact I|reflexivity].
Qed.

Lemma c_ok k : N.of_nat k < 2 ^ 31 -> forallb w_pair_ok (c_content k) = true.
Proof.
  intro L. pose proof (c_ready k L) as RD. unfold c_content. cbn [forallb]. unfold w_pair_ok at 1 2. cbn [fst snd w_body_ok forallb].
  rewrite spaces_ok by (auto; cbn [c_base length]; lia). unfold c_items. rewrite forallb_app, items_ok by (auto; cbn [c_base length]; lia).
  rewrite forallb_map. replace (forallb _ (seq 0 k)) with true; [reflexivity|]. symmetry. apply forallb_forall. intros i H. apply in_seq in H.
  cbn [w_index_item_ok]. rewrite cell_fits_w; [reflexivity|]. unfold cell_fits, id_fits, c_cell. cbn [fst snd eg_guid eg_value]. lia.
Qed.
Lemma c_bytes k : N.of_nat k < 2 ^ 31 -> bytes_ok (c_file k).
Proof.
  intro L. apply w_file_bytes. constructor; [exact I|]. constructor; [exact I|].
  generalize (c_ready k L). generalize (c_base k). generalize 0%nat. intros n l H. revert n.
  induction H as [|s l Hs _ IH]; intro n; cbn [w_spaces]; [constructor|]. apply Forall_app. split; [now apply space_bytes|apply IH].
Qed.

(** ** What it holds *)
Lemma c_no_revision k r e s : ~ In (IxRevision r e s) (c_items k).
Proof.
  unfold c_items. intro H. apply in_app_iff in H as [H|H].
  - apply in_items in H as (? & ? & _ & Q). discriminate Q.
  - apply in_map_iff in H as (? & Q & _). discriminate Q.
Qed.
Lemma c_revision k n s cell : nth_error (c_base k) n = Some s -> In (IxCell cell (w_id n 0) (Serial 0 0)) (c_items k) ->
  holds_revision (c_content k) (c_items k) cell (snd (fst s)) [w_entries n 0 (snd s)].
Proof.
  intros E J. pose proof (spaces_at 0 _ n s E) as S0. cbn in S0.
  assert (I : incl (w_spaces 0 (c_base k)) (c_content k)) by (intros x Hx; right; right; exact Hx).
  exists (w_id n 0), (Serial 0 0), (w_id n 0), (w_id n 0), (w_id n 0), (map (fun r => RvRoot (fst r) (snd r)) (snd (fst s)) ++ [RvGroup (w_id n 0)]).
  refine (conj J (conj _ (conj _ (conj _ (conj _ (conj _ _)))))).
  - unfold w_id, nil_id. intro H. injection H. lia.
  - apply I, S0. now left.
  - right. split; [reflexivity|]. intros e' s'. apply c_no_revision.
  - apply I, S0. right. now left.
  - rewrite flat_map_app. cbn. rewrite app_nil_r. induction (snd (fst s)) as [|[r x] t IH]; cbn; congruence.
  - rewrite flat_map_app. cbn. replace (flat_map _ (map _ (snd (fst s)))) with (@nil exguid) by (induction (snd (fst s)) as [|[r x] t IH]; cbn; congruence).
    constructor; [|constructor]. exists (map fst (w_entries n 0 (snd s))), (map snd (w_entries n 0 (snd s))).
    split; [apply I, S0; right; right; now left|]. split; [now rewrite !map_length|apply combine_split].
Qed.
Lemma c_space_held k cell : In (IxCell cell (w_id 1 0) (Serial 0 0)) (c_items k) -> holds_space (c_content k) (c_items k) cell (c_space k).
Proof.
  intro J. set (l := map (fun i => (c_object i, w_oset c_set)) (seq 0 k)).
  assert (Q : map fst l = map c_object (seq 0 k)) by (unfold l; rewrite map_map; reflexivity).
  exists [w_entries 1 0 l], [map c_object (seq 0 k)]. refine (conj _ (conj _ _)).
  - exact (c_revision k 1 (c_root, [], l) cell eq_refl J).
  - constructor; [|constructor]. rewrite <- Q. apply group_held.
    + pose proof (c_ids_nodup k) as D. rewrite <- Q, map_map in D. exact D.
    + unfold readies. rewrite Forall_forall. intros x H. apply in_map_iff in H as (i & <- & _). cbn [fst snd c_object od_kind od_set]. split; [reflexivity|now apply in_oset].
    + intros x Hx. right. right. apply (spaces_at 0 (c_base k) 1 (c_root, [], l) eq_refl). right. right. right. exact Hx.
  - cbn. now rewrite app_nil_r.
Qed.
Lemma c_held k : N.of_nat k < 2 ^ 31 -> holds_store (c_content k) (crowd k).
Proof.
  intro L. destruct (header_encodes (crowd k) (c_in_range k L)) as (E & _).
  exists (w_id 0 0), (c_items k), (w_id 0 0), [(ExGuid 0x1A5A319CC26B41AAB9C59BD8C44E07D4 1, c_header); (ExGuid 0x84DEFAB9AAA34A0DA3A8520C77AC7073 2, c_root)], c_header. cbv zeta.
  assert (CE : flat_map (fun i => match i with IxCell c _ _ => [c] | _ => [] end) (c_items k) = c_header :: c_root :: map c_cell (seq 0 k)).
  { unfold c_items. rewrite flat_map_app. cbn [c_base w_items flat_map fst app]. do 2 f_equal. induction (seq 0 k) as [|i l IH]; cbn; congruence. }
  assert (NC : forall x, In x (map c_cell (seq 0 k)) -> x <> c_header /\ x <> c_root).
  { intros x H. apply in_map_iff in H as (i & <- & _). split; intro Q; discriminate Q. }
  refine (conj (c_unambiguous k) (conj (or_introl eq_refl) (conj (or_intror (or_introl eq_refl)) (conj _ (conj _ (conj _ (conj _ (conj _ (conj _ (conj _ _)))))))))).
  - intro x. cbn [In]. split; [intros [Q|[Q|[]]]; [now apply (f_equal snd) in Q|discriminate Q]|intros ->; now left].
  - intro x. cbn [In crowd td_cell]. split; [intros [Q|[Q|[]]]; [discriminate Q|now apply (f_equal snd) in Q]|intros ->; right; now left].
  - rewrite CE. constructor; [|constructor; [|apply c_cells_nodup]].
    + intros [H|H]; [discriminate H|]. apply NC in H as (H & _). now apply H.
    + intro H. apply NC in H as (_ & H). now apply H.
  - replace (flat_map _ (c_items k)) with (@nil exguid); [constructor|]. unfold c_items. rewrite flat_map_app. cbn [c_base w_items flat_map app].
    clear. generalize (seq 0 k) as l. induction l as [|i l IH]; cbn; congruence.
  - exists [], [], [w_kind_entry (header_desc (crowd k))], (DeclObject (ExGuid 1 1) 1 0 0 0), [], [], (w_oset (header_set (crowd k))), [], [], (header_set (crowd k)).
    refine (conj _ (conj _ (conj eq_refl (conj E (conj eq_refl (conj eq_refl (conj _ (conj _ (conj _ _))))))))).
    + rewrite app_nil_r. apply (c_revision k 0 _ c_header eq_refl). now left.
    + intros x [<-|[]]. cbn. discriminate.
    + cbn. eauto.
    + cbn. eauto.
    + reflexivity.
    + cbn. eauto.
  - apply c_space_held. right. now left.
  - cbn [crowd td_spaces]. rewrite Forall_forall. intros x Hx. apply in_map_iff in Hx as (i & <- & Hi). cbn [fst snd].
    destruct (NC (c_cell i)) as (N1 & N2); [now apply in_map|]. refine (conj N1 (conj N2 _)). apply c_space_held. unfold c_items.
    apply in_app_iff. right. apply in_map_iff. eauto.
  - intros x m s H. right. assert (J : In x (flat_map (fun i => match i with IxCell c _ _ => [c] | _ => [] end) (c_items k))).
    { apply in_flat_map. exists (IxCell x m s). split; [exact H|now left]. }
    rewrite CE in J. destruct J as [<-|[<-|J]]; [now left|right; now left|right; right]. cbn [crowd td_spaces]. rewrite map_map. exact J.
Qed.

(** ** Its length *)
Local Open Scope nat_scope.
Lemma exguid_len x : length (w_exguid x) <= 21.
Proof. unfold w_exguid. destruct (exguid_is_nil x); cbn [length]; [lia|]. rewrite app_length, le_bytes_length, guid_enc_length. lia. Qed.
Lemma compact_len v : length (w_compact v) <= 9.
Proof. unfold w_compact. destruct (v =? 0)%N; cbn [length]; [lia|]. rewrite le_bytes_length. lia. Qed.
Lemma cellid_len x : length (w_cellid x) <= 42.
Proof. unfold w_cellid. rewrite app_length. pose proof (exguid_len (fst x)). pose proof (exguid_len (snd x)). lia. Qed.
Lemma serial_len x : length (w_serial x) = 25.
Proof. unfold w_serial. cbn [length]. rewrite app_length, le_bytes_length, guid_enc_length. lia. Qed.
Lemma h16_len t : length (w_h16 t) = 2.
Proof. apply le_bytes_length. Qed.
Lemma h32_len t : length (w_h32 t) = 4.
Proof. apply le_bytes_length. Qed.
Lemma fin16_len t : length (w_fin16 t) = 2.
Proof. apply le_bytes_length. Qed.
Lemma flat_len {A} (f : A -> list N) n l : (forall x, In x l -> length (f x) <= n) -> length (flat_map f l) <= n * length l.
Proof. induction l as [|a l IH]; intro H; cbn [flat_map length]; [lia|]. rewrite app_length. pose proof (H a (or_introl eq_refl)). specialize (IH (fun x I => H x (or_intror I))). lia. Qed.
Lemma single_len (b : list N) : length (flat_map (fun x => [x]) b) = length b.
Proof. induction b; cbn; lia. Qed.
Ltac lens := rewrite ?app_length, ?h16_len, ?h32_len, ?fin16_len, ?serial_len, ?guid_enc_length, ?le_bytes_length, ?single_len; cbn [w_fin8 length app];
  repeat match goal with
  | |- context [length (w_exguid ?x)] => let H := fresh in pose proof (exguid_len x) as H; revert H; generalize (length (w_exguid x)); intros
  | |- context [length (w_cellid ?x)] => let H := fresh in pose proof (cellid_len x) as H; revert H; generalize (length (w_cellid x)); intros
  | |- context [length (w_compact ?x)] => let H := fresh in pose proof (compact_len x) as H; revert H; generalize (length (w_compact x)); intros
  end.
Lemma elem_len x n : length (w_body (snd x)) <= n -> length (w_elem (Elem (fst x) (Serial 0 0)%N (snd x))) <= n + 58.
Proof. intro H. unfold w_elem. cbn [el_id el_serial el_content]. lens. lia. Qed.
Lemma group_len (es : list entry) n : (forall e, In e es -> length (w_decl (fst e)) + length (w_data (snd e)) <= n) ->
  length (w_body (ElGroup (map fst es) (map snd es))) <= n * length es + 6.
Proof.
  intro H. cbn [w_body]. lens. enough (length (flat_map w_decl (map fst es)) + length (flat_map w_data (map snd es)) <= n * length es) by lia.
  induction es as [|e es IH]; cbn [map flat_map length]; [lia|]. rewrite !app_length. pose proof (H e (or_introl eq_refl)). specialize (IH (fun x I => H x (or_intror I))). lia.
Qed.
Lemma decl_len d : length (w_decl d) <= 80.
Proof. destruct d; cbn [w_decl]; lens; lia. Qed.
Lemma plain_len b : length (w_data (DataObject [] [] b)) <= 29 + length b.
Proof. cbn [w_data]. unfold w_array. cbn [flat_map length]. lens. lia. Qed.
Lemma entries_len k l m : (forall d e, In (d, e) l -> od_file d = None /\ od_refs d = [] /\ od_cells d = [] /\ length e <= m) -> forall j,
  length (w_entries k j l) = 2 * length l /\ forall x, In x (w_entries k j l) -> length (w_decl (fst x)) + length (w_data (snd x)) <= 113 + m.
Proof.
  induction l as [|[d e] l IH]; intros H j; cbn [w_entries length]; [split; [reflexivity|intros ? []]|].
  destruct (H d e (or_introl eq_refl)) as (F & R & C & L). rewrite F, R, C. cbn [app].
  destruct (IH (fun d e I => H d e (or_intror I)) (S j)) as (I1 & I2). rewrite I1. split; [lia|].
  intros x [<-|[<-|Hx]]; cbn [fst snd]; [| |now apply I2].
  - pose proof (decl_len (DeclObject (od_id d) 4 0 0 0)%N). pose proof (plain_len (le_bytes 4 (od_kind d))) as P. rewrite le_bytes_length in P. lia.
  - pose proof (decl_len (DeclObject (od_id d) 1 0 0 0)%N). pose proof (plain_len e). lia.
Qed.
Lemma w_space_len k s m : (forall d e, In (d, e) (snd s) -> od_file d = None /\ od_refs d = [] /\ od_cells d = [] /\ length e <= m) -> snd (fst s) = [] ->
  length (flat_map w_elem (w_elems (w_space k s))) <= 400 + (226 + 2 * m) * length (snd s).
Proof.
  intros H R. unfold w_space. assert (B : forall j, w_blobs k j (snd s) = []).
  { clear R. induction (snd s) as [|[d e] l IH]; intro j; cbn [w_blobs]; [reflexivity|]. destruct (H d e (or_introl eq_refl)) as (F & _). rewrite F. apply (IH (fun d e I => H d e (or_intror I))). }
  rewrite B, R. destruct (entries_len k (snd s) m H 0) as (E1 & E2). apply group_len in E2. rewrite E1 in E2. cbn [map app w_elems flat_map fst snd].
  pose proof (elem_len (w_id k 0, ElCell (w_id k 0)) 23 ltac:(cbn [snd w_body]; lens; lia)) as X1.
  pose proof (elem_len (w_id k 0, ElRevision (w_id k 0) nil_id [RvGroup (w_id k 0)]) 80 ltac:(cbn [snd w_body flat_map w_rev_item]; lens; lia)) as X2.
  pose proof (elem_len (w_id k 0, ElGroup (map fst (w_entries k 0 (snd s))) (map snd (w_entries k 0 (snd s)))) _ E2) as X3.
  cbn [fst snd] in X1, X2, X3. rewrite !app_length. cbn [length]. lia.
Qed.
Lemma c_length k : (N.of_nat k < 2 ^ 31)%N -> length (c_file k) <= 400 * k + 2500.
Proof.
  intro L. destruct (header_encodes (crowd k) (c_in_range k L)) as (_ & HL).
  unfold c_file, w_file. rewrite !app_length. unfold c_content, w_elems. cbn [map flat_map fst snd c_base w_spaces]. rewrite app_nil_r, map_app, flat_map_app.
  fold (w_elems (w_space 0 (c_header, [], [(header_desc (crowd k), w_oset (header_set (crowd k)))]))).
  fold (w_elems (w_space 1 (c_root, [], map (fun i => (c_object i, w_oset c_set)) (seq 0 k)))).
  rewrite !app_length.
  pose proof (w_space_len 0 (c_header, [], [(header_desc (crowd k), w_oset (header_set (crowd k)))]) 100) as A.
  pose proof (w_space_len 1 (c_root, [], map (fun i => (c_object i, w_oset c_set)) (seq 0 k)) 6) as B. cbn [fst snd] in A, B.
  specialize (A ltac:(intros d e [H|[]]; injection H as <- <-; repeat split; assumption) eq_refl).
  assert (WL : length (w_oset c_set) = 6) by reflexivity.
  specialize (B ltac:(intros d e H; apply in_map_iff in H as (i & Q & _); injection Q as <- <-; repeat split; lia) eq_refl).
  rewrite map_length, seq_length in B. cbn [length] in A.
  assert (X : length (w_body (ElIndex (c_items k))) <= 90 * k + 180).
  { cbn [w_body]. etransitivity; [apply (flat_len _ 90); intros x _; destruct x; cbn [w_index_item]; lens; lia|].
    unfold c_items. rewrite app_length, map_length, seq_length. cbn [c_base w_items length]. lia. }
  apply (elem_len (w_id 0 0, ElIndex (c_items k))) in X. cbn [fst snd] in X.
  pose proof (elem_len (w_id 0 0, ElManifest 7%N [(ExGuid 0x1A5A319CC26B41AAB9C59BD8C44E07D4 1, c_header); (ExGuid 0x84DEFAB9AAA34A0DA3A8520C77AC7073 2, c_root)]%N) 160
    ltac:(cbn [snd w_body flat_map]; lens; lia)) as Y. cbn [fst snd] in Y.
  rewrite !guid_enc_length, le_bytes_length, h32_len, h16_len, fin16_len. pose proof (exguid_len (w_id 0 0)). cbn [w_fin8 length]. lia.
Qed.

(** ** The store *)
Lemma total_incl {A} (f : A -> nat) l m : NoDup l -> incl l m -> total f l <= total f m.
Proof.
  intro D. revert m. induction D as [|a l N D IH]; intros m I; [cbn; lia|].
  destruct (in_split a m (I a (or_introl eq_refl))) as (m1 & m2 & ->).
  assert (J : incl l (m1 ++ m2)). { intros x Hx. pose proof (I x (or_intror Hx)) as Q. apply in_app_iff in Q as [Q|[->|Q]]; [apply in_app_iff; now left|contradiction|apply in_app_iff; now right]. }
  apply IH in J. rewrite total_app in J |- *. change (total f (a :: l)) with (f a + total f l). change (total f (a :: m2)) with (f a + total f m2). lia.
Qed.
Lemma total_const {A} (f : A -> nat) n l : (forall x, In x l -> n <= f x) -> n * length l <= total f l.
Proof. induction l as [|a l IH]; intro H; [cbn; lia|]. change (total f (a :: l)) with (f a + total f l). pose proof (H a (or_introl eq_refl)). specialize (IH (fun x I => H x (or_intror I))). cbn [length]. lia. Qed.
Lemma many_objects sp (ids : list exguid) : NoDup ids -> (forall x, In x ids -> exists o, get_object sp x = Some o) -> length ids <= length (sp_objects sp).
Proof.
  intros D H. rewrite <- (map_length fst (sp_objects sp)). apply NoDup_incl_length; [exact D|]. intros x I. destruct (H x I) as (o & E).
  apply (lookup_in _ exguid_eqb_eq) in E. apply in_map_iff. exists (x, o). auto.
Qed.
Lemma crowd_grows k : (N.of_nat k < 2 ^ 31)%N -> exists d, bytes_ok d /\ length d <= 400 * k + 2500 /\
  forall h fuel, 1 <= fuel -> exists st, open_store h fuel d = Ok st /\
    k * k <= total (fun e => length (sp_objects (snd e))) (st_spaces st).
Proof.
  intro L. exists (c_file k). split; [now apply c_bytes|]. split; [now apply c_length|]. intros h fuel F.
  assert (HD : holds (c_file k) (map AElem (w_elems (c_content k)))) by (apply file_held; [reflexivity|now apply c_ok]).
  destruct (store_described _ _ (crowd k) h fuel HD) as (st & E & (_ & _ & _ & S1 & _)); [rewrite elems_content; now apply c_held|apply c_fits|exact F|].
  exists st. split; [exact E|]. cbn [crowd td_spaces] in S1.
  assert (Q : forall i, In i (seq 0 k) -> exists sp, object_space st (c_cell i) = Some sp /\ k <= length (sp_objects sp)).
  { intros i Hi. destruct (S1 (c_cell i) (c_space k)) as (sp & E1 & (_ & _ & _ & S2 & _)); [apply in_map_iff; eauto|]. exists sp. split; [exact E1|].
    pose proof (c_ids_nodup k) as D. rewrite <- (seq_length k 0) at 1. rewrite <- (map_length c_object), <- (map_length od_id). apply many_objects; [exact D|].
    intros x Hx. apply in_map_iff in Hx as (y & <- & Hy). destruct (S2 y Hy) as (o & O & _). eauto. }
  assert (W : exists l, NoDup l /\ incl l (st_spaces st) /\ length l = k /\ forall x, In x l -> k <= length (sp_objects (snd x))).
  { assert (G : forall s, incl s (seq 0 k) -> exists l, map fst l = map c_cell s /\ incl l (st_spaces st) /\ forall x, In x l -> k <= length (sp_objects (snd x))).
    { induction s as [|i s IH]; intro I; [exists []; repeat split; intros ? []|]. destruct (IH (fun x J => I x (or_intror J))) as (l & L1 & L2 & L3).
      destruct (Q i (I i (or_introl eq_refl))) as (sp & E1 & E2). exists ((c_cell i, sp) :: l). refine (conj _ (conj _ _)).
      - cbn. congruence.
      - intros x [<-|J]; [exact (lookup_in _ cellid_eqb_eq _ _ _ E1)|now apply L2].
      - intros x [<-|J]; [exact E2|now apply L3]. }
    destruct (G (seq 0 k) (incl_refl _)) as (l & L1 & L2 & L3). exists l. refine (conj _ (conj L2 (conj _ L3))).
    - apply (NoDup_map_inv fst). rewrite L1. apply c_cells_nodup.
    - rewrite <- (map_length fst), L1, map_length, seq_length. reflexivity. }
  destruct W as (l & W1 & W2 & W3 & W4). rewrite <- W3 at 2. etransitivity; [apply (total_const (fun e => length (sp_objects (snd e))) k l W4)|]. now apply total_incl.
Qed.

(** ** Pages *)
Lemma section_light h fuel d file s ps p : parse_section_buffer h fuel d file = Ok s -> In ps (se_page_series s) -> In p ps ->
  exists st cell sp, open_store h fuel d = Ok st /\ object_space st cell = Some sp /\ page_is sp p /\ (tree sp -> page_size p <= length d).
Proof.
  intros E I J. assert (O : exists st, open_store h fuel d = Ok st).
  { unfold parse_section_buffer in E. destruct (open_store h fuel d) as [st| | |]; try discriminate E. eauto. }
  destruct O as (st & O). destruct (section_bound h fuel d file st s ps p E O I J) as (cell & sp & S1 & S2 & S3).
  exists st, cell, sp. refine (conj O (conj S1 (conj S2 _))). intro T. destruct (S3 T) as (l & D & L & Q).
  apply (many_objects sp l D) in L. destruct (open_light h fuel d st O sp) as (W & _).
  { right. exists cell. exact (lookup_in _ cellid_eqb_eq _ _ _ S1). }
  assert (length (sp_objects sp) <= space_weight sp); [|lia]. unfold space_weight. clear.
  induction (sp_objects sp) as [|[x o] m IH]; [cbn; lia|]. cbn [length].
  change (SpecPackage.total ?f ((x, o) :: m)) with (f (x, o) + SpecPackage.total f m). cbn [snd]. unfold object_weight at 1. lia.
Qed.
