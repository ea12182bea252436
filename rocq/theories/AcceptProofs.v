(** The package readers accept exactly the languages of SpecAccept.v. *)
From Coq Require Import Lia ZifyBool ZifyNat ZifyN.
From Verif Require Import Base BaseProofs Codec SpecCodec CodecProofs CodecRT CodecRT2 CodecRT4
  Package PackageProofs SpecPackage PackageRT PackageFacts PropSetRT SpecAccept.
Ltac Zify.zify_post_hook ::= Z.div_mod_to_equations.

(** ** Primitives *)
Lemma explains_guid : explains guid_parse l_guid.
Proof.
  intros bs x rest B E. apply guid_iff in E as [H ->]; auto. exists (guid_enc x). repeat split; auto.
Qed.
Lemma explains_exguid : explains exguid_parse l_exguid.
Proof. intros bs x rest B E. apply exguid_iff in E as (e & -> & H); auto. exists e. auto. Qed.
Lemma explains_compact : explains compact_parse l_compact.
Proof. intros bs x rest B E. apply compact_iff in E as (e & -> & H); auto. exists e. auto. Qed.

Lemma explains_serial : explains serial_parse a_serial.
Proof.
  intros bs x rest B E. unfold serial_parse in E. stepE E.
  destruct (explains_uint 1 _ _ _ B Eq) as (e & -> & U). apply bytes_ok_app in B as [_ B].
  assert (e = [n]) as ->.
  { destruct U as [U ->]. cbn [le_bytes]. change (2 ^ (8 * N.of_nat 1)) with 256 in U.
    now rewrite N.mod_small. }
  destruct (n =? 0) eqn:N0.
  - apply pret_inv in E as [-> ->]. exists [n]. split; auto.
    replace n with 0 by lia. constructor.
  - stepE E. stepE E. apply pret_inv in E as [-> ->].
    destruct (explains_guid _ _ _ B Eq0) as (e1 & -> & H1 & ->). apply bytes_ok_app in B as [_ B].
    destruct (explains_uint 8 _ _ _ B Eq1) as (e2 & -> & U2 & ->).
    exists (n :: guid_enc g ++ le_bytes 8 n0). split; [cbn [app]; now rewrite <- app_assoc|].
    constructor; auto. destruct U as [U _]. change (2 ^ (8 * N.of_nat 1)) with 256 in U. lia.
Qed.

Lemma reads_a_serial s : reads serial_parse (a_serial s) s.
Proof.
  intros e t [|tag g n T G H].
  - unfold serial_parse. cbn [app]. unfold pbind at 1. rewrite get_u8_cons. reflexivity.
  - unfold serial_parse. cbn [app]. unfold pbind at 1. rewrite get_u8_cons. cbv beta iota.
    replace (tag =? 0) with false by lia. rewrite <- app_assoc. unfold pbind.
    rewrite (reads_guid g) by (split; auto).
    unfold get_u64. change 8 with (N.of_nat 8) at 1. rewrite (reads_uint 8 n); [reflexivity|].
    split; auto.
Qed.
#[export] Hint Resolve reads_a_serial : rdb.

Lemma explains_bindx {A B} (p : parser A) (g : A -> parser B) M K :
  explains p M -> (forall a, explains (g a) (K a)) ->
  explains (pbind p g) (fun b e => exists a, (M a +++ K a b) e).
Proof. apply explains_bind. Qed.

Lemma explains_pfail {A} k : explains (@pfail A k) (fun _ _ => False).
Proof. intros bs x rest _ E. discriminate. Qed.

Create HintDb xdb.
#[export] Hint Resolve explains_guid explains_exguid explains_compact explains_serial : xdb.

Lemma explains_header16 : explains header_parse_16 (fun h => h16 (oh_type h)).
Proof.
  intros bs [c t n] rest B E. apply starts16_iff in E as (e & -> & H); auto. exists e. split; auto.
  exists c, n. exact H.
Qed.
Lemma explains_header32 : explains header_parse_32 (fun h => h32 (oh_type h)).
Proof.
  intros bs [c t n] rest B E. apply starts32_iff in E as (e & -> & H); auto. exists e. split; auto.
  exists c, n. exact H.
Qed.
Lemma explains_header : explains header_parse (fun h => h_any (oh_type h)).
Proof.
  intros bs [c t n] rest B E. apply starts_iff in E as (e & -> & H); auto. exists e. split; auto.
  destruct H; [left|right]; exists c, n; auto.
Qed.
Lemma explains_try16 t : explains (try_parse_16 t) (fun _ => h16 t).
Proof.
  intros bs [] rest B E. apply try_start_iff in E as (h & E & <-). exact (explains_header16 _ _ _ B E).
Qed.
Lemma explains_try32 t : explains (try_parse_32 t) (fun _ => h32 t).
Proof.
  intros bs [] rest B E. apply try_start_iff in E as (h & E & <-). exact (explains_header32 _ _ _ B E).
Qed.
Lemma explains_try t : explains (try_parse t) (fun _ => h_any t).
Proof.
  intros bs [] rest B E. apply try_start_iff in E as (h & E & <-). exact (explains_header _ _ _ B E).
Qed.
Lemma explains_fin8 t : explains (try_parse_end_8 t) (fun _ => fin8 t).
Proof.
  intros bs [] rest B E. apply try_end_iff in E. apply ends8_iff in E as (e & -> & H); auto. eauto.
Qed.
Lemma explains_fin16 t : explains (try_parse_end_16 t) (fun _ => fin16 t).
Proof.
  intros bs [] rest B E. apply try_end_iff in E. apply ends16_iff in E as (e & -> & H); auto. eauto.
Qed.
#[export] Hint Resolve explains_header16 explains_header32 explains_header explains_try16
  explains_try32 explains_try explains_fin8 explains_fin16 : xdb.

(** Build the description of a sequence of readers, then rearrange it. *)
Ltac xb := lazymatch goal with
  | |- explains (pbind _ _) _ => eapply explains_bindx; [xb|intro; xb]
  | |- explains (pret _) _ => apply explains_pret
  | |- explains (pfail _) _ => apply explains_pfail
  | |- _ => solve [eauto 2 with xdb nocore]
  end.
Ltac xopen := repeat (cbv beta in * |-; match goal with
  | H : exists _, _ |- _ => destruct H
  | H : _ /\ _ |- _ => destruct H
  | H : False |- _ => destruct H
  | H : (_ +++ _) _ |- _ => destruct H as (? & ? & -> & ? & ?)
  | H : ?x = [] |- _ => subst x
  | H : ?x = _ |- _ => is_var x; subst x
  | H : _ = ?x |- _ => is_var x; subst x
  end).
Ltac xcat := lazymatch goal with
  | |- (_ +++ _) ?e => eexists _, _; split; [reflexivity|split; [eassumption|xcat]]
  | |- _ => rewrite ?app_nil_r; eassumption
  end.

Lemma explains_cellid : explains cellid_parse l_cellid.
Proof.
  unfold cellid_parse. eapply explains_weaken; [xb|]. intros x e H. xopen. unfold l_cellid. cbn [fst snd].
  xcat.
Qed.
#[export] Hint Resolve explains_cellid : xdb.

Lemma explains_array {A} (p : parser A) (E : A -> lang) :
  explains p E -> explains (n <- compact_parse ;; rep n p) (l_array E).
Proof.
  intro H. eapply explains_weaken; [eapply explains_bindx; [apply explains_compact|]|].
  - intro n. apply explains_rep; exact H.
  - intros x e X. xopen. unfold l_array. xcat.
Qed.
Lemma explains_exguids : explains exguid_parse_array (l_array l_exguid).
Proof. apply explains_array, explains_exguid. Qed.
Lemma explains_cellids : explains cellid_parse_array (l_array l_cellid).
Proof. apply explains_array, explains_cellid. Qed.
Lemma explains_binary : explains binary_item_parse l_blob.
Proof.
  eapply explains_weaken; [eapply explains_bindx; [apply explains_compact|intro; apply explains_read]|].
  intros x e X. xopen. unfold l_blob. eexists _, _. split; [reflexivity|]. split; [eassumption|reflexivity].
Qed.
#[export] Hint Resolve explains_exguids explains_cellids explains_binary : xdb.

(** ** End-marked lists *)
Lemma explains_until {A S} t (body : S -> parser S) (E : A -> lang) (step : S -> A -> S) s :
  (forall s, explains (body s) (fun s' e => exists x, s' = step s x /\ E x e)) ->
  explains (until_end_8 t body s) (fun s' e => exists l, s' = fold_left step l s /\
    (many E l +++ fin8 t) e).
Proof.
  intros H bs. unfold until_end_8, until. generalize (Datatypes.S (length bs)) as f. intro f.
  revert s bs. induction f as [|f IH]; intros s bs s' rest B X; [discriminate|].
  cbn [until_fuel] in X. unfold with_peek in X. destruct (peek bs) as [b| | |]; try discriminate.
  destruct (is_end_8 t b).
  - stepE X. apply pret_inv in X as [-> ->].
    destruct (explains_fin8 t _ _ _ B Eq) as (e & -> & F). exists e. split; auto.
    exists []. split; [reflexivity|]. exists [], e. repeat split; auto.
  - stepE X. destruct (H _ _ _ _ B Eq) as (e1 & -> & x & -> & Ex). apply bytes_ok_app in B as [_ B].
    destruct (IH _ _ _ _ B X) as (e2 & -> & ls & -> & a & b2 & -> & M & F).
    exists (e1 ++ a ++ b2). split; [now rewrite <- !app_assoc|]. exists (x :: ls). split; [reflexivity|].
    exists (e1 ++ a), b2. split; [now rewrite app_assoc|]. split; auto. exists e1, a. auto.
Qed.

(** A reader whose continuation depends on what came first. *)
Lemma explains_head {A B} (p : parser A) (f : A -> parser B) M (G : B -> lang) :
  explains p M -> (forall a, explains (f a) (fun b e => forall e0, M a e0 -> G b (e0 ++ e))) ->
  explains (pbind p f) G.
Proof.
  intros Hp Hf. eapply explains_weaken; [apply explains_bindx; [exact Hp|exact Hf]|].
  intros x e (a & e1 & e2 & -> & H1 & H2). auto.
Qed.

Ltac xnone := intros ? ? ? _ X; discriminate X.

Lemma explains_index_item s : explains (storage_index_item s)
  (fun s' e => exists x, s' = index_step s x /\ a_index_item x e).
Proof.
  unfold storage_index_item, manifest_mapping_parse, cell_mapping_parse, rev_mapping_parse.
  eapply explains_head; [apply explains_header16|]. intro h. cbv beta.
  destruct (oh_type h); try xnone.
  - eapply explains_weaken; [xb|]. intros x e X. xopen. intros e0 Hh.
    eexists (IxCell _ _ _). split; [reflexivity|]. cbn [a_index_item]. rewrite ?app_nil_r. xcat.
  - eapply explains_weaken; [xb|]. intros x e X. xopen. intros e0 Hh.
    eexists (IxManifest _ _). split; [reflexivity|]. cbn [a_index_item]. rewrite ?app_nil_r. xcat.
  - eapply explains_weaken; [xb|]. intros x e X. xopen. intros e0 Hh.
    eexists (IxRevision _ _ _). split; [reflexivity|]. cbn [a_index_item]. rewrite ?app_nil_r. xcat.
Qed.

Lemma explains_index : explains storage_index_parse (fun v e =>
  exists l, v = fold_left index_step l storage_index_empty /\
    (many a_index_item l +++ fin8 DataElement) e).
Proof. apply explains_until. exact explains_index_item. Qed.

Lemma explains_manifest : explains storage_manifest_parse (fun v e =>
  exists g l, v = StorageManifestV g (fold_left (fun m e => ainsert exguid_eqb (fst e) (snd e) m) l []) /\
    ((h16 StorageManifest +++ l_guid g +++ many l_root l) +++ fin8 DataElement) e).
Proof.
  unfold storage_manifest_parse. eapply explains_weaken.
  - eapply explains_bindx; [xb|intro]. eapply explains_bindx; [xb|intro].
    eapply explains_bindx; [|intro; xb].
    apply (explains_until _ _ l_root (fun m e => ainsert exguid_eqb (fst e) (snd e) m)).
    intro s. unfold storage_manifest_item. eapply explains_weaken; [xb|]. intros x e X. xopen.
    eexists (_, _). split; [reflexivity|]. unfold l_root. cbn [fst snd]. rewrite ?app_nil_r. xcat.
  - intros x e X. xopen. eexists _, _. split; [reflexivity|].
    rewrite ?app_nil_r. apply cat_assoc. eexists _, _. split; [reflexivity|]. split; [eassumption|].
    apply cat_assoc. xcat.
Qed.

Lemma explains_revision : explains revision_manifest_parse (fun v e =>
  exists r b l, v = (let s := fold_left rev_step l ([], []) in RevManifest r b (fst s) (snd s)) /\
    ((h16 RevisionManifest +++ l_exguid r +++ l_exguid b +++ many l_rev_item l) +++ fin8 DataElement) e).
Proof.
  unfold revision_manifest_parse. eapply explains_weaken.
  - eapply explains_bindx; [xb|intro]. eapply explains_bindx; [xb|intro].
    eapply explains_bindx; [xb|intro].
    eapply explains_bindx; [|intro; xb].
    apply (explains_until _ _ l_rev_item rev_step).
    intro s. unfold revision_manifest_item, root_declare_parse.
    eapply explains_head; [apply explains_header16|]. intro h. cbv beta.
    destruct (oh_type h); try xnone; (eapply explains_weaken; [xb|]); intros x e X; xopen; intros e0 Hh.
    + eexists (RvGroup _). split; [reflexivity|]. cbn [l_rev_item]. rewrite ?app_nil_r. xcat.
    + eexists (RvRoot _ _). split; [reflexivity|]. cbn [l_rev_item]. rewrite ?app_nil_r. xcat.
  - intros x e X. xopen. eexists _, _, _. split; [reflexivity|].
    rewrite ?app_nil_r. apply cat_assoc. eexists _, _. split; [reflexivity|]. split; [eassumption|].
    apply cat_assoc. eexists _, _. split; [reflexivity|]. split; [eassumption|].
    apply cat_assoc. xcat.
Qed.

Lemma explains_cell_manifest : explains cell_manifest_parse (fun v e =>
  ((h16 CellManifest +++ l_exguid v) +++ fin8 DataElement) e).
Proof.
  unfold cell_manifest_parse. eapply explains_weaken; [xb|]. intros x e X. xopen.
  apply cat_assoc. rewrite ?app_nil_r. xcat.
Qed.

Lemma explains_object_blob : explains blob_parse (fun v e =>
  ((h_any ObjectDataBlob +++ l_blob v) +++ fin8 DataElement) e).
Proof.
  unfold blob_parse. eapply explains_weaken; [xb|]. intros x e X. xopen.
  apply cat_assoc. rewrite ?app_nil_r. xcat.
Qed.

Lemma explains_fragment : explains fragment_parse a_fragment.
Proof.
  unfold fragment_parse. eapply explains_weaken.
  - do 5 (eapply explains_bindx; [xb|intro]). eapply explains_bindx; [apply explains_read|intro; xb].
  - intros x e X. xopen. unfold a_fragment. cbn [fr_size fr_data fr_id fr_offset fr_length].
    split; [reflexivity|]. rewrite ?app_nil_r.
    do 5 (eexists _, _; split; [reflexivity|split; [eassumption|]]). reflexivity.
Qed.

Lemma reads_a_fragment f : reads fragment_parse (a_fragment f) f.
Proof.
  intros e t [S H]. destruct f as [i s o n d]. cbn [fr_size fr_data fr_id fr_offset fr_length] in *.
  revert e t H. change (reads fragment_parse (h_any DataElementFragment +++ l_exguid i +++ l_compact s
    +++ l_compact o +++ l_compact n +++ lit d) (Fragment i s o n d)).
  unfold fragment_parse. do 5 (eapply reads_bind; [auto with rdb|]; cbv beta).
  eapply reads_last_f; [|reflexivity]. intros e t ->. rewrite S. apply read_app.
Qed.

Lemma explains_odecls : explains odecls_parse l_decls.
Proof.
  unfold odecls_parse. eapply explains_weaken.
  - eapply explains_bindx; [xb|intro].
    apply (explains_until _ _ l_decl (fun s d => s ++ [d])).
    intro s. unfold odecl_item.
    eapply explains_head; [apply explains_header|]. intro h. cbv beta.
    destruct (oh_type h); try xnone; (eapply explains_weaken; [xb|]); intros x e X; xopen; intros e0 Hh.
    + eexists (DeclBlob _ _ _ _ _). split; [reflexivity|]. cbn [l_decl]. rewrite ?app_nil_r. xcat.
    + eexists (DeclObject _ _ _ _ _). split; [reflexivity|]. cbn [l_decl]. rewrite ?app_nil_r. xcat.
  - intros x e X. xopen. rewrite fold_snoc. cbn [app]. unfold l_decls. xcat.
Qed.

Lemma explains_odata : explains odata_parse (fun l => many l_data l +++ fin8 ObjectGroupData).
Proof.
  unfold odata_parse. eapply explains_weaken.
  - apply (explains_until _ _ l_data (fun s d => s ++ [d])).
    intro s. unfold odata_item.
    eapply explains_head; [apply explains_header|]. intro h. cbv beta.
    destruct (oh_type h); try xnone; (eapply explains_weaken; [xb|]); intros x e X; xopen; intros e0 Hh.
    + eexists (DataBlobRef _ _ _). split; [reflexivity|]. cbn [l_data]. rewrite ?app_nil_r. xcat.
    + eexists (DataExcluded _ _ _). split; [reflexivity|]. cbn [l_data]. rewrite ?app_nil_r. xcat.
    + eexists (DataObject _ _ _). split; [reflexivity|]. cbn [l_data]. rewrite ?app_nil_r. xcat.
  - intros x e X. xopen. rewrite fold_snoc. cbn [app]. xcat.
Qed.

Lemma explains_group : explains object_group_parse (fun v e =>
  exists d o, v = ObjectGroup d [] o /\ (l_group d o +++ fin8 DataElement) e).
Proof.
  intros bs x rest B E. unfold object_group_parse in E. stepE E.
  destruct (explains_odecls _ _ _ B Eq) as (e1 & -> & (a1 & c1 & -> & A1 & (a2 & c2 & -> & A2 & A3))).
  apply bytes_ok_app in B as [_ B]. clear Eq. stepE E.
  destruct (explains_header _ _ _ B Eq) as (e2 & -> & H2). apply bytes_ok_app in B as [_ B]. clear Eq.
  destruct (oh_type o) eqn:T; try discriminate E.
  - stepE E. apply pret_inv in Eq as [-> ->]. stepE E.
    destruct (explains_odata _ _ _ B Eq) as (e3 & -> & (a3 & c3 & -> & A4 & A5)).
    apply bytes_ok_app in B as [_ B]. clear Eq. stepE E. apply pret_inv in E as [-> ->].
    destruct (explains_fin8 _ _ _ _ B Eq) as (e4 & -> & H4).
    exists (a1 ++ a2 ++ c2 ++ e2 ++ a3 ++ c3 ++ e4). split; [now rewrite <- !app_assoc|].
    exists l, l0. split; [reflexivity|].
    exists (a1 ++ a2 ++ c2 ++ e2 ++ a3 ++ c3), e4. split; [now rewrite <- !app_assoc|]. split; [|exact H4].
    unfold l_group. xcat.
  - stepE E. stepE Eq. exfalso. exact (ometa_never _ _ _ B Eq0).
Qed.

(** ** Elements *)
Definition aelem_step (p : package) (x : aelem) : package :=
  match x with
  | AElem x => elem_step p x
  | AFragment id _ f =>
    let '(Package si sm ce re og fr bl) := p in Package si sm ce re og (ins id f fr) bl
  end.

Lemma explains_body id s ty p : explains (element_body id ty p) (fun p' e =>
  (exists x, p' = elem_step p (Elem id s x) /\ ty = kind x /\ (a_body x +++ fin8 DataElement) e) \/
  (exists f, p' = aelem_step p (AFragment id s f) /\ ty = 6 /\ a_fragment f e)).
Proof.
  destruct p as [si sm ce re og fr bl]. unfold element_body.
  destruct (ty =? 0x01) eqn:T1; [|destruct (ty =? 0x02) eqn:T2; [|destruct (ty =? 0x03) eqn:T3;
    [|destruct (ty =? 0x04) eqn:T4; [|destruct (ty =? 0x05) eqn:T5; [|destruct (ty =? 0x06) eqn:T6;
    [|destruct (ty =? 0x0A) eqn:T7; [|xnone]]]]]]];
  intros bs x rest B E; stepE E; apply pret_inv in E as [-> ->].
  - destruct (explains_index _ _ _ B Eq) as (e & -> & l' & -> & H). exists e. split; auto.
    left. exists (ElIndex l'). repeat split; auto. cbn. lia.
  - destruct (explains_manifest _ _ _ B Eq) as (e & -> & g & l' & -> & H). exists e. split; auto.
    left. exists (ElManifest g l'). repeat split; auto. cbn. lia.
  - destruct (explains_cell_manifest _ _ _ B Eq) as (ee & -> & H). exists ee. split; auto.
    left. exists (ElCell e). repeat split; auto. cbn. lia.
  - destruct (explains_revision _ _ _ B Eq) as (ee & -> & r' & b & l' & -> & H). exists ee. split; auto.
    left. exists (ElRevision r' b l'). repeat split; auto. cbn. lia.
  - destruct (explains_group _ _ _ B Eq) as (ee & -> & d & o' & -> & H). exists ee. split; auto.
    left. exists (ElGroup d o'). repeat split; auto. cbn. lia.
  - destruct (explains_fragment _ _ _ B Eq) as (ee & -> & H). exists ee. split; auto.
    right. exists f. repeat split; auto. lia. apply H. apply H.
  - destruct (explains_object_blob _ _ _ B Eq) as (ee & -> & H). exists ee. split; auto.
    left. exists (ElBlob l). repeat split; auto. cbn. lia.
Qed.

Lemma explains_element p : explains (element_parse p) (fun p' e => exists x, p' = aelem_step p x /\ a_elem x e).
Proof.
  intros bs x rest B E. unfold element_parse in E.
  stepE E. destruct (explains_try16 _ _ _ _ B Eq) as (e1 & -> & H1). apply bytes_ok_app in B as [_ B].
  stepE E. destruct (explains_exguid _ _ _ B Eq0) as (e2 & -> & H2). apply bytes_ok_app in B as [_ B].
  stepE E. destruct (explains_serial _ _ _ B Eq1) as (e3 & -> & H3). apply bytes_ok_app in B as [_ B].
  stepE E. destruct (explains_compact _ _ _ B Eq2) as (e4 & -> & H4). apply bytes_ok_app in B as [_ B].
  destruct (explains_body e s n p _ _ _ B E) as (e5 & -> & [(y & -> & -> & (a & b & -> & Ha & Hb))|(f & -> & -> & H)]).
  - exists (e1 ++ e2 ++ e3 ++ e4 ++ a ++ b). split; [now rewrite <- !app_assoc|].
    exists (AElem (Elem e s y)). split; [reflexivity|]. cbn [a_elem el_id el_serial el_content]. xcat.
  - exists (e1 ++ e2 ++ e3 ++ e4 ++ e5). split; [now rewrite <- !app_assoc|].
    exists (AFragment e s f). split; [reflexivity|]. cbn [a_elem]. xcat.
Qed.

Lemma explains_package : explains package_parse (fun p e =>
  exists l, p = fold_left aelem_step l package_empty /\ a_package l e).
Proof.
  intros bs x rest B E. unfold package_parse in E.
  stepE E. destruct (explains_try16 _ _ _ _ B Eq) as (e1 & -> & H1). apply bytes_ok_app in B as [_ B].
  stepE E. destruct (explains_uint 1 _ _ _ B Eq0) as (e2 & -> & H2). apply bytes_ok_app in B as [_ B].
  destruct (n =? 0) eqn:N0; [|discriminate E]. cbn [negb] in E.
  destruct (explains_until _ _ a_elem aelem_step _ explains_element _ _ _ B E) as (e3 & -> & l' & -> & H3).
  exists (e1 ++ e2 ++ e3). split; [now rewrite <- !app_assoc|]. exists l'. split; [reflexivity|].
  destruct H2 as [_ ->]. replace n with 0 by lia.
  exists e1, ([0] ++ e3). split; [reflexivity|]. split; [exact H1|].
  exists [0], e3. split; [reflexivity|]. split; [reflexivity|exact H3].
Qed.

(** The other direction. *)
Lemma reads_a_index l :
  reads storage_index_parse (many a_index_item l +++ fin8 DataElement)
    (fold_left index_step l storage_index_empty).
Proof.
  apply reads_until; [auto with gdb| |].
  - intros []; apply opens_cat, opens_h16.
  - intros s i. unfold storage_index_item, manifest_mapping_parse, cell_mapping_parse, rev_mapping_parse.
    destruct i as [|[? ?]|]; cbn [a_index_item index_step]; (apply reads_h16; intros ? ->; cbv beta iota);
    (eapply reads_last_f; [rd|reflexivity]).
Qed.

Lemma reads_a_elem p x : reads (element_parse p) (a_elem x) (aelem_step p x).
Proof.
  destruct x as [[id s x]|id s f]; cbn [a_elem aelem_step el_id el_serial el_content].
  - unfold element_parse. do 4 (eapply reads_bind; [auto with rdb|]; cbv beta).
    replace (elem_step p (Elem id s x)) with (elem_step p (Elem id (Serial 0 0) x)) by (destruct p; reflexivity).
    destruct x; try apply reads_body. destruct p. cbn [a_body kind elem_step el_content el_id element_body].
    apply reads_if_true; [reflexivity|]. eapply reads_last_f; [|reflexivity]. apply reads_a_index.
  - unfold element_parse. do 4 (eapply reads_bind; [auto with rdb|]; cbv beta).
    destruct p. unfold element_body.
    repeat (first [apply reads_if_true; [reflexivity|] | apply reads_if_false; [reflexivity|]]).
    eapply reads_last_f; [|reflexivity]. apply reads_a_fragment.
Qed.

Lemma reads_a_package els :
  reads package_parse (a_package els) (fold_left aelem_step els package_empty).
Proof.
  unfold package_parse, a_package. eapply reads_bind; [auto with rdb|]. cbv beta.
  eapply reads_bind; [apply reads_u8_lit|]. cbv beta.
  apply reads_if_false; [reflexivity|].
  apply reads_until; auto using reads_a_elem with gdb.
  intros [|]; apply opens_cat, opens_h16.
Qed.

(** ** Meaning *)
Lemma without_fold l p :
  without_fragments (fold_left aelem_step l p) = fold_left elem_step (proper l) (without_fragments p).
Proof.
  revert p; induction l as [|x l IH]; intro p; [reflexivity|]. cbn [fold_left proper flat_map].
  rewrite IH. change (flat_map _ l) with (proper l). rewrite fold_left_app. f_equal.
  destruct p, x as [[i s []]|]; reflexivity.
Qed.

Lemma a_means_fold l : a_means l (fold_left aelem_step l package_empty).
Proof.
  split.
  - rewrite without_fold. apply package_means_fold.
  - intro id. rewrite (fold_proj aelem_step
      (fun m x => match (match x with AFragment i _ f => Some (i, f) | AElem _ => None end) with
                  | Some e => ainsert exguid_eqb (fst e) (snd e) m | None => m end) pk_fragments).
    + rewrite (alookup_fold exguid_eqb exguid_eqb_eq).
      rewrite (last_for_ext _ (fun x => match x with
                       | AFragment i _ f => if exguid_eqb i id then Some f else None
                       | AElem _ => None end)).
      * destruct (last_for _ l); reflexivity.
      * intros []; reflexivity.
    + intros [] [[? ? []]|]; reflexivity.
Qed.

Lemma package_accepted bs pk rest :
  bytes_ok bs -> package_parse bs = Ok (pk, rest) ->
  exists els e, bs = e ++ rest /\ a_package els e /\ a_means els pk.
Proof.
  intros B E. destruct (explains_package _ _ _ B E) as (e & -> & l & -> & H).
  exists l, e. repeat split; auto; apply a_means_fold.
Qed.

Lemma package_accepts els e t :
  a_package els e -> exists pk, package_parse (e ++ t) = Ok (pk, t) /\ a_means els pk.
Proof. intro H. eexists. split; [apply reads_a_package; exact H|apply a_means_fold]. Qed.

(** ** Files *)
Lemma explains_content a b c d : explains (parse_legacy a b c d) (fun pg e =>
  exists index schema els,
    pg = Packaging a b c d index schema (fold_left aelem_step els package_empty) /\
    a_content index schema els e).
Proof.
  intros bs x rest B E. unfold parse_legacy in E.
  stepE E. destruct (explains_uint 4 _ _ _ B Eq) as (e1 & -> & H1). apply bytes_ok_app in B as [_ B].
  destruct (n =? 0) eqn:N0; [|discriminate E]. cbn [negb] in E. replace n with 0 in * by lia.
  stepE E. destruct (explains_try32 _ _ _ _ B Eq0) as (e2 & -> & H2). apply bytes_ok_app in B as [_ B].
  stepE E. destruct (explains_exguid _ _ _ B Eq1) as (e3 & -> & H3). apply bytes_ok_app in B as [_ B].
  stepE E. destruct (explains_guid _ _ _ B Eq2) as (e4 & -> & H4). apply bytes_ok_app in B as [_ B].
  stepE E. destruct (explains_package _ _ _ B Eq3) as (e5 & -> & els & -> & H5). apply bytes_ok_app in B as [_ B].
  stepE E. destruct (explains_fin16 _ _ _ _ B Eq4) as (e6 & -> & H6). apply pret_inv in E as [-> ->].
  exists (e1 ++ e2 ++ e3 ++ e4 ++ e5 ++ e6). split; [now rewrite <- !app_assoc|].
  exists e, g, els. split; [reflexivity|]. unfold a_content. xcat.
Qed.

Lemma explains_version : explains version_check (fun _ => l_version).
Proof.
  intros bs x rest B E. unfold version_check in E.
  stepE E. destruct (explains_uint 4 _ _ _ B Eq) as (e1 & -> & H1).
  destruct (n =? 0x2A) eqn:N0; [|destruct (n =? 0x1B) eqn:N1]; try discriminate E;
    apply pret_inv in E as [-> ->]; exists e1; split; auto; [left|right];
    [replace 0x2A with n by lia|replace 0x1B with n by lia]; exact H1.
Qed.

Lemma fixed_explains {A} k (p : parser A) : fixed k p -> good 0 p -> explains p (fun _ => l_any k).
Proof.
  intros F G bs x rest B E. destruct (good_self_delimiting _ _ G _ _ _ E) as (pre & -> & _).
  exists pre. split; auto. apply F in E. rewrite app_length in E. unfold l_any. lia.
Qed.

Lemma any_app n m a b : l_any n a -> l_any m b -> l_any (n + m) (a ++ b).
Proof. unfold l_any. rewrite app_length. lia. Qed.

(** Fields that are skipped. *)
Lemma explains_skip {A B} k m (p : parser A) (f : A -> parser B) (L : B -> lang) :
  explains p (fun _ => l_any k) -> (forall a, explains (f a) (fun b => l_any m +++ L b)) ->
  explains (pbind p f) (fun b => l_any (k + m) +++ L b).
Proof.
  intros Hp Hf. eapply explains_weaken; [eapply explains_bindx; [exact Hp|exact Hf]|].
  intros x e X. xopen. eexists (_ ++ _), _. split; [apply app_assoc|]. split; [|eassumption].
  apply any_app; assumption.
Qed.
Lemma explains_int w : explains (get_le (N.of_nat w)) (fun _ => l_any w).
Proof. eapply explains_weaken; [apply explains_uint|]. intros v e [_ ->]. apply le_bytes_length. Qed.
Lemma explains_guid_any : explains guid_parse (fun _ => l_any 16).
Proof. eapply fixed_explains; [apply fixed_guid|]. eapply good_weaken; [|apply good_guid]. lia. Qed.
Lemma explains_fcr_any : explains fcr64x32_parse (fun _ => l_any 12).
Proof. eapply fixed_explains; [apply fixed_fcr|]. eapply good_weaken; [|apply good_fcr]. lia. Qed.
Lemma explains_fcr : explains fcr64x32_parse (fun v => l_uint 8 (fst v) +++ l_uint 4 (snd v)).
Proof.
  unfold fcr64x32_parse. eapply explains_weaken.
  - eapply explains_bindx; [apply (explains_uint 8)|intro]. eapply explains_bindx; [apply (explains_uint 4)|intro].
    apply explains_pret.
  - intros x e X. xopen. cbn [fst snd]. rewrite ?app_nil_r. xcat.
Qed.

Lemma explains_file_header : explains revision_store_header (fun v => l_file_header (fst v) (snd v)).
Proof.
  unfold revision_store_header, l_file_header.
  eapply explains_weaken.
  - do 4 (eapply explains_bindx; [apply explains_version|intro]).
    unfold get_u64, get_u32, get_u8.
    apply (explains_skip 8 72); [apply (explains_int 8)|intro].
    apply (explains_skip 8 64); [apply (explains_int 8)|intro].
    apply (explains_skip 4 60); [apply (explains_int 4)|intro].
    apply (explains_skip 4 56); [apply (explains_int 4)|intro].
    apply (explains_skip 8 48); [apply (explains_int 8)|intro].
    apply (explains_skip 8 40); [apply (explains_int 8)|intro].
    apply (explains_skip 4 36); [apply (explains_int 4)|intro].
    do 4 (eapply (explains_skip 1); [apply (explains_int 1)|intro]).
    apply (explains_skip 16 16); [apply explains_guid_any|intro].
    apply (explains_skip 4 12); [apply (explains_int 4)|intro].
    apply (explains_skip 12 0); [apply explains_fcr_any|intro].
    eapply explains_weaken; [apply explains_fcr|].
    intros x e X. exists [], e. split; [reflexivity|]. split; [reflexivity|]. exact X.
  - intros x e X. xopen.
    do 4 (eexists _, _; split; [reflexivity|split; [eassumption|]]). xcat.
Qed.

Lemma explains_advance n : explains (advance n) (fun _ => l_any (N.to_nat n)).
Proof.
  intros bs [] rest B E. unfold advance, remaining in E.
  destruct (N.of_nat (length bs) <? n) eqn:L; [discriminate|].
  assert (rest = skipn (N.to_nat n) bs) as -> by congruence.
  exists (firstn (N.to_nat n) bs). split; [symmetry; apply firstn_skipn|].
  unfold l_any. rewrite firstn_length. lia.
Qed.

Lemma explains_guids {A} (f : guid -> guid -> guid -> guid -> parser A) K :
  (forall a b c d, explains (f a b c d) (K a b c d)) ->
  explains (w <- guid_parse ;; y <- guid_parse ;; z <- guid_parse ;; v <- guid_parse ;; f w y z v)
    (fun x e => exists a b c d, (l_guids a b c d +++ K a b c d x) e).
Proof.
  intro H. eapply explains_weaken.
  - do 4 (eapply explains_bindx; [apply explains_guid|intro]). apply H.
  - intros x e X. xopen. eexists _, _, _, _. unfold l_guids.
    apply cat_assoc. eexists _, _. split; [reflexivity|]. split; [eassumption|].
    apply cat_assoc. eexists _, _. split; [reflexivity|]. split; [eassumption|].
    apply cat_assoc. xcat.
Qed.

Lemma explains_packaging' : explains packaging_parse' (fun pg e =>
  exists ft f lv ff index schema els,
    pg = Packaging ft f lv ff index schema (fold_left aelem_step els package_empty) /\
    a_file ft f lv ff index schema els e).
Proof.
  unfold packaging_parse'. eapply explains_weaken.
  - eapply (explains_guids (fun file_type file legacy_version file_format => _) (fun a b c d => _)).
    intros a b c d. cbv beta.
    instantiate (1 := fun pg e =>
      (exists index schema els,
        (d = 0x638DE92FA6D44BC19A36B3FC2511A5B7 \/ (d = 0x109ADD3F911B49F5A5D01791EDC8AED8 /\ c <> 0)) /\
        pg = Packaging a b c d index schema (fold_left aelem_step els package_empty) /\
        a_content index schema els e) \/
      (d = 0x109ADD3F911B49F5A5D01791EDC8AED8 /\ c = 0 /\
       exists stp cb ft f lv ff index schema els,
        pg = Packaging ft f lv ff index schema (fold_left aelem_step els package_empty) /\
        172 <= stp + cb < 2 ^ 64 /\
        (l_file_header stp cb +++ l_any (N.to_nat (stp + cb - 172)) +++ l_guids ft f lv ff
         +++ a_content index schema els) e)).
    cbv beta. destruct (d =? package_store_format) eqn:D1.
    { eapply explains_weaken; [apply explains_content|]. intros x e (i & s & els & -> & H).
      left. exists i, s, els. split; [|auto]. left. apply N.eqb_eq in D1. exact D1. }
    destruct (d =? revision_store_format) eqn:D2; cbn [negb]; [|xnone]. apply N.eqb_eq in D2.
    unfold guid_is_nil. destruct (c =? 0) eqn:C0; cbn [negb].
    2: { eapply explains_weaken; [apply explains_content|]. intros x e (i & s & els & -> & H).
      left. exists i, s, els. split; [|auto]. right. split; [exact D2|lia]. }
    apply N.eqb_eq in C0. intros bs x rest B E.
    stepE E. destruct (explains_file_header _ _ _ B Eq) as (e1 & -> & H1). apply bytes_ok_app in B as [_ B].
    stepE E. destruct p as [stp cb]. cbn [fst snd] in H1.
    unfold plift, rbind in Eq0. destruct (log_offset (stp, cb) 172) as [off| | |] eqn:O; try discriminate Eq0.
    apply pret_inv in Eq0 as [-> ->].
    unfold log_offset, fcr_end, rbind in O. cbn [fst snd] in O.
    destruct (stp + cb <? 2 ^ 64) eqn:O1; [|discriminate O].
    destruct (stp + cb <? 172) eqn:O2; [discriminate O|].
    assert (off = stp + cb - 172) as -> by congruence.
    stepE E. destruct (explains_advance _ _ _ _ B Eq0) as (e2 & -> & H2). apply bytes_ok_app in B as [_ B].
    destruct (explains_guids parse_legacy _ explains_content _ _ _ B E)
      as (e3 & -> & ft & f & lv & ff & a3 & b3 & -> & H3 & index & schema & els & -> & H4).
    exists (e1 ++ e2 ++ a3 ++ b3). split; [now rewrite <- !app_assoc|].
    right. split; [exact D2|]. split; [exact C0|].
    exists stp, cb, ft, f, lv, ff, index, schema, els. split; [reflexivity|]. split; [lia|]. xcat.
  - intros x e (a & b & c & d & e1 & e2 & -> & H1 &
      [(i & s & els & D & -> & H2)|(D & C & stp & cb & ft & f & lv & ff & i & s & els & -> & R & H2)]).
    + exists a, b, c, d, i, s, els. split; [reflexivity|]. left. split; [exact D|]. exists e1, e2. auto.
    + exists ft, f, lv, ff, i, s, els. split; [reflexivity|]. right. exists a, b, stp, cb.
      split; [exact R|]. subst c d. exists e1, e2. auto.
Qed.

Lemma file_accepted bs pg rest :
  bytes_ok bs -> packaging_parse bs = Ok (pg, rest) ->
  exists els e, bs = e ++ rest /\ a_means els (pg_package pg) /\
    a_file (pg_file_type pg) (pg_file pg) (pg_legacy_version pg) (pg_file_format pg)
      (pg_storage_index pg) (pg_cell_schema pg) els e.
Proof.
  intros B E. rewrite packaging_parse_eq in E.
  destruct (explains_packaging' _ _ _ B E) as (e & -> & ft & f & lv & ff & i & s & els & -> & H).
  exists els, e. split; [reflexivity|]. split; [apply a_means_fold|exact H].
Qed.

Lemma reads_a_content a b c d index schema els :
  reads (parse_legacy a b c d) (a_content index schema els)
    (Packaging a b c d index schema (fold_left aelem_step els package_empty)).
Proof.
  unfold parse_legacy, a_content.
  eapply reads_bind; [apply (reads_uint 4)|]. cbv beta. apply reads_if_false; [reflexivity|].
  do 3 (eapply reads_bind; [auto with rdb|]; cbv beta).
  eapply reads_bind; [apply reads_a_package|]. rd.
Qed.

Lemma file_reads ft f lv ff index schema els e t :
  a_file ft f lv ff index schema els e ->
  packaging_parse (e ++ t) = Ok (Packaging ft f lv ff index schema (fold_left aelem_step els package_empty), t).
Proof.
  intro H.
  rewrite packaging_parse_eq. destruct H as [[D H]|(h1 & h2 & stp & cb & B & H)]; revert e t H.
  - change (reads packaging_parse' (a_plain ft f lv ff index schema els)
      (Packaging ft f lv ff index schema (fold_left aelem_step els package_empty))).
    unfold a_plain, packaging_parse'.
    eapply (reads_guids (fun file_type file legacy_version file_format => _)).
    destruct D as [->|[-> Hlv]].
    + apply reads_a_content.
    + apply reads_if_false; [reflexivity|]. apply reads_if_false; [reflexivity|].
      apply reads_if_true; [|apply reads_a_content].
      unfold guid_is_nil, guid_nil. lia.
  - match goal with |- forall e t, ?L e -> ?p (e ++ t) = Ok (?x, t) => change (reads p L x) end.
    unfold packaging_parse'.
    eapply (reads_guids (fun file_type file legacy_version file_format => _)).
    apply reads_if_false; [reflexivity|]. apply reads_if_false; [reflexivity|].
    apply reads_if_false; [reflexivity|].
    eapply reads_bind; [apply reads_header|]. cbv beta.
    assert (O : log_offset (stp, cb) 172 = Ok (stp + cb - 172)).
    { unfold log_offset, fcr_end, rbind. cbn [fst snd].
      replace (stp + cb <? 2 ^ 64) with true by lia. replace (stp + cb <? 172) with false by lia.
      reflexivity. }
    intros e t H. unfold pbind at 1. unfold plift, rbind. rewrite O. revert e t H.
    match goal with |- forall e t, ?L e -> ?p (e ++ t) = Ok (?x, t) => change (reads p L x) end.
    eapply reads_bind; [apply reads_advance|]. cbv beta.
    apply (reads_guids parse_legacy). apply reads_a_content.
Qed.

Lemma file_accepts ft f lv ff index schema els e t :
  a_file ft f lv ff index schema els e ->
  exists pk, packaging_parse (e ++ t) = Ok (Packaging ft f lv ff index schema pk, t) /\ a_means els pk.
Proof.
  intro H. exists (fold_left aelem_step els package_empty). split; [|apply a_means_fold]. now apply file_reads.
Qed.

(** ** The format proper is accepted, and more *)
Lemma many_mono {A B} (g : A -> B) (E : A -> lang) (F : B -> lang) l e :
  (forall x e, E x e -> F (g x) e) -> many E l e -> many F (map g l) e.
Proof.
  intro H; revert e; induction l as [|x l IH]; intros e; [auto|].
  intros (a & b & -> & Ha & Hb). exists a, b. split; [reflexivity|]. split; [apply H; exact Ha|apply IH; exact Hb].
Qed.
Lemma cat_mono (P P' Q Q' : lang) e :
  (forall e, P e -> P' e) -> (forall e, Q e -> Q' e) -> (P +++ Q) e -> (P' +++ Q') e.
Proof. intros H1 H2 (a & b & -> & Ha & Hb). exists a, b. auto. Qed.

Lemma serial_lenient s e : l_serial s e -> a_serial s e.
Proof. intros [|g n G H]; [constructor|]. apply sa_full; auto. split; reflexivity. Qed.

Lemma elem_lenient x e : l_elem x e -> a_elem (AElem x) e.
Proof.
  destruct x as [i s x]. unfold l_elem. cbn [a_elem el_id el_serial el_content].
  apply cat_mono; auto. clear e; intros e. apply cat_mono; auto. clear e; intros e.
  apply cat_mono; [apply serial_lenient|]. clear e; intros e. apply cat_mono; auto. clear e; intros e.
  apply cat_mono; auto. clear e; intros e. destruct x; cbn [a_body]; auto. cbn [l_body].
  rewrite <- (map_id items) at 2. apply many_mono. clear. intros [] e; cbn [l_index_item a_index_item];
  repeat (apply cat_mono; [now auto|]; clear e; intros e); auto using serial_lenient.
  all: apply cat_mono; auto using serial_lenient.
Qed.

Lemma package_lenient els e : l_package els e -> a_package (map AElem els) e.
Proof.
  apply cat_mono; auto. clear e; intros e. apply cat_mono; auto. clear e; intros e.
  apply cat_mono; auto. clear e; intro e. apply many_mono. apply elem_lenient.
Qed.

(** A package outside the format that is accepted: the serial number is
    introduced by the byte 1. *)
Definition odd_serial_bytes : list N :=
  le_bytes 2 (otype_code DataElementPackage * 8) ++ [0]
  ++ le_bytes 2 (otype_code DataElement * 8) ++ [0]
  ++ (1 :: guid_enc 5 ++ le_bytes 8 7)
  ++ [7] ++ le_bytes 2 (otype_code CellManifest * 8) ++ [0]
  ++ [1 + otype_code DataElement * 4] ++ [1 + otype_code DataElementPackage * 4].

Lemma h16_two t e : h16 t e -> exists a b, e = [a; b].
Proof. intros (c & n & [_ _]). cbn [le_bytes]. eauto. Qed.

Lemma exguid_zero x e t r : l_exguid x e -> e ++ t = 0 :: r -> t = r.
Proof.
  intros [|g v G V|g v G V|g v G V|g v G V] H; cbn [app le_bytes] in H.
  - congruence.
  - injection H as H _. lia.
  - injection H as H _. cpow. lia.
  - injection H as H _. cpow. lia.
  - discriminate H.
Qed.

Lemma odd_serial_not_format els : ~ l_package els odd_serial_bytes.
Proof.
  intros (a & b & E & Ha & (c & d & -> & -> & (m & f & -> & Hm & Hf))).
  apply h16_two in Ha as (x & y & ->).
  assert (E' : m ++ f = skipn 3 odd_serial_bytes) by (rewrite E; reflexivity). clear E.
  destruct els as [|el els].
  - cbn in Hm. rewrite Hm in E'. destruct Hf as [_]. vm_compute in E'. discriminate E'.
  - destruct Hm as (p & q & -> & (h & r & -> & Hh & (i & s & -> & Hi & (u & v & -> & Hu & _))) & _).
    apply h16_two in Hh as (x' & y' & ->).
    assert (E2 : i ++ (u ++ v ++ q ++ f) = 0 :: skipn 6 odd_serial_bytes).
    { change (0 :: skipn 6 odd_serial_bytes) with (skipn 2 (skipn 3 odd_serial_bytes)).
      rewrite <- E', <- !app_assoc. reflexivity. }
    apply (exguid_zero _ _ _ _ Hi) in E2. clear E'.
    destruct Hu as [|g n _ _]; vm_compute in E2; discriminate E2.
Qed.

Lemma odd_serial_accepted :
  bytes_ok odd_serial_bytes /\
  package_parse odd_serial_bytes = Ok (Package [] [] [(ExGuid 0 0, ExGuid 0 0)] [] [] [] [], []).
Proof.
  split; [|vm_compute; reflexivity].
  unfold bytes_ok. apply Forall_forall. intros b H.
  assert (X : forallb (fun b => b <? 256) odd_serial_bytes = true) by (vm_compute; reflexivity).
  rewrite forallb_forall in X. specialize (X _ H). lia.
Qed.

Lemma format_only_refuted : exists bs pk, bytes_ok bs /\ package_parse bs = Ok (pk, []) /\
  forall els, ~ l_package els bs.
Proof.
  eexists _, _. split; [apply odd_serial_accepted|]. split; [apply odd_serial_accepted|].
  apply odd_serial_not_format.
Qed.
