(** The values in every store that was read: numbers fit their widths, and vectors
    and file data are bytes. *)
From Coq Require Import Lia ZifyBool ZifyNat ZifyN.
From Verif Require Import Base BaseProofs Codec SpecCodec CodecProofs CodecRT2 CodecRT4 Package PackageProofs SpecPackage PackageRT
  SpecAccept AcceptProofs PropSet SpecPropSet PropSetRT Store StoreProofs NodesProofs Notebook SpecValid RefsProofs.

(** ** Values *)
Inductive fits : pvalue -> Prop :=
| fi_empty : fits VEmpty
| fi_bool b : fits (VBool b)
| fi_u8 n : n < 2 ^ 8 -> fits (VU8 n)
| fi_u16 n : n < 2 ^ 16 -> fits (VU16 n)
| fi_u32 n : n < 2 ^ 32 -> fits (VU32 n)
| fi_u64 n : n < 2 ^ 64 -> fits (VU64 n)
| fi_vec d : bytes_ok d -> fits (VVec d)
| fi_object : fits VObjectId
| fi_objects n : n < 2 ^ 32 -> fits (VObjectIds n)
| fi_space : fits VObjectSpaceId
| fi_spaces n : n < 2 ^ 32 -> fits (VObjectSpaceIds n)
| fi_context : fits VContextId
| fi_contexts n : fits (VContextIds n)
| fi_values i sets : (forall s, In s sets -> forall id k v, In (id, (k, v)) s -> fits v) -> fits (VPropertyValues i sets)
| fi_set s : (forall id k v, In (id, (k, v)) s -> fits v) -> fits (VPropertySet s).
Definition set_fits (s : propset) : Prop := forall id k v, In (id, (k, v)) s -> fits v.
Definition object_fits (o : object) : Prop := set_fits (op_props (ob_props o)) /\ if_any file_data (ob_file o).
Definition objects_fit (m : objects) : Prop := forall id o, alookup exguid_eqb id m = Some o -> object_fits o.
Definition space_fits (sp : space) : Prop := objects_fit (sp_objects sp).

(** ** Parts of byte strings *)
Lemma cat_bytes P Q e : (P +++ Q) e -> bytes_ok e -> exists a b, P a /\ bytes_ok a /\ Q b /\ bytes_ok b.
Proof. intros (a & b & -> & H1 & H2) B. apply bytes_ok_app in B as [B1 B2]. exists a, b. auto. Qed.
Lemma many_bytes {A} (E : A -> lang) l : forall e, many E l e -> bytes_ok e -> forall x, In x l -> exists a, E x a /\ bytes_ok a.
Proof.
  induction l as [|y r IH]; intros e H B x I; [destruct I|].
  destruct (cat_bytes _ _ _ H B) as (a & b & Ha & Ba & Hb & Bb). destruct I as [->|I]; [eauto|eapply IH; eauto].
Qed.
Ltac parts H B :=
  let a := fresh "e" in let b := fresh "e" in let Ba := fresh "B" in let Hx := fresh "X" in
  apply cat_bytes in H; [|exact B]; clear B; destruct H as (a & b & Hx & Ba & H & B).

Lemma compact_small v e : compact_encodes v e -> v < 2 ^ 64.
Proof.
  destruct 1 as [|k v Hk Hv|v Hv]; [reflexivity| |exact Hv].
  apply (N.lt_le_trans _ _ _ Hv). apply N.pow_le_mono_r; lia.
Qed.
Lemma blob_bytes bs e : l_blob bs e -> bytes_ok e -> file_data bs.
Proof.
  intros H B. parts H B. red in H. subst e1. apply compact_small in X. split; assumption.
Qed.

(** ** Property sets *)
Lemma last_at_in {A} (s : list (N * A)) : forall k id j v, last_at k id s = Some (j, v) -> In (id, v) s.
Proof.
  induction s as [|[i w] s IH]; intros k id j v; cbn; [discriminate|].
  destruct (last_at (k + 1) id s) as [[? ?]|] eqn:E.
  - intros [= <- <-]. right. eapply IH; eauto.
  - destruct (i =? id) eqn:Q; [|discriminate]. intros [= <- <-]. left. f_equal. lia.
Qed.
Lemma uint_small w v e : l_uint w v e -> v < 2 ^ (8 * N.of_nat w).
Proof. intros [H _]. exact H. Qed.

Definition sval_fits (v : sval) : Prop := forall e, l_val v e -> bytes_ok e -> forall w, val_means v w -> fits w.
Lemma props_fit s : Forall (fun p => sval_fits (snd p)) s -> forall e, l_props l_val s e -> bytes_ok e ->
  forall m, set_means s m -> set_fits m.
Proof.
  intros F e H B m M id k v E. inversion M as [s0 m0 ND HN HS]; subst. apply (in_alookup _ _ _ ND) in E.
  destruct (last_at 0 id s) as [[j x]|] eqn:L; [|rewrite (HN _ L) in E; discriminate].
  destruct (HS _ _ _ L) as (w & A & V). rewrite A in E. injection E as <- <-. apply last_at_in in L.
  unfold l_props in H. parts H B. parts H B. destruct (many_bytes _ _ _ H B _ L) as (a & Ha & Ba).
  rewrite Forall_forall in F. exact (F _ L _ Ha Ba _ V).
Qed.
Lemma sval_fits_all v : sval_fits v.
Proof.
  induction v as [v Hv|id ss IH|s IH] using sval_rect'; intros e H B w V.
  - destruct v; try contradiction; inversion V; subst; constructor;
      try (apply uint_small in H; exact H).
    cbn [l_val] in H. parts H B. red in H. subst. assumption.
  - inversion V as [| | | | | | | | | | | | |? ? ms HM|]; subst. constructor. cbn [l_val] in H.
    parts H B. parts H B. clear X X0 e0 e1 B0 B1. revert e3 H B. clear V.
    revert ms HM. induction IH as [|s ss Hs _ IH]; intros ms HM e3 H B; inversion HM; subst; [intros s []|].
    parts H B. intros s' [<-|I].
    + eapply props_fit; eauto.
    + eapply IH; eauto.
  - inversion V; subst. constructor. eapply props_fit; eauto.
Qed.
Lemma oprops_fit bs p rest : bytes_ok bs -> oprops_parse bs = Ok (p, rest) -> set_fits (op_props p).
Proof.
  intros B E. destruct (explains_oprops _ _ _ B E) as (o & e & -> & L & (_ & _ & _ & M)).
  apply bytes_ok_app in B as [B _]. destruct L as (b1 & b2 & b3 & b4 & L).
  assert (X : exists e', l_set (os_props o) e' /\ bytes_ok e').
  { destruct (os_spaces o) as [[sp [ctx|]]|]; [do 3 (parts L B)|do 2 (parts L B)|parts L B]; eauto. }
  destruct X as (e' & Hs & B'). refine (props_fit _ _ e' Hs B' _ M). apply Forall_forall. intros. apply sval_fits_all.
Qed.

(** ** Packages *)
Definition odata_fits (d : odata) : Prop := match d with DataObject _ _ b => bytes_ok b | _ => True end.
Definition package_fits (pk : package) : Prop :=
  (forall id d, find_blob pk id = Some d -> file_data d) /\
  (forall id g, find_object_group pk id = Some g -> Forall odata_fits (og_objects g)).

Lemma last_for_in {A B} (sel : A -> option B) l b : last_for sel l = Some b -> exists x, In x l /\ sel x = Some b.
Proof.
  induction l as [|x r IH]; cbn; [discriminate|]. destruct (last_for sel r) eqn:E.
  - intros [= ->]. destruct (IH eq_refl) as (y & I & S). eauto.
  - eauto.
Qed.
Lemma proper_in els x : In x (proper els) -> In (AElem x) els.
Proof.
  unfold proper. rewrite in_flat_map. intros ([y|? ? ?] & I & H); [destruct H as [->|[]]; exact I|destruct H].
Qed.
Lemma package_lang_fits els e pk : a_package els e -> bytes_ok e -> a_means els pk -> package_fits pk.
Proof.
  intros H B ((_ & _ & _ & _ & HG & HB & _) & _). unfold a_package in H. parts H B. parts H B. parts H B.
  assert (X2 : forall x, In x (proper els) -> exists a, a_elem (AElem x) a /\ bytes_ok a).
  { intros x I. apply proper_in in I. exact (many_bytes _ _ _ X1 B2 _ I). }
  split.
  - intros id d E. unfold find_blob in E. cbn [without_fragments pk_blobs] in HB. rewrite <- HB in E.
    apply last_for_in in E as (x & I & S). unfold of_elem in S. destruct (exguid_eqb _ _); [|discriminate].
    destruct (X2 _ I) as (a & Ha & Ba). destruct x as [i s [| | | | |b]]; try discriminate. injection S as ->.
    cbn [a_elem el_content a_body l_body] in Ha. do 4 (parts Ha Ba). parts Ha Ba.
    match goal with X : (_ +++ l_blob d) _, Y : bytes_ok _ |- _ => parts X Y; eapply blob_bytes; eauto end.
  - intros id g E. unfold find_object_group in E. specialize (HG id). cbn [without_fragments pk_groups] in HG. rewrite E in HG.
    destruct (last_for _ _) as [[ds os]|] eqn:L; [|contradiction]. cbn in HG. subst g. cbn [og_objects].
    apply last_for_in in L as (x & I & S). unfold of_elem in S. destruct (exguid_eqb _ _); [|discriminate].
    destruct (X2 _ I) as (a & Ha & Ba). destruct x as [i s [| | | |ds' os'|]]; try discriminate. injection S as -> ->.
    cbn [a_elem el_content a_body l_body] in Ha. do 5 (parts Ha Ba). clear Ha Ba.
    match goal with X : l_group _ _ _, Y : bytes_ok _ |- _ => unfold l_group in X; do 5 (parts X Y) end.
    apply Forall_forall. intros d Id. 
    match goal with X : many l_data os ?e, Y : bytes_ok ?e |- _ => destruct (many_bytes _ _ _ X Y _ Id) as (b & Hb & Bb) end.
    destruct d as [gr ce bs| |]; cbn [odata_fits l_data] in *; auto. do 3 (parts Hb Bb). exact (proj1 (blob_bytes _ _ Hb Bb)).
Qed.
Lemma packaging_fits bs pg rest : bytes_ok bs -> packaging_parse bs = Ok (pg, rest) -> package_fits (pg_package pg).
Proof.
  intros B E. destruct (file_accepted _ _ _ B E) as (els & e & -> & M & F). apply bytes_ok_app in B as [B _].
  assert (X : exists e', a_package els e' /\ bytes_ok e').
  { assert (C : forall e, a_content (pg_storage_index pg) (pg_cell_schema pg) els e -> bytes_ok e -> exists e', a_package els e' /\ bytes_ok e').
    { intros x H Bx. unfold a_content in H. do 5 (parts H Bx). eauto. }
    destruct F as [(_ & F)|(h1 & h2 & stp & cb & _ & F)].
    - unfold a_plain in F. parts F B. eauto.
    - do 4 (parts F B). eauto. }
  destruct X as (e' & Hp & Be). eapply package_lang_fits; eauto.
Qed.

(** ** Stores *)
Lemma object_parse_fits pk id cx sid data o : package_fits pk ->
  (forall k d, alookup gkey_eqb k data = Some d -> odata_fits d) ->
  object_parse id cx sid data pk = Ok o -> object_fits o.
Proof.
  intros [PB _] D E. unfold object_parse in E.
  apply bind_ok in E as (mo & _ & E). apply bind_ok in E as (do & Hd & E).
  unfold ok_or in Hd. destruct (find_object id partition_object_data data) as [d'|] eqn:F; [|discriminate]. injection Hd as ->.
  apply D in F. apply bind_ok in E as (md & _ & E). apply bind_ok in E as (jc & _ & E).
  apply bind_ok in E as ([[dd refs] cells] & Hdd & E). destruct do as [gr c d'|? ? ?|? ? ?]; try discriminate. injection Hdd as -> -> ->.
  cbn in F. apply bind_ok in E as (props & Hp & E). apply bind_ok in E as (blob & _ & E). apply bind_ok in E as (file & Hf & E).
  cbv zeta in E. destruct (_ <? _); [discriminate|]. destruct (negb _); [discriminate|]. injection E as <-.
  split; cbn [ob_props ob_file].
  - unfold run in Hp. apply bind_ok in Hp as ([p r] & Hp & [= <-]). eapply oprops_fit; eauto.
  - destruct blob as [b|]; cbn [opt_map_res] in Hf.
    + apply bind_ok in Hf as (x & Hx & [= <-]). cbn. unfold ok_or in Hx. destruct (find_blob pk b) eqn:Fb; [|discriminate].
      injection Hx as <-. eauto.
    + injection Hf as <-. exact I.
Qed.
Lemma objects_insert m id o : objects_fit m -> object_fits o -> objects_fit (ainsert exguid_eqb id o m).
Proof.
  intros M O i x. rewrite (alookup_insert exguid_eqb exguid_eqb_eq). destruct (exguid_eqb _ _); [intros [= <-]; exact O|apply M].
Qed.

Lemma group_objects_fit pk cx sid g data : package_fits pk ->
  (forall k d, alookup gkey_eqb k data = Some d -> odata_fits d) ->
  forall ids objs objs', objects_fit objs -> group_objects pk cx sid g data ids objs = Ok objs' -> objects_fit objs'.
Proof.
  intros P D. induction ids as [|id r IH]; intros objs objs' F E; cbn [group_objects] in E; [injection E as <-; exact F|].
  destruct (amember _ _ _); [eapply IH; eauto|]. destruct (negb _); [discriminate|].
  apply bind_ok in E as (o & Ho & E). eapply IH; [|exact E]. apply objects_insert; [exact F|]. eapply object_parse_fits; eauto.
Qed.
Lemma parse_groups_fit pk cx sid : package_fits pk ->
  forall gs objs objs', objects_fit objs -> parse_groups pk cx sid gs objs = Ok objs' -> objects_fit objs'.
Proof.
  intros P. induction gs as [|g r IH]; intros objs objs' F E; cbn [parse_groups] in E; [injection E as <-; exact F|].
  apply bind_ok in E as (o1 & H1 & E). eapply IH; [|exact E]. unfold parse_group in H1. apply bind_ok in H1 as (gg & Hg & H1).
  unfold ok_or in Hg. destruct (find_object_group pk g) eqn:Fg; [|discriminate]. injection Hg as ->. apply (proj2 P) in Fg.
  cbv zeta in H1. eapply group_objects_fit; [exact P| |exact F|exact H1].
  intros k d A. rewrite (alookup_extend_last gkey_eqb gkey_eqb_eq) in A. destruct A as [(pre & suf & Q & _)|[A _]]; [|discriminate].
  assert (I : In (k, d) (map (fun '(d, o) => (decl_object_id d, decl_partition d, o)) (combine (og_decls gg) (og_objects gg)))).
  { rewrite Q. apply in_app_iff. right. now left. }
  apply in_map_iff in I as ([dc x] & [= _ ->] & I). apply in_combine_r in I. rewrite Forall_forall in Fg. auto.
Qed.
Lemma walk_fits pk si cx sid : package_fits pk -> forall fuel id objs rts objs' rts', objects_fit objs ->
  revision_walk fuel cx sid si pk [] id objs rts = Ok (objs', rts') -> objects_fit objs'.
Proof.
  intros P. induction fuel as [|f IH]; intros [id|] objs rts objs' rts' F E; cbn [revision_walk] in E; try discriminate;
    try (injection E as <- <-; exact F).
  apply bind_ok in E as ([[base o1] r1] & H1 & E). eapply IH; [|exact E]. unfold revision_parse in H1.
  apply bind_ok in H1 as (rm & _ & H1). apply bind_ok in H1 as (b & _ & H1). cbn [alookup] in H1.
  apply bind_ok in H1 as (nw & _ & H1). cbv zeta in H1. apply bind_ok in H1 as (o2 & H2 & [= _ <- _]).
  eapply parse_groups_fit; eauto.
Qed.
Lemma objects_empty : objects_fit [].
Proof. intros id o [=]. Qed.
Lemma space_parse_fits h fuel m si pk c sp : package_fits pk -> space_parse h fuel m si pk [] = Ok (c, sp) -> space_fits sp.
Proof.
  intros P E. unfold space_parse in E. cbv zeta in E. destruct (or_else _ _).
  - apply bind_ok in E as ([objs rts] & H & [= _ <-]). eapply walk_fits; [exact P| |exact H]. apply objects_empty.
  - destruct (find_cell_revision_id _ _); [|discriminate]. destruct (exguid_is_nil _); [|discriminate]. injection E as _ <-.
    apply objects_empty.
Qed.
Lemma parse_spaces_fit h fuel si pk done : package_fits pk -> forall ms spaces spaces',
  (forall c sp, alookup cellid_eqb c spaces = Some sp -> space_fits sp) ->
  parse_spaces h fuel si pk [] done ms spaces = Ok spaces' ->
  forall c sp, alookup cellid_eqb c spaces' = Some sp -> space_fits sp.
Proof.
  intros P. induction ms as [|m r IH]; intros spaces spaces' F E; cbn [parse_spaces] in E; [injection E as <-; exact F|].
  destruct (exguid_is_nil _); [eapply IH; eauto|]. destruct (existsb _ _); [eapply IH; eauto|].
  apply bind_ok in E as ([c s] & H & E). eapply IH; [|exact E]. intros c' sp'. rewrite (alookup_insert cellid_eqb cellid_eqb_eq).
  destruct (cellid_eqb _ _); [intros [= <-]|apply F]. unfold parse_object_space in H. apply bind_ok in H as (m' & _ & H).
  eapply space_parse_fits; eauto.
Qed.
Definition store_fits (st : store) : Prop :=
  space_fits (st_data_root st) /\ forall c sp, object_space st c = Some sp -> space_fits sp.
Lemma open_store_fits h fuel d st : bytes_ok d -> open_store h fuel d = Ok st -> store_fits st.
Proof.
  intros B E. unfold open_store in E. apply bind_ok in E as (pg & Hp & E). unfold run in Hp.
  apply bind_ok in Hp as ([pg' r] & Hp & [= <-]). apply packaging_fits in Hp; [|exact B]. unfold parse_store in E. cbv zeta in E.
  apply bind_ok in E as (si & _ & E). apply bind_ok in E as (sm & _ & E). apply bind_ok in E as (hc & _ & E).
  apply bind_ok in E as (hm & _ & E). apply bind_ok in E as (gs & _ & E). apply bind_ok in E as (hg & _ & E).
  apply bind_ok in E as (hd & _ & E). apply bind_ok in E as (rc & _ & E). apply bind_ok in E as ([x root] & Hr & E).
  apply bind_ok in E as (spaces & Hs & [= <-]). split; cbn [st_data_root].
  - unfold parse_object_space in Hr. apply bind_ok in Hr as (m & _ & Hr). eapply space_parse_fits; eauto.
  - unfold object_space. cbn [st_spaces]. eapply parse_spaces_fit; [exact Hp| |exact Hs]. intros c sp [=].
Qed.
