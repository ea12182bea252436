(** Round trip of the package format. *)
From Coq Require Import Lia ZifyBool ZifyNat ZifyN.
From Verif Require Import Base BaseProofs Codec SpecCodec CodecProofs CodecRT CodecRT2
  Package PackageProofs SpecPackage.
Ltac Zify.zify_post_hook ::= Z.div_mod_to_equations.

(** [p] reads every string of [L] as [x], whatever follows. *)
Definition reads {A} (p : parser A) (L : lang) (x : A) : Prop :=
  forall e t, L e -> p (e ++ t) = Ok (x, t).

Lemma reads_bind {A B} (p : parser A) (f : A -> parser B) P Q a b :
  reads p P a -> reads (f a) Q b -> reads (pbind p f) (P +++ Q) b.
Proof.
  intros Hp Hf e t (x & y & -> & HP & HQ). unfold pbind.
  rewrite <- app_assoc, (Hp x) by auto. apply Hf; auto.
Qed.

Lemma reads_eps {A} (a : A) : reads (pret a) eps a.
Proof. intros e t ->. reflexivity. Qed.

(** A parser that returns a value after its last component. *)
Lemma reads_last {A B} (p : parser A) (f : A -> B) P a :
  reads p P a -> reads (pbind p (fun x => pret (f x))) P (f a).
Proof. intros Hp e t HP. unfold pbind. rewrite Hp by auto. reflexivity. Qed.

Lemma reads_last_f {A B} (p : parser A) (f : A -> parser B) P a b :
  reads p P a -> (forall t, f a t = Ok (b, t)) -> reads (pbind p f) P b.
Proof. intros Hp Hf e t HP. unfold pbind. rewrite Hp by auto. apply Hf. Qed.

Lemma reads_if_true {A} (b : bool) (p q : parser A) L x :
  b = true -> reads p L x -> reads (if b then p else q) L x.
Proof. now intros ->. Qed.
Lemma reads_if_false {A} (b : bool) (p q : parser A) L x :
  b = false -> reads q L x -> reads (if b then p else q) L x.
Proof. now intros ->. Qed.

Create HintDb rdb.
Lemma reads_guid g : reads guid_parse (l_guid g) g.
Proof. intros e t [H ->]. apply guid_roundtrip; auto. Qed.
Lemma reads_exguid x : reads exguid_parse (l_exguid x) x.
Proof. intros e t H. apply exguid_roundtrip; auto. Qed.
Lemma reads_serial x : reads serial_parse (l_serial x) x.
Proof. intros e t H. apply serial_roundtrip; auto. Qed.
Lemma reads_compact x : reads compact_parse (l_compact x) x.
Proof. intros e t H. apply compact_roundtrip; auto. Qed.
#[export] Hint Resolve reads_guid reads_exguid reads_serial reads_compact : rdb.

Lemma reads_uint w v : reads (get_le (N.of_nat w)) (l_uint w v) v.
Proof.
  intros e t [H ->]. apply get_le_bytes.
  change 256 with (2 ^ 8). rewrite <- N.pow_mul_r. exact H.
Qed.

Lemma reads_any w : exists p : parser (list N), p = read (N.of_nat w) /\
  forall e t, l_any w e -> p (e ++ t) = Ok (e, t).
Proof.
  eexists; split; [reflexivity|]. intros e t <-. apply read_app.
Qed.

Lemma reads_cellid c : reads cellid_parse (l_cellid c) c.
Proof.
  destruct c as [a b]. eapply reads_bind; [apply reads_exguid|].
  apply (reads_last exguid_parse (fun b => (a, b))). apply reads_exguid.
Qed.
#[export] Hint Resolve reads_cellid : rdb.

Lemma reads_rep {A} (p : parser A) (E : A -> lang) l :
  good 1 p -> (forall x, reads p (E x) x) ->
  reads (rep (N.of_nat (length l)) p) (many E l) l.
Proof.
  intros G R. induction l as [|x l IH]; intros e t.
  - intros ->. apply rep_0.
  - intros (a & b & -> & Ha & Hb). cbn [length].
    replace (N.of_nat (S (length l))) with (N.of_nat (length l) + 1) by lia.
    rewrite <- app_assoc. erewrite rep_S; [|exact G|apply R; exact Ha].
    rewrite IH by auto. reflexivity.
Qed.

Lemma reads_array {A} (p : parser A) (E : A -> lang) l :
  good 1 p -> (forall x, reads p (E x) x) ->
  reads (n <- compact_parse ;; rep n p) (l_array E l) l.
Proof. intros. eapply reads_bind; [apply reads_compact|]. apply reads_rep; auto. Qed.

Lemma reads_exguid_array l : reads exguid_parse_array (l_array l_exguid l) l.
Proof. apply reads_array; auto with gdb rdb. Qed.
Lemma reads_cellid_array l : reads cellid_parse_array (l_array l_cellid l) l.
Proof. apply reads_array; auto with gdb rdb. Qed.
Lemma reads_blob l : reads binary_item_parse (l_blob l) l.
Proof.
  eapply reads_bind; [apply reads_compact|]. intros e t ->. apply read_app.
Qed.
#[export] Hint Resolve reads_exguid_array reads_cellid_array reads_blob : rdb.

(** Headers: the value read is some header of the type. *)
Lemma h16_reads t e r : h16 t e -> exists h, oh_type h = t /\ header_parse_16 (e ++ r) = Ok (h, r).
Proof. intros (c & n & H). exists (OHeader c t n). split; auto. apply header16_roundtrip; auto. Qed.
Lemma h32_reads t e r : h32 t e -> exists h, oh_type h = t /\ header_parse_32 (e ++ r) = Ok (h, r).
Proof. intros (c & n & H). exists (OHeader c t n). split; auto. apply header32_roundtrip; auto. Qed.
Lemma h_any_reads t e r : h_any t e -> exists h, oh_type h = t /\ header_parse (e ++ r) = Ok (h, r).
Proof.
  intros [(c & n & H)|(c & n & H)]; exists (OHeader c t n); split; auto; apply header_roundtrip; auto.
Qed.

Lemma reads_h16 {B} t (f : oheader -> parser B) L b :
  (forall h, oh_type h = t -> reads (f h) L b) -> reads (pbind header_parse_16 f) (h16 t +++ L) b.
Proof.
  intros Hf e r (x & y & -> & Hx & Hy). rewrite <- app_assoc. unfold pbind.
  destruct (h16_reads t x (y ++ r) Hx) as (h & Ht & ->). apply Hf; auto.
Qed.
Lemma reads_h_any {B} t (f : oheader -> parser B) L b :
  (forall h, oh_type h = t -> reads (f h) L b) -> reads (pbind header_parse f) (h_any t +++ L) b.
Proof.
  intros Hf e r (x & y & -> & Hx & Hy). rewrite <- app_assoc. unfold pbind.
  destruct (h_any_reads t x (y ++ r) Hx) as (h & Ht & ->). apply Hf; auto.
Qed.

Lemma reads_try_16 t : reads (try_parse_16 t) (h16 t) tt.
Proof.
  intros e r H. apply try_start_iff. destruct (h16_reads t e r H) as (h & ? & ?); eauto.
Qed.
Lemma reads_try_32 t : reads (try_parse_32 t) (h32 t) tt.
Proof.
  intros e r H. apply try_start_iff. destruct (h32_reads t e r H) as (h & ? & ?); eauto.
Qed.
Lemma reads_try t : reads (try_parse t) (h_any t) tt.
Proof.
  intros e r H. apply try_start_iff. destruct (h_any_reads t e r H) as (h & ? & ?); eauto.
Qed.
Lemma reads_fin8 t : reads (try_parse_end_8 t) (fin8 t) tt.
Proof. intros e r H. apply try_end_iff. apply end8_roundtrip; auto. Qed.
Lemma reads_fin16 t : reads (try_parse_end_16 t) (fin16 t) tt.
Proof. intros e r H. apply try_end_iff. apply end16_roundtrip; auto. Qed.
#[export] Hint Resolve reads_try_16 reads_try_32 reads_try reads_fin8 reads_fin16 : rdb.

(** Items of an end-marked list begin with a start header, never an end marker. *)
Definition opens (L : lang) : Prop :=
  forall e, L e -> exists b r, e = b :: r /\ (b mod 4 = 0 \/ b mod 4 = 2).

Lemma opens_cat P Q : opens P -> opens (P +++ Q).
Proof. intros H e (a & b & -> & Ha & _). destruct (H a Ha) as (x & r & -> & D). exists x, (r ++ b). auto. Qed.
Lemma opens_h16 t : opens (h16 t).
Proof.
  intros e (c & n & [Ht Hn]). cbn [le_bytes]. eexists _, _; split; [reflexivity|].
  left. pose proof (flag_bound c). cpow. lia.
Qed.
Lemma opens_h32 t : opens (h32 t).
Proof.
  intros e (c & n & [Ht Hn|e' Ht He]); cbn [le_bytes app];
    (eexists _, _; split; [reflexivity|]; right; pose proof (flag_bound c); cpow; lia).
Qed.
Lemma opens_h_any t : opens (h_any t).
Proof. intros e [H|H]; [eapply opens_h16|eapply opens_h32]; eauto. Qed.

Lemma opens_not_end t b : b mod 4 = 0 \/ b mod 4 = 2 -> is_end_8 t b = false.
Proof.
  intro H. unfold is_end_8. rewrite land_mask_3.
  replace (b mod 4 =? 1) with false by lia. reflexivity.
Qed.

(** Loop ended by an 8-bit end marker. *)
Lemma reads_until {A S} t (body : S -> parser S) (E : A -> lang) (step : S -> A -> S) l s :
  (forall s, good 1 (body s)) -> (forall x, opens (E x)) ->
  (forall s x, reads (body s) (E x) (step s x)) ->
  reads (until_end_8 t body s) (many E l +++ fin8 t) (fold_left step l s).
Proof.
  intros G O R. revert s. induction l as [|x l IH]; intros s e r (a & b & -> & Ha & Hb).
  - cbn in Ha. rewrite Ha. cbn [app fold_left].
    pose proof (reads_fin8 t b r Hb) as F.
    destruct (is_end_8_enc t b r Hb) as (c & Ec & Hc). rewrite Ec in *.
    unfold until_end_8. apply until_stop; auto.
  - destruct Ha as (y & z & -> & Hy & Hz). cbn [fold_left].
    rewrite <- !app_assoc.
    pose proof (R s x y (z ++ b ++ r) Hy) as B.
    destruct (O x y Hy) as (c & w & -> & D). cbn [app] in *.
    unfold until_end_8. erewrite until_step; [|auto with gdb|exact G|now apply opens_not_end|exact B].
    change (until _ _ body (step s x) (z ++ b ++ r)) with (until_end_8 t body (step s x) (z ++ b ++ r)).
    rewrite app_assoc. apply IH. exists z, b. auto.
Qed.

Ltac rd := lazymatch goal with
  | |- reads (pbind header_parse_16 _) (h16 _ +++ _) _ =>
      apply reads_h16; intros ? ->; cbv beta iota; rd
  | |- reads (pbind header_parse _) (h_any _ +++ _) _ =>
      apply reads_h_any; intros ? ->; cbv beta iota; rd
  | |- reads (pbind _ _) (_ +++ _) _ =>
      eapply reads_bind; [solve [eauto 2 with rdb nocore]|cbv beta; rd]
  | |- reads (pbind _ _) _ _ =>
      eapply reads_last_f; [solve [eauto 2 with rdb nocore]|reflexivity]
  | |- _ => solve [eauto 2 with rdb nocore]
  end.

Lemma cat_assoc P Q R e : ((P +++ Q) +++ R) e <-> (P +++ Q +++ R) e.
Proof.
  split.
  - intros (a & b & -> & (c & d & -> & H1 & H2) & H3). exists c, (d ++ b).
    rewrite app_assoc. repeat split; auto. exists d, b; auto.
  - intros (a & b & -> & H1 & (c & d & -> & H2 & H3)). exists (a ++ c), d.
    rewrite app_assoc. repeat split; auto. exists a, c; auto.
Qed.

Lemma reads_equiv {A} (p : parser A) (L L' : lang) x : (forall e, L' e -> L e) -> reads p L x -> reads p L' x.
Proof. intros H R e t He. apply R; auto. Qed.

(** ** Items *)
Definition index_step (s : storage_index) (i : index_item) : storage_index :=
  match i with
  | IxManifest m n => StorageIndex (si_manifests s ++ [(m, n)]) (si_cells s) (si_revs s)
  | IxCell c m n =>
    StorageIndex (si_manifests s) (ainsert cellid_eqb c (CellMapping c m n) (si_cells s)) (si_revs s)
  | IxRevision r m n =>
    StorageIndex (si_manifests s) (si_cells s) (ainsert exguid_eqb r (RevMapping m n) (si_revs s))
  end.

Lemma reads_manifest_mapping m s :
  reads manifest_mapping_parse (l_exguid m +++ l_serial s) (m, s).
Proof. unfold manifest_mapping_parse. rd. Qed.
Lemma reads_cell_mapping c m s :
  reads cell_mapping_parse (l_cellid c +++ l_exguid m +++ l_serial s) (c, CellMapping c m s).
Proof. unfold cell_mapping_parse. rd. Qed.
Lemma reads_rev_mapping r m s :
  reads rev_mapping_parse (l_exguid r +++ l_exguid m +++ l_serial s) (r, RevMapping m s).
Proof. unfold rev_mapping_parse. rd. Qed.
#[export] Hint Resolve reads_manifest_mapping reads_cell_mapping reads_rev_mapping : rdb.

Lemma reads_index_item s i : reads (storage_index_item s) (l_index_item i) (index_step s i).
Proof.
  unfold storage_index_item. destruct i; cbn [l_index_item index_step];
    (apply reads_h16; intros ? ->; cbv beta iota);
    (eapply reads_last_f; [solve [eauto 2 with rdb nocore]|reflexivity]).
Qed.

Lemma opens_index_item i : opens (l_index_item i).
Proof. destruct i; apply opens_cat, opens_h16. Qed.

Lemma reads_storage_index l :
  reads storage_index_parse (many l_index_item l +++ fin8 DataElement)
    (fold_left index_step l storage_index_empty).
Proof.
  apply reads_until; auto using reads_index_item, opens_index_item with gdb.
Qed.

Lemma reads_storage_manifest g l :
  reads storage_manifest_parse ((h16 StorageManifest +++ l_guid g +++ many l_root l) +++ fin8 DataElement)
    (StorageManifestV g (fold_left (fun m e => ainsert exguid_eqb (fst e) (snd e) m) l [])).
Proof.
  apply reads_equiv with
    (L := h16 StorageManifest +++ l_guid g +++ many l_root l +++ fin8 DataElement).
  { intros e H. apply cat_assoc in H. destruct H as (a & b & -> & Ha & Hb).
    apply cat_assoc in Hb. exists a, b. split; [reflexivity|split; [exact Ha|exact Hb]]. }
  unfold storage_manifest_parse. eapply reads_bind; [auto with rdb|]. cbv beta.
  eapply reads_bind; [auto with rdb|].
  eapply reads_last_f; [|reflexivity].
  apply reads_until with (E := l_root); [auto with gdb| |].
  - intro x. apply opens_cat, opens_h16.
  - intros s [r c]. unfold storage_manifest_item. cbn [fst snd].
    change (l_root (r, c)) with (h16 StorageManifestRoot +++ l_exguid r +++ l_cellid c). rd.
Qed.

Definition rev_step (s : list (exguid * exguid) * list exguid) (i : rev_item) :=
  match i with
  | RvRoot r o => (fst s ++ [(r, o)], snd s)
  | RvGroup g => (fst s, snd s ++ [g])
  end.

Lemma reads_root_declare r o : reads root_declare_parse (l_exguid r +++ l_exguid o) (r, o).
Proof. unfold root_declare_parse. rd. Qed.
#[export] Hint Resolve reads_root_declare : rdb.

Lemma reads_revision_manifest r b l :
  reads revision_manifest_parse
    ((h16 RevisionManifest +++ l_exguid r +++ l_exguid b +++ many l_rev_item l) +++ fin8 DataElement)
    (let s := fold_left rev_step l ([], []) in RevManifest r b (fst s) (snd s)).
Proof.
  apply reads_equiv with
    (L := h16 RevisionManifest +++ l_exguid r +++ l_exguid b +++ many l_rev_item l
          +++ fin8 DataElement).
  { intros e H. apply cat_assoc in H. destruct H as (a & x & -> & Ha & Hb).
    apply cat_assoc in Hb. destruct Hb as (a2 & x2 & -> & Ha2 & Hb).
    apply cat_assoc in Hb. exists a, (a2 ++ x2). split; [reflexivity|split; [exact Ha|]].
    exists a2, x2. split; [reflexivity|split; [exact Ha2|exact Hb]]. }
  unfold revision_manifest_parse. do 3 (eapply reads_bind; [auto with rdb|]; cbv beta).
  eapply reads_last_f; [|reflexivity].
  apply reads_until with (E := l_rev_item); [auto with gdb| |].
  - intros []; apply opens_cat, opens_h16.
  - intros s i. unfold revision_manifest_item. destruct i; cbn [l_rev_item rev_step];
      (apply reads_h16; intros ? ->; cbv beta iota);
      (eapply reads_last_f; [solve [eauto 2 with rdb nocore]|reflexivity]).
Qed.

Lemma reads_cell_manifest r :
  reads cell_manifest_parse ((h16 CellManifest +++ l_exguid r) +++ fin8 DataElement) r.
Proof.
  apply (reads_equiv _ (h16 CellManifest +++ l_exguid r +++ fin8 DataElement));
    [intro e; apply cat_assoc|]. unfold cell_manifest_parse. rd.
Qed.

Lemma reads_object_blob b :
  reads blob_parse ((h_any ObjectDataBlob +++ l_blob b) +++ fin8 DataElement) b.
Proof.
  apply (reads_equiv _ (h_any ObjectDataBlob +++ l_blob b +++ fin8 DataElement));
    [intro e; apply cat_assoc|]. unfold blob_parse. rd.
Qed.

Lemma reads_odecl s d : reads (odecl_item s) (l_decl d) (s ++ [d]).
Proof.
  unfold odecl_item. destruct d; cbn [l_decl];
    (apply reads_h_any; intros ? ->; cbv beta iota); rd.
Qed.
Lemma opens_decl d : opens (l_decl d).
Proof. destruct d; apply opens_cat, opens_h_any. Qed.

Lemma reads_odata_item s d : reads (odata_item s) (l_data d) (s ++ [d]).
Proof.
  unfold odata_item. destruct d; cbn [l_data];
    (apply reads_h_any; intros ? ->; cbv beta iota); rd.
Qed.
Lemma opens_data d : opens (l_data d).
Proof. destruct d; apply opens_cat, opens_h_any. Qed.

Lemma fold_snoc {A} (l s : list A) : fold_left (fun s d => s ++ [d]) l s = s ++ l.
Proof.
  revert s; induction l as [|x l IH]; intro s; cbn; [now rewrite app_nil_r|].
  rewrite IH, <- app_assoc. reflexivity.
Qed.

Lemma reads_odecls l :
  reads odecls_parse (h_any ObjectGroupDeclaration +++ many l_decl l +++ fin8 ObjectGroupDeclaration) l.
Proof.
  eapply reads_bind; [auto with rdb|].
  replace l with (fold_left (fun s d => s ++ [d]) l []) at 2 by apply (fold_snoc l []).
  apply reads_until; auto using reads_odecl, opens_decl with gdb.
Qed.

Lemma reads_odata l :
  reads odata_parse (many l_data l +++ fin8 ObjectGroupData) l.
Proof.
  replace l with (fold_left (fun s d => s ++ [d]) l []) at 2 by apply (fold_snoc l []).
  apply reads_until; auto using reads_odata_item, opens_data with gdb.
Qed.
#[export] Hint Resolve reads_odecls reads_odata : rdb.

Lemma reads_object_group d o :
  reads object_group_parse (l_group d o +++ fin8 DataElement) (ObjectGroup d [] o).
Proof.
  apply reads_equiv with
    (L := (h_any ObjectGroupDeclaration +++ many l_decl d +++ fin8 ObjectGroupDeclaration)
          +++ h_any ObjectGroupData +++ (many l_data o +++ fin8 ObjectGroupData) +++ fin8 DataElement).
  { unfold l_group. intros e H. apply cat_assoc in H. destruct H as (a & x & -> & Ha & H).
    apply cat_assoc in H. destruct H as (a2 & x2 & -> & Ha2 & H).
    apply cat_assoc in H. destruct H as (a3 & x3 & -> & Ha3 & H).
    apply cat_assoc in H. destruct H as (a4 & x4 & -> & Ha4 & H).
    exists (a ++ a2 ++ a3), (a4 ++ x4). split; [now rewrite <- !app_assoc|]. split.
    - exists a, (a2 ++ a3); split; auto; split; auto. exists a2, a3; auto.
    - exists a4, x4. auto. }
  unfold object_group_parse. eapply reads_bind; [auto with rdb|].
  apply reads_h_any; intros ? ->; cbv beta iota.
  eapply reads_equiv with (L := eps +++ _ +++ _).
  { intros e H. exists [], e. split; [reflexivity|]. split; [reflexivity|exact H]. }
  eapply reads_bind; [apply reads_eps|]. rd.
Qed.

(** ** Maps *)
Lemma exguid_eqb_eq a b : exguid_eqb a b = true <-> a = b.
Proof.
  destruct a as [g v], b as [g' v']; unfold exguid_eqb; cbn.
  rewrite andb_true_iff, !N.eqb_eq. split; [intros [-> ->]; auto|intro H; injection H; auto].
Qed.
Lemma cellid_eqb_eq a b : cellid_eqb a b = true <-> a = b.
Proof.
  destruct a as [g v], b as [g' v']; unfold cellid_eqb; cbn.
  rewrite andb_true_iff, !exguid_eqb_eq. split; [intros [-> ->]; auto|intro H; injection H; auto].
Qed.

Section Maps.
  Context {K V : Type} (eqb : K -> K -> bool) (eqb_eq : forall a b, eqb a b = true <-> a = b).
  Lemma alookup_app k (m m' : amap K V) :
    alookup eqb k (m ++ m') = match alookup eqb k m with Some v => Some v | None => alookup eqb k m' end.
  Proof. induction m as [|[a b] m IH]; cbn; auto. destruct (eqb k a); auto. Qed.
  Lemma alookup_filter_ne k k' (m : amap K V) :
    alookup eqb k (filter (fun e => negb (eqb k' (fst e))) m)
    = if eqb k' k then None else alookup eqb k m.
  Proof.
    induction m as [|[a b] m IH]; cbn; [destruct (eqb k' k); auto|].
    destruct (eqb k' a) eqn:E1; cbn.
    - rewrite IH. destruct (eqb k' k) eqn:E2; auto.
      destruct (eqb k a) eqn:E3; auto.
      apply eqb_eq in E1, E3. subst. rewrite (proj2 (eqb_eq a a) eq_refl) in E2. discriminate.
    - destruct (eqb k a) eqn:E3; [|exact IH].
      destruct (eqb k' k) eqn:E2; auto.
      apply eqb_eq in E2, E3. assert (eqb k' a = true) by (apply eqb_eq; congruence). congruence.
  Qed.
  Lemma alookup_insert k k' v (m : amap K V) :
    alookup eqb k (ainsert eqb k' v m) = if eqb k' k then Some v else alookup eqb k m.
  Proof.
    unfold ainsert. rewrite alookup_app, alookup_filter_ne. cbn.
    destruct (eqb k' k) eqn:E.
    - apply eqb_eq in E. subst. now rewrite (proj2 (eqb_eq k k) eq_refl).
    - destruct (alookup eqb k m); auto. destruct (eqb k k') eqn:E2; auto.
      apply eqb_eq in E2. subst. rewrite (proj2 (eqb_eq k' k') eq_refl) in E. discriminate.
  Qed.
  (** Inserting a list gives the last binding. *)
  Lemma alookup_fold {A} (kv : A -> option (K * V)) l (m : amap K V) k :
    alookup eqb k (fold_left (fun m x => match kv x with Some e => ainsert eqb (fst e) (snd e) m | None => m end) l m)
    = match last_for (fun x => match kv x with
                               | Some e => if eqb (fst e) k then Some (snd e) else None
                               | None => None end) l with
      | Some v => Some v | None => alookup eqb k m end.
  Proof.
    revert m; induction l as [|x l IH]; intro m; cbn; auto.
    rewrite IH. destruct (last_for _ l); auto.
    destruct (kv x) as [[k' v']|]; auto. cbn. rewrite alookup_insert. destruct (eqb k' k); auto.
  Qed.
End Maps.

Lemma last_for_ext {A B} (f g : A -> option B) l : (forall x, f x = g x) -> last_for f l = last_for g l.
Proof. intro H; induction l as [|x l IH]; cbn; auto. rewrite IH, H. reflexivity. Qed.

Lemma fold_proj {A S T} (f : S -> A -> S) (g : T -> A -> T) (pi : S -> T) l s :
  (forall s x, pi (f s x) = g (pi s) x) -> pi (fold_left f l s) = fold_left g l (pi s).
Proof. intro H. revert s; induction l as [|x l IH]; intro s; cbn; auto. rewrite IH, H. reflexivity. Qed.

Lemma fold_flat_map {A B} (f : A -> list B) l s :
  fold_left (fun s x => s ++ f x) l s = s ++ flat_map f l.
Proof.
  revert s; induction l as [|x l IH]; intro s; cbn; [now rewrite app_nil_r|].
  rewrite IH, <- app_assoc. reflexivity.
Qed.

Lemma index_means_fold l : index_means l (fold_left index_step l storage_index_empty).
Proof.
  split; [|split].
  - rewrite (fold_proj index_step
      (fun s i => s ++ match i with IxManifest m n => [(m, n)] | _ => [] end) si_manifests).
    + apply (fold_flat_map _ l []).
    + intros s []; cbn; now rewrite ?app_nil_r.
  - intro c. rewrite (fold_proj index_step
      (fun m i => match (match i with IxCell c m n => Some (c, CellMapping c m n) | _ => None end) with
                  | Some e => ainsert cellid_eqb (fst e) (snd e) m | None => m end) si_cells).
    + rewrite (alookup_fold cellid_eqb cellid_eqb_eq).
      rewrite (last_for_ext _ (fun i => match i with
                       | IxCell c' m s => if cellid_eqb c' c then Some (CellMapping c' m s) else None
                       | _ => None end)).
      * destruct (last_for _ l); reflexivity.
      * intros []; reflexivity.
    + intros s []; reflexivity.
  - intro c. rewrite (fold_proj index_step
      (fun m i => match (match i with IxRevision c m n => Some (c, RevMapping m n) | _ => None end) with
                  | Some e => ainsert exguid_eqb (fst e) (snd e) m | None => m end) si_revs).
    + rewrite (alookup_fold exguid_eqb exguid_eqb_eq).
      rewrite (last_for_ext _ (fun i => match i with
                       | IxRevision r' m s => if exguid_eqb r' c then Some (RevMapping m s) else None
                       | _ => None end)).
      * destruct (last_for _ l); reflexivity.
      * intros []; reflexivity.
    + intros s []; reflexivity.
Qed.

Lemma manifest_means_fold g l :
  manifest_means g l
    (StorageManifestV g (fold_left (fun m e => ainsert exguid_eqb (fst e) (snd e) m) l [])).
Proof.
  split; [reflexivity|]. intro r. cbn [sm_roots].
  pose proof (alookup_fold exguid_eqb exguid_eqb_eq (fun e : exguid * cellid => Some e) l [] r) as H.
  cbn in H. rewrite H. destruct (last_for _ l); reflexivity.
Qed.

Lemma revision_means_fold r b l :
  revision_means r b l (let s := fold_left rev_step l ([], []) in RevManifest r b (fst s) (snd s)).
Proof.
  unfold revision_means. cbv zeta. f_equal.
  - rewrite (fold_proj rev_step
      (fun s i => s ++ match i with RvRoot r o => [(r, o)] | _ => [] end) fst).
    + apply (fold_flat_map _ l []).
    + intros s []; cbn; now rewrite ?app_nil_r.
  - rewrite (fold_proj rev_step
      (fun s i => s ++ match i with RvGroup g => [g] | _ => [] end) snd).
    + apply (fold_flat_map _ l []).
    + intros s []; cbn; now rewrite ?app_nil_r.
Qed.

(** ** Elements *)
Definition elem_step (p : package) (x : elem) : package :=
  let '(Package si sm ce re og fr bl) := p in
  let id := el_id x in
  match el_content x with
  | ElIndex l => Package (ins id (fold_left index_step l storage_index_empty) si) sm ce re og fr bl
  | ElManifest g l =>
    Package si (ins id (StorageManifestV g (fold_left (fun m e => ainsert exguid_eqb (fst e) (snd e) m) l [])) sm)
      ce re og fr bl
  | ElCell c => Package si sm (ins id c ce) re og fr bl
  | ElRevision r b l =>
    Package si sm ce
      (ins id (let s := fold_left rev_step l ([], []) in RevManifest r b (fst s) (snd s)) re) og fr bl
  | ElGroup d o => Package si sm ce re (ins id (ObjectGroup d [] o) og) fr bl
  | ElBlob b => Package si sm ce re og fr (ins id b bl)
  end.

Lemma reads_body id x p :
  reads (element_body id (kind x) p) (l_body x +++ fin8 DataElement) (elem_step p (Elem id (Serial 0 0) x)).
Proof.
  destruct p. destruct x; cbn [kind l_body elem_step el_content el_id element_body];
    repeat (first [apply reads_if_true; [reflexivity|] | apply reads_if_false; [reflexivity|]]);
    (eapply reads_last_f; [|reflexivity]);
    auto using reads_storage_index, reads_storage_manifest, reads_cell_manifest,
      reads_revision_manifest, reads_object_group, reads_object_blob.
Qed.

Lemma reads_elem p x : reads (element_parse p) (l_elem x) (elem_step p x).
Proof.
  destruct x as [id s x]. unfold element_parse, l_elem. cbn [el_id el_serial el_content].
  do 4 (eapply reads_bind; [auto with rdb|]; cbv beta).
  replace (elem_step p (Elem id s x)) with (elem_step p (Elem id (Serial 0 0) x)) by (destruct p; reflexivity).
  apply reads_body.
Qed.

Lemma opens_elem x : opens (l_elem x).
Proof. apply opens_cat, opens_h16. Qed.

Lemma reads_u8_lit b : reads get_u8 (lit [b]) b.
Proof. intros e t ->. apply get_u8_cons. Qed.

Lemma reads_package els :
  reads package_parse (l_package els) (fold_left elem_step els package_empty).
Proof.
  unfold package_parse, l_package. eapply reads_bind; [auto with rdb|]. cbv beta.
  eapply reads_bind; [apply reads_u8_lit|]. cbv beta.
  apply reads_if_false; [reflexivity|].
  apply reads_until; auto using reads_elem, opens_elem with gdb.
Qed.

Lemma opt_last {A B C} (R : B -> C -> Prop) (sel : A -> option B) (sel' : A -> option C) l :
  (forall x, opt_rel R (sel x) (sel' x)) -> opt_rel R (last_for sel l) (last_for sel' l).
Proof.
  intro H; induction l as [|x l IH]; cbn; [exact I|].
  destruct (last_for sel l), (last_for sel' l); cbn in *; try contradiction; auto.
Qed.

(** Lookup in one of the maps of the final package. *)
Lemma package_lookup {V} (pi : package -> amap exguid V) (val : element -> option V) els id :
  pi package_empty = [] ->
  (forall p x, pi (elem_step p x) =
     match val (el_content x) with Some v => ins (el_id x) v (pi p) | None => pi p end) ->
  alookup exguid_eqb id (pi (fold_left elem_step els package_empty)) =
  last_for (of_elem val id) els.
Proof.
  intros H0 H.
  rewrite (fold_proj elem_step
    (fun m x => match (match val (el_content x) with Some v => Some (el_id x, v) | None => None end) with
                | Some e => ainsert exguid_eqb (fst e) (snd e) m | None => m end) pi).
  - rewrite (alookup_fold exguid_eqb exguid_eqb_eq), H0.
    rewrite (last_for_ext _ (of_elem val id)).
    + destruct (last_for _ els); reflexivity.
    + intro x. unfold of_elem. destruct (val (el_content x)); cbn; auto.
      destruct (exguid_eqb _ _); auto.
  - intros p x. rewrite H. destruct (val _); reflexivity.
Qed.

Lemma package_means_fold els : package_means els (fold_left elem_step els package_empty).
Proof.
  assert (F : pk_fragments (fold_left elem_step els package_empty) = []).
  { rewrite (fold_proj elem_step (fun m _ => m) pk_fragments).
    - cbn. induction els; auto.
    - intros [] [? ? []]; reflexivity. }
  unfold package_means. refine (conj (fun id => _) (conj (fun id => _) (conj (fun id => _) (conj (fun id => _)
    (conj (fun id => _) (conj (fun id => _) F)))))).
  - rewrite (package_lookup pk_indexes
      (fun x => match x with ElIndex l => Some (fold_left index_step l storage_index_empty) | _ => None end));
      [|reflexivity|intros [] [? ? []]; reflexivity].
    apply opt_last. intros [i s x]. unfold of_elem. cbn. destruct (exguid_eqb i id), x; cbn; auto.
    apply index_means_fold.
  - rewrite (package_lookup pk_manifests
      (fun x => match x with ElManifest g l => Some (StorageManifestV g (fold_left (fun m e => ainsert exguid_eqb (fst e) (snd e) m) l [])) | _ => None end));
      [|reflexivity|intros [] [? ? []]; reflexivity].
    apply opt_last. intros [i s x]. unfold of_elem. cbn. destruct (exguid_eqb i id), x; cbn; auto.
    apply manifest_means_fold.
  - symmetry. apply package_lookup; [reflexivity|intros [] [? ? []]; reflexivity].
  - rewrite (package_lookup pk_revisions
      (fun x => match x with ElRevision r b l => Some (let s := fold_left rev_step l ([], []) in RevManifest r b (fst s) (snd s)) | _ => None end));
      [|reflexivity|intros [] [? ? []]; reflexivity].
    apply opt_last. intros [i s x]. unfold of_elem. cbn. destruct (exguid_eqb i id), x; cbn; auto.
    apply revision_means_fold.
  - rewrite (package_lookup pk_groups
      (fun x => match x with ElGroup d o => Some (ObjectGroup d [] o) | _ => None end));
      [|reflexivity|intros [] [? ? []]; reflexivity].
    apply opt_last. intros [i s x]. unfold of_elem. cbn. destruct (exguid_eqb i id), x; cbn; auto.
  - symmetry. apply package_lookup; [reflexivity|intros [] [? ? []]; reflexivity].
Qed.

Lemma package_roundtrip els e t :
  l_package els e ->
  exists pk, package_parse (e ++ t) = Ok (pk, t) /\ package_means els pk.
Proof.
  intro H. eexists. split; [apply reads_package; exact H|apply package_means_fold].
Qed.

(** ** File layouts *)
Lemma reads_content a b c d index schema els :
  reads (parse_legacy a b c d) (l_content index schema els)
    (Packaging a b c d index schema (fold_left elem_step els package_empty)).
Proof.
  unfold parse_legacy, l_content.
  eapply reads_bind; [apply (reads_uint 4)|]. cbv beta. apply reads_if_false; [reflexivity|].
  do 3 (eapply reads_bind; [auto with rdb|]; cbv beta).
  eapply reads_bind; [apply reads_package|]. rd.
Qed.

Lemma reads_guids {A} (f : guid -> guid -> guid -> guid -> parser A) a b c d L x :
  reads (f a b c d) L x ->
  reads (w <- guid_parse ;; y <- guid_parse ;; z <- guid_parse ;; v <- guid_parse ;; f w y z v)
    (l_guids a b c d +++ L) x.
Proof.
  intro H. unfold l_guids. eapply reads_equiv with (L := l_guid a +++ l_guid b +++ l_guid c +++ l_guid d +++ L).
  - intros e E. apply cat_assoc in E. destruct E as (a1 & x1 & -> & H1 & E).
    apply cat_assoc in E. destruct E as (a2 & x2 & -> & H2 & E).
    apply cat_assoc in E. destruct E as (a3 & x3 & -> & H3 & E).
    exists a1, (a2 ++ a3 ++ x3). split; auto. split; auto.
    exists a2, (a3 ++ x3). split; auto. split; auto. exists a3, x3. auto.
  - do 4 (eapply reads_bind; [auto with rdb|]; cbv beta). exact H.
Qed.

Lemma plain_reads ft f lv ff index schema els e t :
  ff = package_store_format \/ (ff = revision_store_format /\ lv <> 0) ->
  l_plain ft f lv ff index schema els e ->
  packaging_parse (e ++ t) =
    Ok (Packaging ft f lv ff index schema (fold_left elem_step els package_empty), t).
Proof.
  intros D H. rewrite packaging_parse_eq. revert e t H.
  change (reads packaging_parse' (l_plain ft f lv ff index schema els)
    (Packaging ft f lv ff index schema (fold_left elem_step els package_empty))).
  unfold l_plain, packaging_parse'.
  eapply (reads_guids (fun file_type file legacy_version file_format => _)).
  destruct D as [->|[-> Hlv]].
  - apply reads_content.
  - apply reads_if_false; [reflexivity|]. apply reads_if_false; [reflexivity|].
    apply reads_if_true; [|apply reads_content].
    unfold guid_is_nil, guid_nil. lia.
Qed.

Lemma reads_version : reads version_check l_version tt.
Proof.
  intros e t [H|H]; unfold version_check, pbind, get_u32;
    change 4 with (N.of_nat 4); rewrite (reads_uint 4 _ e t H); reflexivity.
Qed.
#[export] Hint Resolve reads_version : rdb.

(** Skipped fields. *)
Lemma skip_field {A} n (f : N -> parser A) m L x :
  (forall v, reads (f v) (l_any m +++ L) x) ->
  reads (pbind (get_le (N.of_nat n)) f) (l_any (n + m) +++ L) x.
Proof.
  intros H e t (a & b & -> & Ha & Hb). unfold l_any in Ha.
  rewrite <- (firstn_skipn n a), <- !app_assoc. unfold pbind.
  assert (L1 : length (firstn n a) = n) by (rewrite firstn_length; lia).
  rewrite get_le_app by (now rewrite L1).
  rewrite app_assoc. apply H. exists (skipn n a), b. split; [reflexivity|]. split; auto.
  unfold l_any. rewrite skipn_length. lia.
Qed.

Lemma skip_guid {A} (f : N -> parser A) m L x :
  (forall v, reads (f v) (l_any m +++ L) x) ->
  reads (pbind guid_parse f) (l_any (16 + m) +++ L) x.
Proof.
  intros H e t (a & b & -> & Ha & Hb). unfold l_any in Ha.
  rewrite <- (firstn_skipn 16 a), <- !app_assoc.
  assert (L1 : length (firstn 16 a) = 16%nat) by (rewrite firstn_length; lia).
  unfold guid_parse, get_u128, pbind at 1 2. rewrite (get_le_app 16) by (now rewrite L1).
  unfold pret. rewrite app_assoc. apply H.
  exists (skipn 16 a), b. split; [reflexivity|]. split; auto.
  unfold l_any. rewrite skipn_length. lia.
Qed.

Lemma skip_done {A} (p : parser A) L x : reads p L x -> reads p (l_any 0 +++ L) x.
Proof.
  intros H e t (a & b & -> & Ha & Hb). unfold l_any in Ha. destruct a; [|discriminate]. apply H; auto.
Qed.

Lemma reads_header stp cb : reads revision_store_header (l_file_header stp cb) (stp, cb).
Proof.
  unfold revision_store_header, l_file_header, get_u64, get_u32, get_u8.
  repeat first [eapply reads_bind; [exact reads_version|]; cbv beta]. 
  apply (skip_field 8 _ 72); intro. apply (skip_field 8 _ 64); intro.
  apply (skip_field 4 _ 60); intro. apply (skip_field 4 _ 56); intro.
  apply (skip_field 8 _ 48); intro. apply (skip_field 8 _ 40); intro.
  apply (skip_field 4 _ 36); intro. apply (skip_field 1 _ 35); intro.
  apply (skip_field 1 _ 34); intro. apply (skip_field 1 _ 33); intro.
  apply (skip_field 1 _ 32); intro. apply (skip_guid _ 16); intro.
  apply (skip_field 4 _ 12); intro.
  unfold fcr64x32_parse at 1. unfold pbind at 1.
  eapply reads_equiv with (L := l_any 12 +++ (l_uint 8 stp +++ l_uint 4 cb)); [auto|].
  intros e t E.
  assert (S : reads (s <- get_le 8 ;; c <- get_le 4 ;; fcr64x32_parse) (l_any 12 +++ (l_uint 8 stp +++ l_uint 4 cb)) (stp, cb)).
  { apply (skip_field 8 _ 4); intro. apply (skip_field 4 _ 0); intro. apply skip_done.
    unfold fcr64x32_parse. eapply reads_bind; [apply (reads_uint 8)|]. cbv beta.
    eapply reads_last_f; [apply (reads_uint 4)|reflexivity]. }
  specialize (S e t E). unfold pbind in S. unfold pbind, pret, get_u64, get_u32.
  destruct (get_le 8 (e ++ t)) as [[]| | |]; auto. destruct (get_le 4 l) as [[]| | |]; auto.
Qed.

Lemma reads_advance n : reads (advance n) (l_any (N.to_nat n)) tt.
Proof.
  intros e t H. unfold l_any in H. pose proof (read_app e t) as R. unfold read, advance in *.
  rewrite H, N2Nat.id in R. destruct (_ <? n); [discriminate|]. congruence.
Qed.

Lemma header_reads h1 h2 stp cb ft f lv ff index schema els e t :
  l_with_header h1 h2 stp cb ft f lv ff index schema els e ->
  packaging_parse (e ++ t) =
    Ok (Packaging ft f lv ff index schema (fold_left elem_step els package_empty), t).
Proof.
  intros [B H]. rewrite packaging_parse_eq. revert e t H.
  change (reads packaging_parse'
    (l_guids h1 h2 0 0x109ADD3F911B49F5A5D01791EDC8AED8 +++ l_file_header stp cb
     +++ l_any (N.to_nat (stp + cb - 172)) +++ l_guids ft f lv ff
     +++ l_content index schema els)
    (Packaging ft f lv ff index schema (fold_left elem_step els package_empty))).
  unfold packaging_parse'.
  eapply (reads_guids (fun file_type file legacy_version file_format => _)).
  apply reads_if_false; [reflexivity|]. apply reads_if_false; [reflexivity|].
  apply reads_if_false; [reflexivity|].
  eapply reads_bind; [apply reads_header|]. cbv beta.
  assert (O : log_offset (stp, cb) 172 = Ok (stp + cb - 172)).
  { unfold log_offset, fcr_end, rbind. cbn [fst snd].
    replace (stp + cb <? 2 ^ 64) with true by lia. replace (stp + cb <? 172) with false by lia.
    reflexivity. }
  intros e t H. unfold pbind at 1. unfold plift, rbind. rewrite O. revert e t H.
  match goal with |- forall e t, ?L e -> ?p (e ++ t) = Ok (?x, t) => change (reads p L x) end.
  eapply reads_bind; [apply reads_advance|]. cbv beta.
  apply (reads_guids parse_legacy). apply reads_content.
Qed.
