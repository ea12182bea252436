(** Size bounds, metadata blocks and fragments. *)
From Coq Require Import Lia ZifyBool ZifyNat ZifyN.
From Verif Require Import Base BaseProofs Codec SpecCodec CodecProofs CodecRT CodecRT2
  Package PackageProofs SpecPackage PackageRT.
Ltac Zify.zify_post_hook ::= Z.div_mod_to_equations.

(** ** Output size *)

(** A run of [p] yields a value whose measure is at most [c] plus the number of
    bytes consumed. *)
Definition sized {A} (m : A -> nat) (c : nat) (p : parser A) : Prop :=
  forall bs x rest, p bs = Ok (x, rest) -> (m x + length rest <= c + length bs)%nat.

Lemma sized_bind {A B} (mA : A -> nat) (mB : B -> nat) c d (p : parser A) (f : A -> parser B) :
  sized mA c p -> (forall a, sized mB (mA a + d) (f a)) -> sized mB (c + d) (pbind p f).
Proof.
  intros Hp Hf bs x rest H. unfold pbind in H.
  destruct (p bs) as [[a r]| | |] eqn:E; try discriminate.
  apply Hp in E. apply Hf in H. lia.
Qed.

(** Sequencing when the first result does not matter. *)
Lemma sized_skip {A B} k (mB : B -> nat) d (p : parser A) (f : A -> parser B) :
  good k p -> (forall a, sized mB (k + d) (f a)) -> sized mB d (pbind p f).
Proof.
  intros G Hf bs x rest H. unfold pbind in H.
  destruct (p bs) as [[a r]| | |] eqn:E; try discriminate.
  apply (exact_shrinks _ _ _ _ _ (gd_exact _ _ G)) in E. apply Hf in H. lia.
Qed.

Lemma sized_pret {A} (m : A -> nat) c a : (m a <= c)%nat -> sized m c (pret a).
Proof.
  intros H bs x rest E. unfold pret in E.
  assert (x = a) as -> by congruence. assert (rest = bs) as -> by congruence. lia.
Qed.

Lemma sized_pfail {A} (m : A -> nat) c e : sized m c (pfail e).
Proof. intros bs x rest E. discriminate. Qed.

Lemma sized_weaken {A} (m : A -> nat) c c' p : (c <= c')%nat -> sized m c p -> sized m c' p.
Proof. intros L H bs x rest E. apply H in E. lia. Qed.

Lemma sized_read n : sized (@length N) 0 (read n).
Proof.
  intros bs x rest E. unfold read in E. destruct (_ <? _); [discriminate|].
  assert (x = firstn (N.to_nat n) bs) as -> by congruence.
  assert (rest = skipn (N.to_nat n) bs) as -> by congruence.
  rewrite <- (app_length (firstn _ bs)), firstn_skipn. lia.
Qed.

Lemma sized_rep {A} (p : parser A) n : good 1 p -> sized (@length A) 0 (rep n p).
Proof.
  intros G bs. unfold rep. generalize (S (length bs)) as f. intro f. revert n bs.
  induction f as [|f IH]; intros n bs x rest; cbn [rep_fuel]; destruct (n =? 0);
    try (intro H; discriminate H);
    try (intro H; eapply (sized_pret (@length A) 0); [|exact H]; cbn; lia).
  unfold pbind. destruct (p bs) as [[a r]| | |] eqn:E; try (intro H; discriminate H).
  apply (exact_shrinks _ _ _ _ _ (gd_exact _ _ G)) in E.
  destruct (rep_fuel p f (n - 1) r) as [[xs r']| | |] eqn:E2; try (intro H; discriminate H).
  apply IH in E2. unfold pret. intro H. assert (x = a :: xs) as -> by congruence.
  assert (rest = r') as -> by congruence. cbn [length]. lia.
Qed.

Lemma sized_until {A} (m : A -> nat) fin fp (body : A -> parser A) s :
  good 1 fp -> (forall s, sized m (m s) (body s)) -> sized m (m s) (until fin fp body s).
Proof.
  intros G B bs. unfold until. generalize (S (length bs)) as f. intro f. revert s bs.
  induction f as [|f IH]; intros s bs x rest; cbn [until_fuel]; [intro H; discriminate H|].
  unfold with_peek. destruct (peek bs) as [b| | |]; try (intro H; discriminate H).
  destruct (fin b); unfold pbind.
  - destruct (fp bs) as [[[] r]| | |] eqn:E; try (intro H; discriminate H).
    apply (exact_shrinks _ _ _ _ _ (gd_exact _ _ G)) in E. unfold pret. intro H.
    assert (x = s) as -> by congruence. assert (rest = r) as -> by congruence. lia.
  - destruct (body s bs) as [[s' r]| | |] eqn:E; try (intro H; discriminate H).
    apply B in E. intro H. apply IH in H. lia.
Qed.

Lemma sized_until_end_8 {A} (m : A -> nat) t (body : A -> parser A) s :
  (forall s, sized m (m s) (body s)) -> sized m (m s) (until_end_8 t body s).
Proof. intro; apply sized_until; auto with gdb. Qed.

Lemma ainsert_length {K V} eqb (k : K) (v : V) m : (length (ainsert eqb k v m) <= S (length m))%nat.
Proof.
  unfold ainsert. rewrite app_length. cbn.
  assert (length (filter (fun e => negb (eqb k (fst e))) m) <= length m)%nat; [|lia].
  induction m as [|x m IH]; cbn; auto. destruct (negb _); cbn; lia.
Qed.

Lemma ainsert_total {K V} eqb (f : K * V -> nat) k v m :
  (total f (ainsert eqb k v m) <= total f m + f (k, v))%nat.
Proof.
  unfold ainsert, total. induction m as [|x m IH]; cbn; [lia|].
  destruct (negb _); cbn; lia.
Qed.

Lemma total_app {A} (f : A -> nat) a b : total f (a ++ b) = (total f a + total f b)%nat.
Proof. unfold total. induction a; cbn; lia. Qed.

(** Skip a parser whose value does not matter, crediting one byte. *)
Ltac sk := eapply (sized_skip 1); [solve [eauto 2 with gdb nocore]|intro].
Ltac sk0 := eapply (sized_skip 0); [good_leaf|intro].

Lemma sized_array {A} (p : parser A) : good 1 p -> sized (@length A) 0 (n <- compact_parse ;; rep n p).
Proof. intro G. sk. eapply sized_weaken; [|apply sized_rep; auto]. lia. Qed.
Lemma sized_exguids : sized (@length exguid) 0 exguid_parse_array.
Proof. apply sized_array; auto with gdb. Qed.
Lemma sized_cellids : sized (@length cellid) 0 cellid_parse_array.
Proof. apply sized_array; auto with gdb. Qed.
Lemma sized_binary : sized (@length N) 0 binary_item_parse.
Proof. unfold binary_item_parse. sk. eapply sized_weaken; [|apply sized_read]. lia. Qed.

Ltac szret := apply sized_pret;
  unfold index_size, revision_size, group_size, package_size in *;
  cbn [si_manifests si_cells si_revs fst snd rm_roots rm_groups sm_roots og_decls og_metadata
       og_objects pk_indexes pk_manifests pk_cells pk_revisions pk_groups pk_fragments pk_blobs];
  unfold ins in *;
  rewrite ?app_length, ?total_app; cbn [length total fold_right odata_size];
  repeat match goal with
  | |- context [length (ainsert ?e ?k ?v ?m)] =>
      let H := fresh in pose proof (ainsert_length e k v m) as H; revert H;
      generalize (length (ainsert e k v m)); intros
  | |- context [total ?f (ainsert ?e ?k ?v ?m)] =>
      let H := fresh in pose proof (ainsert_total e f k v m) as H; cbn [snd] in H; revert H;
      generalize (total f (ainsert e k v m)); intros
  end; lia.

Lemma sized_index_item s : sized index_size (index_size s) (storage_index_item s).
Proof.
  unfold storage_index_item. sk. destruct (oh_type a); try apply sized_pfail; sk; szret.
Qed.
Lemma sized_index : sized index_size 0 storage_index_parse.
Proof. apply (sized_until_end_8 index_size _ _ storage_index_empty). apply sized_index_item. Qed.

Lemma sized_manifest : sized (fun s => length (sm_roots s)) 0 storage_manifest_parse.
Proof.
  unfold storage_manifest_parse. sk. sk.
  eapply (sized_bind (@length _) _ 0).
  - apply (sized_until_end_8 (@length _) _ _ []). intro s. unfold storage_manifest_item.
    sk. sk. sk. szret.
  - intro roots. szret.
Qed.

Lemma sized_revision : sized revision_size 0 revision_manifest_parse.
Proof.
  unfold revision_manifest_parse. sk. sk. sk.
  eapply (sized_bind (fun s => length (fst s) + length (snd s))%nat _ 0).
  - apply (sized_until_end_8 (fun s => length (fst s) + length (snd s))%nat _ _ ([], [])).
    intro s. unfold revision_manifest_item. sk.
    destruct (oh_type a2); try apply sized_pfail; sk; szret.
  - intro s. szret.
Qed.

Lemma sized_odecls : sized (@length odecl) 0 odecls_parse.
Proof.
  unfold odecls_parse. sk. eapply sized_weaken with (c := 0%nat); [lia|].
  apply (sized_until_end_8 (@length _) _ _ []). intro s.
  unfold odecl_item. sk. destruct (oh_type a0); try apply sized_pfail; sk; sk; sk; sk; sk; szret.
Qed.

Lemma sized_ometa : sized (@length N) 0 ometa_parse.
Proof.
  apply (sized_until_end_8 (@length _) _ _ []). intro s.
  unfold ometa_item. sk. sk. sk0. szret.
Qed.

Lemma sized_odata : sized (total (fun d => S (odata_size d))) 0 odata_parse.
Proof.
  apply (sized_until_end_8 (total (fun d => S (odata_size d))) _ _ []). intro s.
  unfold odata_item. sk.
  destruct (oh_type a); try apply sized_pfail;
    (eapply sized_weaken with (c := (0 + (1 + total (fun d => S (odata_size d)) s))%nat); [lia|]);
    (eapply sized_bind; [apply sized_exguids|intro g]);
    (eapply sized_weaken with (c := (0 + (length g + (1 + total (fun d => S (odata_size d)) s)))%nat); [lia|]);
    (eapply sized_bind; [apply sized_cellids|intro c]).
  all: try solve [sk; szret].
  eapply sized_weaken with (c := (0 + (length c + (length g + (1 + total (fun d => S (odata_size d)) s))))%nat); [lia|].
  eapply sized_bind; [apply sized_binary|intro]. szret.
Qed.

Lemma sized_group : sized group_size 0 object_group_parse.
Proof.
  unfold object_group_parse.
  eapply (sized_bind (@length odecl) _ 0 0); [apply sized_odecls|intro decls].
  sk. replace (1 + (length decls + 0))%nat with (0 + (1 + length decls))%nat by lia.
  eapply (sized_bind (@length N)).
  - destruct (oh_type a); try apply sized_pfail.
    + apply sized_pret; cbn; lia.
    + eapply (sized_bind (@length N) _ 0 0); [apply sized_ometa|]. intro m. sk.
      destruct (otype_eqb _ _); [|apply sized_pfail]. apply sized_pret; lia.
  - intro meta. replace (length meta + (1 + length decls))%nat with (0 + (length meta + (1 + length decls)))%nat by lia.
    eapply (sized_bind (total (fun d => S (odata_size d)))); [apply sized_odata|].
    intro o. sk. szret.
Qed.

Lemma sized_cell : sized (fun _ => 0%nat) 0 cell_manifest_parse.
Proof. unfold cell_manifest_parse. sk. sk. sk. apply sized_pret; lia. Qed.

Lemma sized_fragment : sized (fun f => length (fr_data f)) 0 fragment_parse.
Proof.
  unfold fragment_parse. do 5 sk.
  eapply sized_weaken with (c := (0 + 5)%nat); [lia|].
  eapply (sized_bind (@length N)); [apply sized_read|]. intro. apply sized_pret. cbn. lia.
Qed.

Lemma sized_blob : sized (@length N) 0 blob_parse.
Proof.
  unfold blob_parse. sk. eapply sized_weaken with (c := (0 + 1)%nat); [lia|].
  eapply (sized_bind (@length N)); [apply sized_binary|]. intro. sk. apply sized_pret. lia.
Qed.

Lemma sized_element p : sized package_size (package_size p) (element_parse p).
Proof.
  unfold element_parse. do 4 sk. destruct p as [si sm ce re og fr bl].
  set (sz := package_size _). unfold element_body.
  repeat match goal with |- sized _ _ (if ?b then _ else _) => destruct b end;
    try apply sized_pfail;
    (eapply sized_weaken with (c := (0 + (1 + sz))%nat); [lia|]; subst sz;
     eapply sized_bind; [eauto using sized_index, sized_manifest, sized_cell, sized_revision,
       sized_group, sized_fragment, sized_blob|intro]; apply sized_pret;
     unfold package_size, ins; cbn [pk_indexes pk_manifests pk_cells pk_revisions pk_groups
       pk_fragments pk_blobs];
     first [ match goal with |- context [total ?f (ainsert ?e ?k ?v ?m)] =>
               pose proof (ainsert_total e f k v m); cbn [snd] in *; lia end
           | match goal with |- context [length (ainsert ?e ?k ?v ?m)] =>
               pose proof (ainsert_length e k v m); lia end ]).
Qed.

Lemma sized_package : sized package_size 0 package_parse.
Proof.
  unfold package_parse. do 2 sk. destruct (negb _); [apply sized_pfail|].
  eapply sized_weaken with (c := 0%nat); [lia|].
  apply (sized_until_end_8 package_size _ _ package_empty). apply sized_element.
Qed.

Lemma sized_legacy a b c d : sized (fun p => package_size (pg_package p)) 0 (parse_legacy a b c d).
Proof.
  unfold parse_legacy. sk. destruct (negb _); [apply sized_pfail|].
  do 3 sk. eapply sized_weaken with (c := (0 + 0)%nat); [lia|].
  eapply (sized_bind package_size); [apply sized_package|]. intro. sk. apply sized_pret. cbn. lia.
Qed.

Lemma sized_packaging bs pg rest :
  packaging_parse bs = Ok (pg, rest) ->
  (package_size (pg_package pg) + length rest <= length bs)%nat.
Proof.
  rewrite packaging_parse_eq.
  enough (H : sized (fun p => package_size (pg_package p)) 0 packaging_parse') by (intro E; apply H in E; exact E).
  unfold packaging_parse'. do 4 (eapply (sized_skip 0); [good_leaf|intro]).
  repeat match goal with |- sized _ _ (if ?b then _ else _) => destruct b end;
    try apply sized_pfail; try apply sized_legacy.
  do 7 (eapply (sized_skip 0); [good_leaf|intro]). apply sized_legacy.
Qed.

(** ** Metadata blocks *)
Lemma until_never {A} fin fp (body : A -> parser A) s bs x rest :
  (forall s b y r, bytes_ok b -> body s b = Ok (y, r) -> bytes_ok r) ->
  (forall b, b < 256 -> fin b = false) ->
  bytes_ok bs -> until fin fp body s bs <> Ok (x, rest).
Proof.
  intros HB HF. unfold until. generalize (S (length bs)) as f. intro f. revert s bs.
  induction f as [|f IH]; intros s bs OK; cbn [until_fuel]; [discriminate|].
  unfold with_peek. destruct bs as [|b bs]; cbn [peek]; [discriminate|].
  inversion OK; subst. rewrite HF by auto. unfold pbind.
  destruct (body s (b :: bs)) as [[s' r]| | |] eqn:E; try discriminate.
  apply IH. exact (HB _ _ _ _ OK E).
Qed.

Lemma exact_bytes_ok {A} k (p : parser A) b y r :
  exact k p -> bytes_ok b -> p b = Ok (y, r) -> bytes_ok r.
Proof.
  intros E OK H. destruct (ex_ok _ _ E _ _ _ H) as (pre & -> & _).
  apply bytes_ok_app in OK. tauto.
Qed.

Lemma ometa_never bs x rest : bytes_ok bs -> ometa_parse bs <> Ok (x, rest).
Proof.
  apply until_never.
  - intros s b y r OK. apply (exact_bytes_ok 1); [apply good_ometa_item|exact OK].
  - intros b Hb. unfold is_end_8. rewrite N.shiftr_div_pow2. cbn [otype_code]. cpow.
    apply andb_false_intro2. lia.
Qed.

Lemma group_never_metadata bs g rest :
  bytes_ok bs -> object_group_parse bs = Ok (g, rest) -> og_metadata g = [].
Proof.
  intros OK H. unfold object_group_parse, pbind in H.
  destruct (odecls_parse bs) as [[d r1]| | |] eqn:E1; try discriminate.
  pose proof (exact_bytes_ok _ _ _ _ _ (gd_exact _ _ good_odecls) OK E1) as OK1.
  destruct (header_parse r1) as [[h r2]| | |] eqn:E2; try discriminate.
  pose proof (exact_bytes_ok _ _ _ _ _ (gd_exact _ _ good_header) OK1 E2) as OK2.
  destruct (oh_type h); try discriminate.
  - unfold pret at 1 in H. destruct (odata_parse r2) as [[o r3]| | |]; try discriminate.
    destruct (try_parse_end_8 _ r3) as [[[] r4]| | |]; try discriminate.
    unfold pret in H. assert (g = ObjectGroup d [] o) as -> by congruence. reflexivity.
  - destruct (ometa_parse r2) as [[m r3]| | |] eqn:E3; try discriminate.
    exfalso. exact (ometa_never _ _ _ OK2 E3).
Qed.

Lemma metadata_block_rejected decls e1 e2 t :
  bytes_ok (e1 ++ e2 ++ t) -> l_decls decls e1 -> h_any ObjectGroupMetadataBlock e2 ->
  forall g rest, object_group_parse (e1 ++ e2 ++ t) <> Ok (g, rest).
Proof.
  intros OK H1 H2 g rest. unfold object_group_parse, pbind.
  rewrite (reads_odecls decls e1) by exact H1.
  destruct (h_any_reads _ e2 t H2) as (h & Ht & ->). rewrite Ht.
  destruct (ometa_parse t) as [[m r3]| | |] eqn:E3; try discriminate.
  exfalso. apply bytes_ok_app in OK as [_ OK]. apply bytes_ok_app in OK as [_ OK].
  exact (ometa_never _ _ _ OK E3).
Qed.

Lemma metadata_group_rejected decls meta data e t :
  bytes_ok (e ++ t) -> l_group_with_metadata decls meta data e ->
  forall g rest, object_group_parse (e ++ t) <> Ok (g, rest).
Proof.
  intros OK (a & b & -> & Ha & (c & d & -> & Hc & Hd)). rewrite <- !app_assoc in *.
  apply (metadata_block_rejected decls); auto. right; exact Hc.
Qed.

(** No accepted package holds metadata. *)
Lemma amap_insert_all {K V} eqb (P : V -> Prop) k v (m : amap K V) :
  P v -> Forall (fun e => P (snd e)) m -> Forall (fun e => P (snd e)) (ainsert eqb k v m).
Proof.
  intros Hv Hm. unfold ainsert. apply Forall_app; split; [|constructor; auto].
  rewrite Forall_forall in *. intros x Hx. apply filter_In in Hx as [Hx _]. auto.
Qed.

Lemma until_invariant {A} (I : A -> Prop) fin fp (body : A -> parser A) s bs x rest :
  (forall s b y r, bytes_ok b -> body s b = Ok (y, r) -> bytes_ok r) ->
  (forall s b y r, I s -> bytes_ok b -> body s b = Ok (y, r) -> I y) ->
  I s -> bytes_ok bs -> until fin fp body s bs = Ok (x, rest) -> I x.
Proof.
  intros HB HI. unfold until. generalize (S (length bs)) as f. intro f. revert s bs.
  induction f as [|f IH]; intros s bs Is OK; cbn [until_fuel]; [intro H; discriminate H|].
  unfold with_peek. destruct (peek bs) as [b| | |]; try (intro H; discriminate H).
  destruct (fin b); unfold pbind.
  - destruct (fp bs) as [[[] r]| | |]; try (intro H; discriminate H).
    unfold pret. intro H. assert (x = s) as -> by congruence. exact Is.
  - destruct (body s bs) as [[s' r]| | |] eqn:E; try (intro H; discriminate H).
    apply IH; eauto.
Qed.

Definition no_metadata (p : package) : Prop := Forall (fun e => og_metadata (snd e) = []) (pk_groups p).

Lemma element_no_metadata p bs q rest :
  no_metadata p -> bytes_ok bs -> element_parse p bs = Ok (q, rest) -> no_metadata q.
Proof.
  intros Hp OK H. unfold element_parse, pbind in H.
  destruct (try_parse_16 DataElement bs) as [[[] r1]| | |] eqn:E1; try discriminate.
  pose proof (exact_bytes_ok _ _ _ _ _ (gd_exact _ _ (good_try_parse_16 _)) OK E1) as OK1.
  destruct (exguid_parse r1) as [[id r2]| | |] eqn:E2; try discriminate.
  pose proof (exact_bytes_ok _ _ _ _ _ (gd_exact _ _ good_exguid) OK1 E2) as OK2.
  destruct (serial_parse r2) as [[s r3]| | |] eqn:E3; try discriminate.
  pose proof (exact_bytes_ok _ _ _ _ _ (gd_exact _ _ good_serial) OK2 E3) as OK3.
  destruct (compact_parse r3) as [[ty r4]| | |] eqn:E4; try discriminate.
  pose proof (exact_bytes_ok _ _ _ _ _ (gd_exact _ _ good_compact) OK3 E4) as OK4.
  unfold element_body in H. destruct p as [si sm ce re og fr bl].
  repeat match type of H with (if ?b then _ else _) _ = _ => destruct b end;
    try discriminate; unfold pbind in H;
    match type of H with match ?p ?b with _ => _ end = _ =>
      destruct (p b) as [[v r5]| | |] eqn:E5; try discriminate end;
    unfold pret in H; injection H as <- <-; unfold no_metadata in *; cbn [pk_groups] in *; auto.
  apply (amap_insert_all exguid_eqb (fun g => og_metadata g = [])); auto.
  eapply group_never_metadata; eauto.
Qed.

Lemma package_no_metadata bs pk rest :
  bytes_ok bs -> package_parse bs = Ok (pk, rest) ->
  forall id g, In (id, g) (pk_groups pk) -> og_metadata g = [].
Proof.
  intros OK H id g Hin.
  enough (F : no_metadata pk) by (unfold no_metadata in F; rewrite Forall_forall in F; exact (F _ Hin)).
  unfold package_parse, pbind in H.
  destruct (try_parse_16 _ bs) as [[[] r1]| | |] eqn:E1; try discriminate.
  pose proof (exact_bytes_ok _ _ _ _ _ (gd_exact _ _ (good_try_parse_16 _)) OK E1) as OK1.
  destruct (get_u8 r1) as [[pad r2]| | |] eqn:E2; try discriminate.
  pose proof (exact_bytes_ok _ _ _ _ _ (gd_exact _ _ good_u8) OK1 E2) as OK2.
  destruct (negb _); [discriminate|].
  eapply (until_invariant no_metadata); [| | |exact OK2|exact H].
  - intros s b y r B. apply (exact_bytes_ok 1); [apply good_element|exact B].
  - intros s b y r. apply element_no_metadata.
  - constructor.
Qed.

(** ** Fragments *)
Lemma reads_fragment f : reads fragment_parse (l_fragment f) f.
Proof.
  intros e t [Hs H]. revert e t H.
  match goal with |- forall e t, ?L e -> ?p (e ++ t) = Ok (?x, t) => change (reads p L x) end.
  unfold fragment_parse.
  eapply reads_bind with (a := tt).
  { intros e t H. apply reads_try. right; exact H. }
  cbv beta. do 4 (eapply reads_bind; [auto with rdb|]; cbv beta).
  rewrite Hs. eapply reads_last_f with (a := fr_data f).
  - intros e t ->. apply read_app.
  - intro t. rewrite <- Hs. destruct f; reflexivity.
Qed.

Lemma after_fragment_rejected p t : exists k, element_parse p (5 :: t) = Err k.
Proof.
  assert (exists k, header_parse_16 (5 :: t) = Err k) as (k & K).
  { destruct t as [|b t]; [eexists; reflexivity|].
    unfold header_parse_16, pbind, get_u16.
    change (5 :: b :: t) with ([5; b] ++ t); rewrite (get_le_app 2 [5; b] t) by reflexivity.
    cbn [le]. land_arith.
    replace ((5 + 256 * (b + 256 * 0)) mod 4 =? 0) with false by lia.
    cbn [negb]. eexists; reflexivity. }
  exists k. unfold element_parse, try_parse_16, try_parse_start, pbind. rewrite K. reflexivity.
Qed.

Lemma until_err {A} fin fp (body : A -> parser A) s b bs k :
  fin b = false -> body s (b :: bs) = Err k -> until fin fp body s (b :: bs) = Err k.
Proof.
  intros Hf Hb. unfold until; cbn [until_fuel]. unfold with_peek; cbn [peek]; rewrite Hf.
  unfold pbind; rewrite Hb; reflexivity.
Qed.

(** Running the element loop over well-formed elements. *)
Lemma elements_prefix els e t p :
  many l_elem els e ->
  until_end_8 DataElementPackage element_parse p (e ++ t) =
  until_end_8 DataElementPackage element_parse (fold_left elem_step els p) t.
Proof.
  revert e p; induction els as [|x els IH]; intros e p H.
  - cbn in H. rewrite H. reflexivity.
  - destruct H as (a & b & -> & Ha & Hb). rewrite <- app_assoc.
    pose proof (reads_elem p x a (b ++ t) Ha) as B.
    destruct (opens_elem x a Ha) as (c & w & -> & D). cbn [app] in *.
    unfold until_end_8. erewrite until_step;
      [|auto with gdb|intro; apply good_element|now apply opens_not_end|exact B].
    apply IH; auto.
Qed.

Lemma reads_fragment_body p id s f :
  reads (element_parse p)
    (h16 DataElement +++ l_exguid id +++ l_serial s +++ l_compact 6 +++ l_fragment f)
    (let '(Package si sm ce re og fr bl) := p in Package si sm ce re og (ins id f fr) bl).
Proof.
  unfold element_parse. do 4 (eapply reads_bind; [auto with rdb|]; cbv beta).
  destruct p. unfold element_body. cbn [N.eqb Pos.eqb].
  eapply reads_last_f; [apply reads_fragment|reflexivity].
Qed.

Lemma fragment_rejected els id s f e0 e1 e2 e3 t :
  h16 DataElementPackage e0 -> e1 = [0] -> many l_elem els e2 -> l_fragment_elem id s f e3 ->
  exists k, package_parse (e0 ++ e1 ++ e2 ++ e3 ++ t) = Err k.
Proof.
  intros H0 -> H2 H3. unfold package_parse, pbind.
  rewrite (reads_try_16 _ e0) by auto. cbn [app]. rewrite get_u8_cons.
  cbn [negb N.eqb]. rewrite elements_prefix with (els := els) by auto.
  generalize (fold_left elem_step els package_empty) as p. intro p.
  assert (exists x y, e3 = x ++ y /\
    (h16 DataElement +++ l_exguid id +++ l_serial s +++ l_compact 6 +++ l_fragment f) x /\
    fin8 DataElement y) as (x & y & -> & Hx & Hy).
  { destruct H3 as (a1 & x1 & -> & Ha1 & (a2 & x2 & -> & Ha2 & (a3 & x3 & -> & Ha3 & (a4 & x4 & -> & Ha4 & (a5 & x5 & -> & Ha5 & Ha6))))).
    exists (a1 ++ a2 ++ a3 ++ a4 ++ a5), x5. rewrite <- !app_assoc. split; [reflexivity|]. split; auto.
    exists a1, (a2 ++ a3 ++ a4 ++ a5); split; auto; split; auto.
    exists a2, (a3 ++ a4 ++ a5); split; auto; split; auto.
    exists a3, (a4 ++ a5); split; auto; split; auto. exists a4, a5; auto. }
  rewrite <- app_assoc.
  pose proof (reads_fragment_body p id s f x (y ++ t) Hx) as B.
  assert (opens (h16 DataElement +++ l_exguid id +++ l_serial s +++ l_compact 6 +++ l_fragment f)) as O
    by apply opens_cat, opens_h16.
  destruct (O x Hx) as (c & w & -> & D). cbn [app] in *.
  unfold until_end_8. erewrite until_step;
    [|auto with gdb|intro; apply good_element|now apply opens_not_end|exact B].
  destruct Hy as [Hy]. cbn [app otype_code N.add N.mul Pos.add Pos.mul].
  match goal with |- context [until _ _ _ ?q _] => destruct (after_fragment_rejected q t) as (k & K) end.
  exists k. apply until_err; [reflexivity|exact K].
Qed.

(** ** Contracts from [good] *)
Lemma good_self_delimiting {A} k (p : parser A) : good k p -> self_delimiting p.
Proof.
  intros G bs x rest H. destruct (ex_ok _ _ (gd_exact _ _ G) _ _ _ H) as (pre & E & _ & T & _).
  exists pre; auto.
Qed.

Lemma good_truncation {A} k (p : parser A) : good k p -> truncation_reported p.
Proof.
  intros G bs x rest n H L. destruct (ex_ok _ _ (gd_exact _ _ G) _ _ _ H) as (pre & -> & _ & _ & T).
  rewrite app_length in L. apply (T _ (skipn n pre)).
  - rewrite firstn_app. replace (n - length pre)%nat with 0%nat by lia. cbn [firstn].
    rewrite app_nil_r. now rewrite firstn_skipn.
  - intro E. apply (f_equal (@length N)) in E. rewrite skipn_length in E. cbn in E. lia.
Qed.

Lemma good_total {A} k (p : parser A) : good k p -> total_parser p.
Proof.
  intros G bs. destruct (p bs) as [[x r]|e| |] eqn:E; eauto.
  - exfalso. eapply gd_nopanic; eauto.
  - exfalso. eapply gd_nofuel; eauto.
Qed.

Lemma plain_roundtrip ft f lv ff index schema els e t :
  (ff = 0x638DE92FA6D44BC19A36B3FC2511A5B7 \/
   (ff = 0x109ADD3F911B49F5A5D01791EDC8AED8 /\ lv <> 0)) ->
  l_plain ft f lv ff index schema els e ->
  exists pk, packaging_parse (e ++ t) = Ok (Packaging ft f lv ff index schema pk, t) /\
    package_means els pk.
Proof.
  intros D H. eexists. split; [apply plain_reads; [exact D|exact H]|apply package_means_fold].
Qed.

Lemma with_header_roundtrip h1 h2 stp cb ft f lv ff index schema els e t :
  l_with_header h1 h2 stp cb ft f lv ff index schema els e ->
  exists pk, packaging_parse (e ++ t) = Ok (Packaging ft f lv ff index schema pk, t) /\
    package_means els pk.
Proof.
  intros H. eexists. split; [eapply header_reads; exact H|apply package_means_fold].
Qed.

Lemma cat_intro (P Q : lang) a b : P a -> Q b -> (P +++ Q) (a ++ b).
Proof. exists a, b; auto. Qed.
Lemma h16_intro t : otype_code t < 64 -> h16 t (le_bytes 2 (otype_code t * 2 ^ 3 + 5 * 2 ^ 9)).
Proof. intro H. exists false, 5. constructor; [exact H|reflexivity]. Qed.
Lemma h32_intro t : h32 t (le_bytes 4 (2 + otype_code t * 2 ^ 3 + 5 * 2 ^ 17)).
Proof.
  exists false, 5. constructor; [|reflexivity].
  pose proof (otype_code_bound t). cpow. lia.
Qed.
Lemma h_any_intro t : h_any t (le_bytes 4 (2 + otype_code t * 2 ^ 3 + 5 * 2 ^ 17)).
Proof. right. apply h32_intro. Qed.
Lemma compact_intro v : v < 2 ^ 64 -> l_compact v (0x80 :: le_bytes 8 v).
Proof. constructor; auto. Qed.
Lemma exguid_intro g v : g < 2 ^ 128 -> v < 2 ^ 32 -> l_exguid (ExGuid g v) (128 :: le_bytes 4 v ++ guid_enc g).
Proof. intros; constructor; auto. Qed.

(** Finds an encoding of a concrete value. *)
Ltac encode := lazymatch goal with
  | |- _ = _ => reflexivity
  | |- (_ +++ _) _ => eapply cat_intro; encode
  | |- many _ [] _ => reflexivity
  | |- many _ (_ :: _) _ => eapply cat_intro; encode
  | |- lit _ _ => reflexivity
  | |- h16 _ _ => apply h16_intro; reflexivity
  | |- h32 _ _ => apply h32_intro
  | |- h_any _ _ => apply h_any_intro
  | |- fin8 _ _ => constructor; reflexivity
  | |- fin16 _ _ => constructor; reflexivity
  | |- l_compact _ _ => apply compact_intro; reflexivity
  | |- l_exguid _ _ => first [apply exguid_intro; reflexivity|constructor; reflexivity]
  | |- l_serial _ _ => constructor; reflexivity
  | |- l_guid _ _ => split; [reflexivity|reflexivity]
  | |- l_uint _ _ _ => split; [reflexivity|reflexivity]
  | |- l_version _ => left; encode
  | |- l_fragment _ _ => split; [reflexivity|encode]
  | |- l_meta _ _ => split; [discriminate|encode]
  | |- ?P _ => let h := head P in progress (unfold h; cbv beta iota;
      cbn [el_id el_serial el_content kind fst snd fr_id fr_size fr_offset fr_length fr_data]); encode
  end
with head t := lazymatch t with ?f _ => head f | _ => t end.

Lemma metadata_loads_refuted : exists decls meta data e,
  bytes_ok e /\ l_group_with_metadata decls meta data e /\
  forall t g rest, bytes_ok t -> object_group_parse (e ++ t) <> Ok (g, rest).
Proof.
  exists [DeclObject (ExGuid 7 1) 1 3 0 0], [2], [DataObject [] [] [1; 2; 3]].
  assert (E : exists e, l_group_with_metadata [DeclObject (ExGuid 7 1) 1 3 0 0] [2]
    [DataObject [] [] [1; 2; 3]] e /\ forallb (fun b => b <? 256) e = true).
  { eexists. split; [encode|]. vm_compute. reflexivity. }
  destruct E as (e & L & B). exists e.
  assert (OK : bytes_ok e).
  { apply Forall_forall. intros x Hx. rewrite forallb_forall in B. specialize (B x Hx). lia. }
  split; [exact OK|]. split; [exact L|]. intros t g rest Ht.
  apply (metadata_group_rejected _ _ _ _ t) with (2 := L). apply bytes_ok_app; auto.
Qed.
