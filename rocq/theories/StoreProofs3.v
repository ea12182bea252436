(** Proofs about [parse_store]: contents, termination, hash order. *)
From Coq Require Import Lia ZifyBool ZifyNat ZifyN Relations Permutation.
From Verif Require Import Base BaseProofs Codec CodecProofs Package PackageRT PackageFacts PropSet
  PropSetProofs Store SpecStore StoreProofs StoreProofs2.
Ltac Zify.zify_post_hook ::= Z.div_mod_to_equations.

(** ** Tables built by the package reader *)
Lemma until_inv {A} (I : A -> Prop) fin fp (body : A -> parser A) s bs x rest :
  (forall s b y r, I s -> body s b = Ok (y, r) -> I y) ->
  I s -> until fin fp body s bs = Ok (x, rest) -> I x.
Proof.
  intros HI. unfold until. generalize (S (length bs)) as f. intro f. revert s bs.
  induction f as [|f IH]; intros s bs Is; cbn [until_fuel]; [intro H; discriminate H|].
  unfold with_peek. destruct (peek bs) as [b| | |]; try (intro H; discriminate H).
  destruct (fin b); unfold pbind.
  - destruct (fp bs) as [[[] r]| | |]; try (intro H; discriminate H).
    unfold pret. intro H. assert (x = s) as -> by congruence. exact Is.
  - destruct (body s bs) as [[s' r]| | |] eqn:E; try (intro H; discriminate H).
    apply IH; eauto.
Qed.

(** Every value a parser can return satisfies [P]. *)
Definition yields {A} (p : parser A) (P : A -> Prop) : Prop :=
  forall bs x r, p bs = Ok (x, r) -> P x.
Lemma yields_pret {A} (a : A) (P : A -> Prop) : P a -> yields (pret a) P.
Proof. intros H bs x r E. unfold pret in E. assert (x = a) by congruence. now subst. Qed.
Lemma yields_pfail {A} e (P : A -> Prop) : yields (pfail e) P.
Proof. intros bs x r E. discriminate E. Qed.
Lemma yields_bind {A B} (p : parser A) (f : A -> parser B) Q P :
  yields p Q -> (forall a, Q a -> yields (f a) P) -> yields (pbind p f) P.
Proof.
  intros Hp Hf bs x r E. unfold pbind in E. destruct (p bs) as [[a r1]| | |] eqn:E1; try discriminate.
  eapply Hf; eauto.
Qed.
Lemma yields_any {A} (p : parser A) : yields p (fun _ => True).
Proof. intros bs x r _. exact I. Qed.
Lemma yields_skip {A B} (p : parser A) (f : A -> parser B) P :
  (forall a, yields (f a) P) -> yields (pbind p f) P.
Proof. intro H. eapply yields_bind; [apply yields_any|auto]. Qed.
Lemma yields_if {A} (b : bool) (p q : parser A) P :
  yields p P -> yields q P -> yields (if b then p else q) P.
Proof. destruct b; auto. Qed.
Lemma yields_until {A} fin fp (body : A -> parser A) s (P : A -> Prop) :
  P s -> (forall s, P s -> yields (body s) P) -> yields (until fin fp body s) P.
Proof. intros Ps H bs x r. apply (until_inv P); auto. intros s' b y r' Hs. now apply H. Qed.
Ltac ysk := apply yields_skip; intros ?.

Lemma in_ainsert {K V} eqb (eqb_eq : forall a b : K, eqb a b = true <-> a = b) k (v : V) m c x :
  In (c, x) (ainsert eqb k v m) -> (c = k /\ x = v) \/ In (c, x) m.
Proof.
  unfold ainsert. rewrite in_app_iff. intros [H|[H|[]]].
  - right. now apply filter_In in H.
  - left. injection H. auto.
Qed.

Lemma storage_index_cells : yields storage_index_parse cells_ok.
Proof.
  apply yields_until.
  - split; [constructor|intros c m []].
  - intros s [N C]. unfold storage_index_item. ysk. destruct (oh_type _); try apply yields_pfail.
    + eapply (yields_bind _ _ (fun m => cm_cell (snd m) = fst m)).
      * unfold cell_mapping_parse. repeat ysk. apply yields_pret. reflexivity.
      * intros [k m] E. apply yields_pret. split; cbn.
        -- apply (ainsert_nodup_gen _ cellid_eqb_eq); auto.
        -- intros c x H. apply (in_ainsert _ cellid_eqb_eq) in H as [[-> ->]|H]; auto.
    + ysk. apply yields_pret. exact (conj N C).
    + ysk. apply yields_pret. exact (conj N C).
Qed.

Definition package_ok (pk : package) : Prop :=
  NoDup (map fst (pk_revisions pk)) /\ forall k si, In (k, si) (pk_indexes pk) -> cells_ok si.

Lemma package_parse_ok : yields package_parse package_ok.
Proof.
  unfold package_parse. ysk. ysk. apply yields_if; [apply yields_pfail|].
  apply yields_until.
  - split; [constructor|intros k si []].
  - intros p [N C]. unfold element_parse. do 4 ysk. unfold element_body.
    destruct p as [si sm ce re og fr bl]. cbn in N, C.
    apply yields_if; [|repeat apply yields_if; try apply yields_pfail; ysk; apply yields_pret; split; cbn; auto].
    + eapply yields_bind; [apply storage_index_cells|]. intros v Hv. apply yields_pret. split; cbn; auto.
      intros k x H. unfold ins in H. apply (in_ainsert _ exguid_eqb_eq) in H as [[-> ->]|H]; eauto.
    + apply (ainsert_nodup_gen _ exguid_eqb_eq); auto.
Qed.

Lemma packaging_parse_ok bs pg rest :
  packaging_parse bs = Ok (pg, rest) -> package_ok (pg_package pg).
Proof.
  assert (L : forall a b c d, yields (parse_legacy a b c d) (fun pg => package_ok (pg_package pg))).
  { intros. unfold parse_legacy. ysk. apply yields_if; [apply yields_pfail|]. do 3 ysk.
    eapply yields_bind; [apply package_parse_ok|]. intros pk H. ysk. now apply yields_pret. }
  assert (M : forall st, yields (parse_packaging st) (fun pg => package_ok (pg_package pg))).
  { intro st. unfold parse_packaging. ysk. intros b x r. 
    match goal with |- ?p b = _ -> _ => change p with (fun b => p b) end. cbv beta zeta.
    match goal with |- ?p b = _ -> _ => assert (Y : yields p (fun pg => package_ok (pg_package pg))) end.
    { do 6 ysk. apply L. }
    apply Y. }
  unfold packaging_parse. cbv zeta.
  match goal with |- ?p bs = _ -> _ => assert (Y : yields p (fun pg => package_ok (pg_package pg))) end.
  { do 4 ysk. repeat apply yields_if; auto using yields_pfail. }
  apply Y.
Qed.

(** ** The loop over the cell mappings *)
Definition skipped (done : list cellid) (m : cell_mapping) : bool :=
  exguid_is_nil (cm_id m) || existsb (cellid_eqb (cm_cell m)) done.

Lemma existsb_cell c done : existsb (cellid_eqb c) done = true <-> In c done.
Proof.
  rewrite existsb_exists. split.
  - intros (x & H & E). apply cellid_eqb_eq in E. now subst.
  - intro H. exists c. split; auto. now apply cellid_eqb_eq.
Qed.

Lemma skipped_spec done m : skipped done m = true <-> cm_id m = nil_id \/ In (cm_cell m) done.
Proof. unfold skipped. rewrite orb_true_iff, is_nil_spec, existsb_cell. tauto. Qed.

Lemma parse_spaces_ok h fuel si pk done ms acc r :
  cells_ok si -> (forall m, In m ms -> In (cm_cell m, m) (si_cells si)) ->
  parse_spaces h fuel si pk [] done ms acc = Ok r <->
  (forall m, In m ms -> skipped done m = false ->
     exists s, space_parse h fuel m si pk [] = Ok (cm_cell m, s)) /\
  r = fold_left (fun acc m => if skipped done m then acc else
                   match space_parse h fuel m si pk [] with
                   | Ok (id, s) => ainsert cellid_eqb id s acc | _ => acc end) ms acc.
Proof.
  intros [ND KEY]. revert acc; induction ms as [|m ms IH]; intros acc IN.
  - cbn. split; [intro H; injection H as <-; split; [intros ? []|auto]|intros [_ ->]; auto].
  - cbn [parse_spaces fold_left].
    assert (IN' : forall x, In x ms -> In (cm_cell x, x) (si_cells si)) by (intros; apply IN; now right).
    assert (S0 : forall a, (forall x, In x (m :: ms) -> skipped done x = false ->
        exists s, space_parse h fuel x si pk [] = Ok (cm_cell x, s)) /\ r = a <->
       (skipped done m = false -> exists s, space_parse h fuel m si pk [] = Ok (cm_cell m, s)) /\
       (forall x, In x ms -> skipped done x = false -> exists s, space_parse h fuel x si pk [] = Ok (cm_cell x, s)) /\ r = a).
    { intro a. split.
      - intros [A ->]. split; [apply A; now left|]. split; auto. intros x Hx. apply A. now right.
      - intros (A & A' & ->). split; auto. intros x [<-|Hx]; auto. }
    rewrite S0. clear S0.
    assert (K : skipped done m = exguid_is_nil (cm_id m) || existsb (cellid_eqb (cm_cell m)) done) by reflexivity.
    destruct (exguid_is_nil (cm_id m)) eqn:E1; cbn [orb] in K.
    + rewrite IH by auto. rewrite K. split; [|tauto]. intro A. split; [discriminate|exact A].
    + destruct (existsb (cellid_eqb (cm_cell m)) done) eqn:E2; rewrite K.
      * rewrite IH by auto. split; [|tauto]. intros A. split; [discriminate|exact A].
      * unfold parse_object_space.
        rewrite (alookup_nodup cellid_eqb cellid_eqb_eq (cm_cell m) m) by (auto; apply IN; now left).
        cbn [ok_or rbind].
        destruct (space_parse h fuel m si pk []) as [[id s]| | |] eqn:E3; cbn [rbind].
        -- rewrite IH by auto. split; [|tauto]. intro A. split; auto. intros _.
           apply space_parse_ok in E3 as [-> _]. eauto.
        -- split; [discriminate|]. intros [A _]. destruct (A eq_refl) as [s A']; discriminate.
        -- split; [discriminate|]. intros [A _]. destruct (A eq_refl) as [s A']; discriminate.
        -- split; [discriminate|]. intros [A _]. destruct (A eq_refl) as [s A']; discriminate.
Qed.

Lemma spaces_fold h fuel si pk done ms acc c :
  (forall m, In m ms -> skipped done m = false ->
     exists s, space_parse h fuel m si pk [] = Ok (cm_cell m, s)) ->
  NoDup (map cm_cell ms) -> (forall m, In m ms -> alookup cellid_eqb (cm_cell m) acc = None) ->
  forall s,
  alookup cellid_eqb c (fold_left (fun acc m => if skipped done m then acc else
                   match space_parse h fuel m si pk [] with
                   | Ok (id, s) => ainsert cellid_eqb id s acc | _ => acc end) ms acc) = Some s <->
  (alookup cellid_eqb c acc = Some s \/
   exists m, In m ms /\ skipped done m = false /\ cm_cell m = c /\
             space_parse h fuel m si pk [] = Ok (c, s)).
Proof.
  revert acc; induction ms as [|m ms IH]; intros acc A ND AC s; cbn.
  - split; auto. intros [H|(m & [] & _)]; auto.
  - inversion ND as [|? ? N1 N2]; subst.
    assert (A' : forall x, In x ms -> skipped done x = false ->
       exists s, space_parse h fuel x si pk [] = Ok (cm_cell x, s)) by (intros; apply A; auto; now right).
    destruct (skipped done m) eqn:Em.
    + rewrite IH; auto; [|intros; apply AC; now right]. split.
      * intros [H|(x & Hx & R)]; auto. right. exists x. auto.
      * intros [H|(x & [<-|Hx] & R)]; auto; [|right; eauto]. destruct R as [R _]. congruence.
    + destruct (A m (or_introl eq_refl) Em) as [s0 E0]. rewrite E0.
      rewrite IH; auto.
      * rewrite (alookup_insert cellid_eqb cellid_eqb_eq). split.
        -- intros [H|(x & Hx & R)]; [|right; eauto].
           destruct (cellid_eqb (cm_cell m) c) eqn:Ec; auto. apply cellid_eqb_eq in Ec. injection H as <-. subst c.
           right. exists m. auto.
        -- intros [H|(x & [<-|Hx] & R1 & R2 & R3)].
           ++ left. destruct (cellid_eqb (cm_cell m) c) eqn:Ec; auto. apply cellid_eqb_eq in Ec. subst c.
              rewrite (AC m) in H by now left. discriminate.
           ++ left. subst c. rewrite (proj2 (cellid_eqb_eq _ _) eq_refl). congruence.
           ++ right. eauto 10.
      * intros x Hx. rewrite (alookup_insert cellid_eqb cellid_eqb_eq).
        destruct (cellid_eqb (cm_cell m) (cm_cell x)) eqn:Ec; [|apply AC; now right].
        apply cellid_eqb_eq in Ec. exfalso. apply N1. rewrite Ec. now apply in_map.
Qed.

Lemma cells_values h si : cells_ok si ->
  NoDup (map cm_cell (o_cells h (map snd (si_cells si)))) /\
  forall m, In m (o_cells h (map snd (si_cells si))) <-> In (cm_cell m, m) (si_cells si).
Proof.
  intros [ND KEY]. pose proof (o_cells_perm h (map snd (si_cells si))) as P. split.
  - apply (Permutation_NoDup (Permutation_map cm_cell P)). rewrite map_map.
    rewrite (map_ext_in _ fst); auto. intros [c m] Hin. cbn. now apply KEY.
  - intro m. split.
    + intro H. apply (Permutation_in _ (Permutation_sym P)) in H. apply in_map_iff in H as ([c x] & <- & H).
      cbn. now rewrite (KEY _ _ H).
    + intro H. apply (Permutation_in _ P). apply in_map_iff. now exists (cm_cell m, m).
Qed.

(** The spaces of a store, whatever the order. *)
Lemma parse_spaces_spec h fuel si pk done r :
  cells_ok si ->
  parse_spaces h fuel si pk [] done (o_cells h (map snd (si_cells si))) [] = Ok r ->
  (forall c m, alookup cellid_eqb c (si_cells si) = Some m -> cm_id m <> nil_id -> ~ In c done ->
     exists s, space_parse h fuel m si pk [] = Ok (c, s)) /\
  (forall c s, alookup cellid_eqb c r = Some s <->
     exists m, alookup cellid_eqb c (si_cells si) = Some m /\ cm_id m <> nil_id /\ ~ In c done /\
               space_parse h fuel m si pk [] = Ok (c, s)).
Proof.
  intros OK H. destruct (cells_values h si OK) as [ND IN].
  pose proof OK as [ND' KEY].
  assert (LK : forall c m, alookup cellid_eqb c (si_cells si) = Some m <->
     cm_cell m = c /\ In m (o_cells h (map snd (si_cells si)))).
  { intros c m. rewrite IN. split.
    - intro E. apply (alookup_in cellid_eqb cellid_eqb_eq) in E. pose proof (KEY _ _ E). subst. auto.
    - intros [<- E]. apply (alookup_nodup cellid_eqb cellid_eqb_eq); auto. }
  assert (SK : forall m, skipped done m = false <-> cm_id m <> nil_id /\ ~ In (cm_cell m) done).
  { intro m. pose proof (skipped_spec done m). destruct (skipped done m).
    - split; [discriminate|]. tauto.
    - split; auto. intros _. split; intro; [assert (false = true) by tauto|assert (false = true) by tauto]; discriminate. }
  apply parse_spaces_ok in H as [A ->]; auto; [|apply IN]. split.
  - intros c m E N D. apply LK in E as [<- E]. apply (A m); auto. apply SK. auto.
  - intros c s. rewrite spaces_fold; auto. cbn [alookup]. split.
    + intros [X|(m & H1 & H2 & H3 & H4)]; [discriminate|]. exists m. rewrite LK. apply SK in H2. subst c. tauto.
    + intros (m & H1 & H2 & H3 & H4). apply LK in H1 as [H1 H1']. right. exists m.
      rewrite SK. subst c. tauto.
Qed.

Definition index_used (h : order) (pg : packaging) : option storage_index :=
  or_else (find_storage_index_by_id (pg_package pg) (pg_storage_index pg))
          (find_storage_index h (pg_package pg)).

Lemma index_used_in h pg si : index_used h pg = Some si ->
  exists k, In (k, si) (pk_indexes (pg_package pg)).
Proof.
  unfold index_used, find_storage_index_by_id, find_storage_index, or_else.
  destruct (alookup exguid_eqb _ _) as [x|] eqn:E.
  - intro H; injection H as <-. apply (alookup_in exguid_eqb exguid_eqb_eq) in E. eauto.
  - pose proof (o_indexes_perm h (map snd (pk_indexes (pg_package pg)))) as P.
    destruct (o_indexes h _) as [|x l]; [discriminate|]. cbn. intro H; injection H as <-.
    assert (In x (map snd (pk_indexes (pg_package pg)))) as Hin
      by (apply (Permutation_in _ (Permutation_sym P)); now left).
    apply in_map_iff in Hin as ([k y] & <- & Hin). eauto.
Qed.

Record store_contents (h : order) (fuel : nat) (pg : packaging) (st : store) : Prop := {
  sc_all : exists k si j sm hc rc m,
    In (k, si) (pk_indexes (pg_package pg)) /\ In (j, sm) (pk_manifests (pg_package pg)) /\
    alookup exguid_eqb (ExGuid 0x1A5A319CC26B41AAB9C59BD8C44E07D4 1) (sm_roots sm) = Some hc /\
    alookup exguid_eqb (ExGuid 0x84DEFAB9AAA34A0DA3A8520C77AC7073 2) (sm_roots sm) = Some rc /\
    st_schema st = sm_id sm /\
    alookup cellid_eqb rc (si_cells si) = Some m /\
    space_parse h fuel m si (pg_package pg) [] = Ok (rc, st_data_root st) /\
    (forall c x, alookup cellid_eqb c (si_cells si) = Some x ->
       cm_id x <> nil_id -> c <> hc -> c <> rc -> exists s, object_space st c = Some s) /\
    (forall c s, object_space st c = Some s -> exists x,
       alookup cellid_eqb c (si_cells si) = Some x /\ cm_id x <> nil_id /\ c <> hc /\ c <> rc /\
       space_parse h fuel x si (pg_package pg) [] = Ok (c, s)) }.

Lemma parse_store_contents h fuel pg st :
  package_ok (pg_package pg) -> parse_store h fuel pg = Ok st -> store_contents h fuel pg st.
Proof.
  intros [_ OK] H. unfold parse_store in H. fold (index_used h pg) in H.
  apply rbind_ok in H as (si & Hsi & H). apply ok_or_ok in Hsi. apply index_used_in in Hsi as [k Hk].
  apply rbind_ok in H as (sm & Hsm & H). apply ok_or_ok in Hsm.
  apply rbind_ok in H as (hc & Hhc & H). apply ok_or_ok in Hhc.
  apply rbind_ok in H as (hm & Hhm & H).
  apply rbind_ok in H as (gs & Hgs & H). apply rbind_ok in H as (hg & Hhg & H).
  apply rbind_ok in H as (hd & Hhd & H).
  apply rbind_ok in H as (rc & Hrc & H). apply ok_or_ok in Hrc.
  apply rbind_ok in H as ([rid root] & Hroot & H).
  apply rbind_ok in H as (sp & Hsp & H). injection H as <-.
  unfold parse_object_space in Hroot. apply rbind_ok in Hroot as (m & Hm & Hroot). apply ok_or_ok in Hm.
  pose proof (OK _ _ Hk) as C.
  assert (exists j, In (j, sm) (pk_manifests (pg_package pg))) as [j Hj].
  { unfold find_storage_manifest in Hsm.
    pose proof (o_manifests_perm h (map snd (pk_manifests (pg_package pg)))) as P.
    destruct (o_manifests h _) as [|x l]; [discriminate|]. cbn in Hsm. injection Hsm as ->.
    assert (In sm (map snd (pk_manifests (pg_package pg)))) as Hin
      by (apply (Permutation_in _ (Permutation_sym P)); now left).
    apply in_map_iff in Hin as ([j y] & <- & Hin). eauto. }
  apply parse_spaces_spec in Hsp as [A1 A2]; auto.
  assert (rid = rc) as ->.
  { pose proof (space_parse_ok _ _ _ _ _ _ _ Hroot) as [-> _]. destruct C as [_ C]. apply C.
    now apply (alookup_in cellid_eqb cellid_eqb_eq). }
  constructor. exists k, si, j, sm, hc, rc, m. cbn [st_schema st_data_root].
  repeat (split; [assumption || reflexivity|]).
  unfold object_space. cbn [st_spaces]. split.
  - intros c x Hx N1 N2 N3. destruct (A1 c x) as [s Hs]; auto.
    { intros [->|[->|[]]]; congruence. }
    exists s. apply A2. exists x. repeat split; auto. intros [->|[->|[]]]; congruence.
  - intros c s Hs. apply A2 in Hs as (x & Hx & N & D & E). exists x. repeat split; auto.
    + intros ->. apply D. now left.
    + intros ->. apply D. right; now left.
Qed.

(** ** Hash order (C15) *)
Lemma find_perm {A B} (p : A -> bool) (f : A -> B) l1 l2 :
  Permutation l1 l2 ->
  (forall x y, In x l1 -> In y l1 -> p x = true -> p y = true -> f x = f y) ->
  option_map f (find p l1) = option_map f (find p l2).
Proof.
  intros P H. destruct (find p l1) as [x|] eqn:E1, (find p l2) as [y|] eqn:E2; cbn; auto.
  - apply find_some in E1 as [I1 P1]. apply find_some in E2 as [I2 P2]. f_equal.
    apply H; auto. apply (Permutation_in _ (Permutation_sym P)); auto.
  - apply find_some in E1 as [I1 P1]. apply (Permutation_in _ P) in I1.
    rewrite (find_none _ _ E2 _ I1) in P1. discriminate.
  - apply find_some in E2 as [I2 P2]. apply (Permutation_in _ (Permutation_sym P)) in I2.
    rewrite (find_none _ _ E1 _ I2) in P2. discriminate.
Qed.

Lemma hd_perm {A} (l l1 l2 : list A) :
  (length l <= 1)%nat -> Permutation l l1 -> Permutation l l2 -> l1 = l2.
Proof.
  destruct l as [|x [|y l]]; cbn; intros L P1 P2; try lia.
  - apply Permutation_nil in P1, P2. congruence.
  - apply Permutation_length_1_inv in P1, P2. congruence.
Qed.

Section Orders.
  Context (h1 h2 : order).

  Lemma serial_order si s : serials_unique si ->
    find_revision_mapping_by_serial h1 si s = find_revision_mapping_by_serial h2 si s.
  Proof.
    intros [U _]. unfold find_revision_mapping_by_serial.
    set (p := fun m => _ && _).
    transitivity (option_map rv_mapping (find p (map snd (si_revs si)))).
    - symmetry. apply find_perm; [apply o_revs_perm|].
      intros x y Hx Hy Px Py. apply in_map_iff in Hx as ([kx x'] & <- & Hx).
      apply in_map_iff in Hy as ([ky y'] & <- & Hy). cbn in *. eapply U; eauto.
      unfold p in Px, Py. destruct (rv_serial x') as [g v], (rv_serial y') as [g' v'].
      cbn in *. assert (g = g' /\ v = v') as [-> ->] by lia. reflexivity.
    - apply find_perm; [apply o_revs_perm|].
      intros x y Hx Hy Px Py. apply in_map_iff in Hx as ([kx x'] & <- & Hx).
      apply in_map_iff in Hy as ([ky y'] & <- & Hy). cbn in *. eapply U; eauto.
      unfold p in Px, Py. destruct (rv_serial x') as [g v], (rv_serial y') as [g' v'].
      cbn in *. assert (g = g' /\ v = v') as [-> ->] by lia. reflexivity.
  Qed.

  Lemma space_parse_order fuel m si pk c : serials_unique si ->
    space_parse h1 fuel m si pk c = space_parse h2 fuel m si pk c.
  Proof. intro U. unfold space_parse. now rewrite (serial_order si _ U). Qed.

  Lemma find_objects_order pk cell si : serials_unique si ->
    find_objects h1 pk cell si = find_objects h2 pk cell si.
  Proof.
    intro U. unfold find_objects.
    assert (E : option_map cm_serial (find (fun m => exguid_eqb (cm_id m) cell) (o_cells h1 (map snd (si_cells si))))
              = option_map cm_serial (find (fun m => exguid_eqb (cm_id m) cell) (o_cells h2 (map snd (si_cells si))))).
    { assert (F : forall h, option_map cm_serial (find (fun m => exguid_eqb (cm_id m) cell) (map snd (si_cells si)))
       = option_map cm_serial (find (fun m => exguid_eqb (cm_id m) cell) (o_cells h (map snd (si_cells si))))).
      { intro h. apply find_perm; [apply o_cells_perm|].
        intros x y Hx Hy Px Py. apply in_map_iff in Hx as ([kx x'] & <- & Hx).
        apply in_map_iff in Hy as ([ky y'] & <- & Hy). cbn in *.
        apply exguid_eqb_eq in Px, Py. destruct U as [_ U]. eapply U; eauto. congruence. }
      now rewrite <- !F. }
    destruct (find _ (o_cells h1 _)) as [m1|], (find _ (o_cells h2 _)) as [m2|]; cbn in E; try discriminate; auto.
    injection E as ->. now rewrite (serial_order si _ U).
  Qed.

  Lemma parse_store_order fuel pg st :
    package_ok (pg_package pg) -> (length (pk_manifests (pg_package pg)) <= 1)%nat ->
    index_determined pg ->
    (forall k si, In (k, si) (pk_indexes (pg_package pg)) -> serials_unique si) ->
    parse_store h1 fuel pg = Ok st ->
    exists st', parse_store h2 fuel pg = Ok st' /\ same_store st st'.
  Proof.
    intros [_ OK] SM ID U H. unfold parse_store in *.
    fold (index_used h1 pg) in H. fold (index_used h2 pg).
    assert (EI : index_used h1 pg = index_used h2 pg).
    { unfold index_used, or_else, find_storage_index_by_id, find_storage_index.
      destruct ID as [[si E]|L]; [now rewrite E|].
      destruct (alookup _ _ _); auto. f_equal.
      apply (hd_perm (map snd (pk_indexes (pg_package pg)))); try apply o_indexes_perm. now rewrite map_length. }
    assert (EM : find_storage_manifest h1 (pg_package pg) = find_storage_manifest h2 (pg_package pg)).
    { unfold find_storage_manifest. f_equal.
      apply (hd_perm (map snd (pk_manifests (pg_package pg)))); try apply o_manifests_perm. now rewrite map_length. }
    rewrite <- EI, <- EM. clear EI EM.
    apply rbind_ok in H as (si & Hsi & H). rewrite Hsi. cbn [rbind].
    apply ok_or_ok in Hsi. apply index_used_in in Hsi as [k Hk].
    specialize (U _ _ Hk). specialize (OK _ _ Hk).
    apply rbind_ok in H as (sm & Hsm & H). rewrite Hsm. cbn [rbind].
    apply rbind_ok in H as (hc & Hhc & H). rewrite Hhc. cbn [rbind].
    apply rbind_ok in H as (hm & Hhm & H). rewrite Hhm. cbn [rbind].
    rewrite <- (find_objects_order _ _ _ U).
    apply rbind_ok in H as (gs & Hgs & H). rewrite Hgs. cbn [rbind].
    apply rbind_ok in H as (hg & Hhg & H). rewrite Hhg. cbn [rbind].
    apply rbind_ok in H as (hd & Hhd & H). rewrite Hhd. cbn [rbind].
    apply rbind_ok in H as (rc & Hrc & H). rewrite Hrc. cbn [rbind].
    apply rbind_ok in H as ([rid root] & Hroot & H).
    assert (Hr2 : parse_object_space h2 fuel rc si (pg_package pg) [] = Ok (rid, root)).
    { unfold parse_object_space in *. destruct (alookup _ _ _); cbn in *; auto.
      now rewrite <- (space_parse_order _ _ _ _ _ U). }
    rewrite Hr2. cbn [rbind].
    apply rbind_ok in H as (sp & Hsp & H). injection H as <-.
    assert (E2 : exists sp', parse_spaces h2 fuel si (pg_package pg) [] [hc; rc]
                 (o_cells h2 (map snd (si_cells si))) [] = Ok sp').
    { pose proof (cells_values h1 si OK) as [_ V1]. pose proof (cells_values h2 si OK) as [_ V2].
      apply parse_spaces_ok in Hsp as [A _]; auto; [|apply V1].
      eexists. apply parse_spaces_ok; auto; [apply V2|]. split; [|reflexivity].
      intros m Hm Sk. rewrite <- (space_parse_order _ _ _ _ _ U). apply A; auto.
      apply V1. now apply V2. }
    destruct E2 as [sp' E2]. rewrite E2. cbn [rbind]. eexists. split; [reflexivity|].
    split; [reflexivity|]. split; [reflexivity|]. split; [reflexivity|]. cbn [st_spaces].
    apply parse_spaces_spec in Hsp as [_ A]; auto. apply parse_spaces_spec in E2 as [_ A']; auto.
    intro c. specialize (A c). specialize (A' c).
    destruct (alookup cellid_eqb c sp) as [s|] eqn:E1.
    - symmetry. apply A'. destruct (proj1 (A s) eq_refl) as (m & H1 & H2 & H3 & H4).
      exists m. rewrite <- (space_parse_order _ _ _ _ _ U). auto.
    - destruct (alookup cellid_eqb c sp') as [s|] eqn:E3; auto.
      destruct (proj1 (A' s) eq_refl) as (m & H1 & H2 & H3 & H4).
      rewrite <- (space_parse_order _ _ _ _ _ U) in H4.
      pose proof (proj2 (A s)) as X. apply X. eauto.
  Qed.
End Orders.

(** ** The store never panics, and ends when the chains do *)
Lemma space_parse_no_panic h fuel m si pk cache : space_parse h fuel m si pk cache <> Panic.
Proof.
  unfold space_parse. destruct (or_else _ _) as [id|].
  - destruct (revision_walk _ _ _ _ _ _ _ _ _) as [[o r]| | |] eqn:E; cbn; try discriminate.
    intros _. exact (walk_no_panic _ _ _ _ _ _ _ _ _ E).
  - destruct (find_cell_revision_id _ _) as [c|]; [destruct (exguid_is_nil c)|]; discriminate.
Qed.

Lemma parse_object_space_no_panic h fuel c si pk cache : parse_object_space h fuel c si pk cache <> Panic.
Proof.
  unfold parse_object_space. destruct (alookup _ _ _); cbn; [apply space_parse_no_panic|discriminate].
Qed.

Lemma parse_spaces_no_panic h fuel si pk cache done ms acc :
  parse_spaces h fuel si pk cache done ms acc <> Panic.
Proof.
  revert acc; induction ms as [|m ms IH]; intro acc; cbn; [discriminate|].
  destruct (exguid_is_nil _); auto. destruct (existsb _ _); auto.
  destruct (parse_object_space _ _ _ _ _ _) as [[id s]| | |] eqn:E; cbn; auto; try discriminate.
  intros _. exact (parse_object_space_no_panic _ _ _ _ _ _ E).
Qed.

Lemma header_settled g : settled (header_parse_store g).
Proof.
  assert (G : forall v, settled (header_guid v)).
  { intros []; try apply settled_err. eapply settled_run. apply good_guid. }
  assert (U : forall v, settled (header_u32 v)) by (intros []; first [apply settled_err | apply settled_ok]).
  unfold header_parse_store.
  apply settled_bind; [apply settled_ok_or|intros [? ?] _].
  apply settled_bind; [destruct o0; auto using settled_ok, settled_err|intros ? _].
  apply settled_bind; [eapply settled_run, good_oprops|intros ? _].
  repeat first [apply settled_ok | apply settled_bind; [first [apply settled_ok_or | apply settled_opt; auto]|intros ? _]].
Qed.

Lemma find_objects_settled h pk c si : settled (find_objects h pk c si).
Proof.
  unfold find_objects. apply settled_bind; [apply settled_ok_or|intros ? _].
  apply settled_bind; [apply settled_ok_or|intros ? _]. apply settled_map. intro. apply settled_ok_or.
Qed.

Lemma parse_store_cases h fuel pg (P : res store -> Prop) :
  (forall e, P (Err e)) -> (forall st, P (Ok st)) ->
  (forall k si m, In (k, si) (pk_indexes (pg_package pg)) ->
     space_parse h fuel m si (pg_package pg) [] = OutOfFuel -> P OutOfFuel) ->
  P (parse_store h fuel pg).
Proof.
  intros PE PO PF. unfold parse_store. fold (index_used h pg).
  destruct (index_used h pg) as [si|] eqn:Hi; cbn [ok_or rbind]; auto.
  apply index_used_in in Hi as [k Hk].
  destruct (find_storage_manifest h (pg_package pg)) as [sm|]; cbn [ok_or rbind]; auto.
  unfold find_header_cell_id, find_data_root_cell_id.
  destruct (alookup exguid_eqb header_cell_root (sm_roots sm)) as [hc|]; cbn [ok_or rbind]; auto.
  destruct (find_cell_mapping_id si hc) as [hm|]; cbn [ok_or rbind]; auto.
  destruct (find_objects_settled h (pg_package pg) hm si) as [F1 F2].
  destruct (find_objects h (pg_package pg) hm si) as [gs| | |]; cbn [rbind]; auto; try congruence.
  destruct (hd_error gs) as [g|]; cbn [ok_or rbind]; auto.
  destruct (header_settled g) as [G1 G2].
  destruct (header_parse_store g) as [hd| | |]; cbn [rbind]; auto; try congruence.
  destruct (alookup exguid_eqb data_root (sm_roots sm)) as [rc|]; cbn [ok_or rbind]; auto.
  assert (PS : forall c, parse_object_space h fuel c si (pg_package pg) [] = OutOfFuel -> P OutOfFuel).
  { intros c. unfold parse_object_space. destruct (alookup _ _ _) as [m|]; cbn; [|discriminate].
    eapply PF; eauto. }
  pose proof (parse_object_space_no_panic h fuel rc si (pg_package pg) []) as NP.
  destruct (parse_object_space h fuel rc si (pg_package pg) []) as [[id root]| | |] eqn:E; cbn [rbind]; auto; [|congruence|eauto].
  pose proof (parse_spaces_no_panic h fuel si (pg_package pg) [] [hc; rc] (o_cells h (map snd (si_cells si))) []) as NP2.
  destruct (parse_spaces _ _ _ _ _ _ _ _) as [sp| | |] eqn:E2; cbn [rbind]; auto; [congruence|].
  revert E2. generalize (o_cells h (map snd (si_cells si))) as ms, (@nil (cellid * space)) as acc.
  induction ms as [|m ms IH]; intros acc; cbn [parse_spaces]; [discriminate|].
  destruct (exguid_is_nil _); eauto. destruct (existsb _ _); eauto.
  destruct (parse_object_space h fuel (cm_cell m) si (pg_package pg) []) as [[id' s]| | |] eqn:E3; cbn; try discriminate; eauto.
Qed.

Lemma parse_store_no_panic h fuel pg : parse_store h fuel pg <> Panic.
Proof. apply (parse_store_cases h fuel pg (fun r => r <> Panic)); discriminate. Qed.

Lemma parse_store_terminates h fuel pg :
  (forall k si, In (k, si) (pk_indexes (pg_package pg)) -> acyclic (pg_package pg) si) ->
  (S (length (pk_revisions (pg_package pg))) <= fuel)%nat ->
  parse_store h fuel pg <> OutOfFuel.
Proof.
  intros AC L. apply (parse_store_cases h fuel pg (fun r => r <> OutOfFuel)); try discriminate.
  intros k si m Hin E. exfalso. revert E. apply space_parse_acyclic; eauto.
Qed.

Lemma space_object_complete h fuel m si pk c s oid o :
  space_parse h fuel m si pk [] = Ok (c, s) -> get_object s oid = Some o ->
  exists id revs gs g, newest pk si m id /\ chain pk si id revs /\ chain_groups pk revs gs /\
    first_declaring gs oid g /\ length (og_decls g) = length (og_objects g).
Proof.
  intros H G. apply space_parse_ok in H as (-> & _ & _ & [(E & _)|(id & revs & gs & N & C & F & O & _)]).
  - unfold get_object in G. rewrite E in G. discriminate G.
  - destruct (O _ _ G) as (g & Fd & Ob). exists id, revs, gs, g. repeat split; auto. apply Ob.
Qed.
