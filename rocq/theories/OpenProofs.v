(** Why a package does not open as a store. *)
From Coq Require Import Lia ZifyBool ZifyNat ZifyN Relations Permutation.
From Verif Require Import Base BaseProofs Codec CodecProofs Package PackageRT PackageFacts PropSet PropIds
  PropSetProofs Store SpecStore StoreProofs StoreProofs2 StoreProofs3 KindsProofs SpecKinds CauseProofs Notebook SpecOpen.

Lemma or_err {A} (T : ekind -> Prop) e (o : option A) : (o = None -> T e) -> blames T (ok_or e o).
Proof. intros H k E. destruct o as [a|]; [discriminate E|]. injection E as <-. now apply H. Qed.
Lemma first_find {A} (p : A -> bool) (P : A -> Prop) l : (forall x, p x = true <-> P x) ->
  match find p l with Some x => first_of P l x | None => forall x, ~ first_of P l x end.
Proof.
  intros Q. induction l as [|a l IH]; cbn [find].
  - intros x (pre & suf & E & _). destruct pre; discriminate E.
  - destruct (p a) eqn:E.
    + exists [], l. split; [reflexivity|]. split; [now apply Q|]. intros y [].
    + assert (N : ~ P a) by (intro X; apply Q in X; congruence).
      destruct (find p l) as [x|].
      * destruct IH as (pre & suf & -> & Px & F). exists (a :: pre), suf. split; [reflexivity|]. split; [exact Px|].
        intros y [<-|I]; auto.
      * intros x (pre & suf & Ex & Px & F). destruct pre as [|b pre]; cbn in Ex; injection Ex as -> ->; [exact (N Px)|].
        apply (IH x). exists pre, suf. split; [reflexivity|]. split; [exact Px|]. intros y I. apply F. now right.
Qed.
Lemma first_fun {A} (P : A -> Prop) l x y : first_of P l x -> first_of P l y -> x = y.
Proof.
  induction l as [|a l IH]; intros (p & s & E & Px & F) (p' & s' & E' & Py & F').
  - destruct p; discriminate E.
  - destruct p as [|b p], p' as [|b' p']; cbn in E, E'; injection E as Ea El; injection E' as Ea' El'; subst a.
    + congruence.
    + contradiction (F' b' (or_introl eq_refl)). congruence.
    + contradiction (F b (or_introl eq_refl)). congruence.
    + apply IH.
      * exists p, s. split; [exact El|]. split; [exact Px|]. intros z I. apply F. now right.
      * exists p', s'. split; [exact El'|]. split; [exact Py|]. intros z I. apply F'. now right.
Qed.

(** ** The tables in use *)
Lemma index_chosen h pg si : index_used h pg = Some si <-> chosen_index h pg si.
Proof.
  unfold index_used, chosen_index, find_storage_index_by_id, find_storage_index, or_else.
  destruct (alookup exguid_eqb (pg_storage_index pg) (pk_indexes (pg_package pg))) as [x|].
  - split; [intro H; left; exact H|]. intros [H|(H & _)]; [exact H|discriminate H].
  - destruct (o_indexes h (map snd (pk_indexes (pg_package pg)))) as [|x l]; cbn [hd_error].
    + split; [discriminate|]. intros [H|(_ & l & H)]; discriminate H.
    + split; [intro H; injection H as ->; right; eauto|]. intros [H|(_ & l' & H)]; [discriminate H|congruence].
Qed.
Lemma manifest_chosen h pg sm : find_storage_manifest h (pg_package pg) = Some sm <-> chosen_manifest h pg sm.
Proof.
  unfold chosen_manifest, find_storage_manifest.
  destruct (o_manifests h (map snd (pk_manifests (pg_package pg)))) as [|x l]; cbn [hd_error].
  - split; [discriminate|]. intros (l & H). discriminate H.
  - split; [intro H; injection H as ->; eauto|]. intros (l' & H). congruence.
Qed.
Lemma serial_is (a b : serial) :
  (sn_guid a =? sn_guid b) && (sn_serial a =? sn_serial b) = true <-> a = b.
Proof.
  destruct a as [g v], b as [g' v']; cbn. rewrite andb_true_iff, !N.eqb_eq.
  split; [intros [-> ->]; reflexivity|intro H; injection H; auto].
Qed.
Lemma serial_started h si s id : find_revision_mapping_by_serial h si s = Some id <-> serial_start h si s id.
Proof.
  unfold find_revision_mapping_by_serial, serial_start.
  pose proof (first_find _ (fun r => rv_serial r = s) (o_revs h (map snd (si_revs si))) (fun r => serial_is (rv_serial r) s)) as F.
  destruct (find _ _) as [r|]; cbn [option_map].
  - split; [intro H; injection H as <-; eauto|]. intros (r' & H & <-). now rewrite (first_fun _ _ _ _ F H).
  - split; [discriminate|]. intros (r' & H & _). contradiction (F r' H).
Qed.
Lemma or_else_some {A} (a b : option A) x : or_else a b = Some x <-> a = Some x \/ (a = None /\ b = Some x).
Proof. destruct a as [y|]; cbn [or_else]; [|intuition congruence]. split; [auto|intros [H|(H & _)]; [exact H|discriminate H]]. Qed.
(** Where the cells with a manifest or a revision of their own start. *)
Lemma cell_resolved pk si m id : resolve_cell_revision_manifest_id pk si (cm_id m) = Some id <->
  by_manifest pk si m id \/ ((forall i, ~ by_manifest pk si m i) /\ by_mapping pk si m id).
Proof.
  pose proof (resolve_cell_spec pk si m) as R. unfold resolve_cell_revision_manifest_id in *. split; intro H.
  - now rewrite H in R.
  - destruct (or_else _ _) as [x|] eqn:E; [|exfalso; destruct R as (N1 & N2); destruct H as [H|(_ & H)]; [exact (N1 _ H)|exact (N2 _ H)]].
    f_equal. unfold by_manifest, by_mapping in *. apply or_else_some in E. unfold find_cell_revision_id in E.
    destruct (alookup exguid_eqb (cm_id m) (pk_cells pk)) as [r|].
    + destruct E as [E|(N & E)].
      * apply resolve_revision_spec in E. destruct H as [(r' & K & H)|(N & H)].
        -- injection K as <-. apply resolve_revision_spec in E, H. congruence.
        -- contradiction (N x). eauto.
      * assert (N' := proj1 (resolve_revision_none _ _ _) N). destruct H as [(r' & K & H)|(_ & H)].
        -- injection K as <-. contradiction (N' _ H).
        -- apply resolve_revision_spec in H. congruence.
    + destruct E as [E|(_ & E)]; [discriminate E|]. destruct H as [(r' & K & _)|(_ & H)]; [discriminate K|].
      apply resolve_revision_spec in H. congruence.
Qed.
Lemma cell_unresolved pk si m : resolve_cell_revision_manifest_id pk si (cm_id m) = None <->
  (forall i, ~ by_manifest pk si m i) /\ (forall i, ~ by_mapping pk si m i).
Proof.
  pose proof (resolve_cell_spec pk si m) as R. split; intro H; [now rewrite H in R|].
  destruct (resolve_cell_revision_manifest_id pk si (cm_id m)) as [x|]; [|reflexivity].
  exfalso. destruct H as (N1 & N2). destruct R as [R|(_ & R)]; [exact (N1 _ R)|exact (N2 _ R)].
Qed.
Lemma started h pg si m id : start h (pg_package pg) si m = Some id <-> start_at h pg si m id.
Proof.
  unfold start, start_at. rewrite or_else_some, cell_resolved, cell_unresolved, serial_started. tauto.
Qed.
Definition header_rev (h : order) (pk : package) (si : storage_index) (cell : exguid) : option exguid :=
  or_else (resolve_cell_revision_manifest_id pk si cell)
    (match find (fun m => exguid_eqb (cm_id m) cell) (o_cells h (map snd (si_cells si))) with
     | Some m => find_revision_mapping_by_serial h si (cm_serial m)
     | None => None
     end).
Lemma header_started h pg si m id : header_rev h (pg_package pg) si (cm_id m) = Some id <-> header_start h pg si m id.
Proof.
  unfold header_rev, header_start. rewrite or_else_some, cell_resolved, cell_unresolved.
  pose proof (first_find _ (fun x => cm_id x = cm_id m) (o_cells h (map snd (si_cells si))) (fun x => exguid_eqb_eq (cm_id x) (cm_id m))) as F.
  assert (K : match find (fun m0 => exguid_eqb (cm_id m0) (cm_id m)) (o_cells h (map snd (si_cells si))) with
     | Some m => find_revision_mapping_by_serial h si (cm_serial m) | None => None end = Some id <->
     exists m', first_of (fun x => cm_id x = cm_id m) (o_cells h (map snd (si_cells si))) m' /\
       serial_start h si (cm_serial m') id).
  { destruct (find _ _) as [x|].
    - rewrite serial_started. split; [eauto|]. intros (m' & H & S). now rewrite (first_fun _ _ _ _ F H).
    - split; [discriminate|]. intros (m' & H & _). contradiction (F m' H). }
  rewrite K. tauto.
Qed.
Lemma none_iff {A} (o : option A) (P : A -> Prop) : (forall x, o = Some x <-> P x) -> o = None <-> forall x, ~ P x.
Proof.
  intros H. split; [intros -> x X; apply H in X; discriminate X|]. intros N. destruct o as [x|]; [|reflexivity].
  contradiction (N x). now apply H.
Qed.

(** ** Objects *)
Lemma run_err {A} (p : parser A) d e : run p d = Err e -> p d = Err e.
Proof. unfold run, rbind. destruct (p d) as [[a r]|x| |]; congruence. Qed.
Lemma run_ok {A} (p : parser A) d a : run p d = Ok a -> exists r, p d = Ok (a, r).
Proof. unfold run, rbind. destruct (p d) as [[b r]|x| |]; intro H; try discriminate H. exists r. congruence. Qed.
Lemma eof_le n bs e : get_le n bs = Err e -> e = UnexpectedEof.
Proof.
  unfold get_le, read, pbind, pret. intros H. destruct (N.ltb (remaining bs) n); [congruence|discriminate H].
Qed.
Lemma kind_err d e : run jcid_parse d = Err e -> e = UnexpectedEof /\ (length d < 4)%nat.
Proof.
  intros H. apply run_err in H. unfold jcid_parse in H. change get_u32 with (get_le (N.of_nat 4)) in H.
  split; [exact (eof_le _ _ _ H)|exact (get_le_err _ _ _ H)].
Qed.
Lemma kind_len d k : run jcid_parse d = Ok k -> (4 <= length d)%nat.
Proof.
  intros H. apply run_ok in H as (r & H). unfold jcid_parse in H. change get_u32 with (get_le (N.of_nat 4)) in H.
  apply get_le_len in H. lia.
Qed.
Lemma object_cause pk ctx sp g oid : blames (object_fault pk g oid) (object_parse oid ctx sp (gdata g) pk).
Proof.
  unfold object_parse, partition_metadata, partition_object_data.
  apply blames_bind.
  { apply or_err. intros H. apply (of_no_entry _ _ _ 4); [now left|]. intros. now apply (proj1 (find_object_none _ _ _) H). }
  intros mo Hm. apply ok_or_ok, find_object_entry in Hm. apply blames_bind.
  { apply or_err. intros H. apply (of_no_entry _ _ _ 1); [right; now left|]. intros. now apply (proj1 (find_object_none _ _ _) H). }
  intros od Hd. apply ok_or_ok, find_object_entry in Hd. apply blames_bind.
  { destruct mo as [| |]; intros e H; try discriminate H; injection H as <-; (apply (of_no_entry _ _ _ 4); [now left|]);
      intros ? ? ? K; pose proof (group_entry_fun _ _ _ _ _ Hm K) as X; discriminate X. }
  intros md Ed. assert (exists a b, mo = DataObject a b md) as (a & b & ->) by (destruct mo; try discriminate Ed; injection Ed as ->; eauto).
  clear Ed. apply blames_bind.
  { intros e H. apply kind_err in H as (-> & L). exact (of_kind _ _ _ _ _ _ Hm L). }
  intros jc _. apply blames_bind.
  { destruct od as [| |]; intros e H; try discriminate H; injection H as <-; (apply (of_no_entry _ _ _ 1); [right; now left|]);
      intros ? ? ? K; pose proof (group_entry_fun _ _ _ _ _ Hd K) as X; discriminate X. }
  intros [[d refs] cells] Ed.
  assert (od = DataObject refs cells d) as -> by (destruct od; try discriminate Ed; injection Ed; intros; now subst).
  clear Ed. apply blames_bind.
  { intros e H. exact (of_set _ _ _ _ _ _ _ Hd H). }
  intros ps Hps. apply blames_bind.
  { unfold find_blob_id, partition_file_data. apply blames_opt. intros f Hf. apply find_object_entry in Hf.
    destruct f as [| |]; intros e H; try discriminate H; injection H as <-; apply (of_file _ _ _ _ Hf); discriminate. }
  intros blob Hb. apply blames_bind.
  { apply blames_opt. intros b' ->. apply or_err. intros N. unfold find_blob_id, partition_file_data in Hb.
    destruct (find_object oid 2 (gdata g)) as [f|] eqn:Hf; [|discriminate Hb]. apply find_object_entry in Hf.
    cbn [opt_map_res] in Hb. destruct f as [| |os cs x]; try discriminate Hb. cbn [rbind] in Hb. injection Hb as ->.
    apply (of_blob _ _ _ _ _ _ Hf). intros dd X. unfold blob_at, find_blob in *. congruence. }
  intros file _. cbv zeta. destruct (N.ltb_spec (len (op_object_ids ps)) (len refs)) as [L|L]; unfold len in L.
  { intros e H. injection H as <-. apply (of_references _ _ _ _ _ _ _ Hd Hps). lia. }
  destruct (N.eqb_spec (len (op_context_ids ps) + len (op_space_ids ps)) (len cells)) as [K|K]; unfold len in K; cbn [negb].
  - apply blames_ok.
  - intros e H. injection H as <-. apply (of_cells _ _ _ _ _ _ _ Hd Hps). lia.
Qed.
Lemma object_prevented pk ctx sp g oid o e : object_of pk ctx sp g oid o -> ~ object_fault pk g oid e.
Proof.
  intros [C _ (gr & ce & md & Hk & Rk) (refs & cells & d & Hd & Rd & L1 & L2 & _) F] X.
  destruct X as [N|p I N|r c d' E L|r c d' e E R|r c d' ps E R L|r c d' ps E R L|od E N|os cs b E N].
  - exact (N C).
  - destruct I as [<-|[<-|[]]]; [exact (N _ _ _ Hk)|exact (N _ _ _ Hd)].
  - pose proof (group_entry_fun _ _ _ _ _ Hk E) as Q. injection Q as -> -> ->. apply kind_len in Rk. lia.
  - pose proof (group_entry_fun _ _ _ _ _ Hd E) as Q. injection Q as -> -> ->. congruence.
  - pose proof (group_entry_fun _ _ _ _ _ Hd E) as Q. injection Q as -> -> ->. assert (ps = ob_props o) as -> by congruence. lia.
  - pose proof (group_entry_fun _ _ _ _ _ Hd E) as Q. injection Q as -> -> ->. assert (ps = ob_props o) as -> by congruence. lia.
  - destruct F as [(_ & F)|(os & cs & b & dd & F & _)]; [exact (F _ E)|].
    pose proof (group_entry_fun _ _ _ _ _ E F) as Q. exact (N _ _ _ Q).
  - destruct F as [(_ & F)|(os' & cs' & b' & dd & F & B & _)]; [exact (F _ E)|].
    pose proof (group_entry_fun _ _ _ _ _ E F) as Q. injection Q as -> -> ->. exact (N _ B).
Qed.

(** ** Groups *)
(** Whatever these groups declare has been read. *)
Definition done (gs : list object_group) (objs : objects) : Prop :=
  forall oid, alookup exguid_eqb oid objs = None -> forall g, In g gs -> ~ declares g oid.
Lemma group_cause pk ctx sp g ids : forall objs e,
  group_objects pk ctx sp g (gdata g) ids objs = Err e ->
  exists oid, In oid ids /\ alookup exguid_eqb oid objs = None /\ object_fault pk g oid e.
Proof.
  induction ids as [|i ids IH]; intros objs e; cbn [group_objects]; [discriminate|].
  unfold amember. destruct (alookup exguid_eqb i objs) as [x|] eqn:E.
  - intros H. apply IH in H as (oid & I & H). exists oid. split; [now right|exact H].
  - destruct (N.eqb_spec (len (og_decls g)) (len (og_objects g))) as [K|K]; cbn [negb]; unfold len in K.
    + destruct (object_parse i ctx sp (gdata g) pk) as [o|k| |] eqn:O; cbn [rbind]; try discriminate.
      * intros H. apply IH in H as (oid & I & H & F). exists oid. split; [now right|]. split; [|exact F].
        rewrite (alookup_insert exguid_eqb exguid_eqb_eq) in H. now destruct (exguid_eqb i oid).
      * intros H. injection H as ->. exists i. split; [now left|]. split; [exact E|].
        exact (object_cause pk ctx sp g i e O).
    + intros H. injection H as <-. exists i. split; [now left|]. split; [exact E|]. apply of_incomplete. lia.
Qed.
Lemma group_done pk ctx sp g gs objs objs' :
  group_objects pk ctx sp g (gdata g) (map decl_object_id (og_decls g)) objs = Ok objs' ->
  done gs objs -> done (gs ++ [g]) objs'.
Proof.
  intros H D oid N g' I. pose proof (group_objects_ok _ _ _ _ _ _ _ H oid) as K.
  destruct (alookup exguid_eqb oid objs) as [o|] eqn:E; [congruence|].
  destruct K as [(_ & _ & o & _ & K)|(K & _)]; [congruence|].
  apply in_app_or in I as [I|[<-|[]]]; [now apply (D oid E)|]. now rewrite declares_in.
Qed.
Lemma groups_cause pk ctx sp : forall ids gs objs e, done gs objs ->
  parse_groups pk ctx sp ids objs = Err e ->
  exists before gid after, ids = before ++ gid :: after /\
    ((e = MalformedOneStoreData /\ forall g, ~ group_at pk gid g) \/
     exists gb g oid, Forall2 (group_at pk) before gb /\ group_at pk gid g /\ declares g oid /\
       (forall g', In g' (gs ++ gb) -> ~ declares g' oid) /\ object_fault pk g oid e).
Proof.
  induction ids as [|i ids IH]; intros gs objs e D; cbn [parse_groups]; [discriminate|].
  unfold parse_group, find_object_group. destruct (alookup exguid_eqb i (pk_groups pk)) as [g|] eqn:G; cbn [ok_or rbind].
  - fold (gdata g). destruct (group_objects _ _ _ _ _ _ _) as [objs'|k| |] eqn:O; cbn [rbind]; try discriminate.
    + intros H. apply (IH (gs ++ [g])) in H; [|exact (group_done _ _ _ _ _ _ _ O D)].
      destruct H as (before & gid & after & -> & H). exists (i :: before), gid, after. split; [reflexivity|].
      destruct H as [H|(gb & g' & oid & F & A & B & C & X)]; [now left|]. right. exists (g :: gb), g', oid.
      split; [constructor; [exact G|exact F]|]. rewrite <- app_assoc in C. auto.
    + intros H. injection H as ->. apply group_cause in O as (oid & I & N & F).
      exists [], i, ids. split; [reflexivity|]. right. exists [], g, oid. split; [constructor|]. split; [exact G|].
      split; [now apply declares_in|]. split; [|exact F]. rewrite app_nil_r. exact (D oid N).
  - intros H. injection H as <-. exists [], i, ids. split; [reflexivity|]. left. split; [reflexivity|].
    unfold group_at. congruence.
Qed.
Lemma groups_done pk ctx sp : forall gb gs objs objs', done gs objs ->
  do_groups pk ctx sp gb objs = Ok objs' -> done (gs ++ gb) objs'.
Proof.
  induction gb as [|g gb IH]; intros gs objs objs' D; cbn [do_groups].
  - intros H. injection H as <-. now rewrite app_nil_r.
  - intros H. apply rbind_ok in H as (o & H & K). apply (IH (gs ++ [g])) in K; [now rewrite <- app_assoc in K|].
    exact (group_done _ _ _ _ _ _ _ H D).
Qed.

(** ** Revisions and cells *)
Lemma trail_snoc pg si id l j rm j' : trail pg si id l j -> revision_at (pg_package pg) j rm ->
  rm_base_rev_id rm <> nil_id -> names_revision (pg_package pg) si (rm_base_rev_id rm) j' ->
  trail pg si id (l ++ [rm]) j'.
Proof.
  intros T R N B. induction T as [id|id r i l j R' N' B' T IH]; cbn [app].
  - apply (tl_on _ _ _ _ j'); auto. apply tl_here.
  - apply (tl_on _ _ _ _ i); auto.
Qed.
Lemma role_err i e : role_parse i = Err e -> e = MalformedOneStoreData /\ forall r, i <> role_id r.
Proof.
  intros H. split.
  - unfold role_parse in H. destruct (negb _); [congruence|].
    destruct (eg_value i) as [|[[[]|[]|]|[[]|[]|]|]]; congruence.
  - intros r K. apply role_parse_ok in K. congruence.
Qed.
Lemma revision_cause h pg si m ctx sp id l gs j objs rts :
  start_at h pg si m id -> trail pg si id l j ->
  Forall2 (group_at (pg_package pg)) (flat_map rm_groups l) gs -> done gs objs ->
  blames (space_fault h pg si m) (revision_parse j ctx sp si (pg_package pg) [] objs rts).
Proof.
  intros A T G D. unfold revision_parse. apply blames_bind.
  { apply or_err. intros H. apply (sf_revision _ _ _ _ _ _ _ A T). intros rm X. unfold revision_at, find_revision_manifest in *. congruence. }
  intros rm Hr. apply ok_or_ok in Hr. apply blames_bind.
  { apply blames_opt. intros b Hb. unfold exguid_as_option in Hb. destruct (exguid_is_nil (rm_base_rev_id rm)) eqn:E; [discriminate Hb|].
    injection Hb as <-. apply or_err. intros H. apply (sf_base _ _ _ _ _ _ _ _ A T Hr); [|now apply resolve_revision_none].
    intro K. apply is_nil_spec in K. congruence. }
  intros base _. cbn [alookup]. apply blames_bind.
  { apply blames_map. intros d I. apply blames_bind; [|intros; apply blames_ok]. intros e H.
    apply role_err in H as (-> & H). exact (sf_root _ _ _ _ _ _ _ _ _ A T Hr I H). }
  intros new _. cbv zeta. apply blames_bind; [|intros; apply blames_ok].
  intros e H. apply (groups_cause _ _ _ _ gs) in H; [|exact D].
  destruct H as (before & gid & after & E & [(-> & H)|(gb & g & oid & F & Hg & Hd & N & X)]).
  - apply (sf_group _ _ _ _ _ _ _ _ gid A T Hr); [rewrite E; apply in_elt|exact H].
  - apply (sf_object _ _ _ _ _ _ _ _ before gid after (gs ++ gb) g oid e A T Hr E); auto.
    now apply Forall2_app.
Qed.
Lemma walk_cause h pg si m ctx sp id : start_at h pg si m id -> forall fuel l gs j objs rts,
  trail pg si id l j -> Forall2 (group_at (pg_package pg)) (flat_map rm_groups l) gs -> done gs objs ->
  blames (space_fault h pg si m) (revision_walk fuel ctx sp si (pg_package pg) [] (Some j) objs rts).
Proof.
  intros A. induction fuel as [|f IH]; intros l gs j objs rts T G D; cbn [revision_walk]; [intros e H; discriminate H|].
  apply blames_bind; [exact (revision_cause _ _ _ _ _ _ _ _ _ _ _ _ A T G D)|].
  intros [[base objs'] rts'] R. apply revision_parse_ok in R as (rm & gb & new & Hr & B & _ & _ & G' & K).
  destruct base as [b|]; [|destruct f; apply blames_ok]. destruct B as (N & B).
  apply (IH (l ++ [rm]) (gs ++ gb)).
  - exact (trail_snoc _ _ _ _ _ _ _ T Hr N B).
  - rewrite flat_map_app. cbn [flat_map]. rewrite app_nil_r. now apply Forall2_app.
  - exact (groups_done _ _ _ _ _ _ _ D K).
Qed.
Lemma done_nil objs : done [] objs.
Proof. intros oid _ g []. Qed.
Lemma space_cause h fuel pg si m : blames (space_fault h pg si m) (space_parse h fuel m si (pg_package pg) []).
Proof.
  unfold space_parse. fold (start h (pg_package pg) si m).
  destruct (start h (pg_package pg) si m) as [id|] eqn:E.
  - apply started in E. apply blames_bind; [|intros [? ?] _; apply blames_ok].
    apply (walk_cause _ _ _ _ _ _ _ E _ [] []); [apply tl_here|constructor|apply done_nil].
  - pose proof (proj1 (none_iff _ _ (started h pg si m)) E) as N. unfold find_cell_revision_id.
    destruct (alookup exguid_eqb (cm_id m) (pk_cells (pg_package pg))) as [c|] eqn:C.
    + destruct (exguid_is_nil c) eqn:Z; [apply blames_ok|]. intros e H. injection H as <-. apply (sf_start _ _ _ _ N).
      intro K. assert (c = nil_id) as X by congruence. apply is_nil_spec in X. congruence.
    + intros e H. injection H as <-. apply (sf_start _ _ _ _ N). congruence.
Qed.
Lemma trail_chain pg si id l j : trail pg si id l j -> forall revs, chain (pg_package pg) si id revs ->
  exists rest, revs = l ++ rest /\ chain (pg_package pg) si j rest.
Proof.
  induction 1 as [id|id rm i l j R N B T IH]; intros revs C; [exists revs; auto|].
  inversion C as [id' rm' R' N'|id' rm' i' l' R' N' B' C']; subst; unfold revision_at in *.
  - congruence.
  - assert (rm' = rm) as -> by congruence. apply resolve_revision_spec in B, B'. assert (i' = i) as -> by congruence.
    destruct (IH _ C') as (rest & -> & K). exists rest. auto.
Qed.
Lemma chain_hd pk si j rm rest : chain pk si j rest -> revision_at pk j rm -> exists t, rest = rm :: t /\
  (rm_base_rev_id rm = nil_id \/ exists i, names_revision pk si (rm_base_rev_id rm) i).
Proof.
  intros C R. inversion C as [id' rm' R' N'|id' rm' i' l' R' N' B' C']; subst; unfold revision_at in *;
    assert (rm' = rm) as -> by congruence; eexists; (split; [reflexivity|]); [now left|right; eauto].
Qed.
Lemma chain_at pk si j rest : chain pk si j rest -> exists rm, revision_at pk j rm.
Proof. destruct 1; eauto. Qed.
Lemma groups_fun pk ids gs gs' : Forall2 (group_at pk) ids gs -> Forall2 (group_at pk) ids gs' -> gs = gs'.
Proof.
  intros H. revert gs'. induction H as [|i g ids gs A B IH]; intros gs' K; inversion K as [|? g' ? gs'' A' B']; subst; [reflexivity|].
  f_equal; [unfold group_at in *; congruence|auto].
Qed.
Lemma groups_in pk ids gs i : Forall2 (group_at pk) ids gs -> In i ids -> exists g, group_at pk i g.
Proof. induction 1 as [|j g ids gs A B IH]; [intros []|]. intros [->|I]; eauto. Qed.
Lemma space_prevented h fuel pg si m e r : space_fault h pg si m e -> space_parse h fuel m si (pg_package pg) [] <> Ok r.
Proof.
  intros F H. unfold space_parse in H. fold (start h (pg_package pg) si m) in H.
  destruct (start h (pg_package pg) si m) as [id|] eqn:S.
  2:{ pose proof (proj1 (none_iff _ _ (started h pg si m)) S) as N. destruct F; try (eapply N; eassumption).
      unfold find_cell_revision_id in H. destruct (alookup exguid_eqb (cm_id m) (pk_cells (pg_package pg))) as [c|] eqn:C; [|discriminate H].
      destruct (exguid_is_nil c) eqn:Z; [|discriminate H]. apply is_nil_spec in Z. congruence. }
  apply rbind_ok in H as ([objs rts] & W & _). apply walk_ok in W as (revs & gs & new & C & _ & G & RT & _ & DG).
  assert (U : forall i, start_at h pg si m i -> i = id) by (intros i X; apply started in X; congruence).
  destruct F as [N _|i l j A T N|i l j rm A T R N B|i l j rm d A T R I N|i l j rm gid A T R I N|
    i l j rm before gid after gb g oid e A T R E G' Hg Hd N X].
  - exact (N _ (proj1 (started _ _ _ _ _) S)).
  - rewrite (U _ A) in T. destruct (trail_chain _ _ _ _ _ T _ C) as (rest & _ & K). apply chain_at in K as (rm & K). exact (N _ K).
  - rewrite (U _ A) in T. destruct (trail_chain _ _ _ _ _ T _ C) as (rest & _ & K). destruct (chain_hd _ _ _ _ _ K R) as (t & _ & [Z|(x & Z)]); [exact (N Z)|exact (B _ Z)].
  - rewrite (U _ A) in T. destruct (trail_chain _ _ _ _ _ T _ C) as (rest & -> & K). destruct (chain_hd _ _ _ _ _ K R) as (t & -> & _).
    assert (I' : In d (flat_map rm_roots (l ++ rm :: t))).
    { rewrite flat_map_app. apply in_or_app. right. cbn [flat_map]. apply in_or_app. now left. }
    rewrite RT in I'. apply in_map_iff in I' as (p & <- & _). exact (N _ eq_refl).
  - rewrite (U _ A) in T. destruct (trail_chain _ _ _ _ _ T _ C) as (rest & -> & K). destruct (chain_hd _ _ _ _ _ K R) as (t & -> & _).
    destruct (groups_in _ _ _ gid G) as (g & Hg); [|exact (N _ Hg)].
    rewrite flat_map_app. apply in_or_app. right. cbn [flat_map]. apply in_or_app. now left.
  - rewrite (U _ A) in T. destruct (trail_chain _ _ _ _ _ T _ C) as (rest & -> & K). destruct (chain_hd _ _ _ _ _ K R) as (t & -> & _).
    unfold chain_groups in G. rewrite flat_map_app in G. cbn [flat_map] in G. rewrite E in G.
    rewrite <- app_assoc in G. cbn [app] in G. rewrite app_assoc in G.
    apply Forall2_app_l in G as (g1 & g2 & -> & G1 & G2). rewrite (groups_fun _ _ _ _ G1 G') in *.
    inversion G2 as [|? g' ? g2' Hg' G3]; subst. unfold group_at in Hg, Hg'. assert (g' = g) as -> by congruence.
    pose proof (do_groups_ok _ _ _ _ _ _ DG oid) as Q. cbn [alookup] in Q.
    assert (FD : first_declaring (gb ++ g :: g2') oid g) by (exists gb, g2'; auto).
    destruct Q as [(g0 & o & FD' & L & P & _)|(Q & _)].
    + rewrite (first_declaring_fun _ _ _ _ FD' FD) in *. exact (object_prevented _ _ _ _ _ _ _ (object_parse_spec _ _ _ _ _ _ L P) X).
    + apply (Q g); [apply in_elt|exact Hd].
Qed.
(** Where no cycle can be reached the walk ends. *)
Lemma walk_ends fuel ctx sp si pk id objs rts visited :
  ~ reaches_cycle pk si id -> NoDup visited ->
  (forall v, In v visited -> (exists rm, revision_at pk v rm) /\ clos_trans _ (based_on pk si) v id) ->
  (S (length (pk_revisions pk)) <= fuel + length visited)%nat ->
  revision_walk fuel ctx sp si pk [] (Some id) objs rts <> OutOfFuel.
Proof.
  revert id objs rts visited; induction fuel as [|f IH]; intros id objs rts visited AC ND V L.
  - exfalso. assert (length visited <= length (map fst (pk_revisions pk)))%nat; [|rewrite map_length in *; cbn in L; lia].
    apply NoDup_incl_length; auto. intros v Hv. destruct (V v Hv) as [[rm Hrm] _].
    apply (alookup_in exguid_eqb exguid_eqb_eq) in Hrm. apply in_map_iff. exists (v, rm); auto.
  - cbn. destruct (revision_parse id ctx sp si pk [] objs rts) as [[[b o] r]| | |] eqn:E; cbn; try discriminate.
    + destruct b as [b|]; [|destruct f; discriminate].
      pose proof (revision_parse_base _ _ _ _ _ _ _ _ _ _ E) as B.
      apply (IH b o r (id :: visited)).
      * intros (x & R & C). apply AC. exists x. split; [|exact C]. eapply rt_trans; [apply rt_step; exact B|exact R].
      * constructor; auto. intro Hin. apply V in Hin as [_ Hin]. apply AC. exists id. split; [apply rt_refl|exact Hin].
      * intros v [<-|Hv].
        -- split; [|now apply t_step]. destruct B as (rm & Hrm & _). eauto.
        -- destruct (V v Hv) as [R T]. split; auto. eapply t_trans; [exact T|now apply t_step].
      * cbn. lia.
    + destruct (revision_parse_settled id ctx sp si pk [] objs rts) as [P _]. congruence.
Qed.
Lemma space_ends h fuel pg si m :
  (forall id, start_at h pg si m id -> ~ reaches_cycle (pg_package pg) si id) ->
  (S (length (pk_revisions (pg_package pg))) <= fuel)%nat ->
  space_parse h fuel m si (pg_package pg) [] <> OutOfFuel.
Proof.
  intros AC L. unfold space_parse. fold (start h (pg_package pg) si m). destruct (start h (pg_package pg) si m) as [id|] eqn:S.
  - apply started in S. destruct (revision_walk _ _ _ _ _ _ _ _ _) as [[o r]| | |] eqn:E; cbn; try discriminate.
    exfalso. revert E. apply (walk_ends _ _ _ _ _ _ _ _ []); auto using NoDup_nil.
    + intros v [].
    + cbn. lia.
  - destruct (find_cell_revision_id _ _) as [c|]; [destruct (exguid_is_nil c)|]; discriminate.
Qed.
Lemma space_circles h fuel pg si m id r : start_at h pg si m id -> reaches_cycle (pg_package pg) si id ->
  space_parse h fuel m si (pg_package pg) [] <> Ok r.
Proof.
  intros A C H. unfold space_parse in H. fold (start h (pg_package pg) si m) in H.
  apply started in A. rewrite A in H. apply rbind_ok in H as ([objs rts] & W & _).
  apply walk_ok in W as (revs & gs & new & K & _). exact (chain_no_cycle _ _ _ _ K C).
Qed.

(** ** The header *)
Lemma header_guid_cause ps p : In p [0x1C001D94; 0x1C001D95] ->
  blames (header_set_fault ps) (let! v := opt_map_res header_guid (oprops_get p ps) in ok_or MalformedOneStoreData v).
Proof.
  intros I. destruct (oprops_get p ps) as [v|] eqn:E; cbn [opt_map_res].
  - assert (K : (exists d, v = VVec d) \/ (forall d, v <> VVec d)) by (destruct v; ((left; eexists; reflexivity) || (right; discriminate))).
    destruct K as [(d & ->)|K].
    + cbn [header_guid]. destruct (run guid_parse d) as [x|k| |] eqn:R; cbn [rbind ok_or]; intros e H; try discriminate H.
      injection H as <-. apply run_err in R. pose proof (guid_err _ _ R) as L.
      assert (k = UnexpectedEof) as ->.
      { unfold guid_parse, pbind, pret in R. change get_u128 with (get_le 16) in R.
        destruct (get_le 16 d) as [[x y]|z| |] eqn:Z; try discriminate R. apply eof_le in Z. congruence. }
      exact (hs_short _ _ _ I E L).
    + assert (header_guid v = Err MalformedOneStoreData) as -> by (destruct v; try reflexivity; exfalso; eapply K; reflexivity).
      intros e H. injection H as <-. apply (hs_guid _ _ I). intros d X. rewrite E in X. injection X as X. exact (K _ X).
  - intros e H. injection H as <-. apply (hs_guid _ _ I). congruence.
Qed.
Lemma u32_cases v : (exists n, v = VU32 n) \/ (header_u32 v = Err MalformedOneStoreData /\ forall n, v <> VU32 n).
Proof. destruct v; ((left; eexists; reflexivity) || (right; split; [reflexivity|discriminate])). Qed.
Lemma nest {A B C} (r : res A) (f : A -> res B) (g : B -> res C) :
  (let! x := r in let! y := f x in g y) = (let! y := (let! x := r in f x) in g y).
Proof. now destruct r. Qed.
Lemma header_cause g : blames (header_group_fault g) (header_parse_store g).
Proof.
  unfold header_parse_store.
  pose proof (first_find _ (fun p => decl_partition (fst p) = 1) (combine (og_decls g) (og_objects g)) (fun p => N.eqb_eq (decl_partition (fst p)) 1)) as F.
  apply blames_bind.
  { apply or_err. intros H. rewrite H in F. apply hg_entry. intros d refs cells bs X. exact (F _ X). }
  intros [d o] Hf. apply ok_or_ok in Hf. rewrite Hf in F. apply blames_bind.
  { destruct o as [| |]; intros e H; try discriminate H; injection H as <-; apply hg_entry; intros ? ? ? ? X;
      pose proof (first_fun _ _ _ _ F X) as Q; discriminate Q. }
  intros bs Ed. assert (exists r c, o = DataObject r c bs) as (r & c & ->) by (destruct o; try discriminate Ed; injection Ed as ->; eauto).
  clear Ed. apply blames_bind.
  { intros e H. exact (hg_set _ _ _ _ _ _ F H). }
  intros ps Hps. apply (blames_mono (header_set_fault ps)); [|intros e H; exact (hg_content _ _ _ _ _ _ _ F Hps H)].
  rewrite nest. apply blames_bind; [apply header_guid_cause; now left|]. intros fi _.
  rewrite nest. apply blames_bind; [apply header_guid_cause; right; now left|]. intros ai _.
  apply blames_bind.
  { apply blames_opt. intros v E e H. destruct (u32_cases v) as [(n & ->)|(X & N)]; [discriminate H|].
    rewrite X in H. injection H as <-. exact (hs_version _ _ E N). }
  intros lc _. rewrite nest. apply blames_bind; [|intros; apply blames_ok].
  destruct (oprops_get P_FileNameCrc ps) as [v|] eqn:E; cbn [opt_map_res].
  - destruct (u32_cases v) as [(n & ->)|(X & N)]; [apply blames_ok|]. rewrite X.
    intros e H. injection H as <-. apply hs_crc. intros n K. change 0x14001D93 with P_FileNameCrc in K. rewrite E in K.
    injection K as K. exact (N _ K).
  - intros e H. injection H as <-. apply hs_crc. intros n K. change 0x14001D93 with P_FileNameCrc in K. congruence.
Qed.
Lemma header_guid_fine ps p x : (let! v := opt_map_res header_guid (oprops_get p ps) in ok_or MalformedOneStoreData v) = Ok x ->
  exists d, oprops_get p ps = Some (VVec d) /\ (16 <= length d)%nat.
Proof.
  intros H. apply rbind_ok in H as (v & H & K). apply ok_or_ok in K as ->.
  destruct (oprops_get p ps) as [w|]; [|discriminate H]. cbn [opt_map_res] in H. apply rbind_ok in H as (y & H & _).
  destruct w; try discriminate H. cbn [header_guid] in H. apply run_ok in H as (r & H). apply guid_len in H. eexists. split; [reflexivity|lia].
Qed.
Lemma header_prevented g e hd : header_group_fault g e -> header_parse_store g <> Ok hd.
Proof.
  intros X H. unfold header_parse_store in H.
  pose proof (first_find _ (fun p => decl_partition (fst p) = 1) (combine (og_decls g) (og_objects g)) (fun p => N.eqb_eq (decl_partition (fst p)) 1)) as F.
  apply rbind_ok in H as ([d o] & Hf & H). apply ok_or_ok in Hf. rewrite Hf in F.
  apply rbind_ok in H as (bs & Ed & H).
  assert (exists r c, o = DataObject r c bs) as (r & c & ->) by (destruct o; try discriminate Ed; injection Ed as ->; eauto).
  apply rbind_ok in H as (ps & Hps & H). rewrite nest in H. apply rbind_ok in H as (fi & H1 & H). rewrite nest in H.
  apply rbind_ok in H as (ai & H2 & H). apply rbind_ok in H as (lc & H3 & H). rewrite nest in H. apply rbind_ok in H as (crc & H4 & _).
  destruct X as [N|d' r' c' b' e F' R|d' r' c' b' ps' e F' R S].
  - exact (N _ _ _ _ F).
  - pose proof (first_fun _ _ _ _ F F') as Q. injection Q as -> -> -> ->. congruence.
  - pose proof (first_fun _ _ _ _ F F') as Q. injection Q as -> -> -> ->. assert (ps' = ps) as -> by congruence.
    apply header_guid_fine in H1 as (d1 & H1 & L1), H2 as (d2 & H2 & L2).
    destruct S as [p I N|p d I E L|N|v E N].
    + destruct I as [<-|[<-|[]]]; [exact (N _ H1)|exact (N _ H2)].
    + destruct I as [<-|[<-|[]]].
      * change 0x1C001D94 with P_FileIdentityGuid in E. rewrite H1 in E. injection E as ->. lia.
      * change 0x1C001D95 with P_FileAncestorIdentityGuid in E. rewrite H2 in E. injection E as ->. lia.
    + change 0x14001D93 with P_FileNameCrc in N. destruct (oprops_get P_FileNameCrc ps) as [v|]; [|discriminate H4].
      destruct (u32_cases v) as [(n & ->)|(X & _)]; [exact (N _ eq_refl)|]. cbn [opt_map_res] in H4. rewrite X in H4. discriminate H4.
    + change 0x14001D99 with P_FileLastCodeVersionThatWroteToIt in E. rewrite E in H3. cbn [opt_map_res] in H3.
      destruct (u32_cases v) as [(n & ->)|(X & _)]; [exact (N _ eq_refl)|]. rewrite X in H3. discriminate H3.
Qed.

(** ** The whole store *)
Lemma find_objects_cause h pg si m : blames (header_fault h pg si m) (find_objects h (pg_package pg) (cm_id m) si).
Proof.
  unfold find_objects. fold (header_rev h (pg_package pg) si (cm_id m)). apply blames_bind.
  { apply or_err. intros H. apply hf_start. exact (proj1 (none_iff _ _ (header_started h pg si m)) H). }
  intros id Hi. apply ok_or_ok, header_started in Hi. apply blames_bind.
  { apply or_err. intros H. apply (hf_revision _ _ _ _ _ Hi). intros rm X. unfold revision_at, find_revision_manifest in *. congruence. }
  intros rm Hr. apply ok_or_ok in Hr. apply blames_map. intros gid I. apply or_err. intros H.
  apply (hf_group _ _ _ _ _ _ gid Hi Hr I). intros g X. unfold group_at, find_object_group in *. congruence.
Qed.
Lemma find_objects_ok h pg si m gs : find_objects h (pg_package pg) (cm_id m) si = Ok gs -> exists id rm,
  header_start h pg si m id /\ revision_at (pg_package pg) id rm /\ Forall2 (group_at (pg_package pg)) (rm_groups rm) gs.
Proof.
  unfold find_objects. fold (header_rev h (pg_package pg) si (cm_id m)). intros H.
  apply rbind_ok in H as (id & Hi & H). apply ok_or_ok, header_started in Hi.
  apply rbind_ok in H as (rm & Hr & H). apply ok_or_ok in Hr. exists id, rm. split; [exact Hi|]. split; [exact Hr|].
  apply map_res_ok in H. clear -H. induction H as [|a b l l' A B IH]; constructor; [|exact IH]. now apply ok_or_ok in A.
Qed.
Lemma mapping_of si c : find_cell_mapping_id si c = option_map cm_id (alookup cellid_eqb c (si_cells si)).
Proof. reflexivity. Qed.
Section Store.
  Context (h : order) (pg : packaging) (PK : package_ok (pg_package pg)).
  Notation pk := (pg_package pg).
  Lemma index_cells si : chosen_index h pg si -> cells_ok si.
  Proof. intros H. apply index_chosen, index_used_in in H as (k & H). exact (proj2 PK _ _ H). Qed.
  Lemma spaces_cause fuel si sm hc rc : chosen_index h pg si -> chosen_manifest h pg sm ->
    alookup exguid_eqb header_root (sm_roots sm) = Some hc ->
    forall ms acc, (forall m, In m ms -> In (cm_cell m, m) (si_cells si)) ->
    blames (store_fault h pg) (parse_spaces h fuel si pk [] [hc; rc] ms acc).
  Proof.
    intros I M Hh. induction ms as [|m ms IH]; intros acc Q; cbn [parse_spaces]; [apply blames_ok|].
    assert (Q' : forall m, In m ms -> In (cm_cell m, m) (si_cells si)) by (intros; apply Q; now right).
    destruct (exguid_is_nil (cm_id m)) eqn:Z; [now apply IH|].
    destruct (existsb (cellid_eqb (cm_cell m)) [hc; rc]) eqn:X; [now apply IH|].
    assert (L : alookup cellid_eqb (cm_cell m) (si_cells si) = Some m).
    { apply (alookup_nodup cellid_eqb cellid_eqb_eq); [exact (proj1 (index_cells _ I))|apply Q; now left]. }
    apply blames_bind; [|intros [? ?] _; now apply IH].
    unfold parse_object_space. rewrite L. cbn [ok_or rbind].
    apply (blames_mono (space_fault h pg si m)); [apply space_cause|]. intros e F. apply (st_space _ _ si m); auto.
    exists sm, (cm_cell m). split; [exact M|]. split; [exact L|]. right. split.
    - intro K. apply is_nil_spec in K. congruence.
    - intro K. assert (~ In (cm_cell m) [hc; rc]) as N by (intro N; apply existsb_cell in N; congruence).
      apply N. left. congruence.
  Qed.
  Lemma store_cause fuel : blames (store_fault h pg) (parse_store h fuel pg).
  Proof.
    unfold parse_store. fold (index_used h pg). apply blames_bind.
    { apply or_err. intros H. apply st_index. exact (proj1 (none_iff _ _ (index_chosen h pg)) H). }
    intros si Hi. apply ok_or_ok, index_chosen in Hi. apply blames_bind.
    { apply or_err. intros H. apply st_manifest. exact (proj1 (none_iff _ _ (manifest_chosen h pg)) H). }
    intros sm Hm. apply ok_or_ok, manifest_chosen in Hm. apply blames_bind.
    { apply or_err. intros H. apply (st_cell _ _ _ header_root Hm); [now left|exact H]. }
    intros hc Hh. apply ok_or_ok in Hh. change header_cell_root with header_root in Hh. rewrite mapping_of.
    destruct (alookup cellid_eqb hc (si_cells si)) as [hm|] eqn:Lh; cbn [option_map ok_or rbind].
    2:{ intros e H. injection H as <-. apply (st_mapping _ _ _ _ header_root hc Hi Hm); [now left|exact Hh|exact Lh]. }
    apply blames_bind.
    { apply (blames_mono (header_fault h pg si hm)); [apply find_objects_cause|]. intros e F.
      exact (st_header _ _ _ _ _ _ _ Hi Hm Hh Lh F). }
    intros gs Hg. apply find_objects_ok in Hg as (id & rm & A & R & G). apply blames_bind.
    { apply or_err. intros H. destruct gs; [|discriminate H]. inversion G as [E|]. apply (st_header _ _ _ _ _ _ _ Hi Hm Hh Lh).
      exact (hf_none _ _ _ _ _ _ A R (eq_sym E)). }
    intros hg Hg. apply ok_or_ok in Hg. destruct gs as [|g gs]; [discriminate Hg|]. injection Hg as ->. apply blames_bind.
    { apply (blames_mono (header_group_fault hg)); [apply header_cause|]. intros e F. apply (st_header _ _ _ _ _ _ _ Hi Hm Hh Lh).
      destruct (rm_groups rm) as [|gid l] eqn:E; inversion G; subst. exact (hf_content _ _ _ _ _ _ _ _ _ _ A R E H2 F). }
    intros hd _. apply blames_bind.
    { apply or_err. intros H. apply (st_cell _ _ _ content_cell_root Hm); [right; now left|exact H]. }
    intros rc Hr. apply ok_or_ok in Hr. change data_root with content_cell_root in Hr. apply blames_bind.
    { unfold parse_object_space. apply blames_bind.
      - apply or_err. intros L. apply (st_mapping _ _ _ _ content_cell_root rc Hi Hm); [right; now left|exact Hr|exact L].
      - intros m L. apply ok_or_ok in L. apply (blames_mono (space_fault h pg si m)); [apply space_cause|].
        intros e F. apply (st_space _ _ si m); auto. exists sm, rc. auto. }
    intros [rid root] _. apply blames_bind; [|intros; apply blames_ok].
    apply (spaces_cause fuel si sm hc rc Hi Hm Hh). intros m I. now apply (cells_values h si (index_cells _ Hi)).
  Qed.

  Lemma index_fun a b : chosen_index h pg a -> chosen_index h pg b -> a = b.
  Proof. intros A B. apply index_chosen in A, B. congruence. Qed.
  Lemma manifest_fun a b : chosen_manifest h pg a -> chosen_manifest h pg b -> a = b.
  Proof. intros (l & A) (l' & B). congruence. Qed.
  (** What an opened store has gone through. *)
  Lemma store_read fuel st : parse_store h fuel pg = Ok st -> exists si sm hc hm rc rm,
    chosen_index h pg si /\ chosen_manifest h pg sm /\
    alookup exguid_eqb header_root (sm_roots sm) = Some hc /\ alookup cellid_eqb hc (si_cells si) = Some hm /\
    alookup exguid_eqb content_cell_root (sm_roots sm) = Some rc /\ alookup cellid_eqb rc (si_cells si) = Some rm /\
    (forall m, cell_read h pg si m -> exists r, space_parse h fuel m si pk [] = Ok r) /\
    exists g gs, find_objects h pk (cm_id hm) si = Ok (g :: gs) /\ exists hd, header_parse_store g = Ok hd.
  Proof.
    intros H. unfold parse_store in H. fold (index_used h pg) in H.
    apply rbind_ok in H as (si & Hi & H). apply ok_or_ok, index_chosen in Hi.
    apply rbind_ok in H as (sm & Hm & H). apply ok_or_ok, manifest_chosen in Hm.
    apply rbind_ok in H as (hc & Hh & H). apply ok_or_ok in Hh. change header_cell_root with header_root in Hh.
    apply rbind_ok in H as (hi & Lh & H). apply ok_or_ok in Lh. rewrite mapping_of in Lh.
    destruct (alookup cellid_eqb hc (si_cells si)) as [hm|] eqn:Eh; [|discriminate Lh]. injection Lh as <-.
    apply rbind_ok in H as (gs & Hg & H). apply rbind_ok in H as (g & Hg1 & H). apply ok_or_ok in Hg1.
    destruct gs as [|g' gs]; [discriminate Hg1|]. injection Hg1 as ->.
    apply rbind_ok in H as (hd & Hd & H).
    apply rbind_ok in H as (rc & Hr & H). apply ok_or_ok in Hr. change data_root with content_cell_root in Hr.
    apply rbind_ok in H as ([rid root] & Hroot & H). apply rbind_ok in H as (sp & Hsp & _).
    unfold parse_object_space in Hroot. apply rbind_ok in Hroot as (m & Em & Hroot). apply ok_or_ok in Em.
    pose proof (index_cells _ Hi) as C. apply (parse_spaces_spec _ _ _ _ _ _ C) in Hsp as [A1 _].
    exists si, sm, hc, hm, rc, m. repeat (split; [assumption|]). split; [|eauto].
    intros x (sm' & c & Hm' & L & [K|(N & K)]).
    - rewrite (manifest_fun _ _ Hm' Hm) in K. assert (c = rc) as -> by congruence. assert (x = m) as -> by congruence. eauto.
    - rewrite (manifest_fun _ _ Hm' Hm) in K. destruct (cellid_eqb c rc) eqn:E.
      + apply cellid_eqb_eq in E as ->. assert (x = m) as -> by congruence. eauto.
      + destruct (A1 c x L N) as (s & Hs); [|eauto]. intros [<-|[<-|[]]]; [congruence|].
        assert (cellid_eqb rc rc = true) by now apply cellid_eqb_eq. congruence.
  Qed.
  Lemma store_prevented fuel st e : store_fault h pg e -> parse_store h fuel pg <> Ok st.
  Proof.
    intros F H. apply store_read in H as (si & sm & hc & hm & rc & rm & Hi & Hm & Hh & Lh & Hr & Lr & S & g & gs & Hg & hd & Hd).
    destruct F as [N|N|sm' r Hm' I N|si' sm' r c Hi' Hm' I K N|si' sm' c m e Hi' Hm' K L F|si' m e Hi' R F].
    - exact (N _ Hi).
    - exact (N _ Hm).
    - rewrite (manifest_fun _ _ Hm' Hm) in N. destruct I as [<-|[<-|[]]]; congruence.
    - rewrite (manifest_fun _ _ Hm' Hm) in K. rewrite (index_fun _ _ Hi' Hi) in N. destruct I as [<-|[<-|[]]]; congruence.
    - rewrite (manifest_fun _ _ Hm' Hm) in K. rewrite (index_fun _ _ Hi' Hi) in *. assert (c = hc) as -> by congruence.
      assert (m = hm) as -> by congruence. apply find_objects_ok in Hg as (id & rv & A & Rv & G).
      assert (U : forall i, header_start h pg si hm i -> i = id) by (intros i X; apply header_started in X, A; congruence).
      destruct F as [N|i A' N|i rv' gid A' R' I N|i rv' A' R' N|i rv' gid l g' e A' R' E Hg' F];
        try (rewrite (U _ A') in *; assert (rv' = rv) as -> by (unfold revision_at in *; congruence)).
      + exact (N _ A).
      + rewrite (U _ A') in N. exact (N _ Rv).
      + destruct (groups_in _ _ _ _ G I) as (x & X). exact (N _ X).
      + rewrite N in G. inversion G.
      + rewrite E in G. inversion G as [|? ? ? ? X Y]; subst. unfold group_at in *. assert (g' = g) as -> by congruence.
        exact (header_prevented _ _ _ F Hd).
    - rewrite (index_fun _ _ Hi' Hi) in *. destruct (S _ R) as (r & X). exact (space_prevented _ _ _ _ _ _ _ F X).
  Qed.
  Lemma store_circles fuel st : endless h pg -> parse_store h fuel pg <> Ok st.
  Proof.
    intros (si' & m & id & Hi' & R & A & C) H.
    apply store_read in H as (si & sm & hc & hm & rc & rm & Hi & Hm & _ & _ & _ & _ & S & _).
    rewrite (index_fun _ _ Hi' Hi) in *. destruct (S _ R) as (r & X). exact (space_circles _ _ _ _ _ _ _ A C X).
  Qed.
  Lemma spaces_end fuel si hc rc :
    chosen_index h pg si -> ~ endless h pg -> (S (length (pk_revisions pk)) <= fuel)%nat ->
    forall sm, chosen_manifest h pg sm -> alookup exguid_eqb header_root (sm_roots sm) = Some hc ->
    forall ms acc, (forall m, In m ms -> In (cm_cell m, m) (si_cells si)) ->
    parse_spaces h fuel si pk [] [hc; rc] ms acc <> OutOfFuel.
  Proof.
    intros I E L sm M Hh. induction ms as [|m ms IH]; intros acc Q; cbn [parse_spaces]; [discriminate|].
    assert (Q' : forall m, In m ms -> In (cm_cell m, m) (si_cells si)) by (intros; apply Q; now right).
    destruct (exguid_is_nil (cm_id m)) eqn:Z; [now apply IH|].
    destruct (existsb (cellid_eqb (cm_cell m)) [hc; rc]) eqn:X; [now apply IH|].
    assert (K : alookup cellid_eqb (cm_cell m) (si_cells si) = Some m).
    { apply (alookup_nodup cellid_eqb cellid_eqb_eq); [exact (proj1 (index_cells _ I))|apply Q; now left]. }
    unfold parse_object_space. rewrite K. cbn [ok_or rbind].
    destruct (space_parse h fuel m si pk []) as [[c s]|k| |] eqn:S; cbn [rbind]; try discriminate; [now apply IH|].
    exfalso. revert S. apply space_ends; [|exact L]. intros id A C. apply E. exists si, m, id. split; [exact I|]. split; [|auto].
    exists sm, (cm_cell m). split; [exact M|]. split; [exact K|]. right. split.
    - intro Y. apply is_nil_spec in Y. congruence.
    - intro Y. assert (~ In (cm_cell m) [hc; rc]) as N by (intro N; apply existsb_cell in N; congruence).
      apply N. left. congruence.
  Qed.
  Lemma settled_fuel {A B} (r : res A) (f : A -> res B) : settled r -> (forall a, r = Ok a -> f a <> OutOfFuel) -> rbind r f <> OutOfFuel.
  Proof. intros [N _] F. destruct r as [a|k| |]; cbn [rbind]; try discriminate; [now apply F|congruence]. Qed.
  Lemma store_ends fuel : ~ endless h pg -> (S (length (pk_revisions pk)) <= fuel)%nat -> parse_store h fuel pg <> OutOfFuel.
  Proof.
    intros E L. unfold parse_store. fold (index_used h pg). apply settled_fuel; [apply settled_ok_or|].
    intros si Hi. apply ok_or_ok, index_chosen in Hi. apply settled_fuel; [apply settled_ok_or|].
    intros sm Hm. apply ok_or_ok, manifest_chosen in Hm. apply settled_fuel; [apply settled_ok_or|].
    intros hc Hh. apply ok_or_ok in Hh. change header_cell_root with header_root in Hh. apply settled_fuel; [apply settled_ok_or|].
    intros hm _. apply settled_fuel; [apply find_objects_settled|]. intros gs _. apply settled_fuel; [apply settled_ok_or|].
    intros g _. apply settled_fuel; [apply header_settled|]. intros hd _. apply settled_fuel; [apply settled_ok_or|].
    intros rc Hr. apply ok_or_ok in Hr. change data_root with content_cell_root in Hr.
    assert (R : parse_object_space h fuel rc si pk [] <> OutOfFuel).
    { unfold parse_object_space. apply settled_fuel; [apply settled_ok_or|]. intros m K. apply ok_or_ok in K.
      apply space_ends; [|exact L]. intros id A C. apply E. exists si, m, id. split; [exact Hi|]. split; [|auto]. exists sm, rc. auto. }
    destruct (parse_object_space h fuel rc si pk []) as [[rid root]|k| |]; cbn [rbind]; try discriminate; [|congruence].
    assert (Q := spaces_end fuel si hc rc Hi E L sm Hm Hh (o_cells h (map snd (si_cells si))) []
      (fun m I => proj1 (proj2 (cells_values h si (index_cells _ Hi)) m) I)).
    destruct (parse_spaces _ _ _ _ _ _ _ _) as [s|k| |]; cbn [rbind]; try discriminate. congruence.
  Qed.
  Lemma store_opens : (exists fuel st, parse_store h fuel pg = Ok st) <-> (forall e, ~ store_fault h pg e) /\ ~ endless h pg.
  Proof.
    split.
    - intros (fuel & st & H). split; [intros e F; exact (store_prevented _ _ _ F H)|intro F; exact (store_circles _ _ F H)].
    - intros (N & E). exists (S (length (pk_revisions pk))).
      destruct (parse_store h (S (length (pk_revisions pk))) pg) as [st|e| |] eqn:H.
      + eauto.
      + contradiction (N e). exact (store_cause _ _ H).
      + exfalso. exact (parse_store_no_panic _ _ _ H).
      + exfalso. revert H. apply store_ends; auto.
  Qed.
End Store.

(** ** On bytes *)
Lemma open_taken h fuel data r : open_store h fuel data = Ok r ->
  exists pg rest, packaging_parse data = Ok (pg, rest) /\ parse_store h fuel pg = Ok r.
Proof. intros H. apply rbind_ok in H as (pg & H & K). apply run_ok in H as (rest & H). eauto. Qed.
Lemma open_of h fuel data pg rest : packaging_parse data = Ok (pg, rest) -> open_store h fuel data = parse_store h fuel pg.
Proof. intros H. unfold open_store, run. now rewrite H. Qed.
Lemma opening_cause h fuel data e : open_store h fuel data = Err e ->
  packaging_parse data = Err e \/ exists pg rest, packaging_parse data = Ok (pg, rest) /\ store_fault h pg e.
Proof.
  intros H. destruct (packaging_parse data) as [[pg rest]|k| |] eqn:E.
  - right. exists pg, rest. split; [reflexivity|]. rewrite (open_of _ _ _ _ _ E) in H.
    exact (store_cause h pg (packaging_parse_ok _ _ _ E) _ _ H).
  - left. unfold open_store, run in H. rewrite E in H. cbn [rbind] in H. congruence.
  - unfold open_store, run in H. rewrite E in H. discriminate H.
  - unfold open_store, run in H. rewrite E in H. discriminate H.
Qed.
Lemma object_fault_kinds pk g oid e : object_fault pk g oid e -> In e container_kinds.
Proof.
  intros F. destruct F as [| | |r c d e G R| | | |]; try (cbn; tauto). apply run_err in R. exact (oprops_kinds _ _ R).
Qed.
Lemma header_group_fault_kinds g e : header_group_fault g e -> In e container_kinds.
Proof.
  intros F. destruct F as [|d r c bs e G R|d r c bs ps e G R S]; [cbn; tauto|apply run_err in R; exact (oprops_kinds _ _ R)|].
  destruct S; cbn; tauto.
Qed.
Lemma store_fault_kinds h pg e : store_fault h pg e -> In e container_kinds.
Proof.
  intros F. destruct F as [| | | |? ? ? ? e ? ? ? ? F|? ? e ? ? F]; try (cbn; tauto).
  - destruct F; try (cbn; tauto). eapply header_group_fault_kinds; eassumption.
  - destruct F; try (cbn; tauto). eapply object_fault_kinds; eassumption.
Qed.
Lemma opening_fault_kinds h data e : opening_fault h data e -> In e container_kinds.
Proof. intros [F|(pg & rest & _ & F)]; [exact (packaging_kinds _ _ F)|exact (store_fault_kinds _ _ _ F)]. Qed.
