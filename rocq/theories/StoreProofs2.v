(** Proofs about [Store.v], continued: object spaces, termination, hash order. *)
From Coq Require Import Lia ZifyBool ZifyNat ZifyN Relations Permutation.
From Verif Require Import Base BaseProofs Codec CodecProofs Package PackageRT PackageFacts PropSet
  PropSetProofs Store SpecStore StoreProofs.
Ltac Zify.zify_post_hook ::= Z.div_mod_to_equations.

(** ** Where a space starts *)
Lemma by_serial_spec h si m :
  match find_revision_mapping_by_serial h si (cm_serial m) with
  | Some id => by_serial si m id
  | None => forall id, ~ by_serial si m id
  end.
Proof.
  unfold find_revision_mapping_by_serial, by_serial.
  pose proof (o_revs_perm h (map snd (si_revs si))) as P.
  assert (S : forall r, (sn_guid (rv_serial r) =? sn_guid (cm_serial m))
                        && (sn_serial (rv_serial r) =? sn_serial (cm_serial m)) = true <-> rv_serial r = cm_serial m).
  { intro r. destruct (rv_serial r) as [g v], (cm_serial m) as [g' v']; cbn.
    rewrite andb_true_iff, !N.eqb_eq. split; [intros [-> ->]; auto|intro H; injection H; auto]. }
  destruct (find _ _) as [r|] eqn:E; cbn [option_map].
  - apply find_some in E as [E1 E2]. apply S in E2.
    apply (Permutation_in _ (Permutation_sym P)) in E1. apply in_map_iff in E1 as ([k r'] & <- & E1).
    exists k, r'. auto.
  - intros id (k & r & Hin & Hs & _). apply (in_map snd) in Hin. apply (Permutation_in _ P) in Hin.
    eapply find_none in E; [|exact Hin]. cbn in E. apply S in Hs. rewrite Hs in E. discriminate.
Qed.

Lemma resolve_cell_spec pk si m :
  match resolve_cell_revision_manifest_id pk si (cm_id m) with
  | Some id => by_manifest pk si m id \/ ((forall i, ~ by_manifest pk si m i) /\ by_mapping pk si m id)
  | None => (forall i, ~ by_manifest pk si m i) /\ (forall i, ~ by_mapping pk si m i)
  end.
Proof.
  unfold resolve_cell_revision_manifest_id, find_cell_revision_id, or_else, by_manifest, by_mapping.
  destruct (alookup exguid_eqb (cm_id m) (pk_cells pk)) as [r|] eqn:Ec.
  - destruct (resolve_revision_manifest_id pk si r) as [id|] eqn:E1.
    + left. exists r. split; auto. now apply resolve_revision_spec.
    + assert (A : forall i, ~ (exists r0, Some r = Some r0 /\ names_revision pk si r0 i)).
      { intros i (r0 & E & H). injection E as <-. apply resolve_revision_spec in H. congruence. }
      destruct (resolve_revision_manifest_id pk si (cm_id m)) as [id|] eqn:E2.
      * right. split; auto. now apply resolve_revision_spec.
      * split; auto. now apply resolve_revision_none.
  - assert (A : forall i, ~ (exists r0, None = Some r0 /\ names_revision pk si r0 i)).
    { intros i (r0 & E & H). discriminate. }
    destruct (resolve_revision_manifest_id pk si (cm_id m)) as [id|] eqn:E2.
    * right. split; auto. now apply resolve_revision_spec.
    * split; auto. now apply resolve_revision_none.
Qed.

Definition start (h : order) (pk : package) (si : storage_index) (m : cell_mapping) : option exguid :=
  or_else (resolve_cell_revision_manifest_id pk si (cm_id m))
          (find_revision_mapping_by_serial h si (cm_serial m)).

Lemma start_spec h pk si m :
  match start h pk si m with
  | Some id => newest pk si m id
  | None => forall id, ~ newest pk si m id
  end.
Proof.
  unfold start, or_else, newest. pose proof (resolve_cell_spec pk si m) as R.
  pose proof (by_serial_spec h si m) as S.
  destruct (resolve_cell_revision_manifest_id pk si (cm_id m)) as [id|].
  - tauto.
  - destruct (find_revision_mapping_by_serial h si (cm_serial m)) as [id|].
    + tauto.
    + intros id [H|[[_ H]|[_ [_ H]]]]; firstorder.
Qed.

(** ** Object spaces: what an accepted space contains *)
Definition space_of (pk : package) (si : storage_index) (m : cell_mapping) (s : space)
           (revs : list revision_manifest) (gs : list object_group) : Prop :=
  chain_groups pk revs gs /\
  (forall oid g o, first_declaring gs oid g -> get_object s oid = Some o ->
     object_of pk (fst (cm_cell m)) (snd (cm_cell m)) g oid o) /\
  (forall oid, (exists o, get_object s oid = Some o) <-> exists g, In g gs /\ declares g oid).

Lemma first_declaring_exists gs oid :
  (exists g, In g gs /\ declares g oid) <-> exists g, first_declaring gs oid g.
Proof.
  induction gs as [|g gs IH].
  - split; [intros (g & [] & _)|intros (g & pre & suf & E & _)]. destruct pre; discriminate E.
  - split.
    + intros (g' & Hin & D). destruct (declares_dec g oid) as [Dg|Dg].
      * exists g. apply first_declaring_cons. auto.
      * destruct Hin as [->|Hin]; [contradiction|].
        destruct (proj1 IH (ex_intro _ g' (conj Hin D))) as [x Hx]. exists x.
        apply first_declaring_cons. auto.
    + intros (g' & H). apply first_declaring_cons in H as [[D ->]|[_ H]].
      * exists g. split; auto. now left.
      * destruct (proj2 IH (ex_intro _ g' H)) as (x & Hx & D). exists x. split; auto. now right.
Qed.

Lemma first_declaring_fun gs oid g g' :
  first_declaring gs oid g -> first_declaring gs oid g' -> g = g'.
Proof.
  induction gs as [|x gs IH].
  - intros (pre & suf & E & _). destruct pre; discriminate E.
  - rewrite !first_declaring_cons. intros [[D ->]|[D H]] [[D' ->]|[D' H']]; auto; contradiction.
Qed.

Lemma space_parse_ok h fuel m si pk c s :
  space_parse h fuel m si pk [] = Ok (c, s) ->
  c = cm_cell m /\ sp_id s = snd c /\ sp_context s = fst c /\
  ((sp_objects s = [] /\ sp_roots s = [] /\
    alookup exguid_eqb (cm_id m) (pk_cells pk) = Some nil_id /\ forall id, ~ newest pk si m id)
   \/
   exists id revs gs,
     newest pk si m id /\ chain pk si id revs /\ chain_groups pk revs gs /\
     (forall oid o, get_object s oid = Some o -> exists g,
        first_declaring gs oid g /\ object_of pk (fst c) (snd c) g oid o) /\
     (forall oid, get_object s oid = None <-> forall g, In g gs -> ~ declares g oid) /\
     (forall d, In d (flat_map rm_roots revs) -> exists r, fst d = role_id r) /\
     (forall r oid, alookup role_eqb r (sp_roots s) = Some oid <->
                    last_root (flat_map rm_roots revs) r oid)).
Proof.
  unfold space_parse. fold (start h pk si m). pose proof (start_spec h pk si m) as S.
  destruct (start h pk si m) as [id|].
  - intro H. apply rbind_ok in H as ([objs rts] & W & H). injection H as <- <-.
    apply walk_ok in W as (revs & gs & new & C & _ & F & R & -> & D).
    cbn [sp_id sp_context sp_roots sp_objects]. split; auto. split; auto. split; auto.
    right. exists id, revs, gs. split; auto. split; auto. split; auto.
    unfold get_object. cbn [sp_objects].
    pose proof (do_groups_ok _ _ _ _ _ _ D) as G. cbn [alookup] in G.
    split; [|split; [|split]].
    + intros oid o E. destruct (G oid) as [(g & o' & H1 & H2 & H3 & H4)|[_ H]]; [|congruence].
      exists g. split; auto. apply object_parse_spec; auto. congruence.
    + intro oid. destruct (G oid) as [(g & o' & H1 & H2 & H3 & H4)|[H1 H2]].
      * rewrite H4. split; [discriminate|]. intro N. exfalso.
        destruct (proj2 (first_declaring_exists gs oid) (ex_intro _ g H1)) as (g' & Hin & Hd).
        eapply N; eauto.
      * tauto.
    + intros d Hin. rewrite R in Hin. apply in_map_iff in Hin as ([r o] & <- & _). cbn. eauto.
    + intros r oid. rewrite R. apply last_root_extend.
  - unfold find_cell_revision_id. destruct (alookup exguid_eqb (cm_id m) (pk_cells pk)) as [r|] eqn:E; [|discriminate].
    destruct (exguid_is_nil r) eqn:N; [|discriminate]. intro H. injection H as <- <-. cbn.
    apply is_nil_spec in N. subst. auto 10.
Qed.

(** ... and when it is accepted. *)
Lemma roots_new (ds : list (exguid * exguid)) : (forall d, In d ds -> exists r, fst d = role_id r) ->
  exists new, ds = map (fun p => (role_id (fst p), snd p)) new.
Proof.
  induction ds as [|[i o] ds IH]; intro H; [exists []; auto|].
  destruct (H (i, o) (or_introl eq_refl)) as [r Hr]. cbn in Hr. subst.
  destruct IH as [new ->]; [intros d Hd; apply H; now right|]. exists ((r, o) :: new). auto.
Qed.

Lemma space_parse_accepts h fuel m si pk id revs gs :
  newest pk si m id -> (forall id', newest pk si m id' -> id' = id) ->
  chain pk si id revs -> chain_groups pk revs gs ->
  (forall d, In d (flat_map rm_roots revs) -> exists r, fst d = role_id r) ->
  (forall oid g, first_declaring gs oid g ->
     exists o, object_of pk (fst (cm_cell m)) (snd (cm_cell m)) g oid o) ->
  (length revs <= fuel)%nat ->
  exists s, space_parse h fuel m si pk [] = Ok (cm_cell m, s).
Proof.
  intros N U C F R O L. unfold space_parse. fold (start h pk si m).
  pose proof (start_spec h pk si m) as S. destruct (start h pk si m) as [id'|]; [|exfalso; eapply S; eauto].
  apply U in S. subst id'. destruct (roots_new _ R) as [new Hnew].
  destruct (do_groups_exists pk (fst (cm_cell m)) (snd (cm_cell m)) gs []) as [objs D].
  { intros oid g _ Fd. destruct (O oid g Fd) as [o Ho]. split; [apply Ho|].
    apply object_of_parse in Ho as (o' & E & _). eauto. }
  rewrite (walk_exists fuel _ _ si pk id revs gs new [] [] objs); auto. cbn. eauto.
Qed.

(** ** Termination (C18) *)
Lemma revision_parse_base id ctx sp si pk objs rts b objs' rts' :
  revision_parse id ctx sp si pk [] objs rts = Ok (Some b, objs', rts') -> based_on pk si id b.
Proof.
  intro H. apply revision_parse_ok in H as (rm & gs & new & Hrm & [Hn Hb] & _).
  exists rm. auto.
Qed.

(** A result that is a value or an error. *)
Definition settled {A} (r : res A) : Prop := r <> OutOfFuel /\ r <> Panic.
Lemma settled_ok {A} (a : A) : settled (Ok a). Proof. split; discriminate. Qed.
Lemma settled_err {A} e : settled (@Err A e). Proof. split; discriminate. Qed.
Lemma settled_bind {A B} (r : res A) (f : A -> res B) :
  settled r -> (forall a, r = Ok a -> settled (f a)) -> settled (rbind r f).
Proof. intros [H1 H2] H. destruct r; cbn; auto using settled_err; congruence. Qed.
Lemma settled_ok_or {A} e (o : option A) : settled (ok_or e o).
Proof. destruct o; split; discriminate. Qed.
Lemma settled_opt {A B} (f : A -> res B) o : (forall a, settled (f a)) -> settled (opt_map_res f o).
Proof.
  intro H. destruct o as [a|]; cbn; [|apply settled_ok].
  apply settled_bind; auto using settled_ok.
Qed.
Lemma settled_map {A B} (f : A -> res B) l : (forall a, settled (f a)) -> settled (map_res f l).
Proof.
  intro H. induction l as [|a l IH]; cbn; [apply settled_ok|].
  apply settled_bind; auto. intros. apply settled_bind; auto using settled_ok.
Qed.
Lemma settled_run {A} k (p : parser A) bs : good k p -> settled (run p bs).
Proof.
  intros [_ NP T]. unfold run, settled. specialize (T bs). specialize (NP bs).
  destruct (p bs) as [[a r]| | |]; cbn; split; try discriminate; congruence.
Qed.

Lemma object_parse_settled oid ctx sp g pk : settled (object_parse oid ctx sp g pk).
Proof.
  unfold object_parse. do 2 (apply settled_bind; [apply settled_ok_or|intros ? _]).
  apply settled_bind; [destruct a; auto using settled_ok, settled_err|intros ? _].
  apply settled_bind; [eapply settled_run, good_jcid|intros ? _].
  apply settled_bind; [destruct a0; auto using settled_ok, settled_err|intros [[? ?] ?] _].
  apply settled_bind; [eapply settled_run, good_oprops|intros ? _].
  apply settled_bind; [apply settled_opt; intros []; auto using settled_ok, settled_err|intros ? _].
  apply settled_bind; [apply settled_opt; intros; apply settled_ok_or|intros ? _].
  destruct (_ <? _); [apply settled_err|]. destruct (negb _); auto using settled_ok, settled_err.
Qed.

Lemma group_objects_settled pk ctx sp g d ids objs : settled (group_objects pk ctx sp g d ids objs).
Proof.
  revert objs; induction ids as [|i ids IH]; intro objs; cbn; [apply settled_ok|].
  destruct (amember _ _ _); auto. destruct (negb _); [apply settled_err|].
  apply settled_bind; [apply object_parse_settled|]. auto.
Qed.

Lemma parse_groups_settled pk ctx sp gs objs : settled (parse_groups pk ctx sp gs objs).
Proof.
  revert objs; induction gs as [|i gs IH]; intro objs; cbn; [apply settled_ok|].
  apply settled_bind; auto. unfold parse_group. apply settled_bind; [apply settled_ok_or|].
  intros. apply group_objects_settled.
Qed.

Lemma role_parse_settled i : settled (role_parse i).
Proof.
  unfold role_parse. destruct (negb _); [apply settled_err|].
  destruct (eg_value i) as [|[[[]|[]|]|[[]|[]|]|]]; auto using settled_ok, settled_err.
Qed.

Lemma revision_parse_settled id ctx sp si pk cache objs rts :
  settled (revision_parse id ctx sp si pk cache objs rts).
Proof.
  unfold revision_parse. apply settled_bind; [apply settled_ok_or|]. intros rm _.
  apply settled_bind; [apply settled_opt; intro; apply settled_ok_or|]. intros base _.
  destruct (alookup _ _ cache); [apply settled_ok|].
  apply settled_bind; [apply settled_map; intro; apply settled_bind; auto using role_parse_settled, settled_ok|].
  intros new _. apply settled_bind; [apply parse_groups_settled|]. intros. apply settled_ok.
Qed.

Lemma walk_no_panic fuel ctx sp si pk cache id objs rts :
  revision_walk fuel ctx sp si pk cache id objs rts <> Panic.
Proof.
  revert id objs rts; induction fuel as [|f IH]; intros [id|] objs rts; cbn; try discriminate.
  destruct (revision_parse id ctx sp si pk cache objs rts) as [[[b o] r]| | |] eqn:E; cbn; try discriminate; auto.
  destruct (revision_parse_settled id ctx sp si pk cache objs rts) as [_ P]. congruence.
Qed.

(** Acyclic chains end after at most one step more than there are revisions. *)
Lemma walk_acyclic fuel ctx sp si pk id objs rts visited :
  acyclic pk si -> NoDup visited ->
  (forall v, In v visited -> (exists rm, revision_at pk v rm) /\ clos_trans _ (based_on pk si) v id) ->
  (S (length (pk_revisions pk)) <= fuel + length visited)%nat ->
  revision_walk fuel ctx sp si pk [] (Some id) objs rts <> OutOfFuel.
Proof.
  intros AC. revert id objs rts visited; induction fuel as [|f IH]; intros id objs rts visited ND V L.
  - exfalso. assert (length visited <= length (map fst (pk_revisions pk)))%nat; [|rewrite map_length in *; cbn in L; lia].
    apply NoDup_incl_length; auto. intros v Hv. destruct (V v Hv) as [[rm Hrm] _].
    apply (alookup_in exguid_eqb exguid_eqb_eq) in Hrm. apply in_map_iff. exists (v, rm); auto.
  - cbn. destruct (revision_parse id ctx sp si pk [] objs rts) as [[[b o] r]| | |] eqn:E; cbn; try discriminate.
    + destruct b as [b|]; [|destruct f; discriminate].
      pose proof (revision_parse_base _ _ _ _ _ _ _ _ _ _ E) as B.
      apply (IH b o r (id :: visited)).
      * constructor; auto. intro Hin. apply V in Hin as [_ Hin]. exact (AC _ Hin).
      * intros v [<-|Hv].
        -- split; [|now apply t_step]. destruct B as (rm & Hrm & _). eauto.
        -- destruct (V v Hv) as [R T]. split; auto. eapply t_trans; [exact T|now apply t_step].
      * cbn. lia.
    + destruct (revision_parse_settled id ctx sp si pk [] objs rts) as [P _]. congruence.
Qed.

Lemma space_parse_acyclic h fuel m si pk :
  acyclic pk si -> (S (length (pk_revisions pk)) <= fuel)%nat ->
  space_parse h fuel m si pk [] <> OutOfFuel.
Proof.
  intros AC L. unfold space_parse. fold (start h pk si m). destruct (start h pk si m) as [id|].
  - destruct (revision_walk _ _ _ _ _ _ _ _ _) as [[o r]| | |] eqn:E; cbn; try discriminate.
    exfalso. revert E. apply (walk_acyclic _ _ _ _ _ _ _ _ []); auto using NoDup_nil.
    + intros v [].
    + cbn. lia.
  - destruct (find_cell_revision_id _ _) as [c|]; [destruct (exguid_is_nil c)|]; discriminate.
Qed.

(** A chain exists only where no cycle is reachable. *)
Lemma based_on_fun pk si a b c : based_on pk si a b -> based_on pk si a c -> b = c.
Proof.
  intros (rm & H1 & _ & H2) (rm' & H1' & _ & H2'). unfold revision_at in *.
  assert (rm = rm') by congruence. subst. apply resolve_revision_spec in H2, H2'. congruence.
Qed.

Lemma chain_step pk si id l id' : chain pk si id l -> based_on pk si id id' ->
  exists l', chain pk si id' l' /\ length l = S (length l').
Proof.
  intros C (rm' & H1 & H2 & H3). inversion C; subst; unfold revision_at in *.
  - assert (rm = rm') by congruence. subst. contradiction.
  - assert (rm = rm') by congruence. subst.
    assert (id' = id'0) by (eapply resolve_revision_spec in H3; eapply resolve_revision_spec in H4; congruence).
    subst. eauto.
Qed.
Lemma chain_trans pk si id l id' : chain pk si id l -> clos_trans _ (based_on pk si) id id' ->
  exists l', chain pk si id' l' /\ (length l' < length l)%nat.
Proof.
  intros C T. revert l C. induction T as [x y H|x y z _ IH1 _ IH2]; intros l C.
  - destruct (chain_step _ _ _ _ _ C H) as (l' & C' & E). exists l'. split; auto. lia.
  - destruct (IH1 _ C) as (l1 & C1 & L1). destruct (IH2 _ C1) as (l2 & C2 & L2).
    exists l2. split; auto. lia.
Qed.
Lemma chain_fun pk si id l l' : chain pk si id l -> chain pk si id l' -> l = l'.
Proof.
  intro C. revert l'. induction C as [id rm H1 H2|id rm id' l H1 H2 H3 C IH]; intros l' C'; inversion C'; subst;
    unfold revision_at in *.
  - congruence.
  - assert (rm = rm0) by congruence. subst. contradiction.
  - assert (rm = rm0) by congruence. subst. contradiction.
  - assert (rm = rm0) by congruence. subst. f_equal. apply IH.
    assert (id' = id'0) as -> by (apply resolve_revision_spec in H3, H4; congruence). auto.
Qed.
Lemma chain_no_cycle pk si id l : chain pk si id l -> ~ reaches_cycle pk si id.
Proof.
  intros C (x & R & T).
  assert (exists l', chain pk si x l') as [l' C'].
  { apply clos_rt_rt1n in R. revert l C. induction R as [x|x y z H R IH]; intros l C; eauto.
    destruct (chain_step _ _ _ _ _ C H) as (l' & C' & _). eauto. }
  destruct (chain_trans _ _ _ _ _ C' T) as (l2 & C2 & L).
  rewrite (chain_fun _ _ _ _ _ C' C2) in L. lia.
Qed.

Lemma space_parse_cycle h fuel m si pk :
  (forall id, newest pk si m id -> reaches_cycle pk si id) -> (exists id, newest pk si m id) ->
  forall c s, space_parse h fuel m si pk [] <> Ok (c, s).
Proof.
  intros H [i Hi] c s E. apply space_parse_ok in E as (_ & _ & _ & [(_ & _ & _ & N)|(id & revs & gs & N & C & _)]).
  - eapply N; eauto.
  - exact (chain_no_cycle _ _ _ _ C (H _ N)).
Qed.

(** More fuel changes nothing. *)
Lemma walk_mono f f' ctx sp si pk cache id objs rts :
  (f <= f')%nat -> revision_walk f ctx sp si pk cache id objs rts <> OutOfFuel ->
  revision_walk f' ctx sp si pk cache id objs rts = revision_walk f ctx sp si pk cache id objs rts.
Proof.
  revert f' id objs rts; induction f as [|f IH]; intros f' [id|] objs rts L N; cbn in *; try congruence.
  - destruct f'; reflexivity.
  - destruct f' as [|f']; [lia|]. cbn.
    destruct (revision_parse id ctx sp si pk cache objs rts) as [[[b o] r]| | |]; cbn in *; auto.
    apply IH; auto. lia.
  - destruct f'; reflexivity.
Qed.
