(** Files that hold a history of saves open to its last state. *)
From Coq Require Import Lia ZifyBool ZifyNat ZifyN Permutation.
From Verif Require Import Base BaseProofs Codec SpecCodec CodecProofs CodecRT2 Package SpecPackage PackageRT PackageFacts PropSet PropIds SpecPropSet
  PropSetProofs PropSetRT Store SpecStore StoreProofs StoreProofs2 StoreProofs3 SpecAccept AcceptProofs SpecSame SameProofs Notebook SpecFile FileProofs SpecHistory.

(** ** The state after a list of saves *)
Definition id_is (id : exguid) (x : object_desc) : bool := exguid_eqb id (od_id x).
Lemma exguid_refl x : exguid_eqb x x = true.
Proof. now apply exguid_eqb_eq. Qed.

Lemma after_snoc es e : after (es ++ [e]) = save (after es) e.
Proof. unfold after. now rewrite fold_left_app. Qed.

Lemma find_app_or {A} (f : A -> bool) l m : find f (l ++ m) = match find f l with Some x => Some x | None => find f m end.
Proof. induction l as [|a l IH]; cbn; [reflexivity|]. now destruct (f a). Qed.
Lemma find_filter_same {A} (f g : A -> bool) l : (forall x, In x l -> f x = true -> g x = true) -> find f (filter g l) = find f l.
Proof.
  induction l as [|a l IH]; cbn; intro H; [reflexivity|]. destruct (g a) eqn:G; cbn.
  - destruct (f a); [reflexivity|]. apply IH. intros x I. apply H. now right.
  - destruct (f a) eqn:F; [rewrite (H a) in G; auto; discriminate|]. apply IH. intros x I. apply H. now right.
Qed.

Lemma save_find old e id : find (id_is id) (sd_objects (save old e)) =
  match find (id_is id) (sd_objects e) with Some x => Some x | None => find (id_is id) (sd_objects old) end.
Proof.
  unfold save. cbn [sd_objects]. rewrite find_app_or. destruct (find (id_is id) (sd_objects e)) as [x|] eqn:E; [reflexivity|].
  apply find_filter_same. intros x _ F. apply negb_true_iff. apply exguid_eqb_eq in F. subst id.
  destruct (existsb _ _) eqn:X; [|reflexivity]. apply existsb_exists in X as (y & I & Y).
  pose proof (find_none _ _ E y I) as Z. unfold id_is in Z. congruence.
Qed.
Lemma after_find es id : find (id_is id) (sd_objects (after es)) = find (id_is id) (flat_map sd_objects (rev es)).
Proof.
  induction es as [|e es IH] using rev_ind; [reflexivity|]. rewrite after_snoc, rev_app_distr, save_find. cbn [rev app flat_map].
  now rewrite find_app_or, IH.
Qed.

Lemma role_eqb_eq a b : role_eqb a b = true <-> a = b.
Proof. destruct a, b; cbn; split; congruence. Qed.
Lemma save_roots old e r x : In (r, x) (sd_roots (save old e)) <->
  In (r, x) (sd_roots old) \/ (In (r, x) (sd_roots e) /\ forall y, ~ In (r, y) (sd_roots old)).
Proof.
  unfold save. cbn [sd_roots]. rewrite in_app_iff, filter_In. cbn [fst]. apply or_iff_compat_l. apply and_iff_compat_l.
  rewrite negb_true_iff. split.
  - intros F y I. assert (X : existsb (fun q => role_eqb r (fst q)) (sd_roots old) = true) by (apply existsb_exists; exists (r, y); split; [exact I|now apply role_eqb_eq]). congruence.
  - intro F. destruct (existsb _ _) eqn:X; [|reflexivity]. apply existsb_exists in X as ([q y] & I & Q). cbn in Q. apply role_eqb_eq in Q. subst q. destruct (F y I).
Qed.

Lemma nodup_filter_map {A B} (f : A -> B) g l : NoDup (map f l) -> NoDup (map f (filter g l)).
Proof.
  induction l as [|a l IH]; cbn; intro D; [constructor|]. inversion D as [|? ? N D']; subst. destruct (g a); [|auto]. cbn. constructor; [|auto].
  intro I. apply N. apply in_map_iff in I as (x & E & I). apply filter_In in I as (I & _). rewrite <- E. now apply in_map.
Qed.
Lemma nodup_app_in {A} (l l' : list A) : NoDup l -> NoDup l' -> (forall x, In x l -> ~ In x l') -> NoDup (l ++ l').
Proof.
  induction l as [|a l IH]; cbn; intros D D' H; [exact D'|]. inversion D; subst. constructor.
  - rewrite in_app_iff. intros [I|I]; [contradiction|]. apply (H a); [now left|exact I].
  - apply IH; auto.
Qed.
Lemma save_fits old e : space_fits old -> space_fits e -> space_fits (save old e).
Proof.
  intros (O1 & O2 & O3) (E1 & E2 & E3). unfold save, space_fits. cbn [sd_roots sd_objects]. refine (conj _ (conj _ _)).
  - rewrite map_app. apply nodup_app_in; [exact O1|now apply nodup_filter_map|]. intros r I J. apply in_map_iff in I as (p & <- & I).
    apply in_map_iff in J as (q & Q & J). apply filter_In in J as (_ & J). apply negb_true_iff in J.
    assert (X : existsb (fun z => role_eqb (fst q) (fst z)) (sd_roots old) = true) by (apply existsb_exists; exists p; split; [exact I|apply role_eqb_eq; congruence]). congruence.
  - rewrite map_app. apply nodup_app_in; [exact E2|now apply nodup_filter_map|]. intros r I J. apply in_map_iff in I as (p & <- & I).
    apply in_map_iff in J as (q & Q & J). apply filter_In in J as (_ & J). apply negb_true_iff in J.
    assert (X : existsb (fun z => exguid_eqb (od_id q) (od_id z)) (sd_objects e) = true) by (apply existsb_exists; exists p; split; [exact I|apply exguid_eqb_eq; congruence]). congruence.
  - apply Forall_app. split; [exact E3|]. rewrite Forall_forall in *. intros x I. apply filter_In in I as (I & _). auto.
Qed.
Lemma empty_fits : space_fits (SpaceDesc [] []).
Proof. refine (conj _ (conj _ _)); constructor. Qed.
Lemma after_fits es : Forall space_fits es -> space_fits (after es).
Proof.
  induction es as [|e es IH] using rev_ind; intro F; [apply empty_fits|]. rewrite after_snoc.
  apply Forall_app in F as (F1 & F2). inversion F2; subst. apply save_fits; auto.
Qed.
Lemma final_fits H : history_fits H -> store_fits (final H).
Proof.
  intros (D & F). inversion F as [|? ? (N & F1) F2]; subst. refine (conj _ (conj _ _)); cbn [final td_root td_cell td_spaces].
  - now apply after_fits.
  - rewrite map_map. exact D.
  - rewrite Forall_forall in *. intros s I. apply in_map_iff in I as (p & <- & I). cbn. apply after_fits. apply F2. now apply in_map.
Qed.

Lemma find_unique l x : NoDup (map od_id l) -> In x l -> find (id_is (od_id x)) l = Some x.
Proof.
  induction l as [|a l IH]; cbn; intros D I; [destruct I|]. inversion D as [|? ? N D']; subst. unfold id_is at 1.
  destruct I as [->|I]; [now rewrite exguid_refl|]. destruct (exguid_eqb (od_id x) (od_id a)) eqn:Q; [|auto].
  apply exguid_eqb_eq in Q. exfalso. apply N. rewrite <- Q. now apply in_map.
Qed.
Lemma find_is id l x : find (id_is id) l = Some x -> In x l /\ od_id x = id.
Proof. intro E. apply find_some in E as (I & Q). apply exguid_eqb_eq in Q. auto. Qed.

(** An object is in the state after the saves if the last save that writes its
    identifier writes it. *)
Lemma after_latest es x : Forall space_fits es ->
  In x (sd_objects (after es)) <->
  exists pre e suf, es = pre ++ e :: suf /\ In x (sd_objects e) /\ forall e', In e' suf -> ~ In (od_id x) (map od_id (sd_objects e')).
Proof.
  intro F. induction es as [|e es IH] using rev_ind.
  - cbn. split; [intros []|intros ([|? ?] & ? & ? & E & _); discriminate E].
  - apply Forall_app in F as (F1 & F2). inversion F2 as [|? ? Fe _]; subst. specialize (IH F1). rewrite after_snoc.
    unfold save. cbn [sd_objects]. rewrite in_app_iff, filter_In, IH. split.
    + intros [I|((pre & e0 & suf & -> & I & L) & Q)].
      * exists es, e, []. split; [reflexivity|]. split; [exact I|intros ? []].
      * exists pre, e0, (suf ++ [e]). split; [now rewrite <- app_assoc|]. split; [exact I|]. intros e' J. apply in_app_iff in J as [J|[<-|[]]]; [auto|].
        intro J. apply in_map_iff in J as (y & Ey & J). apply negb_true_iff in Q.
        assert (X : existsb (fun z => exguid_eqb (od_id x) (od_id z)) (sd_objects e) = true) by (apply existsb_exists; exists y; split; [exact J|apply exguid_eqb_eq; congruence]). congruence.
    + intros (pre & e0 & suf & E & I & L). destruct suf as [|s suf'] using rev_ind.
      * apply app_inj_tail in E as (_ & <-). now left.
      * clear IHsuf'. rewrite app_comm_cons, app_assoc in E. apply app_inj_tail in E as (-> & ->). right. split.
        -- exists pre, e0, suf'. split; [reflexivity|]. split; [exact I|]. intros e' J. apply L. apply in_app_iff. now left.
        -- apply negb_true_iff. destruct (existsb _ _) eqn:X; [|reflexivity]. apply existsb_exists in X as (y & J & Q). apply exguid_eqb_eq in Q.
           exfalso. apply (L s); [apply in_app_iff; right; now left|]. rewrite Q. now apply in_map.
Qed.
(** A root is the one the first save declared that declares one for its role. *)
Lemma after_first es r x :
  In (r, x) (sd_roots (after es)) <->
  exists pre e suf, es = pre ++ e :: suf /\ In (r, x) (sd_roots e) /\ forall e', In e' pre -> ~ In r (map fst (sd_roots e')).
Proof.
  revert x. induction es as [|e es IH] using rev_ind; intro x.
  - cbn. split; [intros []|intros ([|? ?] & ? & ? & E & _); discriminate E].
  - rewrite after_snoc, save_roots, IH. split.
    + intros [(pre & e0 & suf & -> & I & L)|(I & N)].
      * exists pre, e0, (suf ++ [e]). split; [now rewrite <- app_assoc|auto].
      * exists es, e, []. split; [reflexivity|]. split; [exact I|]. clear I. intros e' J K. apply in_map_iff in K as ([r' y] & Q & K). cbn in Q. subst r'.
        assert (exists y', In (r, y') (sd_roots (after es))) as (y' & Y).
        { clear - IH J K. assert (G : forall es e' (y : exguid), In e' es -> In (r, y) (sd_roots e') -> exists pre e suf y', es = pre ++ e :: suf /\ In (r, y') (sd_roots e) /\ forall e', In e' pre -> ~ In r (map fst (sd_roots e'))).
          { clear. induction es as [|a es IH]; intros e' y J K; [destruct J|]. destruct (in_dec (fun a b : role => ltac:(decide equality)) r (map fst (sd_roots a))) as [D|D].
            - apply in_map_iff in D as ([r' z] & Q & D). cbn in Q. subst r'. exists [], a, es, z. split; [reflexivity|]. split; [exact D|intros ? []].
            - destruct J as [->|J]; [exfalso; apply D; apply in_map_iff; exists (r, y); auto|].
              destruct (IH e' y J K) as (pre & e & suf & z & -> & Z & L). exists (a :: pre), e, suf, z. split; [reflexivity|]. split; [exact Z|].
              intros e'' [<-|I]; auto. }
          destruct (G es e' y J K) as (pre & e & suf & y' & -> & Z & L). exists y'. apply IH. exists pre, e, suf. auto. }
        exact (N y' Y).
    + intros (pre & e0 & suf & E & I & L). destruct suf as [|s suf'] using rev_ind.
      * apply app_inj_tail in E as (-> & ->). right. split; [exact I|]. intros y Y. apply IH in Y as (p & e1 & s & -> & Y & _). apply (L e1); [apply in_app_iff; right; now left|].
        apply in_map_iff. exists (r, y). auto.
      * clear IHsuf'. rewrite app_comm_cons, app_assoc in E. apply app_inj_tail in E as (-> & ->). left. exists pre, e0, suf'. auto.
Qed.

(** ** Objects *)
Definition oset_value (o : oset) : oprops :=
  OProps (os_objects o) (match os_spaces o with Some (sp, _) => sp | None => [] end)
    (match os_spaces o with Some (_, Some ctx) => ctx | _ => [] end) (denote_set (os_props o)).
Lemma reads_oset_value o e t : l_oset o e -> oprops_parse (e ++ t) = Ok (oset_value o, t).
Proof.
  intros (b1 & b2 & b3 & b4 & H). destruct o as [oids sp props]. unfold oset_value. cbn [os_spaces os_objects os_props] in *.
  assert (R : forall l, reads (rep (N.of_nat (length l)) compactid_parse) (many l_compactid l) l).
  { intro. apply reads_rep; [apply PropSetProofs.good_compactid|intro; apply reads_compactid]. }
  unfold oprops_parse. destruct sp as [[sp [ctx|]]|].
  - destruct H as (x1 & y1 & -> & (s1 & i1 & -> & S1 & I1) & x2 & y2 & -> & (s2 & i2 & -> & S2 & I2)
                   & x3 & y3 & -> & (s3 & i3 & -> & S3 & I3) & P).
    rewrite <- !app_assoc. unfold pbind, pret.
    rewrite (reads_stream _ _ _ _ _ S1); cbn [sh_count sh_osid_absent].
    rewrite (R _ _ _ I1), (reads_stream _ _ _ _ _ S2); cbn [sh_count sh_extended].
    rewrite (R _ _ _ I2), (reads_stream _ _ _ _ _ S3); cbn [sh_count].
    rewrite (R _ _ _ I3), (reads_set _ _ _ P). reflexivity.
  - destruct H as (x1 & y1 & -> & (s1 & i1 & -> & S1 & I1) & x2 & y2 & -> & (s2 & i2 & -> & S2 & I2) & P).
    rewrite <- !app_assoc. unfold pbind, pret.
    rewrite (reads_stream _ _ _ _ _ S1); cbn [sh_count sh_osid_absent].
    rewrite (R _ _ _ I1), (reads_stream _ _ _ _ _ S2); cbn [sh_count sh_extended].
    rewrite (R _ _ _ I2), (reads_set _ _ _ P). reflexivity.
  - destruct H as (x1 & y1 & -> & (s1 & i1 & -> & S1 & I1) & P).
    rewrite <- !app_assoc. unfold pbind, pret.
    rewrite (reads_stream _ _ _ _ _ S1); cbn [sh_count sh_osid_absent].
    rewrite (R _ _ _ I1), (reads_set _ _ _ P). reflexivity.
Qed.

Definition canon (cell : cellid) (d : object_desc) : object :=
  let p := oset_value (od_set d) in
  Object (fst cell) (od_kind d) p (od_file d)
    (mapping_from_entries (own_table p (od_refs d) (od_cells d) (snd cell)) (space_table p (od_cells d) (snd cell))).
Lemma canon_is cell d : object_is cell d (canon cell d).
Proof.
  unfold canon. refine (conj eq_refl (conj eq_refl (conj _ (conj eq_refl (conj _ _))))).
  - exact (conj eq_refl (conj eq_refl (conj eq_refl (denote_set_means _)))).
  - intros i cid. cbn [ob_mapping ob_props]. apply mapping_resolves.
  - intros i cid. cbn [ob_mapping ob_props]. apply mapping_resolves.
Qed.

Lemma canon_parse els (U : unambiguous (content els)) ds os (D : NoDup (map (fun e : entry => (decl_object_id (fst e), decl_partition (fst e))) (combine ds os)))
  cell d (H : holds_object (content els) (combine ds os) d) (F : object_fits d) :
  object_parse (od_id d) (fst cell) (snd cell) (gdata (ObjectGroup ds [] os)) (fold_left aelem_step els package_empty) = Ok (canon cell d).
Proof.
  destruct H as ((dk & gr & ce & bs & t & Ik & Ek & -> & Hk) & (dd & bs' & e & t' & Id & Ed & -> & He) & Hf).
  unfold object_parse.
  rewrite (proj2 (find_object_entry _ _ 4 _) (entry_unique _ _ _ _ _ D Ik Ek) : find_object _ partition_metadata _ = _).
  rewrite (proj2 (find_object_entry _ _ 1 _) (entry_unique _ _ _ _ _ D Id Ed) : find_object _ partition_object_data _ = _).
  cbn [snd ok_or rbind]. rewrite (kind_reads _ t Hk). cbn [rbind]. rewrite (run_reads _ _ _ _ (reads_oset_value _ _ t' He)). cbn [rbind].
  assert (B : (let! blob := find_blob_id (od_id d) (gdata (ObjectGroup ds [] os)) in
    opt_map_res (fun b => ok_or MalformedOneStoreData (find_blob (fold_left aelem_step els package_empty) b)) blob) = Ok (od_file d)).
  { unfold find_blob_id. destruct (od_file d) as [b|].
    - destruct Hf as (df & gr' & ce' & bid & If & Ef & Ib).
      rewrite (proj2 (find_object_entry _ _ 2 _) (entry_unique _ _ _ _ _ D If Ef) : find_object _ partition_file_data _ = _).
      cbn [snd opt_map_res rbind]. unfold find_blob. pose proof (at_blob els U _ _ Ib) as Q. unfold blob_at in Q. now rewrite Q.
    - rewrite (proj2 (find_object_none (ObjectGroup ds [] os) (od_id d) 2) : _ -> find_object _ partition_file_data _ = _); [reflexivity|].
      intros od G. apply entry_in in G as (df & If & Ef). exact (Hf _ If Ef). }
  destruct (find_blob_id _ _) as [ob| | |]; cbn [rbind] in B |- *; try discriminate B. rewrite B. cbn [rbind].
  assert (M : oset_means (od_set d) (oset_value (od_set d))) by exact (conj eq_refl (conj eq_refl (conj eq_refl (denote_set_means _)))).
  destruct (fits_means d F _ M) as (F1 & F2). unfold len.
  replace (N.of_nat (length (op_object_ids (oset_value (od_set d)))) <? N.of_nat (length (od_refs d))) with false by lia.
  replace (N.of_nat (length (op_context_ids (oset_value (od_set d)))) + N.of_nat (length (op_space_ids (oset_value (od_set d)))) =? N.of_nat (length (od_cells d))) with true by lia.
  reflexivity.
Qed.

(** ** Spaces *)
Lemma space_parse_exact h fuel m si pk c s id : newest pk si m id -> (forall id', newest pk si m id' -> id' = id) ->
  space_parse h fuel m si pk [] = Ok (c, s) ->
  c = cm_cell m /\ sp_id s = snd c /\ sp_context s = fst c /\
   exists revs gs, chain pk si id revs /\ chain_groups pk revs gs /\
     (forall oid o, get_object s oid = Some o -> exists g, first_declaring gs oid g /\ object_parse oid (fst c) (snd c) (gdata g) pk = Ok o) /\
     (forall oid, get_object s oid = None <-> forall g, In g gs -> ~ declares g oid) /\
     (forall r oid, alookup role_eqb r (sp_roots s) = Some oid <-> last_root (flat_map rm_roots revs) r oid).
Proof.
  intros Nw Uq. unfold space_parse. fold (start h pk si m). pose proof (start_spec h pk si m) as S.
  destruct (start h pk si m) as [id'|]; [|exfalso; exact (S _ Nw)]. apply Uq in S. subst id'.
  intro H. apply rbind_ok in H as ([objs rts] & W & H). injection H as <- <-.
  apply walk_ok in W as (revs & gs & new & C & _ & F & R & -> & D).
  cbn [sp_id sp_context sp_roots sp_objects]. refine (conj eq_refl (conj eq_refl (conj eq_refl _))).
  exists revs, gs. split; [exact C|]. split; [exact F|].
  unfold get_object. cbn [sp_objects]. pose proof (do_groups_ok _ _ _ _ _ _ D) as G. cbn [alookup] in G.
  refine (conj _ (conj _ _)).
  - intros oid o E. destruct (G oid) as [(g & o' & H1 & H2 & H3 & H4)|[_ H]]; [|congruence]. exists g. split; [exact H1|]. congruence.
  - intro oid. destruct (G oid) as [(g & o' & H1 & H2 & H3 & H4)|[H1 H2]].
    + rewrite H4. split; [discriminate|]. intro N. exfalso.
      destruct (proj2 (first_declaring_exists gs oid) (ex_intro _ g H1)) as (g' & Hin & Hd). eapply N; eauto.
    + tauto.
  - intros r oid. rewrite R. apply last_root_extend.
Qed.

Definition space_reads (cell : cellid) (d : space_desc) (sp : space) : Prop :=
  sp_id sp = snd cell /\ sp_context sp = fst cell /\
  (forall r x, alookup role_eqb r (sp_roots sp) = Some x <-> In (r, x) (sd_roots d)) /\
  (forall id, get_object sp id = option_map (canon cell) (find (id_is id) (sd_objects d))).
Lemma reads_is cell d sp : space_fits d -> space_reads cell d sp -> space_is cell d sp.
Proof.
  intros (_ & D & _) (A & B & R & O). refine (conj A (conj B (conj R (conj _ _)))).
  - intros x I. exists (canon cell x). rewrite O, (find_unique _ _ D I). split; [reflexivity|apply canon_is].
  - intros id o E. rewrite O in E. destruct (find (id_is id) (sd_objects d)) as [x|] eqn:X; [|discriminate E]. apply find_is in X as (X & <-). now apply in_map.
Qed.

Lemma last_root_app l l' r x : last_root (l ++ l') r x <-> last_root l' r x \/ (last_root l r x /\ forall y, ~ In (role_id r, y) l').
Proof.
  split.
  - intros (pre & suf & E & L). revert l E. induction pre as [|a pre IH]; intros [|b l] E; cbn in E.
    + left. exists [], suf. split; [exact E|exact L].
    + right. injection E as E1 E2. subst b suf. split; [exists [], l; split; [reflexivity|]; intros y I; apply L, in_app_iff; now left|].
      intros y I. apply (L (role_id r, y)); [apply in_app_iff; now right|reflexivity].
    + left. exists (a :: pre), suf. split; [exact E|exact L].
    + injection E as E1 E. subst b. destruct (IH l E) as [X|((p & s & -> & Q) & N)]; [now left|]. right. split; [exists (a :: p), s; auto|exact N].
  - intros [(pre & suf & -> & L)|((pre & suf & -> & L) & N)].
    + exists (l ++ pre), suf. split; [now rewrite app_assoc|exact L].
    + exists pre, (suf ++ l'). split; [now rewrite <- app_assoc|]. intros [q y] I. apply in_app_iff in I as [I|I]; [now apply L|].
      cbn. intros ->. exact (N y I).
Qed.

Lemma after_roots es r x : Forall space_fits es ->
  last_root (flat_map (fun d => map (fun p => (role_id (fst p), snd p)) (sd_roots d)) (rev es)) r x <-> In (r, x) (sd_roots (after es)).
Proof.
  revert x. induction es as [|e es IH] using rev_ind; intros x F.
  - cbn. split; [intros ([|? ?] & ? & E & _); discriminate E|intros []].
  - apply Forall_app in F as (F1 & F2). inversion F2 as [|? ? (D & _) _]; subst. rewrite rev_app_distr, after_snoc, save_roots. cbn [rev app flat_map].
    rewrite last_root_app, (IH x F1), (last_in_roots _ _ _ D).
    assert (Q : (forall y, ~ In (role_id r, y) (flat_map (fun d => map (fun p => (role_id (fst p), snd p)) (sd_roots d)) (rev es))) <-> forall y, ~ In (r, y) (sd_roots (after es))).
    { split; intros N y I.
      - apply (IH y F1) in I as (pre & suf & E & _). apply (N y). rewrite E. apply in_app_iff. right. now left.
      - apply in_flat_map in I as (d & Id & I). apply in_map_iff in I as ([r' z] & Q & I). cbn [fst snd] in Q. assert (Q1 : role_id r' = role_id r) by congruence. assert (Q2 : z = y) by congruence. apply role_id_inj in Q1. subst r' z. clear Q. rename y into z.
        apply in_rev in Id. assert (exists y', In (r, y') (sd_roots (after es))) as (y' & Y); [|exact (N y' Y)].
        clear - Id I. induction es as [|a es IH] using rev_ind; [destruct Id|]. rewrite after_snoc. apply in_app_iff in Id as [Id|[->|[]]].
        + destruct (IH Id) as (y & Y). exists y. apply save_roots. now left.
        + destruct (existsb (fun q => role_eqb r (fst q)) (sd_roots (after es))) eqn:X.
          * apply existsb_exists in X as ([q y] & J & Q). cbn in Q. apply role_eqb_eq in Q. subst q. exists y. apply save_roots. now left.
          * exists z. apply save_roots. right. split; [exact I|]. intros y J.
            assert (T : existsb (fun q => role_eqb r (fst q)) (sd_roots (after es)) = true) by (apply existsb_exists; exists (r, y); split; [exact J|now apply role_eqb_eq]). congruence. }
    rewrite Q. tauto.
Qed.

Lemma chain_groups_fun pk revs gs gs' : chain_groups pk revs gs -> chain_groups pk revs gs' -> gs' = gs.
Proof.
  unfold chain_groups. intros CG CG'. revert gs CG. induction CG' as [|x y l l' Hxy _ IH]; intros gs CG; inversion CG; subst; [reflexivity|].
  f_equal; [unfold group_at in *; congruence|auto].
Qed.

Section Spaces.
  Context (els : list aelem) (U : unambiguous (content els)).
  Let pk := fold_left aelem_step els package_empty.
  Context (items : list index_item) (si : storage_index) (M : index_means items si).
  Context (DC : NoDup (flat_map (fun i => match i with IxCell c _ _ => [c] | _ => [] end) items)).
  Context (DR : NoDup (flat_map (fun i => match i with IxRevision r _ _ => [r] | _ => [] end) items)).

  Definition group_part (g : object_group) (part : list object_desc) : Prop :=
    exists ds os, g = ObjectGroup ds [] os /\ length ds = length os /\ holds_group (content els) (combine ds os) part.

  Lemma held_edit its d : holds_edit (content els) its d -> exists gs parts,
    Forall2 (group_at pk) (flat_map (fun i => match i with RvGroup g => [g] | _ => [] end) its) gs /\ Forall2 group_part gs parts /\ sd_objects d = concat parts.
  Proof.
    intros (parts & _ & G & E).
    assert (X : exists gs, Forall2 (group_at pk) (flat_map (fun i => match i with RvGroup g => [g] | _ => [] end) its) gs /\ Forall2 group_part gs parts).
    { clear - G U. induction G as [|g part l l' (ds & os & I & L & E) _ (gs & IH1 & IH2)]; [exists []; split; constructor|].
      exists (ObjectGroup ds [] os :: gs). split; constructor; eauto; [now apply at_group|exists ds, os; auto]. }
    destruct X as (gs & X1 & X2). exists gs, parts. auto.
  Qed.

  Lemma held_edits r es : holds_edits (content els) items r es ->
    exists e revs gs parts, names_revision pk si r e /\ (forall e', names_revision pk si r e' -> e' = e) /\
      chain pk si e revs /\ (forall revs', chain pk si e revs' -> revs' = revs) /\ length revs = length es /\
      chain_groups pk revs gs /\ Forall2 group_part gs parts /\ concat parts = flat_map sd_objects es /\
      flat_map rm_roots revs = flat_map (fun d => map (fun p => (role_id (fst p), snd p)) (sd_roots d)) es.
  Proof.
    induction 1 as [r e rev its d X R HE|r e rev base its d older X R HE Nb _ (e2 & revs & gs & parts & N2 & U2 & C2 & UC & L2 & G2 & P2 & E2 & R2)].
    - destruct (at_revision els U _ _ _ _ R) as (rm & Hrm & ->). fold pk in Hrm.
      destruct (index_revision items si M DR pk r e _ X Hrm) as (NR & UR). destruct (held_edit _ _ HE) as (gs & parts & G & P & E).
      eexists e, [_], gs, parts. refine (conj NR (conj UR (conj (chain_base _ _ _ _ Hrm eq_refl) (conj _ (conj eq_refl (conj _ (conj P (conj _ _)))))))).
      + intros revs' C. inversion C as [? rm' A B|? rm' id2 l A B]; subst; unfold revision_at in *; [congruence|]. exfalso. apply B. rewrite Hrm in A. injection A as <-. reflexivity.
      + unfold chain_groups. cbn [flat_map rm_groups]. now rewrite app_nil_r.
      + cbn [flat_map]. now rewrite app_nil_r.
      + cbn [flat_map rm_roots]. rewrite !app_nil_r. destruct HE as (? & Q & _). exact Q.
    - destruct (at_revision els U _ _ _ _ R) as (rm & Hrm & ->). fold pk in Hrm.
      destruct (index_revision items si M DR pk r e _ X Hrm) as (NR & UR). destruct (held_edit _ _ HE) as (gs1 & parts1 & G & P & E).
      eexists e, (_ :: revs), (gs1 ++ gs), (parts1 ++ parts). refine (conj NR (conj UR (conj (chain_more _ _ _ _ _ _ Hrm Nb N2 C2) (conj _ (conj _ (conj _ (conj _ (conj _ _)))))))).
      + intros revs' C. inversion C as [? rm' A B|? rm' id2 l A B Nm Ch]; subst; unfold revision_at in *; rewrite Hrm in A; injection A as <-; [contradiction|].
        f_equal. apply U2 in Nm. subst id2. now apply UC.
      + cbn [length]. now rewrite L2.
      + unfold chain_groups in *. cbn [flat_map rm_groups]. now apply Forall2_app.
      + now apply Forall2_app.
      + rewrite concat_app. cbn [flat_map]. congruence.
      + cbn [flat_map rm_roots]. rewrite R2. f_equal. destruct HE as (? & Q & _). exact Q.
  Qed.

  Lemma part_declares g part oid : group_part g part -> declares g oid <-> In oid (map od_id part).
  Proof.
    intros (ds & os & -> & L & _ & Ho & Hi). split.
    - intros (dc & I & <-). cbn [og_decls] in I. apply (combine_fst _ os _ L) in I as (y & I). exact (Hi _ I).
    - intro I. apply in_map_iff in I as (x & <- & I). rewrite Forall_forall in Ho.
      destruct (Ho x I) as ((dk & gr & ce & bs & t & Ik & (E1 & _) & _) & _). exists dk. split; [|exact E1].
      cbn [og_decls]. apply (combine_fst _ os _ L). eauto.
  Qed.

  (* the first group that declares an identifier holds the first object with it *)
  Lemma first_part cell gs parts oid g : Forall2 group_part gs parts -> Forall object_fits (concat parts) -> first_declaring gs oid g ->
    exists x, find (id_is oid) (concat parts) = Some x /\ length (og_decls g) = length (og_objects g) /\ object_parse oid (fst cell) (snd cell) (gdata g) pk = Ok (canon cell x).
  Proof.
    intros P F Fd. induction P as [|g0 part gs parts Hg P IH].
    - destruct Fd as (pre & suf & E & _). destruct pre; discriminate E.
    - cbn [concat] in *. apply Forall_app in F as (F1 & F2). rewrite find_app_or. apply first_declaring_cons in Fd as [(De & <-)|(Nd & Fd)].
      + apply (part_declares _ part) in De; [|exact Hg]. destruct (find (id_is oid) part) as [x|] eqn:E.
        * apply find_is in E as (I & <-). exists x. split; [reflexivity|]. destruct Hg as (ds & os & -> & L & D & Ho & _).
          rewrite Forall_forall in Ho, F1. split; [exact L|]. now apply canon_parse; auto.
        * exfalso. apply in_map_iff in De as (x & <- & I). pose proof (find_none _ _ E x I) as Q. unfold id_is in Q. rewrite exguid_refl in Q. discriminate.
      + rewrite (part_declares _ part) in Nd by exact Hg. destruct (find (id_is oid) part) as [x|] eqn:E; [|now apply IH].
        apply find_is in E as (I & <-). exfalso. now apply Nd, in_map.
  Qed.

  Lemma held_saves h fuel cell es : holds_saves (content els) items cell es -> Forall space_fits es -> (length es <= fuel)%nat ->
    exists m sp, alookup cellid_eqb cell (si_cells si) = Some m /\ cm_cell m = cell /\ cm_id m <> nil_id /\
      space_parse h fuel m si pk [] = Ok (cell, sp) /\ space_reads cell (after es) sp.
  Proof.
    intros (m & s & r & I & N & C & HE) F Fu.
    destruct (held_edits _ _ HE) as (e & revs & gs & parts & N1 & U1 & CH & UC & L & G & P & E & R).
    set (mp := CellMapping cell m s).
    assert (Nw : newest pk si mp e) by (left; exists r; split; [now apply at_cell|exact N1]).
    assert (Uq : forall id', newest pk si mp id' -> id' = e).
    { intros id' [(r' & Q & NR')|[(Z & _)|(Z & _)]].
      - cbn [cm_id mp] in Q. pose proof (at_cell els U _ _ C) as Q'. fold pk in Q'. rewrite Q' in Q. injection Q as <-. now apply U1.
      - destruct (Z e). exists r. split; [now apply at_cell|exact N1].
      - destruct (Z e). exists r. split; [now apply at_cell|exact N1]. }
    assert (FO : Forall object_fits (concat parts)).
    { rewrite E, Forall_forall. intros x Ix. apply in_flat_map in Ix as (d & Id & Ix). apply in_rev in Id. rewrite Forall_forall in F.
      destruct (F d Id) as (_ & _ & Fd). rewrite Forall_forall in Fd. auto. }
    assert (SP : exists sp, space_parse h fuel mp si pk [] = Ok (cell, sp)).
    { apply (space_parse_accepts h fuel mp si pk e revs gs Nw Uq CH G).
      - rewrite R. intros x J. apply in_flat_map in J as (d & _ & J). apply in_map_iff in J as (p & <- & _). cbn. eauto.
      - intros oid g Fd. destruct (first_part cell gs parts oid g P FO Fd) as (x & _ & Lg & Q). exists (canon cell x). now apply object_parse_spec.
      - rewrite L, rev_length. exact Fu. }
    destruct SP as (sp & SP). exists mp, sp. split; [now apply (index_cell items)|]. refine (conj eq_refl (conj N (conj SP _))).
    destruct (space_parse_exact _ _ _ _ _ _ _ _ Nw Uq SP) as (_ & I1 & I2 & revs' & gs' & C' & G' & O1 & O2 & RR).
    apply UC in C'. subst revs'. assert (gs' = gs) as -> by (eapply chain_groups_fun; eauto).
    refine (conj I1 (conj I2 (conj _ _))).
    - intros q x. rewrite RR, R. now apply after_roots.
    - intro id. rewrite after_find, <- E. destruct (get_object sp id) as [o|] eqn:Go.
      + destruct (O1 _ _ Go) as (g & Fd & Q). destruct (first_part cell gs parts id g P FO Fd) as (x & X & _ & Q'). rewrite X. cbn. congruence.
      + destruct (find (id_is id) (concat parts)) as [x|] eqn:X; [|reflexivity]. exfalso. apply find_is in X as (X & <-).
        apply in_concat in X as (part & J & X). apply In_nth_error in J as (n & J).
        assert (exists g, In g gs /\ group_part g part) as (g & Ig & Pg).
        { clear - P J. revert n J. induction P as [|a b l l' Ha _ IH]; intros [|n] J; try discriminate J; cbn in J.
          - injection J as ->. exists a. split; [now left|exact Ha].
          - destruct (IH n J) as (g & A & B). exists g. split; [now right|exact B]. }
        apply (proj1 (O2 _) Go g Ig). apply (part_declares _ part _ Pg). now apply in_map.
  Qed.
End Spaces.
