(** Histories: the store, and files whose histories end alike. *)
From Coq Require Import Lia ZifyBool ZifyNat ZifyN Permutation Relations.
From Verif Require Import Base BaseProofs Codec SpecCodec CodecProofs CodecRT2 Package SpecPackage PackageRT PackageFacts PropSet PropIds SpecPropSet
  PropSetRT Store SpecStore StoreProofs StoreProofs2 StoreProofs3 SpecAccept AcceptProofs SpecSame SameProofs Notebook SpecFile FileProofs SpecHistory
  HistoryProofs SpecForward ForwardProofs.

Definition store_reads (H : history) (st : store) : Prop :=
  st_schema st = hi_schema H /\
  st_header st = StoreHeader (hi_identity H) (hi_ancestor H) (hi_version H) (hi_crc H) /\
  space_reads (hi_cell H) (after (hi_root H)) (st_data_root st) /\
  (forall cell x, In (cell, x) (hi_spaces H) -> exists sp, object_space st cell = Some sp /\ space_reads cell (after x) sp) /\
  (forall cell sp, object_space st cell = Some sp -> In cell (map fst (hi_spaces H))).

Lemma history_reads d els H h fuel : holds d els -> holds_history (content els) H -> history_fits H ->
  Forall (fun es => (length es <= fuel)%nat) (histories H) ->
  exists st, open_store h fuel d = Ok st /\ store_reads H st.
Proof.
  intros (e & t & ft & f & lv & ff & index & schema & -> & Hf) (ix & items & mf & roots & hc & U & Ix & Im & Rh & Rr & DC & DR & HH & HR & HS & All)
    (DS & Fa) Fu. set (rc := hi_cell H) in *. cbv zeta in *.
  inversion Fa as [|? ? (_ & FR) FS]; subst. inversion Fu as [|? ? FuR FuS]; subst. clear Fa Fu.
  assert (FS' : forall s, In s (hi_spaces H) -> Forall space_fits (snd s) /\ (length (snd s) <= fuel)%nat).
  { rewrite Forall_forall in FS, FuS. intros s I. split; [apply FS|apply FuS]; now apply in_map. }
  unfold open_store, run. rewrite (file_reads _ _ _ _ _ _ _ _ t Hf). cbn [rbind].
  pose proof (packaging_parse_ok _ _ _ (file_reads _ _ _ _ _ _ _ _ t Hf)) as OK. cbn [pg_package] in OK.
  set (pk := fold_left aelem_step els package_empty) in *.
  destruct (at_index els U _ _ Ix) as (si & Hsi & M). destruct (at_manifest els U _ _ _ Im) as (sm & Hsm & (Ms & Mr)). fold pk in Hsi, Hsm.
  pose proof (one_index els U) as O1. pose proof (one_manifest els U) as O2. fold pk in O1, O2.
  assert (CO : cells_ok si).
  { apply (proj2 OK ix). now apply (alookup_in exguid_eqb exguid_eqb_eq). }
  destruct (held_header els items si h hc _ U M DC DR HH) as (hm & gs & g & E1 & E2 & E3 & E4). fold pk in E2. cbn [final td_identity td_ancestor td_version td_crc] in E4.
  destruct (held_saves els U items si M DC DR h fuel rc (hi_root H) HR FR FuR) as (rm & root & R1 & R2 & R3 & R4 & R5). fold pk in R4.
  assert (RO : forall r x, (forall y, In (r, y) roots <-> y = x) -> alookup exguid_eqb r (sm_roots sm) = Some x).
  { intros r x Hr. rewrite Mr. eapply (last_unique _ _ (r, x)); [now apply Hr| |].
    - cbn. replace (exguid_eqb r r) with true by (symmetry; now apply exguid_eqb_eq). reflexivity.
    - intros [r' y] b Iy. cbn. destruct (exguid_eqb r' r) eqn:Q; [|discriminate]. apply exguid_eqb_eq in Q. subst r'.
      intro Z. injection Z as <-. now apply Hr. }
  rewrite Forall_forall in HS.
  assert (SPS : exists sps, parse_spaces h fuel si pk [] [hc; rc] (o_cells h (map snd (si_cells si))) [] = Ok sps).
  { eexists. apply parse_spaces_ok; auto; [apply cells_values; exact CO|]. split; [|reflexivity].
    intros m Im' Sk. apply (cells_values h si CO) in Im'. apply (alookup_nodup cellid_eqb cellid_eqb_eq) in Im'; [|apply CO].
    assert (NSk : ~ (cm_id m = nil_id \/ In (cm_cell m) [hc; rc])) by (intro Z; apply skipped_spec in Z; congruence).
    destruct (cell_indexed items si M _ _ Im') as (Ii & _). apply All in Ii.
    assert (J : In (cm_cell m) (map fst (hi_spaces H))) by (cbn in NSk; intuition congruence).
    apply in_map_iff in J as ([c x] & Q & J). cbn in Q. subst c. destruct (FS' _ J) as (F1 & F2).
    destruct (HS _ J) as (_ & _ & Hx). destruct (held_saves els U items si M DC DR h fuel _ x Hx F1 F2) as (m' & sp & X1 & _ & _ & X4 & _).
    cbn [fst] in X1. rewrite Im' in X1. injection X1 as <-. eauto. }
  destruct SPS as (sps & SPS). pose proof (parse_spaces_spec h fuel si pk _ _ CO SPS) as (_ & LK).
  exists (Store (sm_id sm) (StoreHeader (hi_identity H) (hi_ancestor H) (hi_version H) (hi_crc H)) root sps). split.
  - unfold parse_store. cbn [pg_package pg_storage_index]. rewrite (only_index h pk index O1).
    assert (I1 : hd_error (map snd (pk_indexes pk)) = Some si).
    { clear - Hsi O1. destruct (pk_indexes pk) as [|[k v] [|y l]]; cbn in *; [discriminate| |lia]. destruct (exguid_eqb ix k); [exact Hsi|discriminate Hsi]. }
    rewrite I1. cbn [ok_or rbind].
    assert (I2 : find_storage_manifest h pk = Some sm).
    { clear - Hsm O2. unfold find_storage_manifest. pose proof (o_manifests_perm h (map snd (pk_manifests pk))) as P. revert P.
      destruct (pk_manifests pk) as [|[k v] [|y l]]; cbn in *; [discriminate| |lia]. intro P. apply Permutation_length_1_inv in P. rewrite P. cbn.
      destruct (exguid_eqb mf k); [exact Hsm|discriminate Hsm]. }
    rewrite I2. cbn [ok_or rbind]. unfold find_header_cell_id, find_data_root_cell_id, header_cell_root, data_root.
    rewrite (RO _ hc Rh), (RO _ rc Rr). cbn [ok_or rbind]. rewrite E1. cbn [ok_or rbind]. rewrite E2. cbn [rbind]. rewrite E3. cbn [ok_or rbind].
    rewrite E4. cbn [rbind]. unfold parse_object_space at 1. rewrite R1. cbn [ok_or rbind]. rewrite R4. cbn [rbind]. rewrite SPS. reflexivity.
  - unfold store_reads. cbn [st_schema st_header st_data_root]. refine (conj Ms (conj eq_refl (conj R5 (conj _ _)))).
    + intros cell x J. destruct (HS _ J) as (N1 & N2 & Hx). cbn [fst snd] in *. destruct (FS' _ J) as (F1 & F2).
      destruct (held_saves els U items si M DC DR h fuel _ x Hx F1 F2) as (m' & sp & X1 & X2 & X3 & X4 & X5). exists sp. split; [|exact X5].
      unfold object_space. cbn [st_spaces]. apply LK. exists m'. refine (conj X1 (conj X3 (conj _ X4))). cbn. intuition congruence.
    + intros cell sp J. unfold object_space in J. cbn [st_spaces] in J. apply LK in J as (m & X1 & X3 & X4 & _).
      destruct (cell_indexed items si M _ _ X1) as (Ii & Cm). apply All in Ii. cbn in X4. intuition congruence.
Qed.

Lemma history_is H st : history_fits H -> store_reads H st -> store_is (final H) st.
Proof.
  intros (D & F) (A & B & R & S1 & S2). inversion F as [|? ? (_ & FR) FS]; subst. rewrite Forall_forall in FS.
  refine (conj A (conj B (conj _ (conj _ _)))); cbn [final td_root td_cell td_spaces].
  - apply reads_is; [now apply after_fits|exact R].
  - intros cell x I. apply in_map_iff in I as ([c es] & Q & I). injection Q as <- <-. cbn [fst snd]. destruct (S1 _ _ I) as (sp & E & X). exists sp. split; [exact E|].
    apply reads_is; [|exact X]. apply after_fits. apply FS. apply in_map_iff. exists (c, es). auto.
  - intros cell sp E. rewrite map_map. cbn [fst]. exact (S2 _ _ E).
Qed.

Lemma history_read d els H h fuel : holds d els -> holds_history (content els) H -> history_fits H ->
  Forall (fun es => (length es <= fuel)%nat) (histories H) ->
  exists st, open_store h fuel d = Ok st /\ store_is (final H) st.
Proof.
  intros A B F L. destruct (history_reads d els H h fuel A B F L) as (st & E & R). exists st. split; [exact E|]. now apply history_is.
Qed.

(** ** The same end *)
Lemma object_alike_refl o : object_alike o o.
Proof. refine (conj eq_refl (conj eq_refl (conj eq_refl (conj eq_refl (conj eq_refl (conj eq_refl _)))))). apply rst_refl. Qed.
Lemma option_iff {A} (a b : option A) : (forall x, a = Some x <-> b = Some x) -> a = b.
Proof. intro H. destruct a as [x|]; [symmetry; now apply H|]. destruct b as [x|]; [|reflexivity]. symmetry. symmetry. now apply H. Qed.

Lemma spaces_alike cell d d' sp sp' : space_fits d -> space_fits d' -> same_space d d' -> space_reads cell d sp -> space_reads cell d' sp' -> space_alike sp sp'.
Proof.
  intros (_ & D & _) (_ & D' & _) (R & O) (_ & _ & R1 & O1) (_ & _ & R2 & O2).
  assert (RR : forall r, alookup role_eqb r (sp_roots sp) = alookup role_eqb r (sp_roots sp')).
  { intro r. apply option_iff. intro x. rewrite R1, R2. apply R. }
  refine (conj _ (conj _ _)).
  - unfold content_root. apply RR.
  - unfold metadata_root. apply RR.
  - intro id. rewrite O1, O2. assert (E : find (id_is id) (sd_objects d) = find (id_is id) (sd_objects d')).
    { apply option_iff. intro x. split; intro X; apply find_is in X as (X & <-); apply find_unique; auto; now apply O. }
    rewrite E. destruct (find (id_is id) (sd_objects d')); cbn; [apply object_alike_refl|exact I].
Qed.
Lemma histories_alike H H' st st' : history_fits H -> history_fits H' -> same_end H H' -> store_reads H st -> store_reads H' st' -> store_alike st st'.
Proof.
  intros (D & F) (D' & F') (_ & C & R & K & S) (_ & _ & R1 & S1 & N1) (_ & _ & R2 & S2 & N2).
  inversion F as [|? ? (_ & FR) FS]; subst. inversion F' as [|? ? (_ & FR') FS']; subst. rewrite Forall_forall in FS, FS'. split.
  - rewrite <- C in R2. eapply spaces_alike; [| |exact R|exact R1|exact R2]; now apply after_fits.
  - intro c. destruct (object_space st c) as [sp|] eqn:E, (object_space st' c) as [sp'|] eqn:E'; [| | |exact I].
    + pose proof (N1 _ _ E) as J. pose proof (N2 _ _ E') as J'. apply in_map_iff in J as ([q x] & Q & J). cbn in Q. subst q.
      apply in_map_iff in J' as ([q y] & Q & J'). cbn in Q. subst q.
      destruct (S1 _ _ J) as (? & X1 & X2). rewrite E in X1. injection X1 as <-. destruct (S2 _ _ J') as (? & Y1 & Y2). rewrite E' in Y1. injection Y1 as <-.
      eapply spaces_alike; [| |exact (S _ _ _ J J')|exact X2|exact Y2]; apply after_fits; [apply FS|apply FS']; apply in_map_iff; eexists; split; [|eassumption| |eassumption]; reflexivity.
    + pose proof (N1 _ _ E) as J. apply K in J. apply in_map_iff in J as ([q y] & Q & J). cbn in Q. subst q. destruct (S2 _ _ J) as (? & Y & _). congruence.
    + pose proof (N2 _ _ E') as J. apply K in J. apply in_map_iff in J as ([q y] & Q & J). cbn in Q. subst q. destruct (S1 _ _ J) as (? & Y & _). congruence.
Qed.

Lemma ends_open fuel d d' h h' : ends_alike fuel d d' -> exists st st', open_store h fuel d = Ok st /\ open_store h' fuel d' = Ok st' /\
  st_schema st = st_schema st' /\ store_alike st st'.
Proof.
  intros (els & els' & H & H' & A & A' & B & B' & F & F' & L & L' & S). destruct (history_reads d els H h fuel A B F L) as (st & E & R). destruct (history_reads d' els' H' h' fuel A' B' F' L') as (st' & E' & R').
  exists st, st'. refine (conj E (conj E' (conj _ (histories_alike _ _ _ _ F F' S R R')))). destruct R as (-> & _), R' as (-> & _), S as (-> & _). reflexivity.
Qed.
Lemma ends_section fuel d d' h h' file : ends_alike fuel d d' -> parse_section_buffer h fuel d file = parse_section_buffer h' fuel d' file.
Proof.
  intro A. destruct (ends_open fuel d d' h h' A) as (st & st' & E & E' & Q & AL). unfold parse_section_buffer. rewrite E, E'. cbn [rbind].
  now rewrite Q, (al_section _ _ fuel file AL).
Qed.
Lemma ends_file fuel fs fs' h p : same_files (fun d d' => d = d' \/ ends_alike fuel d d') fs fs' ->
  parse_section_file h fuel fs p = parse_section_file h fuel fs' p.
Proof.
  intros (_ & _ & _ & _ & R). specialize (R p). unfold parse_section_file. destruct (fs_read fs p) as [d|], (fs_read fs' p) as [d'|]; cbn in R; try contradiction; [|reflexivity].
  cbn [ok_or rbind]. destruct R as [<-|A]; [reflexivity|]. destruct (ends_open fuel d d' h h A) as (st & st' & E & E' & Q & AL). rewrite E, E'. cbn [rbind]. rewrite Q.
  destruct (_ =? _); [|reflexivity]. destruct (file_name p); [|reflexivity]. cbn [ok_or rbind]. now rewrite (al_section _ _ fuel _ AL).
Qed.
Lemma ends_notebook fuel fs fs' : same_files (fun d d' => d = d' \/ ends_alike fuel d d') fs fs' ->
  forall s h depth p, parse_notebook s h depth fuel fs p = parse_notebook s h depth fuel fs' p.
Proof.
  intros K s h. induction depth as [|n IH]; intro p; cbn [parse_notebook]; [reflexivity|].
  pose proof K as (X & F & C & D & R). specialize (R p).
  destruct (fs_read fs p) as [d|], (fs_read fs' p) as [d'|]; cbn in R; try contradiction; [|reflexivity]. cbn [ok_or rbind].
  assert (RE : forall b nm, resolve_entry_path s fs b nm = resolve_entry_path s fs' b nm).
  { intros b nm. unfold resolve_entry_path. destruct (is_absolute nm); [reflexivity|]. apply rbind_ext.
    intros [|y l1]; [reflexivity|]. cbv zeta. now rewrite X, !C. }
  destruct R as [<-|A].
  - apply rbind_ext. intro st. destruct (_ =? _); [|reflexivity]. apply rbind_ext. intro b. apply rbind_ext. intros [names c].
    rewrite (map_res_ext _ _ names (RE b)). apply rbind_ext. intro ps. rewrite (filter_ext (fs_exists fs) (fs_exists fs')) by (intro; symmetry; apply X).
    f_equal. apply map_res_ext. intro q. rewrite F, D, (ends_file fuel fs fs' h q K). destruct (fs_is_file fs q); [reflexivity|]. do 3 (apply rbind_ext; intro). now rewrite IH.
  - destruct (ends_open fuel d d' h h A) as (st & st' & E & E' & Q & AL). rewrite E, E'. cbn [rbind]. rewrite Q.
    destruct (_ =? _); [|reflexivity]. rewrite (al_toc _ _ fuel (proj1 AL)). apply rbind_ext. intro b. apply rbind_ext. intros [names c].
    rewrite (map_res_ext _ _ names (RE b)). apply rbind_ext. intro ps. rewrite (filter_ext (fs_exists fs) (fs_exists fs')) by (intro; symmetry; apply X).
    f_equal. apply map_res_ext. intro q. rewrite F, D, (ends_file fuel fs fs' h q K). destruct (fs_is_file fs q); [reflexivity|]. do 3 (apply rbind_ext; intro). now rewrite IH.
Qed.

(** ** Elements that nothing refers to *)
Lemma holds_object_more c c' es x : incl c c' -> holds_object c es x -> holds_object c' es x.
Proof.
  intros I (A & B & C). refine (conj A (conj B _)). destruct (od_file x); [|exact C]. destruct C as (dcl & gr & ce & bid & C1 & C2 & C3). exists dcl, gr, ce, bid. auto.
Qed.
Lemma holds_group_more c c' es ds : incl c c' -> holds_group c es ds -> holds_group c' es ds.
Proof. intros I (A & B & C). refine (conj A (conj _ C)). eapply Forall_impl; [|exact B]. intros x. now apply holds_object_more. Qed.
Lemma holds_edit_more c c' its x : incl c c' -> holds_edit c its x -> holds_edit c' its x.
Proof.
  intros I (parts & A & B & C). exists parts. refine (conj A (conj _ C)). clear A C. induction B as [|g part l l' (ds & os & X & Y & Z) _ IH]; constructor; [|exact IH].
  exists ds, os. split; [auto|]. split; [exact Y|]. eapply holds_group_more; eauto.
Qed.
Lemma holds_edits_more c c' items r es : incl c c' -> holds_edits c items r es -> holds_edits c' items r es.
Proof. intros I. induction 1; [eapply he_first|eapply he_next]; eauto using holds_edit_more. Qed.
Lemma holds_saves_more c c' items cell es : incl c c' -> holds_saves c items cell es -> holds_saves c' items cell es.
Proof. intros I (m & s & r & A & B & C & D). exists m, s, r. repeat split; auto. eapply holds_edits_more; eauto. Qed.
Lemma holds_header_more c c' items cell d : incl c c' -> holds_header c items cell d -> holds_header c' items cell d.
Proof.
  intros I (roots & groups & pre & dcl & gr & ce & e & t & suf & set & (m & s & r & e' & rv & its & A1 & A2 & A3 & A4 & A5 & A6 & A7) & B).
  exists roots, groups, pre, dcl, gr, ce, e, t, suf, set. split; [|exact B]. exists m, s, r, e', rv, its. refine (conj A1 (conj A2 (conj (I _ A3) (conj A4 (conj (I _ A5) (conj A6 _)))))).
  clear - A7 I. induction A7 as [|g es l l' (ds & os & X & Y) _ IH]; constructor; [exists ds, os; auto|exact IH].
Qed.
Lemma history_more c c' H : incl c c' -> unambiguous c' -> holds_history c H -> holds_history c' H.
Proof.
  intros I U (ix & items & mf & roots & hc & _ & Ix & Im & Rh & Rr & DC & DR & HH & HR & HS & All). exists ix, items, mf, roots, hc. cbv zeta in *.
  refine (conj U (conj (I _ Ix) (conj (I _ Im) (conj Rh (conj Rr (conj DC (conj DR (conj _ (conj _ (conj _ All)))))))))).
  - eapply holds_header_more; eauto.
  - eapply holds_saves_more; eauto.
  - eapply Forall_impl; [|exact HS]. intros s (A & B & C). refine (conj A (conj B _)). eapply holds_saves_more; eauto.
Qed.
Lemma same_end_refl H : history_fits H -> same_end H H.
Proof.
  intros (D & _). refine (conj eq_refl (conj eq_refl (conj (conj _ _) (conj _ _)))); try (intros; reflexivity).
  intros c x y I J. inversion D as [|? ? _ D']; subst. assert (x = y) as <-; [|split; reflexivity].
  clear - D' I J. induction (hi_spaces H) as [|[q z] l IH]; [destruct I|]. cbn in D'. inversion D' as [|? ? N D]; subst.
  destruct I as [E|I], J as [E'|J].
  - congruence.
  - injection E as -> ->. exfalso. apply N. apply (in_map fst) in J. exact J.
  - injection E' as -> ->. exfalso. apply N. apply (in_map fst) in I. exact I.
  - auto.
Qed.
Lemma interrupted d d' els els' H n : holds d els -> holds d' els' -> holds_history (content els) H -> history_fits H ->
  Forall (fun es => (length es <= n)%nat) (histories H) -> incl (content els) (content els') -> unambiguous (content els') -> ends_alike n d d'.
Proof.
  intros A A' B F L I U. exists els, els', H, H. refine (conj A (conj A' (conj B (conj _ (conj F (conj F (conj L (conj L _)))))))).
  - eapply history_more; eauto.
  - now apply same_end_refl.
Qed.

(** ** A single save *)
Lemma filter_all {A} (f : A -> bool) l : (forall x, In x l -> f x = true) -> filter f l = l.
Proof. induction l as [|a l IH]; cbn; intro H; [reflexivity|]. rewrite (H a) by now left. f_equal. auto. Qed.
Lemma after_one x : after [x] = x.
Proof. destruct x as [r o]. unfold after, save. cbn. rewrite app_nil_r, filter_all; [reflexivity|]. reflexivity. Qed.
Lemma once_final d : final (saved_once d) = d.
Proof.
  destruct d as [a b c v k cell r l]. unfold final, saved_once. cbn [hi_schema hi_identity hi_ancestor hi_version hi_crc hi_cell hi_root hi_spaces td_schema td_identity td_ancestor td_version td_crc td_cell td_root td_spaces].
  rewrite after_one, map_map. f_equal. rewrite <- (map_id l) at 2. apply map_ext. intros [q x]. cbn [fst snd]. now rewrite after_one.
Qed.
Lemma once_fits d : store_fits d -> history_fits (saved_once d).
Proof.
  intros (A & B & C). unfold history_fits, histories, saved_once. cbn [hi_cell hi_spaces hi_root]. split.
  - rewrite map_map. exact B.
  - constructor; [split; [discriminate|constructor; auto]|]. rewrite map_map. rewrite Forall_forall in *. intros es I. apply in_map_iff in I as (s & <- & I).
    cbn. split; [discriminate|]. constructor; [auto|constructor].
Qed.
Lemma once_saves c items cell x : holds_space c items cell x <-> holds_saves c items cell [x].
Proof.
  split.
  - intros (groups & parts & (m & s & r & e & rv & its & A1 & A2 & A3 & A4 & A5 & A6 & A7) & B & C). exists m, s, r. refine (conj A1 (conj A2 (conj A3 _))). eapply he_first; eauto.
    exists parts. refine (conj A6 (conj _ C)). clear - A7 B. revert parts B. induction A7 as [|g es l l' (ds & os & X & Y & Z) _ IH]; intros parts B; inversion B; subst; constructor; eauto 6.
  - intros (m & s & r & A1 & A2 & A3 & A4). inversion A4 as [? e rv its ? B1 B2 (parts & C1 & C2 & C3)|? e rv base its ? older B1 B2 B3 B4 B5]; subst; [|inversion B5].
    assert (X : exists groups, Forall2 (fun g es => exists ds os, In (g, ElGroup ds os) c /\ length ds = length os /\ combine ds os = es) (flat_map (fun i => match i with RvGroup g => [g] | _ => [] end) its) groups /\ Forall2 (holds_group c) groups parts).
    { clear - C2. induction C2 as [|g part l l' (ds & os & X & Y & Z) _ (gs & IH1 & IH2)]; [exists []; split; constructor|]. exists (combine ds os :: gs). split; constructor; eauto. }
    destruct X as (groups & X1 & X2). exists groups, parts. refine (conj _ (conj X2 C3)). exists m, s, r, e, rv, its. auto 10.
Qed.
Lemma once_holds c d : holds_store c d -> holds_history c (saved_once d).
Proof.
  intros (ix & items & mf & roots & hc & U & Ix & Im & Rh & Rr & DC & DR & HH & HR & HS & All). exists ix, items, mf, roots, hc. cbv zeta in *.
  rewrite once_final. cbn [saved_once hi_schema hi_cell hi_root hi_spaces].
  refine (conj U (conj Ix (conj Im (conj Rh (conj Rr (conj DC (conj DR (conj HH (conj _ (conj _ _)))))))))).
  - now apply once_saves.
  - rewrite Forall_forall in *. intros s I. apply in_map_iff in I as (p & <- & I). cbn [fst snd]. destruct (HS p I) as (A & B & C). refine (conj A (conj B _)). now apply once_saves.
  - intros x m s I. rewrite map_map. cbn [fst]. exact (All x m s I).
Qed.

Lemma flat_end H : history_fits H -> same_end H (saved_once (final H)).
Proof.
  intro F. pose proof (same_end_refl H F) as (_ & _ & _ & _ & S).
  refine (conj eq_refl (conj eq_refl (conj _ (conj _ _)))); cbn [saved_once final td_root td_spaces hi_root hi_spaces].
  - rewrite after_one. split; reflexivity.
  - intro c. rewrite !map_map. cbn [fst]. reflexivity.
  - intros c x y I J. rewrite map_map in J. apply in_map_iff in J as ([q z] & E & J). cbn [fst snd] in E. injection E as -> <-. rewrite after_one. eapply S; eauto.
Qed.
Lemma flat_alike d els d' els' H n : holds d els -> holds_history (content els) H -> history_fits H ->
  Forall (fun es => (length es <= n)%nat) (histories H) -> (1 <= n)%nat ->
  holds d' els' -> holds_store (content els') (final H) -> ends_alike n d d'.
Proof.
  intros A B F L N A' B'. exists els, els', H, (saved_once (final H)).
  refine (conj A (conj A' (conj B (conj (once_holds _ _ B') (conj F (conj (once_fits _ (final_fits _ F)) (conj L (conj _ (flat_end _ F))))))))).
  unfold histories, saved_once. cbn [hi_root hi_spaces]. rewrite Forall_forall. intros es [<-|I]; [exact N|].
  rewrite map_map in I. apply in_map_iff in I as (s & <- & _). exact N.
Qed.
