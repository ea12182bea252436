(** For every valid section, a file that is read as it. *)
From Coq Require Import Lia ZifyBool ZifyNat ZifyN.
From Verif Require Import Base Codec SpecCodec Package PropSet PropIds SpecPropSet Store Shapes Props Nodes Doc Notebook SpecRefs SpecStore SpecValues SpecNodes SpecDoc
  SpecNotebook SpecValid SpecFile DescProofs DescProofs2 DescProofs3 EncodeProofs WriteNodes WriteProofs WriteProofs2 WriteProofs3 DocProofs4 NotebookProofs2 FileProofs AuthorProofs.
From Verif Require SpecSize.

(** ** Spaces *)
Definition pcell (k : nat) : cellid := (ExGuid 2 (N.of_nat k), ExGuid 3 (N.of_nat k)).
Lemma oid_inj a b : oid a = oid b -> a = b.
Proof. unfold oid. intro H. injection H. lia. Qed.
Lemma pcell_inj a b : pcell a = pcell b -> a = b.
Proof. unfold pcell. intro H. injection H. lia. Qed.
Lemma pcell_fits k : N.of_nat k < 2 ^ 32 -> cell_fits (pcell k).
Proof. intro H. split; (split; cbn; [lia|exact H]). Qed.
Lemma pcell_other k : (0 < k)%nat -> exguid_eqb (snd (pcell k)) (snd (pcell 0)) = false.
Proof. intro H. cbn. unfold exguid_eqb. cbn. apply N.eqb_neq. lia. Qed.

Definition space_of (roots : exguid * exguid) (os : list aobject) : space_desc :=
  SpaceDesc [(MetadataRole, fst roots); (DefaultContent, snd roots)] (map describe os).
Lemma described_ids os : map od_id (map describe os) = map ao_id os.
Proof. rewrite map_map. reflexivity. Qed.
Lemma space_of_good roots os n : map ao_id os = map oid (seq n (length os)) -> Forall ao_good os -> N.of_nat (length os) < 2 ^ 32 ->
  id_fits (fst roots) -> id_fits (snd roots) -> space_fits (space_of roots os) /\ space_in_range (space_of roots os).
Proof.
  intros E G L R1 R2. split.
  - refine (conj _ (conj _ _)).
    + cbn. repeat (apply NoDup_cons; [cbn; intuition discriminate|]). apply NoDup_nil.
    + cbn [space_of sd_objects]. rewrite described_ids, E. apply FinFun.Injective_map_NoDup; [intros a b; apply oid_inj|apply seq_NoDup].
    + cbn [space_of sd_objects]. rewrite Forall_map. eapply Forall_impl; [|exact G]. intros a Ha. apply described_range, Ha.
  - refine (conj _ (conj _ _)).
    + cbn [space_of sd_roots]. apply Forall_cons; [exact R1|]. apply Forall_cons; [exact R2|apply Forall_nil].
    + cbn [space_of sd_objects]. rewrite Forall_map. eapply Forall_impl; [|exact G]. intros a Ha. apply described_range, Ha.
    + cbn [space_of sd_objects]. rewrite map_length. exact L.
Qed.
Lemma space_of_present cell roots os sp : space_is cell (space_of roots os) sp ->
  present cell sp os /\ metadata_root sp = Some (fst roots) /\ content_root sp = Some (snd roots).
Proof.
  intros (_ & _ & R & O & _). refine (conj _ (conj _ _)).
  - intros a I. destruct (O (describe a)) as (o & Eo & Ho); [cbn; now apply in_map|]. exists o. split; [exact Eo|exact Ho].
  - apply R. cbn. tauto.
  - apply R. cbn. tauto.
Qed.
(** A space for each page. *)
Definition page_writes (m : nat) (p : page) : Prop := forall cell,
  exists d, space_fits d /\ space_in_range d /\ (length (sd_objects d) <= m)%nat /\ forall sp, space_is cell d sp -> page_is sp p.
Lemma page_space p m : N.of_nat m < 2 ^ 32 ->
  (forall cell, wrote cell (fun r => id_fits (fst r) /\ id_fits (snd r)) (fun sp r => page_at sp r p) m) -> page_writes m p.
Proof.
  intros L H cell. destruct (H cell 0%nat ltac:(lia)) as (r & os & A1 & A2 & A3 & (A4 & A5) & A6).
  exists (space_of r os). destruct (space_of_good r os 0 A2 A3 ltac:(lia) A4 A5) as (F & R). refine (conj F (conj R (conj _ _))).
  { cbn [space_of sd_objects]. now rewrite map_length. }
  intros sp S. destruct (space_of_present _ _ _ _ S) as (P & M & C). destruct (A6 sp P) as (md & pid & d & D1 & D2 & D).
  exists (fst r), md, (snd r), pid, d. refine (conj M (conj D1 (conj C (conj D2 D)))).
Qed.

(** ** Pages, numbered through the section *)
Fixpoint numbered (k : nat) (ss : list (list page)) : list (list (cellid * page)) :=
  match ss with
  | [] => []
  | ps :: r => combine (map pcell (seq k (length ps))) ps :: numbered (k + length ps) r
  end.
Lemma combine_firsts {A B} (l : list A) : forall m : list B, length l = length m -> map fst (combine l m) = l.
Proof. induction l as [|a l IH]; intros [|b m] H; try discriminate H; cbn; [reflexivity|]. f_equal. apply IH. now injection H. Qed.
Lemma combine_seconds {A B} (l : list A) : forall m : list B, length l = length m -> map snd (combine l m) = m.
Proof. induction l as [|a l IH]; intros [|b m] H; try discriminate H; cbn; [reflexivity|]. f_equal. apply IH. now injection H. Qed.
Definition page_count (ss : list (list page)) : nat := sum_of (@length page) ss.
Lemma numbered_pages ss : forall k, map (map snd) (numbered k ss) = ss.
Proof.
  induction ss as [|ps ss IH]; intro k; [reflexivity|]. cbn [numbered map]. rewrite IH, combine_seconds by (now rewrite map_length, seq_length). reflexivity.
Qed.
Lemma numbered_cells ss : forall k, map fst (concat (numbered k ss)) = map pcell (seq k (page_count ss)).
Proof.
  induction ss as [|ps ss IH]; intro k; [reflexivity|]. cbn [numbered concat page_count sum_of].
  rewrite map_app, IH, combine_firsts by (now rewrite map_length, seq_length). now rewrite seq_app, map_app.
Qed.
Lemma numbered_series ss xs k : In xs (numbered k ss) -> exists j n, map fst xs = map pcell (seq j n) /\ (k <= j)%nat /\ (j + n <= k + page_count ss)%nat.
Proof.
  revert k. induction ss as [|ps ss IH]; intros k; [contradiction|]. cbn [numbered page_count sum_of]. intros [<-|I].
  - exists k, (length ps). rewrite combine_firsts by (now rewrite map_length, seq_length). repeat split; lia.
  - destruct (IH _ I) as (j & n & E & A & B). exists j, n. unfold page_count in B. repeat split; [exact E|lia|lia].
Qed.
Lemma page_spaces m (xs : list (cellid * page)) : Forall (fun cp => page_writes m (snd cp)) xs ->
  exists ds, Forall2 (fun cp d => fst d = fst cp /\ space_fits (snd d) /\ space_in_range (snd d) /\ (length (sd_objects (snd d)) <= m)%nat /\ forall sp, space_is (fst d) (snd d) sp -> page_is sp (snd cp)) xs ds.
Proof.
  induction 1 as [|[c p] xs H _ (ds & IH)]; [exists []; constructor|]. destruct (H c) as (d & D1 & D2 & D3 & D4).
  exists ((c, d) :: ds). constructor; [|exact IH]. refine (conj eq_refl (conj D1 (conj D2 (conj D3 D4)))).
Qed.

(** ** Root space *)
Definition root_at (sp : space) (roots : exguid * exguid) (s : section) (series : list (list cellid)) : Prop :=
  exists m d, found sp (fst roots) (fun o => section_meta o m) /\ found sp (snd roots) (fun o => section_node o d) /\
    sm_display_name m = Some (se_display_name s) /\ se_color s = sm_color m /\
    Forall2 (fun id cs => found sp id (fun o => exists d, series_node o d /\ pn_page_spaces d = cs)) (sn_page_series d) series.
Lemma w_root s series : plain (se_display_name s) -> if_any color_ok (se_color s) -> N.of_nat (length (se_display_name s)) < 2 ^ 21 ->
  N.of_nat (length series) < 2 ^ 21 -> Forall (cells_ok (pcell 0)) series ->
  wrote (pcell 0) (fun r => id_fits (fst r) /\ id_fits (snd r)) (fun sp r => root_at sp r s series) (length series + 2).
Proof.
  intros A1 A2 L1 L2 C.
  assert (S : wrote (pcell 0) (all_good id_fits series) (fun sp ids => Forall2 (fun id cs => found sp id (fun o => exists d, series_node o d /\ pn_page_spaces d = cs)) ids series)
                (sum_of (fun _ => 1%nat) series)).
  { apply (w_list (pcell 0) id_fits (fun sp id cs => found sp id (fun o => exists d, series_node o d /\ pn_page_spaces d = cs))). intros cs I.
    eapply w_impl; [apply (w_object _ (fun o => series_node o (PageSeriesData 0 cs [] None)))|].
    - intros id Hid. rewrite Forall_forall in C. apply w_series; [exact Hid|..]; try hv; [now apply C|split; [constructor|reflexivity]].
    - intros sp id _ (o & Eo & Ho). exists o. split; [exact Eo|]. eexists. split; [exact Ho|reflexivity]. }
  assert (E : sum_of (fun _ : list cellid => 1%nat) series = length series) by (clear; induction series as [|x l IH]; cbn; [reflexivity|now rewrite IH]).
  rewrite E in S. clear E.
  eapply w_more; [eapply w_map with (f := fun x : exguid * exguid => x); [eapply w_pair; [|eapply w_node with
     (Q := fun ids o => section_node o (SectionData (fst (pcell 0)) 0 ids 0)); [exact S|..]]|..]|].
  - apply (w_object _ (fun o => section_meta o (SectionMetaData 0 0 (Some (se_display_name s)) (se_color s)))). intros id Hid.
    apply w_section_meta; [exact Hid|..]; hv.
  - intros ids id (F & E) Hid. apply w_section; [exact Hid|reflexivity|hv|split; [exact F|proj; lia]|hv].
  - intros sp ids id _ R F. exact (ex_intro (fun ids => Forall2 (fun id cs => found sp id (fun o => exists d, series_node o d /\ pn_page_spaces d = cs)) ids series /\
       found sp id (fun o => section_node o (SectionData (fst (pcell 0)) 0 ids 0))) ids (conj R F)).
  - auto.
  - intros sp (m & c) _ (Rm & ids & Ri & Rc). cbn [fst snd] in *. eexists _, _. refine (conj Rm (conj Rc (conj eq_refl (conj eq_refl Ri)))).
  - lia.
Qed.

(** ** Sections *)
Lemma Forall2_in_l {A B} (R : A -> B -> Prop) l m x : Forall2 R l m -> In x l -> exists y, In y m /\ R x y.
Proof. induction 1 as [|a b l m H _ IH]; [contradiction|]. intros [<-|I]; [exists b; split; [now left|exact H]|]. destruct (IH I) as (y & Y1 & Y2). exists y. split; [now right|exact Y2]. Qed.
Lemma Forall2_heads {A B C} (f : A -> C) (g : B -> C) (R : A -> B -> Prop) l m : Forall2 R l m -> (forall a b, R a b -> g b = f a) -> map g m = map f l.
Proof. intros H E. induction H as [|a b l m H _ IH]; cbn; [reflexivity|]. now rewrite IH, (E a b H). Qed.

Definition section_schema_ : guid := 0x1F937CB4B26F445FB9F817E20160E461.
Lemma section_author m s : plain (se_display_name s) -> (forall p, se_display_name s <> p ++ one_suffix) -> if_any color_ok (se_color s) ->
  N.of_nat (length (se_display_name s) + length (se_page_series s) + page_count (se_page_series s)) < 2 ^ 21 ->
  (forall ps p, In ps (se_page_series s) -> In p ps -> page_writes m p) ->
  exists D, td_schema D = section_schema_ /\ store_fits D /\ store_in_range D /\ Forall (fun c => (length (sd_objects (snd c)) <= m)%nat) (td_spaces D) /\
    forall st file, store_is D st -> section_is st file s.
Proof.
  intros A1 A2 A3 L A4. set (ss := se_page_series s) in *.
  assert (P : Forall (fun cp => page_writes m (snd cp)) (concat (numbered 1 ss))).
  { apply Forall_forall. intros cp I. apply in_concat in I as (xs & I1 & I2).
    apply (A4 (map snd xs)); [|now apply in_map]. rewrite <- (numbered_pages ss 1). now apply in_map. }
  destruct (page_spaces _ _ P) as (ds & Hd).
  assert (Ec : map fst ds = map pcell (seq 1 (page_count ss))).
  { rewrite <- (numbered_cells ss 1). apply (Forall2_heads fst fst _ _ _ Hd). intros a b H. apply H. }
  assert (C : Forall (cells_ok (pcell 0)) (map (map fst) (numbered 1 ss))).
  { apply Forall_forall. intros cs I. apply in_map_iff in I as (xs & <- & I). destruct (numbered_series _ _ _ I) as (j & n & -> & J1 & J2).
    refine (conj _ (conj _ _)).
    - apply Forall_map, Forall_forall. intros i Ii. apply in_seq in Ii. apply pcell_fits. lia.
    - apply Forall_map, Forall_forall. intros i Ii. apply in_seq in Ii. apply pcell_other. lia.
    - rewrite map_length, seq_length. lia. }
  assert (Ln : length (map (map fst) (numbered 1 ss)) = length ss) by (pose proof (f_equal (@length _) (numbered_pages ss 1)) as El; rewrite map_length in *; exact El).
  destruct (w_root s _ A1 A3 ltac:(lia) ltac:(rewrite Ln; lia) C 0%nat ltac:(rewrite Ln; lia)) as (r & os & B1 & B2 & B3 & (B4 & B5) & B6). rewrite Ln in B1.
  destruct (space_of_good r os 0 B2 B3 ltac:(lia) B4 B5) as (F & R).
  exists (StoreDesc section_schema_ 0 0 None 0 (pcell 0) (space_of r os) ds). refine (conj eq_refl (conj _ (conj _ (conj _ _)))).
  - refine (conj F (conj _ _)); cbn [td_cell td_spaces].
    + change (pcell 0 :: map fst ds) with ([pcell 0] ++ map fst ds). rewrite Ec. change [pcell 0] with (map pcell (seq 0 1)). rewrite <- map_app, <- seq_app.
      apply FinFun.Injective_map_NoDup; [intros a b; apply pcell_inj|apply seq_NoDup].
    + clear - Hd. induction Hd as [|a b l l' H _ IH]; constructor; [apply H|exact IH].
  - refine (conj eq_refl (conj eq_refl (conj eq_refl (conj I (conj eq_refl (conj _ (conj R (conj _ _)))))))); cbn [td_cell td_spaces].
    + now apply pcell_fits.
    + assert (Hc : Forall cell_fits (map fst ds)).
      { rewrite Ec. apply Forall_map, Forall_forall. intros i Ii. apply in_seq in Ii. apply pcell_fits. lia. }
      rewrite Forall_map in Hc. clear - Hd Hc. induction Hd as [|a b l l' H _ IH]; inversion Hc; subst; constructor; [split; [assumption|apply H]|now apply IH].
    + rewrite <- (map_length fst), Ec, map_length, seq_length. lia.
  - cbn [td_spaces]. clear - Hd. induction Hd as [|a b l m' H _ IH]; constructor; [apply H|exact IH].
  - intros st file (_ & _ & S1 & S2 & _). cbn [td_cell td_root td_spaces] in *. destruct (space_of_present _ _ _ _ S1) as (Pr & M & Ct).
    destruct (B6 _ Pr) as (m' & d & D1 & D2 & D3 & D4 & D5). exists (fst r), m', (snd r), d.
    refine (conj M (conj D1 (conj Ct (conj D2 (conj _ (conj D4 _)))))).
    + rewrite D3. split; [exists 0%nat; cbn; now rewrite app_nil_r|]. intros p E. exact (A2 p E).
    + change (se_page_series s) with ss. rewrite <- (numbered_pages ss 1).
      assert (Q : forall xs, In xs (numbered 1 ss) -> Forall2 (fun c p => exists sp, object_space st c = Some sp /\ page_is sp p) (map fst xs) (map snd xs)).
      { intros xs I. assert (K : forall cp, In cp xs -> exists sp, object_space st (fst cp) = Some sp /\ page_is sp (snd cp)).
        { intros cp Ic. destruct (Forall2_in_l _ _ _ cp Hd ltac:(apply in_concat; eauto)) as ((c & sd) & Y1 & Y2 & _ & _ & _ & Y3). cbn [fst snd] in *. subst c.
          destruct (S2 _ _ Y1) as (sp & E1 & E2). exists sp. split; [exact E1|now apply Y3]. }
        clear - K. induction xs as [|cp xs IH]; cbn; constructor; [apply K; now left|apply IH; intros; apply K; now right]. }
      clear - D5 Q. remember (sn_page_series d) as ids. clear Heqids. revert ids D5. induction (numbered 1 ss) as [|xs l IH]; intros ids D5; inversion D5 as [|id cs ids' l' H D5']; subst; cbn [map]; constructor.
      * destruct H as (o & Eo & pd & Ho & Es). exists o. split; [exact Eo|]. exists pd. split; [exact Ho|]. rewrite Es. apply Q. now left.
      * apply IH; [|exact D5']. intros ys Iy. apply Q. now right.
Qed.

Lemma author_written m s D : td_schema D = section_schema_ -> store_fits D -> store_in_range D -> Forall (fun c => (length (sd_objects (snd c)) <= m)%nat) (td_spaces D) ->
  (forall st file, store_is D st -> section_is st file s) ->
  exists d, bytes_ok d /\ forall h, exists st, open_store h 1 d = Ok st /\
    (forall cell sp l, object_space st cell = Some sp -> NoDup l -> (forall x, In x l -> exists o, get_object sp x = Some o) -> (length l <= m)%nat) /\
    forall file, exists k, forall fuel, (k <= fuel)%nat -> parse_section_buffer h fuel d file = Ok s.
Proof.
  intros Sc F R Lm X. destruct (store_author D F R) as (d & els & B & Hd & Hs).
  exists d. split; [exact B|]. intros h. destruct (store_described d els D h 1 Hd Hs F (le_n _)) as (st & E & S).
  exists st. split; [exact E|]. split.
  - intros cell sp l Esp Nl Hl. destruct S as (_ & _ & _ & S1 & S2). pose proof (S2 _ _ Esp) as I. apply in_map_iff in I as ((c & x) & Ec & I). cbn in Ec. subst c.
    destruct (S1 _ _ I) as (sp' & E' & _ & _ & _ & _ & O). rewrite Esp in E'. injection E' as <-.
    rewrite Forall_forall in Lm. specialize (Lm _ I). cbn [snd] in Lm. rewrite <- (map_length od_id) in Lm.
    eapply Nat.le_trans; [|exact Lm]. apply NoDup_incl_length; [exact Nl|]. intros y Iy. destruct (Hl y Iy) as (o & Eo). exact (O y o Eo).
  - intros file. pose proof (X st file S) as Y. apply section_settles in Y as (k & K). exists (1 + k)%nat. intros fuel Lf. unfold parse_section_buffer.
    rewrite (open_mono h 1 fuel d st) by (try exact E; lia). cbn [rbind]. rewrite (proj1 S), Sc. change (section_schema_ =? section_schema) with true. cbn iota.
    apply K. lia.
Qed.

Lemma section_written s : section_ok s -> N.of_nat (section_size s) < 2 ^ 21 ->
  exists d, bytes_ok d /\ forall h file, exists k, forall fuel, (k <= fuel)%nat -> parse_section_buffer h fuel d file = Ok s.
Proof.
  intros (A1 & A2 & A3 & A4) L. unfold section_size in L. set (ss := se_page_series s) in *.
  assert (Lp : (page_count ss + length ss <= sum_of (fun ps => 1 + sum_of page_size ps) ss)%nat).
  { clear. unfold page_count. induction ss as [|ps ss IH]; [cbn; lia|]. cbn [sum_of length]. pose proof (sum_length page_size ps ltac:(intros x _; unfold page_size; lia)). lia. }
  destruct (section_author (2 * section_size s + 2) s A1 A2 A3) as (D & Sc & F & R & Q & X).
  - fold ss. lia.
  - intros ps p I1 I2. fold ss in I1. rewrite every_in in A4. pose proof (A4 _ I1) as Hp. rewrite every_in in Hp.
    pose proof (sum_in (fun ps => 1 + sum_of page_size ps)%nat ss _ I1) as L1. cbn beta in L1. pose proof (sum_in page_size _ _ I2).
    apply page_space; unfold section_size; fold ss; [lia|]. intro cell. eapply w_more; [apply w_page_data; [now apply Hp|lia]|lia].
  - destruct (author_written _ s D Sc F R Q X) as (d & B & Y). exists d. split; [exact B|]. intros h. destruct (Y h) as (st & _ & _ & Z). exact Z.
Qed.

(** ** Objects listed twice *)
(** A group that has two equal groups, each with two equal groups, and so on. *)
Fixpoint doubled (k : nat) : outline_item :=
  match k with O => ItemGroup 0 [] | S j => ItemGroup 0 [doubled j; doubled j] end.
Definition doubled_outline (k : nat) : outline :=
  Outline 0 None [] None None None None None None false None None [doubled k].
Definition doubled_page (k : nat) : page := Page None 0 None None [PcOutline (doubled_outline k)].
Definition doubled_section (k : nat) : section := Section_ [120] [[doubled_page k]] None.

Lemma w_doubled cell k : wrote cell id_fits (fun sp id => item_is sp id (doubled k)) (k + 1).
Proof.
  induction k as [|k IH].
  - eapply w_impl; [apply (w_object _ (fun o => group_object o (OutlineGroupData 0 [] 0)))|].
    + intros id Hid. apply w_group; [exact Hid|hv|split; [constructor|reflexivity]|hv].
    + intros sp id _ (o & Eo & Ho). eapply is_group; [exact Eo|exact Ho|reflexivity|constructor].
  - eapply w_more; [eapply w_node with (Q := fun id o => group_object o (OutlineGroupData 0 [id; id] 0)); [exact IH|..]|lia].
    + intros t id Ht Hid. apply w_group; [exact Hid|hv|split; [repeat (constructor; try exact Ht)|reflexivity]|hv].
    + intros sp t id _ R (o & Eo & Ho). eapply is_group; [exact Eo|exact Ho|reflexivity|]. repeat (constructor; try exact R).
Qed.
Lemma w_doubled_page cell k : wrote cell (fun r => id_fits (fst r) /\ id_fits (snd r)) (fun sp r => page_at sp r (doubled_page k)) (k + 5).
Proof.
  assert (O : wrote cell id_fits (fun sp id => outline_is sp id (doubled_outline k)) (k + 2)).
  { eapply w_more; [eapply w_node with (Q := fun id o => outline_object o (OutlineData 0 [id] 0 None None None None false false None None None [] None None
        false false false false false false false)); [apply (w_doubled cell k)|..]|lia].
    - intros t id Ht Hid. apply w_outline; [exact Hid|..]; try hv; [split; [repeat (constructor; try exact Ht)|reflexivity]|].
      proj. apply has_req, e_indents. split; [constructor|cbn; lia].
    - intros sp t id _ R (o & Eo & Ho). exists o. split; [exact Eo|]. eexists. split; [exact Ho|].
      refine (conj eq_refl (conj eq_refl (conj eq_refl (conj eq_refl (conj eq_refl (conj eq_refl (conj eq_refl (conj eq_refl (conj eq_refl (conj eq_refl
        (conj eq_refl (conj eq_refl _)))))))))))). repeat (constructor; try exact R). }
  assert (P : wrote cell id_fits (fun sp pid => exists d, found sp pid (fun o => page_object o d) /\ pd_author d = None /\ pd_page_height d = None /\
      pd_title d = None /\ Forall2 (page_content_is sp) (pd_content d) (pg_contents (doubled_page k))) (k + 3)).
  { eapply w_more; [eapply w_node with (Q := fun id o => page_object o (PageData None None None [id] None false None None None None None None None None PsAuto false)); [exact O|..]|lia].
    - intros t id Ht Hid. apply w_page; [exact Hid|..]; try hv; [split; [repeat (constructor; try exact Ht)|reflexivity]|exact I].
    - intros sp t id _ R F. eexists. split; [exact F|]. refine (conj eq_refl (conj eq_refl (conj eq_refl _))).
      constructor; [|constructor]. now apply pc_outline. }
  eapply w_more; [eapply w_map with (f := fun x : exguid * exguid => x); [eapply w_pair; [|eapply w_node with (Q := fun pid o => manifest_node o pid); [exact P|..]]|..]|].
  - apply (w_object cell (fun o => page_meta o (PageMetaData 0 [] None None 0 0 false))). intros id Hid. apply w_page_meta; [exact Hid|..]; try hv.
    proj. apply has_req, e_text; [split; constructor|reflexivity].
  - intros pid id Hp Hid. now apply w_manifest.
  - intros sp pid id _ R F. exact (ex_intro (fun pid => _ /\ found sp id (fun o => manifest_node o pid)) pid (conj R F)).
  - auto.
  - intros sp (m & c) _ (Rm & pid & (d & D1 & D2 & D3 & D4 & D5) & Rc). cbn [fst snd] in *. eexists _, pid, d. refine (conj Rm (conj Rc (conj D1 (conj eq_refl (conj _ (conj _ (conj _ D5))))))).
    + now rewrite D2.
    + now rewrite D3.
    + rewrite D4. constructor.
  - lia.
Qed.
Lemma doubled_size k : (2 ^ k <= SpecSize.item_size (doubled k))%nat.
Proof. induction k as [|k IH]; [cbn; lia|]. cbn [doubled SpecSize.item_size SpecSize.total Nat.pow]. lia. Qed.
