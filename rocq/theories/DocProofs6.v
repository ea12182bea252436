(** Consequences of the description of documents: titles, blobs, ink positions,
    dangling references and determinism. *)
From Coq Require Import Lia ZifyBool ZifyNat ZifyN Relations.
From Verif Require Import Base Codec Package PropSet PropIds Store Shapes Props Nodes Doc Notebook SpecCodec SpecStore
  SpecValues SpecNodes SpecDoc BaseProofs PackageFacts CodecProofs PackageProofs NodesProofs NodesProofs2 NodesProofs3 StoreProofs StoreProofs2 StoreProofs3
  DocProofs DocProofs2 DocProofs3 DocProofs4 DocProofs5.

(** ** Titles *)
Lemma outline_text_ok o s : outline_text o = Some s <-> opens_with o s.
Proof.
  unfold outline_text, opens_with. split.
  - destruct (ol_items o) as [|[lv l|[cs ls spc lv ch]] items]; cbn; try discriminate.
    destruct cs as [|c cs]; cbn; [discriminate|]. destruct c; cbn; try discriminate.
    destruct (tx_text t) as [|x r] eqn:E; [discriminate|]. intros [= <-].
    exists t, cs, ls, spc, lv, ch, items. split; [reflexivity|]. split; [exact E|discriminate].
  - intros (t & cs & ls & spc & lv & ch & items & -> & E & N). cbn. rewrite E. destruct s; [contradiction|reflexivity].
Qed.
Lemma outline_text_none o : outline_text o = None <-> forall s, ~ opens_with o s.
Proof.
  split.
  - intros H s Hs. apply outline_text_ok in Hs. congruence.
  - intros H. destruct (outline_text o) as [s|] eqn:E; [|reflexivity]. apply outline_text_ok in E. now apply H in E.
Qed.
Definition first_text (l : list page_content) : option (list N) :=
  hd_error (Doc.filter_map outline_text (Doc.filter_map page_content_outline l)).
Lemma first_text_cons c l : first_text (c :: l) =
  match page_content_outline c with
  | Some o => match outline_text o with Some s => Some s | None => first_text l end
  | None => first_text l
  end.
Proof.
  unfold first_text. cbn [Doc.filter_map flat_map]. fold (Doc.filter_map page_content_outline l). destruct (page_content_outline c) as [o|]; [|reflexivity].
  cbn [app Doc.filter_map flat_map]. fold (Doc.filter_map outline_text (Doc.filter_map page_content_outline l)). destruct (outline_text o); reflexivity.
Qed.
Lemma first_text_ok l s : first_text l = Some s <->
  exists pre o suf, l = pre ++ PcOutline o :: suf /\ opens_with o s /\ forall o' s', In (PcOutline o') pre -> ~ opens_with o' s'.
Proof.
  induction l as [|c l IH].
  { split; [discriminate|]. intros (pre & o & suf & E & _). now destruct pre. }
  rewrite first_text_cons. split.
  - intros H. destruct (page_content_outline c) as [o|] eqn:Ec.
    + destruct c; try discriminate Ec. injection Ec as ->. destruct (outline_text o) as [s'|] eqn:Eo.
      * injection H as ->. exists [], o, l. split; [reflexivity|]. split; [now apply outline_text_ok|]. intros o' s' [].
      * apply IH in H as (pre & o1 & suf & -> & Ho & Hp). exists (PcOutline o :: pre), o1, suf. split; [reflexivity|].
        split; [exact Ho|]. intros o' s' [[= <-]|Hin]; [now apply outline_text_none|now apply Hp].
    + apply IH in H as (pre & o1 & suf & -> & Ho & Hp). exists (c :: pre), o1, suf. split; [reflexivity|].
      split; [exact Ho|]. intros o' s' [->|Hin]; [discriminate Ec|now apply Hp].
  - intros (pre & o & suf & E & Ho & Hp). destruct pre as [|c' pre].
    + injection E as -> ->. cbn. apply outline_text_ok in Ho. now rewrite Ho.
    + injection E as <- ->. assert (R : first_text (pre ++ PcOutline o :: suf) = Some s).
      { apply IH. exists pre, o, suf. split; [reflexivity|]. split; [exact Ho|]. intros o' s' Hin. apply Hp. now right. }
      destruct c; cbn [page_content_outline]; try exact R.
      assert (N : outline_text o0 = None) by (apply outline_text_none; intros s' Hs; apply (Hp o0 s'); [now left|exact Hs]).
      now rewrite N.
Qed.
Definition from_title (p : page) : option (list N) :=
  and_then (and_then (pg_title p) (fun t => hd_error (ti_contents t))) outline_text.
Lemma from_title_ok p s : from_title p = Some s <-> title_opens_with p s.
Proof.
  unfold from_title, title_opens_with. split.
  - destruct (pg_title p) as [t|]; cbn; [|discriminate]. destruct (ti_contents t) as [|o r] eqn:E; cbn; [discriminate|].
    intros H. apply outline_text_ok in H. eauto 7.
  - intros (t & o & r & -> & E & H). cbn. rewrite E. cbn. now apply outline_text_ok.
Qed.
Lemma opens_fun o s s' : opens_with o s -> opens_with o s' -> s = s'.
Proof. intros H H'. apply outline_text_ok in H, H'. congruence. Qed.
Lemma title_text_ok p s : title_text p = Some s <->
  title_opens_with p s \/ (forall s', ~ title_opens_with p s') /\ content_opens_with p s.
Proof.
  unfold title_text. fold (from_title p). fold (first_text (pg_contents p)). unfold content_opens_with. rewrite <- first_text_ok.
  destruct (from_title p) as [s'|] eqn:E; cbn.
  - apply from_title_ok in E. split.
    + intros [= ->]. now left.
    + intros [H|(H & _)]; [|now apply H in E]. apply from_title_ok in H, E. congruence.
  - assert (N : forall s', ~ title_opens_with p s') by (intros s' H; apply from_title_ok in H; congruence).
    split; [intros H; right; split; assumption|]. intros [H|(_ & H)]; [now apply N in H|exact H].
Qed.
Lemma title_text_none p : title_text p = None <->
  (forall s, ~ title_opens_with p s) /\ forall o s, In (PcOutline o) (pg_contents p) -> ~ opens_with o s.
Proof.
  split.
  - intros H. split.
    + intros s Hs. assert (E : title_text p = Some s) by (apply title_text_ok; now left). congruence.
    + assert (F : first_text (pg_contents p) = None).
      { unfold title_text in H. fold (from_title p) in H. fold (first_text (pg_contents p)) in H. now destruct (from_title p). }
      clear H. revert F. induction (pg_contents p) as [|c l IH]; intros F o s Hin Hs; [destruct Hin|].
      rewrite first_text_cons in F. destruct Hin as [->|Hin].
      * cbn in F. apply outline_text_ok in Hs. rewrite Hs in F. discriminate F.
      * assert (F' : first_text l = None) by (destruct (page_content_outline c) as [o'|]; [destruct (outline_text o')|]; congruence).
        now apply (IH F' o s).
  - intros (Ht & Hc). destruct (title_text p) as [s|] eqn:E; [|reflexivity].
    apply title_text_ok in E as [E|(_ & pre & o & suf & E & Ho & _)]; [now apply Ht in E|].
    exfalso. apply (Hc o s); [|exact Ho]. rewrite E. apply in_or_app. right. now left.
Qed.
Lemma title_text_nonempty p : title_text p <> Some [].
Proof.
  intros H. apply title_text_ok in H as [(t & o & r & _ & _ & H)|(_ & pre & o & suf & _ & H & _)];
    destruct H as (? & ? & ? & ? & ? & ? & ? & _ & _ & N); now apply N.
Qed.

(** ** Lists *)
Lemma list_crash id sp : parse_list id sp = Panic <-> short_list_format sp id.
Proof.
  unfold parse_list, short_list_format. split.
  - intros H. apply crash_ret in H as (o & Ho & H); [|apply ret_need]. apply need_ok in Ho. exists o. split; [exact Ho|].
    apply crash_bind in H as [H|(d & _ & H)]; [|discriminate H]. now apply list_panics.
  - intros (o & Ho & H). apply need_ok in Ho. rewrite Ho. cbn [rbind]. apply list_panics in H. now rewrite H.
Qed.
Lemma section_panic f st file : parse_section f st file = Panic ->
  exists c sp id, object_space st c = Some sp /\ (short_list_format sp id \/ ink_shortage sp id).
Proof.
  intros H. apply section_crash in H as (c & sp & id & Hs & [H|H]); exists c, sp, id; (split; [exact Hs|]).
  - left. now apply list_crash.
  - right. now apply text_crash.
Qed.

(** ** Ink positions *)
Lemma embeds_nth sp refs k objs out : refs <> [] -> embeds sp refs k objs out ->
  length out = length objs /\
  forall pre x rest, objs = pre ++ (None, x) :: rest -> exists id ss bb,
    nth_error refs (k + ink_count pre) = Some id /\ drawing_is sp None None id ss bb /\
    nth_error out (length pre) = Some (EoInk (Ink ss bb (ei_offset_horiz x) (ei_offset_vert x)) (shown_box x)).
Proof.
  intros N H. induction H as [k|k d r out H (IL & IH)|k d h w r out Hh Hw H (IL & IH)|k d id ss bb r out Hn Hd H (IL & IH)|k d r out E H _].
  - split; [reflexivity|]. intros [|p pre] x rest E; discriminate E.
  - split; [cbn; lia|]. intros [|p pre] x rest E; [discriminate E|]. injection E as <- ->.
    destruct (IH pre x rest eq_refl) as (id & ss & bb & A & B & C). exists id, ss, bb. auto.
  - split; [cbn; lia|]. intros [|p pre] x rest E; [discriminate E|]. injection E as <- ->.
    destruct (IH pre x rest eq_refl) as (id & ss & bb & A & B & C). exists id, ss, bb. auto.
  - split; [cbn; lia|]. intros [|p pre] x rest E.
    + injection E as <- _. exists id, ss, bb. change (ink_count []) with 0%nat. rewrite Nat.add_0_r. auto.
    + injection E as <- ->. destruct (IH pre x rest eq_refl) as (id' & ss' & bb' & A & B & C). exists id', ss', bb'.
      change (ink_count ((None, d) :: pre)) with (S (ink_count pre)). rewrite Nat.add_succ_r. auto.
  - contradiction.
Qed.

(** ** Blobs *)
Lemma space_file h fuel m si pk c s oid o :
  space_parse h fuel m si pk [] = Ok (c, s) -> get_object s oid = Some o ->
  exists g, source_group pk si m oid g /\
    match ob_file o with
    | Some d => exists os cs b, group_entry g oid 2 (DataBlobRef os cs b) /\ blob_at pk b d
    | None => forall od, ~ group_entry g oid 2 od
    end.
Proof.
  intros H Ho. apply space_parse_ok in H as (-> & _ & _ & [(E & _)|(id & revs & gs & Hn & Hc & Hg & Hob & _)]).
  - unfold get_object in Ho. rewrite E in Ho. discriminate Ho.
  - destruct (Hob oid o Ho) as (g & Hd & Hof). exists g. split; [exists id, revs, gs; auto|].
    destruct Hof as [_ _ _ _ [(-> & E)|(os & cs & b & d' & Hg2 & Hb & ->)]]; [exact E|eauto].
Qed.
Lemma store_file bs pg rest h fuel st sp oid o :
  packaging_parse bs = Ok (pg, rest) -> parse_store h fuel pg = Ok st -> store_space st sp ->
  get_object sp oid = Some o -> file_bytes (pg_package pg) oid (ob_file o).
Proof.
  intros P S Hs Ho.
  destruct (sc_all _ _ _ _ (parse_store_contents h fuel pg st (packaging_parse_ok bs pg rest P) S))
    as (k & si & j & sm & hc & rc & m & Hsi & _ & _ & _ & _ & Hm & Hroot & _ & Hall).
  destruct Hs as [->|(c & Hc)].
  - destruct (space_file _ _ _ _ _ _ _ _ _ Hroot Ho) as (g & A & B). exists k, si, rc, m, g. auto.
  - destruct (Hall c sp Hc) as (x & Hx & _ & _ & _ & Hp).
    destruct (space_file _ _ _ _ _ _ _ _ _ Hp Ho) as (g & A & B). exists k, si, c, x, g. auto.
Qed.
Lemma file_delivered bs pg rest h fuel st sp id f :
  packaging_parse bs = Ok (pg, rest) -> parse_store h fuel pg = Ok st -> store_space st sp ->
  parse_embedded_file id sp = Ok f ->
  exists o d, get_object sp id = Some o /\ file_node o d /\
    file_bytes (pg_package pg) (ef_container d) (Some (fi_data f)).
Proof.
  intros P S Hs H. apply file_is_ok in H as (o & Ho & d & Hd & _ & _ & _ & _ & _ & _ & (co & Hco & _ & Hf) & _).
  exists o, d. split; [exact Ho|]. split; [exact Hd|]. rewrite <- Hf. eapply store_file; eauto.
Qed.
Lemma image_delivered bs pg rest h fuel st sp id g :
  packaging_parse bs = Ok (pg, rest) -> parse_store h fuel pg = Ok st -> store_space st sp ->
  parse_image id sp = Ok g ->
  exists o d, get_object sp id = Some o /\ image_object o d /\
    match im_picture_container d with
    | None => ig_data g = None
    | Some c => exists bytes, ig_data g = Some bytes /\
        (file_bytes (pg_package pg) c (Some bytes) \/ file_bytes (pg_package pg) c None /\ bytes = [])
    end.
Proof.
  intros P S Hs H. apply image_is_ok in H as (o & Ho & d & Hd & Hp & _).
  exists o, d. split; [exact Ho|]. split; [exact Hd|]. destruct (im_picture_container d) as [c|]; [|apply Hp].
  destruct Hp as (co & Hco & p & (_ & Hpo & _) & -> & _). eexists. split; [reflexivity|].
  pose proof (store_file _ _ _ _ _ _ _ _ _ P S Hs Hco) as F. destruct (ob_file co) as [b|]; rewrite Hpo; auto.
Qed.

(** ** One result *)
Lemma section_deterministic f1 f2 st file s1 s2 :
  parse_section f1 st file = Ok s1 -> parse_section f2 st file = Ok s2 -> s1 = s2.
Proof.
  intros H1 H2. destruct (section_settles st file s1) as (A1 & B1). destruct (section_settles st file s2) as (A2 & B2).
  apply A1, B1 in H1 as (k1 & H1). apply A2, B2 in H2 as (k2 & H2).
  specialize (H1 (k1 + k2)%nat ltac:(lia)). specialize (H2 (k1 + k2)%nat ltac:(lia)). congruence.
Qed.
Lemma section_iff st file s : (exists fuel, parse_section fuel st file = Ok s) <-> section_is st file s.
Proof.
  destruct (section_settles st file s) as (A & B). split; [intros (f & H); now apply A in H|].
  intros H. apply B in H as (k & H). exists k. now apply H.
Qed.

(** ** Missing objects *)
Lemma found_there sp id P : found sp id P -> there sp id.
Proof. intros (o & H & _). now exists o. Qed.
Lemma content_there sp id x : content_is sp id x -> there sp id.
Proof.
  intros H. destruct H as [id t H|id g H|id g H|id i H|id H|id t H]; try (now apply found_there in H).
  destruct H. now exists o.
Qed.
Lemma element_there sp id x : element_is sp id x -> there sp id.
Proof. intros H. destruct H. now exists o. Qed.
Lemma item_there sp id x : item_is sp id x -> there sp id.
Proof. intros H. destruct H; [now exists o|]. eapply element_there; eauto. Qed.
Lemma all_there {B} sp (R : exguid -> B -> Prop) l r : (forall a b, R a b -> there sp a) -> Forall2 R l r -> forall a, In a l -> there sp a.
Proof. intros HR H. induction H as [|a b l r Hab H IH]; intros c Hc; [destruct Hc|]. destruct Hc as [<-|Hc]; eauto. Qed.
Lemma page_content_there sp id x : page_content_is sp id x -> there sp id.
Proof. intros H. destruct H; eapply found_there; eassumption. Qed.

Lemma group_complete f sp id o d x : get_object sp id = Some o -> group_object o d ->
  parse_outline_item f sp id = Ok x -> forall c, In c (gr_children d) -> there sp c.
Proof.
  intros Ho Hd H. apply outline_sound in H. destruct H as [id o' d' lv items Ho' Hd' _ H|id e H].
  - rewrite Ho in Ho'. injection Ho' as <-. apply group_ok in Hd, Hd'. rewrite Hd in Hd'. injection Hd' as <-.
    eapply all_there; [apply item_there|exact H].
  - destruct H as [id o' d' cs ls sg lv items Ho' Hd' _ _ _ _ _]. rewrite Ho in Ho'. injection Ho' as <-.
    apply group_jcid in Hd. apply element_jcid in Hd'. rewrite Hd in Hd'. discriminate Hd'.
Qed.
Lemma element_complete f sp id o d x : get_object sp id = Some o -> element_object o d ->
  parse_outline_element f sp id = Ok x ->
  forall c, In c (oe_children d) \/ In c (oe_contents d) \/ In c (oe_list_contents d) -> there sp c.
Proof.
  intros Ho Hd H. apply outline_sound in H. destruct H as [id o' d' cs ls sg lv items Ho' Hd' _ _ Hc Hl Hi].
  rewrite Ho in Ho'. injection Ho' as <-. apply element_ok in Hd, Hd'. rewrite Hd in Hd'. injection Hd' as <-.
  intros c [H|[H|H]]; revert c H.
  - eapply all_there; [apply item_there|exact Hi].
  - eapply all_there; [apply content_there|exact Hc].
  - eapply all_there; [|exact Hl]. intros a b H. eapply found_there, H.
Qed.
Lemma table_complete f sp id o d x : get_object sp id = Some o -> table_object o d ->
  parse_content f sp id = Ok x ->
  forall r, In r (ta_rows d) -> exists ro rd, get_object sp r = Some ro /\ row_object ro rd /\
  forall c, In c (ro_cells rd) -> exists co cd, get_object sp c = Some co /\ cell_object co cd /\
  forall e, In e (ce_contents cd) -> there sp e.
Proof.
  intros Ho Hd H. apply outline_sound in H.
  assert (Ht : exists t, table_is sp id t).
  { pose proof (table_jcid _ _ Hd) as J. destruct H as [id t H|id g H|id g H|id i H|id H|id t H]; [..|now exists t];
      exfalso; destruct H as (o' & Ho' & H); rewrite Ho in Ho'; injection Ho' as <-.
    - destruct H as (? & ? & ? & ? & ? & H & _). pose proof (proj1 H). rewrite J in *. discriminate.
    - destruct H as (? & H & _). pose proof (proj1 H). rewrite J in *. discriminate.
    - destruct H as (? & H & _). pose proof (proj1 H). rewrite J in *. discriminate.
    - destruct H as (? & H & _). pose proof (proj1 H). rewrite J in *. discriminate.
    - destruct H as (_ & H). apply H. rewrite J. cbn. auto 6. }
  clear H. destruct Ht as (t & H). destruct H as [id o' d' rows cols cts lk ws bs ap asf tgs Ho' Hd' _ _ _ _ _ _ _ Hr _].
  rewrite Ho in Ho'. injection Ho' as <-. apply table_ok in Hd, Hd'. rewrite Hd in Hd'. injection Hd' as <-. clear Hd Ho.
  induction Hr as [|r y l rs H _ IH]; intros c Hc; [destruct Hc|]. destruct Hc as [<-|Hc]; [|now apply IH]. clear IH.
  destruct H as [r ro rd cells Hro Hrd H]. exists ro, rd. split; [exact Hro|]. split; [exact Hrd|].
  clear - H. induction H as [|c z l cs H _ IH]; intros e He; [destruct He|]. destruct He as [<-|He]; [|now apply IH]. clear IH.
  destruct H as [c co cd els col w ind Hco Hcd _ _ _ H]. exists co, cd. split; [exact Hco|]. split; [exact Hcd|].
  eapply all_there; [apply element_there|exact H].
Qed.
Lemma outline_complete_refs f sp id o d x : get_object sp id = Some o -> outline_object o d ->
  parse_outline f sp id = Ok x -> forall c, In c (ou_children d) -> there sp c.
Proof.
  intros Ho Hd H. apply outline_settles in H as (o' & Ho' & d' & Hd' & H). rewrite Ho in Ho'. injection Ho' as <-.
  apply outline_ok in Hd, Hd'. rewrite Hd in Hd'. injection Hd' as <-. do 12 (destruct H as (_ & H)).
  eapply all_there; [apply item_there|exact H].
Qed.
Lemma page_complete f sp p : parse_page f sp = Ok p -> exists pid o d,
  get_object sp pid = Some o /\ page_object o d /\ forall c, pd_title d = Some c \/ In c (pd_content d) -> there sp c.
Proof.
  intros H. apply page_settles in H as (mid & m & cid & pid & d & _ & _ & _ & _ & (o & Ho & Hd) & _ & _ & _ & Ht & Hc).
  exists pid, o, d. split; [exact Ho|]. split; [exact Hd|]. intros c [E|H].
  - rewrite E in Ht. destruct (pg_title p) as [t|]; [|destruct Ht]. eapply found_there, Ht.
  - revert c H. eapply all_there; [apply page_content_there|exact Hc].
Qed.
Lemma section_complete f st file s : parse_section f st file = Ok s -> exists cid o d,
  content_root (st_data_root st) = Some cid /\ get_object (st_data_root st) cid = Some o /\ section_node o d /\
  forall c, In c (sn_page_series d) -> exists so sd, get_object (st_data_root st) c = Some so /\ series_node so sd /\
  forall x, In x (pn_page_spaces sd) -> exists sp, object_space st x = Some sp.
Proof.
  intros H. apply section_settles in H as (mid & m & cid & d & _ & _ & Hc & (o & Ho & Hd) & _ & _ & H).
  exists cid, o, d. split; [exact Hc|]. split; [exact Ho|]. split; [exact Hd|].
  induction H as [|c y l ps H _ IH]; intros e He; [destruct He|]. destruct He as [<-|He]; [|now apply IH]. clear IH.
  destruct H as (so & Hso & sd & Hsd & H). exists so, sd. split; [exact Hso|]. split; [exact Hsd|].
  induction H as [|x p l' ps' (sp & Hsp & _) _ IH]; intros e He; [destruct He|]. destruct He as [<-|He]; [now exists sp|now apply IH].
Qed.

(** ** Names *)
Lemma display_name_unique m file a b : display_name m file a -> display_name m file b -> a = b.
Proof. intros H H'. apply name_ok in H, H'. congruence. Qed.

(** ** Loops *)
Lemma loop_no_result f sp a b : clos_refl_trans _ (part sp) a b -> clos_trans _ (part sp) b b ->
  (forall x, parse_outline_item f sp a <> Ok x) /\ (forall x, parse_outline_element f sp a <> Ok x).
Proof.
  intros R L. assert (N : ~ Acc (inside sp) a).
  { intros A. apply clos_rt_rtn1 in R. revert A. apply clos_rtn1_rt in R. induction R as [x y R|x|x y z R1 IH1 R2 IH2]; intros A.
    - apply (acc_loop (part sp) y); [now apply A|exact L].
    - now apply (acc_loop (part sp) x).
    - apply IH2; [exact L|]. clear - R1 A. induction R1 as [x y R|x|x y z R1 IH1 R2 IH2]; [now apply A|exact A|auto]. }
  split; intros x H; apply N; now apply outline_acc in H.
Qed.
(** The parts of an object, computed. *)
Definition is_table_at (sp : space) (b : exguid) : bool :=
  match get_object sp b with Some o => ob_jcid o =? 0x60022 | None => false end.
Definition parts_of (sp : space) (o : object) : list exguid :=
  match outline_group_node_parse o with Ok d => gr_children d | _ => [] end ++
  match outline_element_node_parse o with Ok d => oe_children d ++ filter (is_table_at sp) (oe_contents d) | _ => [] end ++
  match table_node_parse o with Ok d => ta_rows d | _ => [] end ++
  match table_row_node_parse o with Ok d => ro_cells d | _ => [] end ++
  match table_cell_node_parse o with Ok d => ce_contents d | _ => [] end.
Lemma part_computed sp a b : part sp a b -> exists o, In (a, o) (sp_objects sp) /\ In b (parts_of sp o).
Proof.
  intros (o & Ho & H). exists o. split; [now apply (alookup_in exguid_eqb PackageRT.exguid_eqb_eq)|]. unfold parts_of.
  destruct H as [(d & Hd & H)|[(d & Hd & H)|[(d & Hd & H)|[(d & Hd & H)|(d & Hd & H)]]]].
  - apply group_ok in Hd. rewrite Hd. apply in_or_app. now left.
  - apply element_ok in Hd. rewrite Hd. apply in_or_app. right. apply in_or_app. left. apply in_or_app.
    destruct H as [H|(H & o' & Ho' & J)]; [now left|right]. apply filter_In. split; [exact H|]. unfold is_table_at. rewrite Ho', J. reflexivity.
  - apply table_ok in Hd. rewrite Hd. do 2 (apply in_or_app; right). apply in_or_app. now left.
  - apply row_ok in Hd. rewrite Hd. do 3 (apply in_or_app; right). apply in_or_app. now left.
  - apply cell_ok in Hd. rewrite Hd. do 4 (apply in_or_app; right). exact H.
Qed.
Lemma no_loop_rank sp (rank : exguid -> nat) :
  forallb (fun e => forallb (fun b => Nat.ltb (rank b) (rank (fst e))) (parts_of sp (snd e))) (sp_objects sp) = true ->
  no_loop sp.
Proof.
  intros H a L. assert (R : forall x y, clos_trans _ (part sp) x y -> (rank y < rank x)%nat).
  { intros x y C. induction C as [x y C|x y z _ IH1 _ IH2]; [|lia].
    apply part_computed in C as (o & Ho & Hy). rewrite forallb_forall in H. specialize (H _ Ho). rewrite forallb_forall in H.
    specialize (H _ Hy). now apply Nat.ltb_lt in H. }
  apply R in L. lia.
Qed.

(** ** Paragraphs *)
Lemma text_fun o d d' : text_object o d -> text_object o d' -> d = d'.
Proof. intros H H'. apply text_ok in H, H'. congruence. Qed.
Lemma kth_reference id sp t o d : parse_rich_text id sp = Ok t -> get_object sp id = Some o ->
  text_object o d -> rt_run_data_object d <> [] -> exists styles runs inks,
    Forall2 (fun sid sd => found sp sid (fun so => style_object so sd)) (rt_run_formatting d) styles /\
    run_data o runs /\
    selects (fun p => sy_is_embedded_object (snd p))
      (fun p i => fst i = sy_object_type (snd p) /\ embedded_ink_run (fst p) (snd i)) (combine runs styles) inks /\
    length (tx_embedded_objects t) = length inks /\
    forall pre x rest, inks = pre ++ (None, x) :: rest -> exists r ss bb,
      nth_error (rt_run_data_object d) (ink_count pre) = Some r /\ drawing_is sp None None r ss bb /\
      nth_error (tx_embedded_objects t) (length pre) =
        Some (EoInk (Ink ss bb (ei_offset_horiz x) (ei_offset_vert x)) (shown_box x)).
Proof.
  intros H Ho Hd N. apply text_is_ok in H as (o' & Ho' & d' & pd & styles & runs & inks & Hd' & _ & _ & Hs & _ & Hr & _ & Hi & He & _).
  rewrite Ho in Ho'. injection Ho' as <-. rewrite (text_fun _ _ _ Hd Hd') in *. exists styles, runs, inks.
  destruct (embeds_nth _ _ _ _ _ N He) as (L & K). auto.
Qed.
Lemma formats_of id sp t o d : parse_rich_text id sp = Ok t -> get_object sp id = Some o -> text_object o d ->
  Forall2 (fun sid s => found sp sid (fun so => exists sd, style_object so sd /\ styled sd s))
    (rt_run_formatting d) (tx_run_formatting t).
Proof.
  intros H Ho Hd. apply text_is_ok in H as (o' & Ho' & d' & pd & styles & runs & inks & Hd' & _ & _ & Hs & Hf & _).
  rewrite Ho in Ho'. injection Ho' as <-. rewrite (text_fun _ _ _ Hd Hd') in *. clear - Hs Hf. revert Hf. generalize (tx_run_formatting t).
  induction Hs as [|a b l l' (so & A & B) H IH]; intros r Hf; inversion Hf as [|x s y rs Hx Hr]; subst; constructor; [|now apply IH].
  exists so. eauto.
Qed.
Lemma text_of id sp t o : parse_rich_text id sp = Ok t -> get_object sp id = Some o ->
  (tx_embedded_objects t <> [] -> tx_text t = []) /\
  (tx_embedded_objects t = [] ->
     match stored o 0x1C001C22, stored o 0x1C003498 with
     | Some v, _ => text v (tx_text t)
     | None, Some v => v = VVec (tx_text t)
     | None, None => tx_text t = []
     end).
Proof.
  intros H Ho. apply text_is_ok in H as (o' & Ho' & d & pd & styles & runs & inks & Hd & H).
  rewrite Ho in Ho'. injection Ho' as <-. do 8 (destruct H as (_ & H)). destruct H as (H & _).
  destruct H as [(N & E)|(N & E)].
  - split; [now intros _|]. intros X. now rewrite X in N.
  - split; [intros X; now rewrite N in X|]. intros _. destruct Hd as (_ & _ & _ & _ & _ & _ & _ & _ & _ & _ & _ & P & _).
    unfold paragraph_text, optional in P. destruct (stored o 0x1C001C22) as [v|].
    + destruct P as (s & Hs & Es). rewrite E, Es. exact Hs.
    + destruct (stored o 0x1C003498) as [v|].
      * destruct P as (s & Hs & Es). rewrite E, Es. exact Hs.
      * rewrite E, P. reflexivity.
Qed.
(** ** Ink *)
Lemma path_exists zs props sx sy :
  (exists pts, parse_ink_path zs props sx sy = Ok pts) <->
  (exists ix iy, dimension (sp_dimensions props) 0x598a6a8f52c04ba093afaf357411a561 ix /\
                 dimension (sp_dimensions props) 0xb53f9f7504e04498a7eec30dbb5a9011 iy).
Proof.
  split.
  - intros (pts & H). apply points_ok in H as (ix & iy & Hx & Hy & _). eauto.
  - intros (ix & iy & Hx & Hy). eexists. exact (path_run zs props sx sy ix iy Hx Hy).
Qed.
(** ** Crashes *)
Lemma buffer_crash h fuel bs file : parse_section_buffer h fuel bs file = Panic ->
  exists st c sp id, open_store h fuel bs = Ok st /\ object_space st c = Some sp /\
    (short_list_format sp id \/ ink_shortage sp id).
Proof.
  unfold parse_section_buffer. intros H. apply crash_bind in H as [H|(st & Hst & H)].
  - exfalso. unfold open_store in H. apply crash_bind in H as [H|(pg & _ & H)].
    + unfold run in H. apply crash_bind in H as [H|([pg r] & _ & H)]; [|discriminate H].
      destruct (PackageFacts.good_total _ _ good_packaging bs) as [(x & r & T)|(e & T)]; congruence.
    + now apply parse_store_no_panic in H.
  - exists st. destruct (st_schema st =? section_schema); [|discriminate H].
    apply section_panic in H as (c & sp & id & Hs & H). exists c, sp, id. auto.
Qed.
