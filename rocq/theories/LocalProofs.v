(** Sections, page by page. *)
From Coq Require Import Lia ZifyBool ZifyNat ZifyN Permutation Relations.
From Verif Require Import Base BaseProofs Codec SpecCodec Package SpecPackage PackageRT PropSet PropIds SpecPropSet Store SpecStore StoreProofs
  Props Nodes SpecNodes NodesProofs NodesProofs2 Doc SpecDoc DocProofs DocProofs2 DocProofs4 SpecAccept SpecSame Notebook SpecFile FileProofs SpecHistory HistoryProofs HistoryProofs2
  SpecForward ForwardProofs SpecLocal.

(** ** The store of a history, computed *)
Definition built (cell : cellid) (d : space_desc) : space :=
  Space (snd cell) (fst cell) (sd_roots d) (map (fun x => (od_id x, canon cell x)) (sd_objects d)).
Definition built_store (H : history) : store :=
  Store (hi_schema H) (StoreHeader (hi_identity H) (hi_ancestor H) (hi_version H) (hi_crc H))
    (built (hi_cell H) (after (hi_root H))) (map (fun s => (fst s, built (fst s) (after (snd s)))) (hi_spaces H)).
Lemma built_reads cell d : space_fits d -> space_reads cell d (built cell d).
Proof.
  intros (R & _ & _). refine (conj eq_refl (conj eq_refl (conj _ _))).
  - intros r x. cbn [built sp_roots]. split; [apply (alookup_in _ role_eqb_eq)|intro I; now apply (alookup_nodup _ role_eqb_eq)].
  - intro id. unfold get_object. cbn [built sp_objects]. induction (sd_objects d) as [|o l IH]; [reflexivity|]. cbn [map alookup find].
    unfold id_is at 1. destruct (exguid_eqb id (od_id o)); [reflexivity|exact IH].
Qed.
Lemma built_store_reads H : history_fits H -> store_reads H (built_store H).
Proof.
  intros (D & F). inversion F as [|? ? (_ & FR) FS]; subst. inversion D as [|? ? _ D']; subst. rewrite Forall_forall in FS.
  refine (conj eq_refl (conj eq_refl (conj _ (conj _ _)))).
  - apply built_reads. now apply after_fits.
  - intros cell x I. exists (built cell (after x)). split.
    + unfold object_space. cbn [built_store st_spaces]. apply (alookup_nodup _ cellid_eqb_eq).
      * rewrite map_map. exact D'.
      * apply in_map_iff. exists (cell, x). auto.
    + apply built_reads, after_fits. apply FS. apply in_map_iff. exists (cell, x). auto.
  - intros cell sp E. unfold object_space in E. cbn [built_store st_spaces] in E. apply (alookup_in _ cellid_eqb_eq) in E.
    apply in_map_iff in E as ([c x] & Q & I). injection Q as <- _. apply in_map_iff. exists (c, x). auto.
Qed.

(** ** What a section is made of *)
Lemma Forall2_imp {A B} (R S : A -> B -> Prop) l l' : (forall a b, R a b -> S a b) -> Forall2 R l l' -> Forall2 S l l'.
Proof. intros H F. induction F; constructor; auto. Qed.
Definition page_read (fuel : nat) (st : store) (c : cellid) (p : page) : Prop :=
  exists sp, object_space st c = Some sp /\ parse_page fuel sp = Ok p.
Lemma page_read_in fuel st c p : page_read fuel st c p -> page_in st c p.
Proof. intros (sp & A & B). exists sp. split; [exact A|]. now apply page_settles in B. Qed.
Lemma page_read_one fuel st c p p' : page_read fuel st c p -> page_read fuel st c p' -> p = p'.
Proof. intros (sp & A & B) (sp' & A' & B'). congruence. Qed.

Lemma series_read fuel st id ps : parse_page_series fuel st id = Ok ps <->
  exists cs, found (st_data_root st) id (fun o => exists n, series_node o n /\ pn_page_spaces n = cs) /\ Forall2 (page_read fuel st) cs ps.
Proof.
  unfold parse_page_series. rewrite found_ok. split.
  - intros (o & O & E). apply bind_ok in E as (n & N & E). apply NodesProofs.map_res_ok in E. exists (pn_page_spaces n). split.
    + exists o. split; [exact O|]. exists n. split; [now apply series_ok|reflexivity].
    + eapply Forall2_imp; [|exact E]. cbv beta. intros c p X. apply bind_ok in X as (sp & X & Y). exists sp. split; [|exact Y]. destruct (object_space st c); cbn in X; congruence.
  - intros (cs & (o & O & n & N & <-) & F). exists o. split; [exact O|]. apply series_ok in N. rewrite N. cbn [rbind]. apply NodesProofs.map_res_ok.
    eapply Forall2_imp; [|exact F]. cbv beta. intros c p (sp & X & Y). rewrite X. exact Y.
Qed.
Lemma section_read fuel st file s : Doc.parse_section fuel st file = Ok s <->
  exists m refs, section_metadata (st_data_root st) = Ok m /\ lists st refs /\ Forall2 (Forall2 (page_read fuel st)) refs (se_page_series s) /\
    se_display_name s = trim_one (match sm_display_name m with Some n => n | None => file end) /\ se_color s = sm_color m.
Proof.
  unfold Doc.parse_section, section_content, lists. split.
  - intro E. apply bind_ok in E as (m & M & E). apply bind_ok in E as (d & D & E). cbv zeta in E. apply bind_ok in E as (ps & P & E). injection E as <-. cbn [se_page_series se_display_name se_color].
    apply bind_ok in D as (cid & C & D). apply NodesProofs.map_res_ok in P. apply found_ok in D as (o & O & D). apply section_node_ok in D.
    assert (X : exists refs, Forall2 (fun id cs => found (st_data_root st) id (fun o => exists n, series_node o n /\ pn_page_spaces n = cs)) (sn_page_series d) refs /\ Forall2 (Forall2 (page_read fuel st)) refs ps).
    { clear - P. induction P as [|id p l l' H _ (refs & A & B)]; [exists []; split; constructor|]. apply series_read in H as (cs & X & Y). exists (cs :: refs). split; constructor; auto. }
    destruct X as (refs & X & Y). exists m, refs. refine (conj M (conj _ (conj Y (conj eq_refl eq_refl)))). exists cid, d. refine (conj _ (conj _ X)); [destruct (content_root _); cbn in C; congruence|]. exists o. auto.
  - intros (m & refs & M & (cid & d & C & (o & O & D) & L) & F & N & K). rewrite M. cbn [rbind]. rewrite C. cbn [ok_or rbind].
    unfold need_object. rewrite O. cbn [ok_or rbind]. apply section_node_ok in D. rewrite D. cbn [rbind].
    assert (X : map_res (parse_page_series fuel st) (sn_page_series d) = Ok (se_page_series s)).
    { apply NodesProofs.map_res_ok. clear - L F. revert F. generalize (se_page_series s). induction L as [|id cs l l' H _ IH]; intros ps F; inversion F; subst; constructor; auto. apply series_read. eauto. }
    rewrite X. cbn [rbind]. destruct s. cbn in *. congruence.
Qed.
Lemma lists_one st r r' : lists st r -> lists st r' -> r = r'.
Proof.
  intros (cid & d & C & (o & O & D) & L) (cid' & d' & C' & (o' & O' & D') & L'). rewrite C in C'. injection C' as <-. rewrite O in O'. injection O' as <-.
  apply section_node_ok in D, D'. rewrite D in D'. injection D' as <-. clear - L L'. revert r' L'. induction L as [|id cs l l' (o & O & n & N & <-) _ IH]; intros r' L'; inversion L' as [|? ? ? ? (o' & O' & n' & N' & <-)]; subst; [reflexivity|].
  rewrite O in O'. injection O' as <-. apply series_ok in N, N'. rewrite N in N'. injection N' as <-. f_equal. now apply IH.
Qed.
Lemma lists_alike st st' r : space_alike (st_data_root st) (st_data_root st') -> lists st r -> lists st' r.
Proof.
  intros (C & _ & A) (cid & d & E & (o & O & D) & L). exists cid, d. refine (conj _ (conj _ _)); [congruence| |].
  - specialize (A cid). rewrite O in A. destruct (get_object (st_data_root st') cid) as [o'|] eqn:O'; [|contradiction]. exists o'. split; [exact O'|].
    apply section_node_ok. rewrite <- (al_section_node_parse _ _ A). now apply section_node_ok.
  - eapply Forall2_imp; [|exact L]. cbv beta. intros id cs (so & SO & n & N & <-). specialize (A id). rewrite SO in A.
    destruct (get_object (st_data_root st') id) as [o'|] eqn:O'; [|contradiction]. exists o'. split; [exact O'|]. exists n. split; [|reflexivity].
    apply series_ok. rewrite <- (al_page_series_node_parse _ _ A). now apply series_ok.
Qed.
Lemma place_some {A B} (R : A -> B -> Prop) l l' i j a : Forall2 (Forall2 R) l l' -> place l i j = Some a -> exists b, place l' i j = Some b /\ R a b.
Proof.
  unfold place. intro F. revert i. induction F as [|r r' l l' X _ IH]; intros [|i] P; cbn in *; try discriminate; [|now apply IH].
  clear IH. revert j P. induction X as [|x y r r' H _ IH]; intros [|j] P; cbn in *; try discriminate; [|now apply IH]. injection P as <-. eauto.
Qed.
Lemma place_none {A B} (R : A -> B -> Prop) l l' i j : Forall2 (Forall2 R) l l' -> place l i j = None -> place l' i j = None.
Proof.
  unfold place. intro F. revert i. induction F as [|r r' l l' X _ IH]; intros [|i] P; cbn in *; auto.
  clear IH. revert j P. induction X as [|x y r r' H _ IH]; intros [|j] P; cbn in *; try discriminate; auto.
Qed.

(** ** Files *)
Lemma keeps_open n m d H h : keeps n d H -> (n <= m)%nat -> exists st, open_store h m d = Ok st /\ store_reads H st.
Proof.
  intros (els & A & B & F & L) M. apply (history_reads d els H h m A B F). eapply Forall_impl; [|exact L]. cbv beta. intros es. lia.
Qed.
Lemma keeps_fits n d H : keeps n d H -> history_fits H.
Proof. intros (els & _ & _ & F & _). exact F. Qed.
Lemma same_space_refl d : same_space d d.
Proof. split; reflexivity. Qed.
Lemma same_end_refl H : history_fits H -> same_end H H.
Proof.
  intros (D & _). inversion D as [|? ? _ D']; subst. refine (conj eq_refl (conj eq_refl (conj (same_space_refl _) (conj _ _)))); [reflexivity|].
  intros c x y I J. assert (x = y) as ->; [|apply same_space_refl].
  pose proof (alookup_nodup _ cellid_eqb_eq _ _ _ D' I) as X. pose proof (alookup_nodup _ cellid_eqb_eq _ _ _ D' J) as Y. congruence.
Qed.
Lemma reads_alike H st st' : history_fits H -> store_reads H st -> store_reads H st' -> store_alike st st'.
Proof. intros F. apply histories_alike; auto. now apply same_end_refl. Qed.

(** The answer, computed from the history. *)
Lemma keeps_section n d H h file : keeps n d H ->
  parse_section_buffer h n d file = if hi_schema H =? section_schema then Doc.parse_section n (built_store H) file else Err NotASectionFile.
Proof.
  intro K. destruct (keeps_open n n d H h K (Nat.le_refl n)) as (st & E & R). unfold parse_section_buffer. rewrite E. cbn [rbind].
  pose proof (keeps_fits _ _ _ K) as F. rewrite <- (al_section _ _ n file (reads_alike _ _ _ F R (built_store_reads _ F))). destruct R as (-> & _). reflexivity.
Qed.

Lemma buffer_open h n d file s : parse_section_buffer h n d file = Ok s -> exists st, open_store h n d = Ok st /\ st_schema st = section_schema /\ Doc.parse_section n st file = Ok s.
Proof.
  unfold parse_section_buffer. intro E. apply bind_ok in E as (st & O & E). exists st. destruct (st_schema st =? section_schema) eqn:Q; [|discriminate]. apply N.eqb_eq in Q. auto.
Qed.

Lemma pages_of h n d file s : parse_section_buffer h n d file = Ok s ->
  exists st refs, open_store h n d = Ok st /\ lists st refs /\ Forall2 (Forall2 (page_in st)) refs (se_page_series s).
Proof.
  intro E. apply buffer_open in E as (st & O & _ & E). apply section_read in E as (m & refs & _ & L & F & _). exists st, refs. refine (conj O (conj L _)).
  eapply Forall2_imp; [|exact F]. intros a b. apply Forall2_imp. apply page_read_in.
Qed.
Lemma all_or_nothing h n d file st refs i j c : open_store h n d = Ok st -> lists st refs -> place refs i j = Some c ->
  (forall p, ~ page_in st c p) -> forall s, parse_section_buffer h n d file <> Ok s.
Proof.
  intros O L P N s E. destruct (pages_of _ _ _ _ _ E) as (st' & refs' & O' & L' & F). rewrite O in O'. injection O' as <-. rewrite (lists_one _ _ _ L' L) in F.
  destruct (place_some _ _ _ _ _ _ F P) as (p & _ & I). exact (N p I).
Qed.

Lemma same_at_alike H H' c st st' : history_fits H -> history_fits H' -> store_reads H st -> store_reads H' st' -> same_at H H' c ->
  exists sp sp', object_space st c = Some sp /\ object_space st' c = Some sp' /\ space_alike sp sp'.
Proof.
  intros (_ & F) (_ & F') (_ & _ & _ & S & _) (_ & _ & _ & S' & _) (es & es' & I & I' & Q).
  destruct (S _ _ I) as (sp & E & X). destruct (S' _ _ I') as (sp' & E' & X'). exists sp, sp'. refine (conj E (conj E' _)).
  inversion F as [|? ? _ FS]; subst. inversion F' as [|? ? _ FS']; subst. rewrite Forall_forall in FS, FS'.
  eapply spaces_alike; [| |exact Q|exact X|exact X']; apply after_fits; [apply FS|apply FS']; apply in_map_iff; eexists; split; [|eassumption| |eassumption]; reflexivity.
Qed.
Lemma page_moves n m H H' c st st' p : history_fits H -> history_fits H' -> store_reads H st -> store_reads H' st' -> same_at H H' c ->
  page_read n st c p -> (forall q, page_read m st' c q -> q = p) /\ page_read n st' c p.
Proof.
  intros F F' R R' S (sp & A & B). destruct (same_at_alike H H' c st st' F F' R R' S) as (sp1 & sp' & X & Y & Z). rewrite A in X. injection X as <-.
  rewrite (al_page _ _ n Z) in B. split; [|exists sp'; auto]. intros q (sp2 & U & V). rewrite Y in U. injection U as <-.
  apply page_settles in B, V. apply page_settles in B as (k & B), V as (k' & V). specialize (B (k + k')%nat). specialize (V (k + k')%nat). rewrite B, V in * by lia.
  pose proof (B ltac:(lia)). pose proof (V ltac:(lia)). congruence.
Qed.

Lemma page_same n n' d d' H H' h h' file file' s s' st st' refs refs' c i j i' j' :
  keeps n d H -> keeps n' d' H' -> same_at H H' c ->
  parse_section_buffer h n d file = Ok s -> parse_section_buffer h' n' d' file' = Ok s' ->
  open_store h n d = Ok st -> open_store h' n' d' = Ok st' -> lists st refs -> lists st' refs' ->
  place refs i j = Some c -> place refs' i' j' = Some c ->
  exists p, place (se_page_series s) i j = Some p /\ place (se_page_series s') i' j' = Some p.
Proof.
  intros K K' S E E' O O' L L' P P'. apply buffer_open in E as (x & X & _ & E). rewrite O in X. injection X as <-. apply buffer_open in E' as (x & X & _ & E'). rewrite O' in X. injection X as <-.
  apply section_read in E as (m & r & _ & L1 & F1 & _). rewrite (lists_one _ _ _ L1 L) in F1. apply section_read in E' as (m' & r' & _ & L1' & F1' & _). rewrite (lists_one _ _ _ L1' L') in F1'.
  destruct (place_some _ _ _ _ _ _ F1 P) as (p & Q & G). destruct (place_some _ _ _ _ _ _ F1' P') as (p' & Q' & G').
  destruct (keeps_open n n d H h K (Nat.le_refl n)) as (x & X & R). rewrite O in X. injection X as <-. destruct (keeps_open n' n' d' H' h' K' (Nat.le_refl n')) as (x & X & R'). rewrite O' in X. injection X as <-.
  destruct (page_moves n n' H H' c st st' p (keeps_fits _ _ _ K) (keeps_fits _ _ _ K') R R' S G) as (U & _). rewrite (U _ G') in Q'. eauto.
Qed.

Lemma roots_alike cs H H' st st' : history_fits H -> history_fits H' -> store_reads H st -> store_reads H' st' -> differ_in cs H H' -> space_alike (st_data_root st) (st_data_root st').
Proof.
  intros (_ & F) (_ & F') (_ & _ & R & _) (_ & _ & R' & _) (_ & C & Q & _). inversion F as [|? ? (_ & FR) _]; subst. inversion F' as [|? ? (_ & FR') _]; subst.
  rewrite <- C in R'. eapply spaces_alike; [| |exact Q|exact R|exact R']; now apply after_fits.
Qed.
Lemma meta_alike sp sp' : space_alike sp sp' -> section_metadata sp = section_metadata sp'.
Proof. intros W. pose proof W as (C & M & _). unfold section_metadata. rewrite M. al. Qed.
Lemma listed_at st refs i j c H n p : store_reads H st -> place refs i j = Some c -> page_read n st c p -> In c (map fst (hi_spaces H)).
Proof. intros (_ & _ & _ & _ & N) _ (sp & E & _). eauto. Qed.

Lemma others cs n d d' H H' h h' file s s' : keeps n d H -> keeps n d' H' -> differ_in cs H H' ->
  parse_section_buffer h n d file = Ok s -> parse_section_buffer h' n d' file = Ok s' ->
  se_display_name s = se_display_name s' /\ se_color s = se_color s' /\
  exists st st' refs, open_store h n d = Ok st /\ open_store h' n d' = Ok st' /\ lists st refs /\ lists st' refs /\
    Forall2 (Forall2 (page_in st)) refs (se_page_series s) /\ Forall2 (Forall2 (page_in st')) refs (se_page_series s') /\
    forall i j c, place refs i j = Some c -> ~ In c cs -> place (se_page_series s) i j = place (se_page_series s') i j.
Proof.
  intros K K' D E E'. pose proof E as E0. pose proof E' as E0'.
  apply buffer_open in E as (st & O & _ & E). apply buffer_open in E' as (st' & O' & _ & E').
  apply section_read in E as (m & r & M & L & F & N1 & N2). apply section_read in E' as (m' & r' & M' & L' & F' & N1' & N2').
  destruct (keeps_open n n d H h K (Nat.le_refl n)) as (x & X & R). rewrite O in X. injection X as <-. destruct (keeps_open n n d' H' h' K' (Nat.le_refl n)) as (x & X & R'). rewrite O' in X. injection X as <-.
  pose proof (roots_alike cs H H' st st' (keeps_fits _ _ _ K) (keeps_fits _ _ _ K') R R' D) as AL. rewrite (meta_alike _ _ AL), M' in M. injection M as <-.
  pose proof (lists_alike _ _ _ AL L) as L2. pose proof (lists_one _ _ _ L' L2) as ->.
  refine (conj _ (conj _ _)); [congruence|congruence|]. exists st, st', r. refine (conj O (conj O' (conj L (conj L' (conj _ (conj _ _)))))).
  - eapply Forall2_imp; [|exact F]. intros a b. apply Forall2_imp, page_read_in.
  - eapply Forall2_imp; [|exact F']. intros a b. apply Forall2_imp, page_read_in.
  - intros i j c P I. assert (S : same_at H H' c).
    { destruct D as (_ & _ & _ & D). apply D; [exact I|]. left. destruct (place_some _ _ _ _ _ _ F P) as (p & _ & G). eapply listed_at; eauto. }
    destruct (page_same n n d d' H H' h h' file file s s' st st' r r c i j i j K K' S E0 E0' O O' L L' P P) as (p & -> & ->). reflexivity.
Qed.

Lemma all_reach {A B} (Q : A -> B -> Prop) (P : nat -> A -> B -> Prop) l : (forall a b, Q a b -> exists k, forall m, (k <= m)%nat -> P m a b) ->
  Forall (fun a => exists b, Q a b) l -> exists k l', forall m, (k <= m)%nat -> Forall2 (P m) l l'.
Proof.
  intros H F. induction F as [|a l (b & X) _ (k & l' & IH)]; [exists O, []; intros; constructor|]. destruct (H a b X) as (k' & Y).
  exists (k + k')%nat, (b :: l'). intros m M. constructor; [apply Y; lia|apply IH; lia].
Qed.
Lemma in_reach st c p : page_in st c p -> exists k, forall m, (k <= m)%nat -> page_read m st c p.
Proof. intros (sp & A & B). apply page_settles in B as (k & B). exists k. intros m M. exists sp. auto. Qed.
Lemma lists_reach st refs : Forall (Forall (fun c => exists p, page_in st c p)) refs -> exists k l, forall m, (k <= m)%nat -> Forall2 (Forall2 (page_read m st)) refs l.
Proof.
  intro F. apply (all_reach (fun cs ps => exists k, forall m, (k <= m)%nat -> Forall2 (page_read m st) cs ps) (fun m => Forall2 (page_read m st))); [auto|].
  eapply Forall_impl; [|exact F]. cbv beta. intros cs G. destruct (all_reach (page_in st) (fun m => page_read m st) cs (in_reach st) G) as (k & l' & X). exists l', k. exact X.
Qed.
Lemma section_reach st file m refs : section_metadata (st_data_root st) = Ok m -> lists st refs -> Forall (Forall (fun c => exists p, page_in st c p)) refs ->
  exists k s, forall n, (k <= n)%nat -> Doc.parse_section n st file = Ok s.
Proof.
  intros M L F. destruct (lists_reach st refs F) as (k & l & X).
  exists k, (Section_ (trim_one (match sm_display_name m with Some n => n | None => file end)) l (sm_color m)). intros n N. apply section_read.
  exists m, refs. refine (conj M (conj L (conj (X n N) (conj eq_refl eq_refl)))).
Qed.
Lemma forall_places {A} (P : A -> Prop) (l : list (list A)) : (forall i j a, place l i j = Some a -> P a) -> Forall (Forall P) l.
Proof.
  intro H. induction l as [|r l IH]; constructor; [|apply IH; intros i; apply (H (S i))].
  apply Forall_forall. intros a I. apply In_nth_error in I as (j & J). exact (H O j a J).
Qed.

Lemma breaks cs n d d' H H' h h' file s st' : keeps n d H -> keeps n d' H' -> differ_in cs H H' ->
  parse_section_buffer h n d file = Ok s -> open_store h' n d' = Ok st' ->
  (forall refs i j c, lists st' refs -> place refs i j = Some c -> In c cs -> exists p, page_in st' c p) ->
  exists s' k, forall m, (k <= m)%nat -> parse_section_buffer h' m d' file = Ok s'.
Proof.
  intros K K' D E O' G. apply buffer_open in E as (st & O & Sc & E). apply section_read in E as (m & r & M & L & F & _).
  destruct (keeps_open n n d H h K (Nat.le_refl n)) as (x & X & R). rewrite O in X. injection X as <-. destruct (keeps_open n n d' H' h' K' (Nat.le_refl n)) as (x & X & R'). rewrite O' in X. injection X as <-.
  pose proof (keeps_fits _ _ _ K) as Fh. pose proof (keeps_fits _ _ _ K') as Fh'.
  pose proof (roots_alike cs H H' st st' Fh Fh' R R' D) as AL. rewrite (meta_alike _ _ AL) in M. pose proof (lists_alike _ _ _ AL L) as L'.
  assert (W : Forall (Forall (fun c => exists p, page_in st' c p)) r).
  { apply forall_places. intros i j c P. destruct (in_dec (fun a b : cellid => ltac:(repeat decide equality) : {a = b} + {a <> b}) c cs) as [I|I]; [eauto|].
    destruct (place_some _ _ _ _ _ _ F P) as (p & _ & T). exists p.
    assert (S : same_at H H' c) by (destruct D as (_ & _ & _ & D); apply D; [exact I|]; left; eapply listed_at; eauto).
    destruct (page_moves n n H H' c st st' p Fh Fh' R R' S T) as (_ & V). now apply page_read_in in V. }
  destruct (section_reach st' file m r M L' W) as (k & s' & Y). exists s', (n + k)%nat. intros q Q.
  destruct (keeps_open n q d' H' h' K' ltac:(lia)) as (st2 & O2 & R2). unfold parse_section_buffer. rewrite O2. cbn [rbind].
  rewrite (al_section _ _ q file (reads_alike H' st2 st' Fh' R2 R')), Y by lia.
  replace (st_schema st2) with section_schema; [now rewrite N.eqb_refl|]. destruct R as (E1 & _), R2 as (E2 & _), D as (E3 & _). congruence.
Qed.
