(** Pages and sections, and display names. *)
From Coq Require Import Lia ZifyBool ZifyNat ZifyN.
From Verif Require Import Base Codec Package PropSet PropIds Store Shapes Props Nodes Doc SpecCodec SpecValues SpecNodes
  NodesProofs NodesProofs2 NodesProofs3 SpecDoc DocProofs DocProofs2 DocProofs3.

(** With any fuel [f] gives [x] only if [P], and if [P] then with all fuel from some
    amount on. *)
Definition settles {A} (f : nat -> res A) (x : A) (P : Prop) : Prop :=
  (forall n, f n = Ok x -> P) /\ (P -> exists k, forall n, (k <= n)%nat -> f n = Ok x).
Lemma settles_const {A} (r : res A) x P : (r = Ok x <-> P) -> settles (fun _ => r) x P.
Proof. intros H. split; [intros _; apply H|]. intros p. exists 0%nat. intros _ _. now apply H. Qed.
Lemma settles_iff {A} (f : nat -> res A) x P Q : settles f x P -> (P <-> Q) -> settles f x Q.
Proof. intros (H1 & H2) E. split; [intros n H; apply E; eauto|]. intros q. apply H2. now apply E. Qed.
Lemma settles_all {A B} (f : nat -> A -> res B) (R : A -> B -> Prop) l ys :
  (forall a b, settles (fun n => f n a) b (R a b)) -> settles (fun n => map_res (f n) l) ys (Forall2 R l ys).
Proof.
  intros H. split.
  - intros n E. apply map_res_ok in E. revert E. apply all2_mono. intros a b. apply H.
  - intros F. induction F as [|a b l ys Hab F (k & IH)].
    + exists 0%nat. reflexivity.
    + apply (H a b) in Hab as (k' & Hk). exists (Nat.max k k'). intros n Hn. cbn. rewrite Hk by lia. cbn.
      rewrite IH by lia. reflexivity.
Qed.
Lemma settles_opt {A B} (f : nat -> A -> res B) (R : A -> B -> Prop) x y :
  (forall a b, settles (fun n => f n a) b (R a b)) -> settles (fun n => opt_map_res (f n) x) y (both R x y).
Proof.
  intros H. split.
  - intros n E. apply opt_ok in E. destruct x as [a|], y as [b|]; cbn in *; try tauto. now apply (H a b) in E.
  - intros E. destruct x as [a|], y as [b|]; cbn in E; try destruct E.
    + apply (H a b) in E as (k & Hk). exists k. intros n Hn. cbn. now rewrite Hk.
    + exists 0%nat. reflexivity.
Qed.
Lemma settles_found {A} sp id (g : nat -> object -> res A) x (P : object -> Prop) :
  (forall o, settles (fun n => g n o) x (P o)) ->
  settles (fun n => rbind (need_object id sp) (g n)) x (found sp id P).
Proof.
  intros H. split.
  - intros n E. apply found_ok in E as (o & Ho & E). exists o. split; [exact Ho|]. now apply (H o) in E.
  - intros (o & Ho & Hp). apply (H o) in Hp as (k & Hk). exists k. intros n Hn. apply need_ok in Ho. rewrite Ho. now apply Hk.
Qed.
Lemma settles_node {A D} (parse : object -> res D) (S : object -> D -> Prop) o (g : nat -> D -> res A) x (P : D -> Prop) :
  (forall o d, parse o = Ok d <-> S o d) -> (forall d, settles (fun n => g n d) x (P d)) ->
  settles (fun n => rbind (parse o) (g n)) x (exists d, S o d /\ P d).
Proof.
  intros Hs H. split.
  - intros n E. apply bind_ok in E as (d & Hd & E). exists d. split; [now apply Hs|]. now apply (H d) in E.
  - intros (d & Hd & Hp). apply (H d) in Hp as (k & Hk). exists k. intros n Hn. apply Hs in Hd. rewrite Hd. now apply Hk.
Qed.
Lemma item_settles sp id x : settles (fun n => parse_outline_item n sp id) x (item_is sp id x).
Proof.
  split; [intros n; apply outline_sound|]. intros H. exists (size_item x). intros n Hn. now apply outline_complete.
Qed.
Lemma element_settles sp id x : settles (fun n => parse_outline_element n sp id) x (element_is sp id x).
Proof.
  split; [intros n; apply outline_sound|]. intros H. exists (size_element x). intros n Hn. now apply outline_complete.
Qed.
Lemma content_settles sp id x : settles (fun n => parse_content n sp id) x (content_is sp id x).
Proof.
  split; [intros n; apply outline_sound|]. intros H. exists (size_content x). intros n Hn. now apply outline_complete.
Qed.

Lemma outline_settles sp id x : settles (fun n => parse_outline n sp id) x (outline_is sp id x).
Proof.
  unfold parse_outline, outline_is. apply settles_found. intros o. apply (settles_node _ _ _ _ _ _ outline_ok). intros d.
  split.
  - intros n E. apply bind_ok in E as (l & Hl & [= <-]). cbn.
    apply (settles_all (fun n => parse_outline_item n sp) _ _ _ (item_settles sp)) in Hl. repeat split. exact Hl.
  - destruct x. cbn. intros (-> & -> & -> & -> & -> & -> & -> & -> & -> & -> & -> & -> & Hl).
    apply (settles_all (fun n => parse_outline_item n sp) _ _ _ (item_settles sp)) in Hl as (k & Hk).
    exists k. intros n Hn. now rewrite Hk.
Qed.

Lemma page_content_settles sp id x : settles (fun n => parse_page_content n sp id) x (page_content_is sp id x).
Proof.
  split.
  - intros n H. unfold parse_page_content in H. apply found_ok in H as (o & Ho & H). apply bind_ok in H as (k & Hk & H).
    apply need_kind_ok in Hk.
    assert (Hu : Ok PcUnknown = Ok x -> kind_jcid k <> 0x6000C -> kind_jcid k <> 0x60011 -> kind_jcid k <> 0x60035 ->
                 kind_jcid k <> 0x60014 -> page_content_is sp id x).
    { intros [= <-] N1 N2 N3 N4. apply pc_unknown. exists o. split; [exact Ho|]. rewrite Hk. split.
      - apply known_ok. exists k. apply kind_jcid_ok.
      - cbn. intros E. repeat (destruct E as [E|E]; [congruence|]). destruct E. }
    destruct k; try (apply Hu; [exact H|discriminate..]); clear Hu;
      apply bind_ok in H as (y & Hy & [= <-]).
    + now apply pc_file, file_is_ok.
    + now apply pc_image, image_is_ok.
    + apply pc_outline. now apply outline_settles in Hy.
    + now apply pc_ink, ink_is_ok.
  - intros H. unfold parse_page_content. destruct H as [id x H|id g H|id g H|id i H|id H].
    + assert (Hp := H). apply outline_settles in Hp as (k & Hp). exists k. intros n Hn.
      destruct H as (o & Ho & d & Hd & _). apply need_ok in Ho. rewrite Ho. cbn [rbind].
      rewrite (jcid_kind o 0x6000C K_OutlineNode); [|apply Hd|reflexivity]. cbn [rbind]. now rewrite Hp.
    + exists 0%nat. intros n _. assert (Hp := H). apply image_is_ok in Hp. destruct H as (o & Ho & d & Hd & _).
      apply need_ok in Ho. rewrite Ho. cbn [rbind]. rewrite (jcid_kind o 0x60011 K_ImageNode); [|apply Hd|reflexivity].
      cbn [rbind]. now rewrite Hp.
    + exists 0%nat. intros n _. assert (Hp := H). apply file_is_ok in Hp. destruct H as (o & Ho & d & Hd & _).
      apply need_ok in Ho. rewrite Ho. cbn [rbind]. rewrite (jcid_kind o 0x60035 K_EmbeddedFileNode); [|apply Hd|reflexivity].
      cbn [rbind]. now rewrite Hp.
    + exists 0%nat. intros n _. assert (Hp := H). apply ink_is_ok in Hp. destruct H as (o & Ho & d & Hd & _).
      apply need_ok in Ho. rewrite Ho. cbn [rbind]. rewrite (jcid_kind o 0x60014 K_InkContainer); [|apply Hd|reflexivity].
      cbn [rbind]. now rewrite Hp.
    + exists 0%nat. intros n _. destruct H as (o & Ho & Hk & Hn). apply need_ok in Ho. rewrite Ho. cbn [rbind].
      apply known_ok in Hk as (k & Hk). apply kind_inv in Hk. rewrite (proj2 (need_kind_ok o k) Hk). cbn [rbind].
      rewrite Hk in Hn. cbn [In] in Hn. destruct k; try reflexivity; exfalso; apply Hn; auto 10.
Qed.

Lemma title_settles sp id x : settles (fun n => parse_title n sp id) x (title_is sp id x).
Proof.
  unfold parse_title, title_is. apply settles_found. intros o. apply (settles_node _ _ _ _ _ _ title_ok). intros d.
  split.
  - intros n E. apply bind_ok in E as (l & Hl & [= <-]). cbn.
    apply (settles_all (fun n => parse_outline n sp) _ _ _ (outline_settles sp)) in Hl. repeat split. exact Hl.
  - destruct x. cbn. intros (-> & -> & -> & -> & Hl).
    apply (settles_all (fun n => parse_outline n sp) _ _ _ (outline_settles sp)) in Hl as (k & Hk).
    exists k. intros n Hn. now rewrite Hk.
Qed.

Lemma some_ok {A} e (x : option A) a : ok_or e x = Ok a <-> x = Some a.
Proof. destruct x; cbn; split; congruence. Qed.

Lemma page_settles sp p : settles (fun n => parse_page n sp) p (page_is sp p).
Proof.
  unfold parse_page, page_is, page_metadata, page_manifest, page_node. split.
  - intros n E. apply bind_ok in E as (m & Hm & E). apply bind_ok in Hm as (mid & Hmid & Hm). apply some_ok in Hmid.
    apply found_ok in Hm as (mo & Hmo & Hm). apply page_meta_ok in Hm.
    apply bind_ok in E as (pid & Hc & E). apply bind_ok in Hc as (cid & Hcid & Hc). apply some_ok in Hcid.
    apply found_ok in Hc as (co & Hco & Hc). apply manifest_ok in Hc.
    apply bind_ok in E as (d & Hd & E). apply found_ok in Hd as (o & Ho & Hd). apply page_ok in Hd.
    apply bind_ok in E as (t & Ht & E). apply bind_ok in E as (l & Hl & [= <-]). cbn.
    apply (settles_opt (fun n => parse_title n sp) _ _ _ (title_settles sp)) in Ht.
    apply (settles_all (fun n => parse_page_content n sp) _ _ _ (page_content_settles sp)) in Hl.
    exists mid, m, cid, pid, d. repeat split; auto; eexists; eauto.
  - destruct p. cbn.
    intros (mid & m & cid & pid & d & Hmid & (mo & Hmo & Hm) & Hcid & (co & Hco & Hc) & (o & Ho & Hd) & -> & -> & -> & Ht & Hl).
    apply (settles_opt (fun n => parse_title n sp) _ _ _ (title_settles sp)) in Ht as (k1 & Ht).
    apply (settles_all (fun n => parse_page_content n sp) _ _ _ (page_content_settles sp)) in Hl as (k2 & Hl).
    exists (Nat.max k1 k2). intros n Hn. apply page_meta_ok in Hm. apply manifest_ok in Hc. apply page_ok in Hd.
    rewrite Hmid, Hcid. cbn [ok_or rbind]. unfold need_object. rewrite Hmo, Hco. cbn [ok_or rbind].
    rewrite Hm, Hc. cbn [rbind]. rewrite Ho. cbn [ok_or rbind]. rewrite Hd. cbn [rbind].
    rewrite Ht by lia. cbn [rbind]. rewrite Hl by lia. reflexivity.
Qed.

Lemma series_settles st id ps : settles (fun n => parse_page_series n st id) ps (series_is st id ps).
Proof.
  unfold parse_page_series, series_is. apply settles_found. intros o. apply (settles_node _ _ _ _ _ _ series_ok). intros d.
  apply (settles_all (fun n cell => let! sp := ok_or MalformedOneNoteData (object_space st cell) in parse_page n sp)).
  intros c p. split.
  - intros n E. apply bind_ok in E as (sp & Hsp & E). apply some_ok in Hsp. exists sp. split; [exact Hsp|].
    now apply page_settles in E.
  - intros (sp & Hsp & Hp). apply page_settles in Hp as (k & Hk). exists k. intros n Hn. rewrite Hsp. now apply Hk.
Qed.

(** ** Display names *)
Lemma strip_one_cases r :
  (exists r', r = 101 :: 110 :: 111 :: 46 :: r' /\ strip_one r = strip_one r') \/
  ((forall r', r <> 101 :: 110 :: 111 :: 46 :: r') /\ strip_one r = r).
Proof.
  destruct r as [|a r]; [right; split; [discriminate|reflexivity]|].
  destruct (N.eq_dec a 101) as [->|Ha].
  2:{ right. split; [intros r' [= E]; congruence|]. cbn. destruct a as [|p]; [reflexivity|].
      do 7 (destruct p as [p|p|]; try reflexivity). now destruct Ha. }
  destruct r as [|b r]; [right; split; [discriminate|reflexivity]|].
  destruct (N.eq_dec b 110) as [->|Hb].
  2:{ right. split; [intros r' [= E]; congruence|]. cbn. destruct b as [|p]; [reflexivity|].
      do 7 (destruct p as [p|p|]; try reflexivity). now destruct Hb. }
  destruct r as [|c r]; [right; split; [discriminate|reflexivity]|].
  destruct (N.eq_dec c 111) as [->|Hc].
  2:{ right. split; [intros r' [= E]; congruence|]. cbn. destruct c as [|p]; [reflexivity|].
      do 7 (destruct p as [p|p|]; try reflexivity). now destruct Hc. }
  destruct r as [|e r]; [right; split; [discriminate|reflexivity]|].
  destruct (N.eq_dec e 46) as [->|He].
  2:{ right. split; [intros r' [= E]; congruence|]. cbn. destruct e as [|p]; [reflexivity|].
      do 6 (destruct p as [p|p|]; try reflexivity). now destruct He. }
  left. exists r. split; reflexivity.
Qed.
Lemma copies_comm k s : s ++ copies k s = copies k s ++ s.
Proof. induction k as [|k IH]; cbn; [now rewrite app_nil_r|]. rewrite IH at 1. now rewrite app_assoc. Qed.
Lemma strip_one_spec n : forall r, (length r <= n)%nat ->
  (exists k, rev r = rev (strip_one r) ++ copies k one_suffix) /\ forall s, rev (strip_one r) <> s ++ one_suffix.
Proof.
  induction n as [|n IH]; intros r Hn; destruct (strip_one_cases r) as [(r' & -> & ->)|(H & ->)].
  - cbn in Hn. lia.
  - destruct r; [|cbn in Hn; lia]. split; [exists 0%nat; reflexivity|]. intros [|? s] E; discriminate E.
  - destruct (IH r') as ((k & E) & Hs); [cbn in Hn; lia|]. split; [|exact Hs]. exists (S k).
    change (rev (101 :: 110 :: 111 :: 46 :: r')) with ((((rev r' ++ [46]) ++ [111]) ++ [110]) ++ [101]).
    rewrite E. rewrite <- !app_assoc. cbn [copies]. rewrite copies_comm. reflexivity.
  - split; [exists 0%nat; cbn; now rewrite app_nil_r|]. intros s E. apply (f_equal (@rev N)) in E.
    rewrite rev_involutive, rev_app_distr in E. apply (H (rev s)). exact E.
Qed.
Lemma copies_end k s : copies (S k) s = copies k s ++ s.
Proof. cbn. apply copies_comm. Qed.
Lemma trimmed_unique t t' k k' : t ++ copies k one_suffix = t' ++ copies k' one_suffix ->
  (forall s, t <> s ++ one_suffix) -> (forall s, t' <> s ++ one_suffix) -> t = t'.
Proof.
  revert k'. induction k as [|k IH]; intros k' E H H'.
  - destruct k' as [|k']; [cbn in E; now rewrite !app_nil_r in E|]. exfalso.
    rewrite copies_end in E. change (copies 0 one_suffix) with (@nil N) in E. rewrite app_nil_r in E.
    apply (H (t' ++ copies k' one_suffix)). rewrite E. apply app_assoc.
  - destruct k' as [|k'].
    + exfalso. rewrite copies_end in E. change (copies 0 one_suffix) with (@nil N) in E. rewrite app_nil_r in E.
      apply (H' (t ++ copies k one_suffix)). rewrite <- E. apply app_assoc.
    + apply (IH k'); auto. rewrite !copies_end, !app_assoc in E. now apply app_inv_tail in E.
Qed.
Lemma trim_spec s : (exists k, s = trim_one s ++ copies k one_suffix) /\ forall u, trim_one s <> u ++ one_suffix.
Proof.
  unfold trim_one. destruct (strip_one_spec _ (rev s) (le_n _)) as ((k & E) & H). split; [|exact H].
  exists k. now rewrite rev_involutive in E.
Qed.
Lemma name_ok m file t : trim_one (match m with Some n => n | None => file end) = t <-> display_name m file t.
Proof.
  unfold display_name. destruct (trim_spec (match m with Some n => n | None => file end)) as ((k & E) & H). split.
  - intros <-. split; [now exists k|exact H].
  - intros ((k' & E') & H'). rewrite E in E' at 1. exact (trimmed_unique _ _ _ _ E' H H').
Qed.

Lemma section_settles st file s : settles (fun n => parse_section n st file) s (section_is st file s).
Proof.
  unfold parse_section, section_is, section_metadata, section_content. split.
  - intros n E. apply bind_ok in E as (m & Hm & E). apply bind_ok in Hm as (mid & Hmid & Hm). apply some_ok in Hmid.
    apply found_ok in Hm as (mo & Hmo & Hm). apply section_meta_ok in Hm.
    apply bind_ok in E as (d & Hc & E). apply bind_ok in Hc as (cid & Hcid & Hc). apply some_ok in Hcid.
    apply found_ok in Hc as (co & Hco & Hc). apply section_node_ok in Hc. cbv zeta in E.
    apply bind_ok in E as (l & Hl & [= <-]). cbn [se_display_name se_page_series se_color].
    apply (settles_all (fun n => parse_page_series n st) _ _ _ (series_settles st)) in Hl.
    exists mid, m, cid, d. split; [exact Hmid|]. split; [eexists; eauto|]. split; [exact Hcid|].
    split; [eexists; eauto|]. split; [now apply name_ok|]. split; [reflexivity|exact Hl].
  - destruct s as [nm l c]. cbn [se_display_name se_page_series se_color].
    intros (mid & m & cid & d & Hmid & (mo & Hmo & Hm) & Hcid & (co & Hco & Hc) & Hn & -> & Hl).
    apply (settles_all (fun n => parse_page_series n st) _ _ _ (series_settles st)) in Hl as (k & Hk).
    exists k. intros n Hle. apply section_meta_ok in Hm. apply section_node_ok in Hc. apply name_ok in Hn.
    rewrite Hmid, Hcid. cbn [ok_or rbind]. unfold need_object. rewrite Hmo, Hco. cbn [ok_or rbind].
    rewrite Hm, Hc. cbn [rbind]. cbv zeta. rewrite Hk by exact Hle. cbn [rbind]. now rewrite Hn.
Qed.
