(** Notebooks on Windows: the functions on texts and the components. *)
From Coq Require Import Lia ZifyBool ZifyNat ZifyN.
From Verif Require Import Base Codec Package PropSet PropIds Store Shapes Props Nodes Doc SpecCodec SpecStore SpecValues SpecNodes
  BaseProofs NodesProofs NodesProofs2 NodesProofs3 SpecDoc DocProofs SpecNotebook Notebook NotebookProofs NotebookProofs2 NotebookProofs3
  Windows SpecWindows WindowsProofs WinNotebook SpecWinNotebook.
Local Open Scope nat_scope.

Definition wpcs (s : wtext) : list wcomponent := flat_map wpiece (split_seps s).
Lemma pcs_mid a c b : separator c -> wpcs (a ++ c :: b) = wpcs a ++ wpcs b.
Proof. intro H. unfold wpcs. now rewrite split_more, flat_map_app. Qed.
Lemma pcs_sep c b : separator c -> wpcs (c :: b) = wpcs b.
Proof. exact (pcs_mid [] c b). Qed.
Definition clean (w : wtext) : Prop := forall c, In c w -> ~ separator c.
Lemma pcs_whole w : clean w -> wpcs w = wpiece w.
Proof.
  intro H. unfold wpcs. replace (split_seps w) with [w]; [cbn; apply app_nil_r|]. apply wpieces_fun. now constructor.
Qed.

(** ** The parts of a text: a drive, a root or a leading ["."], the rest *)
Definition dot_start (b : wtext) : Prop := b = [dot] \/ exists c r, separator c /\ b = dot :: c :: r.
Record valid (pre hd body : wtext) : Prop := {
  v_pre : pre = [] \/ exists c, letter c /\ pre = [c; 58%N];
  v_hd : (exists c, separator c /\ hd = [c]) \/ (hd = [dot] /\ (body = [] \/ starts_at_root body)) \/
         (hd = [] /\ ~ starts_at_root body /\ ~ dot_start body);
  v_drive : pre = [] -> drive (hd ++ body) = false;
  v_two : pre = [] -> ~ two_seps (hd ++ body) }.
Definition hd_comp (pre hd : wtext) : list wcomponent :=
  match hd with
  | c :: _ => if is_sep c then [WRoot] else match pre with [] => [WCur] | _ => [] end
  | [] => []
  end.
Definition front (pre hd : wtext) : list wcomponent :=
  match pre with [] => [] | _ => [WPrefix pre] end ++ hd_comp pre hd.

Lemma sep_dot : is_sep dot = false. Proof. reflexivity. Qed.
Lemma sep_not_letter c : separator c -> ~ letter c.
Proof. intros [->| ->] [H|H]; lia. Qed.
Lemma root_dec b : starts_at_root b \/ ~ starts_at_root b.
Proof.
  destruct b as [|c b]; [right; intros (? & ? & _ & H); discriminate H|]. destruct (is_sep c) eqn:E.
  - left. exists c, b. split; [now apply sep_iff|reflexivity].
  - right. intros (c' & r & H & K). injection K as -> ->. now apply sep_not in E.
Qed.
Lemma dot_dec b : dot_start b \/ ~ dot_start b.
Proof.
  destruct (root_dec (tl b)) as [R|R]; destruct b as [|c b]; cbn [tl] in R.
  - right. intros [H|(? & ? & _ & H)]; discriminate H.
  - destruct (N.eq_dec c dot) as [->|D].
    + left. right. destruct R as (x & r & H & ->). eauto.
    + right. intros [H|(? & ? & _ & H)]; injection H; intros; congruence.
  - right. intros [H|(? & ? & _ & H)]; discriminate H.
  - destruct (N.eq_dec c dot) as [->|D].
    + destruct b as [|x b]; [left; now left|]. right. intros [H|(y & r & H & K)]; [discriminate H|]. injection K as -> ->. apply R. now exists y, r.
    + right. intros [H|(? & ? & _ & H)]; injection H; intros; congruence.
Qed.
Lemma valid_body pre b : (pre = [] \/ exists c, letter c /\ pre = [c; 58%N]) -> (pre = [] -> drive b = false) -> (pre = [] -> ~ two_seps b) ->
  exists hd body, b = hd ++ body /\ valid pre hd body.
Proof.
  intros P D T. destruct (root_dec b) as [(c & r & H & ->)|R].
  - exists [c], r. split; [reflexivity|]. constructor; auto. left. eauto.
  - destruct (dot_dec b) as [[->|(c & r & H & ->)]|N].
    + exists [dot], []. split; [reflexivity|]. constructor; auto.
    + exists [dot], (c :: r). split; [reflexivity|]. constructor; auto. right. left. split; [reflexivity|]. right. now exists c, r.
    + exists [], b. split; [reflexivity|]. constructor; auto.
Qed.
Lemma valid_exists t : ~ two_seps t -> exists pre hd body, t = pre ++ hd ++ body /\ valid pre hd body.
Proof.
  intro T. destruct (drive t) eqn:D.
  - apply drive_iff in D as (c & r & L & ->). destruct (valid_body [c; 58%N] r) as (hd & body & -> & V); try discriminate; eauto.
    exists [c; 58%N], hd, body. auto.
  - destruct (valid_body [] t) as (hd & body & -> & V); auto. exists [], hd, body. auto.
Qed.
Lemma valid_one pre hd body : valid pre hd body -> ~ two_seps (pre ++ hd ++ body).
Proof.
  intros V. destruct (v_pre _ _ _ V) as [->|(c & L & ->)]; [exact (v_two _ _ _ V eq_refl)|].
  intros (x & y & r & H & _ & E). injection E as -> _ _. exact (sep_not_letter _ H L).
Qed.
Lemma valid_prefix other pre hd body : valid pre hd body ->
  prefix_len other (pre ++ hd ++ body) = match pre with [] => None | _ => Some 2 end.
Proof.
  intro V. destruct (v_pre _ _ _ V) as [->|(c & L & ->)].
  - cbn [app]. pose proof (v_drive _ _ _ V eq_refl) as D. pose proof (v_two _ _ _ V eq_refl) as T.
    destruct (hd ++ body) as [|x [|y r]]; try reflexivity. cbn [prefix_len]. rewrite D. destruct (is_sep x) eqn:X, (is_sep y) eqn:Y; try reflexivity.
    exfalso. apply T. exists x, y, r. rewrite <- !sep_iff. auto.
  - cbn [app prefix_len]. assert (is_sep 58 = false) as -> by reflexivity. rewrite andb_false_r.
    assert (drive (c :: 58%N :: hd ++ body) = true) as -> by (apply drive_iff; exists c, (hd ++ body); auto). reflexivity.
Qed.
Lemma valid_skip other pre hd body : valid pre hd body -> wprefix other (pre ++ hd ++ body) = length pre /\
  skipn (wprefix other (pre ++ hd ++ body)) (pre ++ hd ++ body) = hd ++ body.
Proof.
  intro V. unfold wprefix. rewrite valid_prefix by exact V. destruct (v_pre _ _ _ V) as [->|(c & L & ->)]; split; reflexivity.
Qed.
Lemma valid_root other pre hd body : valid pre hd body ->
  has_root other (pre ++ hd ++ body) = physical_root other (pre ++ hd ++ body) /\
  physical_root other (pre ++ hd ++ body) = match hd with c :: _ => is_sep c | [] => false end.
Proof.
  intro V. assert (A : has_root other (pre ++ hd ++ body) = physical_root other (pre ++ hd ++ body)).
  { unfold has_root, physical_root. destruct (valid_skip other pre hd body V) as (_ & ->). rewrite valid_prefix by exact V.
    destruct (v_pre _ _ _ V) as [->|(c & L & ->)]; [reflexivity|]. cbn [app].
    assert (drive (c :: 58%N :: hd ++ body) = true) as -> by (apply drive_iff; exists c, (hd ++ body); auto). reflexivity. }
  split; [exact A|]. unfold physical_root. destruct (valid_skip other pre hd body V) as (_ & ->).
  destruct (v_hd _ _ _ V) as [(c & H & ->)|[(-> & _)|(-> & R & _)]]; try reflexivity. cbn [app]. destruct body as [|c r]; [reflexivity|].
  apply sep_not. intro H. apply R. now exists c, r.
Qed.
Lemma valid_cur other pre hd body : valid pre hd body ->
  wcur_dir other (pre ++ hd ++ body) = match hd with c :: _ => negb (is_sep c) | [] => false end.
Proof.
  intro V. unfold wcur_dir. destruct (valid_root other pre hd body V) as (-> & ->). destruct (valid_skip other pre hd body V) as (_ & ->).
  destruct (v_hd _ _ _ V) as [(c & H & ->)|[(-> & B)|(-> & R & D)]].
  - apply sep_iff in H. now rewrite H.
  - cbn [app]. rewrite sep_dot. cbn [negb andb]. destruct B as [->|(c & r & H & ->)]; [reflexivity|]. apply sep_iff in H. now rewrite H.
  - cbn [app negb andb]. destruct body as [|x [|y r]]; [reflexivity| |].
    + apply N.eqb_neq. intros ->. apply D. now left.
    + destruct (N.eqb_spec x dot) as [->|_]; [|reflexivity]. cbn [andb]. apply sep_not. intro H. apply D. right. eauto.
Qed.
Lemma valid_before other pre hd body : valid pre hd body -> wbefore other (pre ++ hd ++ body) = length pre + length hd.
Proof.
  intro V. unfold wbefore. rewrite (valid_cur other pre hd body V). destruct (valid_root other pre hd body V) as (_ & ->). destruct (valid_skip other pre hd body V) as (-> & _).
  destruct (v_hd _ _ _ V) as [(c & H & ->)|[(-> & B)|(-> & R & D)]]; [apply sep_iff in H; rewrite H|..]; cbn; lia.
Qed.
Lemma valid_parts other pre hd body : valid pre hd body ->
  firstn (wbefore other (pre ++ hd ++ body)) (pre ++ hd ++ body) = pre ++ hd /\
  skipn (wbefore other (pre ++ hd ++ body)) (pre ++ hd ++ body) = body.
Proof.
  intro V. rewrite valid_before by exact V. rewrite <- app_length, app_assoc. split.
  - rewrite firstn_app, firstn_all, Nat.sub_diag. cbn. apply app_nil_r.
  - rewrite skipn_app, skipn_all, Nat.sub_diag. reflexivity.
Qed.
Lemma valid_components other pre hd body : valid pre hd body -> wcomponents other (pre ++ hd ++ body) = front pre hd ++ wpcs body.
Proof.
  intro V. unfold wcomponents. destruct (valid_skip other pre hd body V) as (_ & E). unfold wprefix in E. cbv zeta. rewrite E.
  destruct (valid_root other pre hd body V) as (-> & ->). rewrite valid_prefix by exact V. unfold front. rewrite <- app_assoc. f_equal.
  { destruct (v_pre _ _ _ V) as [->|(c & L & ->)]; reflexivity. }
  destruct (v_hd _ _ _ V) as [(c & H & ->)|[(-> & B)|(-> & R & D)]].
  - pose proof H as H'. apply sep_iff in H'. unfold hd_comp. rewrite H'. f_equal. exact (pcs_sep c body H).
  - cbn [app]. unfold hd_comp. rewrite sep_dot.
    assert (K : split_seps (dot :: body) = [dot] :: match body with [] => [] | _ :: r => split_seps r end).
    { destruct B as [->|(c & r & H & ->)]; [reflexivity|]. change (dot :: c :: r) with ([dot] ++ c :: r). now rewrite split_more by exact H. }
    rewrite K. assert (Q : flat_map wpiece ([dot] :: match body with [] => [] | _ :: r => split_seps r end) = wpcs body).
    { destruct B as [->|(c & r & H & ->)]; [reflexivity|]. now rewrite pcs_sep by exact H. }
    rewrite Q. f_equal. destruct (v_pre _ _ _ V) as [->|(c & L & ->)]; reflexivity.
  - cbn [app hd_comp]. unfold wpcs. destruct (v_pre _ _ _ V) as [->|(c & L & ->)]; [|reflexivity].
    destruct (split_seps body) as [|w ws] eqn:E2; [reflexivity|]. destruct (name_eqb w [dot]) eqn:Q; [|reflexivity]. exfalso. apply name_eqb_eq in Q. subst w.
    pose proof (split_wpieces body) as W. rewrite E2 in W. inversion W as [w F E1|w d r ws' F Sd Rr E1]; subst; apply D; [now left|right; exists d, r; auto].
Qed.

(** A beginning that ends where a piece ends. *)
Definition wcut (b t : wtext) : Prop := b = [] \/ b = t \/ exists c s, separator c /\ t = b ++ c :: s.
Lemma wcut_trans a b c : wcut a b -> wcut b c -> wcut a c.
Proof.
  intros [->|[->|(x & s & X & ->)]] H; [now left|exact H|]. destruct H as [H|[<-|(y & s' & Y & ->)]].
  - now apply app_eq_nil in H as (_ & H).
  - right. right. eauto.
  - right. right. exists x, (s ++ y :: s'). rewrite <- app_assoc. auto.
Qed.
Lemma cut_front b t : wcut b t -> exists s, t = b ++ s.
Proof. intros [->|[->|(x & s & X & ->)]]; [now exists t|exists []; now rewrite app_nil_r|eauto]. Qed.
Lemma valid_cut pre hd body b : valid pre hd body -> wcut b body -> valid pre hd b.
Proof.
  intros V C. destruct (cut_front _ _ C) as (s & E). constructor.
  - exact (v_pre _ _ _ V).
  - destruct (v_hd _ _ _ V) as [H|[(-> & B)|(-> & R & D)]]; [now left|right; left|right; right].
    + split; [reflexivity|]. destruct b as [|x b]; [now left|]. right. destruct B as [->|(c & r & H & ->)]; [discriminate E|]. injection E as -> _. now exists x, b.
    + split; [reflexivity|]. split.
      * intros (c & r & H & ->). apply R. exists c, (r ++ s). now split.
      * intros [->|(c & r & H & ->)]; apply D.
        -- destruct C as [C|[<-|(x & u & X & ->)]]; [discriminate C|now left|right; exists x, u; auto].
        -- right. exists c, (r ++ s). subst body. auto.
  - intros P. pose proof (v_drive _ _ _ V P) as D. destruct (drive (hd ++ b)) eqn:K; [|reflexivity]. apply drive_iff in K as (c & r & L & K).
    rewrite <- D. symmetry. apply drive_iff. exists c, (r ++ s). split; [exact L|]. subst body. rewrite app_assoc, K. reflexivity.
  - intros P (c & d & r & H1 & H2 & K). apply (v_two _ _ _ V P). exists c, d, (r ++ s). subst body. rewrite app_assoc, K. auto.
Qed.

(** ** From the back *)
Lemma wlast_ok r p q : wlast_piece r = (p, q) -> clean p /\ ((exists c, separator c /\ r = p ++ c :: q) \/ r = p /\ q = []).
Proof.
  revert p q. induction r as [|c r IH]; intros p q; cbn [wlast_piece].
  - intro H. injection H as <- <-. split; [intros ? []|]. now right.
  - destruct (is_sep c) eqn:E.
    + intro H. injection H as <- <-. split; [intros ? []|]. left. exists c. split; [now apply sep_iff|reflexivity].
    + destruct (wlast_piece r) as [p' q'] eqn:L. intro H. injection H as <- <-. destruct (IH _ _ eq_refl) as (I & D). split.
      * intros x [<-|H]; [now apply sep_not|now apply I].
      * destruct D as [(d & H & ->)|(-> & ->)]; [left; eauto|now right].
Qed.
Lemma clean_rev p : clean p -> clean (rev p).
Proof. intros H c I. apply in_rev in I. now apply H. Qed.
Lemma wlast_short r p q c : wlast_piece (c :: r) = (p, q) -> length q <= length r.
Proof. intro E. apply wlast_ok in E as (_ & [(d & _ & H)|(H & ->)]); [|cbn; lia]. apply (f_equal (@length N)) in H. cbn [length] in H. rewrite app_length in H. cbn [length] in H. lia. Qed.
Lemma wlast_pcs r p q : wlast_piece r = (p, q) -> wpcs (rev r) = wpcs (rev q) ++ wpiece (rev p).
Proof.
  intro E. apply wlast_ok in E as (I & D). apply clean_rev in I. destruct D as [(c & H & ->)|(-> & ->)].
  - rewrite rev_app_distr. cbn [rev]. rewrite <- app_assoc. cbn [app]. rewrite pcs_mid by exact H. f_equal. now apply pcs_whole.
  - cbn. now apply pcs_whole.
Qed.
Lemma wlast_cut r p q : wlast_piece r = (p, q) -> wcut (rev q) (rev r).
Proof.
  intro E. apply wlast_ok in E as (_ & [(c & H & ->)|(-> & ->)]); [|now left]. right. right. exists c, (rev p). split; [exact H|]. rewrite rev_app_distr. cbn [rev]. now rewrite <- app_assoc.
Qed.
Lemma wpiece_one w : wpiece w = [] \/ exists x, wpiece w = [x] /\ x <> WRoot /\ x <> WCur /\ forall p, x <> WPrefix p.
Proof. destruct (wpiece_cases w) as [(_ & ->)|[(_ & ->)|(_ & _ & ->)]]; [now left|right; eexists; split; [reflexivity|repeat split; discriminate]..]. Qed.
Definition body_comp (x : wcomponent) : Prop := x = WParent \/ exists n, x = WNormal n.
Lemma wback_ok n : forall r, length r <= n ->
  match wback_fuel n r with
  | Some (c, q) => wpcs (rev r) = wpcs (rev q) ++ [c] /\ wcut (rev q) (rev r) /\ body_comp c
  | None => wpcs (rev r) = []
  end.
Proof.
  induction n as [|n IH]; intros [|c r] L; cbn [wback_fuel length] in *; try reflexivity; [lia|].
  destruct (wlast_piece (c :: r)) as [p q] eqn:E. pose proof (wlast_pcs _ _ _ E) as P. pose proof (wlast_cut _ _ _ E) as C. pose proof (wlast_short _ _ _ _ E) as SH.
  destruct (wpiece_cases (rev p)) as [(_ & O)|O].
  - rewrite O in *. rewrite app_nil_r in P. specialize (IH q ltac:(lia)). destruct (wback_fuel n q) as [[y z]|]; [|now rewrite P]. destruct IH as (I1 & I2 & I3). rewrite P. split; [exact I1|]. split; [eapply wcut_trans; eassumption|exact I3].
  - unfold body_comp. destruct O as [(_ & O)|(_ & _ & O)]; rewrite O in *; eauto 6.
Qed.
(** Nothing, or a piece that counts at the end. *)
Definition wtail (t : wtext) : Prop := t = [] \/ exists u w, t = u ++ w /\ clean w /\ not_dot w.
Lemma tail_wplain u w : clean w -> not_dot w -> wplain (u ++ w).
Proof.
  intros A (B & C). right. intros s c K. destruct (exists_last B) as (m & x & ->). rewrite app_assoc. split; intro Q.
  - apply app_inj_tail in Q as (_ & ->). apply (A c); [|exact K]. apply in_app_iff. right. now left.
  - change [c; 46%N] with ([c] ++ [46%N]) in Q. rewrite app_assoc in Q. apply app_inj_tail in Q as (Q & ->). destruct m as [|y m] using rev_ind; [now apply C|].
    rewrite app_assoc in Q. apply app_inj_tail in Q as (_ & ->). apply (A c); [|exact K]. rewrite !in_app_iff. left. right. now left.
Qed.
Lemma wtrim_ok n : forall r, length r <= n -> wpcs (rev (wtrim_fuel n r)) = wpcs (rev r) /\ wcut (rev (wtrim_fuel n r)) (rev r) /\ wtail (rev (wtrim_fuel n r)).
Proof.
  induction n as [|n IH]; intros [|c r] L; cbn [wtrim_fuel length] in *; try lia.
  - split; [reflexivity|]. split; now left.
  - split; [reflexivity|]. split; now left.
  - destruct (wlast_piece (c :: r)) as [p q] eqn:E. pose proof (wlast_pcs _ _ _ E) as P. pose proof (wlast_cut _ _ _ E) as C. pose proof (wlast_short _ _ _ _ E) as SH.
    destruct (wpiece (rev p)) as [|x l] eqn:O.
    + rewrite app_nil_r in P. destruct (IH q ltac:(lia)) as (I1 & I2 & I3). split; [congruence|]. split; [eapply wcut_trans; eassumption|exact I3].
    + split; [reflexivity|]. split; [right; now left|]. apply wlast_ok in E as (A & D). assert (K : exists s, c :: r = p ++ s) by (destruct D as [(d & _ & ->)|(-> & _)]; [eauto|exists []; now rewrite app_nil_r]).
      destruct K as (s & ->). right. exists (rev s), (rev p). rewrite rev_app_distr. split; [reflexivity|]. split; [now apply clean_rev|].
      destruct (wpiece_cases (rev p)) as [(_ & Q)|[(Q & _)|(Q & _)]]; [congruence|rewrite Q; split; discriminate|exact Q].
Qed.
Lemma wbody_back_ok b : match wbody_back b with
  | Some (c, q) => wpcs b = wpcs q ++ [c] /\ wcut q b /\ body_comp c
  | None => wpcs b = []
  end.
Proof.
  unfold wbody_back. pose proof (wback_ok (length b) (rev b)) as H. rewrite rev_length, rev_involutive in H. specialize (H (le_n _)).
  destruct (wback_fuel _ _) as [[c q]|]; exact H.
Qed.
Lemma wtrim_right_ok b : wpcs (wtrim_right b) = wpcs b /\ wcut (wtrim_right b) b /\ wtail (wtrim_right b).
Proof. unfold wtrim_right. pose proof (wtrim_ok (length b) (rev b)) as H. rewrite rev_length, rev_involutive in H. exact (H (le_n _)). Qed.

(** ** [file_name] and [parent] *)
Lemma w_last_ok other t : ~ two_seps t -> w_last other t = match rev (wcomponents other t) with c :: _ => Some c | [] => None end.
Proof.
  intro T. destruct (valid_exists t T) as (pre & hd & body & -> & V). unfold w_last. rewrite (valid_components other _ _ _ V).
  destruct (valid_parts other _ _ _ V) as (_ & ->). pose proof (wbody_back_ok body) as H. destruct (wbody_back body) as [[c q]|].
  - destruct H as (-> & _). rewrite app_assoc, rev_app_distr. reflexivity.
  - rewrite H, app_nil_r. destruct (valid_root other _ _ _ V) as (-> & ->). rewrite (valid_prefix other _ _ _ V), (valid_cur other _ _ _ V). unfold front, hd_comp.
    destruct (v_pre _ _ _ V) as [->|(c & L & ->)], (v_hd _ _ _ V) as [(d & K & ->)|[(-> & _)|(-> & _)]]; try (apply sep_iff in K; rewrite K); reflexivity.
Qed.
Lemma front_wplain pre hd body : valid pre hd body -> wplain (pre ++ hd).
Proof.
  intros V. destruct (v_hd _ _ _ V) as [(d & K & ->)|H].
  - left. exists d. split; [exact K|]. destruct (v_pre _ _ _ V) as [->|(c & L & ->)]; [now left|right; now exists c].
  - right. intros s c K. assert (Hd : hd = [dot] \/ hd = []) by tauto.
    assert (Z : c <> 58%N /\ c <> dot) by (destruct K as [->| ->]; split; discriminate).
    destruct (v_pre _ _ _ V) as [->|(l & L & ->)], Hd as [->| ->]; cbn [app]; split; intro Q;
      destruct s as [|s1 [|s2 [|s3 s]]]; cbn [app] in Q; try discriminate Q; injection Q; intros; subst; try (unfold dot in *; intuition congruence); try discriminate;
      try (exact (sep_not_letter _ K L)); try (now destruct s).
Qed.
Lemma w_parent_ok other t : ~ two_seps t ->
  match w_parent other t with
  | Some b => wplain b /\ ~ two_seps b /\ (forall l c, wcomponents other t = l ++ [c] -> wcomponents other b = l /\ c <> WRoot)
  | None => forall l c, wcomponents other t = l ++ [c] -> c = WRoot \/ exists p, c = WPrefix p
  end.
Proof.
  intro T. destruct (valid_exists t T) as (pre & hd & body & -> & V). unfold w_parent. rewrite (valid_components other _ _ _ V).
  destruct (valid_parts other _ _ _ V) as (-> & ->). pose proof (wbody_back_ok body) as H. destruct (wbody_back body) as [[c q]|].
  - destruct H as (P & C & B). destruct (wtrim_right_ok q) as (T1 & T2 & T3). assert (V' : valid pre hd (wtrim_right q)) by (eapply valid_cut; [exact V|eapply wcut_trans; eassumption]).
    rewrite <- app_assoc. split; [|split].
    + destruct T3 as [->|(u & w & -> & T3 & T4)]; [rewrite app_nil_r; exact (front_wplain _ _ _ V)|]. rewrite !app_assoc. now apply tail_wplain.
    + now apply valid_one.
    + intros l x E. rewrite P, app_assoc in E. apply app_inj_tail in E as (<- & <-). rewrite (valid_components other _ _ _ V'), T1. split; [reflexivity|].
      destruct B as [->|(n & ->)]; discriminate.
  - rewrite H, app_nil_r. destruct (valid_root other _ _ _ V) as (-> & ->). rewrite (valid_prefix other _ _ _ V), (valid_cur other _ _ _ V). unfold front, hd_comp.
    assert (Z : forall l (c x : wcomponent), [x] = l ++ [c] -> l = [] /\ c = x) by (intros [|y l] c x E; [injection E as ->; auto|destruct l; discriminate E]).
    assert (Z2 : forall l c (x y : wcomponent), [x; y] = l ++ [c] -> c = y) by (intros l c x y E; change [x; y] with ([x] ++ [y]) in E; now apply app_inj_tail in E as (_ & ->)).
    destruct (v_pre _ _ _ V) as [->|(c & L & ->)], (v_hd _ _ _ V) as [(d & K & ->)|[(-> & _)|(-> & _)]]; try (apply sep_iff in K; rewrite K); cbn [app negb is_sep orb N.eqb]; try rewrite sep_dot; cbn [negb].
    + intros l c E. apply Z in E as (_ & ->). now left.
    + split; [right; intros s c K; split; intro Q; destruct s; discriminate Q|]. split; [intros (? & ? & ? & _ & _ & Q); discriminate Q|].
      intros l c E. apply Z in E as (-> & ->). split; [reflexivity|discriminate].
    + intros l c E. destruct l; discriminate E.
    + intros l x E. apply Z2 in E as ->. now left.
    + intros l x E. apply Z in E as (_ & ->). right. eauto.
    + intros l x E. apply Z in E as (_ & ->). right. eauto.
Qed.

(** ** Names behind a directory *)
Lemma proper_tame n : wproper n -> tame n.
Proof. intros (H & _). exact H. Qed.
Lemma placed_one base ns p : ~ two_seps base -> ns <> [] -> Forall wproper ns -> placed base (wjoin ns) p -> ~ two_seps p.
Proof.
  intros B Nn F Pl. assert (Ne : Forall (fun n => n <> []) ns) by (revert F; apply Forall_impl; intros n (_ & (K & _) & _); exact K).
  assert (T : Forall tame ns) by (revert F; apply Forall_impl; exact proper_tame).
  destruct (wjoin_rel ns Ne T) as (R & D). apply (placed_iff (fun _ => None)) in Pl; [|assumption|assumption]. rewrite push_rel in Pl by assumption.
  intros (c & d & r & S1 & S2 & ->). destruct base as [|x [|y b]].
  - cbn in Pl. apply R. rewrite Pl. now exists c, (d :: r).
  - unfold needs_sep in Pl. cbn [rev app] in Pl. assert (X : drive [x] = false) by reflexivity. rewrite X in Pl. cbn [andb negb] in Pl.
    destruct (is_sep x) eqn:Sx; cbn [negb andb app] in Pl.
    + injection Pl as -> Pl. apply R. rewrite Pl. now exists d, r.
    + injection Pl as -> _. now apply sep_not in Sx.
  - cbn [app] in Pl. injection Pl as -> -> _. apply B. now exists c, d, b.
Qed.
Lemma wjoin_snoc l n : l <> [] -> wjoin (l ++ [n]) = wjoin l ++ 92%N :: n.
Proof.
  induction l as [|m l IH]; [congruence|]. intros _. cbn [app]. destruct l as [|m' l]; [reflexivity|]. cbn [app]. change (wjoin (m :: m' :: l ++ [n])) with (m ++ 92%N :: wjoin ((m' :: l) ++ [n])).
  rewrite IH by discriminate. change (wjoin (m :: m' :: l)) with (m ++ 92%N :: wjoin (m' :: l)). now rewrite <- app_assoc.
Qed.
Lemma wjoin_ends ns : ns <> [] -> Forall wproper ns -> exists u w, wjoin ns = u ++ w /\ clean w /\ not_dot w.
Proof.
  intros NE F. destruct (exists_last NE) as (m & n & ->). apply Forall_app in F as (_ & F). assert (Pn : wproper n) by (inversion F; assumption). destruct Pn as (P1 & P2 & _).
  assert (C : clean n) by (intros c I; now apply P1). destruct m as [|x m]; [exists [], n; auto|]. rewrite wjoin_snoc by discriminate. exists (wjoin (x :: m) ++ [92%N]), n. rewrite <- app_assoc. auto.
Qed.
Lemma placed_plain base ns p : ns <> [] -> Forall wproper ns -> placed base (wjoin ns) p -> wplain p.
Proof.
  intros NE F Pl. destruct (wjoin_ends ns NE F) as (u & w & E & C & D). unfold placed in Pl. rewrite E in Pl. destruct Pl as [(_ & ->)|(_ & ->)].
  - rewrite app_assoc. now apply tail_wplain.
  - change (base ++ 92%N :: u ++ w) with (base ++ (92%N :: u) ++ w). rewrite app_assoc. now apply tail_wplain.
Qed.
Lemma placed_spells other base dir ms ns p : spells other base ms dir -> ns <> [] -> Forall wproper ns -> placed dir (wjoin ns) p -> spells other base (ms ++ ns) p.
Proof.
  intros (_ & T & C) NE F Pl. split; [exact (placed_plain dir ns p NE F Pl)|]. split; [exact (placed_one dir ns p T NE F Pl)|].
  rewrite (placed_components other dir ns p T NE); [|revert F; apply Forall_impl; exact proper_tame|revert F; apply Forall_impl; intros n (_ & H); exact H|exact Pl].
  rewrite C, <- app_assoc, map_app. reflexivity.
Qed.
Lemma push_spells other base dir ms n : spells other base ms dir -> wproper n -> spells other base (ms ++ [n]) (wpush other dir n).
Proof.
  intros Sd Pn. apply (placed_spells other base dir ms [n]); [exact Sd|discriminate|auto|]. destruct (tame_rel n (proper_tame n Pn)) as (R & D). cbn [wjoin]. now apply (placed_iff other).
Qed.
Lemma spells_last other base ns n t : spells other base (ns ++ [n]) t -> w_last other t = Some (WNormal n).
Proof. intros (_ & T & C). rewrite w_last_ok by exact T. rewrite C, map_app, app_assoc, rev_app_distr. reflexivity. Qed.
Lemma spells_parent other base ns n t : spells other base (ns ++ [n]) t -> exists b, w_parent other t = Some b /\ spells other base ns b.
Proof.
  intros (_ & T & C). rewrite map_app, app_assoc in C. cbn [map] in C. pose proof (w_parent_ok other t T) as H. destruct (w_parent other t) as [b|].
  - destruct H as (P & Q & K). exists b. split; [reflexivity|]. split; [exact P|]. split; [exact Q|]. exact (proj1 (K _ _ C)).
  - destruct (H _ _ C) as [K|(p & K)]; discriminate K.
Qed.
Lemma resolve_spells other sanitise fs base ms dir e p : windows_safe sanitise -> spells other base ms dir ->
  win_resolve other sanitise fs dir e = Ok p ->
  exists ns, ns <> [] /\ Forall wproper ns /\ Forall (fun n => sanitise n = n) ns /\ spells other base (ms ++ ns) p /\ wcontained other fs dir p.
Proof.
  intros Safe Sd H. apply (win_resolve_ok other sanitise fs dir e p Safe) in H as ((ns & ws & _ & _ & _ & Hp & Nn & Hc & Pl) & Cn).
  assert (F : Forall wproper ns).
  { rewrite Forall_forall in *. intros n I. destruct (Hc n I) as (K1 & K2). split; [intros c J; exact (Safe n c K2 J)|]. split; [apply (picks_in _ _ _ n Hp) in I as (_ & K); exact K|exact K1]. }
  exists ns. split; [exact Nn|]. split; [exact F|]. split; [revert Hc; apply Forall_impl; tauto|]. split; [exact (placed_spells other base dir ms ns p Sd Nn F Pl)|exact Cn].
Qed.
