(** Names on Windows. *)
From Coq Require Import Lia ZifyBool ZifyNat ZifyN.
From Verif Require Import Base Codec Package PropSet PropIds Store Shapes Props Nodes Doc SpecCodec SpecStore SpecValues SpecNodes
  BaseProofs NodesProofs NodesProofs2 NodesProofs3 SpecDoc DocProofs SpecNotebook Notebook NotebookProofs NotebookProofs2 Windows SpecWindows.
Local Open Scope nat_scope.

Lemma sep_iff c : is_sep c = true <-> separator c.
Proof. unfold is_sep, separator. rewrite orb_true_iff, !N.eqb_eq. tauto. Qed.
Lemma sep_not c : is_sep c = false <-> ~ separator c.
Proof. rewrite <- sep_iff. destruct (is_sep c); split; congruence. Qed.
Lemma letter_iff c : is_letter c = true <-> letter c.
Proof. unfold is_letter, letter. rewrite orb_true_iff, !andb_true_iff, !N.leb_le. tauto. Qed.
Lemma drive_iff e : drive e = true <-> has_drive e.
Proof.
  unfold has_drive. destruct e as [|c [|d r]]; cbn [drive].
  - split; [discriminate|]. intros (? & ? & _ & K). discriminate K.
  - split; [discriminate|]. intros (? & ? & _ & K). discriminate K.
  - rewrite andb_true_iff, letter_iff, N.eqb_eq. split.
    + intros (L & ->). eauto.
    + intros (c' & r' & L & K). injection K as -> -> ->. auto.
Qed.

(** ** Splitting *)
Lemma seps_some e : exists w ws, split_seps e = w :: ws.
Proof.
  induction e as [|c e (w & ws & E)]; cbn [split_seps]; [eauto|]. rewrite E. destruct (is_sep c); eauto.
Qed.
Lemma split_wpieces e : wpieces e (split_seps e).
Proof.
  induction e as [|c e IH]; cbn [split_seps]; [constructor; intros c []|].
  destruct (seps_some e) as (w & ws & E). rewrite E in *. destruct (is_sep c) eqn:S.
  - apply (wp_more [] c e); [intros d []|now apply sep_iff|exact IH].
  - apply sep_not in S. inversion IH as [w' F E1|w' d r ws' F Sd R E1]; subst.
    + constructor. intros d [<-|I]; [exact S|now apply F].
    + apply (wp_more (c :: w) d r ws); [|exact Sd|exact R]. intros x [<-|I]; [exact S|now apply F].
Qed.
Lemma wpieces_fun e ws : wpieces e ws -> ws = split_seps e.
Proof.
  induction 1 as [w F|w c r ws F S P IH].
  - induction w as [|c w IH]; [reflexivity|]. cbn [split_seps]. rewrite <- IH by (intros d I; apply F; now right).
    rewrite (proj2 (sep_not c)) by (apply F; now left). reflexivity.
  - induction w as [|d w IHw]; cbn [app split_seps].
    + rewrite <- IH. destruct (seps_some r) as (x & xs & E). rewrite E in IH. rewrite IH. now rewrite (proj2 (sep_iff c) S).
    + rewrite <- IHw by (intros x I; apply F; now right). rewrite (proj2 (sep_not d)) by (apply F; now left). reflexivity.
Qed.

(** ** Pushing *)
Definition tame (n : list N) : Prop := forall c, In c n -> ~ separator c /\ c <> 58%N.
Lemma prefix_none other s : ~ starts_at_root s -> ~ has_drive s -> prefix_len other s = None.
Proof.
  intros R D. destruct s as [|c [|d r]]; try reflexivity. cbn [prefix_len].
  destruct (is_sep c) eqn:S; [exfalso; apply R; exists c, (d :: r); split; [now apply sep_iff|reflexivity]|]. cbn [andb].
  destruct (drive (c :: d :: r)) eqn:E; [|reflexivity]. exfalso. now apply D, drive_iff.
Qed.
Lemma root_none other s : ~ starts_at_root s -> ~ has_drive s -> has_root other s = false.
Proof.
  intros R D. unfold has_root. rewrite prefix_none by assumption. destruct s as [|c r]; [reflexivity|]. apply sep_not. intro K. apply R.
  now exists c, r.
Qed.
Lemma push_rel other buf n : ~ starts_at_root n -> ~ has_drive n -> wpush other buf n = buf ++ (if needs_sep buf then [92%N] else []) ++ n.
Proof. intros R D. unfold wpush. now rewrite prefix_none, root_none. Qed.
Lemma tame_rel n : tame n -> ~ starts_at_root n /\ ~ has_drive n.
Proof.
  intro T. split.
  - intros (c & r & S & ->). now destruct (T c (or_introl eq_refl)).
  - intros (c & r & _ & ->). now destruct (T 58%N (or_intror (or_introl eq_refl))).
Qed.
Lemma last_rev {A} (l : list A) x : exists y r, rev (l ++ [x]) = y :: r /\ y = x.
Proof. rewrite rev_app_distr. cbn. eauto. Qed.
Lemma needs_iff buf : needs_sep buf = false <-> open_ended buf.
Proof.
  unfold needs_sep, open_ended. destruct (rev buf) as [|c r] eqn:E.
  - apply (f_equal (@rev _)) in E. rewrite rev_involutive in E. cbn in E. subst. split; auto.
  - apply (f_equal (@rev _)) in E. rewrite rev_involutive in E. cbn [rev] in E.
    destruct (is_sep c) eqn:S; cbn [negb andb].
    + apply sep_iff in S. split; eauto 6.
    + apply sep_not in S. split.
      * intro H. apply negb_false_iff, andb_true_iff in H as (D & L). apply Nat.eqb_eq in L. apply drive_iff in D as (x & y & Lx & ->).
        cbn in L. destruct y; [|cbn in L; lia]. right. right. eauto.
      * intros [->|[(b & d & K & Sd)|(d & Ld & ->)]]; [destruct (rev r); discriminate E| |].
        -- rewrite E in K. apply app_inj_tail in K as (_ & ->). contradiction.
        -- apply negb_false_iff, andb_true_iff. split; [apply drive_iff; exists d, []; auto|reflexivity].
Qed.
Lemma placed_iff other base rel p : ~ starts_at_root rel -> ~ has_drive rel -> wpush other base rel = p <-> placed base rel p.
Proof.
  intros R D. rewrite push_rel by assumption. unfold placed. pose proof (needs_iff base) as N. destruct (needs_sep base); cbn [app].
  - assert (~ open_ended base) by (rewrite <- N; discriminate). split; [intros <-; auto|]. intros [(K & _)|(_ & ->)]; [contradiction|reflexivity].
  - assert (open_ended base) by (now apply N). split; [intros <-; auto|]. intros [(_ & ->)|(K & _)]; [reflexivity|contradiction].
Qed.
(** [buf] holds the names so far. *)
Definition wjoin_more (buf : list N) (ns : list name) : list N :=
  match buf, ns with [], _ => wjoin ns | _, [] => buf | _, _ => buf ++ 92%N :: wjoin ns end.
Definition closed_buf (buf : list N) : Prop := buf = [] \/ needs_sep buf = true.
Lemma tame_app buf n : n <> [] -> tame n -> (buf = [] \/ exists b, buf = b ++ [92%N]) -> needs_sep (buf ++ n) = true.
Proof.
  intros Hn T B. destruct (needs_sep (buf ++ n)) eqn:E; [reflexivity|]. exfalso. apply needs_iff in E.
  destruct (exists_last Hn) as (m & x & ->).
  destruct E as [E|[(b & c & E & S)|(c & L & E)]].
  - destruct buf, m; discriminate E.
  - rewrite app_assoc in E. apply app_inj_tail in E as (_ & <-). destruct (T x); [apply in_or_app; right; now left|contradiction].
  - rewrite app_assoc in E. change [c; 58%N] with ([c] ++ [58%N]) in E. apply app_inj_tail in E as (_ & ->).
    destruct (T 58%N); [apply in_or_app; right; now left|congruence].
Qed.
Lemma push_closed other buf n : closed_buf buf -> n <> [] -> tame n ->
  closed_buf (wpush other buf n) /\ wpush other buf n <> [] /\ forall ns, wjoin_more (wpush other buf n) ns = wjoin_more buf (n :: ns).
Proof.
  intros C Hn T. destruct (tame_rel n T) as (R & D). rewrite push_rel by assumption. destruct C as [->|C].
  - cbn [app needs_sep rev]. split; [right; apply (tame_app [] n); auto|]. split; [exact Hn|]. intro ns. unfold wjoin_more.
    destruct n as [|c n]; [easy|]. destruct ns; reflexivity.
  - rewrite C. split; [right; rewrite app_assoc; apply tame_app; eauto|]. split; [destruct buf; [discriminate C|discriminate]|].
    intro ns. destruct buf as [|c buf]; [discriminate C|]. cbn [app wjoin_more]. destruct ns as [|m ns]; [reflexivity|].
    cbn [wjoin]. rewrite <- !app_assoc. reflexivity.
Qed.
Lemma wpiece_cases w : (~ not_dot w /\ wpiece w = []) \/ (w = [46%N; 46%N] /\ wpiece w = [WParent]) \/
  (not_dot w /\ w <> [46%N; 46%N] /\ wpiece w = [WNormal w]).
Proof.
  unfold wpiece, not_dot, dot. destruct (name_eqb w []) eqn:E1; [apply name_eqb_eq in E1 as ->; left; split; [intros (K & _); now apply K|reflexivity]|].
  destruct (name_eqb w [46%N]) eqn:E2; [apply name_eqb_eq in E2 as ->; left; split; [intros (_ & K); now apply K|reflexivity]|].
  assert (w <> [] /\ w <> [46%N]) by (split; intros ->; discriminate).
  destruct (name_eqb w [46%N; 46%N]) eqn:E3; [apply name_eqb_eq in E3 as ->; auto|]. right; right. split; [assumption|].
  split; [intros ->; discriminate|reflexivity].
Qed.
Lemma wsanitize_iff other sanitise ws : windows_safe sanitise -> forall buf q, closed_buf buf ->
  wsanitize other sanitise buf (flat_map wpiece ws) = Ok q <->
  exists ns, picks not_dot ws ns /\ Forall (fun n => n <> [46%N; 46%N] /\ sanitise n = n) ns /\ q = wjoin_more buf ns.
Proof.
  intro Safe. induction ws as [|w ws IH]; intros buf q C.
  - cbn. split.
    + intros [= <-]. exists []. split; [constructor|]. split; [constructor|]. now destruct buf.
    + intros (ns & H & _ & ->). inversion H. now destruct buf.
  - cbn [flat_map]. destruct (wpiece_cases w) as [(Hd & ->)|[(-> & ->)|(Hd & Hp & ->)]]; cbn [app].
    + rewrite IH by exact C. split; intros (ns & H & R); exists ns; (split; [|exact R]).
      * now apply pk_skip.
      * inversion H; subst; [contradiction|assumption].
    + cbn. split; [discriminate|]. intros (ns & H & R & _). inversion H as [|a l r Pa H'|a l r Pa H']; subst.
      * inversion R as [|x y (Hx & _) _]. congruence.
      * destruct Pa. split; discriminate.
    + cbn [wsanitize]. destruct (name_eqb (sanitise w) w) eqn:E.
      * apply name_eqb_eq in E. assert (T : tame w) by (intros c I; exact (Safe w c E I)).
        destruct (push_closed other buf w C (proj1 Hd) T) as (C' & _ & J). rewrite IH by exact C'.
        split; intros (ns & H & R & ->).
        -- exists (w :: ns). split; [now apply pk_take|]. split; [constructor; auto|]. apply J.
        -- inversion H as [|a l r Pa H'|a l r Pa H']; subst; [|contradiction]. inversion R; subst. exists r. split; [exact H'|].
           split; [assumption|]. now rewrite J.
      * split; [discriminate|]. intros (ns & H & R & _). inversion H as [|a l r Pa H'|a l r Pa H']; subst; [|contradiction].
        inversion R as [|x y (_ & Hx) _]; subst. apply name_eqb_eq in Hx. congruence.
Qed.

(** ** Names *)
Lemma relative_components other e : ~ starts_at_root e -> ~ has_drive e ->
  exists cur, wcomponents other e = cur ++ flat_map wpiece (split_seps e) /\ (cur = [] \/ cur = [WCur]).
Proof.
  intros R D. unfold wcomponents. rewrite prefix_none, root_none by assumption. cbn [skipn app]. eexists. split; [reflexivity|].
  destruct (split_seps e) as [|w ws]; [auto|]. destruct (name_eqb w [dot]); auto.
Qed.
Lemma wsanitize_rel other sanitise e : ~ starts_at_root e -> ~ has_drive e ->
  wsanitize other sanitise [] (wcomponents other e) = wsanitize other sanitise [] (flat_map wpiece (split_seps e)).
Proof. intros R D. destruct (relative_components other e R D) as (cur & -> & [->| ->]); reflexivity. Qed.
Lemma refused_prefix other sanitise fs base e : starts_at_root e \/ has_drive e -> win_resolve other sanitise fs base e = Err InvalidPath.
Proof.
  intro H. unfold win_resolve. destruct (win_absolute other e) eqn:A; [reflexivity|].
  assert (K : exists x r, wcomponents other e = x :: r /\ (x = WRoot \/ exists p, x = WPrefix p)).
  { unfold wcomponents. destruct (prefix_len other e) as [n|] eqn:P; cbn [app]; [do 2 eexists; split; [reflexivity|eauto]|].
    destruct H as [(c & r & S & ->)|D].
    - unfold has_root. rewrite P. apply sep_iff in S. cbv iota beta. rewrite S. cbn [app]. do 2 eexists. split; [reflexivity|auto].
    - exfalso. destruct D as (c & r & L & ->). cbn [prefix_len] in P.
      assert (X : is_sep 58 = false) by reflexivity. rewrite X, andb_false_r in P. assert (Y : drive (c :: 58%N :: r) = true) by (apply drive_iff; exists c, r; auto).
      now rewrite Y in P. }
  destruct K as (x & r & -> & [->|(p & ->)]); reflexivity.
Qed.
Lemma wstarts_iff p base : wstarts p base = true <-> exists rest, p = base ++ rest.
Proof.
  revert p. induction base as [|b base IH]; intros p; [split; [intros _; now exists p|now destruct p]|].
  destruct p as [|c p]; cbn [wstarts app].
  - split; [discriminate|]. intros (r & H). discriminate H.
  - assert (E : wcomponent_eqb c b = true <-> c = b).
    { destruct c, b; cbn; split; try discriminate; auto; try (intros H; now apply name_eqb_eq in H as ->); (intros [= ->]; now apply name_eqb_eq). }
    rewrite andb_true_iff, E, IH. split.
    + intros (-> & r & ->). now exists r.
    + intros (r & H). injection H as -> ->. eauto.
Qed.
Lemma wjoin_nil ns : Forall (fun n => n <> []) ns -> wjoin ns = [] -> ns = [].
Proof. intros F H. inversion F as [|n r Hn Hr]; subst; [reflexivity|]. destruct r; cbn in H; [contradiction|]. now destruct n. Qed.
Lemma wjoin_chars c ns : In c (wjoin ns) -> c = 92%N \/ exists n, In n ns /\ In c n.
Proof.
  induction ns as [|n r IH]; [intros []|]. destruct r as [|m r].
  - cbn [wjoin]. intro I. right. exists n. split; [now left|exact I].
  - change (wjoin (n :: m :: r)) with (n ++ 92%N :: wjoin (m :: r)). intro I. apply in_app_or in I as [I|[<-|I]]; [|auto|].
    + right. exists n. split; [now left|exact I].
    + destruct (IH I) as [->|(x & Ix & Hc)]; [auto|]. right. exists x. split; [now right|exact Hc].
Qed.
Lemma wjoin_rel ns : Forall (fun n => n <> []) ns -> Forall tame ns -> ~ starts_at_root (wjoin ns) /\ ~ has_drive (wjoin ns).
Proof.
  intros Fe Ft. split.
  - intros (c & r & S & E). inversion Fe as [|n l Hn Hl]; subst; [discriminate E|]. inversion Ft as [|n' l' T _]; subst.
    destruct n as [|x n]; [easy|]. assert (x = c) by (destruct l; cbn in E; congruence). subst. now destruct (T c (or_introl eq_refl)).
  - intros (c & r & _ & E). assert (I : In 58%N (wjoin ns)) by (rewrite E; right; now left).
    apply wjoin_chars in I as [I|(n & In_ & I)]; [discriminate I|]. rewrite Forall_forall in Ft. now destruct (Ft n In_ _ I).
Qed.
Lemma picks_nonempty ws ns : picks not_dot ws ns -> Forall (fun n => n <> []) ns.
Proof. induction 1 as [|a l r (P & _) H IH|]; auto. Qed.
Lemma win_resolve_ok other sanitise fs base e p : windows_safe sanitise ->
  win_resolve other sanitise fs base e = Ok p <-> (exists ns, wlexical sanitise base e p ns) /\ wcontained other fs base p.
Proof.
  intro Safe.
  assert (Dec : (starts_at_root e \/ has_drive e) \/ (~ starts_at_root e /\ ~ has_drive e)).
  { destruct (drive e) eqn:D; [left; right; now apply drive_iff|]. assert (~ has_drive e) by (rewrite <- drive_iff; congruence).
    destruct e as [|c e]; [right; split; [intros (c & r & _ & K); discriminate K|assumption]|].
    destruct (is_sep c) eqn:S; [left; left; exists c, e; split; [now apply sep_iff|reflexivity]|].
    right. split; [|assumption]. intros (c' & r & K & E). injection E as <- <-. now apply sep_not in S. }
  destruct Dec as [H|(R & D)].
  { rewrite refused_prefix by exact H. split; [discriminate|]. intros ((ns & ws & _ & N1 & N2 & _) & _). destruct H; contradiction. }
  unfold win_resolve. unfold win_absolute. rewrite prefix_none by assumption. rewrite wsanitize_rel by assumption. split.
  - intro H. apply bind_ok in H as (q & Hq & H). apply (wsanitize_iff other sanitise _ Safe) in Hq as (ns & Hp & Hc & ->); [|now left].
    cbn [wjoin_more] in H. pose proof (picks_nonempty _ _ Hp) as Ne.
    assert (Ft : Forall tame ns).
    { revert Hc. apply Forall_impl. intros n (_ & E) c I. exact (Safe n c E I). }
    destruct (wjoin_rel ns Ne Ft) as (Rj & Dj). destruct (wjoin ns) as [|c j] eqn:J; [discriminate H|]. rewrite <- J in *.
    assert (P : wpush other base (wjoin ns) = p /\ wcontained other fs base p).
    { unfold wcontained. cbv zeta in H. destruct (wfs_exists fs (wpush other base (wjoin ns))) eqn:Ex.
      - apply bind_ok in H as (cb & Hb & H). apply ok_or_iff in Hb. apply bind_ok in H as (cp & Hcp & H). apply ok_or_iff in Hcp.
        destruct (wstarts _ _) eqn:S; [|discriminate H]. injection H as <-. split; [reflexivity|]. intros _.
        apply wstarts_iff in S as (rest & S). eauto 6.
      - injection H as <-. split; [reflexivity|congruence]. }
    destruct P as (P & C). split; [|exact C]. exists ns, (split_seps e). split; [apply split_wpieces|]. split; [exact D|]. split; [exact R|].
    split; [exact Hp|]. split; [intros ->; discriminate J|]. split; [exact Hc|]. now apply (placed_iff other).
  - intros ((ns & ws & Hw & _ & _ & Hp & Nn & Hc & Pl) & C). apply wpieces_fun in Hw as ->. pose proof (picks_nonempty _ _ Hp) as Ne.
    assert (Ft : Forall tame ns).
    { revert Hc. apply Forall_impl. intros n (_ & E) c I. exact (Safe n c E I). }
    destruct (wjoin_rel ns Ne Ft) as (Rj & Dj).
    assert (E : wsanitize other sanitise [] (flat_map wpiece (split_seps e)) = Ok (wjoin ns)).
    { apply (wsanitize_iff other sanitise _ Safe); [now left|]. exists ns. auto. }
    rewrite E. cbn [rbind]. destruct (wjoin ns) as [|c j] eqn:J; [exfalso; now apply Nn, wjoin_nil|]. rewrite <- J in *.
    apply (placed_iff other) in Pl; [|assumption|assumption]. cbv zeta. rewrite Pl. unfold wcontained in C.
    destruct (wfs_exists fs p); [|reflexivity]. destruct (C eq_refl) as (cb & cp & rest & -> & -> & S). cbn [ok_or rbind].
    rewrite (proj2 (wstarts_iff _ _)) by eauto. reflexivity.
Qed.

(** ** Components *)
Definition core (cur : bool) (rest : list N) : list wcomponent :=
  (if match rest with c :: _ => is_sep c | [] => false end then [WRoot] else
   if cur then match split_seps rest with w :: _ => if name_eqb w [dot] then [WCur] else [] | [] => [] end else []) ++
  flat_map wpiece (split_seps rest).
Lemma components_core other s : ~ two_seps s ->
  wcomponents other s = if drive s then WPrefix (firstn 2 s) :: core false (skipn 2 s) else core true s.
Proof.
  intro T. unfold wcomponents, has_root.
  assert (P : prefix_len other s = if drive s then Some 2 else None).
  { destruct s as [|c [|d r]]; try reflexivity. cbn [prefix_len]. destruct (is_sep c) eqn:S1, (is_sep d) eqn:S2; try reflexivity.
    exfalso. apply T. exists c, d, r. rewrite <- !sep_iff. auto. }
  rewrite P. destruct (drive s); reflexivity.
Qed.
Lemma split_more a c b : separator c -> split_seps (a ++ c :: b) = split_seps a ++ split_seps b.
Proof.
  intro S. induction a as [|d a IH]; cbn [app split_seps].
  - destruct (seps_some b) as (w & ws & ->). now rewrite (proj2 (sep_iff c) S).
  - rewrite IH. destruct (seps_some a) as (w & ws & ->). cbn [app]. now destruct (is_sep d).
Qed.
Lemma split_join ns : ns <> [] -> Forall tame ns -> split_seps (wjoin ns) = ns.
Proof.
  intros Nn F. induction F as [|n r T F IH]; [easy|]. assert (X : split_seps n = [n]).
  { symmetry. apply wpieces_fun. constructor. intros c I. now destruct (T c I). }
  destruct r as [|m r]; [exact X|]. change (wjoin (n :: m :: r)) with (n ++ 92%N :: wjoin (m :: r)).
  rewrite split_more by (now right). rewrite X, IH by discriminate. reflexivity.
Qed.
Lemma names_components ns : Forall (fun n => not_dot n /\ n <> [46%N; 46%N]) ns -> flat_map wpiece ns = map WNormal ns.
Proof.
  induction 1 as [|n r (D & P) F IH]; [reflexivity|]. cbn [flat_map map]. rewrite IH.
  destruct (wpiece_cases n) as [(K & _)|[(K & _)|(_ & _ & ->)]]; [contradiction|contradiction|reflexivity].
Qed.
Lemma core_more cur rest ns : ns <> [] -> Forall tame ns -> Forall (fun n => not_dot n /\ n <> [46%N; 46%N]) ns ->
  core cur (rest ++ (if match rev rest with c :: _ => negb (is_sep c) | [] => false end then [92%N] else []) ++ wjoin ns) =
  core cur rest ++ map WNormal ns.
Proof.
  intros Nn T F. assert (Ne : Forall (fun n => n <> []) ns) by (revert F; apply Forall_impl; intros n ((K & _) & _); exact K).
  destruct (wjoin_rel ns Ne T) as (R & _).
  destruct (rev rest) as [|c r] eqn:E.
  - apply (f_equal (@rev _)) in E. rewrite rev_involutive in E. cbn in E. subst rest. cbn [app]. unfold core. cbn [split_seps flat_map app].
    rewrite split_join by assumption. rewrite names_components by exact F. destruct ns as [|n ns]; [easy|].
    inversion F as [|x y ((N1 & N2) & _) _]; subst. destruct (name_eqb n [dot]) eqn:K; [apply name_eqb_eq in K; contradiction|].
    assert (H : match wjoin (n :: ns) with c :: _ => is_sep c | [] => false end = false).
    { destruct (wjoin (n :: ns)) as [|c j]; [reflexivity|]. apply sep_not. intro S. apply R. now exists c, j. }
    rewrite H. now destruct cur.
  - apply (f_equal (@rev _)) in E. rewrite rev_involutive in E. cbn [rev] in E.
    assert (G : forall a d, separator d -> (a <> [] \/ rest = [d]) -> rest = a ++ [d] \/ rest = a ->
              core cur (a ++ d :: wjoin ns) = core cur rest ++ map WNormal ns).
    { intros a d S Ha Hr. unfold core. rewrite split_more by exact S. rewrite flat_map_app. rewrite split_join by assumption.
      rewrite (names_components ns F). rewrite app_assoc. f_equal.
      assert (X : flat_map wpiece (split_seps rest) = flat_map wpiece (split_seps a)).
      { destruct Hr as [->| ->]; [|reflexivity]. rewrite (split_more a d []) by exact S. rewrite flat_map_app. cbn. apply app_nil_r. }
      rewrite X. f_equal. destruct a as [|x a].
      { destruct Ha as [Ha| ->]; [easy|]. cbn [app]. apply sep_iff in S. now rewrite S. }
      cbn [app]. destruct Hr as [->| ->]; cbn [app]; destruct (is_sep x) eqn:Sx; try reflexivity.
      - change (x :: a ++ [d]) with ((x :: a) ++ [d]). rewrite (split_more (x :: a) d []) by exact S.
        destruct (seps_some (x :: a)) as (w & ws & ->). reflexivity.
      - destruct (seps_some (x :: a)) as (w & ws & ->). reflexivity. }
    destruct (is_sep c) eqn:S; cbn [negb app].
    + subst rest. rewrite <- app_assoc. cbn [app]. apply G; [now apply sep_iff| |now left].
      destruct (rev r); [right; reflexivity|left; discriminate].
    + apply (G rest 92%N); [now right| |now right]. left. rewrite E. destruct (rev r); discriminate.
Qed.
Lemma placed_components other base ns p : ~ two_seps base -> ns <> [] -> Forall tame ns ->
  Forall (fun n => not_dot n /\ n <> [46%N; 46%N]) ns -> placed base (wjoin ns) p ->
  wcomponents other p = wcomponents other base ++ map WNormal ns.
Proof.
  intros B Nn T F Pl. assert (Ne : Forall (fun n => n <> []) ns) by (revert F; apply Forall_impl; intros n ((K & _) & _); exact K).
  destruct (wjoin_rel ns Ne T) as (R & D). apply (placed_iff other) in Pl; [|assumption|assumption]. rewrite push_rel in Pl by assumption.
  assert (Tp : ~ two_seps p).
  { intros (c & d & r & S1 & S2 & ->). destruct base as [|x [|y b]].
    - cbn in Pl. apply R. rewrite Pl. now exists c, (d :: r).
    - unfold needs_sep in Pl. cbn [rev app] in Pl. assert (X : drive [x] = false) by reflexivity. rewrite X in Pl. cbn [andb negb] in Pl.
      destruct (is_sep x) eqn:Sx; cbn [negb andb app] in Pl.
      + injection Pl as -> Pl. apply R. rewrite Pl. now exists d, r.
      + injection Pl as -> _. now apply sep_not in Sx.
    - cbn [app] in Pl. injection Pl as -> -> _. apply B. now exists c, d, b. }
  rewrite !components_core by assumption.
  destruct (drive base) eqn:Dr.
  - apply drive_iff in Dr as (c & rest & L & ->). cbn [firstn skipn].
    assert (Dp : drive p = true /\ exists r, p = c :: 58%N :: r /\
       r = rest ++ (if match rev rest with c :: _ => negb (is_sep c) | [] => false end then [92%N] else []) ++ wjoin ns).
    { assert (X : needs_sep (c :: 58%N :: rest) = match rev rest with c :: _ => negb (is_sep c) | [] => false end).
      { unfold needs_sep. cbn [rev]. assert (Y : drive (c :: 58%N :: rest) = true) by (apply drive_iff; exists c, rest; auto).
        rewrite Y. destruct rest as [|x rest].
        - cbn [rev app length Nat.eqb andb negb]. apply andb_false_r.
        - destruct (rev (x :: rest)) as [|y l] eqn:E; [apply (f_equal (@length _)) in E; rewrite rev_length in E; discriminate E|].
          cbn [app length Nat.eqb andb negb]. apply andb_true_r. }
      rewrite X in Pl. cbn [app] in Pl. rewrite <- Pl. split; [apply drive_iff; eexists c, _; split; [exact L|reflexivity]|eauto]. }
    destruct Dp as (Dp & r & -> & ->). rewrite Dp. cbn [firstn skipn app]. f_equal. now apply core_more.
  - assert (X : needs_sep base = match rev base with c :: _ => negb (is_sep c) | [] => false end).
    { unfold needs_sep. rewrite Dr. cbn [andb negb]. destruct (rev base); [reflexivity|]. apply andb_true_r. }
    assert (Dp : drive p = false).
    { destruct (drive p) eqn:K; [|reflexivity]. exfalso. apply drive_iff in K as (c & r & L & ->). destruct base as [|x [|y b]].
      - cbn in Pl. apply D. rewrite Pl. now exists c, r.
      - rewrite X in Pl. cbn [rev app] in Pl. destruct (is_sep x) eqn:Sx; cbn [negb app] in Pl.
        + injection Pl as -> Pl. apply sep_iff in Sx as [->| ->]; destruct L; lia.
        + discriminate Pl.
      - cbn [app] in Pl. injection Pl as -> -> _. assert (K : drive (c :: 58%N :: b) = true) by (apply drive_iff; now exists c, b). congruence. }
    rewrite Dp, <- Pl, X. now apply core_more.
Qed.

(** ** Both platforms *)
Lemma pieces_both e ws : ~ In 92%N e -> pieces e ws <-> wpieces e ws.
Proof.
  intro B. split.
  - intros (Nn & F & ->). induction F as [|w r Hw F IH]; [easy|]. destruct r as [|x r].
    + constructor. intros c I [->| ->]; [now apply Hw|]. now apply B.
    + change (join (w :: x :: r)) with (w ++ 47%N :: join (x :: r)) in *. constructor.
      * intros c I [->| ->]; [now apply Hw|]. apply B, in_or_app. now left.
      * now left.
      * apply IH; [intro I; apply B, in_or_app; right; now right|discriminate].
  - induction 1 as [w F|w c r ws F S P IH].
    + split; [discriminate|]. split; [|reflexivity]. constructor; [|constructor]. intro I. apply (F _ I). now left.
    + destruct IH as (Nn & G & E); [intro I; apply B, in_or_app; right; now right|]. split; [discriminate|].
      split; [constructor; [intro I; apply (F _ I); now left|exact G]|].
      destruct S as [->| ->]; [|destruct B; apply in_or_app; right; now left]. destruct ws; [easy|]. now rewrite E.
Qed.
Lemma placed_some base rel : exists p, placed base rel p.
Proof.
  pose proof (needs_iff base) as N. destruct (needs_sep base).
  - exists (base ++ 92%N :: rel). right. split; [rewrite <- N; discriminate|reflexivity].
  - exists (base ++ rel). left. split; [now apply N|reflexivity].
Qed.
Lemma both_platforms sanitise base e ns : ~ In 92%N e -> ~ In 58%N e ->
  (exists p, wlexical sanitise base e p ns) <->
  exists ws, pieces e ws /\ hd_error e <> Some 47%N /\ picks not_dot ws ns /\ ns <> [] /\
    Forall (fun n => n <> [46%N; 46%N] /\ sanitise n = n) ns.
Proof.
  intros B C. split.
  - intros (p & ws & W & _ & R & H1 & H2 & H3 & _). exists ws. split; [now apply pieces_both|]. split; [|auto].
    intro K. apply R. destruct e as [|c e]; [discriminate K|]. injection K as ->. exists 47%N, e. split; [now left|reflexivity].
  - intros (ws & W & H0 & H1 & H2 & H3). destruct (placed_some base (wjoin ns)) as (p & P). exists p, ws.
    split; [now apply pieces_both|]. split; [intros (c & r & _ & ->); apply C; right; now left|].
    split; [intros (c & r & [->| ->] & ->); [now apply H0|apply B; now left]|]. auto.
Qed.
Lemma join_in c ws : In c (join ws) -> c = 47%N \/ exists w, In w ws /\ In c w.
Proof.
  induction ws as [|n r IH]; [intros []|]. destruct r as [|m r].
  - cbn [join]. intro I. right. exists n. split; [now left|exact I].
  - change (join (n :: m :: r)) with (n ++ 47%N :: join (m :: r)). intro I. apply in_app_or in I as [I|[<-|I]]; [|auto|].
    + right. exists n. split; [now left|exact I].
    + destruct (IH I) as [->|(x & Ix & Hc)]; [auto|]. right. exists x. split; [now right|exact Hc].
Qed.
Lemma unix_refuses sanitise fs base e p : windows_safe sanitise -> In 92%N e \/ In 58%N e -> ~ resolves sanitise fs base e p.
Proof.
  intros Safe H (ws & ns & (Nn & Fs & ->) & _ & Hp & _ & Hc & _).
  assert (K : exists w c, In w ws /\ In c w /\ (c = 92%N \/ c = 58%N)).
  { destruct H as [H|H]; apply join_in in H as [H|(w & I & J)]; try discriminate H; exists w; eexists; eauto. }
  destruct K as (w & c & I & J & Hcc). assert (D : not_dot w).
  { split; intros ->; [destruct J|]. destruct J as [<-|[]]. destruct Hcc; discriminate. }
  assert (In_ : In w ns) by (apply (picks_in _ _ _ w Hp); auto). rewrite Forall_forall in Hc. destruct (Hc w In_) as (_ & E).
  destruct (Safe w c E J) as (S1 & S2). destruct Hcc as [->| ->]; [apply S1; now right|now apply S2].
Qed.

(** ** Any sanitiser *)
Lemma wsanitize_answers other sanitise cs : forall buf, (exists q, wsanitize other sanitise buf cs = Ok q) \/ wsanitize other sanitise buf cs = Err InvalidPath.
Proof.
  induction cs as [|c cs IH]; intro buf; cbn [wsanitize]; [eauto|]. destruct c; auto. destruct (name_eqb _ _); auto.
Qed.
Lemma win_answers other sanitise fs base e : (exists p, win_resolve other sanitise fs base e = Ok p) \/ win_resolve other sanitise fs base e = Err InvalidPath.
Proof.
  unfold win_resolve. destruct (win_absolute other e); [auto|].
  destruct (wsanitize_answers other sanitise (wcomponents other e) []) as [(q & ->)| ->]; [|auto]. cbn [rbind]. destruct q as [|c q]; [auto|].
  cbv zeta. destruct (wfs_exists _ _); [|eauto]. destruct (wfs_canonicalize fs base); [|auto]. cbn [ok_or rbind].
  destruct (wfs_canonicalize fs _); [|auto]. cbn [ok_or rbind]. destruct (wstarts _ _); eauto.
Qed.
Lemma win_contained other sanitise fs base e p : win_resolve other sanitise fs base e = Ok p -> wcontained other fs base p.
Proof.
  unfold win_resolve. destruct (win_absolute other e); [discriminate|].
  intro H. apply bind_ok in H as (q & _ & H). destruct q as [|c q]; [discriminate H|].
  cbv zeta in H. unfold wcontained. set (cand := wpush other base (c :: q)) in *. destruct (wfs_exists fs cand) eqn:Ex.
  - apply bind_ok in H as (cb & Hb & H). apply ok_or_iff in Hb. apply bind_ok in H as (cp & Hcp & H). apply ok_or_iff in Hcp.
    destruct (wstarts _ _) eqn:S; [|discriminate H]. injection H as <-. intros _. apply wstarts_iff in S as (rest & S). eauto 6.
  - injection H as <-. congruence.
Qed.
Lemma refused_parent other sanitise fs base e ws : wpieces e ws -> In [46%N; 46%N] ws -> win_resolve other sanitise fs base e = Err InvalidPath.
Proof.
  intros W I. destruct (win_answers other sanitise fs base e) as [(p & H)|H]; [|exact H]. exfalso.
  unfold win_resolve in H. destruct (win_absolute other e); [discriminate H|]. apply bind_ok in H as (q & Hq & _).
  apply wpieces_fun in W as ->.
  assert (K : forall cs buf q, In WParent cs -> wsanitize other sanitise buf cs = Ok q -> False).
  { clear. induction cs as [|c cs IH]; intros buf q I H; [destruct I|]. cbn [wsanitize] in H.
    destruct I as [->|I]; [discriminate H|]. destruct c; try discriminate H; [eauto|]. destruct (name_eqb _ _); [eauto|discriminate H]. }
  destruct (prefix_len other e) as [n|] eqn:P.
  - unfold wcomponents in Hq. rewrite P in Hq. discriminate Hq.
  - apply (K _ _ _ ) in Hq; [exact Hq|]. unfold wcomponents. rewrite P. cbn [skipn app]. apply in_or_app. right.
    apply in_flat_map. exists [46%N; 46%N]. split; [exact I|now left].
Qed.
Lemma win_components other sanitise fs base e p : windows_safe sanitise -> ~ two_seps base ->
  win_resolve other sanitise fs base e = Ok p ->
  exists ns, ns <> [] /\ Forall (fun n => not_dot n /\ n <> [46%N; 46%N]) ns /\ wcomponents other p = wcomponents other base ++ map WNormal ns.
Proof.
  intros Safe B H. apply (win_resolve_ok other sanitise fs base e p Safe) in H as ((ns & ws & _ & _ & _ & Hp & Nn & Hc & Pl) & _).
  exists ns. assert (F : Forall (fun n => not_dot n /\ n <> [46%N; 46%N]) ns).
  { rewrite Forall_forall in *. intros n I. split; [apply (picks_in _ _ _ n Hp) in I as (_ & K); exact K|now apply Hc]. }
  split; [exact Nn|]. split; [exact F|]. apply (placed_components other base ns p B Nn); [|exact F|exact Pl].
  revert Hc. apply Forall_impl. intros n (_ & E) c I. exact (Safe n c E I).
Qed.
