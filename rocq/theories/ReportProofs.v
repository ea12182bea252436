(** What an error says is so, and it says it about the first file that cannot be read. *)
From Coq Require Import Lia ZifyBool ZifyNat ZifyN.
From Verif Require Import Base Codec Package PropSet PropIds Store Shapes Props Nodes Doc SpecCodec SpecStore SpecValues SpecNodes
  BaseProofs NodesProofs NodesProofs2 NodesProofs3 SpecDoc DocProofs DocProofs2 DocProofs3 DocProofs4 DocProofs5 DocProofs6
  SpecNotebook Notebook NotebookProofs NotebookProofs2 NotebookProofs3 SpecKinds KindsProofs SpecCause CauseProofs CauseProofs2 CauseProofs3 SpecBlame OnceProofs BlameProofs
  Report SpecReport.
Local Open Scope nat_scope.

(** ** The same results *)
Lemma words_bind {A B} (m : rep A) (f : A -> rep B) :
  without_words (pbind m f) = rbind (without_words m) (fun a => without_words (f a)).
Proof. now destruct m. Qed.
Lemma words_or {A} r (o : option A) : without_words (or_say r o) = ok_or (kind_of r) o.
Proof. now destruct o. Qed.
Lemma words_below {A} (m : res A) : without_words (below_ m) = m.
Proof. now destruct m. Qed.
Lemma words_map {A B} (f : A -> rep B) (g : A -> res B) l : (forall a, without_words (f a) = g a) ->
  without_words (pmap f l) = map_res g l.
Proof.
  intro H. induction l as [|a l IH]; [reflexivity|]. cbn [pmap map_res]. rewrite words_bind, H.
  destruct (g a); cbn [rbind]; try reflexivity. rewrite words_bind, IH. destruct (map_res g l); reflexivity.
Qed.
Lemma rbind_ext {A B} (m : res A) (f g : A -> res B) : (forall a, f a = g a) -> rbind m f = rbind m g.
Proof. intro H. destruct m; cbn; auto. Qed.
Lemma words_components sanitise cs : without_words (say_components sanitise cs) = sanitize_components sanitise cs.
Proof.
  induction cs as [|c cs IH]; [reflexivity|]. destruct c; cbn [say_components sanitize_components]; try reflexivity; [exact IH|].
  destruct (name_eqb _ _); [|reflexivity]. rewrite words_bind, IH. now destruct (sanitize_components sanitise cs).
Qed.
Lemma words_resolve sanitise fs base n :
  without_words (say_resolve sanitise fs base n) = resolve_entry_path sanitise fs base n.
Proof.
  unfold say_resolve, resolve_entry_path. destruct (is_absolute n); [reflexivity|].
  rewrite words_bind, words_components. apply rbind_ext. intro q. destruct q as [|c q]; [reflexivity|]. cbv zeta.
  destruct (fs_exists _ _); [|reflexivity]. rewrite words_bind, words_or. apply rbind_ext. intro b.
  rewrite words_bind, words_or. apply rbind_ext. intro x. now destruct (starts_with _ _).
Qed.
Lemma words_section h fuel fs p : without_words (say_section h fuel fs p) = parse_section_file h fuel fs p.
Proof.
  unfold say_section, parse_section_file. rewrite words_bind, words_or. apply rbind_ext. intro bs.
  rewrite words_bind, words_below. apply rbind_ext. intro st. destruct (N.eqb _ _); [|reflexivity].
  rewrite words_bind, words_or. apply rbind_ext. intro n. apply words_below.
Qed.
Lemma words_buffer h fuel bs n : without_words (say_section_buffer h fuel bs n) = parse_section_buffer h fuel bs n.
Proof.
  unfold say_section_buffer, parse_section_buffer. rewrite words_bind, words_below. apply rbind_ext. intro st.
  destruct (N.eqb _ _); [|reflexivity]. apply words_below.
Qed.
Lemma words_toc dir l : without_words (say_toc dir l) = find_toc l.
Proof.
  induction l as [|[n|] l IH]; cbn [say_toc find_toc]; try reflexivity. destruct (extension n); [|exact IH].
  now destruct (name_eqb _ _).
Qed.
Definition say_entry (sanitise : name -> name) (h : order) (d fuel : nat) (fs : filesystem) (p : path) : rep section_entry :=
  if fs_is_file fs p then
    say! s := say_section h fuel fs p in Got (EnSection s)
  else
    say! display_name := or_say (SaysInvalid NoFileName) (file_name p) in
    say! files := or_say (SaysOther IO) (fs_read_dir fs p) in
    say! toc := say_toc p files in
    say! group := say_notebook sanitise h d fuel fs (p ++ [Normal toc]) in
    Got (EnGroup display_name (nb_entries group)).
Lemma say_step sanitise h d fuel fs p :
  say_notebook sanitise h (S d) fuel fs p =
    say! data := or_say (SaysOther IO) (fs_read fs p) in
    say! st := below_ (open_store h fuel data) in
    if N.eqb (st_schema st) toc_schema then
      say! base_dir := or_say (SaysInvalid NoParent) (parent p) in
      say! (names, color) := below_ (parse_toc fuel (st_data_root st)) in
      say! paths := pmap (say_resolve sanitise fs base_dir) names in
      say! entries := pmap (say_entry sanitise h d fuel fs) (shown_paths fs paths) in
      Got (Notebook_ entries color)
    else Said (SaysNotAToc p).
Proof. reflexivity. Qed.
Lemma words_notebook sanitise h fuel fs d : forall p,
  without_words (say_notebook sanitise h d fuel fs p) = parse_notebook sanitise h d fuel fs p.
Proof.
  induction d as [|d IH]; intro p; [reflexivity|]. rewrite say_step, notebook_step.
  rewrite words_bind, words_or. apply rbind_ext. intro bs.
  rewrite words_bind, words_below. apply rbind_ext. intro st. destruct (N.eqb _ _); [|reflexivity].
  rewrite words_bind, words_or. apply rbind_ext. intro base.
  rewrite words_bind, words_below. apply rbind_ext. intros (names & c).
  rewrite words_bind, (words_map _ (resolve_entry_path sanitise fs base)) by apply words_resolve. apply rbind_ext. intro ps.
  rewrite words_bind, (words_map _ (load_entry sanitise h d fuel fs)).
  - apply rbind_ext. reflexivity.
  - intro r. unfold say_entry, load_entry. destruct (fs_is_file fs r).
    + rewrite words_bind, words_section. apply rbind_ext. reflexivity.
    + rewrite words_bind, words_or. apply rbind_ext. intro n. rewrite words_bind, words_or. apply rbind_ext. intro files.
      rewrite words_bind, words_toc. apply rbind_ext. intro toc. rewrite words_bind, IH. apply rbind_ext. reflexivity.
Qed.
Lemma got_ok {A} (m : rep A) a : m = Got a -> without_words m = Ok a.
Proof. now intros ->. Qed.

(** ** What is said *)
Lemma said_bind {A B} (m : rep A) (f : A -> rep B) r : pbind m f = Said r -> m = Said r \/ exists a, m = Got a /\ f a = Said r.
Proof. destruct m; cbn [pbind]; intro H; try discriminate H; eauto. left. congruence. Qed.
Lemma said_or {A} k (x : option A) r : or_say k x = Said r -> x = None /\ r = k.
Proof. destruct x; cbn; intro H; [discriminate H|]. injection H as <-. auto. Qed.
Lemma got_or {A} k (x : option A) a : or_say k x = Got a -> x = Some a.
Proof. destruct x; cbn; congruence. Qed.
Lemma said_below {A} (m : res A) r : below_ m = Said r -> exists e, m = Err e /\ r = SaysOther e.
Proof. destruct m; cbn; intro H; try discriminate H. injection H as <-. eauto. Qed.
Lemma got_below {A} (m : res A) a : below_ m = Got a -> m = Ok a.
Proof. destruct m; cbn; congruence. Qed.
Lemma said_map {A B} (f : A -> rep B) l r : pmap f l = Said r ->
  exists before a after, l = before ++ a :: after /\ f a = Said r /\ exists bs, Forall2 (fun a b => f a = Got b) before bs.
Proof.
  induction l as [|a l IH]; cbn [pmap]; [discriminate|]. intro H. apply said_bind in H as [H|(b & Hb & H)].
  - exists [], a, l. repeat split; auto. exists []. constructor.
  - apply said_bind in H as [H|(bs & _ & H)]; [|discriminate H]. destruct (IH H) as (u & x & v & -> & Hx & bs & F).
    exists (a :: u), x, v. repeat split; auto. exists (b :: bs). now constructor.
Qed.

Section Report.
  Variables (sanitise : name -> name) (h : order) (fs : filesystem).

  Lemma section_said f p r : say_section h f fs p = Said r -> section_says h fs p r.
  Proof.
    intro H. unfold say_section in H. apply said_bind in H as [H|(bs & R & H)].
    { apply said_or in H as (R & ->). now constructor. }
    apply got_or in R. apply said_bind in H as [H|(st & O & H)].
    { apply said_below in H as (e & H & ->). apply sy_container. exact (open_err h fs f bs e p R H). }
    apply got_below in O. pose proof (open_holds h fs f bs st p R O) as Hs.
    destruct (N.eqb_spec (st_schema st) section_schema) as [Q|Q].
    - apply said_bind in H as [H|(n & Hn & H)].
      + apply said_or in H as (Hn & ->). apply (sy_no_name h fs p st Hs). intros base n E.
        assert (file_name p = Some n) by (apply file_name_iff; eauto). congruence.
      + apply got_or, file_name_iff in Hn as (base & Hn). apply said_below in H as (e & H & ->).
        exact (sy_content h fs p st base n e Hs Q Hn (section_blame st f n e H)).
    - injection H as <-. now apply (sy_other_kind h fs p st).
  Qed.
  Lemma buffer_said f data file r : say_section_buffer h f data file = Said r -> buffer_says h data file r.
  Proof.
    intro H. unfold say_section_buffer in H. apply said_bind in H as [H|(st & O & H)].
    { apply said_below in H as (e & H & ->). pose (fs' := {| fs_exists := fun _ => true; fs_is_file := fun _ => true; fs_canonicalize := Some;
        fs_read := fun _ => Some data; fs_read_dir := fun _ => None |}).
      destruct (open_err h fs' f data e [] eq_refl H) as (bs & Eb & K & I). injection Eb as <-. now apply by_container. }
    apply got_below in O. assert (Hs : opens h data st) by (now exists f).
    destruct (N.eqb_spec (st_schema st) section_schema) as [Q|Q].
    - apply said_below in H as (e & H & ->). exact (by_content h data file st e Hs Q (section_blame st f file e H)).
    - injection H as <-. now apply (by_other_kind h data file st).
  Qed.
  Lemma toc_said dir files r : say_toc dir files = Said r ->
    (exists before after, files = map Some before ++ None :: after /\ Forall (fun m => ~ toc_name m) before /\ r = SaysOther IO) \/
    (exists l, files = map Some l /\ Forall (fun m => ~ toc_name m) l /\ r = SaysTocMissing dir).
  Proof.
    intro H. assert (F : find_toc files = Err (kind_of r)) by (rewrite <- (words_toc dir), H; reflexivity).
    destruct (find_err _ _ F) as [(b & a & -> & Fb & K)|(l & -> & Fl & K)].
    - left. exists b, a. refine (conj eq_refl (conj Fb _)). clear -H Fb.
      induction Fb as [|m b Hm Fb IH]; cbn [map app say_toc] in H; [congruence|].
      destruct (toc_name_dec m) as [T|T]; [contradiction|]. pose proof (find_miss m [] T) as K. cbn [find_toc] in K.
      destruct (extension m) as [x|]; [|auto]. destruct (name_eqb x onetoc2); [discriminate K | auto].
    - right. exists l. refine (conj eq_refl (conj Fl _)). clear -H Fl.
      induction Fl as [|m b Hm Fb IH]; cbn [map app say_toc] in H; [congruence|].
      destruct (toc_name_dec m) as [T|T]; [contradiction|]. pose proof (find_miss m [] T) as K. cbn [find_toc] in K.
      destruct (extension m) as [x|]; [|auto]. destruct (name_eqb x onetoc2); [discriminate K | auto].
  Qed.

  Lemma say_relative e : is_absolute e = false ->
    say_components sanitise (components e) = say_components sanitise (flat_map piece (split_slash e)).
  Proof.
    intros H. unfold components. destruct (split_pieces e) as (N & _ & _). destruct e as [|c e]; [reflexivity|].
    unfold is_absolute in H. destruct (split_slash (c :: e)) as [|w ws]; [easy|]. rewrite H.
    destruct (name_eqb w [dot]) eqn:E; [|reflexivity]. apply name_eqb_eq in E as ->. reflexivity.
  Qed.
  Lemma components_said ws r : say_components sanitise (flat_map piece ws) = Said r ->
    (In [46%N; 46%N] ws /\ r = SaysInvalid BadComponent) \/
    exists w, In w ws /\ not_dot w /\ w <> [46%N; 46%N] /\ sanitise w <> w /\ r = SaysInvalid (BadCharacters w).
  Proof.
    induction ws as [|w ws IH]; cbn [flat_map]; [discriminate|].
    destruct (piece_cases w) as [(_ & E)|[(Ew & E)|(Nd & N2 & E)]]; rewrite E; cbn [app say_components].
    - intro H. destruct (IH H) as [(I & ->)|(x & I & K)]; [left; split; [now right | reflexivity] | right; exists x; split; [now right | exact K]].
    - intro H. injection H as <-. left. split; [left; exact Ew | reflexivity].
    - destruct (name_eqb (sanitise w) w) eqn:Q.
      + intro H. apply said_bind in H as [H|(q & _ & H)]; [|discriminate H].
        destruct (IH H) as [(I & ->)|(x & I & K)]; [left; split; [now right | reflexivity] | right; exists x; split; [now right | exact K]].
      + intro H. injection H as <-. right. exists w. apply name_eqb_neq in Q. exact (conj (or_introl eq_refl) (conj Nd (conj N2 (conj Q eq_refl)))).
  Qed.
  Lemma resolve_said base e r : say_resolve sanitise fs base e = Said r -> exists m, r = SaysInvalid m /\ bad_name sanitise fs base e m.
  Proof.
    unfold say_resolve. destruct (is_absolute e) eqn:Ab.
    { intro H. injection H as <-. eexists. split; [reflexivity|]. constructor. now apply absolute_iff. }
    rewrite say_relative by exact Ab. pose proof (split_pieces e) as P. intro H. apply said_bind in H as [H|(q & Hq & H)].
    { apply components_said in H as [(I & ->)|(w & I & Nd & N2 & S & ->)]; eexists; (split; [reflexivity|]).
      - constructor. now exists (split_slash e).
      - constructor; auto. now exists (split_slash e). }
    assert (K : sanitize_components sanitise (flat_map piece (split_slash e)) = Ok q) by (rewrite <- words_components, Hq; reflexivity).
    apply sanitize_iff in K as (ns & Hp & _ & ->). destruct ns as [|n ns].
    { cbn [map] in H. injection H as <-. eexists. split; [reflexivity|]. constructor. intros w (ws & Pw & I) Nd.
      apply pieces_split in Pw as <-. pose proof (proj2 (picks_in _ _ _ w Hp) (conj I Nd)) as []. }
    cbn [map] in H. change (Normal n :: map Normal ns) with (map Normal (n :: ns)) in H.
    assert (S : stands_for base e (base ++ map Normal (n :: ns))) by (exists (split_slash e), (n :: ns); auto).
    cbv zeta in H. set (c := base ++ map Normal (n :: ns)) in *.
    destruct (fs_exists fs c) eqn:Ex; [|discriminate H].
    apply said_bind in H as [H|(cb & Hb & H)].
    { apply said_or in H as (Hb & ->). eexists. split; [reflexivity|]. now apply (bn_base sanitise fs base e c). }
    apply got_or in Hb. apply said_bind in H as [H|(cp & Hc & H)].
    { apply said_or in H as (Hc & ->). eexists. split; [reflexivity|]. now apply (bn_entry sanitise fs base e c). }
    apply got_or in Hc. destruct (starts_with cp cb) eqn:Es; [discriminate H|]. injection H as <-.
    eexists. split; [reflexivity|]. apply (bn_outside sanitise fs base e c cb cp); auto. intro B. apply starts_iff in B. congruence.
  Qed.

  Lemma entry_sound d f p e : load_entry sanitise h d f fs p = Ok e -> entry_at sanitise h fs p e.
  Proof.
    intro Hq. unfold load_entry in Hq. destruct (fs_is_file fs p) eqn:F.
    - apply bind_ok in Hq as (s & Hs & Hq). injection Hq as <-. apply ea_section; [exact F|].
      now apply section_file_settles in Hs.
    - apply bind_ok in Hq as (n & Hn & Hq). apply ok_or_iff, file_name_iff in Hn as (b & Hn).
      apply bind_ok in Hq as (files & Hf & Hq). apply ok_or_iff in Hf. apply bind_ok in Hq as (toc & Ht & Hq). apply find_iff in Ht.
      apply bind_ok in Hq as (g & Hg & Hq). injection Hq as <-. apply notebook_sound in Hg.
      exact (ea_group sanitise h fs p b n files toc _ _ F Hn Hf Ht Hg).
  Qed.

  Lemma words_entry d f p : without_words (say_entry sanitise h d f fs p) = load_entry sanitise h d f fs p.
  Proof.
    unfold say_entry, load_entry. destruct (fs_is_file fs p).
    - rewrite words_bind, words_section. apply rbind_ext. reflexivity.
    - rewrite words_bind, words_or. apply rbind_ext. intro n. rewrite words_bind, words_or. apply rbind_ext. intro files.
      rewrite words_bind, words_toc. apply rbind_ext. intro toc. rewrite words_bind, words_notebook. apply rbind_ext. reflexivity.
  Qed.

  Lemma notebook_said f d : forall p r, say_notebook sanitise h d f fs p = Said r ->
    exists q, first_reached sanitise h fs p q /\ says sanitise h fs q r.
  Proof.
    induction d as [|d IH]; intros p w H; [discriminate H|]. rewrite say_step in H.
    apply said_bind in H as [H|(bs & R & H)].
    { apply said_or in H as (R & ->). exists p. split; [constructor | now constructor]. }
    apply got_or in R. apply said_bind in H as [H|(st & O & H)].
    { apply said_below in H as (e & H & ->). exists p. split; [constructor | apply sa_container; exact (open_err h fs f bs e p R H)]. }
    apply got_below in O. pose proof (open_holds h fs f bs st p R O) as Hs.
    destruct (N.eqb_spec (st_schema st) toc_schema) as [Q|Q].
    2:{ injection H as <-. exists p. split; [constructor|]. now apply (sa_kind sanitise h fs p st). }
    apply said_bind in H as [H|(base & Hp & H)].
    { apply said_or in H as (Hp & ->). exists p. split; [constructor|]. apply (sa_place sanitise h fs p st Hs).
      intros base last E. destruct last; try reflexivity; exfalso;
        (assert (P : parent p = Some base) by (apply parent_iff; eexists; split; [exact E | discriminate]); congruence). }
    apply got_or, parent_iff in Hp as (last & Hp & Hl).
    apply said_bind in H as [H|((names & c) & Ht & H)].
    { apply said_below in H as (e & H & ->). exists p. split; [constructor|]. exact (sa_content sanitise h fs p st e Hs Q (toc_blame _ f e H)). }
    apply got_below, toc_settles in Ht.
    assert (T : toc_at h fs p base names).
    { exists st, last, c. auto. }
    apply said_bind in H as [H|(ps & Hps & H)].
    { apply said_map in H as (before & n & after & -> & H & qs & F). apply resolve_said in H as (m & -> & B).
      exists p. split; [constructor|]. apply (sa_name sanitise h fs p base before n after qs m T); [|exact B].
      clear -F. induction F as [|a b l l' E F IH]; constructor; auto. apply resolve_ok. rewrite <- words_resolve, E. reflexivity. }
    apply got_ok in Hps. rewrite (words_map _ (resolve_entry_path sanitise fs base)) in Hps by (intro; apply words_resolve).
    apply (map_ok _ (resolves sanitise fs base)) in Hps; [|intros; apply resolve_ok].
    apply said_bind in H as [H|(es & _ & H)]; [|discriminate H].
    apply said_map in H as (before & r & after & Sh & H & qs & Fb).
    apply shown_iff in Sh.
    assert (L : comes_first sanitise h fs p r).
    { exists base, names, ps, (before ++ r :: after), before, after.
      refine (conj T (conj Hps (conj Sh (conj eq_refl _)))).
      clear -Fb. induction Fb as [|a b l l' E F IHF]; constructor; auto. exists b. apply (entry_sound d f).
      rewrite <- words_entry, E. reflexivity. }
    assert (Nm : exists n, file_name r = Some n).
    { assert (I : In r ps) by (apply (picks_in _ _ _ r Sh), in_or_app; right; now left).
      clear -Hps I. induction Hps as [|n q ns qs Hq F IHF]; [destruct I|]. destruct I as [->|I]; [|auto].
      destruct Hq as (ws & ms & _ & _ & _ & Ne & _ & -> & _). destruct (exists_last Ne) as (ms' & z & ->).
      exists z. apply file_name_iff. exists (base ++ map Normal ms'). unfold ends_in. now rewrite map_app, app_assoc. }
    unfold say_entry in H. destruct (fs_is_file fs r) eqn:F.
    { apply said_bind in H as [H|(s & _ & H)]; [|discriminate H]. exists p. split; [constructor|].
      apply (sa_section sanitise h fs p r w L F). exact (section_said f r w H). }
    destruct Nm as (n & Nm). rewrite Nm in H. cbn [or_say pbind] in H.
    apply said_bind in H as [H|(files & Hf & H)].
    { apply said_or in H as (Hf & ->). exists p. split; [constructor|]. now apply (sa_directory sanitise h fs p r). }
    apply got_or in Hf. apply said_bind in H as [H|(toc & Htoc & H)].
    { exists p. split; [constructor|]. destruct (toc_said r files w H) as [(b & a & -> & F' & ->)|(l & -> & Fl & ->)].
      - now apply (sa_listing sanitise h fs p r b a).
      - now apply (sa_no_toc sanitise h fs p r l). }
    apply got_ok in Htoc. rewrite words_toc in Htoc. apply find_iff in Htoc.
    apply said_bind in H as [H|(g & _ & H)]; [|discriminate H].
    destruct (IH _ _ H) as (q & Hq & Hw). exists q. split; [|exact Hw].
    clear -L F Hf Htoc Hq. induction Hq as [|q r' files' toc' Hq IHq].
    - apply (fr_group sanitise h fs p p r files toc); auto. constructor.
    - now apply (fr_group sanitise h fs p q r' files' toc').
  Qed.

  (** The first that cannot be read is one of those the notebook lists. *)
  Lemma first_lists q r : comes_first sanitise h fs q r -> lists sanitise h fs q r.
  Proof.
    intros (base & names & ps & shown & before & after & T & Fr & P & -> & _).
    assert (I : In r (before ++ r :: after)) by (apply in_or_app; right; now left).
    apply (picks_in _ _ _ r P) in I as (I & X & Y).
    assert (exists n, In n names /\ resolves sanitise fs base n r) as (n & In' & Rn).
    { clear -Fr I. induction Fr as [|n q ns qs Hq F IHF]; [destruct I|]. destruct I as [->|I].
      - exists n. split; [left; reflexivity | exact Hq].
      - destruct (IHF I) as (m & Im & Hm). exists m. split; [right; exact Im | exact Hm]. }
    exists base, names, n. auto.
  Qed.
  Lemma first_reaches p q : first_reached sanitise h fs p q -> reaches sanitise h fs p q.
  Proof.
    induction 1 as [|q r files toc H IH L F D T]; [constructor|].
    exact (re_group sanitise h fs p q r files toc IH (first_lists _ _ L) F D T).
  Qed.

  Lemma named_last q r : comes_first sanitise h fs q r -> exists n, file_name r = Some n.
  Proof.
    intro L. apply first_lists in L as (b & ns & m & _ & _ & Rm & _). destruct Rm as (ws & ms & _ & _ & _ & Ne & _ & -> & _).
    destruct (exists_last Ne) as (ms' & z & ->). exists z. apply file_name_iff. exists (b ++ map Normal ms').
    unfold ends_in. now rewrite map_app, app_assoc.
  Qed.
  (** ** The first that cannot be read is what is said *)
  Definition comes_to {A} (F : nat -> nat -> rep A) (r : report) : Prop := exists k, forall d f, k <= d -> k <= f -> F d f = Said r.
  Lemma says_got {A} (m : rep A) a : without_words m = Ok a -> m = Got a.
  Proof. destruct m; cbn; congruence. Qed.
  Lemma refines_ok {A} (x y : res A) a : refines x y -> x = Ok a -> y = Ok a.
  Proof. intros R E. rewrite R; [exact E | congruence]. Qed.
  Lemma entry_complete q e : entry_at sanitise h fs q e ->
    exists k, forall d f, k <= d -> k <= f -> say_entry sanitise h d f fs q = Got e.
  Proof.
    intro H. destruct H as [p s F Hs|p base n files toc es c F Hn Hf Ht Hnb].
    - apply section_file_settles in Hs as (k & Hk). exists k. intros d f _ L. apply says_got. rewrite words_entry. unfold load_entry.
      rewrite F, Hk by lia. reflexivity.
    - apply notebook_complete in Hnb as (k & Hk). exists k. intros d f Ld Lf. apply says_got. rewrite words_entry. unfold load_entry.
      rewrite F. assert (E : file_name p = Some n) by (apply file_name_iff; eauto). rewrite E, Hf. cbn [rbind ok_or].
      apply find_iff in Ht. rewrite Ht. cbn [rbind].
      rewrite (refines_ok _ _ _ (notebook_fuel sanitise h k f fs Lf k d _ Ld) (Hk k (le_n k))). reflexivity.
  Qed.
  Lemma first_entry q r w : comes_first sanitise h fs q r -> comes_to (fun d f => say_entry sanitise h d f fs r) w ->
    comes_to (fun d f => say_notebook sanitise h d f fs q) w.
  Proof.
    intros (base & names & ps & shown & before & after & (st & last & c & (bs & R & O) & Q & E & Nr & T) & Fr & P & -> & Fb) (k0 & K0).
    apply opens_settles in O as (k1 & O). apply toc_settles in T as (k2 & T).
    assert (B : exists k, forall d f, k <= d -> k <= f -> pmap (say_entry sanitise h d f fs) (before ++ r :: after) = Said w).
    { clear -Fb K0. induction Fb as [|x l (e & He) Fb (k & IH)].
      - exists k0. intros d f Ld Lf. cbn [app pmap]. now rewrite K0 by lia.
      - apply entry_complete in He as (k' & He). exists (k + k'). intros d f Ld Lf. cbn [app pmap]. rewrite He by lia. cbn [pbind].
        now rewrite IH by lia. }
    destruct B as (k3 & B). exists (S (k1 + k2 + k3)). intros [|d] f Ld Lf; [lia|]. rewrite say_step. rewrite R. cbn [or_say pbind].
    rewrite O by lia. cbn [below_ pbind]. change (st_schema st = toc_schema) in Q. apply N.eqb_eq in Q. rewrite Q.
    assert (Ep : parent q = Some base) by (apply parent_iff; eauto). rewrite Ep. cbn [or_say pbind].
    rewrite T by lia. cbn [below_ pbind].
    apply (map_ok (resolve_entry_path sanitise fs base)) in Fr; [|intros; apply resolve_ok].
    rewrite (says_got (pmap (say_resolve sanitise fs base) names) ps).
    2:{ rewrite (words_map _ (resolve_entry_path sanitise fs base)) by (intro; apply words_resolve). exact Fr. }
    cbn [pbind]. apply shown_iff in P as ->. now rewrite B by lia.
  Qed.
  Lemma says_comes q w : says sanitise h fs q w -> names_one w -> comes_to (fun d f => say_notebook sanitise h d f fs q) w.
  Proof.
    intros W Nm. destruct W as [R|e R|st Hs Q|st Hs E|st e Hs Q T|base before n after ps m T F B|r w L F S|r L F D|r b a L F D Fb|r files L F D Ff];
      try destruct Nm.
    - destruct Hs as (bs & R & O). apply opens_settles in O as (k & O). exists (S k). intros [|d] f Ld Lf; [lia|].
      rewrite say_step, R. cbn [or_say pbind]. rewrite O by lia. cbn [below_ pbind].
      destruct (N.eqb_spec (st_schema st) toc_schema) as [K|K]; [contradiction (Q K) | reflexivity].
    - apply (first_entry q r w L). destruct S as [R|e R|st Hs Q|st Hs E|st base n e Hs Q E X]; try destruct Nm.
      destruct Hs as (bs & R & O). apply opens_settles in O as (k & O). exists k. intros d f _ Lf. unfold say_entry. rewrite F.
      unfold say_section. rewrite R. cbn [or_say pbind]. rewrite O by lia. cbn [below_ pbind].
      destruct (N.eqb_spec (st_schema st) section_schema) as [K|K]; [contradiction (Q K) | reflexivity].
    - apply (first_entry q r _ L). exists 0. intros d f _ _. unfold say_entry. rewrite F.
      destruct (named_last q r L) as (n & ->). cbn [or_say pbind]. rewrite D. cbn [or_say pbind].
      assert (X : say_toc r (map Some files) = Said (SaysTocMissing r)).
      { clear -Ff. induction Ff as [|m l Hm Ff IH]; [reflexivity|]. cbn [map say_toc].
        pose proof (find_miss m [] Hm) as K. cbn [find_toc] in K.
        destruct (extension m) as [x|]; [|exact IH]. destruct (name_eqb x onetoc2); [discriminate K | exact IH]. }
      now rewrite X.
  Qed.
  Lemma first_comes p q w : first_reached sanitise h fs p q -> comes_to (fun d f => say_notebook sanitise h d f fs q) w ->
    comes_to (fun d f => say_notebook sanitise h d f fs p) w.
  Proof.
    intro H. induction H as [|q r files toc H IH L F D T]; intro K; [exact K|]. apply IH. apply (first_entry q r w L).
    destruct K as (k & K). exists k. intros d f Ld Lf. unfold say_entry. rewrite F.
    destruct (named_last q r L) as (n & ->). cbn [or_say pbind]. rewrite D. cbn [or_say pbind].
    rewrite (says_got (say_toc r files) toc) by (rewrite words_toc; now apply find_iff). cbn [pbind]. now rewrite K by lia.
  Qed.
  Lemma said_iff p w : names_one w ->
    (exists d f, say_notebook sanitise h d f fs p = Said w) <-> exists q, first_reached sanitise h fs p q /\ says sanitise h fs q w.
  Proof.
    intro Nm. split.
    - intros (d & f & H). exact (notebook_said f d p w H).
    - intros (q & R & W). destruct (first_comes p q w R (says_comes q w W Nm)) as (k & K). exists k, k. apply K; lia.
  Qed.
  (** Each report is about the file it names. *)
  Lemma says_not_toc q file : says sanitise h fs q (SaysNotAToc file) -> file = q /\ exists st, holds_store h fs q st /\
    st_schema st <> 0xE4DBFD38E5C7408BA8A10E7B421E1F5F%N.
  Proof. intro W. inversion W as [| |st Hs N| | | |r w L F S| | |]; subst; eauto. inversion S. Qed.
  Lemma says_not_section q file : says sanitise h fs q (SaysNotASection file) -> comes_first sanitise h fs q file /\
    fs_is_file fs file = true /\ exists st, holds_store h fs file st /\ st_schema st <> 0x1F937CB4B26F445FB9F817E20160E461%N.
  Proof. intro W. inversion W as [| | | | | |r w L F S| | |]; subst. inversion S; subst; eauto. Qed.
  Lemma says_toc_missing q dir : says sanitise h fs q (SaysTocMissing dir) -> comes_first sanitise h fs q dir /\
    fs_is_file fs dir = false /\ exists files, fs_read_dir fs dir = Some (map Some files) /\ Forall (fun m => ~ toc_name m) files.
  Proof. intro W. inversion W as [| | | | | |r w L F S| | |r files L F D Ff]; subst; eauto. inversion S. Qed.
  Lemma said_not_toc d f p file : say_notebook sanitise h d f fs p = Said (SaysNotAToc file) ->
    first_reached sanitise h fs p file /\ exists st, holds_store h fs file st /\ st_schema st <> 0xE4DBFD38E5C7408BA8A10E7B421E1F5F%N.
  Proof. intro H. apply notebook_said in H as (q & R & W). apply says_not_toc in W as (-> & W). auto. Qed.
  (** The words of the four kinds mod.rs makes are always there. *)
  Lemma other_kinds q e : says sanitise h fs q (SaysOther e) ->
    e <> NotATocFile /\ e <> NotASectionFile /\ e <> TocFileMissing /\ e <> InvalidPath.
  Proof.
    intro W. inversion W as [|? I| | |? ? ? ? I| |r w L F S| | |]; subst; try (repeat split; discriminate);
      try ((apply toc_fault_kinds in I || apply no_store_kinds in I); cbn in I; repeat split; intros ->; intuition discriminate).
    inversion S as [|? I| | |? ? ? ? ? ? ? I]; subst; try (repeat split; discriminate);
      (apply fault_kinds in I || apply no_store_kinds in I); cbn in I; repeat split; intros ->; intuition discriminate.
  Qed.
End Report.
