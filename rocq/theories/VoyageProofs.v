(** What becomes of the reading of a notebook. *)
From Coq Require Import Lia ZifyBool ZifyNat ZifyN Permutation Relations.
From Verif Require StoreProofs3.
From Verif Require Import Base Codec Package PropSet PropIds Store Shapes Props Nodes Doc SpecCodec SpecStore SpecValues SpecNodes
  BaseProofs NodesProofs NodesProofs2 NodesProofs3 SpecDoc DocProofs DocProofs2 DocProofs3 DocProofs4 DocProofs5 DocProofs6
  SpecNotebook Notebook NotebookProofs NotebookProofs2 NotebookProofs3 SpecKinds KindsProofs SpecCause CauseProofs CauseProofs2 CauseProofs3 CauseProofs4
  OpenProofs OpenProofs2 SpecOpen SpecBlame OnceProofs BlameProofs SpecFate FateProofs FateProofs2 FateProofs3 SpecVoyage.
Local Open Scope nat_scope.

Lemma map_ends {A B} (F : nat -> A -> res B) l :
  (forall a, In a l -> exists k, forall f, k <= f -> F f a <> OutOfFuel) ->
  exists k, forall f, k <= f -> map_res (F f) l <> OutOfFuel.
Proof.
  induction l as [|a l IH]; intros H; [exists 0; discriminate|].
  destruct (H a (or_introl eq_refl)) as (k & K). destruct IH as (k' & K'); [intros b I; exact (H b (or_intror I))|].
  exists (k + k'). intros f L X. cbn [map_res] in X. apply fuel_bind in X as [X|(b & _ & X)]; [exact (K f ltac:(lia) X)|].
  apply fuel_bind in X as [X|(bs & _ & X)]; [exact (K' f ltac:(lia) X)|discriminate X].
Qed.
Lemma map_crash {A B} (F : A -> res B) l : map_res F l = Panic -> exists a, In a l /\ F a = Panic.
Proof.
  induction l as [|a l IH]; cbn [map_res]; intros H; [discriminate H|].
  apply crash_bind in H as [H|(b & _ & H)]; [exists a; split; [now left|exact H]|].
  apply crash_bind in H as [H|(bs & _ & H)]; [|discriminate H]. destruct (IH H) as (x & I & E). exists x. split; [now right|exact E].
Qed.
Lemma find_toc_settles files : find_toc files <> Panic /\ find_toc files <> OutOfFuel.
Proof.
  induction files as [|[n|] r IH]; cbn [find_toc]; [split; discriminate| |split; discriminate].
  destruct (extension n) as [e|]; [destruct (name_eqb e onetoc2); [split; discriminate|exact IH]|exact IH].
Qed.

Section Voyage.
  Variables (sanitise : name -> name) (h : order) (fs : filesystem).
  Notation trouble := (trouble sanitise h fs).
  Notation reaches := (reaches sanitise h fs).
  Notation lists := (lists sanitise h fs).
  Notation toc_at := (toc_at h fs).
  Notation holds_store := (holds_store h fs).
  Notation section_of := (section_of sanitise h fs).
  Notation crash_in := (crash_in sanitise h fs).
  Notation circle_in := (circle_in sanitise h fs).
  Notation nested := (nested sanitise h fs).
  Notation not_deeper := (not_deeper sanitise h fs).
  Notation bottomless := (bottomless sanitise h fs).
  Notation reading d f p := (parse_notebook sanitise h d f fs p).

  (** ** From a group to the notebook around it *)
  Section Around.
    Variables (p r : path) (files : list (option name)) (toc : name).
    Hypotheses (L : lists p r) (F : fs_is_file fs r = false) (D : fs_read_dir fs r = Some files) (T : first_toc files toc).
    Notation inner := (r ++ [Normal toc]).
    Lemma around_reaches q : reaches inner q -> reaches p q.
    Proof.
      induction 1 as [|q r' files' toc' H IH L' F' D' T']; [apply (re_group sanitise h fs p p r files toc); auto; constructor|].
      now apply (re_group sanitise h fs p q r' files' toc').
    Qed.
    Lemma around_nested n q : nested inner n q -> nested p (S n) q.
    Proof.
      induction 1 as [|n q r' files' toc' H IH L' F' D' T']; [apply (ne_group sanitise h fs p 0 p r files toc); auto; constructor|].
      now apply (ne_group sanitise h fs p (S n) q r' files' toc').
    Qed.
    Lemma around_section x : section_of inner x -> section_of p x.
    Proof. intros (q & H & K). exists q. split; [now apply around_reaches|exact K]. Qed.
    Lemma around_circle : circle_in inner -> circle_in p.
    Proof.
      intros [(q & H & K)|(x & H & K)]; [left; exists q; split; [now apply around_reaches|exact K]|].
      right. exists x. split; [now apply around_section|exact K].
    Qed.
    Lemma around_crash : crash_in inner -> crash_in p.
    Proof. intros (x & st & H & K). exists x, st. split; [now apply around_section|exact K]. Qed.
  End Around.

  (** The paths that are looked at are listed. *)
  Lemma shown_lists p base names ps r : toc_at p base names -> map_res (resolve_entry_path sanitise fs base) names = Ok ps ->
    In r (shown_paths fs ps) -> lists p r.
  Proof.
    intros T H I. apply (map_ok _ (resolves sanitise fs base)) in H; [|intros; apply resolve_ok].
    pose proof (proj1 (shown_iff fs ps _) eq_refl) as K. apply (picks_in _ _ _ r K) in I as (I & X & Y).
    assert (exists n, In n names /\ resolves sanitise fs base n r) as (n & In' & Rn).
    { clear -H I. induction H as [|n q ns qs Hq F IHF]; [destruct I|]. destruct I as [->|I].
      - exists n. split; [left; reflexivity | exact Hq].
      - destruct (IHF I) as (m & Im & Hm). exists m. split; [right; exact Im | exact Hm]. }
    exists base, names, n. auto.
  Qed.
  Lemma lists_named q r : lists q r -> exists base n, ends_in r base (Normal n).
  Proof.
    intros (b & ns & m & _ & _ & Rm & _). destruct Rm as (ws & ms & _ & _ & _ & Ne & _ & -> & _).
    destruct (exists_last Ne) as (ms' & z & ->). exists (b ++ map Normal ms'), z. unfold ends_in. now rewrite map_app, app_assoc.
  Qed.

  (** ** Crashes *)
  Lemma section_file_crashes f r : parse_section_file h f fs r = Panic ->
    exists st, holds_store r st /\ st_schema st = 0x1F937CB4B26F445FB9F817E20160E461%N /\ crash_at st.
  Proof.
    intros H. unfold parse_section_file in H. apply crash_bind in H as [H|(bs & R & H)]; [now destruct (fs_read fs r)|].
    apply ok_or_iff in R. apply crash_bind in H as [H|(st & O & H)]; [contradiction (open_no_panic _ _ _ H)|].
    destruct (N.eqb_spec (st_schema st) section_schema) as [Q|Q]; [|discriminate H].
    apply crash_bind in H as [H|(n & _ & H)]; [now destruct (file_name r)|].
    exists st. split; [exact (open_holds h fs f bs st r R O)|]. split; [exact Q|exact (section_crashes st n f H)].
  Qed.
  Lemma notebook_crashes f d : forall p, reading d f p = Panic -> crash_in p.
  Proof.
    induction d as [|d IH]; intros p H; [discriminate H|]. rewrite notebook_step in H.
    apply crash_bind in H as [H|(bs & R & H)]; [now destruct (fs_read fs p)|]. apply ok_or_iff in R.
    apply crash_bind in H as [H|(st & O & H)]; [contradiction (open_no_panic _ _ _ H)|].
    pose proof (open_holds h fs f bs st p R O) as Hs.
    destruct (N.eqb_spec (st_schema st) toc_schema) as [Q|Q]; [|discriminate H].
    apply crash_bind in H as [H|(base & Hp & H)]; [now destruct (parent p)|].
    apply ok_or_iff, parent_iff in Hp as (last & Hp & Hl).
    apply crash_bind in H as [H|((names & c) & Ht & H)]; [contradiction (toc_no_panic _ _ H)|]. apply toc_settles in Ht.
    assert (T : toc_at p base names) by (exists st, last, c; auto).
    apply crash_bind in H as [H|(ps & Hps & H)].
    { apply map_crash in H as (n & _ & H). destruct (resolve_cases sanitise fs base n) as [E|(q & E)]; congruence. }
    apply crash_bind in H as [H|(es & _ & H)]; [|discriminate H]. apply map_crash in H as (r & I & H).
    pose proof (shown_lists p base names ps r T Hps I) as L. unfold load_entry in H. destruct (fs_is_file fs r) eqn:F.
    - apply crash_bind in H as [H|(s & _ & H)]; [|discriminate H]. apply section_file_crashes in H as (st' & K).
      exists r, st'. split; [|exact K]. exists p. split; [constructor|auto].
    - apply crash_bind in H as [H|(n & _ & H)]; [now destruct (file_name r)|].
      apply crash_bind in H as [H|(files & Hf & H)]; [now destruct (fs_read_dir fs r)|]. apply ok_or_iff in Hf.
      apply crash_bind in H as [H|(toc & Htoc & H)]; [contradiction (proj1 (find_toc_settles files) H)|]. apply find_iff in Htoc.
      apply crash_bind in H as [H|(g & _ & H)]; [|discriminate H]. exact (around_crash p r files toc L F Hf Htoc (IH _ H)).
  Qed.

  (** ** Ending *)
  Lemma file_opens_or_not q bs : fs_read fs q = Some bs -> ~ turns h fs q ->
    exists k r, r <> OutOfFuel /\ forall f, k <= f -> open_store h f bs = r.
  Proof.
    intros R N.
    assert (X : exists k, open_store h k bs <> OutOfFuel).
    { destruct (packaging_parse bs) as [[pg rest]|e| |] eqn:P;
        [|exists 0; unfold open_store, run; rewrite P; discriminate..|].
      - exists (S (length (pk_revisions (pg_package pg)))). rewrite (open_of _ _ _ _ _ P).
        apply (store_ends h pg (StoreProofs3.packaging_parse_ok _ _ _ P)); [|lia]. intros E. apply N. exists bs, pg, rest. auto.
      - destruct (PackageFacts.good_total _ _ PackageProofs.good_packaging bs) as [(x & r & T)|(e & T)]; congruence. }
    destruct X as (k & X). exists k, (open_store h k bs). split; [exact X|]. intros f L. exact (open_fuel h k f bs L X).
  Qed.
  Lemma section_file_ends r : ~ section_circle h fs r -> exists k, forall f, k <= f -> parse_section_file h f fs r <> OutOfFuel.
  Proof.
    intros N. unfold parse_section_file. destruct (fs_read fs r) as [bs|] eqn:R; [|exists 0; discriminate]. cbn [ok_or rbind].
    destruct (file_opens_or_not r bs R) as (k & [st|e| |] & X & K); [intros T; apply N; now left| |exists k; intros f L; rewrite (K f L); discriminate ..|contradiction].
    exists (k + page_steps st). intros f L H. rewrite (K f ltac:(lia)) in H. cbn [rbind] in H.
    destruct (N.eqb_spec (st_schema st) section_schema) as [Q|Q]; [|discriminate H].
    apply fuel_bind in H as [H|(n & _ & H)]; [now destruct (file_name r)|].
    revert H. apply section_ends; [lia|]. intros C. apply N. right. exists st. split; [exists bs; split; [exact R|exists k; apply K; lia]|auto].
  Qed.
  Lemma notebook_ends n : forall p, not_deeper p n -> ~ circle_in p ->
    exists k, forall f, k <= f -> reading n f p <> OutOfFuel.
  Proof.
    induction n as [|n IH]; intros p N C; [contradiction (N p); constructor|].
    assert (Cp : ~ toc_circle h fs p) by (intros X; apply C; left; exists p; split; [constructor|exact X]).
    destruct (fs_read fs p) as [bs|] eqn:R; [|exists 0; intros f _; rewrite notebook_step, R; discriminate].
    destruct (file_opens_or_not p bs R) as (k & [st|e| |] & X & K);
      [intros T; apply Cp; now left| |exists k; intros f L; rewrite notebook_step, R; cbn [ok_or rbind]; rewrite (K f L); discriminate ..|contradiction].
    assert (Hs : holds_store p st) by (exists bs; split; [exact R|exists k; apply K; lia]).
    destruct (N.eqb_spec (st_schema st) toc_schema) as [Q|Q].
    2:{ exists k. intros f L. rewrite notebook_step, R. cbn [ok_or rbind]. rewrite (K f L). cbn [rbind].
        apply N.eqb_neq in Q. rewrite Q. discriminate. }
    destruct (parent p) as [base|] eqn:Hp.
    2:{ exists k. intros f L. rewrite notebook_step, R, Hp. cbn [ok_or rbind]. rewrite (K f L). cbn [rbind]. rewrite Q. discriminate. }
    assert (Tn : ~ toc_comes_round (st_data_root st)) by (intros Y; apply Cp; right; exists st; auto).
    set (k2 := S (length (sp_objects (st_data_root st)))).
    assert (Y : parse_toc k2 (st_data_root st) <> OutOfFuel) by (apply toc_ends; [exact Tn|subst k2; lia]).
    assert (Z : forall f, k2 <= f -> parse_toc f (st_data_root st) = parse_toc k2 (st_data_root st))
      by (intros f L; exact (toc_more k2 f (st_data_root st) L Y)).
    assert (G : exists k3, forall f, k3 <= f ->
      (let! (names, color) := parse_toc k2 (st_data_root st) in
       let! paths := map_res (resolve_entry_path sanitise fs base) names in
       let! entries := map_res (load_entry sanitise h n f fs) (shown_paths fs paths) in
       Ok (Notebook_ entries color)) <> OutOfFuel).
    2:{ destruct G as (k3 & G). exists (k + k2 + k3). intros f L. rewrite notebook_step, R, Hp. cbn [ok_or rbind].
        rewrite (K f) by lia. cbn [rbind]. rewrite Q. cbn [N.eqb]. change (N.eqb toc_schema toc_schema) with true. cbv iota.
        rewrite (Z f) by lia. apply G. lia. }
    destruct (parse_toc k2 (st_data_root st)) as [[names c]|e| |] eqn:Ht; [|exists 0; discriminate ..|contradiction].
    cbn [rbind]. apply parent_iff in Hp as (last & Hp & Hl). apply toc_settles in Ht.
    assert (T : toc_at p base names) by (exists st, last, c; auto).
    destruct (map_res (resolve_entry_path sanitise fs base) names) as [ps|e| |] eqn:Hps; [|exists 0; discriminate ..|].
    2:{ exfalso. clear -Hps. induction names as [|m names IH]; [discriminate Hps|]. cbn [map_res] in Hps.
        apply fuel_bind in Hps as [H|(b & _ & H)]; [destruct (resolve_cases sanitise fs base m) as [E|(q & E)]; congruence|].
        apply fuel_bind in H as [H|(bs & _ & H)]; [exact (IH H)|discriminate H]. }
    cbn [rbind].
    assert (M : exists k4, forall f, k4 <= f -> map_res (load_entry sanitise h n f fs) (shown_paths fs ps) <> OutOfFuel).
    2:{ destruct M as (k4 & M). exists k4. intros f L H. apply fuel_bind in H as [H|(es & _ & H)]; [exact (M f L H)|discriminate H]. }
    apply (map_ends (fun f => load_entry sanitise h n f fs)). intros r I.
    pose proof (shown_lists p base names ps r T Hps I) as L. unfold load_entry. destruct (fs_is_file fs r) eqn:F.
    - destruct (section_file_ends r) as (k4 & K4).
      { intros Y'. apply C. right. exists r. split; [exists p; split; [constructor|auto]|exact Y']. }
      exists k4. intros f Lf H. apply fuel_bind in H as [H|(s & _ & H)]; [exact (K4 f Lf H)|discriminate H].
    - destruct (file_name r) as [nm|]; [|exists 0; discriminate]. cbn [ok_or rbind].
      destruct (fs_read_dir fs r) as [files|] eqn:Hf; [|exists 0; discriminate]. cbn [ok_or rbind].
      destruct (find_toc files) as [toc|e| |] eqn:Htoc; [|exists 0; discriminate ..|contradiction (proj2 (find_toc_settles files) Htoc)].
      cbn [rbind]. apply find_iff in Htoc.
      destruct (IH (r ++ [Normal toc])) as (k4 & K4).
      { intros q Hq. exact (N q (around_nested p r files toc L F Hf Htoc n q Hq)). }
      { intros Y'. exact (C (around_circle p r files toc L F Hf Htoc Y')). }
      exists k4. intros f Lf H. apply fuel_bind in H as [H|(g & _ & H)]; [exact (K4 f Lf H)|discriminate H].
  Qed.
  Lemma notebook_result p n : not_deeper p n -> ~ circle_in p ->
    exists k r, r <> OutOfFuel /\ forall d f, n <= d -> k <= f -> reading d f p = r.
  Proof.
    intros N C. destruct (notebook_ends n p N C) as (k & K). exists k, (reading n k p). split; [apply K; lia|].
    intros d f Ld Lf. apply (notebook_fuel sanitise h k f fs Lf n d p Ld). apply K. lia.
  Qed.

  (** ** What is read has no obstacle *)
  Lemma section_at_clear r s : section_at h fs r s -> ~ section_circle h fs r /\
    forall st, holds_store r st -> ~ crash_at st.
  Proof.
    intros (bs & st & base & n & R & O & Q & _ & S).
    split.
    - intros [(bs' & pg & rest & R' & P & E)|(st' & H' & _ & C)].
      + assert (bs' = bs) as -> by congruence. destruct (proj1 (opens_iff h bs) (ex_intro _ st O)) as (pg' & rest' & P' & _ & N).
        assert (pg' = pg) as -> by congruence. exact (N E).
      + assert (st' = st) as -> by (apply (holds_fun h fs r); [exact H'|exists bs; auto]). exact (read_no_round st n s S C).
    - intros st' H' C. assert (st' = st) as -> by (apply (holds_fun h fs r); [exact H'|exists bs; auto]). exact (read_no_crash st n s S C).
  Qed.
  Lemma entry_section r e : fs_is_file fs r = true -> entry_at sanitise h fs r e -> exists s, section_at h fs r s.
  Proof. intros F H. inversion H; subst; [eauto|congruence]. Qed.
  Lemma section_of_read p r es c : notebook_at sanitise h fs p es c -> section_of p r -> exists s, section_at h fs r s.
  Proof.
    intros N (q & R & L & F). destruct (reached_read sanitise h fs p q es c R N) as (es' & c' & N').
    destruct (notebook_parts sanitise h fs q es' c' N') as (_ & _ & _ & _ & K). destruct (K r L) as (e & E).
    exact (entry_section r e F E).
  Qed.
  Lemma notebook_no_crash p es c : notebook_at sanitise h fs p es c -> ~ crash_in p.
  Proof.
    intros N (r & st & S & H & _ & C). destruct (section_of_read p r es c N S) as (s & A). exact (proj2 (section_at_clear r s A) st H C).
  Qed.
  Lemma notebook_no_circle p es c : notebook_at sanitise h fs p es c -> ~ circle_in p.
  Proof.
    intros N [(q & R & K)|(r & S & K)].
    - destruct (reached_read sanitise h fs p q es c R N) as (es' & c' & N').
      destruct N' as [q bs st base last names ps shown es' c' Rd O Q E L T Fr P Fe]. destruct K as [(bs' & pg & rest & R' & P' & X)|(st' & H' & _ & X)].
      + assert (bs' = bs) as -> by congruence. destruct (proj1 (opens_iff h bs) (ex_intro _ st O)) as (pg' & rest' & P2 & _ & Y).
        assert (pg' = pg) as -> by congruence. exact (Y X).
      + assert (st' = st) as -> by (apply (holds_fun h fs q); [exact H'|exists bs; auto]).
        apply toc_settles in T as (k & T). specialize (T k ltac:(lia)). exact (proj2 (toc_clear _ _ _ T) X).
    - destruct (section_of_read p r es c N S) as (s & A). exact (proj1 (section_at_clear r s A) K).
  Qed.
  Lemma nested_front p n q : nested p (S n) q ->
    exists r files toc, lists p r /\ fs_is_file fs r = false /\ fs_read_dir fs r = Some files /\ first_toc files toc /\ nested (r ++ [Normal toc]) n q.
  Proof.
    revert q. induction n as [|n IH]; intros q H; inversion H as [|n' q' r files toc H' L F D T]; subst.
    - inversion H'; subst. exists r, files, toc. do 4 (split; [assumption|]). constructor.
    - destruct (IH q' H') as (r' & files' & toc' & L' & F' & D' & T' & K). exists r', files', toc'. do 4 (split; [assumption|]).
      now apply (ne_group sanitise h fs _ n q' r files toc).
  Qed.
  Lemma notebook_shallow f d : forall p nb, reading d f p = Ok nb -> not_deeper p d.
  Proof.
    induction d as [|d IH]; intros p nb H q Hq; [discriminate H|].
    apply nested_front in Hq as (r & files & toc & L & F & D & T & Hq).
    rewrite notebook_step in H. apply bind_ok in H as (bs & Hb & H). apply ok_or_iff in Hb. apply bind_ok in H as (st & Hs & H).
    pose proof (open_holds h fs f bs st p Hb Hs) as Hst.
    destruct (N.eqb (st_schema st) toc_schema) eqn:E; [|discriminate H]. apply N.eqb_eq in E.
    apply bind_ok in H as (base & Hp & H). apply ok_or_iff, parent_iff in Hp as (last & Hp & Hc).
    apply bind_ok in H as ((names & color) & Ht & H). apply toc_settles in Ht.
    apply bind_ok in H as (ps & Hps & H). apply bind_ok in H as (es & Hes & _).
    assert (TA : toc_at p base names) by (exists st, last, color; auto).
    destruct L as (base' & names' & m & T' & I & Rm & X & Y). destruct (toc_at_fun h fs p base names base' names' TA T') as (<- & <-).
    assert (Ir : In r (shown_paths fs ps)).
    { pose proof (proj1 (shown_iff fs ps _) eq_refl) as K. apply (picks_in _ _ _ r K). split; [|auto].
      apply map_res_ok in Hps. clear -Hps I Rm. induction Hps as [|a b l l' Hab _ IHl]; [destruct I|]. destruct I as [->|I].
      - left. apply resolve_ok in Rm. congruence.
      - right. exact (IHl I). }
    apply map_res_ok in Hes. assert (exists e, load_entry sanitise h d f fs r = Ok e) as (e & He).
    { clear -Hes Ir. induction Hes as [|a b l l' Hab _ IHl]; [destruct Ir|]. destruct Ir as [->|I]; eauto. }
    unfold load_entry in He. rewrite F in He. apply bind_ok in He as (nm & _ & He). apply bind_ok in He as (files' & Hf & He).
    apply ok_or_iff in Hf. assert (files' = files) as -> by congruence. apply bind_ok in He as (toc' & Htoc & He). apply find_iff in Htoc.
    assert (toc' = toc) as -> by exact (first_toc_fun files toc' toc Htoc T). apply bind_ok in He as (g & Hg & _).
    exact (IH _ _ Hg q Hq).
  Qed.

  (** ** All together *)
  Lemma notebook_read_iff p : (exists d f nb, reading d f p = Ok nb) <->
    (forall q e, reaches p q -> ~ trouble q e) /\ ~ crash_in p /\ ~ circle_in p /\ exists n, not_deeper p n.
  Proof.
    split.
    - intros (d & f & nb & H). assert (N := notebook_sound _ _ _ _ _ _ _ H). split.
      { intros q e R W. exact (notebook_prevented sanitise h fs p q e R W d f nb H). }
      split; [exact (notebook_no_crash _ _ _ N)|]. split; [exact (notebook_no_circle _ _ _ N)|].
      exists d. exact (notebook_shallow f d p nb H).
    - intros (T & C & R & n & N). destruct (notebook_ends n p N R) as (k & K). specialize (K k (le_n k)).
      destruct (reading n k p) as [nb|e| |] eqn:E; [eauto| | |contradiction].
      + apply notebook_blame in E as (q & Q & W). contradiction (T q e Q W).
      + apply notebook_crashes in E. contradiction.
  Qed.
  Lemma notebook_only_crash p n : crash_in p -> (forall q e, reaches p q -> ~ trouble q e) -> ~ circle_in p -> not_deeper p n ->
    exists k, forall d f, n <= d -> k <= f -> reading d f p = Panic.
  Proof.
    intros C T R N. destruct (notebook_result p n N R) as (k & r & X & K). exists k. intros d f Ld Lf. specialize (K d f Ld Lf).
    destruct (reading d f p) as [nb|e| |] eqn:E; [| |reflexivity|congruence].
    - apply notebook_sound, notebook_no_crash in E. contradiction.
    - apply notebook_blame in E as (q & Q & W). contradiction (T q e Q W).
  Qed.
  Lemma notebook_only_endless p : circle_in p \/ bottomless p -> (forall q e, reaches p q -> ~ trouble q e) -> ~ crash_in p ->
    forall d f, reading d f p = OutOfFuel.
  Proof.
    intros B T C d f. destruct (reading d f p) as [nb|e| |] eqn:E; [exfalso| | |reflexivity].
    - destruct B as [B|B].
      + apply notebook_sound, notebook_no_circle in E. contradiction.
      + destruct (B d) as (q & Q). exact (notebook_shallow f d p nb E q Q).
    - apply notebook_blame in E as (q & Q & W). contradiction (T q e Q W).
    - apply notebook_crashes in E. contradiction.
  Qed.
  Lemma notebook_only_trouble p n q e : reaches p q -> trouble q e -> (forall q' e', reaches p q' -> trouble q' e' -> e' = e) ->
    ~ crash_in p -> ~ circle_in p -> not_deeper p n ->
    exists k, forall d f, n <= d -> k <= f -> reading d f p = Err e.
  Proof.
    intros Q W U C R N. destruct (notebook_result p n N R) as (k & r & X & K). exists k. intros d f Ld Lf. specialize (K d f Ld Lf).
    destruct (reading d f p) as [nb|e'| |] eqn:E; [| | |congruence].
    - contradiction (notebook_prevented sanitise h fs p q e Q W d f nb E).
    - apply notebook_blame in E as (q' & Q' & W'). now rewrite (U q' e' Q' W').
    - apply notebook_crashes in E. contradiction.
  Qed.
  Lemma section_file_read_iff r : (exists f s, parse_section_file h f fs r = Ok s) <->
    (forall e, ~ section_trouble h fs r e) /\
    (forall st, holds_store r st -> st_schema st = 0x1F937CB4B26F445FB9F817E20160E461%N -> ~ crash_at st) /\ ~ section_circle h fs r.
  Proof.
    split.
    - intros (f & s & H). assert (A := H). apply section_file_settles in A. destruct (section_at_clear r s A) as (C & K).
      split; [intros e W; exact (section_prevented h fs r e W f s H)|]. split; [intros st Hs _; exact (K st Hs)|exact C].
    - intros (T & C & N). destruct (section_file_ends r N) as (k & K). specialize (K k (le_n k)).
      destruct (parse_section_file h k fs r) as [s|e| |] eqn:E; [eauto| | |contradiction].
      + apply section_file_blame in E. contradiction (T e E).
      + apply section_file_crashes in E as (st & Hs & Q & X). contradiction (C st Hs Q X).
  Qed.
End Voyage.
