(** Every error of a notebook has a cause, and every cause prevents a result. *)
From Coq Require Import Lia ZifyBool ZifyNat ZifyN Permutation Relations.
From Verif Require Import Base Codec Package PropSet PropIds Store Shapes Props Nodes Doc SpecCodec SpecStore SpecValues SpecNodes
  BaseProofs NodesProofs NodesProofs2 NodesProofs3 SpecDoc DocProofs DocProofs2 DocProofs3 DocProofs4 DocProofs5 DocProofs6
  SpecNotebook Notebook NotebookProofs NotebookProofs2 NotebookProofs3 SpecKinds KindsProofs SpecCause CauseProofs CauseProofs2 CauseProofs3 OpenProofs SpecOpen SpecBlame OnceProofs.
Local Open Scope nat_scope.

Lemma bind_err {A B} (r : res A) (f : A -> res B) e : rbind r f = Err e -> r = Err e \/ exists a, r = Ok a /\ f a = Err e.
Proof. destruct r; cbn [rbind]; intro H; try discriminate H; eauto. left. congruence. Qed.
Lemma ok_or_err {A} k (x : option A) e : ok_or k x = Err e -> x = None /\ e = k.
Proof. destruct x; cbn; intro H; [discriminate H|]. injection H as <-. auto. Qed.
Lemma map_err {A B} (f : A -> res B) l e : map_res f l = Err e -> exists a, In a l /\ f a = Err e.
Proof.
  induction l as [|a l IH]; cbn [map_res]; [discriminate|]. intro H. apply bind_err in H as [H|(b & _ & H)].
  - exists a. split; [left; reflexivity | exact H].
  - apply bind_err in H as [H|(bs & _ & H)]; [|discriminate H].
    destruct (IH H) as (x & I & E). exists x. split; [right; exact I | exact E].
Qed.
(** Failing with one amount of fuel excludes a result with any other. *)
Lemma fails_for_good {A} (F : nat -> res A) f e : (forall f f', f <= f' -> refines (F f) (F f')) ->
  F f = Err e -> forall f' a, F f' <> Ok a.
Proof.
  intros M H f' a H'. assert (F f = F f') by (apply refines_agree; auto; congruence). congruence.
Qed.

Section Blame.
  Variables (sanitise : name -> name) (h : order) (fs : filesystem).
  Notation section_trouble := (section_trouble h fs).
  Notation trouble := (trouble sanitise h fs).
  Notation reaches := (reaches sanitise h fs).
  Notation lists := (lists sanitise h fs).
  Notation toc_at := (toc_at h fs).
  Notation no_store := (no_store h fs).
  Notation holds_store := (holds_store h fs).

  Lemma open_err f bs e p : fs_read fs p = Some bs -> open_store h f bs = Err e -> no_store p e.
  Proof.
    intros R H. exists bs. split; [exact R|]. split; [|exact (opening_cause h f bs e H)]. intros st (f' & H').
    exact (fails_for_good (fun f => open_store h f bs) f e (fun a b L => open_fuel h a b bs L) H f' st H').
  Qed.
  Lemma open_holds f bs st p : fs_read fs p = Some bs -> open_store h f bs = Ok st -> holds_store p st.
  Proof. intros R H. exists bs. split; [exact R|]. now exists f. Qed.

  Lemma section_file_blame f p e : parse_section_file h f fs p = Err e -> section_trouble p e.
  Proof.
    intro H. unfold parse_section_file in H. apply bind_err in H as [H|(bs & R & H)].
    { apply ok_or_err in H as (R & ->). now constructor. }
    apply ok_or_iff in R. apply bind_err in H as [H|(st & O & H)].
    { apply tr_container. exact (open_err f bs e p R H). }
    pose proof (open_holds f bs st p R O) as Hs.
    destruct (N.eqb_spec (st_schema st) section_schema) as [Q|Q].
    - apply bind_err in H as [H|(n & Hn & H)].
      + apply ok_or_err in H as (Hn & ->). apply (tr_no_name h fs p st Hs). intros base n E.
        assert (file_name p = Some n) by (apply file_name_iff; eauto). congruence.
      + apply ok_or_iff, file_name_iff in Hn as (base & Hn). exact (tr_content h fs p st base n e Hs Q Hn (section_blame st f n e H)).
    - injection H as <-. now apply (tr_other_kind h fs p st).
  Qed.

  Lemma find_err files e : find_toc files = Err e ->
    (exists before after, files = map Some before ++ None :: after /\ Forall (fun m => ~ toc_name m) before /\ e = IO) \/
    (exists l, files = map Some l /\ Forall (fun m => ~ toc_name m) l /\ e = TocFileMissing).
  Proof.
    induction files as [|[n|] r IH]; cbn [find_toc].
    - intro H. injection H as <-. right. exists []. repeat split. constructor.
    - intro H. destruct (toc_name_dec n) as [T|T].
      + pose proof (find_hit n r T) as K. cbn [find_toc] in K. congruence.
      + pose proof (find_miss n r T) as K. cbn [find_toc] in K. rewrite K in H.
        destruct (IH H) as [(b & a & -> & F & ->)|(l & -> & F & ->)].
        * left. exists (n :: b), a. repeat split. now constructor.
        * right. exists (n :: l). repeat split. now constructor.
    - intro H. injection H as <-. left. exists [], r. repeat split. constructor.
  Qed.

  Lemma notebook_blame f d : forall p e, parse_notebook sanitise h d f fs p = Err e ->
    exists q, reaches p q /\ trouble q e.
  Proof.
    induction d as [|d IH]; intros p e H; [discriminate H|]. rewrite notebook_step in H.
    apply bind_err in H as [H|(bs & R & H)].
    { apply ok_or_err in H as (R & ->). exists p. split; [constructor | now constructor]. }
    apply ok_or_iff in R. apply bind_err in H as [H|(st & O & H)].
    { exists p. split; [constructor | apply tr_toc_container; exact (open_err f bs e p R H)]. }
    pose proof (open_holds f bs st p R O) as Hs.
    destruct (N.eqb_spec (st_schema st) toc_schema) as [Q|Q].
    2:{ injection H as <-. exists p. split; [constructor|]. now apply (tr_toc_kind sanitise h fs p st). }
    apply bind_err in H as [H|(base & Hp & H)].
    { apply ok_or_err in H as (Hp & ->). exists p. split; [constructor|]. apply (tr_toc_place sanitise h fs p st Hs).
      intros base last E. destruct last; try reflexivity; exfalso;
        (assert (P : parent p = Some base) by (apply parent_iff; eexists; split; [exact E | discriminate]); congruence). }
    apply ok_or_iff, parent_iff in Hp as (last & Hp & Hl).
    apply bind_err in H as [H|((names & c) & Ht & H)].
    { exists p. split; [constructor|]. exact (tr_toc_content sanitise h fs p st e Hs Q (toc_blame _ f e H)). }
    apply toc_settles in Ht.
    assert (T : toc_at p base names).
    { exists st, last, c. auto. }
    apply bind_err in H as [H|(ps & Hps & H)].
    { apply map_err in H as (n & I & H). exists p. split; [constructor|].
      destruct (resolve_cases sanitise fs base n) as [E|(q & E)]; [|congruence].
      assert (e = InvalidPath) as -> by congruence. apply (tr_entry_name sanitise h fs p base names n T I).
      intros r Hr. apply resolve_ok in Hr. congruence. }
    apply bind_err in H as [H|(es & _ & H)]; [|discriminate H].
    apply map_err in H as (r & I & H).
    assert (L : lists p r).
    { apply (map_ok _ (resolves sanitise fs base)) in Hps; [|intros; apply resolve_ok].
      pose proof (proj1 (shown_iff fs ps _) eq_refl) as K. apply (picks_in _ _ _ r K) in I as (I & X & Y).
      assert (exists n, In n names /\ resolves sanitise fs base n r) as (n & In' & Rn).
      { clear -Hps I. induction Hps as [|n q ns qs Hq F IHF]; [destruct I|]. destruct I as [->|I].
        - exists n. split; [left; reflexivity | exact Hq].
        - destruct (IHF I) as (m & Im & Hm). exists m. split; [right; exact Im | exact Hm]. }
      exists base, names, n. auto. }
    unfold load_entry in H. destruct (fs_is_file fs r) eqn:F.
    { apply bind_err in H as [H|(s & _ & H)]; [|discriminate H]. exists p. split; [constructor|].
      apply (tr_section sanitise h fs p r e L F). exact (section_file_blame f r e H). }
    apply bind_err in H as [H|(n & Hn & H)].
    { exfalso. apply ok_or_err in H as (Hn & _). destruct L as (b & ns & m & _ & _ & Rm & _).
      destruct Rm as (ws & ms & _ & _ & _ & Ne & _ & -> & _).
      destruct (exists_last Ne) as (ms' & z & ->).
      assert (E : file_name (b ++ map Normal (ms' ++ [z])) = Some z).
      { apply file_name_iff. exists (b ++ map Normal ms'). unfold ends_in. now rewrite map_app, app_assoc. }
      congruence. }
    apply bind_err in H as [H|(files & Hf & H)].
    { apply ok_or_err in H as (Hf & ->). exists p. split; [constructor|]. now apply (tr_directory sanitise h fs p r). }
    apply ok_or_iff in Hf. apply bind_err in H as [H|(toc & Htoc & H)].
    { exists p. split; [constructor|]. destruct (find_err files e H) as [(b & a & -> & Fb & ->)|(l & -> & Fl & ->)].
      - now apply (tr_listing sanitise h fs p r b a).
      - now apply (tr_no_toc sanitise h fs p r l). }
    apply find_iff in Htoc. apply bind_err in H as [H|(g & _ & H)]; [|discriminate H].
    destruct (IH _ _ H) as (q & Hq & Hw). exists q. split; [|exact Hw].
    clear -L F Hf Htoc Hq. induction Hq as [|q r' files' toc' Hq IHq].
    - apply (re_group sanitise h fs p p r files toc); auto. constructor.
    - now apply (re_group sanitise h fs p q r' files' toc').
  Qed.

  (** ** Every cause prevents a result *)
  Lemma holds_fun p st st' : holds_store p st -> holds_store p st' -> st = st'.
  Proof. intros (b & R & O) (b' & R' & O'). assert (b = b') as <- by congruence. exact (opens_fun h b st st' O O'). Qed.
  Lemma no_store_not p e st : no_store p e -> ~ holds_store p st.
  Proof. intros (b & R & O & _) (b' & R' & O'). assert (b = b') as <- by congruence. exact (O st O'). Qed.
  Lemma no_store_kinds p e : no_store p e -> In e container_kinds.
  Proof. intros (b & _ & _ & F). exact (opening_fault_kinds h b e F). Qed.
  Lemma section_trouble_no p e : section_trouble p e -> forall s, ~ section_at h fs p s.
  Proof.
    intros T s (bs & st & base & n & R & O & Q & E & Hs). assert (Hst : holds_store p st) by (exists bs; auto).
    destruct T as [N|k N|st' H' N|st' H' N|st' b' n' k H' Q' E' N].
    - congruence.
    - exact (no_store_not p _ st N Hst).
    - rewrite (holds_fun p st' st H' Hst) in N. auto.
    - exact (N base n E).
    - rewrite (holds_fun p st' st H' Hst) in N. assert (n' = n) as ->; [|exact (fault_unreadable st n s k Hs N)].
      unfold ends_in in *. rewrite E in E'. apply app_inj_tail in E' as (_ & K). congruence.
  Qed.
  Lemma toc_is_fun sp names c names' c' : toc_is sp names c -> toc_is sp names' c' -> names = names' /\ c = c'.
  Proof.
    intros T T'. apply toc_settles in T as (k & T). apply toc_settles in T' as (k' & T').
    specialize (T (k + k') ltac:(lia)). specialize (T' (k + k') ltac:(lia)). cbn beta in *. rewrite T in T'. now injection T'.
  Qed.
  Lemma toc_at_fun q base names base' names' : toc_at q base names -> toc_at q base' names' -> base = base' /\ names = names'.
  Proof.
    intros (st & last & c & Hs & Q & E & _ & T) (st' & last' & c' & Hs' & _ & E' & _ & T').
    rewrite (holds_fun q st' st Hs' Hs) in T'. destruct (toc_is_fun _ _ _ _ _ T T') as (-> & _).
    unfold ends_in in *. rewrite E in E'. apply app_inj_tail in E' as (-> & _). auto.
  Qed.
  Lemma resolves_fun base n r r' : resolves sanitise fs base n r -> resolves sanitise fs base n r' -> r = r'.
  Proof. intros H H'. apply resolve_ok in H. apply resolve_ok in H'. congruence. Qed.

  Lemma notebook_parts p es c : notebook_at sanitise h fs p es c ->
    exists base names, toc_at p base names /\ (forall n, In n names -> exists r, resolves sanitise fs base n r) /\
      forall r, lists p r -> exists e, entry_at sanitise h fs r e.
  Proof.
    intro H. destruct H as [p bs st base last names ps shown es c R O Q E L T Fr P Fe].
    assert (Hs : holds_store p st) by (exists bs; auto).
    assert (A : toc_at p base names) by (exists st, last, c; auto).
    exists base, names. refine (conj A (conj _ _)).
    - clear -Fr. induction Fr as [|n q ns qs Hq F IH]; intros m []; [subst; eauto | auto].
    - intros r (b & ns & n & A' & I & Rn & X & Y). destruct (toc_at_fun _ _ _ _ _ A' A) as (-> & ->).
      assert (Ir : In r ps).
      { clear -Fr I Rn. induction Fr as [|m q ms qs Hq F IH]; [destruct I|]. destruct I as [->|I].
        - left. exact (resolves_fun _ _ _ _ Hq Rn).
        - right. auto. }
      assert (Is : In r shown) by (apply (picks_in _ _ _ r P); auto).
      clear -Fe Is. induction Fe as [|q e qs es' Hq F IH]; [destruct Is | destruct Is as [->|I]; eauto].
  Qed.
  Lemma first_toc_fun files n m : first_toc files n -> first_toc files m -> n = m.
  Proof. intros H H'. apply find_iff in H. apply find_iff in H'. congruence. Qed.
  Lemma reached_read p q es c : reaches p q -> notebook_at sanitise h fs p es c ->
    exists es' c', notebook_at sanitise h fs q es' c'.
  Proof.
    intros H N. induction H as [|q r files toc H IH L F D T]; [eauto|].
    destruct IH as (es' & c' & N'). destruct (notebook_parts _ _ _ N') as (base & names & _ & _ & K).
    destruct (K r L) as (e & He). destruct He as [r s F' _|r b n files' toc' es2 c2 F' _ D' T' N2].
    - congruence.
    - assert (files' = files) as -> by congruence. rewrite (first_toc_fun _ _ _ T' T) in N2. eauto.
  Qed.
  Lemma trouble_no q e : trouble q e -> forall es c, ~ notebook_at sanitise h fs q es c.
  Proof.
    intros W es c N. destruct (notebook_parts _ _ _ N) as (base & names & A & K & L).
    assert (A' := A). destruct A' as (st & last & c0 & Hs & Q & E & Nr & T).
    destruct W as [R|k R|st' H' R|st' H' R|st' k H' Q' R|b ns n A' I R|r k Lr F S|r Lr F D|r before after Lr F D Fb|r files Lr F D Ff].
    - destruct Hs as (bs & Hr & _). congruence.
    - exact (no_store_not q _ st R Hs).
    - rewrite (holds_fun q st' st H' Hs) in R. auto.
    - exact (Nr (R base last E)).
    - rewrite (holds_fun q st' st H' Hs) in R. exact (toc_fault_unreadable _ names c0 k T R).
    - destruct (toc_at_fun _ _ _ _ _ A' A) as (-> & ->). destruct (K n I) as (r & Hr). exact (R r Hr).
    - destruct (L r Lr) as (x & Hx). destruct Hx as [r s F' Hx|r b n files toc es2 c2 F' _ _ _ _]; [|congruence].
      exact (section_trouble_no r k S s Hx).
    - destruct (L r Lr) as (x & Hx). destruct Hx as [r s F' Hx|r b n files toc es2 c2 F' _ D' _ _]; congruence.
    - destruct (L r Lr) as (x & Hx). destruct Hx as [r s F' Hx|r b n files toc es2 c2 F' _ D' T' _]; [congruence|].
      assert (files = map Some before ++ None :: after) as -> by congruence. apply find_iff in T'.
      clear -T' Fb. induction Fb as [|m l Hm Fb IH]; [discriminate T'|]. cbn [map app] in T'. rewrite (find_miss _ _ Hm) in T'. auto.
    - destruct (L r Lr) as (x & Hx). destruct Hx as [r s F' Hx|r b n files' toc es2 c2 F' _ D' T' _]; [congruence|].
      assert (files' = map Some files) as -> by congruence. apply find_iff in T'.
      clear -T' Ff. induction Ff as [|m l Hm Ff IH]; [discriminate T'|]. cbn [map] in T'. rewrite (find_miss _ _ Hm) in T'. auto.
  Qed.
  Lemma notebook_prevented p q e : reaches p q -> trouble q e ->
    forall d f nb, parse_notebook sanitise h d f fs p <> Ok nb.
  Proof.
    intros R W d f nb H. apply notebook_sound in H. destruct (reached_read p q _ _ R H) as (es & c & N).
    exact (trouble_no q e W es c N).
  Qed.
  Lemma section_prevented p e : section_trouble p e -> forall f s, parse_section_file h f fs p <> Ok s.
  Proof. intros W f s H. apply section_file_settles in H. exact (section_trouble_no p e W s H). Qed.

  (** ** Kinds that say what happened *)
  Lemma toc_missing_means f d p : parse_notebook sanitise h d f fs p = Err TocFileMissing ->
    exists q dir files, reaches p q /\ lists q dir /\ fs_is_file fs dir = false /\
      fs_read_dir fs dir = Some (map Some files) /\ Forall (fun n => ~ toc_name n) files.
  Proof.
    intro H. apply notebook_blame in H as (q & R & W). exists q.
    inversion W as [|k I E| | |st k Hs Q I E| |r k L F S E| | |r files L F D Fa]; subst.
    - (apply toc_fault_kinds in I || apply no_store_kinds in I); cbn in I; intuition discriminate.
    - (apply toc_fault_kinds in I || apply no_store_kinds in I); cbn in I; intuition discriminate.
    - exfalso. inversion S as [|k' I E| | |? ? ? k' ? ? ? I E]; subst; try (apply fault_kinds in I || apply no_store_kinds in I); cbn in I; intuition discriminate.
    - exists r, files. auto.
  Qed.
  Lemma not_section_means f d p : parse_notebook sanitise h d f fs p = Err NotASectionFile ->
    exists q file st, reaches p q /\ lists q file /\ fs_is_file fs file = true /\
      holds_store file st /\ st_schema st <> 0x1F937CB4B26F445FB9F817E20160E461%N.
  Proof.
    intro H. apply notebook_blame in H as (q & R & W). exists q.
    inversion W as [|k I E| | |st k Hs Q I E| |r k L F S E| | |]; subst.
    - (apply toc_fault_kinds in I || apply no_store_kinds in I); cbn in I; intuition discriminate.
    - (apply toc_fault_kinds in I || apply no_store_kinds in I); cbn in I; intuition discriminate.
    - inversion S as [|k' I E|st Hs N| |? ? ? k' ? ? ? I E]; subst; try (apply fault_kinds in I || apply no_store_kinds in I); try (cbn in I; intuition discriminate).
      exists r, st. auto.
  Qed.
  Lemma not_toc_means f d p : parse_notebook sanitise h d f fs p = Err NotATocFile ->
    exists q st, reaches p q /\ holds_store q st /\ st_schema st <> 0xE4DBFD38E5C7408BA8A10E7B421E1F5F%N.
  Proof.
    intro H. apply notebook_blame in H as (q & R & W). exists q.
    inversion W as [|k I E|st Hs N| |st k Hs Q I E| |r k L F S E| | |]; subst.
    - (apply toc_fault_kinds in I || apply no_store_kinds in I); cbn in I; intuition discriminate.
    - exists st. auto.
    - (apply toc_fault_kinds in I || apply no_store_kinds in I); cbn in I; intuition discriminate.
    - exfalso. inversion S as [|k' I E| | |? ? ? k' ? ? ? I E]; subst; try (apply fault_kinds in I || apply no_store_kinds in I); cbn in I; intuition discriminate.
  Qed.
End Blame.
