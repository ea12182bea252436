(** Paths and notebooks against SpecNotebook.v. *)
From Coq Require Import Lia ZifyBool ZifyNat ZifyN Permutation Relations.
From Verif Require Import Base Codec Package PropSet PropIds Store Shapes Props Nodes Doc SpecCodec SpecStore SpecValues SpecNodes
  NodesProofs NodesProofs2 NodesProofs3 StoreProofs StoreProofs2 StoreProofs3 PackageProofs PackageFacts SpecDoc DocProofs DocProofs3 DocProofs4 DocProofs5 DocProofs6
  SpecNotebook Notebook NotebookProofs.
Local Open Scope nat_scope.

Lemma picks_fun {A} (P : A -> Prop) l r r' : picks P l r -> picks P l r' -> r = r'.
Proof.
  intros H. revert r'. induction H as [|a l r Pa H IH|a l r Pa H IH]; intros r' H'; inversion H'; subst; auto; try contradiction.
  f_equal. auto.
Qed.
Lemma picks_filter {A} (P : A -> Prop) (f : A -> bool) l : (forall a, f a = true <-> P a) -> picks P l (filter f l).
Proof.
  intros H. induction l as [|a l IH]; cbn; [constructor|]. destruct (f a) eqn:E.
  - apply pk_take; [now apply H|exact IH].
  - apply pk_skip; [|exact IH]. intros Pa. apply H in Pa. congruence.
Qed.
Lemma picks_filter_iff {A} (P : A -> Prop) (f : A -> bool) l r : (forall a, f a = true <-> P a) ->
  filter f l = r <-> picks P l r.
Proof.
  intros H. split; [intros <-; now apply picks_filter|]. intros Hp. exact (picks_fun _ _ _ _ (picks_filter _ _ _ H) Hp).
Qed.
Lemma picks_in {A} (P : A -> Prop) l r a : picks P l r -> In a r <-> In a l /\ P a.
Proof.
  intros H. induction H as [|b l r Pb H IH|b l r Pb H IH]; cbn in *; [tauto|rewrite IH|rewrite IH]; split.
  - intros [<-|(H1 & H2)]; auto.
  - intros ([<-|H1] & H2); auto.
  - intros (H1 & H2); auto.
  - intros ([<-|H1] & H2); [contradiction|auto].
Qed.

(** ** Splitting at slashes *)
Lemma split_pieces e : pieces e (split_slash e).
Proof.
  induction e as [|c e (N & F & E)]; cbn.
  - split; [discriminate|]. split; [constructor; [intros []|constructor]|reflexivity].
  - destruct (split_slash e) as [|w ws]; [easy|]. unfold slash. destruct (N.eqb_spec c 47) as [->|Hc].
    + split; [discriminate|]. split; [constructor; [intros []|exact F]|].
      change (47%N :: e = [] ++ 47%N :: join (w :: ws)). now rewrite <- E.
    + split; [discriminate|]. inversion F as [|x y Hw Hws]; subst. split.
      * constructor; [|exact Hws]. intros [->|H]; [easy|now apply Hw].
      * destruct ws; cbn in *; reflexivity.
Qed.
Lemma split_single w : ~ In 47%N w -> split_slash w = [w].
Proof.
  induction w as [|c w IH]; intros H; [reflexivity|]. cbn. rewrite IH by (intros K; apply H; now right).
  unfold slash. destruct (N.eqb_spec c 47) as [->|Hc]; [destruct H; now left|reflexivity].
Qed.
Lemma split_app w r : ~ In 47%N w -> split_slash (w ++ 47%N :: r) = w :: split_slash r.
Proof.
  induction w as [|c w IH]; intros H.
  - cbn. destruct (split_pieces r) as (N & _ & _). now destruct (split_slash r).
  - cbn [app]. cbn [split_slash]. rewrite IH by (intros K; apply H; now right).
    unfold slash. destruct (N.eqb_spec c 47) as [->|Hc]; [destruct H; now left|reflexivity].
Qed.
Lemma pieces_split e ws : pieces e ws -> split_slash e = ws.
Proof.
  intros (N & F & ->). induction F as [|w ws Hw F IH]; [easy|]. destruct ws as [|w' ws]; [now apply split_single|].
  change (join (w :: w' :: ws)) with (w ++ 47%N :: join (w' :: ws)). rewrite split_app by exact Hw. rewrite IH by discriminate. reflexivity.
Qed.

Lemma piece_cases w :
  (~ not_dot w /\ piece w = []) \/ (w = [46%N; 46%N] /\ piece w = [ParentDir]) \/
  (not_dot w /\ w <> [46%N; 46%N] /\ piece w = [Normal w]).
Proof.
  unfold piece, not_dot, dot.
  destruct (name_eqb w []) eqn:E1; [apply name_eqb_eq in E1; left; split; [tauto|reflexivity]|apply name_eqb_neq in E1].
  destruct (name_eqb w [46%N]) eqn:E2; [apply name_eqb_eq in E2; left; split; [tauto|reflexivity]|apply name_eqb_neq in E2].
  destruct (name_eqb w [46%N; 46%N]) eqn:E3; [apply name_eqb_eq in E3|apply name_eqb_neq in E3]; tauto.
Qed.
Definition clean (sanitise : name -> name) (n : name) : Prop := n <> [46%N; 46%N] /\ sanitise n = n.
Lemma sanitize_iff sanitise ws q :
  sanitize_components sanitise (flat_map piece ws) = Ok q <->
  exists ns, picks not_dot ws ns /\ Forall (clean sanitise) ns /\ q = map Normal ns.
Proof.
  revert q. induction ws as [|w ws IH]; intros q.
  - cbn. split; [intros [= <-]; exists []; repeat constructor|]. intros (ns & H & _ & ->). inversion H. reflexivity.
  - cbn [flat_map]. destruct (piece_cases w) as [(Hd & ->)|[(Hd & ->)|(Hd & Hp & ->)]]; cbn [app].
    + rewrite IH. split; intros (ns & H & R); exists ns; (split; [|exact R]).
      * now apply pk_skip.
      * inversion H; subst; [contradiction|assumption].
    + cbn. split; [discriminate|]. intros (ns & H & R & _). subst w. inversion H as [|a l r Pa H'|a l r Pa H']; subst.
      * inversion R as [|x y (Hx & _) _]; now subst.
      * destruct Pa. split; discriminate.
    + cbn [sanitize_components]. destruct (name_eqb (sanitise w) w) eqn:E.
      * apply name_eqb_eq in E. rewrite bind_ok. split.
        -- intros (r & Hr & [= <-]). apply IH in Hr as (ns & H & R & ->). exists (w :: ns). split; [now apply pk_take|].
           split; [now repeat constructor|reflexivity].
        -- intros (ns & H & R & ->). inversion H as [|a l r Pa H'|a l r Pa H']; subst; [|contradiction].
           exists (map Normal r). split; [|reflexivity]. apply IH. exists r. inversion R; auto.
      * apply name_eqb_neq in E. split; [discriminate|]. intros (ns & H & R & _).
        inversion H as [|a l r Pa H'|a l r Pa H']; subst; [|contradiction]. inversion R as [|x y (_ & Hx) _]; now subst.
Qed.
Lemma sanitize_err sanitise cs : sanitize_components sanitise cs = Err InvalidPath \/ exists q, sanitize_components sanitise cs = Ok q.
Proof.
  induction cs as [|c cs IH]; [right; now exists []|]. destruct c; cbn; auto.
  destruct (name_eqb _ _); [|now left]. destruct IH as [->|(q & ->)]; [now left|right; eexists; reflexivity].
Qed.
Lemma components_relative sanitise e : is_absolute e = false ->
  sanitize_components sanitise (components e) = sanitize_components sanitise (flat_map piece (split_slash e)).
Proof.
  intros H. unfold components. destruct (split_pieces e) as (N & _ & _). destruct e as [|c e]; [reflexivity|].
  unfold is_absolute in H. destruct (split_slash (c :: e)) as [|w ws]; [easy|]. rewrite H.
  destruct (name_eqb w [dot]) eqn:E; [|reflexivity]. apply name_eqb_eq in E as ->. reflexivity.
Qed.

Lemma component_eqb_eq a b : component_eqb a b = true <-> a = b.
Proof.
  destruct a, b; cbn; split; try discriminate; auto.
  - intros H. now apply name_eqb_eq in H as ->.
  - intros [= ->]. now apply name_eqb_eq.
Qed.
Lemma starts_iff p base : starts_with p base = true <-> below_path p base.
Proof.
  unfold below_path. revert p. induction base as [|b base IH]; intros p; [split; [intros _; now exists p|now destruct p]|].
  destruct p as [|c p]; cbn [starts_with app].
  - split; [discriminate|]. intros (r & H). discriminate H.
  - rewrite andb_true_iff, component_eqb_eq, IH. split.
    + intros (-> & r & ->). now exists r.
    + intros (r & H). injection H as -> ->. eauto.
Qed.

Lemma absolute_iff e : is_absolute e = true <-> hd_error e = Some 47%N.
Proof. destruct e as [|c e]; cbn; [split; discriminate|]. unfold slash. rewrite N.eqb_eq. split; congruence. Qed.
Lemma resolve_ok sanitise fs base e p :
  resolve_entry_path sanitise fs base e = Ok p <-> resolves sanitise fs base e p.
Proof.
  unfold resolve_entry_path, resolves. destruct (is_absolute e) eqn:Ab.
  { split; [discriminate|]. intros (ws & ns & _ & H & _). apply absolute_iff in Ab. contradiction. }
  rewrite components_relative by exact Ab. rewrite bind_ok. split.
  - intros (q & Hq & H). apply sanitize_iff in Hq as (ns & Hp & Hc & ->). exists (split_slash e), ns.
    split; [apply split_pieces|]. split; [intros K; apply absolute_iff in K; congruence|]. split; [exact Hp|].
    destruct ns as [|n ns]; [discriminate H|]. split; [discriminate|]. split; [exact Hc|].
    cbn [map] in H. change (Normal n :: map Normal ns) with (map Normal (n :: ns)) in H. set (c := base ++ map Normal (n :: ns)) in *. unfold contained.
    destruct (fs_exists fs c) eqn:Ex.
    + apply bind_ok in H as (cb & Hb & H). apply bind_ok in H as (cp & Hcp & H).
      destruct (starts_with cp cb) eqn:Es; [|discriminate H]. injection H as <-. split; [reflexivity|]. intros _.
      exists cb, cp. split; [destruct (fs_canonicalize fs base); [now injection Hb as ->|discriminate Hb]|].
      split; [destruct (fs_canonicalize fs c); [now injection Hcp as ->|discriminate Hcp]|]. now apply starts_iff.
    + injection H as <-. split; [reflexivity|]. congruence.
  - intros (ws & ns & Hw & Hh & Hp & Hn & Hc & -> & Hct). apply pieces_split in Hw as <-.
    exists (map Normal ns). split; [apply sanitize_iff; exists ns; auto|]. destruct ns as [|n ns]; [easy|].
    cbn [map]. change (Normal n :: map Normal ns) with (map Normal (n :: ns)). set (c := base ++ map Normal (n :: ns)) in *. unfold contained in Hct.
    destruct (fs_exists fs c) eqn:Ex; [|reflexivity]. destruct (Hct eq_refl) as (cb & cp & -> & -> & Hs).
    cbn. apply starts_iff in Hs as ->. reflexivity.
Qed.
Lemma resolve_cases sanitise fs base e :
  resolve_entry_path sanitise fs base e = Err InvalidPath \/ exists p, resolve_entry_path sanitise fs base e = Ok p.
Proof.
  unfold resolve_entry_path. destruct (is_absolute e); [now left|].
  destruct (sanitize_err sanitise (components e)) as [->|(q & ->)]; [now left|]. cbn.
  destruct q as [|c q]; [now left|]. destruct (fs_exists fs _); [|right; eexists; reflexivity].
  destruct (fs_canonicalize fs base); [|now left]. cbn. destruct (fs_canonicalize fs _); [|now left]. cbn.
  destruct (starts_with _ _); [right; eexists; reflexivity|now left].
Qed.
Lemma resolve_ret sanitise fs base e : returns (resolve_entry_path sanitise fs base e).
Proof. destruct (resolve_cases sanitise fs base e) as [->|(p & ->)]; exact I. Qed.

(** ** Ends of paths, directories *)
Lemma rev_last {A} (l : list A) x r : rev l = x :: r <-> l = rev r ++ [x].
Proof.
  split; intros H.
  - rewrite <- (rev_involutive l), H. reflexivity.
  - rewrite H, rev_app_distr, rev_involutive. reflexivity.
Qed.
Lemma parent_iff p base : parent p = Some base <-> exists c, ends_in p base c /\ c <> RootDir.
Proof.
  unfold parent, ends_in. destruct (rev p) as [|x r] eqn:E.
  - split; [discriminate|]. intros (c & -> & _). rewrite rev_app_distr in E. discriminate E.
  - apply rev_last in E. subst p. split.
    + intros H. assert (B : base = rev r /\ x <> RootDir) by (destruct x; try discriminate H; injection H as <-; (split; [reflexivity|discriminate])).
      destruct B as (-> & B). eauto.
    + intros (c & H & Hc). apply app_inj_tail in H as (<- & <-). now destruct x.
Qed.
Lemma file_name_iff p n : file_name p = Some n <-> exists base, ends_in p base (Normal n).
Proof.
  unfold file_name, ends_in. destruct (rev p) as [|x r] eqn:E.
  - split; [discriminate|]. intros (base & ->). rewrite rev_app_distr in E. discriminate E.
  - apply rev_last in E. subst p. split.
    + intros H. destruct x; try discriminate H. injection H as ->. eauto.
    + intros (b & H). apply app_inj_tail in H as (_ & ->). reflexivity.
Qed.
Lemma recycle_iff p : is_recycle_bin p = true <-> recycled p.
Proof.
  unfold is_recycle_bin, recycled, ends_in. destruct (rev p) as [|x r] eqn:E.
  - split; [discriminate|]. intros (b & ->). rewrite rev_app_distr in E. discriminate E.
  - apply rev_last in E. subst p. split.
    + intros H. destruct x as [| | |n]; try discriminate H. apply name_eqb_eq in H as ->. exists (rev r). reflexivity.
    + intros (b & H). apply app_inj_tail in H as (_ & ->). now apply name_eqb_eq.
Qed.
Lemma rev_ext_iff r : forall acc e, rev_ext acc r = Some e <->
  exists u v, r = u ++ dot :: v /\ ~ In dot u /\ v <> [] /\ e = rev u ++ acc.
Proof.
  induction r as [|c r IH]; intros acc e; cbn.
  - split; [discriminate|]. intros ([|] & v & [=] & _).
  - destruct (N.eqb_spec c dot) as [->|Hc].
    + split.
      * intros H. destruct r as [|c' r]; [discriminate H|]. injection H as <-. exists [], (c' :: r). repeat split; auto; discriminate.
      * intros (u & v & E & Hu & Hv & ->). destruct u as [|x u]; [|injection E as <- _; destruct Hu; now left].
        cbn in *. injection E as <-. now destruct r.
    + rewrite IH. split.
      * intros (u & v & -> & Hu & Hv & ->). exists (c :: u), v. cbn. rewrite <- app_assoc. repeat split; auto.
        intros [->|H]; auto.
      * intros ([|x u] & v & E & Hu & Hv & ->); cbn in E; [injection E as -> _; easy|]. injection E as <- ->.
        exists u, v. cbn. rewrite <- app_assoc. repeat split; auto. intros H. apply Hu. now right.
Qed.
Lemma toc_name_iff n : (exists e, extension n = Some e /\ name_eqb e onetoc2 = true) <-> toc_name n.
Proof.
  unfold extension, toc_name. split.
  - intros (e & H & E). apply name_eqb_eq in E as ->. apply rev_ext_iff in H as (u & v & R & Hu & Hv & E).
    rewrite app_nil_r in E. exists (rev v). split.
    + intros K. apply Hv. rewrite <- (rev_involutive v), K. reflexivity.
    + rewrite <- (rev_involutive n), R, rev_app_distr. cbn [rev]. rewrite <- E, <- app_assoc. reflexivity.
  - intros (s & Hs & ->). exists onetoc2. split; [|now apply name_eqb_eq].
    apply rev_ext_iff. exists (rev onetoc2), (rev s). split; [now rewrite rev_app_distr|]. split.
    + cbv. intuition discriminate.
    + split; [|reflexivity]. intros K. apply Hs. rewrite <- (rev_involutive s), K. reflexivity.
Qed.
Lemma toc_name_dec n : toc_name n \/ ~ toc_name n.
Proof.
  rewrite <- toc_name_iff. destruct (extension n) as [e|]; [|right; intros (e & [=] & _)].
  destruct (name_eqb e onetoc2) eqn:E; [left; eauto|right; intros (e' & [= <-] & K); congruence].
Qed.
Lemma find_step n r : find_toc (Some n :: r) =
  match extension n with Some e => if name_eqb e onetoc2 then Ok n else find_toc r | None => find_toc r end.
Proof. reflexivity. Qed.
Lemma find_hit n r : toc_name n -> find_toc (Some n :: r) = Ok n.
Proof. intros H. apply toc_name_iff in H as (e & He & Hn). rewrite find_step, He, Hn. reflexivity. Qed.
Lemma find_miss n r : ~ toc_name n -> find_toc (Some n :: r) = find_toc r.
Proof.
  intros H. rewrite find_step. destruct (extension n) as [e|] eqn:E; [|reflexivity].
  destruct (name_eqb e onetoc2) eqn:K; [|reflexivity]. destruct H. apply toc_name_iff. eauto.
Qed.
Lemma find_iff files n : find_toc files = Ok n <-> first_toc files n.
Proof.
  unfold first_toc. induction files as [|[m|] files IH].
  - split; [discriminate|]. intros ([|b l] & after & [=] & _).
  - destruct (toc_name_dec m) as [Hm|Hm].
    + rewrite find_hit by exact Hm. split.
      * intros [= <-]. exists [], files. auto.
      * intros ([|b l] & after & E & Hn & F); cbn in E.
        -- now injection E as -> _.
        -- injection E as -> _. inversion F; contradiction.
    + rewrite find_miss by exact Hm. rewrite IH. split.
      * intros (before & after & -> & Hn & F). exists (m :: before), after. repeat split; auto.
      * intros ([|b l] & after & E & Hn & F); cbn in E.
        -- injection E as -> _. contradiction.
        -- injection E as -> ->. inversion F; subst. eauto.
  - cbn. split; [discriminate|]. intros ([|b l] & after & E & _); discriminate E.
Qed.

(** ** Opening a file *)
Lemma walk_mono_ok f f' ctx sp si pk cache id objs rts r :
  f <= f' -> revision_walk f ctx sp si pk cache id objs rts = Ok r -> revision_walk f' ctx sp si pk cache id objs rts = Ok r.
Proof. intros L H. rewrite (walk_mono f f') by (auto; congruence). exact H. Qed.
Lemma space_mono h f f' m si pk cache r :
  f <= f' -> space_parse h f m si pk cache = Ok r -> space_parse h f' m si pk cache = Ok r.
Proof.
  intros L H. unfold space_parse in *. destruct (or_else _ _); [|exact H].
  apply bind_ok in H as (w & Hw & H). apply (walk_mono_ok f f') in Hw; [|exact L]. rewrite Hw. exact H.
Qed.
Lemma object_space_mono h f f' c si pk cache r :
  f <= f' -> parse_object_space h f c si pk cache = Ok r -> parse_object_space h f' c si pk cache = Ok r.
Proof.
  intros L H. unfold parse_object_space in *. apply bind_ok in H as (m & Hm & H). rewrite Hm. cbn.
  now apply (space_mono h f f').
Qed.
Lemma spaces_mono h f f' si pk cache done ms acc r :
  f <= f' -> parse_spaces h f si pk cache done ms acc = Ok r -> parse_spaces h f' si pk cache done ms acc = Ok r.
Proof.
  intros L. revert acc. induction ms as [|m ms IH]; intros acc H; [exact H|]. cbn [parse_spaces] in *.
  destruct (exguid_is_nil _); [auto|]. destruct (existsb _ _); [auto|].
  apply bind_ok in H as (x & Hx & H). apply (object_space_mono h f f') in Hx; [|exact L]. rewrite Hx. cbn. destruct x. auto.
Qed.
Lemma store_mono h f f' pg st : f <= f' -> parse_store h f pg = Ok st -> parse_store h f' pg = Ok st.
Proof.
  intros L H. unfold parse_store in *.
  do 8 (apply bind_ok in H as (? & E & H); rewrite E; cbn [rbind]; clear E).
  apply bind_ok in H as (y & Hy & H). apply (object_space_mono h f f') in Hy; [|exact L]. rewrite Hy. cbn [rbind]. destruct y as (i & root). clear Hy.
  apply bind_ok in H as (y & Hy & H). apply (spaces_mono h f f') in Hy; [|exact L]. rewrite Hy. exact H.
Qed.
Lemma open_mono h f f' bs st : f <= f' -> open_store h f bs = Ok st -> open_store h f' bs = Ok st.
Proof.
  intros L H. unfold open_store in *. apply bind_ok in H as (pg & Hp & H). rewrite Hp. cbn [rbind]. now apply (store_mono h f f').
Qed.
Lemma opens_settles h bs st : settles (fun f => open_store h f bs) st (opens h bs st).
Proof.
  split; [intros f H; now exists f|]. intros (k & H). exists k. intros n L. now apply (open_mono h k n).
Qed.
Lemma opens_fun h bs st st' : opens h bs st -> opens h bs st' -> st = st'.
Proof.
  intros H H'. apply opens_settles in H as (k & Hk). apply opens_settles in H' as (k' & Hk').
  specialize (Hk (k + k') ltac:(lia)). specialize (Hk' (k + k') ltac:(lia)). cbn in *. congruence.
Qed.
Lemma ok_or_iff {A} e (x : option A) a : ok_or e x = Ok a <-> x = Some a.
Proof. destruct x; cbn; split; congruence. Qed.
Lemma schema_iff (a b : N) : N.eqb a b = true <-> a = b. Proof. apply N.eqb_eq. Qed.

Lemma section_file_settles h fs p s : settles (fun f => parse_section_file h f fs p) s (section_at h fs p s).
Proof.
  split.
  - intros f H. unfold parse_section_file in H. apply bind_ok in H as (bs & Hb & H). apply ok_or_iff in Hb.
    apply bind_ok in H as (st & Hs & H). destruct (N.eqb (st_schema st) section_schema) eqn:E; [|discriminate H].
    apply N.eqb_eq in E. apply bind_ok in H as (n & Hn & H). apply ok_or_iff, file_name_iff in Hn as (base & Hn).
    apply section_settles in H. exists bs, st, base, n. repeat split; auto. now exists f.
  - intros (bs & st & base & n & Hb & Hs & E & Hn & H). apply opens_settles in Hs as (k & Hs). apply section_settles in H as (k' & H).
    exists (k + k'). intros f L. unfold parse_section_file. rewrite Hb. cbn [rbind ok_or]. rewrite Hs by lia. cbn [rbind].
    rewrite E. change (N.eqb _ section_schema) with true. cbn iota. assert (F : file_name p = Some n) by (apply file_name_iff; eauto).
    rewrite F. cbn [rbind ok_or]. apply H. lia.
Qed.

(** ** Notebooks *)
Definition load_entry (sanitise : name -> name) (h : order) (d fuel : nat) (fs : filesystem) (p : path) : res section_entry :=
  if fs_is_file fs p then
    let! s := parse_section_file h fuel fs p in Ok (EnSection s)
  else
    let! display_name := ok_or InvalidPath (file_name p) in
    let! files := ok_or IO (fs_read_dir fs p) in
    let! toc := find_toc files in
    let! group := parse_notebook sanitise h d fuel fs (p ++ [Normal toc]) in
    Ok (EnGroup display_name (nb_entries group)).
Definition shown_paths (fs : filesystem) (ps : list path) : list path :=
  filter (fun p => negb (is_recycle_bin p)) (filter (fs_exists fs) ps).
Lemma notebook_step sanitise h d fuel fs p :
  parse_notebook sanitise h (S d) fuel fs p =
    let! data := ok_or IO (fs_read fs p) in
    let! st := open_store h fuel data in
    if N.eqb (st_schema st) toc_schema then
      let! base_dir := ok_or InvalidPath (parent p) in
      let! (names, color) := parse_toc fuel (st_data_root st) in
      let! paths := map_res (resolve_entry_path sanitise fs base_dir) names in
      let! entries := map_res (load_entry sanitise h d fuel fs) (shown_paths fs paths) in
      Ok (Notebook_ entries color)
    else Err NotATocFile.
Proof. reflexivity. Qed.
Lemma filter_filter {A} (f g : A -> bool) l : filter f (filter g l) = filter (fun a => g a && f a) l.
Proof. induction l as [|a l IH]; cbn; [reflexivity|]. destruct (g a); cbn; [destruct (f a); now rewrite IH|exact IH]. Qed.
Lemma shown_iff fs ps r : shown_paths fs ps = r <-> picks (fun q => fs_exists fs q = true /\ ~ recycled q) ps r.
Proof.
  unfold shown_paths. rewrite filter_filter. apply picks_filter_iff. intros a. rewrite andb_true_iff, negb_true_iff, <- recycle_iff.
  destruct (is_recycle_bin a); intuition congruence.
Qed.

Lemma notebook_sound sanitise h fuel fs d : forall p nb,
  parse_notebook sanitise h d fuel fs p = Ok nb -> notebook_at sanitise h fs p (nb_entries nb) (nb_color nb).
Proof.
  induction d as [|d IH]; intros p nb H; [discriminate H|]. rewrite notebook_step in H.
  apply bind_ok in H as (bs & Hb & H). apply ok_or_iff in Hb. apply bind_ok in H as (st & Hs & H).
  destruct (N.eqb (st_schema st) toc_schema) eqn:E; [|discriminate H]. apply N.eqb_eq in E.
  apply bind_ok in H as (base & Hp & H). apply ok_or_iff, parent_iff in Hp as (c & Hp & Hc).
  apply bind_ok in H as ((names & color) & Ht & H). apply toc_settles in Ht.
  apply bind_ok in H as (ps & Hps & H). apply bind_ok in H as (es & Hes & H). injection H as <-. cbn [nb_entries nb_color].
  apply (na sanitise h fs p bs st base c names ps (shown_paths fs ps)); auto.
  - now exists fuel.
  - apply (map_ok _ (resolves sanitise fs base)) in Hps; [exact Hps|]. intros; apply resolve_ok.
  - now apply shown_iff.
  - apply map_res_ok in Hes. clear -Hes IH. induction Hes as [|q e qs es Hq H IHl]; constructor; auto. clear H IHl.
    unfold load_entry in Hq. destruct (fs_is_file fs q) eqn:F.
    + apply bind_ok in Hq as (s & Hs & Hq). injection Hq as <-. apply ea_section; [exact F|].
      now apply section_file_settles in Hs.
    + apply bind_ok in Hq as (n & Hn & Hq). apply ok_or_iff, file_name_iff in Hn as (b & Hn).
      apply bind_ok in Hq as (files & Hf & Hq). apply ok_or_iff in Hf. apply bind_ok in Hq as (toc & Ht & Hq). apply find_iff in Ht.
      apply bind_ok in Hq as (g & Hg & Hq). injection Hq as <-. apply (ea_group _ _ _ q b n files toc _ (nb_color g)); auto.
Qed.

(** Induction over notebooks. *)
Section Induct.
  Variables (sanitise : name -> name) (h : order) (fs : filesystem).
  Variables (P : path -> section_entry -> Prop) (Q : path -> list section_entry -> option color -> Prop).
  Hypothesis Hsec : forall p s, fs_is_file fs p = true -> section_at h fs p s -> P p (EnSection s).
  Hypothesis Hgrp : forall p base n files toc es c,
    fs_is_file fs p = false -> ends_in p base (Normal n) -> fs_read_dir fs p = Some files -> first_toc files toc ->
    Q (p ++ [Normal toc]) es c -> P p (EnGroup n es).
  Hypothesis Hnb : forall p bs st base last names ps shown es c,
    fs_read fs p = Some bs -> opens h bs st -> st_schema st = toc_schema ->
    ends_in p base last -> last <> RootDir -> toc_is (st_data_root st) names c ->
    Forall2 (resolves sanitise fs base) names ps ->
    picks (fun q => fs_exists fs q = true /\ ~ recycled q) ps shown ->
    Forall2 P shown es -> Q p es c.
  Fixpoint entry_induct p e (H : entry_at sanitise h fs p e) {struct H} : P p e :=
    match H in entry_at _ _ _ p e return P p e with
    | ea_section _ _ _ p s a b => Hsec p s a b
    | ea_group _ _ _ p base n files toc es c a b d f g =>
      Hgrp p base n files toc es c a b d f (notebook_induct _ _ _ g)
    end
  with notebook_induct p es c (H : notebook_at sanitise h fs p es c) {struct H} : Q p es c :=
    match H in notebook_at _ _ _ p es c return Q p es c with
    | na _ _ _ p bs st base last names ps shown es c a b d f g i j k F =>
      Hnb p bs st base last names ps shown es c a b d f g i j k
        ((fix go l ls (F : Forall2 (entry_at sanitise h fs) l ls) : Forall2 P l ls :=
            match F with
            | Forall2_nil _ => Forall2_nil _
            | @Forall2_cons _ _ _ a b l ls Hab F' => @Forall2_cons _ _ _ a b l ls (entry_induct _ _ Hab) (go _ _ F')
            end) _ _ F)
    end.
End Induct.

Lemma notebook_complete sanitise h fs p es c : notebook_at sanitise h fs p es c ->
  exists k, forall n, k <= n -> parse_notebook sanitise h n n fs p = Ok (Notebook_ es c).
Proof.
  cut (forall p es c, notebook_at sanitise h fs p es c ->
    exists k, forall d n, k <= d -> k <= n -> parse_notebook sanitise h d n fs p = Ok (Notebook_ es c)).
  { intros H H'. apply H in H' as (k & Hk). exists k. auto. }
  clear. intros p es c H.
  refine (notebook_induct sanitise h fs
    (fun q e => exists k, forall d n, k <= d -> k <= n -> load_entry sanitise h d n fs q = Ok e)
    (fun p es c => exists k, forall d n, k <= d -> k <= n -> parse_notebook sanitise h d n fs p = Ok (Notebook_ es c))
    _ _ _ p es c H); clear p es c H.
  - intros p s F Hs. apply section_file_settles in Hs as (k & Hk). exists k. intros d n _ L. unfold load_entry.
    rewrite F, Hk by lia. reflexivity.
  - intros p base n files toc es c F Hn Hf Ht (k & Hk). exists k. intros d f Ld Lf. unfold load_entry. rewrite F.
    assert (E : file_name p = Some n) by (apply file_name_iff; eauto). rewrite E, Hf. cbn [rbind ok_or].
    apply find_iff in Ht. rewrite Ht. cbn [rbind]. rewrite Hk by lia. reflexivity.
  - intros p bs st base last names ps shown es c Hb Hs E Hp Hl Ht Hps Hsh IH.
    apply opens_settles in Hs as (k1 & Hs). apply toc_settles in Ht as (k2 & Ht).
    assert (H : exists k, forall d n, k <= d -> k <= n -> map_res (load_entry sanitise h d n fs) shown = Ok es).
    { clear -IH. induction IH as [|q e qs es (k & Hk) H (k' & IH)]; [exists 0; reflexivity|].
      exists (k + k'). intros d n Ld Ln. cbn. rewrite Hk by lia. cbn. rewrite IH by lia. reflexivity. }
    destruct H as (k3 & H). exists (S (k1 + k2 + k3)). intros [|d] n Ld Ln; [lia|]. rewrite notebook_step.
    rewrite Hb. cbn [rbind ok_or]. rewrite Hs by lia. cbn [rbind]. apply N.eqb_eq in E. rewrite E.
    assert (Ep : parent p = Some base) by (apply parent_iff; eauto). rewrite Ep. cbn [rbind ok_or].
    rewrite Ht by lia. cbn [rbind]. apply (map_ok (resolve_entry_path sanitise fs base)) in Hps; [|intros; apply resolve_ok].
    rewrite Hps. cbn [rbind]. apply shown_iff in Hsh as ->. rewrite H by lia. reflexivity.
Qed.
Lemma notebook_iff sanitise h fs p es c :
  (exists depth fuel, parse_notebook sanitise h depth fuel fs p = Ok (Notebook_ es c)) <-> notebook_at sanitise h fs p es c.
Proof.
  split.
  - intros (d & f & H). apply notebook_sound in H. exact H.
  - intros H. apply notebook_complete in H as (k & Hk). exists k, k. now apply Hk.
Qed.
