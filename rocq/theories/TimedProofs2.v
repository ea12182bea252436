(** What a notebook read during changes is made of; which questions are asked; crashes
    and termination. *)
From Coq Require Import Lia ZifyBool ZifyNat ZifyN.
From Verif Require Import Base Codec SpecCodec Package PropSet Store SpecStore Props Nodes SpecNodes Doc SpecDoc Notebook SpecNotebook
  NodesProofs NodesProofs3 DocProofs DocProofs5 NotebookProofs NotebookProofs2 NotebookProofs3 Timed SpecTimed TimedProofs.
Local Open Scope nat_scope.

(** One entry, as the closure inside [io_notebook]. *)
Definition io_entry (sanitise : name -> name) (h : order) (d fuel : nat) (p : path) : io section_entry :=
  do! isf := ask (QIsFile p) in
  if (isf : bool) then
    do! s := io_section h fuel p in Done (Ok (EnSection s))
  else
    do! display_name := Done (ok_or InvalidPath (file_name p)) in
    do! dir := ask (QReadDir p) in
    do! files := Done (ok_or IO dir) in
    do! toc := Done (find_toc files) in
    do! group := io_notebook sanitise h d fuel (p ++ [Normal toc]) in
    Done (Ok (EnGroup display_name (nb_entries group))).
Definition io_rest (sanitise : name -> name) (h : order) (d fuel : nat) (p : path) (file : option (list N)) : io notebook :=
  do! data := Done (ok_or IO file) in
  do! st := Done (open_store h fuel data) in
  if N.eqb (st_schema st) toc_schema then
    do! base_dir := Done (ok_or InvalidPath (parent p)) in
    do! (names, color) := Done (parse_toc fuel (st_data_root st)) in
    do! paths := imap (io_resolve sanitise base_dir) names in
    do! entries := io_entries (io_entry sanitise h d fuel) paths in
    Done (Ok (Notebook_ entries color))
  else Done (Err NotATocFile).
Lemma io_step sanitise h d fuel p : io_notebook sanitise h (S d) fuel p = ibind (ask (QRead p)) (io_rest sanitise h d fuel p).
Proof. reflexivity. Qed.

(** ** Seen *)
Section Seen.
  Variables (sanitise : name -> name) (h : order) (w : world) (a b : nat).
  Definition during {A} (t : nat) (m : io A) (x : A) : Prop := a <= t /\ t + steps_of w t m <= b /\ run_io w t m = Ok x.
  Lemma during_bind {A B} t (m : io A) (f : A -> io B) y : during t (ibind m f) y ->
    exists x, during t m x /\ during (t + steps_of w t m) (f x) y.
  Proof.
    intros (L & U & H). rewrite run_bind in H. apply bind_ok in H as (x & Hx & H). exists x. unfold steps_of in U at 1.
    rewrite asked_bind, Hx, app_length in U. fold (steps_of w t m) in U. fold (steps_of w (t + steps_of w t m) (f x)) in U.
    split; [split; [exact L|split; [lia|exact Hx]]|split; [lia|split; [lia|exact H]]].
  Qed.
  Lemma during_ask t q x : during t (ask q) x -> once w a b (fun fs => reply fs q = x).
  Proof. intros (L & U & H). rewrite steps_ask in U. cbn in H. injection H as <-. exists t. split; [lia|reflexivity]. Qed.
  Lemma during_done {A} t (r : res A) x : during t (Done r) x -> r = Ok x.
  Proof. intros (_ & _ & H). exact H. Qed.
  Lemma during_map {A B} (f : A -> io B) (P : A -> B -> Prop) : (forall t x y, during t (f x) y -> P x y) ->
    forall l t ys, during t (imap f l) ys -> Forall2 P l ys.
  Proof.
    intros HP. induction l as [|x l IH]; intros t ys H.
    - apply during_done in H. injection H as <-. constructor.
    - cbn [imap] in H. apply during_bind in H as (y & Hy & H). apply during_bind in H as (ys' & Hys & H).
      apply during_done in H. injection H as <-. constructor; eauto.
  Qed.
  Lemma seen_resolve base e t p : during t (io_resolve sanitise base e) p -> resolves_seen sanitise w a b base e p.
  Proof.
    unfold io_resolve. intros H. destruct (is_absolute e) eqn:Ab; [now apply during_done in H|].
    apply during_bind in H as (q & Hq & H). apply during_done in Hq. rewrite components_relative in Hq by exact Ab.
    apply sanitize_iff in Hq as (ns & Hp & Hc & ->). exists (split_slash e), ns.
    split; [apply split_pieces|]. split; [intros K; apply absolute_iff in K; congruence|]. split; [exact Hp|].
    destruct ns as [|n ns]; [now apply during_done in H|]. split; [discriminate|]. split; [exact Hc|].
    cbn [map] in H |- *. set (c := base ++ Normal n :: map Normal ns) in *.
    apply during_bind in H as (ex & Hex & H). apply during_ask in Hex. cbn [reply] in Hex. destruct ex.
    - apply during_bind in H as (x & Hx & H). apply during_ask in Hx. apply during_bind in H as (cb & Hcb & H). apply during_done, ok_or_iff in Hcb. subst x.
      apply during_bind in H as (x & Hy & H). apply during_ask in Hy. apply during_bind in H as (cp & Hcp & H). apply during_done, ok_or_iff in Hcp. subst x.
      destruct (starts_with cp cb) eqn:Es; apply during_done in H; [|discriminate H]. injection H as <-. split; [reflexivity|]. right.
      exists cb, cp. split; [exact Hx|]. split; [exact Hy|]. now apply starts_iff.
    - apply during_done in H. injection H as <-. split; [reflexivity|]. now left.
  Qed.
  Lemma section_run fuel t p : run_io w t (io_section h fuel p) = parse_section_file h fuel (w t) p /\ asked w t (io_section h fuel p) = [QRead p].
  Proof.
    unfold io_section, parse_section_file. rewrite run_ask_bind, asked_ask_bind. cbn [reply]. rewrite run_done_bind, asked_done_bind.
    destruct (fs_read (w t) p); cbn [ok_or rbind]; [|split; reflexivity]. rewrite run_done_bind, asked_done_bind.
    destruct (open_store _ _ _) as [st| | |]; cbn [rbind]; try (split; reflexivity). destruct (N.eqb _ _); [|split; reflexivity].
    rewrite run_done_bind, asked_done_bind. destruct (file_name p); split; reflexivity.
  Qed.
  Lemma seen_section fuel t p s : during t (io_section h fuel p) s -> once w a b (fun fs => section_at h fs p s).
  Proof.
    intros (L & U & H). destruct (section_run fuel t p) as (E1 & E2). rewrite E1 in H. unfold steps_of in U. rewrite E2 in U. cbn in U.
    exists t. split; [lia|]. now apply section_file_settles in H.
  Qed.
  Lemma seen_entries (f : path -> io section_entry) (P : path -> section_entry -> Prop) : (forall t p e, during t (f p) e -> P p e) ->
    forall ps t es, during t (io_entries f ps) es -> exists shown, shown_seen w a b ps shown /\ Forall2 P shown es.
  Proof.
    intros HP. induction ps as [|p ps IH]; intros t es H.
    - apply during_done in H. injection H as <-. exists []. split; constructor.
    - cbn [io_entries] in H. apply during_bind in H as (ex & Hex & H). apply during_ask in Hex. cbn [reply] in Hex.
      destruct (ex && negb (is_recycle_bin p)) eqn:E.
      + apply andb_true_iff in E as (-> & E). apply negb_true_iff in E.
        apply during_bind in H as (e & He & H). apply during_bind in H as (es' & Hes & H). apply during_done in H. injection H as <-.
        destruct (IH _ _ Hes) as (shown & Hs & HF). exists (p :: shown). split; [|constructor; eauto].
        apply sh_take; [exact Hex| |exact Hs]. intros K. apply recycle_iff in K. congruence.
      + destruct (IH _ _ H) as (shown & Hs & HF). exists shown. split; [|exact HF]. apply sh_skip; [|exact Hs].
        destruct ex; [right|now left]. cbn in E. apply negb_false_iff in E. now apply recycle_iff.
  Qed.
  Lemma seen_notebook fuel d : forall t p nb, during t (io_notebook sanitise h d fuel p) nb ->
    notebook_seen sanitise h w a b p (nb_entries nb) (nb_color nb).
  Proof.
    induction d as [|d IH]; intros t p nb H; [now apply during_done in H|]. rewrite io_step in H.
    apply during_bind in H as (x & Hx & H). apply during_ask in Hx. cbn [reply] in Hx. unfold io_rest in H.
    apply during_bind in H as (bs & Hb & H). apply during_done, ok_or_iff in Hb. subst x.
    apply during_bind in H as (st & Hs & H). apply during_done in Hs.
    destruct (N.eqb (st_schema st) toc_schema) eqn:E; [|now apply during_done in H]. apply N.eqb_eq in E.
    apply during_bind in H as (base & Hp & H). apply during_done, ok_or_iff, parent_iff in Hp as (c & Hp & Hc).
    apply during_bind in H as ((names & color) & Ht & H). apply during_done in Ht. apply toc_settles in Ht.
    apply during_bind in H as (ps & Hps & H). apply during_bind in H as (es & Hes & H). apply during_done in H. injection H as <-.
    cbn [nb_entries nb_color].
    assert (HP : forall t p e, during t (io_entry sanitise h d fuel p) e -> entry_seen sanitise h w a b p e).
    { clear - IH. intros t p e H. unfold io_entry in H. apply during_bind in H as (f & Hf & H). apply during_ask in Hf. cbn [reply] in Hf. destruct f.
      - apply during_bind in H as (s & Hs & H). apply during_done in H. injection H as <-. apply es_section; [exact Hf|]. eapply seen_section, Hs.
      - apply during_bind in H as (n & Hn & H). apply during_done, ok_or_iff, file_name_iff in Hn as (base & Hn).
        apply during_bind in H as (x & Hx & H). apply during_ask in Hx. cbn [reply] in Hx.
        apply during_bind in H as (files & Hfs & H). apply during_done, ok_or_iff in Hfs. subst x.
        apply during_bind in H as (toc & Htoc & H). apply during_done, find_iff in Htoc.
        apply during_bind in H as (g & Hg & H). apply during_done in H. injection H as <-.
        apply (es_group _ _ _ _ _ p base n files toc _ (nb_color g)); auto. eapply IH, Hg. }
    destruct (seen_entries _ _ HP _ _ _ Hes) as (shown & Hsh & HF).
    apply (ns_notebook _ _ _ _ _ p bs st base c names ps shown); auto.
    - now exists fuel.
    - eapply during_map, Hps. intros; eapply seen_resolve; eassumption.
  Qed.
End Seen.
Lemma run_seen sanitise h w t d fuel p nb : run_io w t (io_notebook sanitise h d fuel p) = Ok nb ->
  notebook_seen sanitise h w t (t + length (asked w t (io_notebook sanitise h d fuel p))) p (nb_entries nb) (nb_color nb).
Proof. intros H. eapply seen_notebook. split; [apply le_n|split; [apply le_n|exact H]]. Qed.

(** ** Questions *)
Section Along.
  Variables (w : world).
  (** Every question of the run satisfies [P], the result satisfies [Post]. *)
  Definition along {A} (P : nat -> query -> Prop) (Post : A -> Prop) (t : nat) (m : io A) : Prop :=
    (forall i q, nth_error (asked w t m) i = Some q -> P (t + i) q) /\ forall x, run_io w t m = Ok x -> Post x.
  Lemma along_done {A} P (Post : A -> Prop) t r : (forall x, r = Ok x -> Post x) -> along P Post t (Done r).
  Proof. intros H. split; [intros [|i] q Hq; discriminate Hq|exact H]. Qed.
  Lemma along_ask (P : nat -> query -> Prop) t q (Post : answer q -> Prop) : P t q -> Post (reply (w t) q) -> along P Post t (ask q).
  Proof.
    intros Hp HP. split; [|intros x [= <-]; exact HP]. intros [|[|i]] q' Hq; try discriminate Hq. injection Hq as <-. now rewrite Nat.add_0_r.
  Qed.
  Lemma along_bind {A B} P (Mid : A -> Prop) (Post : B -> Prop) t m (f : A -> io B) :
    along P Mid t m -> (forall x t', t <= t' -> Mid x -> along P Post t' (f x)) -> along P Post t (ibind m f).
  Proof.
    intros (H1 & H2) Hf. split.
    - intros i q Hq. rewrite asked_bind in Hq. destruct (Nat.lt_ge_cases i (steps_of w t m)) as [L|L].
      + apply H1. now rewrite nth_error_app1 in Hq by exact L.
      + rewrite nth_error_app2 in Hq by exact L. destruct (run_io w t m) as [x| | |] eqn:E; try (now destruct (i - length (asked w t m))).
        destruct (Hf x (t + steps_of w t m) ltac:(lia) (H2 x eq_refl)) as (K & _). apply K in Hq. fold (steps_of w t m) in Hq.
        now replace (t + steps_of w t m + (i - steps_of w t m)) with (t + i) in Hq by lia.
    - intros x Hx. rewrite run_bind in Hx. apply bind_ok in Hx as (y & Hy & Hx).
      now apply (Hf y (t + steps_of w t m) ltac:(lia) (H2 y Hy)).
  Qed.
  Lemma along_weak {A} P (Q R : A -> Prop) t m : (forall x, Q x -> R x) -> along P Q t m -> along P R t m.
  Proof. intros H (H1 & H2). split; auto. Qed.
  Lemma along_map {A B} P (f : A -> io B) (Post : B -> Prop) l : forall t, (forall x t', t <= t' -> along P Post t' (f x)) ->
    along P (Forall Post) t (imap f l).
  Proof.
    induction l as [|x l IH]; intros t H; cbn [imap].
    - apply along_done. intros y [= <-]. constructor.
    - eapply along_bind; [apply H, le_n|]. intros y t' L Hy. eapply along_bind; [apply IH; intros; apply H; lia|].
      intros ys t'' L' Hys. apply along_done. intros z [= <-]. now constructor.
  Qed.
  Lemma along_entries (P : nat -> query -> Prop) (f : path -> io section_entry) ps (In_ : path -> Prop) : Forall In_ ps -> forall t,
    (forall p t', t <= t' -> In_ p -> P t' (QExists p)) -> (forall p t', t <= t' -> In_ p -> along P (fun _ => True) t' (f p)) ->
    along P (fun _ => True) t (io_entries f ps).
  Proof.
    intros F. induction F as [|p ps Hp F IH]; intros t He Hf; cbn [io_entries].
    - apply along_done. auto.
    - eapply (along_bind P (fun _ => True)); [apply along_ask; [apply He; auto|exact I]|]. intros ex t' L _. destruct (_ && _).
      + eapply along_bind; [apply Hf; [lia|exact Hp]|]. intros e t'' L' _. eapply along_bind; [apply IH; intros; [apply He|apply Hf]; auto; lia|].
        intros es t3 L3 _. apply along_done. auto.
      + apply IH; intros; [apply He|apply Hf]; auto; lia.
  Qed.
End Along.
Lemma along_in {A} w P (Post : A -> Prop) t m : along w (fun _ q => P q) Post t m -> forall q, In q (asked w t m) -> P q.
Proof. intros (H & _) q Hq. apply In_nth_error in Hq as (i & Hi). eapply H, Hi. Qed.

(** Where questions go. *)
Definition good_name (sanitise : name -> name) (n : name) : Prop :=
  n <> [] /\ n <> [46%N] /\ n <> [46%N; 46%N] /\ ~ In 47%N n /\ sanitise n = n.
Lemma good_pieces sanitise e ws ns : pieces e ws -> picks not_dot ws ns -> Forall (clean sanitise) ns -> Forall (good_name sanitise) ns.
Proof.
  intros (_ & Hw & _) Hp Hc. rewrite Forall_forall in *. intros n Hi. destruct (Hc n Hi) as (H1 & H4).
  apply (picks_in _ _ _ n Hp) in Hi as (Hi & H2 & H3). repeat split; auto.
Qed.
Section Inside.
  Variables (sanitise : name -> name) (h : order) (w : world) (fuel : nat) (base : path) (p0 : path).
  Definition fine (n : name) : Prop := good_name sanitise n \/ toc_name n.
  Definition at_home (p : path) : Prop := exists ns, p = base ++ map Normal ns /\ Forall fine ns.
  Definition asks_ok (q : query) : Prop := q = QRead p0 \/ at_home (about_path q).
  Notation al := (along w (fun _ q => asks_ok q)).
  Lemma at_home_app q ns : at_home q -> Forall fine ns -> at_home (q ++ map Normal ns).
  Proof. intros (ms & -> & F) F'. exists (ms ++ ns). split; [now rewrite map_app, app_assoc|now apply Forall_app]. Qed.
  Lemma inside_resolve b e t : at_home b -> al at_home t (io_resolve sanitise b e).
  Proof.
    intros Hb. unfold io_resolve. destruct (is_absolute e) eqn:Ab; [now apply along_done|].
    eapply (along_bind w _ (fun q => exists ns, q = map Normal ns /\ Forall fine ns)).
    { apply along_done. intros x Hx. rewrite components_relative in Hx by exact Ab. apply sanitize_iff in Hx as (ns & Hp & Hc & ->).
      exists ns. split; [reflexivity|]. eapply Forall_impl; [intros n Hn; left; exact Hn|]. eapply good_pieces; eauto using split_pieces. }
    intros q t1 _ (ns & -> & F). assert (Hc : at_home (b ++ map Normal ns)) by now apply at_home_app.
    destruct (map Normal ns) as [|c cs]; [now apply along_done|].
    eapply (along_bind w _ (fun _ => True)); [apply along_ask; [now right|exact I]|]. intros ex t2 _ _. destruct ex.
    - eapply (along_bind w _ (fun _ => True)); [apply along_ask; [now right|exact I]|]. intros x t3 _ _.
      eapply (along_bind w _ (fun _ => True)); [now apply along_done|]. intros cb t4 _ _.
      eapply (along_bind w _ (fun _ => True)); [apply along_ask; [now right|exact I]|]. intros y t5 _ _.
      eapply (along_bind w _ (fun _ => True)); [now apply along_done|]. intros cp t6 _ _.
      destruct (starts_with cp cb); apply along_done; [|discriminate]. intros z [= <-]. exact Hc.
    - apply along_done. intros z [= <-]. exact Hc.
  Qed.
  Lemma inside_section p t : at_home p -> al (fun _ => True) t (io_section h fuel p).
  Proof.
    intros Hp. destruct (section_run h w fuel t p) as (_ & E). split; [|auto]. intros i q Hq.
    rewrite E in Hq.
    destruct i as [|[|i]]; try discriminate Hq. injection Hq as <-. now right.
  Qed.
  Lemma inside_notebook d : forall t p b, parent p = Some b -> at_home b -> (p = p0 \/ at_home p) ->
    al (fun _ => True) t (io_notebook sanitise h d fuel p).
  Proof.
    induction d as [|d IH]; intros t p b Hp Hb Hq; [now apply along_done|]. rewrite io_step.
    eapply (along_bind w _ (fun _ => True)); [apply along_ask; [destruct Hq as [->|Hq]; [now left|now right]|exact I]|]. intros x t1 _ _.
    unfold io_rest. eapply (along_bind w _ (fun _ => True)); [now apply along_done|]. intros bs t2 _ _.
    eapply (along_bind w _ (fun _ => True)); [now apply along_done|]. intros st t3 _ _. destruct (N.eqb _ _); [|now apply along_done].
    rewrite Hp. cbn [ok_or]. rewrite ibind_done_ok. eapply (along_bind w _ (fun _ => True)); [now apply along_done|]. intros (names, c) t4 _ _.
    eapply (along_bind w _ (Forall at_home)); [apply along_map; intros; now apply inside_resolve|]. intros ps t5 _ F.
    eapply (along_bind w _ (fun _ => True)); [|intros; now apply along_done].
    eapply along_entries; [exact F|intros; now right|]. intros q t6 _ Hh. unfold io_entry.
    eapply (along_bind w _ (fun _ => True)); [apply along_ask; [now right|exact I]|]. intros f t7 _ _. destruct f.
    - eapply along_bind; [now apply inside_section|]. intros; now apply along_done.
    - eapply (along_bind w _ (fun _ => True)); [now apply along_done|]. intros n t8 _ _.
      eapply (along_bind w _ (fun _ => True)); [apply along_ask; [now right|exact I]|]. intros dir t9 _ _.
      eapply (along_bind w _ (fun _ => True)); [now apply along_done|]. intros files t10 _ _.
      eapply (along_bind w _ toc_name); [apply along_done; intros toc Ht; now apply find_iff in Ht as (? & ? & _ & Ht & _)|]. intros toc t11 _ Ht.
      eapply along_bind; [|intros; now apply along_done]. apply (IH _ _ q).
      + apply parent_snoc. discriminate.
      + exact Hh.
      + right. apply (at_home_app q [toc]); [exact Hh|]. constructor; [now right|constructor].
  Qed.
End Inside.
Lemma inside sanitise h w t d fuel p base last q : ends_in p base last -> last <> RootDir ->
  In q (asked w t (io_notebook sanitise h d fuel p)) ->
  q = QRead p \/ exists ns, about_path q = base ++ map Normal ns /\ Forall (fine sanitise) ns.
Proof.
  intros -> Hl Hq. eapply (along_in w (asks_ok sanitise base (base ++ [last])) (fun _ => True)); [|exact Hq].
  apply inside_notebook with (b := base); [now apply parent_snoc| |now left]. exists []. split; [now rewrite app_nil_r|constructor].
Qed.
