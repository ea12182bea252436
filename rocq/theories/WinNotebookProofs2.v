(** Notebooks on Windows: the same directory is read as on Unix; what a notebook depends
    on; termination. *)
From Coq Require Import Lia ZifyBool ZifyNat ZifyN.
From Verif Require Import Base Codec Package PropSet PropIds Store Shapes Props Nodes Doc SpecCodec SpecStore SpecValues SpecNodes
  BaseProofs NodesProofs NodesProofs2 NodesProofs3 SpecDoc DocProofs SpecNotebook Notebook NotebookProofs NotebookProofs2 NotebookProofs3
  Windows SpecWindows WindowsProofs WinNotebook SpecWinNotebook WinNotebookProofs.
Local Open Scope nat_scope.

(** ** Names *)
Lemma wpieces_chars c e ws : wpieces e ws -> In c e -> separator c \/ exists w, In w ws /\ In c w.
Proof.
  induction 1 as [w F|w d r ws F S P IH]; intro I.
  - right. exists w. split; [now left|exact I].
  - apply in_app_or in I as [I|[<-|I]]; [right; exists w; split; [now left|exact I]|now left|].
    destruct (IH I) as [H|(x & X & H)]; [now left|right; exists x; split; [now right|exact H]].
Qed.
Lemma lexical_no_colon sanitise base e p ns : windows_safe sanitise -> wlexical sanitise base e p ns -> ~ In 58%N e.
Proof.
  intros Safe (ws & W & _ & _ & Hp & _ & Hc & _) I. destruct (wpieces_chars _ _ _ W I) as [[H|H]|(w & Iw & Ic)]; try discriminate H.
  assert (D : not_dot w) by (split; intros ->; [destruct Ic|destruct Ic as [H|[]]; discriminate H]).
  assert (J : In w ns) by (apply (picks_in _ _ _ w Hp); auto). rewrite Forall_forall in Hc. destruct (Hc w J) as (_ & E). now destruct (Safe w _ E Ic).
Qed.
Lemma unix_answers sanitise fs base e : (exists p, resolve_entry_path sanitise fs base e = Ok p) \/ resolve_entry_path sanitise fs base e = Err InvalidPath.
Proof. destruct (resolve_cases sanitise fs base e); auto. Qed.

Section Both.
  Variables (other : wtext -> option nat) (sanitise : name -> name) (W : wdisk) (F : filesystem) (base : wtext) (ubase : path) (B : Prop).
  Hypothesis Safe : windows_safe sanitise.
  Hypothesis Same : same_directory other W F base ubase.
  Definition st (t : wtext) (p : path) : Prop :=
    exists ns, ns <> [] /\ Forall wproper ns /\ spells other base ns t /\ p = ubase ++ map Normal ns.

  Lemma contained_both ms ns dir t : Forall wproper ms -> Forall wproper ns -> spells other base ms dir -> spells other base (ms ++ ns) t ->
    wcontained other (wd_fs W) dir t <-> contained F (ubase ++ map Normal ms) (ubase ++ map Normal (ms ++ ns)).
  Proof.
    intros Fm Fn Sd St. assert (Fa : Forall wproper (ms ++ ns)) by (apply Forall_app; auto). unfold wcontained, contained, below_path.
    rewrite (sd_exists _ _ _ _ _ Same _ _ Fa St). pose proof (sd_inside _ _ _ _ _ Same _ _ _ _ Fm Fn Sd St) as C. unfold below_path in C. tauto.
  Qed.
  Lemma resolve_both ms dir e : Forall wproper ms -> spells other base ms dir -> B \/ ~ In 92%N e ->
    (exists t p, win_resolve other sanitise (wd_fs W) dir e = Ok t /\ resolve_entry_path sanitise F (ubase ++ map Normal ms) e = Ok p /\ st t p) \/
    (win_resolve other sanitise (wd_fs W) dir e = Err InvalidPath \/ B) /\ resolve_entry_path sanitise F (ubase ++ map Normal ms) e = Err InvalidPath.
  Proof.
    intros Fm Sd NB. destruct (unix_answers sanitise F (ubase ++ map Normal ms) e) as [(p & U)|U].
    - left. apply resolve_ok in U as R. pose proof R as (ws & ns & Hw & H0 & Hp & Nn & Hc & -> & Cn).
      assert (N1 : ~ In 92%N e /\ ~ In 58%N e) by (split; intro I; apply (unix_refuses sanitise F (ubase ++ map Normal ms) e _ Safe) in R; auto).
      destruct N1 as (N1 & N2). destruct (proj2 (both_platforms sanitise dir e ns N1 N2)) as (t & L); [now exists ws|].
      assert (Fn : Forall wproper ns).
      { rewrite Forall_forall in *. intros n I. destruct (Hc n I) as (K1 & K2). split; [intros c J; exact (Safe n c K2 J)|]. split; [apply (picks_in _ _ _ n Hp) in I as (_ & K); exact K|exact K1]. }
      assert (St : spells other base (ms ++ ns) t).
      { destruct L as (_ & _ & _ & _ & _ & _ & _ & Pl). now apply (placed_spells other base dir). }
      exists t, (ubase ++ map Normal (ms ++ ns)). rewrite map_app, app_assoc. split; [|split; [exact U|]].
      + apply (win_resolve_ok other sanitise (wd_fs W) dir e t Safe). split; [now exists ns|]. apply (contained_both ms ns dir t Fm Fn Sd St). rewrite map_app, app_assoc. exact Cn.
      + exists (ms ++ ns). split; [now destruct ms|]. split; [apply Forall_app; auto|]. split; [exact St|]. now rewrite map_app, app_assoc.
    - right. split; [|exact U]. destruct NB as [b|NB]; [now right|]. left. destruct (win_answers other sanitise (wd_fs W) dir e) as [(t & H)|H]; [|exact H]. exfalso.
      destruct (resolve_spells other sanitise (wd_fs W) base ms dir e t Safe Sd H) as (_ & _ & _ & _ & _ & _).
      apply (win_resolve_ok other sanitise (wd_fs W) dir e t Safe) in H as ((ns & L) & Cn).
      pose proof (lexical_no_colon _ _ _ _ _ Safe L) as NC. destruct (proj1 (both_platforms sanitise dir e ns NB NC)) as (ws & Hw & H0 & Hp & Nn & Hc); [now exists t|].
      assert (Fn : Forall wproper ns).
      { rewrite Forall_forall in *. intros n I. destruct (Hc n I) as (K1 & K2). split; [intros c J; exact (Safe n c K2 J)|]. split; [apply (picks_in _ _ _ n Hp) in I as (_ & K); exact K|exact K1]. }
      assert (St : spells other base (ms ++ ns) t).
      { destruct L as (_ & _ & _ & _ & _ & _ & _ & Pl). now apply (placed_spells other base dir). }
      assert (R : resolves sanitise F (ubase ++ map Normal ms) e ((ubase ++ map Normal ms) ++ map Normal ns)).
      { exists ws, ns. repeat (split; [assumption|]). split; [reflexivity|]. apply (contained_both ms ns dir t Fm Fn Sd St) in Cn. now rewrite map_app, app_assoc in Cn. }
      apply resolve_ok in R. congruence.
  Qed.
  Lemma resolve_all ms dir es : Forall wproper ms -> spells other base ms dir -> B \/ Forall (fun e => ~ In 92%N e) es ->
    (exists ts ps, map_res (win_resolve other sanitise (wd_fs W) dir) es = Ok ts /\
       map_res (resolve_entry_path sanitise F (ubase ++ map Normal ms)) es = Ok ps /\ Forall2 st ts ps) \/
    (map_res (win_resolve other sanitise (wd_fs W) dir) es = Err InvalidPath \/ B) /\
      map_res (resolve_entry_path sanitise F (ubase ++ map Normal ms)) es = Err InvalidPath.
  Proof.
    intros Fm Sd. induction es as [|e es IH]; intro NB; [left; exists [], []; auto|]. cbn [map_res].
    destruct (resolve_both ms dir e Fm Sd) as [(t & p & -> & -> & Hs)|(D & ->)]; [destruct NB as [b|NB]; [now left|right; now inversion NB]|..]; cbn [rbind].
    - destruct IH as [(ts & ps & -> & -> & Hf)|(D & ->)]; [destruct NB as [b|NB]; [now left|right; now inversion NB]|..]; cbn [rbind].
      + left. exists (t :: ts), (p :: ps). auto.
      + right. split; [|reflexivity]. destruct D as [->|b]; auto.
    - right. split; [|reflexivity]. destruct D as [->|b]; auto.
  Qed.

  (** The same, or Unix refuses a name where that may differ. *)
  Definition agrees {A} (x y : res A) : Prop := x = y \/ B /\ y = Err InvalidPath.
  Lemma agrees_bind {A C} (x y : res A) (f g : A -> res C) : agrees x y -> (forall a, x = Ok a -> agrees (f a) (g a)) -> agrees (rbind x f) (rbind y g).
  Proof.
    intros [->|(b & ->)] H; [|right; auto]. destruct y as [a| | |]; cbn [rbind]; [now apply H|left; reflexivity..].
  Qed.
  Lemma agrees_map {A} (f : wtext -> res A) g ts ps : Forall2 st ts ps -> (forall t p, st t p -> agrees (f t) (g p)) -> agrees (map_res f ts) (map_res g ps).
  Proof.
    intros H K. induction H as [|t p ts ps S H IH]; cbn [map_res]; [now left|]. apply agrees_bind; [now apply K|]. intros a _.
    apply agrees_bind; [exact IH|]. intros l _. now left.
  Qed.
  Lemma st_file_name t p : st t p -> exists n, w_last other t = Some (WNormal n) /\ file_name p = Some n /\ is_recycle_bin p = w_recycle_bin other t.
  Proof.
    intros (ns & Nn & _ & Sp & ->). destruct (exists_last Nn) as (m & n & ->). exists n. pose proof (spells_last _ _ _ _ _ Sp) as L. split; [exact L|].
    unfold file_name, is_recycle_bin, w_recycle_bin. rewrite L, map_app, app_assoc, rev_app_distr. cbn [map rev app]. auto.
  Qed.
  Lemma section_both h fuel t p : st t p -> w_parse_section_file other h fuel W t = parse_section_file h fuel F p.
  Proof.
    intro S0. destruct (st_file_name t p S0) as (n & L & E & _). destruct S0 as (ns & Nn & Fn & Sp & ->). unfold w_parse_section_file, parse_section_file, w_file_name.
    rewrite L, E, (sd_read _ _ _ _ _ Same _ _ Fn Sp). reflexivity.
  Qed.
  Lemma find_both t ns files : Forall wproper ns -> spells other base ns t -> (forall n, In (Some n) files -> wproper n) ->
    match find_toc files with
    | Ok n => w_find_toc other t files = Ok (wpush other t n) /\ wproper n
    | Err e => w_find_toc other t files = Err e
    | Panic => w_find_toc other t files = Panic
    | OutOfFuel => w_find_toc other t files = OutOfFuel
    end.
  Proof.
    intros Fn Sp. induction files as [|[n|] files IH]; intro P; cbn [find_toc w_find_toc]; try reflexivity.
    specialize (IH (fun n I => P n (or_intror I))). pose proof (P n (or_introl eq_refl)) as Pn. cbv zeta. unfold w_extension, w_file_name.
    rewrite (spells_last other base ns n) by (now apply push_spells). destruct (extension n) as [e|]; [|exact IH]. destruct (name_eqb e onetoc2); [auto|exact IH].
  Qed.
  Lemma filter_st f g ts ps : Forall2 st ts ps -> (forall t p, st t p -> f t = g p) -> Forall2 st (filter f ts) (filter g ps).
  Proof.
    intros H K. induction H as [|t p ts ps S0 H IH]; cbn [filter]; [constructor|]. rewrite (K t p S0). destruct (g p); [constructor; assumption|exact IH].
  Qed.
  Lemma notebook_both h fuel : (B \/ no_backslash h fuel F ubase) -> forall depth t p, st t p ->
    agrees (w_parse_notebook other sanitise h depth fuel W t) (parse_notebook sanitise h depth fuel F p).
  Proof.
    intro NB. induction depth as [|d IH]; intros t p S0; cbn [w_parse_notebook parse_notebook]; [now left|].
    destruct S0 as (ns & Nn & Fn & Sp & ->). rewrite (sd_read _ _ _ _ _ Same _ _ Fn Sp). destruct (fs_read F _) as [data|] eqn:Rd; cbn [ok_or rbind]; [|now left].
    destruct (open_store h fuel data) as [sto| | |] eqn:Os; cbn [rbind]; try now left. destruct (_ =? _)%N; [|now left].
    destruct (exists_last Nn) as (ms & n & ->). destruct (spells_parent _ _ _ _ _ Sp) as (dir & -> & Sd). apply Forall_app in Fn as (Fm & _).
    rewrite map_app, app_assoc. cbn [map]. rewrite parent_snoc by discriminate. cbn [ok_or rbind].
    destruct (parse_toc _ _) as [[names color]| | |] eqn:Pt; cbn [rbind]; try now left.
    assert (NB' : B \/ Forall (fun e => ~ In 92%N e) names) by (destruct NB as [b|NB]; [now left|right; exact (NB _ _ _ _ _ Rd Os Pt)]).
    destruct (resolve_all ms dir names Fm Sd NB') as [(ts & ps & -> & -> & Hf)|([->|b] & ->)]; cbn [rbind]; [|now left|now right].
    apply agrees_bind; [|intros; now left].
    apply agrees_map.
    - apply filter_st; [apply filter_st; [exact Hf|]|].
      + intros u q (k & _ & Fk & Sk & ->). exact (sd_exists _ _ _ _ _ Same _ _ Fk Sk).
      + intros u q Hs. destruct (st_file_name u q Hs) as (_ & _ & _ & ->). reflexivity.
    - intros u q Hs. pose proof Hs as (k & Nk & Fk & Sk & Ek). destruct (st_file_name u q Hs) as (x & Lx & Ex & _).
      assert (FI : wd_is_file W u = fs_is_file F q) by (subst q; exact (sd_is_file _ _ _ _ _ Same _ _ Fk Sk)). rewrite FI. destruct (fs_is_file F q).
      + rewrite (section_both h fuel u q Hs). now left.
      + unfold w_file_name. rewrite Lx, Ex. cbn [ok_or rbind].
        assert (RD : wd_read_dir W u = fs_read_dir F q) by (subst q; exact (sd_read_dir _ _ _ _ _ Same _ _ Fk Sk)). rewrite <- RD.
        destruct (wd_read_dir W u) as [files|] eqn:Er; cbn [ok_or rbind]; [|now left].
        pose proof (find_both u k files Fk Sk (fun n0 I => sd_names _ _ _ _ _ Same u files n0 Er I)) as FB.
        destruct (find_toc files) as [toc| | |]; [|rewrite FB; now left..]. destruct FB as (-> & Pt'). cbn [rbind].
        apply agrees_bind; [|intros; now left]. apply IH. exists (k ++ [toc]). split; [now destruct k|]. split; [apply Forall_app; auto|].
        split; [now apply push_spells|]. now rewrite Ek, map_app, app_assoc.
  Qed.
End Both.

(** ** What a notebook can depend on *)
Lemma map_in_paths {A} (f : A -> res wtext) l ps q : map_res f l = Ok ps -> In q ps -> exists e, f e = Ok q.
Proof.
  revert ps. induction l as [|a l IH]; intros ps H I; cbn [map_res] in H; [injection H as <-; destruct I|].
  destruct (f a) as [x| | |] eqn:E; cbn [rbind] in H; try discriminate H. destruct (map_res f l) as [xs| | |]; cbn [rbind] in H; try discriminate H.
  injection H as <-. destruct I as [<-|I]; eauto.
Qed.
Section Alike.
  Variables (other : wtext -> option nat) (sanitise : name -> name) (base : wtext) (W W' : wdisk).
  Hypothesis Safe : windows_safe sanitise.
  Hypothesis Alike : walike_inside other base W W'.
  Let A1 := proj1 Alike.
  Let A2 := proj1 (proj2 Alike).
  Let A3 := proj1 (proj2 (proj2 Alike)).
  Let A4 := proj1 (proj2 (proj2 (proj2 Alike))).
  Let A5 := proj2 (proj2 (proj2 (proj2 Alike))).

  Lemma wresolve_alike ms dir e : Forall wproper ms -> spells other base ms dir ->
    win_resolve other sanitise (wd_fs W) dir e = win_resolve other sanitise (wd_fs W') dir e.
  Proof.
    intros Fm Sd.
    assert (K : forall V V' p, walike_inside other base W W' -> (V = W /\ V' = W' \/ V = W' /\ V' = W) ->
      win_resolve other sanitise (wd_fs V) dir e = Ok p -> win_resolve other sanitise (wd_fs V') dir e = Ok p).
    { intros V V' p _ C H. destruct (resolve_spells _ _ _ _ _ _ _ _ Safe Sd H) as (ns & Nn & Fn & _ & Sp & Cn).
      apply (win_resolve_ok other sanitise _ dir e p Safe) in H as (L & _). apply (win_resolve_ok other sanitise _ dir e p Safe). split; [exact L|].
      assert (Fa : Forall wproper (ms ++ ns)) by (apply Forall_app; auto).
      destruct (A1 _ _ Fa Sp) as (X1 & _ & X2 & _). destruct (A1 _ _ Fm Sd) as (_ & _ & X3 & _). unfold wcontained in *.
      destruct C as [(-> & ->)|(-> & ->)]; [rewrite <- X1, <- X2, <- X3; exact Cn|rewrite X1, X2, X3; exact Cn]. }
    destruct (win_answers other sanitise (wd_fs W) dir e) as [(p & H)|H].
    - rewrite H. symmetry. eapply K; eauto.
    - destruct (win_answers other sanitise (wd_fs W') dir e) as [(p & H')|H']; [|congruence]. rewrite H'. apply (K W' W p Alike) in H'; auto.
  Qed.
  Definition really_inside (p : wtext) : Prop :=
    exists cb cp rest, wfs_canonicalize (wd_fs W) base = Some cb /\ wfs_canonicalize (wd_fs W) p = Some cp /\
      wcomponents other cp = wcomponents other cb ++ rest.
  Lemma wfind_name u k files v : Forall wproper k -> spells other base k u -> (forall n, In (Some n) files -> wproper n) ->
    w_find_toc other u files = Ok v -> exists n, toc_name n /\ wproper n /\ v = wpush other u n.
  Proof.
    intros Fk Sk P H. pose proof (find_both other base u k files Fk Sk P) as FB. destruct (find_toc files) as [n| | |] eqn:E; try congruence.
    destruct FB as (FB & Pn). rewrite FB in H. injection H as <-. exists n. apply find_iff in E as (_ & _ & _ & Ht & _). auto.
  Qed.
  Lemma wnotebook_alike h fuel : forall d ms dir t, Forall wproper ms -> spells other base ms dir -> w_parent other t = Some dir ->
    wd_read W t = wd_read W' t -> (dir = base \/ really_inside dir) ->
    w_parse_notebook other sanitise h d fuel W t = w_parse_notebook other sanitise h d fuel W' t.
  Proof.
    induction d as [|d IH]; intros ms dir t Fm Sd Pa Rd In_; cbn [w_parse_notebook]; [reflexivity|].
    rewrite Rd. destruct (ok_or IO _) as [data| | |]; cbn [rbind]; try reflexivity. destruct (open_store h fuel data) as [st0| | |]; cbn [rbind]; try reflexivity.
    destruct (_ =? _)%N; [|reflexivity]. rewrite Pa. cbn [ok_or rbind]. destruct (parse_toc _ _) as [[names c]| | |]; cbn [rbind]; try reflexivity.
    rewrite <- (map_res_ext_in (win_resolve other sanitise (wd_fs W) dir) (win_resolve other sanitise (wd_fs W') dir)) by (intros; now apply (wresolve_alike ms)).
    destruct (map_res (win_resolve other sanitise (wd_fs W) dir) names) as [ps| | |] eqn:Eps; cbn [rbind]; try reflexivity.
    assert (Q : forall q, In q ps -> exists ns, ns <> [] /\ Forall wproper (ms ++ ns) /\ spells other base (ms ++ ns) q /\ wcontained other (wd_fs W) dir q).
    { intros q I. destruct (map_in_paths _ _ _ _ Eps I) as (e & H). destruct (resolve_spells _ _ _ _ _ _ _ _ Safe Sd H) as (ns & Nn & Fn & _ & Sp & Cn).
      exists ns. split; [exact Nn|]. split; [apply Forall_app; auto|]. auto. }
    rewrite (filter_ext_in (wfs_exists (wd_fs W')) (wfs_exists (wd_fs W)) ps) by (intros q I; destruct (Q q I) as (ns & _ & Fa & Sp & _); symmetry; now apply (A1 (ms ++ ns))).
    erewrite map_res_ext_in; [reflexivity|]. intros q I. cbn beta. apply filter_In in I as (I & _). apply filter_In in I as (I & Ex).
    destruct (Q q I) as (ns & Nn & Fa & Sp & Cn). destruct (Cn Ex) as (cb & cp & rest & Hb & Hp & Hr).
    assert (RI : really_inside q).
    { destruct In_ as [->|(cb0 & cm & rest0 & Hb0 & Hm & Hr0)]; [now exists cb, cp, rest|]. rewrite Hm in Hb. injection Hb as <-.
      exists cb0, cp, (rest0 ++ rest). split; [exact Hb0|]. split; [exact Hp|]. now rewrite Hr, Hr0, <- app_assoc. }
    destruct (A1 _ _ Fa Sp) as (_ & F1 & _ & D1). rewrite F1, D1. destruct (wd_is_file W' q).
    - unfold w_parse_section_file. destruct RI as (c1 & c2 & r1 & R1 & R2 & R3). now rewrite (A2 _ _ _ _ _ Fa Sp R1 R2 R3).
    - destruct (ok_or InvalidPath _) as [dn| | |]; cbn [rbind]; try reflexivity. destruct (wd_read_dir W' q) as [files|] eqn:Er; cbn [ok_or rbind]; [|reflexivity].
      destruct (w_find_toc other q files) as [v| | |] eqn:Et; cbn [rbind]; try reflexivity.
      destruct (wfind_name q (ms ++ ns) files v Fa Sp (fun n J => A5 q files n D1 J) Et) as (n & Tn & Pn & ->).
      pose proof (push_spells other base q (ms ++ ns) n Sp Pn) as Sv. destruct (spells_parent _ _ _ _ _ Sv) as (dir' & Pd & Sd').
      rewrite (IH (ms ++ ns) dir' _ Fa Sd' Pd); [reflexivity|now apply (A3 (ms ++ ns) n)|]. right. unfold really_inside. rewrite (A4 _ _ _ Fa Sd' Sp). exact RI.
  Qed.
  Lemma notebook_inside h fuel d t : ~ two_seps t -> w_parent other t = Some base -> wd_read W t = wd_read W' t ->
    w_parse_notebook other sanitise h d fuel W t = w_parse_notebook other sanitise h d fuel W' t.
  Proof.
    intros T Pa Rd. pose proof (w_parent_ok other t T) as H. rewrite Pa in H. destruct H as (H1 & H2 & _).
    apply (wnotebook_alike h fuel d [] base t); auto. split; [exact H1|]. split; [exact H2|]. cbn. now rewrite app_nil_r.
  Qed.
End Alike.

(** ** Termination *)
Lemma map_fuel {A B} (f : A -> res B) l : (forall a, In a l -> f a <> OutOfFuel) -> map_res f l <> OutOfFuel.
Proof.
  induction l as [|a l IH]; intros H; cbn [map_res]; [discriminate|]. pose proof (H a (or_introl eq_refl)) as Ha. destruct (f a); cbn [rbind]; try congruence.
  specialize (IH (fun b I => H b (or_intror I))). destruct (map_res f l); cbn [rbind]; congruence.
Qed.
Lemma bind_fuel {A B} (x : res A) (f : A -> res B) : x <> OutOfFuel -> (forall a, x = Ok a -> f a <> OutOfFuel) -> rbind x f <> OutOfFuel.
Proof. intros H K. destruct x; cbn [rbind]; try congruence. now apply K. Qed.
Lemma ok_or_fuel {A} e (o : option A) : ok_or e o <> OutOfFuel.
Proof. destruct o; discriminate. Qed.
Lemma wfind_fuel other dir files : w_find_toc other dir files <> OutOfFuel.
Proof.
  induction files as [|[n|] files IH]; cbn [w_find_toc]; try discriminate. destruct (w_extension _ _) as [e|]; [|exact IH]. destruct (name_eqb e onetoc2); [discriminate|exact IH].
Qed.
Lemma wsection_fuel other h fuel W t : wreadable h fuel W -> w_parse_section_file other h fuel W t <> OutOfFuel.
Proof.
  intro R. unfold w_parse_section_file. destruct (wd_read W t) as [bs|] eqn:E; [|discriminate]. cbn [ok_or rbind]. destruct (R t bs E) as (R1 & R2).
  apply bind_fuel; [exact R1|]. intros st0 O. destruct (R2 st0 O) as (_ & R3). destruct (_ =? _)%N; [|discriminate]. apply bind_fuel; [apply ok_or_fuel|]. intros n _. apply R3.
Qed.
Lemma wnotebook_ends other sanitise h fuel W base n : windows_safe sanitise -> wreadable h fuel W -> wshallow other W base n ->
  (forall t l m, wd_read_dir W t = Some l -> In (Some m) l -> wproper m) ->
  forall d ms dir t, Forall wproper ms -> spells other base ms dir -> w_parent other t = Some dir -> (n < d + length ms) -> (length ms <= n \/ ms = []) ->
  w_parse_notebook other sanitise h d fuel W t <> OutOfFuel.
Proof.
  intros Safe Rd Sh Nm. induction d as [|d IH]; intros ms dir t Fm Sd Pa L1 L2; cbn [w_parse_notebook].
  - exfalso. destruct L2 as [L2| ->]; [lia|cbn in L1; lia].
  - destruct (wd_read W t) as [bs|] eqn:E; [|discriminate]. cbn [ok_or rbind]. destruct (Rd t bs E) as (R1 & R2). apply bind_fuel; [exact R1|]. intros st0 O. destruct (R2 st0 O) as (R3 & _).
    destruct (_ =? _)%N; [|discriminate]. rewrite Pa. cbn [ok_or rbind]. apply bind_fuel; [exact R3|]. intros [names c] _. apply bind_fuel.
    { apply map_fuel. intros e _. destruct (win_answers other sanitise (wd_fs W) dir e) as [(p & ->)| ->]; discriminate. }
    intros ps Eps. apply bind_fuel; [|discriminate]. apply map_fuel. intros q I. apply filter_In in I as (I & _). apply filter_In in I as (I & Ex).
    destruct (map_in_paths _ _ _ _ Eps I) as (e & H). destruct (resolve_spells _ _ _ _ _ _ _ _ Safe Sd H) as (ns & Nn & Fn & _ & Sp & Cn).
    assert (Fa : Forall wproper (ms ++ ns)) by (apply Forall_app; auto). pose proof (Sh _ _ Fa Sp Ex) as Le. rewrite app_length in Le.
    assert (1 <= length ns) by (destruct ns; [congruence|cbn; lia]).
    destruct (wd_is_file W q); [apply bind_fuel; [now apply wsection_fuel|discriminate]|]. apply bind_fuel; [apply ok_or_fuel|]. intros dn _.
    destruct (wd_read_dir W q) as [files|] eqn:Er; [|discriminate]. cbn [ok_or rbind]. apply bind_fuel; [apply wfind_fuel|]. intros v Ev.
    destruct (wfind_name other base q (ms ++ ns) files v Fa Sp (fun x J => Nm q files x Er J) Ev) as (x & _ & Px & ->).
    pose proof (push_spells other base q (ms ++ ns) x Sp Px) as Sv. destruct (spells_parent _ _ _ _ _ Sv) as (dir' & Pd & Sd').
    apply bind_fuel; [|discriminate]. apply (IH (ms ++ ns) dir' _ Fa Sd' Pd); rewrite app_length; lia.
Qed.
Lemma wnotebook_terminates other sanitise h fuel W t base n d : windows_safe sanitise -> wreadable h fuel W -> wshallow other W base n ->
  (forall t l m, wd_read_dir W t = Some l -> In (Some m) l -> wproper m) -> ~ two_seps t -> w_parent other t = Some base -> n < d ->
  w_parse_notebook other sanitise h d fuel W t <> OutOfFuel.
Proof.
  intros Safe Rd Sh Nm T Pa L. pose proof (w_parent_ok other t T) as H. rewrite Pa in H. destruct H as (H1 & H2 & _).
  apply (wnotebook_ends other sanitise h fuel W base n Safe Rd Sh Nm d [] base t); auto; [|cbn; lia].
  split; [exact H1|]. split; [exact H2|]. cbn. now rewrite app_nil_r.
Qed.

(** ** Section files *)
Lemma w_section_exact other h fuel W t s : ~ two_seps t ->
  w_parse_section_file other h fuel W t = Ok s <->
  exists cs n bs st0, wcomponents other t = cs ++ [WNormal n] /\ wd_read W t = Some bs /\ open_store h fuel bs = Ok st0 /\
    st_schema st0 = section_schema /\ parse_section fuel st0 n = Ok s.
Proof.
  intro T. unfold w_parse_section_file, w_file_name. rewrite (w_last_ok other t T). split.
  - destruct (wd_read W t) as [bs|]; [|discriminate]. cbn [ok_or rbind]. destruct (open_store h fuel bs) as [st0| | |] eqn:O; cbn [rbind]; try discriminate.
    destruct (_ =? _)%N eqn:K; [|discriminate]. apply N.eqb_eq in K. destruct (rev (wcomponents other t)) as [|c r] eqn:E; [discriminate|].
    destruct c; cbn [ok_or rbind]; try discriminate. intro H. exists (rev r), n, bs, st0. split; [|auto]. apply (f_equal (@rev wcomponent)) in E. rewrite rev_involutive in E. exact E.
  - intros (cs & n & bs & st0 & C & -> & O & K & H). cbn [ok_or rbind]. rewrite O. cbn [rbind]. rewrite K, N.eqb_refl, C, rev_app_distr. exact H.
Qed.
