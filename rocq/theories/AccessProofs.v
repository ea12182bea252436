(** The files a notebook is read from are opened once each, in order; nothing is asked
    after a failure. *)
From Coq Require Import Lia ZifyBool ZifyNat ZifyN.
From Verif Require Import Base Codec SpecCodec Package PropSet Store SpecStore Props Nodes SpecNodes Doc SpecDoc Notebook SpecNotebook
  NodesProofs NodesProofs3 DocProofs DocProofs5 NotebookProofs NotebookProofs2 NotebookProofs3 SpecKinds SpecBlame BlameProofs Timed SpecTimed
  TimedProofs TimedProofs2 TimedProofs3 SpecAccess.
Local Open Scope nat_scope.

Lemma ok_bind {A B} w t (m : io A) (f : A -> io B) y : run_io w t (ibind m f) = Ok y ->
  exists x, run_io w t m = Ok x /\ run_io w (t + steps_of w t m) (f x) = Ok y /\
    asked w t (ibind m f) = asked w t m ++ asked w (t + steps_of w t m) (f x).
Proof.
  intro H. rewrite run_bind in H. apply bind_ok in H as (x & Hx & H). exists x. rewrite asked_bind, Hx. auto.
Qed.
Lemma reads_app l l' : reads (l ++ l') = reads l ++ reads l'.
Proof. apply flat_map_app. Qed.
Tactic Notation "okb" hyp(H) ident(x) ident(Hx) ident(E) := apply ok_bind in H as (x & Hx & H & E); rewrite E; clear E.
Ltac dne H := cbn [run_io] in H.

(** ** One file for every part *)
Section Count.
  Variables (sanitise : name -> name) (h : order) (w : world).
  Lemma resolve_reads base e t : reads (asked w t (io_resolve sanitise base e)) = [] /\ steps_of w t (io_resolve sanitise base e) <= 3.
  Proof.
    unfold steps_of, io_resolve. destruct (is_absolute e); [cbn; auto|]. rewrite asked_done_bind.
    destruct (sanitize_components sanitise (components e)) as [[|c cs]| | |]; try (cbn; auto; fail). cbv zeta.
    rewrite asked_ask_bind. cbn [reply]. destruct (fs_exists _ _); [|cbn; auto].
    rewrite asked_ask_bind, asked_done_bind. cbn [reply]. destruct (fs_canonicalize _ _); cbn [ok_or]; [|cbn; auto].
    rewrite asked_ask_bind, asked_done_bind. cbn [reply]. destruct (fs_canonicalize _ _); cbn [ok_or]; [|cbn; auto].
    destruct (starts_with _ _); cbn; auto.
  Qed.
  Lemma imap_reads {A B} (f : A -> io B) : (forall t x y, run_io w t (f x) = Ok y -> reads (asked w t (f x)) = []) ->
    forall l t ys, run_io w t (imap f l) = Ok ys -> reads (asked w t (imap f l)) = [].
  Proof.
    intros HP. induction l as [|x l IH]; intros t ys H; [reflexivity|]. cbn [imap] in *.
    okb H y Hy E. okb H z Hz E. cbn [asked]. rewrite app_nil_r, reads_app, (HP _ _ _ Hy), (IH _ _ Hz). reflexivity.
  Qed.
  Lemma entries_count (f : path -> io section_entry) :
    (forall t p e, run_io w t (f p) = Ok e -> length (reads (asked w t (f p))) = parts e) ->
    forall ps t es, run_io w t (io_entries f ps) = Ok es -> length (reads (asked w t (io_entries f ps))) = all_parts es.
  Proof.
    intros HP. induction ps as [|p ps IH]; intros t es H; [injection H as <-; reflexivity|]. cbn [io_entries] in *.
    okb H ex Hex E. cbn [ask asked app]. change (reads (QExists p :: ?l)) with (reads l).
    destruct (ex && negb (is_recycle_bin p)); [|now apply IH].
    okb H e He E. okb H es' Hes E. cbn [asked]. rewrite app_nil_r, reads_app, app_length, (HP _ _ _ He), (IH _ _ Hes).
    cbn [run_io] in H. injection H as <-. reflexivity.
  Qed.
  Lemma notebook_count fuel d : forall t p nb, run_io w t (io_notebook sanitise h d fuel p) = Ok nb ->
    length (reads (asked w t (io_notebook sanitise h d fuel p))) = S (all_parts (nb_entries nb)).
  Proof.
    induction d as [|d IH]; intros t p nb H; [discriminate H|]. rewrite io_step in *.
    okb H x Hx E. cbn [ask asked app]. change (reads (QRead p :: ?l)) with (p :: reads l). cbn [length]. f_equal.
    unfold io_rest in *. okb H bs Hb E. okb H st Hs E. cbn [asked app]. rewrite !steps_done in *.
    destruct (N.eqb _ _); [|discriminate H]. okb H base Hp E. okb H nc Ht E. destruct nc as (names & color).
    okb H ps Hps E. okb H es Hes E. cbn [asked app]. rewrite app_nil_r, reads_app.
    rewrite (imap_reads _ (fun t x y _ => proj1 (resolve_reads base x t)) _ _ _ Hps). cbn [app].
    cbn [run_io] in H. injection H as <-. cbn [nb_entries]. revert Hes. apply entries_count.
    clear -IH. intros t p e H. unfold io_entry in *. okb H f Hf E. cbn [ask asked app]. change (reads (QIsFile p :: ?l)) with (reads l).
    destruct f.
    - okb H s Hs E. destruct (section_run h w fuel (t + steps_of w t (Ask (QIsFile p) (fun a => Done (Ok a)))) p) as (_ & E2).
      unfold ask in *. rewrite E2. cbn [asked]. cbn [run_io] in H. injection H as <-. reflexivity.
    - okb H n Hn E. okb H dir Hd E. okb H fl Hfl E. okb H toc Htoc E. okb H g Hg E. cbn [ask asked app].
      change (reads (QReadDir p :: ?l)) with (reads l). rewrite app_nil_r. rewrite (IH _ _ _ Hg).
      cbn [run_io] in H. injection H as <-. reflexivity.
  Qed.
End Count.

(** ** In order *)
Section Order.
  Variables (sanitise : name -> name) (h : order) (fs : filesystem).
  Let w : world := fun _ => fs.
  Lemma imap_steps names base t : steps_of w t (imap (io_resolve sanitise base) names) <= 3 * length names.
  Proof.
    revert t. induction names as [|n names IH]; intro t; [unfold steps_of; cbn; lia|]. cbn [imap length]. unfold steps_of.
    rewrite asked_bind, app_length. pose proof (proj2 (resolve_reads sanitise w base n t)) as L. unfold steps_of in L at 1.
    destruct (run_io w t (io_resolve sanitise base n)); cbn [length]; try lia. rewrite asked_bind, app_length.
    specialize (IH (t + steps_of w t (io_resolve sanitise base n))). unfold steps_of in IH at 1.
    destruct (run_io _ _ (imap _ _)); cbn [asked length]; lia.
  Qed.
  Lemma imap_resolves names base t ps : run_io w t (imap (io_resolve sanitise base) names) = Ok ps ->
    Forall2 (resolves sanitise fs base) names ps.
  Proof.
    intro H. unfold w in H. rewrite (run_shift fs _ t 0) in H. change (run_io _ 0 ?m) with (still fs m) in H.
    rewrite (still_map fs _ (resolve_entry_path sanitise fs base)) in H by (intro; apply still_resolve).
    exact (proj1 (map_ok (resolve_entry_path sanitise fs base) (resolves sanitise fs base) names ps (fun a b => resolve_ok sanitise fs base a b)) H).
  Qed.
  Lemma entries_order (f : path -> io section_entry) (P : path -> list path -> nat -> Prop) :
    (forall t p e, run_io w t (f p) = Ok e -> exists l k, P p l k /\ reads (asked w t (f p)) = l /\ steps_of w t (f p) <= 7 * k + 3) ->
    forall ps t es, run_io w t (io_entries f ps) = Ok es ->
      exists shown rs, picks (fun q => fs_exists fs q = true /\ ~ recycled q) ps shown /\
        Forall2 (fun q r => P q (fst r) (snd r)) shown rs /\ reads (asked w t (io_entries f ps)) = concat (map fst rs) /\
        steps_of w t (io_entries f ps) <= 4 * length ps + 7 * list_sum (map snd rs).
  Proof.
    intros HP. induction ps as [|p ps IH]; intros t es H.
    { exists [], []. split; [constructor|]. split; [constructor|]. split; [reflexivity|]. unfold steps_of; cbn; lia. }
    cbn [io_entries] in *. unfold steps_of. okb H x Hx E. cbn [ask asked app]. change (reads (QExists p :: ?l)) with (reads l).
    rewrite steps_ask in *. cbn in Hx. injection Hx as Hx. unfold w in Hx at 1.
    destruct (x && negb (is_recycle_bin p)) eqn:E.
    - apply andb_true_iff in E as (E & E'). apply negb_true_iff in E'. okb H e He E2. okb H es' Hes E2. cbn [asked].
      destruct (HP _ _ _ He) as (l & k & Hl & El & Sl). destruct (IH _ _ Hes) as (shown & rs & Hs & F & Er & Sr).
      exists (p :: shown), ((l, k) :: rs). split.
      { apply pk_take; [|exact Hs]. split; [congruence|]. intro K. apply recycle_iff in K. congruence. }
      split; [constructor; [exact Hl | exact F]|]. rewrite app_nil_r, reads_app, El, Er. split; [reflexivity|].
      cbn [length]. rewrite app_length. unfold steps_of in Sl at 1, Sr at 1. cbn [map list_sum fst snd].
      change (list_sum (k :: ?l)) with (k + list_sum l). lia.
    - destruct (IH _ _ H) as (shown & rs & Hs & F & Er & Sr). exists shown, rs. split.
      { apply pk_skip; [|exact Hs]. intros (K & K'). rewrite <- Hx, K in E. cbn in E. apply negb_false_iff in E. apply K'.
        now apply recycle_iff. }
      split; [exact F|]. split; [exact Er|]. cbn [length]. unfold steps_of in Sr at 1. lia.
  Qed.
  Lemma notebook_order fuel d : forall t p nb, run_io w t (io_notebook sanitise h d fuel p) = Ok nb ->
    exists l k, opened sanitise h fs p l k /\ reads (asked w t (io_notebook sanitise h d fuel p)) = l /\
      steps_of w t (io_notebook sanitise h d fuel p) <= 7 * k + 1.
  Proof.
    induction d as [|d IH]; intros t p nb H; [discriminate H|]. rewrite io_step in *. unfold steps_of.
    okb H x Hx E. cbn [ask asked app]. change (reads (QRead p :: ?l)) with (p :: reads l). cbn [length].
    cbn in Hx. injection Hx as Hx. unfold w in Hx at 1.
    unfold io_rest in *. okb H bs Hb E. okb H st Hs E. cbn [asked app]. rewrite !steps_done in *.
    cbn in Hb. apply ok_or_iff in Hb. cbn in Hs.
    destruct (N.eqb _ _) eqn:Q; [|discriminate H]. apply N.eqb_eq in Q. okb H base Hp E. okb H nc Ht E. destruct nc as (names & color).
    okb H ps Hps E. okb H es Hes E. cbn [asked app]. rewrite app_nil_r, reads_app, app_length.
    rewrite (imap_reads w _ (fun t x y _ => proj1 (resolve_reads sanitise w base x t)) _ _ _ Hps). cbn [app].
    assert (L : length (asked w (t + steps_of w t (ask (QRead p)) + 0 + 0 + 0 + 0) (imap (io_resolve sanitise base) names)) <= 3 * length names)
      by apply imap_steps.
    apply (entries_order _ (opened_entry sanitise h fs)) in Hes as (shown & rs & Hsh & F & Er & Sr).
    - exists (p :: concat (map fst rs)), (length names + list_sum (map snd rs)). split.
      { cbn in Hp, Ht. apply ok_or_iff, parent_iff in Hp as (c & Hp & Hc). apply toc_settles in Ht.
        econstructor; [|exact (imap_resolves _ _ _ _ Hps)|exact Hsh|exact F].
        exists st, c, color. split; [exists bs; split; [congruence|now exists fuel]|]. auto. }
      apply imap_resolves in Hps. assert (El : length names = length ps) by (clear -Hps; induction Hps; cbn; congruence). rewrite <- El in Sr.
      split; [f_equal; exact Er|]. unfold steps_of in Sr at 1. rewrite !steps_done in *. lia.
    - clear -IH. intros t p e H. unfold io_entry in *. unfold steps_of. okb H f Hf E. cbn [ask asked app]. change (reads (QIsFile p :: ?l)) with (reads l).
      cbn in Hf. injection Hf as Hf. unfold w in Hf at 1. destruct f.
      + okb H s Hs E. destruct (section_run h w fuel (t + steps_of w t (Ask (QIsFile p) (fun a => Done (Ok a)))) p) as (_ & E2).
        unfold ask in *. rewrite E2. cbn [asked]. exists [p], 0. split; [now constructor|]. split; [reflexivity|]. cbn. lia.
      + okb H n Hn E. okb H dir Hd E. okb H fl Hfl E. okb H toc Htoc E. okb H g Hg E. cbn [ask asked app].
        change (reads (QReadDir p :: ?l)) with (reads l). rewrite app_nil_r.
        cbn in Hd. injection Hd as Hd. unfold w in Hd at 1. cbn in Hfl. apply ok_or_iff in Hfl. cbn in Htoc. apply find_iff in Htoc.
        repeat rewrite ?steps_ask, ?steps_done in *. fold (ask (QIsFile p)) (ask (QReadDir p)). repeat rewrite ?steps_ask, ?steps_done.
        destruct (IH _ _ _ Hg) as (l & k & Hl & El & Sl). exists l, k. split; [econstructor 2; eauto; congruence|].
        split; [exact El|]. cbn [length]. unfold steps_of in Sl. lia.
  Qed.
End Order.

(** ** Only one way *)
Section Induct.
  Variables (sanitise : name -> name) (h : order) (fs : filesystem).
  Variables (P Q : path -> list path -> nat -> Prop).
  Hypothesis Hsec : forall q, fs_is_file fs q = true -> P q [q] 0.
  Hypothesis Hgrp : forall q files toc l k, fs_is_file fs q = false -> fs_read_dir fs q = Some files -> first_toc files toc ->
    Q (q ++ [Normal toc]) l k -> P q l k.
  Hypothesis Hnb : forall p base names ps shown rs, toc_at h fs p base names -> Forall2 (resolves sanitise fs base) names ps ->
    picks (fun q => fs_exists fs q = true /\ ~ recycled q) ps shown -> Forall2 (fun q r => P q (fst r) (snd r)) shown rs ->
    Q p (p :: concat (map fst rs)) (length names + list_sum (map snd rs)).
  Fixpoint opened_entry_induct q l k (H : opened_entry sanitise h fs q l k) {struct H} : P q l k :=
    match H in opened_entry _ _ _ q l k return P q l k with
    | oe_section _ _ _ q a => Hsec q a
    | oe_group _ _ _ q files toc l k a b c d => Hgrp q files toc l k a b c (opened_induct _ _ _ d)
    end
  with opened_induct p l k (H : opened sanitise h fs p l k) {struct H} : Q p l k :=
    match H in opened _ _ _ p l k return Q p l k with
    | on _ _ _ p base names ps shown rs a b c F =>
      Hnb p base names ps shown rs a b c
        ((fix go l ls (F : Forall2 (fun q r => opened_entry sanitise h fs q (fst r) (snd r)) l ls) : Forall2 (fun q r => P q (fst r) (snd r)) l ls :=
            match F with
            | Forall2_nil _ => Forall2_nil _
            | @Forall2_cons _ _ _ a b l ls Hab F' => @Forall2_cons _ _ _ a b l ls (opened_entry_induct _ _ _ Hab) (go _ _ F')
            end) _ _ F)
    end.
End Induct.
Lemma opened_fun sanitise h fs p l k l' k' : opened sanitise h fs p l k -> opened sanitise h fs p l' k' -> l = l' /\ k = k'.
Proof.
  intro H. revert l' k'.
  refine (opened_induct sanitise h fs
    (fun q l k => forall l' k', opened_entry sanitise h fs q l' k' -> l = l' /\ k = k')
    (fun p l k => forall l' k', opened sanitise h fs p l' k' -> l = l' /\ k = k') _ _ _ p l k H); clear p l k H.
  - intros q F l' k' H. inversion H; subst; [auto|congruence].
  - intros q files toc l k F D T IH l' k' H. inversion H as [|q' files' toc' l2 k2 F' D' T' O]; subst; [congruence|].
    rewrite D in D'. injection D' as <-. rewrite <- (first_toc_fun _ _ _ T T') in O. now apply IH.
  - intros p base names ps shown rs T R S F l' k' H. inversion H as [p' base' names' ps' shown' rs' T' R' S' F']; subst.
    destruct (toc_at_fun h fs _ _ _ _ _ T T') as (<- & <-).
    assert (ps = ps').
    { clear -R R'. revert ps' R'. induction R as [|n q names ps Hq R IH]; intros ps' R'; inversion R' as [|n' q' l l' Hq' R2]; subst; [reflexivity|].
      f_equal; [|now apply IH]. apply resolve_ok in Hq, Hq'. congruence. }
    subst ps'. rewrite <- (picks_fun _ _ _ _ S S') in F'. clear -F F'.
    assert (rs = rs').
    { revert rs' F'. induction F as [|q r shown rs Hq F IH]; intros rs' F'; inversion F' as [|q' r' l l' Hq' F2]; subst; [reflexivity|].
      f_equal; [|now apply IH]. destruct (Hq _ _ Hq') as (E1 & E2). destruct r, r'; cbn in *; congruence. }
    now subst.
Qed.
Lemma opened_is sanitise h fs t d fuel p nb l k : parse_notebook sanitise h d fuel fs p = Ok nb -> opened sanitise h fs p l k ->
  reads (asked (fun _ => fs) t (io_notebook sanitise h d fuel p)) = l /\
  length (asked (fun _ => fs) t (io_notebook sanitise h d fuel p)) <= 7 * k + 1 /\
  length l = S (all_parts (nb_entries nb)).
Proof.
  intros H O. rewrite <- (stands_still sanitise h fs t) in H. pose proof (notebook_count _ _ _ _ _ _ _ _ H) as C.
  apply notebook_order in H as (l' & k' & O' & <- & L). destruct (opened_fun _ _ _ _ _ _ _ _ O O') as (-> & ->). auto.
Qed.
Lemma opened_some sanitise h fs d fuel p nb : parse_notebook sanitise h d fuel fs p = Ok nb -> exists l k, opened sanitise h fs p l k.
Proof.
  intros H. rewrite <- (stands_still sanitise h fs 0) in H. apply notebook_order in H as (l & k & O & _). eauto.
Qed.

(** ** Nothing after a failure *)
Section Fast.
  Variables (sanitise : name -> name) (h : order) (fuel : nat).
  Definition fast {A} (m : io A) : Prop := forall w t i q e, nth_error (asked w t m) i = Some q -> fails h (w (t + i)) fuel q e ->
    run_io w t m = Err e /\ length (asked w t m) = S i.
  Lemma fast_done {A} (r : res A) : fast (Done r).
  Proof. intros w t [|i] q e H; discriminate H. Qed.
  Lemma fast_bind {A B} (m : io A) (f : A -> io B) : fast m -> (forall x, fast (f x)) -> fast (ibind m f).
  Proof.
    intros Hm Hf w t i q e H F. rewrite asked_bind in *. rewrite run_bind.
    destruct (Nat.ltb_spec i (length (asked w t m))) as [L|L].
    - rewrite nth_error_app1 in H by exact L. destruct (Hm w t i q e H F) as (-> & E). cbn [rbind]. now rewrite app_nil_r.
    - rewrite nth_error_app2 in H by exact L. destruct (run_io w t m) as [x|e'| |]; try (destruct (i - _); discriminate H).
      cbn [rbind]. specialize (Hf x w (t + steps_of w t m) (i - length (asked w t m)) q e H). unfold steps_of in *.
      destruct Hf as (E1 & E2); [replace (t + _ + _) with (t + i) by lia; exact F|]. split; [exact E1|]. rewrite app_length. lia.
  Qed.
  Lemma fast_ask {B} q (k : answer q -> io B) : (forall a, fast (k a)) ->
    (forall fs e, fails h fs fuel q e -> k (reply fs q) = Done (Err e)) -> fast (ibind (ask q) k).
  Proof.
    intros Hk Hb w t i q' e H F. rewrite asked_ask_bind, run_ask_bind in *. destruct i as [|i].
    - cbn in H. injection H as <-. rewrite Nat.add_0_r in F. rewrite (Hb _ _ F). auto.
    - cbn [nth_error] in H. replace (t + S i) with (S t + i) in F by lia. destruct (Hk _ _ _ _ _ _ H F) as (E1 & E2).
      split; [exact E1|]. cbn [length]. now rewrite E2.
  Qed.
  Lemma fast_simple {B} q (k : answer q -> io B) : match q with QRead _ | QReadDir _ => False | _ => True end -> (forall a, fast (k a)) ->
    fast (ibind (ask q) k).
  Proof. intros Hq Hk. apply fast_ask; [exact Hk|]. intros fs e F. destruct q; contradiction. Qed.
  Lemma fast_map {A B} (f : A -> io B) l : (forall x, fast (f x)) -> fast (imap f l).
  Proof.
    intro H. induction l as [|x l IH]; [apply fast_done|]. cbn [imap]. apply fast_bind; [apply H|]. intro. apply fast_bind; [exact IH|].
    intro. apply fast_done.
  Qed.
  Lemma fast_resolve base e : fast (io_resolve sanitise base e).
  Proof.
    unfold io_resolve. destruct (is_absolute e); [apply fast_done|]. apply fast_bind; [apply fast_done|].
    intros [|c cs]; [apply fast_done|]. cbv zeta. apply fast_simple; [exact I|]. intros []; [|apply fast_done].
    apply fast_simple; [exact I|]. intro. apply fast_bind; [apply fast_done|]. intro. apply fast_simple; [exact I|]. intro.
    apply fast_bind; [apply fast_done|]. intro. destruct (starts_with _ _); apply fast_done.
  Qed.
  Lemma fast_entries f ps : (forall p, fast (f p)) -> fast (io_entries f ps).
  Proof.
    intro H. induction ps as [|p ps IH]; [apply fast_done|]. cbn [io_entries]. apply fast_simple; [exact I|]. intro a.
    destruct ((a : bool) && negb (is_recycle_bin p)); [|exact IH]. apply fast_bind; [apply H|]. intro. apply fast_bind; [exact IH|].
    intro. apply fast_done.
  Qed.
  Lemma fast_section p : fast (io_section h fuel p).
  Proof.
    unfold io_section. apply fast_ask.
    - intro file. apply fast_bind; [apply fast_done|]. intro. apply fast_bind; [apply fast_done|]. intro st.
      destruct (N.eqb _ _); [|apply fast_done]. apply fast_bind; [apply fast_done|]. intro. apply fast_done.
    - intros fs e [(R & ->)|(bs & R & O)]; cbn [reply]; rewrite R; cbn; [reflexivity|]. now rewrite O.
  Qed.
  Lemma fast_notebook d : forall p, fast (io_notebook sanitise h d fuel p).
  Proof.
    induction d as [|d IH]; intro p; [apply fast_done|]. rewrite io_step. apply fast_ask.
    - intro file. unfold io_rest. apply fast_bind; [apply fast_done|]. intro. apply fast_bind; [apply fast_done|]. intro st.
      destruct (N.eqb _ _); [|apply fast_done]. apply fast_bind; [apply fast_done|]. intro base. apply fast_bind; [apply fast_done|].
      intros (names & c). apply fast_bind; [apply fast_map; intro; apply fast_resolve|]. intro ps.
      apply fast_bind; [apply fast_entries; intro q|intro; apply fast_done].
      unfold io_entry. apply fast_simple; [exact I|]. intros [].
      + apply fast_bind; [apply fast_section|]. intro. apply fast_done.
      + apply fast_bind; [apply fast_done|]. intro n. apply fast_ask.
        * intro dir. apply fast_bind; [apply fast_done|]. intro. apply fast_bind; [apply fast_done|]. intro.
          apply fast_bind; [apply IH|]. intro. apply fast_done.
        * intros fs e (R & ->). cbn [reply]. now rewrite R.
    - intros fs e [(R & ->)|(bs & R & O)]; cbn [reply]; unfold io_rest; rewrite R; cbn; [reflexivity|]. now rewrite O.
  Qed.
End Fast.
