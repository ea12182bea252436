(** How many entries a table of contents has, if no object is listed twice. *)
From Coq Require Import Lia Relations Permutation.
From Verif Require Import Base BaseProofs Codec Package PropSet Store Shapes Props Nodes Doc Notebook SpecCodec SpecValues SpecNodes StoreProofs NodesProofs NodesProofs2 SpecDoc DocProofs4
  SpecNotebook NotebookProofs NotebookProofs2 SpecSize SizeProofs SpecWeight WeightProofs SpecEntries.
From Verif Require PackageRT.
Local Open Scope nat_scope.

Notation under sp := (clos_refl_trans_n1 exguid (SpecNotebook.below sp)).

Lemma below_lists sp a b : SpecNotebook.below sp a b -> exists l, folder_lists sp a l /\ In b l.
Proof. intros (o & d & Ho & Hd & Hn & I). exists (tc_children d). split; [|exact I]. exists o. split; [exact Ho|]. now exists d. Qed.
Lemma lists_below sp a l b : folder_lists sp a l -> In b l -> SpecNotebook.below sp a b.
Proof. intros (o & Ho & d & Hd & Hn & ->) I. now exists o, d. Qed.
Lemma one_parent sp a b x : toc_tree sp -> SpecNotebook.below sp a x -> SpecNotebook.below sp b x -> a = b.
Proof.
  intros (T & _) A B. apply below_lists in A as (la & La & Ia), B as (lb & Lb & Ib). apply In_nth_error in Ia as (i & X). apply In_nth_error in Ib as (j & Y).
  exact (proj1 (T _ _ _ _ _ _ _ La Lb X Y)).
Qed.
Lemma comparable sp a b x : toc_tree sp -> under sp a x -> under sp b x -> under sp a b \/ under sp b a.
Proof.
  intros T A. revert b. induction A as [|y x S A IH]; intros b B; [now right|].
  inversion B as [|z ? S' B']; subst.
  - left. econstructor; [exact S|exact A].
  - rewrite (one_parent sp z y x T S' S) in B'. now apply IH.
Qed.
Lemma under_strict sp a b : under sp a b -> a = b \/ clos_trans _ (SpecNotebook.below sp) a b.
Proof. induction 1 as [|y x S A [->|IH]]; [now left|right; now apply t_step|right]. eapply t_trans; [exact IH|now apply t_step]. Qed.
Lemma under_head sp a b x : SpecNotebook.below sp a b -> under sp b x -> under sp a x.
Proof. intros S. induction 1 as [|y z S' A IH]; [econstructor; [exact S|constructor]|econstructor; [exact S'|exact IH]]. Qed.
(** What lies below two parts of a folder is different. *)
Lemma parts_apart sp a p q x : toc_tree sp -> SpecNotebook.below sp a p -> SpecNotebook.below sp a q -> p <> q -> under sp p x -> under sp q x -> False.
Proof.
  intros T P Q D X Y. assert (K : forall p q, SpecNotebook.below sp a p -> SpecNotebook.below sp a q -> p <> q -> under sp p q -> False).
  { clear p q P Q D X Y. intros p q P Q D U. inversion U as [|z ? S U']; subst; [now apply D|]. rewrite (one_parent sp z a q T S Q) in U'.
    apply (proj2 T a). destruct (under_strict sp p a U') as [->|R]; [now apply t_step|]. eapply t_trans; [apply t_step; exact P|exact R]. }
  destruct (comparable sp p q x T X Y) as [U|U]; [exact (K p q P Q D U)|]. apply (K q p Q P); [congruence|exact U].
Qed.

(** The objects a listing is made from. *)
Lemma listing_objects sp id ts : toc_tree sp -> listing sp id ts ->
  exists l, NoDup l /\ (forall x, In x l -> under sp id x /\ exists o, get_object sp x = Some o) /\ length ts <= length l.
Proof.
  intros T H. induction H as [id o d k n Ho Hd Hn Hk|id o d ls Ho Hd Hn F IH] using listing_induct.
  - exists [id]. split; [repeat constructor; intros []|]. split; [|cbn; lia]. intros x [<-|[]]. split; [constructor|eauto].
  - clear F. set (c := tc_children d) in *.
    assert (B : forall x, In x c -> SpecNotebook.below sp id x) by (intros x I; now exists o, d).
    assert (D : NoDup c).
    { apply nodup_nth. intros i j x X Y. assert (L : folder_lists sp id c) by (exists o; split; [exact Ho|now exists d]).
      exact (proj2 (proj1 T _ _ _ _ _ _ _ L L X Y)). }
    clearbody c. clear Ho Hd Hn.
    assert (K : exists l, NoDup l /\ (forall x, In x l -> exists p, In p c /\ under sp p x /\ exists o, get_object sp x = Some o) /\ length (concat ls) <= length l).
    { induction IH as [|p ts c ls (l & N & A & L) _ IHl]; [exists []; split; [constructor|]; split; [intros x []|cbn; lia]|].
      inversion D as [|? ? Np Dc]; subst. destruct IHl as (m & M & Am & Lm); [intros x I; apply B; now right|exact Dc|].
      exists (l ++ m). split; [|split].
      - apply nodup_apart; [exact N|exact M|]. intros x X Y. destruct (A x X) as (U & _). destruct (Am x Y) as (q & Iq & Uq & _).
        apply (parts_apart sp id p q x T); [apply B; now left|apply B; now right| |exact U|exact Uq]. intros ->. contradiction.
      - intros x X. apply in_app_iff in X as [X|X].
        + exists p. split; [now left|now apply A].
        + destruct (Am x X) as (q & Iq & R). exists q. split; [now right|exact R].
      - cbn [concat]. rewrite !app_length. lia. }
    destruct K as (l & N & A & L). exists l. split; [exact N|]. split; [|exact L]. intros x X. destruct (A x X) as (p & Ip & U & O).
    split; [|exact O]. exact (under_head sp id p x (B p Ip) U).
Qed.
Lemma squeezed_length l r : squeezed l r -> length r <= length l.
Proof. induction 1; cbn [length] in *; lia. Qed.
Lemma names_bound sp f names c : toc_tree sp -> parse_toc f sp = Ok (names, c) -> has_objects sp (length names).
Proof.
  intros T H. apply toc_settles in H as (id & ts & r & _ & Hl & (P & _) & Sq & _). destruct (listing_objects sp id ts T Hl) as (l & N & A & L).
  exists l. split; [exact N|]. split; [intros x X; now apply A|]. apply squeezed_length in Sq. rewrite map_length in Sq. apply Permutation_length in P. lia.
Qed.
Lemma objects_bound sp n : has_objects sp n -> n <= space_weight sp.
Proof.
  intros (l & N & A & L). etransitivity; [exact L|]. etransitivity; [apply (NoDup_incl_length N (l' := map fst (sp_objects sp)))|].
  - intros x X. destruct (A x X) as (o & Ho). unfold get_object in Ho. apply (alookup_in exguid_eqb PackageRT.exguid_eqb_eq) in Ho. now apply (in_map fst) in Ho.
  - rewrite map_length. unfold space_weight. induction (sp_objects sp) as [|e es IH]; [apply le_n|].
    change (S (length es) <= (object_weight (snd e) + object_ids (snd e)) + SpecPackage.total (fun e => object_weight (snd e) + object_ids (snd e)) es).
    unfold object_weight at 1. lia.
Qed.
Lemma map_length_ok {A B} (f : A -> res B) l : forall l', map_res f l = Ok l' -> length l' = length l.
Proof.
  induction l as [|a l IH]; intros l' H; cbn [map_res] in H; [now injection H as <-|].
  apply bind_ok in H as (b & _ & H). apply bind_ok in H as (bs & Hb & H). injection H as <-. cbn [length]. now rewrite (IH _ Hb).
Qed.
Lemma filter_le {A} (f : A -> bool) l : length (filter f l) <= length l.
Proof. induction l as [|a l IH]; cbn [filter length]; [lia|]. destruct (f a); cbn [length]; lia. Qed.
(** A notebook has no more entries than its table of contents has bytes. *)
Lemma entries_bound sanitise h depth fuel fs p nb bs :
  (forall st, open_store h fuel bs = Ok st -> st_schema st = toc_schema -> toc_tree (st_data_root st)) ->
  parse_notebook sanitise h depth fuel fs p = Ok nb -> fs_read fs p = Some bs -> length (nb_entries nb) <= length bs.
Proof.
  intros T H R. destruct depth as [|depth]; [discriminate H|]. cbn [parse_notebook] in H. rewrite R in H. cbn [ok_or rbind] in H.
  apply bind_ok in H as (st & Hs & H). destruct (N.eqb _ _) eqn:Sc; [|discriminate H]. apply N.eqb_eq in Sc. apply bind_ok in H as (base & _ & H). apply bind_ok in H as ((names, c) & Ht & H).
  apply bind_ok in H as (ps & Hp & H). apply bind_ok in H as (es & He & H). injection H as <-. cbn [nb_entries].
  apply map_length_ok in He. apply map_length_ok in Hp. rewrite He. etransitivity; [apply filter_le|]. etransitivity; [apply filter_le|]. rewrite Hp.
  pose proof (names_bound _ _ _ _ (T st Hs Sc) Ht) as B. apply objects_bound in B. destruct (open_light h fuel bs st Hs (st_data_root st) (or_introl eq_refl)) as (L & _). lia.
Qed.

(** All sections of a notebook. *)
Lemma total_le {A} (f : A -> nat) n l : (forall x, In x l -> f x <= n) -> total f l <= length l * n.
Proof.
  induction l as [|a l IH]; intro H; [apply le_n|]. cbn [total length]. specialize (IH (fun x I => H x (or_intror I))). specialize (H a (or_introl eq_refl)). cbn [Nat.mul]. lia.
Qed.
Lemma in_map_ok {A B} (f : A -> res B) l : forall l' b, map_res f l = Ok l' -> In b l' -> exists a, In a l /\ f a = Ok b.
Proof.
  induction l as [|a l IH]; intros l' b H I; cbn [map_res] in H; [injection H as <-; destruct I|].
  apply bind_ok in H as (c & Hc & H). apply bind_ok in H as (cs & Hcs & H). injection H as <-. destruct I as [<-|I]; [exists a; split; [now left|exact Hc]|].
  destruct (IH _ _ Hcs I) as (x & X & E). exists x. split; [now right|exact E].
Qed.
Lemma sections_bound sanitise h fuel fs n :
  (forall p bs, fs_read fs p = Some bs -> length bs <= n /\ forall st, open_store h fuel bs = Ok st -> st_schema st = toc_schema -> toc_tree (st_data_root st)) -> 1 <= n ->
  forall depth p nb, parse_notebook sanitise h depth fuel fs p = Ok nb -> notebook_sections nb <= n ^ depth.
Proof.
  intros A N. induction depth as [|depth IH]; intros p nb H; [discriminate H|].
  destruct (fs_read fs p) as [bs|] eqn:R; [|cbn [parse_notebook] in H; rewrite R in H; discriminate H].
  destruct (A p bs R) as (L & T). pose proof (entries_bound _ _ _ _ _ _ _ _ T H R) as B. unfold notebook_sections.
  etransitivity; [apply (total_le _ (n ^ depth))|cbn [Nat.pow]; apply Nat.mul_le_mono; lia].
  intros e I. cbn [parse_notebook] in H. rewrite R in H. cbn [ok_or rbind] in H.
  apply bind_ok in H as (st & Hs & H). destruct (N.eqb _ _); [|discriminate H]. apply bind_ok in H as (base & _ & H). apply bind_ok in H as ((names, c) & Ht & H).
  apply bind_ok in H as (ps & Hp & H). apply bind_ok in H as (es & He & H). injection H as <-. cbn [nb_entries] in I.
  destruct (in_map_ok _ _ _ _ He I) as (q & _ & Hq). destruct (fs_is_file fs q).
  - apply bind_ok in Hq as (s & _ & Hq). injection Hq as <-. cbn [entry_sections]. clear - N. induction depth as [|d IHd]; cbn [Nat.pow]; [lia|nia].
  - apply bind_ok in Hq as (dn & _ & Hq). apply bind_ok in Hq as (files & _ & Hq). apply bind_ok in Hq as (toc & _ & Hq). apply bind_ok in Hq as (g & Hg & Hq).
    injection Hq as <-. cbn [entry_sections]. exact (IH _ _ Hg).
Qed.

(** ** A check *)
Definition toc_kids (e : exguid * object) : list exguid :=
  match toc_parse (snd e) with Ok t => match tc_filename t with None => tc_children t | Some _ => [] end | _ => [] end.
Lemma flat_once {A B} (f : A -> list B) l : NoDup (flat_map f l) -> forall a b i j x, In a l -> In b l -> nth_error (f a) i = Some x -> nth_error (f b) j = Some x -> a = b /\ i = j.
Proof.
  assert (D : forall (u v : list B), NoDup (u ++ v) -> NoDup u /\ NoDup v /\ forall x, In x u -> ~ In x v).
  { induction u as [|y u IHu]; intros v N; [split; [constructor|split; [exact N|intros x []]]|]. inversion N as [|? ? N1 N2]; subst. destruct (IHu v N2) as (U & V & W).
    split; [constructor; [intro; apply N1, in_or_app; now left|exact U]|]. split; [exact V|]. intros x [<-|X] Y; [apply N1, in_or_app; now right|exact (W x X Y)]. }
  induction l as [|c l IH]; intros N a b i j x Ia Ib Xa Xb; [destruct Ia|]. cbn [flat_map] in N. destruct (D _ _ N) as (U & V & W).
  assert (F : forall e k, In e l -> nth_error (f e) k = Some x -> In x (flat_map f l)) by (intros e k I X; apply in_flat_map; exists e; split; [exact I|now apply nth_error_In in X]).
  destruct Ia as [<-|Ia], Ib as [<-|Ib].
  - split; [reflexivity|]. assert (Li : i < length (f c)) by (apply nth_error_Some; congruence). apply (NoDup_nth_error (f c)); [exact U|exact Li|congruence].
  - exfalso. apply (W x); [now apply nth_error_In in Xa|exact (F _ _ Ib Xb)].
  - exfalso. apply (W x); [now apply nth_error_In in Xb|exact (F _ _ Ia Xa)].
  - now apply IH with (x := x).
Qed.
Fixpoint once (l : list exguid) : bool := match l with [] => true | x :: r => negb (existsb (exguid_eqb x) r) && once r end.
Lemma once_nodup l : once l = true -> NoDup l.
Proof.
  induction l as [|x l IH]; intro H; [constructor|]. cbn [once] in H. apply andb_true_iff in H as (A & B). constructor; [|exact (IH B)]. intro I. apply negb_true_iff in A.
  assert (E : existsb (exguid_eqb x) l = true) by (apply existsb_exists; exists x; split; [exact I|now apply PackageRT.exguid_eqb_eq]). congruence.
Qed.
Lemma toc_tree_checked sp : once (flat_map toc_kids (sp_objects sp)) = true ->
  forallb (fun e => forallb (fun b => (eg_value (fst e) <? eg_value b)%N) (toc_kids e)) (sp_objects sp) = true -> toc_tree sp.
Proof.
  intros D R. apply once_nodup in D.
  assert (K : forall a l, folder_lists sp a l -> exists o, In (a, o) (sp_objects sp) /\ toc_kids (a, o) = l).
  { intros a l (o & Ho & d & Hd & Hn & ->). exists o. unfold get_object in Ho. apply (alookup_in exguid_eqb PackageRT.exguid_eqb_eq) in Ho. split; [exact Ho|].
    unfold toc_kids. cbn [snd]. apply toc_ok in Hd. now rewrite Hd, Hn. }
  split.
  - intros a b la lb i j x La Lb Xa Xb. destruct (K a la La) as (o & Io & <-), (K b lb Lb) as (o' & Io' & <-).
    destruct (flat_once _ _ D _ _ _ _ _ Io Io' Xa Xb) as (E & J). split; [congruence|exact J].
  - intros a H. assert (L : forall x y, clos_trans _ (SpecNotebook.below sp) x y -> (eg_value x < eg_value y)%N).
    { intros x y T. induction T as [x y T|x y z _ IH _ IH']; [|lia]. apply below_lists in T as (l & Ll & I). destruct (K x l Ll) as (o & Io & <-).
      rewrite forallb_forall in R. specialize (R _ Io). rewrite forallb_forall in R. specialize (R _ I). now apply N.ltb_lt in R. }
    apply L in H. lia.
Qed.
