(** Tables of contents and paths against SpecNotebook.v. *)
From Coq Require Import Lia ZifyBool ZifyNat ZifyN Permutation Relations.
From Verif Require Import Base Codec Package PropSet PropIds Store Shapes Props Nodes Doc SpecCodec SpecStore SpecValues SpecNodes
  NodesProofs NodesProofs2 NodesProofs3 StoreProofs SpecDoc DocProofs DocProofs3 DocProofs4 DocProofs5 SpecNotebook Notebook.
Local Open Scope nat_scope.

Lemma name_eqb_eq a b : name_eqb a b = true <-> a = b.
Proof.
  revert b. induction a as [|x a IH]; intros [|y b]; cbn; split; try discriminate; auto.
  - intros H. apply andb_prop in H as (H1 & H2). apply N.eqb_eq in H1 as ->. now apply IH in H2 as ->.
  - intros [= -> ->]. rewrite N.eqb_refl. now apply IH.
Qed.
Lemma name_eqb_neq a b : name_eqb a b = false <-> a <> b.
Proof. rewrite <- name_eqb_eq. destruct (name_eqb a b); split; congruence. Qed.

(** ** Sorting *)
Lemma insert_perm e l : Permutation (e :: l) (insert_by_key e l).
Proof.
  induction l as [|a l IH]; cbn; [reflexivity|]. destruct (N.leb _ _); [reflexivity|].
  etransitivity; [apply perm_swap|]. now constructor.
Qed.
Lemma sort_perm l : Permutation l (sorted_by_key l).
Proof. induction l as [|a l IH]; cbn; [constructor|]. etransitivity; [|apply insert_perm]. now constructor. Qed.

Fixpoint asc (l : list (N * name)) : Prop :=
  match l with [] => True | a :: r => (forall b, In b r -> (fst a <= fst b)%N) /\ asc r end.
Lemma insert_asc e l : asc l -> asc (insert_by_key e l).
Proof.
  induction l as [|a l IH]; cbn; [intros _; split; [intros b []|exact I]|]. intros (Ha & Hl).
  destruct (N.leb_spec (fst e) (fst a)) as [L|L]; cbn.
  - split; [|split; auto]. intros b [<-|Hb]; [lia|]. specialize (Ha b Hb). lia.
  - split; [|auto]. intros b Hb. apply (Permutation_in _ (Permutation_sym (insert_perm e l))) in Hb.
    destruct Hb as [<-|Hb]; [lia|auto].
Qed.
Lemma sort_asc l : asc (sorted_by_key l).
Proof. induction l as [|a l IH]; cbn; [exact I|now apply insert_asc]. Qed.
Lemma asc_ascending l : asc l <-> ascending l.
Proof.
  split.
  - induction l as [|x l IH]; cbn; [intros _ [|i] j a b _ [=]|]. intros (Hx & Hl) [|i] [|j] a b L Ha Hb; try lia; cbn in *.
    + injection Ha as <-. apply Hx. eapply nth_error_In; exact Hb.
    + apply (IH Hl i j a b); [lia|exact Ha|exact Hb].
  - induction l as [|x l IH]; cbn; [auto|]. intros H. split.
    + intros b Hb. apply In_nth_error in Hb as (j & Hj). apply (H 0 (S j) x b); [lia|reflexivity|exact Hj].
    + apply IH. intros i j a b L Ha Hb. apply (H (S i) (S j) a b); [lia|exact Ha|exact Hb].
Qed.
Lemma insert_with_id k e l : with_id k (insert_by_key e l) = with_id k (e :: l).
Proof.
  induction l as [|a l IH]; cbn; [reflexivity|]. destruct (N.leb_spec (fst e) (fst a)) as [L|L]; [reflexivity|]. cbn.
  unfold with_id in *. cbn in IH. rewrite IH. destruct (N.eqb_spec (fst e) k), (N.eqb_spec (fst a) k); try reflexivity. lia.
Qed.
Lemma sort_with_id k l : with_id k (sorted_by_key l) = with_id k l.
Proof.
  induction l as [|a l IH]; [reflexivity|]. change (sorted_by_key (a :: l)) with (insert_by_key a (sorted_by_key l)).
  rewrite insert_with_id. unfold with_id in *. cbn [filter]. now rewrite IH.
Qed.
Lemma sort_stable l : stably_sorted l (sorted_by_key l).
Proof. split; [apply sort_perm|]. split; [apply asc_ascending, sort_asc|]. intros k. symmetry. apply sort_with_id. Qed.

(** A list sorted this way is determined by its parts with one id. *)
Lemma asc_head l r : asc l -> asc r -> (forall k, with_id k l = with_id k r) -> l = r.
Proof.
  revert r. induction l as [|a l IH]; intros r Hl Hr Hk.
  - destruct r as [|b r]; [reflexivity|]. specialize (Hk (fst b)). cbn in Hk. rewrite N.eqb_refl in Hk. discriminate.
  - destruct r as [|b r].
    { specialize (Hk (fst a)). cbn in Hk. rewrite N.eqb_refl in Hk. discriminate. }
    assert (In_ : forall k x m, with_id k m = x :: tl (with_id k m) -> In x m /\ fst x = k).
    { intros k x m E. assert (H : In x (with_id k m)) by (rewrite E; now left). apply filter_In in H as (H & H').
      split; [exact H|now apply N.eqb_eq]. }
    assert (E : fst a = fst b).
    { destruct Hl as (Ha & _), Hr as (Hb & _).
      assert (A : In a (b :: r)).
      { apply (In_ (fst a)). rewrite <- Hk. cbn. now rewrite N.eqb_refl. }
      assert (B : In b (a :: l)).
      { apply (In_ (fst b)). rewrite Hk. cbn. now rewrite N.eqb_refl. }
      destruct A as [->|A]; [reflexivity|]. destruct B as [->|B]; [reflexivity|].
      specialize (Ha b B). specialize (Hb a A). lia. }
    assert (E' : a = b).
    { specialize (Hk (fst a)). cbn in Hk. rewrite N.eqb_refl, E, N.eqb_refl in Hk. now injection Hk. }
    subst b. f_equal. apply IH; [apply Hl|apply Hr|]. intros k. specialize (Hk k). cbn in Hk.
    destruct (N.eqb (fst a) k); [now injection Hk|exact Hk].
Qed.
Lemma stable_unique l r : stably_sorted l r -> r = sorted_by_key l.
Proof.
  intros (_ & Ha & Hk). apply asc_head; [now apply asc_ascending|apply sort_asc|].
  intros k. rewrite sort_with_id. symmetry. apply Hk.
Qed.

(** ** Repeated names *)
Lemma dedup_squeezed e l : squeezed (map snd (e :: l)) (map snd (dedup_from e l)).
Proof.
  revert e. induction l as [|a l IH]; intros e; cbn; [constructor|].
  destruct (name_eqb (snd e) (snd a)) eqn:E.
  - apply name_eqb_eq in E. rewrite <- E. apply sq_same. apply (IH e).
  - apply name_eqb_neq in E. cbn. apply sq_other; [exact E|apply (IH a)].
Qed.
Lemma squeezed_ok l : squeezed (map snd l) (map snd (dedup l)).
Proof. destruct l as [|e l]; [constructor|apply dedup_squeezed]. Qed.
Lemma squeezed_fun l r r' : squeezed l r -> squeezed l r' -> r = r'.
Proof.
  intros H. revert r'. induction H as [|n|n l r H IH|n m l r N H IH]; intros r' H'; inversion H' as [|x|x y z K|x y z w K K']; subst; auto; try congruence.
  f_equal. now apply IH.
Qed.
Lemma squeezed_in l r : squeezed l r -> forall n, In n r <-> In n l.
Proof.
  intros H n. induction H as [|m|m l r H IH|m k l r N H IH]; [reflexivity|reflexivity|rewrite IH; cbn; tauto|].
  cbn [In] in *. tauto.
Qed.
Lemma squeezed_head l r : squeezed l r -> hd_error r = hd_error l.
Proof. intros H. induction H; cbn in *; congruence. Qed.
Lemma squeezed_adjacent l r i n m : squeezed l r ->
  nth_error r i = Some n -> nth_error r (S i) = Some m -> n <> m.
Proof.
  intros H. revert i. induction H as [|k|k l r H IH|k k' l r N H IH]; intros i Hn Hm.
  - now destruct i.
  - destruct i as [|[|i]]; discriminate Hm.
  - eauto.
  - destruct i as [|i]; cbn in Hn, Hm; [|eauto]. injection Hn as <-. apply squeezed_head in H.
    destruct r; cbn in *; congruence.
Qed.

(** ** The tree *)
Lemma listing_induct sp (P : exguid -> list (N * name) -> Prop) :
  (forall id o d k n, get_object sp id = Some o -> toc_object o d ->
     tc_filename d = Some n -> tc_ordering_id d = Some k -> P id [(k, n)]) ->
  (forall id o d ls, get_object sp id = Some o -> toc_object o d -> tc_filename d = None ->
     Forall2 (listing sp) (tc_children d) ls -> Forall2 P (tc_children d) ls -> P id (concat ls)) ->
  forall id ts, listing sp id ts -> P id ts.
Proof.
  intros H1 H2. fix IH 3. intros id ts [i o d k n Ho Hd Hn Hk|i o d ls Ho Hd Hn F]; [eauto|].
  apply (H2 i o d ls Ho Hd Hn F).
  exact ((fix go l ls (F : Forall2 (listing sp) l ls) : Forall2 P l ls :=
            match F with
            | Forall2_nil _ => Forall2_nil _
            | @Forall2_cons _ _ _ a b l ls Hab F' => @Forall2_cons _ _ _ a b l ls (IH _ _ Hab) (go _ _ F')
            end) _ _ F).
Qed.

Lemma toc_entry_sound sp f : forall id e, parse_toc_entry f sp id = Ok e ->
  listing sp id (te_entries e) /\ found sp id (fun o => exists d, toc_object o d /\ te_color e = tc_color d).
Proof.
  induction f as [|f IH]; intros id e H; [discriminate H|]. cbn in H.
  apply found_ok in H as (o & Ho & H). apply bind_ok in H as (d & Hd & H). apply toc_ok in Hd.
  destruct (tc_filename d) as [n|] eqn:En.
  - apply bind_ok in H as (k & Hk & H). injection H as <-. cbn. split.
    + apply (ls_name sp id o d); auto. destruct (tc_ordering_id d); [now injection Hk as <-|discriminate Hk].
    + exists o. eauto.
  - apply bind_ok in H as (l & Hl & H). injection H as <-. cbn. split; [|exists o; eauto].
    rewrite flat_map_concat_map. apply (ls_folder sp id o d); auto.
    apply map_res_ok in Hl. clear -Hl IH. induction Hl as [|a b l m Hab H IHl]; constructor; auto. now apply IH in Hab.
Qed.
Lemma settle_map {A B} (f : nat -> A -> res B) l ys :
  Forall2 (fun a b => exists k, forall n, k <= n -> f n a = Ok b) l ys ->
  exists k, forall n, k <= n -> map_res (f n) l = Ok ys.
Proof.
  intros H. induction H as [|a b l ys (k & Hk) H (k' & IH)]; [exists 0; reflexivity|].
  exists (k + k'). intros n L. cbn. rewrite Hk by lia. cbn. rewrite IH by lia. reflexivity.
Qed.
Lemma toc_entry_complete sp id ts : listing sp id ts ->
  exists c k, forall f, k <= f -> parse_toc_entry f sp id = Ok (TocEntry ts c).
Proof.
  intros H. induction H as [id o d k n Ho Hd Hn Hk|id o d ls Ho Hd Hn F IH] using listing_induct.
  - exists (tc_color d), 1. intros [|f] L; [lia|]. cbn. apply found_ok. exists o. split; [exact Ho|].
    apply toc_ok in Hd. rewrite Hd. cbn. rewrite Hn, Hk. reflexivity.
  - assert (E : exists es, map te_entries es = ls /\
      Forall2 (fun a e => exists k, forall f, k <= f -> parse_toc_entry f sp a = Ok e) (tc_children d) es).
    { clear -IH. induction IH as [|a l cs ls (c & k & Hk) H (es & <- & Hes)]; [exists []; auto|].
      exists (TocEntry l c :: es). split; [reflexivity|]. constructor; eauto. }
    destruct E as (es & <- & Hes). destruct (settle_map (fun f a => parse_toc_entry f sp a) _ _ Hes) as (k & Hk).
    exists (tc_color d), (S k). intros [|f] L; [lia|]. cbn. apply found_ok. exists o. split; [exact Ho|].
    apply toc_ok in Hd. rewrite Hd. cbn. rewrite Hn, Hk by lia. cbn. now rewrite flat_map_concat_map.
Qed.
Lemma listing_entries sp id c c' : found sp id (fun o => exists d, toc_object o d /\ c = tc_color d) ->
  found sp id (fun o => exists d, toc_object o d /\ c' = tc_color d) -> c = c'.
Proof.
  intros (o & Ho & d & Hd & ->) (o' & Ho' & d' & Hd' & ->). rewrite Ho in Ho'. injection Ho' as <-.
  apply toc_ok in Hd, Hd'. congruence.
Qed.
Lemma toc_settles sp names c : settles (fun f => parse_toc f sp) (names, c) (toc_is sp names c).
Proof.
  split.
  - intros f H. unfold parse_toc in H. apply bind_ok in H as (id & Hid & H). apply bind_ok in H as (e & He & H).
    injection H as <- <-. apply toc_entry_sound in He as (Hl & Hc).
    exists id, (te_entries e), (sorted_by_key (te_entries e)). split.
    { destruct (content_root sp); [now injection Hid as ->|discriminate Hid]. }
    split; [exact Hl|]. split; [apply sort_stable|]. split; [apply squeezed_ok|exact Hc].
  - intros (id & ts & r & Hid & Hl & Hs & Hq & Hc). apply stable_unique in Hs as ->.
    destruct (toc_entry_complete _ _ _ Hl) as (c' & k & Hk). exists k. intros f L. unfold parse_toc. rewrite Hid. cbn [rbind ok_or].
    pose proof (Hk f L) as He. rewrite He. cbn [rbind te_entries te_color]. apply toc_entry_sound in He as (_ & Hc').
    cbn in Hc'. rewrite (listing_entries _ _ _ _ Hc' Hc).
    now rewrite (squeezed_fun _ _ _ (squeezed_ok _) Hq).
Qed.

(** ** Chains in a relation, and the pigeonhole principle *)
Inductive steps {A} (R : A -> A -> Prop) : nat -> A -> Prop :=
| st_end a : steps R 0 a
| st_more n a b : R a b -> steps R n b -> steps R (S n) a.
Lemma steps_nodup {A} (R : A -> A -> Prop) (all : list A) n a :
  (forall a b, R a b -> In a all) -> (forall a, ~ clos_trans _ R a a) -> steps R n a ->
  exists l, length l = n /\ NoDup l /\ incl l all /\ forall x, In x l -> x = a \/ clos_trans _ R a x.
Proof.
  intros Ha Hl H. induction H as [a|n a b Hp H (l & Hn & Nd & Hi & Hc)].
  - exists []. repeat split; [constructor|intros x []|intros x []].
  - exists (a :: l). split; [cbn; lia|]. split; [|split].
    + constructor; [|exact Nd]. intros Hx. apply (Hl a). destruct (Hc a Hx) as [<-|Hb]; [now apply t_step|].
      eapply t_trans; [apply t_step; exact Hp|exact Hb].
    + intros x [<-|Hx]; [eapply Ha; exact Hp|now apply Hi].
    + intros x [<-|Hx]; [now left|]. right. destruct (Hc x Hx) as [->|Hb]; [now apply t_step|].
      eapply t_trans; [apply t_step; exact Hp|exact Hb].
Qed.
Lemma steps_bounded {A} (R : A -> A -> Prop) (all : list A) n a :
  (forall a b, R a b -> In a all) -> (forall a, ~ clos_trans _ R a a) -> steps R n a -> n <= length all.
Proof. intros Ha Hl H. destruct (steps_nodup R all n a Ha Hl H) as (l & <- & Nd & Hi & _). now apply NoDup_incl_length. Qed.

Lemma below_object sp a b : below sp a b -> In a (map fst (sp_objects sp)).
Proof.
  intros (o & d & Ho & _). unfold get_object in Ho. apply (alookup_in exguid_eqb PackageRT.exguid_eqb_eq) in Ho.
  now apply (in_map fst) in Ho.
Qed.
Lemma toc_entry_fuel sp f : forall id, parse_toc_entry f sp id = OutOfFuel -> steps (below sp) f id.
Proof.
  induction f as [|f IH]; intros id H; [constructor|]. cbn in H.
  apply fuel_ret in H as (o & Ho & H); [|apply ret_need]. apply need_ok in Ho.
  apply fuel_ret in H as (d & Hd & H); [|apply toc_ret]. apply toc_ok in Hd.
  destruct (tc_filename d) as [n|] eqn:En.
  - destruct (tc_ordering_id d); discriminate H.
  - apply fuel_bind in H as [H|(l & _ & H)]; [|discriminate H]. apply fuel_map in H as (a & Ha & H).
    apply (st_more _ _ _ a); [|now apply IH]. exists o, d. auto.
Qed.
Lemma toc_terminates sp f : no_toc_loop sp -> length (sp_objects sp) < f -> parse_toc f sp <> OutOfFuel.
Proof.
  intros Hl L H. unfold parse_toc in H. apply fuel_bind in H as [H|(id & _ & H)]; [now destruct (content_root sp)|].
  apply fuel_bind in H as [H|(e & _ & H)]; [|discriminate H]. apply toc_entry_fuel in H.
  apply (steps_bounded _ (map fst (sp_objects sp))) in H; [|apply below_object|exact Hl]. rewrite map_length in H. lia.
Qed.
Lemma toc_entry_no_panic sp f : forall id, parse_toc_entry f sp id <> Panic.
Proof.
  induction f as [|f IH]; intros id H; [discriminate H|]. cbn in H.
  apply crash_ret in H as (o & Ho & H); [|apply ret_need].
  apply crash_ret in H as (d & Hd & H); [|apply toc_ret].
  destruct (tc_filename d) as [n|] eqn:En; [destruct (tc_ordering_id d); discriminate H|].
  apply crash_bind in H as [H|(l & _ & H)]; [|discriminate H]. apply crash_map in H as (a & Ha & H). now apply IH in H.
Qed.
Lemma toc_no_panic sp f : parse_toc f sp <> Panic.
Proof.
  intros H. unfold parse_toc in H. apply crash_bind in H as [H|(id & _ & H)]; [now destruct (content_root sp)|].
  apply crash_bind in H as [H|(e & _ & H)]; [|discriminate H]. now apply toc_entry_no_panic in H.
Qed.
Lemma toc_entry_acc sp f : forall id e, parse_toc_entry f sp id = Ok e -> Acc (fun b a => below sp a b) id.
Proof.
  induction f as [|f IH]; intros id e H; [discriminate H|]. cbn in H.
  apply found_ok in H as (o & Ho & H). apply bind_ok in H as (d & Hd & H). constructor. intros b (o' & d' & Ho' & Hd' & Hn & Hb).
  rewrite Ho in Ho'. injection Ho' as <-. apply toc_ok in Hd'. rewrite Hd in Hd'. injection Hd' as <-. rewrite Hn in H.
  apply bind_ok in H as (l & Hl & _). destruct (map_ok_in _ _ _ _ Hl Hb) as (x & Hx). now apply IH in Hx.
Qed.
Lemma toc_loop_no_result f sp id a r : content_root sp = Some id ->
  clos_refl_trans _ (below sp) id a -> clos_trans _ (below sp) a a -> parse_toc f sp <> Ok r.
Proof.
  intros Hid Ha Hl H. unfold parse_toc in H. rewrite Hid in H. cbn in H. apply bind_ok in H as (e & H & _).
  apply toc_entry_acc in H.
  assert (A : Acc (fun b a => below sp a b) a).
  { apply clos_rt_rtn1 in Ha. destruct Ha as [|b c Hb Ha]; [exact H|]. apply (acc_reach (below sp) id); [exact H|].
    apply clos_rtn1_rt in Ha. clear -Hb Ha. apply clos_rt_rt1n in Ha. induction Ha as [|x y z Hx Ha IH]; [now apply t_step|].
    eapply t_trans; [apply t_step; exact Hx|auto]. }
  now apply acc_loop in A.
Qed.
