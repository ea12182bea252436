(** References of an object. *)
From Coq Require Import Lia ZifyBool ZifyNat ZifyN Permutation.
From Verif Require Import Base BaseProofs Codec SpecCodec Package SpecPackage PropSet PropSetProofs
  SpecPropSet PropSetRT PropIds Store SpecStore StoreProofs Shapes Props SpecRefs.
Ltac Zify.zify_post_hook ::= Z.div_mod_to_equations.

Lemma sumN_cons {A} (f : A -> N) x l : sumN f (x :: l) = f x + sumN f l.
Proof. reflexivity. Qed.
Lemma sumN_perm {A} (f : A -> N) l1 l2 : Permutation l1 l2 -> sumN f l1 = sumN f l2.
Proof. induction 1; rewrite ?sumN_cons; lia. Qed.

Lemma total_app {A} (f : A -> N) a b : total f (a ++ b) = total f a + total f b.
Proof. unfold total. induction a; cbn [app fold_right]; lia. Qed.

Lemma all_Forall {A} (P : A -> Prop) l : all P l <-> Forall P l.
Proof.
  induction l as [|a l IH]; cbn; split; intro H; auto.
  - constructor; tauto.
  - inversion H; subst. tauto.
Qed.

(** ** A set with distinct ids is the enumeration of its properties *)

Lemma last_at_ge {A} k id (s : list (N * A)) j v : last_at k id s = Some (j, v) -> k <= j.
Proof.
  revert k; induction s as [|[i w] s IH]; intros k; cbn; [discriminate|].
  destruct (last_at (k + 1) id s) as [x|] eqn:E.
  - intro X. injection X as ->. apply IH in E. lia.
  - destruct (i =? id); [|discriminate]. intro X. injection X as -> ->. lia.
Qed.

Lemma last_at_notin {A} k id (s : list (N * A)) : ~ In id (map fst s) -> last_at k id s = None.
Proof.
  revert k; induction s as [|[i w] s IH]; intros k H; cbn in *; auto.
  rewrite IH by tauto. destruct (N.eqb_spec i id); tauto.
Qed.

Lemma n_alookup_in {V} (m : amap N V) id v : alookup N.eqb id m = Some v -> In (id, v) m.
Proof. apply (alookup_in N.eqb N.eqb_eq). Qed.
Lemma in_alookup {V} (m : amap N V) id v : NoDup (map fst m) -> In (id, v) m -> alookup N.eqb id m = Some v.
Proof. apply (alookup_nodup N.eqb N.eqb_eq). Qed.

Lemma number_fst {A} k (l : list (N * A)) : map fst (number k l) = map fst l.
Proof. revert k; induction l as [|[i v] l IH]; intro k; cbn; [|rewrite IH]; auto. Qed.
Lemma number_app {A} k (a b : list (N * A)) :
  number k (a ++ b) = number k a ++ number (k + N.of_nat (length a)) b.
Proof.
  revert k; induction a as [|[i v] a IH]; intro k; cbn [number app length].
  - now rewrite N.add_0_r.
  - rewrite IH. f_equal. f_equal. f_equal. lia.
Qed.

Lemma enum_in {A B} (R : A -> B -> Prop) (m : amap N (N * B)) (s : list (N * A)) :
  NoDup (map fst m) -> NoDup (map fst s) ->
  (forall id k v, last_at 0 id s = Some (k, v) ->
     exists w, alookup N.eqb id m = Some (k, w) /\ R v w) ->
  (forall id, last_at 0 id s = None -> alookup N.eqb id m = None) ->
  exists ws, Forall2 (fun p q => fst p = fst q /\ R (snd p) (snd q)) s ws /\
             Permutation m (number 0 ws).
Proof.
  intros Hm Hs Hin Hout.
  assert (G : forall k s0, NoDup (map fst s0) ->
     (forall id j v, last_at k id s0 = Some (j, v) ->
        exists w, alookup N.eqb id m = Some (j, w) /\ R v w) ->
     exists ws, Forall2 (fun p q => fst p = fst q /\ R (snd p) (snd q)) s0 ws /\
                forall x, In x (number k ws) -> In x m).
  { intros k s0. revert k. induction s0 as [|[i v] s0 IH]; intros k N0 H0.
    - exists []. split; [constructor|]. intros x [].
    - inversion N0 as [|? ? Hni N1]; subst. cbn in Hni.
      destruct (H0 i k v) as (w & Hw & Rw).
      { cbn. rewrite last_at_notin by exact Hni. now rewrite N.eqb_refl. }
      destruct (IH (k + 1) N1) as (ws & F & I1).
      { intros id j u E. apply H0. cbn. now rewrite E. }
      exists ((i, w) :: ws). split; [constructor; auto|].
      intros x [<-|X]; [|auto]. now apply n_alookup_in. }
  destruct (G 0 s Hs Hin) as (ws & F & I1). exists ws. split; [exact F|].
  assert (E : map fst ws = map fst s).
  { clear - F. induction F as [|p q s ws [E _] F IH]; cbn; congruence. }
  apply Permutation_sym, NoDup_Permutation_bis.
  - apply (NoDup_map_inv fst). now rewrite number_fst, E.
  - rewrite <- (map_length fst (number 0 ws)), number_fst, E.
    rewrite <- (map_length fst m). apply NoDup_incl_length; [exact Hm|].
    intros id X. apply in_map_iff in X as ([i [k w]] & <- & X). cbn.
    destruct (in_dec N.eq_dec i (map fst s)) as [Y|Y]; [exact Y|].
    apply (last_at_notin 0), Hout in Y. apply in_alookup in X; [|exact Hm]. congruence.
  - exact I1.
Qed.

Lemma set_enum s m : set_means s m -> NoDup (map fst s) ->
  exists ws, Forall2 (fun p q => fst p = fst q /\ val_means (snd p) (snd q)) s ws /\
             Permutation m (number 0 ws).
Proof. intros H Hs. inversion H; subst. eapply enum_in; eauto. Qed.

(** ** Counting *)

Section Count.
  Context (own : sval -> N) (cnt : pvalue -> N).
  Context (Hleaf : forall v w, match v with SValues _ _ | SSet _ => False | _ => True end ->
                      val_means v w -> cnt w = own v).
  Context (Hvalues : forall id sets, cnt (VPropertyValues id sets)
             = sumN (fun s => sumN (fun e => match e with (_, (_, w)) => cnt w end) s) sets).
  Context (Hset : forall s, cnt (VPropertySet s) = 0).

  Lemma count_enum (s : list (N * sval)) ws k :
    Forall (fun p => forall w, regular own (snd p) -> val_means (snd p) w ->
                     cnt w = taken own (snd p)) s ->
    all (fun p => regular own (snd p)) s ->
    Forall2 (fun p q => fst p = fst q /\ val_means (snd p) (snd q)) s ws ->
    sumN (fun e => match e with (_, (_, w)) => cnt w end) (number k ws)
    = total (fun p => taken own (snd p)) s.
  Proof.
    intros HF HR F. revert k HF HR. induction F as [|[i v] [j w] s ws [_ M] F IH]; intros k HF HR.
    - reflexivity.
    - inversion HF; subst. destruct HR as [R1 R2]. cbn [snd] in *. cbn [number sumN total fold_right snd].
      rewrite (H1 w R1 M). f_equal. now apply IH.
  Qed.

  Lemma count_taken v : forall w, regular own v -> val_means v w -> cnt w = taken own v.
  Proof.
    induction v as [v Hv|id ss IH|s IH] using sval_rect'; intros w HR HM.
    - rewrite (Hleaf v w Hv HM). destruct v; try contradiction; reflexivity.
    - inversion HM as [ | | | | | | | | | | | | | ? ? ms HS | ]; subst. rewrite Hvalues. cbn [taken regular] in *.
      clear HM. revert ms HS HR. induction IH as [|s ss Hs _ IH]; intros ms HS HR; inversion HS; subst.
      + reflexivity.
      + destruct HR as [[N1 R1] R2]. cbn [sumN total fold_right]. f_equal.
        * destruct (set_enum s m H1 N1) as (ws & F & P).
          etransitivity; [apply (sumN_perm _ _ _ P)|]. now apply count_enum.
        * now apply IH.
    - inversion HM; subst. rewrite Hset. cbn [taken regular] in *. lia.
  Qed.

  (** The properties before the [i]-th. *)
  Lemma count_before s m ws i :
    all (fun p => regular own (snd p)) s ->
    Forall2 (fun p q => fst p = fst q /\ val_means (snd p) (snd q)) s ws ->
    Permutation m (number 0 ws) -> (i <= length s)%nat ->
    sumN cnt (map snd (filter (fun e => fst e <? N.of_nat i) (map snd m)))
    = total (fun p => taken own (snd p)) (firstn i s).
  Proof.
    intros HR F P Hi.
    assert (E : forall l : list (N * (N * pvalue)),
              sumN cnt (map snd (filter (fun e => fst e <? N.of_nat i) (map snd l)))
              = sumN (fun e => match e with (_, (_, w)) => cnt w end)
                     (filter (fun e => fst (snd e) <? N.of_nat i) l)).
    { induction l as [|[a [b c]] l IH]; cbn; auto. destruct (b <? N.of_nat i); cbn; auto. now f_equal. }
    rewrite E. clear E.
    assert (PF : forall (f : N * (N * pvalue) -> bool) l1 l2, Permutation l1 l2 ->
              Permutation (filter f l1) (filter f l2)).
    { intros f l1 l2. induction 1; cbn; auto.
      - destruct (f x); auto.
      - destruct (f x), (f y); auto using perm_swap.
      - eauto using perm_trans. }
    rewrite (sumN_perm _ _ _ (PF _ _ _ P)). clear PF P m.
    assert (L : length ws = length s) by (clear - F; induction F; cbn; auto).
    assert (E : filter (fun e => fst (snd e) <? N.of_nat i) (number 0 ws) = number 0 (firstn i ws)).
    { clear HR F. assert (Hw : (i <= length ws)%nat) by lia. clear Hi L.
      rewrite <- (firstn_skipn i ws) at 1. rewrite number_app, filter_app.
      rewrite firstn_length_le by exact Hw.
      assert (A1 : forall (l : list (N * pvalue)) k j, (k + N.of_nat (length l) <= j) ->
                 filter (fun e => fst (snd e) <? j) (number k l) = number k l).
      { induction l as [|[a b] l IH]; intros k j Hj; cbn [number filter length fst snd] in *; auto.
        destruct (N.ltb_spec k j); [|lia]. f_equal. apply IH. lia. }
      assert (A2 : forall (l : list (N * pvalue)) k j, j <= k ->
                 filter (fun e => fst (snd e) <? j) (number k l) = []).
      { induction l as [|[a b] l IH]; intros k j Hj; cbn [number filter length fst snd] in *; auto.
        destruct (N.ltb_spec k j); [lia|]. apply IH. lia. }
      rewrite A1, A2 by (rewrite ?firstn_length_le by exact Hw; lia). apply app_nil_r. }
    rewrite E. apply count_enum.
    - apply Forall_forall. intros p _ w. apply count_taken.
    - apply all_Forall in HR. apply all_Forall. apply Forall_forall. intros p Hp.
      rewrite Forall_forall in HR. apply HR. clear - Hp.
      rewrite <- (firstn_skipn i s). apply in_or_app. now left.
    - clear - F. revert i. induction F; intros [|i]; cbn; auto.
  Qed.
End Count.

Lemma count_objects_taken : forall v w, regular own_objects v -> val_means v w ->
  count_object_refs w = taken own_objects v.
Proof.
  apply count_taken; try reflexivity.
  intros v w Hv M. destruct M; try contradiction; reflexivity.
Qed.

(** ** Reading one property *)

Lemma nth_last_at {A} (s : list (N * A)) k i id v :
  NoDup (map fst s) -> nth_error s i = Some (id, v) ->
  last_at k id s = Some (k + N.of_nat i, v).
Proof.
  revert k i; induction s as [|[j w] s IH]; intros k [|i] N0 H; cbn in H; try discriminate H;
    inversion N0; subst.
  - injection H as -> ->. cbn. rewrite last_at_notin by assumption. rewrite N.eqb_refl.
    f_equal. f_equal. lia.
  - cbn. rewrite (IH (k + 1) i) by assumption. f_equal. f_equal. lia.
Qed.

Lemma offset_before (o : object) w i id v raw :
  oset_means w (ob_props o) -> regular_set own_objects (os_props w) ->
  nth_error (os_props w) i = Some (id, v) -> pid_id raw = id ->
  (exists pv, oprops_get raw (ob_props o) = Some pv /\ val_means v pv) /\
  object_offset raw o
  = Ok (total (fun p => taken own_objects (snd p)) (firstn i (os_props w))).
Proof.
  intros (Ho & Hs & Hc & HM) [N0 R] Hn Hraw.
  destruct (set_enum _ _ HM N0) as (ws & F & P).
  inversion HM as [s m Hd Hnone Hsome]; subst.
  destruct (Hsome _ _ _ (nth_last_at _ 0 i _ v N0 Hn)) as (pv & Hpv & Mv).
  split.
  - exists pv. split; [|exact Mv]. unfold oprops_get, propset_get. now rewrite Hpv.
  - unfold object_offset, predecessors, propset_index. rewrite Hpv. cbn [option_map fst ok_or rbind].
    rewrite N.add_0_l. f_equal. apply count_before with (ws := ws); auto.
    + intros v0 w0 Hv M. destruct M; try contradiction; reflexivity.
    + apply Nat.lt_le_incl, nth_error_Some. congruence.
Qed.

Lemma space_offset_before (o : object) w i id v raw :
  oset_means w (ob_props o) -> regular_set own_spaces (os_props w) ->
  nth_error (os_props w) i = Some (id, v) -> pid_id raw = id ->
  (exists pv, oprops_get raw (ob_props o) = Some pv /\ val_means v pv) /\
  space_offset raw o
  = Ok (total (fun p => taken own_spaces (snd p)) (firstn i (os_props w))).
Proof.
  intros (Ho & Hs & Hc & HM) [N0 R] Hn Hraw.
  destruct (set_enum _ _ HM N0) as (ws & F & P).
  inversion HM as [s m Hd Hnone Hsome]; subst.
  destruct (Hsome _ _ _ (nth_last_at _ 0 i _ v N0 Hn)) as (pv & Hpv & Mv).
  split.
  - exists pv. split; [|exact Mv]. unfold oprops_get, propset_get. now rewrite Hpv.
  - unfold space_offset, predecessors, propset_index. rewrite Hpv. cbn [option_map fst ok_or rbind].
    rewrite N.add_0_l. f_equal. apply count_before with (ws := ws); auto.
    + intros v0 w0 Hv M. destruct M; try contradiction; reflexivity.
    + apply Nat.lt_le_incl, nth_error_Some. congruence.
Qed.

Lemma flat_resolve_picks {T} (f : N -> compactid -> option T) l : forall k,
  picks f k l (flat_resolve f k l).
Proof.
  induction l as [|c l IH]; intro k; cbn; [constructor|].
  destruct (f k c) eqn:E; constructor; auto.
Qed.
Lemma picks_fun {A B} (f : N -> A -> option B) k l o1 o2 :
  picks f k l o1 -> picks f k l o2 -> o1 = o2.
Proof.
  intro H. revert o2. induction H; intros o2 H2; inversion H2; subst; auto; try congruence.
  f_equal; [congruence|auto].
Qed.

Lemma read_objects (o : object) w i id n raw :
  oset_means w (ob_props o) -> regular_set own_objects (os_props w) ->
  nth_error (os_props w) i = Some (id, SObjectIds n) -> pid_id raw = id ->
  let off := total (fun p => taken own_objects (snd p)) (firstn i (os_props w)) in
  prop_objects raw o
  = Ok (Some (flat_resolve (mapping_get_object (ob_mapping o)) off
                (firstn (N.to_nat n) (skipn (N.to_nat off) (os_objects w))))).
Proof.
  intros M R Hn Hraw off. destruct (offset_before o w i id _ raw M R Hn Hraw) as [(pv & Hpv & Mv) Off].
  unfold prop_objects, get_prop. rewrite Hpv. cbn [opt_map_res].
  inversion Mv; subst. cbn [to_object_ids ok_or rbind]. rewrite Off. cbn [rbind].
  destruct M as (-> & _). reflexivity.
Qed.

Lemma read_object (o : object) w i id raw :
  oset_means w (ob_props o) -> regular_set own_objects (os_props w) ->
  nth_error (os_props w) i = Some (id, SObjectId) -> pid_id raw = id ->
  let off := total (fun p => taken own_objects (snd p)) (firstn i (os_props w)) in
  prop_object raw o
  = match nth_error (os_objects w) (N.to_nat off) with
    | Some c => Ok (mapping_get_object (ob_mapping o) off c)
    | None => Err MalformedOneNoteFileData
    end.
Proof.
  intros M R Hn Hraw off. destruct (offset_before o w i id _ raw M R Hn Hraw) as [(pv & Hpv & Mv) Off].
  unfold prop_object, get_prop. rewrite Hpv. cbn [opt_map_res].
  inversion Mv; subst. cbn [to_object_id ok_or rbind]. rewrite Off. cbn [rbind].
  destruct M as (-> & _). fold off. destruct (nth_error (os_objects w) (N.to_nat off)); reflexivity.
Qed.

Lemma read_spaces (o : object) w i id n raw :
  oset_means w (ob_props o) -> regular_set own_spaces (os_props w) ->
  nth_error (os_props w) i = Some (id, SSpaceIds n) -> pid_id raw = id ->
  let off := total (fun p => taken own_spaces (snd p)) (firstn i (os_props w)) in
  prop_spaces raw o
  = Ok (Some (flat_resolve (mapping_get_space (ob_mapping o)) 0
                (firstn (N.to_nat n) (skipn (N.to_nat off)
                   (match os_spaces w with Some (sp, _) => sp | None => [] end))))).
Proof.
  intros M R Hn Hraw off. destruct (space_offset_before o w i id _ raw M R Hn Hraw) as [(pv & Hpv & Mv) Off].
  unfold prop_spaces, get_prop. rewrite Hpv. cbn [opt_map_res].
  inversion Mv; subst. cbn [to_object_space_ids ok_or rbind]. rewrite Off. cbn [rbind].
  destruct M as (_ & -> & _). reflexivity.
Qed.

(** ** Cutting a list into runs *)

Lemma runs_exist {A B} (f : A -> N) (s : list A) (l : list B) :
  total f s <= N.of_nat (length l) ->
  exists runs rest, l = concat runs ++ rest /\
    Forall2 (fun p run => N.of_nat (length run) = f p) s runs.
Proof.
  revert l; induction s as [|p s IH]; intros l H; cbn [total fold_right] in H.
  - exists [], l. split; [reflexivity|constructor].
  - change (fold_right _ 0 s) with (total f s) in H.
    destruct (IH (skipn (N.to_nat (f p)) l)) as (runs & rest & E & F).
    { rewrite skipn_length. lia. }
    exists (firstn (N.to_nat (f p)) l :: runs), rest. split.
    + cbn. rewrite <- app_assoc, <- E. now rewrite firstn_skipn.
    + constructor; auto. rewrite firstn_length. lia.
Qed.

Lemma run_at {A B} (f : A -> N) (s : list A) (runs : list (list B)) rest i p run :
  Forall2 (fun p run => N.of_nat (length run) = f p) s runs ->
  nth_error s i = Some p -> nth_error runs i = Some run ->
  firstn (N.to_nat (f p)) (skipn (N.to_nat (total f (firstn i s))) (concat runs ++ rest)) = run.
Proof.
  intro F. revert i; induction F as [|q r s runs E F IH]; intros [|i] Hp Hr; cbn in Hp, Hr; try discriminate.
  - injection Hp as ->. injection Hr as ->. cbn. rewrite <- app_assoc.
    rewrite <- E, Nat2N.id, firstn_app, firstn_all, Nat.sub_diag, firstn_O. apply app_nil_r.
  - specialize (IH i Hp Hr). cbn [firstn total fold_right concat].
    change (fold_right _ 0 (firstn i s)) with (total f (firstn i s)).
    rewrite <- app_assoc, <- E. replace (N.to_nat (N.of_nat (length r) + total f (firstn i s)))
      with (length r + N.to_nat (total f (firstn i s)))%nat by lia.
    rewrite skipn_app, skipn_all2, app_nil_l by lia.
    replace (length r + N.to_nat (total f (firstn i s)) - length r)%nat
      with (N.to_nat (total f (firstn i s))) by lia. exact IH.
Qed.

Lemma total_firstn_nth {A} (f : A -> N) s i p :
  nth_error s i = Some p -> total f (firstn i s) + f p <= total f s.
Proof.
  revert i; induction s as [|q s IH]; intros [|i] H; cbn in H; try discriminate.
  - injection H as ->. cbn. lia.
  - specialize (IH i H). cbn [firstn total fold_right]. cbn [total] in IH.
    change (fold_right (fun x n => f x + n) 0) with (total f) in *. lia.
Qed.

(** ** Resolution in the object's own table *)

Lemma compactid_eqb_refl c : compactid_eqb c c = true.
Proof. unfold compactid_eqb. now rewrite !N.eqb_refl. Qed.
Lemma compactid_eqb_true a b : compactid_eqb a b = true -> a = b.
Proof.
  unfold compactid_eqb. rewrite andb_true_iff, !N.eqb_eq. destruct a, b; cbn. intros [-> ->]. reflexivity.
Qed.

Lemma resolves_own {T} (l : list (compactid * T)) i c x r :
  nth_error l (N.to_nat i) = Some (c, x) -> resolves l i c r -> r = Some x.
Proof.
  intros Hn H. unfold resolves in H.
  assert (Hin : In (c, x) (filter (fun e => compactid_eqb c (fst e)) l)).
  { apply filter_In. split; [eapply nth_error_In; eauto|]. cbn. apply compactid_eqb_refl. }
  destruct (count_id c l) as [|[|k]] eqn:E; unfold count_id in E.
  - destruct (filter _ l); [destruct Hin|discriminate E].
  - destruct H as (p & y & Hp & ->). f_equal.
    assert (Hin2 : In (c, y) (filter (fun e => compactid_eqb c (fst e)) l)).
    { apply filter_In. split; [eapply nth_error_In; eauto|]. cbn. apply compactid_eqb_refl. }
    destruct (filter _ l) as [|e [|]]; try discriminate E.
    destruct Hin as [->|[]]. destruct Hin2 as [X|[]]. congruence.
  - rewrite Hn, compactid_eqb_refl in H. exact H.
Qed.

Lemma flat_resolve_all {T} (f : N -> compactid -> option T) : forall (ids : list compactid) (refs : list T) k,
  length ids = length refs ->
  (forall j c x, nth_error ids j = Some c -> nth_error refs j = Some x ->
     f (k + N.of_nat j) c = Some x) ->
  flat_resolve f k ids = refs.
Proof.
  induction ids as [|c ids IH]; intros [|x refs] k L H; try discriminate L; cbn; auto.
  pose proof (H O c x eq_refl eq_refl) as H0. cbn in H0. rewrite N.add_0_r in H0. rewrite H0.
  f_equal. apply IH; [now injection L|]. intros j c' x' Hc Hx.
  replace (k + 1 + N.of_nat j) with (k + N.of_nat (S j)) by lia. now apply H.
Qed.

Lemma nth_error_firstn {A} (l : list A) n j : (j < n)%nat -> nth_error (firstn n l) j = nth_error l j.
Proof. revert l j; induction n as [|n IH]; intros [|a l] [|j] H; cbn; try lia; auto. apply IH. lia. Qed.
Lemma nth_error_skipn {A} (l : list A) n j : nth_error (skipn n l) j = nth_error l (n + j).
Proof. revert l; induction n as [|n IH]; intros [|a l]; cbn; auto. now destruct j. Qed.
Lemma nth_error_combine {A B} (a : list A) (b : list B) j :
  nth_error (combine a b) j
  = match nth_error a j, nth_error b j with Some x, Some y => Some (x, y) | _, _ => None end.
Proof.
  revert b j; induction a as [|x a IH]; intros [|y b] [|j]; cbn; auto.
  now destruct (nth_error a j).
Qed.

(** What [object_parse] guarantees, for the references. *)
Lemma object_parse_inv oid ctx sid g pk o refs cells d :
  object_parse oid ctx sid g pk = Ok o ->
  find_object oid partition_object_data g = Some (DataObject refs cells d) ->
  run oprops_parse d = Ok (ob_props o) /\
  (length refs <= length (op_object_ids (ob_props o)))%nat /\
  length cells = (length (op_context_ids (ob_props o)) + length (op_space_ids (ob_props o)))%nat /\
  ob_mapping o = mapping_from_entries
    (combine (op_object_ids (ob_props o)) refs ++
     combine (op_context_ids (ob_props o)) (map fst (filter (fun c => exguid_eqb (snd c) sid) cells)))
    (combine (op_space_ids (ob_props o)) (filter (fun c => negb (exguid_eqb (snd c) sid)) cells)).
Proof.
  intros H Hd. unfold object_parse in H. rewrite Hd in H.
  destruct (find_object oid partition_metadata g) as [mo|]; [|discriminate H]. cbn [ok_or rbind] in H.
  destruct mo as [g1 c1 d1| |]; try discriminate H. cbn [rbind] in H.
  destruct (run jcid_parse d1) as [jc| | |]; try discriminate H. cbn [rbind] in H.
  destruct (run oprops_parse d) as [ps| | |] eqn:Ep; try discriminate H. cbn [rbind] in H.
  destruct (find_blob_id oid g) as [bl| | |]; try discriminate H. cbn [rbind] in H.
  destruct (opt_map_res _ bl) as [fl| | |]; try discriminate H. cbn [rbind] in H.
  destruct (N.ltb_spec (len (op_object_ids ps)) (len refs)); [discriminate H|].
  destruct (N.eqb_spec (len (op_context_ids ps) + len (op_space_ids ps)) (len cells)); [|discriminate H].
  cbn [negb] in H. injection H as <-. cbn [ob_props ob_mapping]. unfold len in *.
  split; [reflexivity|]. split; [lia|]. split; [lia|]. reflexivity.
Qed.

(** ** The two streams *)

Lemma object_runs : forall oid ctx sid g pk o refs cells d w e t,
  object_parse oid ctx sid g pk = Ok o ->
  find_object oid partition_object_data g = Some (DataObject refs cells d) ->
  d = e ++ t -> l_oset w e ->
  length refs = length (os_objects w) ->
  regular_set own_objects (os_props w) ->
  total (fun p => taken own_objects (snd p)) (os_props w) <= N.of_nat (length refs) ->
  exists runs rest,
    refs = concat runs ++ rest /\
    Forall2 (fun p run => N.of_nat (length run) = taken own_objects (snd p)) (os_props w) runs /\
    forall i raw run,
      nth_error runs i = Some run ->
      (forall n, nth_error (os_props w) i = Some (pid_id raw, SObjectIds n) ->
         prop_objects raw o = Ok (Some run)) /\
      (nth_error (os_props w) i = Some (pid_id raw, SObjectId) ->
         exists x, run = [x] /\ prop_object raw o = Ok (Some x)).
Proof.
  intros oid ctx sid g pk o refs cells d w e t HP Hd -> Hw HL HR HT.
  destruct (object_parse_inv _ _ _ _ _ _ _ _ _ HP Hd) as (Hrun & _ & _ & Hmap).
  destruct (reads_oset w e t Hw) as (p & Hp & M).
  unfold run in Hrun. rewrite Hp in Hrun. cbn [rbind] in Hrun. injection Hrun as ->.
  destruct (runs_exist _ _ _ HT) as (runs & rest & E & F).
  exists runs, rest. split; [exact E|]. split; [exact F|].
  assert (Eo : op_object_ids (ob_props o) = os_objects w) by (now destruct M).
  assert (RES : forall k c x, nth_error (os_objects w) k = Some c -> nth_error refs k = Some x ->
            mapping_get_object (ob_mapping o) (N.of_nat k) c = Some x).
  { intros k c x Hc Hx. rewrite Hmap.
    eapply resolves_own; [|apply mapping_resolves].
    rewrite Nat2N.id, nth_error_app1.
    - rewrite nth_error_combine, Eo, Hc, Hx. reflexivity.
    - rewrite combine_length, Eo, HL, Nat.min_id. apply nth_error_Some. congruence. }
  intros i raw run Hr. split.
  - intros n Hn. rewrite (read_objects o w i _ n raw M HR Hn eq_refl). f_equal. f_equal.
    pose proof (run_at _ _ _ rest _ _ _ F Hn Hr) as Erun. rewrite <- E in Erun.
    pose proof (total_firstn_nth (fun p => taken own_objects (snd p)) _ _ _ Hn) as TB.
    cbn [snd taken own_objects] in Erun, TB. rewrite <- Erun.
    set (off := total _ (firstn i (os_props w))) in *.
    apply flat_resolve_all.
    + rewrite !firstn_length, !skipn_length. lia.
    + intros j c x Hc Hx.
      assert (Hj : (j < N.to_nat n)%nat).
      { assert (X : nth_error (firstn (N.to_nat n) (skipn (N.to_nat off) refs)) j <> None) by congruence.
        apply nth_error_Some in X. rewrite firstn_length in X. lia. }
      rewrite nth_error_firstn, nth_error_skipn in Hc by exact Hj.
      rewrite nth_error_firstn, nth_error_skipn in Hx by exact Hj.
      replace (off + N.of_nat j) with (N.of_nat (N.to_nat off + j)) by lia. now apply RES.
  - intros Hn. rewrite (read_object o w i _ raw M HR Hn eq_refl).
    pose proof (run_at _ _ _ rest _ _ _ F Hn Hr) as Erun. rewrite <- E in Erun.
    pose proof (total_firstn_nth (fun p => taken own_objects (snd p)) _ _ _ Hn) as TB.
    cbn [snd taken own_objects] in Erun, TB.
    set (off := total _ (firstn i (os_props w))) in *.
    destruct (nth_error (os_objects w) (N.to_nat off)) as [c|] eqn:Ec.
    2:{ apply nth_error_None in Ec. lia. }
    destruct (nth_error refs (N.to_nat off)) as [x|] eqn:Ex.
    2:{ apply nth_error_None in Ex. lia. }
    exists x. split.
    + rewrite <- Erun. change (N.to_nat 1) with 1%nat.
      destruct (skipn (N.to_nat off) refs) as [|y r] eqn:Es.
      * rewrite <- (Nat.add_0_r (N.to_nat off)), <- nth_error_skipn, Es in Ex. discriminate Ex.
      * rewrite <- (Nat.add_0_r (N.to_nat off)), <- nth_error_skipn, Es in Ex. cbn in Ex |- *. congruence.
    + rewrite <- (RES _ _ _ Ec Ex). now rewrite N2Nat.id.
Qed.

(** Distinct compact ids make the position irrelevant. *)
Lemma resolves_distinct {T} (l : list (compactid * T)) i j c x r :
  NoDup (map fst l) -> nth_error l j = Some (c, x) -> resolves l i c r -> r = Some x.
Proof.
  intros ND Hn H. unfold resolves in H.
  assert (E : count_id c l = 1%nat).
  { clear H. unfold count_id. revert j Hn. induction l as [|[a b] l IH]; intros j Hn; [now destruct j|].
    cbn in ND. inversion ND as [|? ? Hni ND']; subst. cbn [filter fst].
    assert (Z : forall l0, ~ In c (map (@fst compactid T) l0) ->
                  filter (fun e => compactid_eqb c (fst e)) l0 = []).
    { induction l0 as [|[u w] l0 IH0]; intro Hc; auto. cbn in Hc |- *.
      destruct (compactid_eqb c u) eqn:Eu; [apply compactid_eqb_true in Eu; subst; tauto|].
      apply IH0. tauto. }
    destruct j as [|j]; cbn in Hn.
    - injection Hn as -> ->. rewrite compactid_eqb_refl. cbn. now rewrite Z.
    - destruct (compactid_eqb c a) eqn:Ea.
      + apply compactid_eqb_true in Ea. subst a. exfalso. apply Hni.
        apply in_map_iff. exists (c, x). split; auto. eapply nth_error_In; eauto.
      + now apply (IH ND' j). }
  rewrite E in H. destruct H as (p & y & Hp & ->). f_equal.
  assert (P : p = j).
  { assert (A1 : nth_error (map fst l) p = Some c) by (rewrite nth_error_map, Hp; reflexivity).
    assert (A2 : nth_error (map fst l) j = Some c) by (rewrite nth_error_map, Hn; reflexivity).
    apply (proj1 (NoDup_nth_error _) ND); [|congruence].
    apply nth_error_Some. congruence. }
  subst p. congruence.
Qed.

Lemma combine_fst {A B} (a : list A) (b : list B) : length a = length b -> map fst (combine a b) = a.
Proof. revert b; induction a as [|x a IH]; intros [|y b] H; try discriminate H; cbn; auto. f_equal. apply IH. now injection H. Qed.

Lemma space_runs : forall oid ctx sid g pk o refs cells d w e t ids,
  object_parse oid ctx sid g pk = Ok o ->
  find_object oid partition_object_data g = Some (DataObject refs cells d) ->
  d = e ++ t -> l_oset w e ->
  ids = match os_spaces w with Some (sp, _) => sp | None => [] end ->
  let spaces := filter (fun c => negb (exguid_eqb (snd c) sid)) cells in
  length spaces = length ids -> NoDup ids ->
  regular_set own_spaces (os_props w) ->
  total (fun p => taken own_spaces (snd p)) (os_props w) <= N.of_nat (length ids) ->
  exists runs rest,
    spaces = concat runs ++ rest /\
    Forall2 (fun p run => N.of_nat (length run) = taken own_spaces (snd p)) (os_props w) runs /\
    forall i raw run n,
      nth_error runs i = Some run ->
      nth_error (os_props w) i = Some (pid_id raw, SSpaceIds n) ->
      prop_spaces raw o = Ok (Some run).
Proof.
  intros oid ctx sid g pk o refs cells d w e t ids HP Hd -> Hw Hids spaces HL ND HR HT.
  destruct (object_parse_inv _ _ _ _ _ _ _ _ _ HP Hd) as (Hrun & _ & _ & Hmap).
  fold spaces in Hmap.
  destruct (reads_oset w e t Hw) as (p & Hp & M).
  unfold run in Hrun. rewrite Hp in Hrun. cbn [rbind] in Hrun. injection Hrun as ->.
  assert (Eo : op_space_ids (ob_props o) = ids) by (destruct M as (_ & -> & _); now rewrite Hids).
  rewrite <- HL in HT. destruct (runs_exist _ _ _ HT) as (runs & rest & E & F).
  exists runs, rest. split; [exact E|]. split; [exact F|].
  assert (RES : forall i k c x, nth_error ids k = Some c -> nth_error spaces k = Some x ->
            mapping_get_space (ob_mapping o) i c = Some x).
  { intros i k c x Hc Hx. rewrite Hmap.
    apply (resolves_distinct (combine (op_space_ids (ob_props o)) spaces) i k c x); [| |apply mapping_resolves].
    - rewrite Eo, combine_fst; auto.
    - rewrite nth_error_combine, Eo, Hc, Hx. reflexivity. }
  intros i raw run n Hr Hn. rewrite (read_spaces o w i _ n raw M HR Hn eq_refl). f_equal. f_equal.
  rewrite <- Hids.
  pose proof (run_at _ _ _ rest _ _ _ F Hn Hr) as Erun. rewrite <- E in Erun.
  pose proof (total_firstn_nth (fun p => taken own_spaces (snd p)) _ _ _ Hn) as TB.
  cbn [snd taken own_spaces] in Erun, TB. rewrite <- Erun.
  set (off := total _ (firstn i (os_props w))) in *.
  apply flat_resolve_all.
  - rewrite !firstn_length, !skipn_length. lia.
  - intros j c x Hc Hx.
    assert (Hj : (j < N.to_nat n)%nat).
    { assert (X : nth_error (firstn (N.to_nat n) (skipn (N.to_nat off) ids)) j <> None) by (rewrite Hc; discriminate).
      apply nth_error_Some in X. rewrite firstn_length in X. lia. }
    rewrite nth_error_firstn, nth_error_skipn in Hc by exact Hj.
    rewrite nth_error_firstn, nth_error_skipn in Hx by exact Hj.
    exact (RES _ _ _ _ Hc Hx).
Qed.

(** C22: whatever the table. *)
Lemma objects_picked raw o out :
  prop_objects raw o = Ok (Some out) ->
  exists n pre ids post,
    oprops_get raw (ob_props o) = Some (VObjectIds n) /\
    op_object_ids (ob_props o) = pre ++ ids ++ post /\
    (length ids = N.to_nat n \/ (length ids < N.to_nat n)%nat /\ post = []) /\
    picks (mapping_get_object (ob_mapping o)) (N.of_nat (length pre)) ids out.
Proof.
  intro H. unfold prop_objects, get_prop in H.
  destruct (oprops_get raw (ob_props o)) as [v|] eqn:Ev; [|discriminate H]. cbn [opt_map_res] in H.
  destruct v; try discriminate H. cbn [to_object_ids ok_or rbind] in H.
  destruct (object_offset raw o) as [off| | |]; try discriminate H. cbn [rbind] in H.
  injection H as <-. set (l := op_object_ids (ob_props o)).
  exists count, (firstn (N.to_nat off) l), (take count (skip off l)), (skipn (N.to_nat count) (skip off l)).
  split; [reflexivity|]. split.
  { unfold take. rewrite firstn_skipn. unfold skip. now rewrite firstn_skipn. }
  split.
  { unfold take. rewrite firstn_length. set (q := skip off l).
    destruct (Nat.le_gt_cases (N.to_nat count) (length q)); [left; lia|right].
    split; [lia|]. apply skipn_all2. lia. }
  destruct (Nat.le_gt_cases (length l) (N.to_nat off)) as [Hge|Hlt].
  - unfold take, skip. rewrite skipn_all2 by exact Hge. rewrite firstn_nil. constructor.
  - rewrite firstn_length_le by lia. rewrite N2Nat.id. apply flat_resolve_picks.
Qed.
