(** Proofs about [Store.v]. *)
From Coq Require Import Lia ZifyBool ZifyNat ZifyN Relations Permutation.
From Verif Require Import Base BaseProofs Codec CodecProofs Package PackageRT PropSet PropSetProofs
  Store SpecStore.
Ltac Zify.zify_post_hook ::= Z.div_mod_to_equations.

(** ** Results *)
Lemma rbind_ok {A B} (r : res A) (f : A -> res B) b :
  rbind r f = Ok b <-> exists a, r = Ok a /\ f a = Ok b.
Proof.
  destruct r; cbn; split; try (intros (x & H & _); discriminate H); try discriminate.
  - eauto.
  - intros (x & H & E). injection H as ->. exact E.
Qed.
Lemma ok_or_ok {A} e (o : option A) a : ok_or e o = Ok a <-> o = Some a.
Proof. destruct o; cbn; split; congruence. Qed.

(** ** Equality tests *)
Lemma compactid_eqb_eq a b : compactid_eqb a b = true <-> a = b.
Proof.
  destruct a as [g v], b as [g' v']; unfold compactid_eqb; cbn.
  rewrite andb_true_iff, !N.eqb_eq. split; [intros [-> ->]; auto|intro H; injection H; auto].
Qed.
Lemma gkey_eqb_eq a b : gkey_eqb a b = true <-> a = b.
Proof.
  destruct a as [g v], b as [g' v']; unfold gkey_eqb; cbn.
  rewrite andb_true_iff, exguid_eqb_eq, N.eqb_eq. split; [intros [-> ->]; auto|intro H; injection H; auto].
Qed.
Lemma role_eqb_eq a b : role_eqb a b = true <-> a = b.
Proof. destruct a, b; cbn; split; congruence. Qed.
Lemma is_nil_spec e : exguid_is_nil e = true <-> e = nil_id.
Proof.
  destruct e as [g v]. unfold exguid_is_nil, guid_is_nil, nil_id; cbn.
  rewrite andb_true_iff, !N.eqb_eq. split; [intros [-> ->]; auto|intro H; injection H; auto].
Qed.

(** ** Maps *)
Section Maps.
  Context {K V : Type} (eqb : K -> K -> bool) (eqb_eq : forall a b, eqb a b = true <-> a = b).
  Lemma alookup_in k v (m : amap K V) : alookup eqb k m = Some v -> In (k, v) m.
  Proof.
    induction m as [|[a b] m IH]; cbn; [discriminate|]. destruct (eqb k a) eqn:E; auto.
    apply eqb_eq in E. intro H; injection H as ->. subst. auto.
  Qed.
  Lemma alookup_none k (m : amap K V) : alookup eqb k m = None <-> ~ In k (map fst m).
  Proof.
    induction m as [|[a b] m IH]; cbn; [tauto|]. destruct (eqb k a) eqn:E.
    - apply eqb_eq in E. subst. split; [discriminate|tauto].
    - rewrite IH. assert (a <> k) by (intros ->; rewrite (proj2 (eqb_eq k k) eq_refl) in E; discriminate).
      tauto.
  Qed.
  Lemma alookup_nodup k v (m : amap K V) :
    NoDup (map fst m) -> In (k, v) m -> alookup eqb k m = Some v.
  Proof.
    induction m as [|[a b] m IH]; cbn; [tauto|]. inversion 1; subst.
    intros [E|Hin].
    - injection E as -> ->. now rewrite (proj2 (eqb_eq k k) eq_refl).
    - destruct (eqb k a) eqn:E; auto. apply eqb_eq in E. subst.
      exfalso. apply H2. apply in_map_iff. exists (a, v); auto.
  Qed.
  (** The binding after inserting a list is the last one of the list. *)
  Lemma alookup_extend_app k (l l' : list (K * V)) m :
    alookup eqb k (aextend eqb m (l ++ l')) = alookup eqb k (aextend eqb (aextend eqb m l) l').
  Proof. unfold aextend. now rewrite fold_left_app. Qed.
  Lemma alookup_extend_skip k (l : list (K * V)) m :
    ~ In k (map fst l) -> alookup eqb k (aextend eqb m l) = alookup eqb k m.
  Proof.
    revert m; induction l as [|[a b] l IH]; intros m H; [reflexivity|].
    unfold aextend; cbn [fold_left]. change (fold_left _ l ?m0) with (aextend eqb m0 l).
    rewrite IH by (intro; apply H; now right). rewrite (alookup_insert eqb eqb_eq). cbn.
    destruct (eqb a k) eqn:E; auto. apply eqb_eq in E. subst. exfalso; apply H; now left.
  Qed.
  Lemma alookup_extend_last k v (l : list (K * V)) m :
    alookup eqb k (aextend eqb m l) = Some v <->
    (exists pre suf, l = pre ++ (k, v) :: suf /\ ~ In k (map fst suf)) \/
    (alookup eqb k m = Some v /\ ~ In k (map fst l)).
  Proof.
    revert m; induction l as [|[a b] l IH]; intro m; cbn.
    - split; [auto|]. intros [(pre & suf & H & _)|[H _]]; auto. destruct pre; discriminate H.
    - unfold aextend; cbn [fold_left fst snd]. change (fold_left _ l ?m0) with (aextend eqb m0 l).
      rewrite IH, (alookup_insert eqb eqb_eq). split.
      + intros [(pre & suf & -> & H)|[H H']].
        * left. exists ((a, b) :: pre), suf. auto.
        * destruct (eqb a k) eqn:E.
          -- apply eqb_eq in E. injection H as ->. subst. left. exists [], l. auto.
          -- right. split; auto. intros [->|Hin]; auto. rewrite (proj2 (eqb_eq k k) eq_refl) in E. discriminate.
      + intros [(pre & suf & E & H)|[H H']].
        * destruct pre as [|p pre]; cbn in E.
          -- injection E as -> -> ->. right. rewrite (proj2 (eqb_eq k k) eq_refl). auto.
          -- injection E as <- ->. left. eauto.
        * right. split; [|tauto]. destruct (eqb a k) eqn:E; auto. apply eqb_eq in E. tauto.
  Qed.
  Lemma ainsert_nodup_gen k (v : V) (m : amap K V) :
    NoDup (map fst m) -> NoDup (map fst (ainsert eqb k v m)).
  Proof.
    intro H. unfold ainsert. rewrite map_app. cbn [map fst].
    assert (Hf : NoDup (map fst (filter (fun e => negb (eqb k (fst e))) m))).
    { induction m as [|[a b] m IH]; cbn in *; auto. inversion H; subst.
      destruct (negb (eqb k a)); auto. cbn. constructor; auto.
      intro Hin. apply in_map_iff in Hin as ([u w] & <- & Hx). apply filter_In in Hx as [Hx _].
      apply H2. apply in_map_iff. exists (u, w); auto. }
    assert (Hn : ~ In k (map fst (filter (fun e => negb (eqb k (fst e))) m))).
    { intro Hin. apply in_map_iff in Hin as ([u w] & E & Hx). cbn in E. subst u.
      apply filter_In in Hx as [_ Hx]. cbn in Hx. rewrite (proj2 (eqb_eq k k) eq_refl) in Hx. discriminate. }
    apply (Permutation_NoDup (l := k :: map fst (filter (fun e => negb (eqb k (fst e))) m))).
    - apply Permutation_cons_append.
    - constructor; auto.
  Qed.
End Maps.

(** ** C21: mapping tables *)
Fixpoint positions {T} (i : N) (cid : compactid) (l : list (compactid * T)) : list (N * T) :=
  match l with
  | [] => []
  | (c, x) :: r => if compactid_eqb cid c then (i, x) :: positions (i + 1) cid r
                   else positions (i + 1) cid r
  end.

Lemma compactid_eqb_sym a b : compactid_eqb a b = compactid_eqb b a.
Proof.
  destruct (compactid_eqb a b) eqn:E, (compactid_eqb b a) eqn:E'; auto.
  - apply compactid_eqb_eq in E. symmetry in E. apply compactid_eqb_eq in E. congruence.
  - apply compactid_eqb_eq in E'. symmetry in E'. apply compactid_eqb_eq in E'. congruence.
Qed.

Lemma mapping_entries_spec {T} (l : list (compactid * T)) i m cid :
  match alookup compactid_eqb cid (mapping_entries i l m) with Some v => v | None => [] end
  = match alookup compactid_eqb cid m with Some v => v | None => [] end ++ positions i cid l.
Proof.
  revert i m; induction l as [|[c x] l IH]; intros i m; cbn; [now rewrite app_nil_r|].
  rewrite IH, (alookup_insert compactid_eqb compactid_eqb_eq).
  rewrite (compactid_eqb_sym cid c). destruct (compactid_eqb c cid) eqn:E; auto.
  apply compactid_eqb_eq in E. subst. now rewrite <- app_assoc.
Qed.

Lemma positions_length {T} i cid (l : list (compactid * T)) :
  length (positions i cid l) = count_id cid l.
Proof.
  unfold count_id. revert i; induction l as [|[c x] l IH]; intro i; cbn; auto.
  destruct (compactid_eqb cid c); cbn; auto.
Qed.

Lemma positions_single {T} i cid (l : list (compactid * T)) j x :
  In (j, x) (positions i cid l) ->
  i <= j /\ nth_error l (N.to_nat (j - i)) = Some (cid, x).
Proof.
  revert i; induction l as [|[c y] l IH]; intro i; cbn; [tauto|].
  assert (S1 : forall k, i + 1 <= k -> N.to_nat (k - i) = S (N.to_nat (k - (i + 1)))) by lia.
  destruct (compactid_eqb cid c) eqn:E.
  - apply compactid_eqb_eq in E. subst. intros [H|H].
    + injection H as -> ->. split; [lia|]. now rewrite N.sub_diag.
    + apply IH in H as [H1 H2]. split; [lia|]. rewrite S1 by lia. exact H2.
  - intro H. apply IH in H as [H1 H2]. split; [lia|]. rewrite S1 by lia. exact H2.
Qed.

Lemma positions_find {T} i cid (l : list (compactid * T)) k :
  i <= k ->
  option_map snd (find (fun e => fst e =? k) (positions i cid l))
  = match nth_error l (N.to_nat (k - i)) with
    | Some (c, x) => if compactid_eqb cid c then Some x else None
    | None => None
    end.
Proof.
  revert i; induction l as [|[c y] l IH]; intros i Hi; cbn.
  - destruct (N.to_nat (k - i)); reflexivity.
  - assert (N0 : forall j (e : N * T), In e (positions j cid l) -> k < j -> fst e =? k = false).
    { intros j [p z] Hin Hlt. apply positions_single in Hin as [H _]. cbn. lia. }
    destruct (N.eq_dec i k) as [->|Ne].
    + rewrite N.sub_diag. cbn [nth_error N.to_nat].
      destruct (compactid_eqb cid c); cbn.
      * now rewrite N.eqb_refl.
      * destruct (find _ _) as [[p z]|] eqn:F; auto. apply find_some in F as [F1 F2].
        rewrite (N0 (k + 1)) in F2 by (auto; lia). discriminate.
    + replace (N.to_nat (k - i)) with (S (N.to_nat (k - (i + 1)))) by lia. cbn [nth_error].
      rewrite <- IH by lia.
      destruct (compactid_eqb cid c); cbn; auto.
      replace (i =? k) with false by lia. reflexivity.
Qed.

Lemma mapping_get_positions {T} (l : list (compactid * T)) i cid :
  mapping_get i cid (mapping_entries 0 l [])
  = match positions 0 cid l with
    | [(_, x)] => Some x
    | e => option_map snd (find (fun e => fst e =? i) e)
    end.
Proof.
  pose proof (mapping_entries_spec l 0 [] cid) as H. cbn in H.
  unfold mapping_get. destruct (alookup compactid_eqb cid (mapping_entries 0 l [])) as [v|].
  - rewrite <- H. destruct v as [|[? ?] [|]]; reflexivity.
  - rewrite <- H. reflexivity.
Qed.

Lemma mapping_resolves {T} (l : list (compactid * T)) i cid :
  resolves l i cid (mapping_get i cid (mapping_entries 0 l [])).
Proof.
  unfold resolves. rewrite mapping_get_positions, <- (positions_length 0).
  pose proof (positions_find 0 cid l i (N.le_0_l i)) as F. rewrite N.sub_0_r in F.
  destruct (positions 0 cid l) as [|[p x] [|q r]] eqn:E; cbn [length].
  - reflexivity.
  - assert (H : In (p, x) (positions 0 cid l)) by (rewrite E; now left).
    apply positions_single in H as [_ H]. eauto.
  - rewrite F. destruct (nth_error l (N.to_nat i)) as [[c y]|]; reflexivity.
Qed.

Lemma resolves_fun {T} (l : list (compactid * T)) i cid r r' :
  resolves l i cid r -> resolves l i cid r' -> r = r'.
Proof.
  unfold resolves. destruct (count_id cid l) as [|[|n]] eqn:E.
  - congruence.
  - intros (p & x & H & ->) (q & y & H' & ->).
    assert (p = q); [|congruence].
    unfold count_id in E. clear - E H H'. revert p q H H' E.
    induction l as [|[c z] l IH]; intros p q H H' E; [destruct p; discriminate|].
    cbn in E. destruct (compactid_eqb cid c) eqn:Ec.
    + cbn in E. injection E as E. apply length_zero_iff_nil in E.
      assert (No : forall p x, nth_error l p = Some (cid, x) -> False).
      { intros s w Hs. apply nth_error_In in Hs.
        assert (Hi : In (cid, w) (filter (fun e => compactid_eqb cid (fst e)) l)).
        { apply filter_In. split; auto. cbn. now apply compactid_eqb_eq. }
        rewrite E in Hi. exact Hi. }
      destruct p, q; cbn in *; auto; exfalso; eauto.
    + assert (c <> cid) by (intros ->; rewrite (proj2 (compactid_eqb_eq cid cid) eq_refl) in Ec; discriminate).
      destruct p, q; cbn in *; try congruence. f_equal. eapply IH; eauto.
  - destruct (nth_error l (N.to_nat i)) as [[c y]|]; congruence.
Qed.

(** ** Group entries *)
Definition gdata (g : object_group) : group_data :=
  aextend gkey_eqb []
    (map (fun '(d, o) => ((decl_object_id d, decl_partition d), o))
         (combine (og_decls g) (og_objects g))).

Lemma map_split {A B} (f : A -> B) l pre x suf :
  map f l = pre ++ x :: suf ->
  exists p y s, l = p ++ y :: s /\ map f p = pre /\ f y = x /\ map f s = suf.
Proof.
  revert pre; induction l as [|a l IH]; intros [|b pre] H; cbn in H; try discriminate.
  - injection H as <- <-. exists [], a, l. auto.
  - injection H as <- H. apply IH in H as (p & y & s & -> & <- & <- & <-).
    exists (a :: p), y, s. auto.
Qed.

Lemma find_object_entry g oid p od :
  find_object oid p (gdata g) = Some od <-> group_entry g oid p od.
Proof.
  unfold find_object, gdata, group_entry.
  rewrite (alookup_extend_last gkey_eqb gkey_eqb_eq). split.
  - intros [(pre & suf & E & H)|[H _]]; [|discriminate H].
    apply map_split in E as (pr & [d o] & s & E & <- & E2 & <-).
    injection E2 as E2 E3 <-. exists pr, d, s. repeat split; auto.
    intros d' od' Hin [K1 K2]. apply H. rewrite map_map. apply in_map_iff.
    exists (d', od'). split; auto. cbn. congruence.
  - intros (pre & d & suf & E & H1 & H2 & H3). left.
    rewrite E, map_app. cbn [map]. rewrite H1, H2. eexists _, _. split; [reflexivity|].
    rewrite map_map. intro Hin. apply in_map_iff in Hin as ([d' o'] & K & Hin).
    cbn in K. apply (H3 d' o' Hin). injection K. auto.
Qed.

Lemma find_object_none g oid p :
  find_object oid p (gdata g) = None <-> forall od, ~ group_entry g oid p od.
Proof.
  split.
  - intros H od He. apply find_object_entry in He. congruence.
  - intro H. destruct (find_object oid p (gdata g)) as [od|] eqn:E; auto.
    apply find_object_entry in E. exfalso. eapply H; eauto.
Qed.

(** ** Objects *)
Lemma object_parse_spec pk ctx sp g oid o :
  length (og_decls g) = length (og_objects g) ->
  object_parse oid ctx sp (gdata g) pk = Ok o -> object_of pk ctx sp g oid o.
Proof.
  intros Hlen. unfold object_parse.
  destruct (find_object oid partition_metadata (gdata g)) as [mo|] eqn:E1; [|discriminate].
  destruct (find_object oid partition_object_data (gdata g)) as [dobj|] eqn:E2; [|discriminate].
  cbn [ok_or rbind]. destruct mo as [gr ce md| |]; cbn [rbind]; try discriminate.
  destruct (run jcid_parse md) as [jc| | |] eqn:E3; cbn [rbind]; try discriminate.
  destruct dobj as [refs cells d| |]; cbn [rbind]; try discriminate.
  destruct (run oprops_parse d) as [ps| | |] eqn:E4; cbn [rbind]; try discriminate.
  destruct (find_blob_id oid (gdata g)) as [ob| | |] eqn:E5; cbn [rbind]; try discriminate.
  destruct (opt_map_res _ ob) as [fd| | |] eqn:E6; cbn [rbind]; try discriminate.
  destruct (len (op_object_ids ps) <? len refs) eqn:L1; [discriminate|].
  destruct (negb (len (op_context_ids ps) + len (op_space_ids ps) =? len cells)) eqn:L2; [discriminate|].
  intro H. assert (o = Object ctx jc ps fd (mapping_from_entries (own_table ps refs cells sp) (space_table ps cells sp))) as ->
    by (unfold own_table, space_table; congruence). clear H.
  unfold len in *. split; cbn [ob_context ob_jcid ob_props ob_file ob_mapping].
  - exact Hlen.
  - reflexivity.
  - exists gr, ce, md. split; auto. now apply find_object_entry.
  - exists refs, cells, d. split; [now apply find_object_entry|].
    split; [exact E4|]. split; [lia|]. split; [lia|].
    split; intros i cid; apply mapping_resolves.
  - unfold find_blob_id in E5. destruct (find_object oid partition_file_data (gdata g)) as [fo|] eqn:E7.
    + right. cbn in E5. destruct fo as [| |os cs b]; try discriminate E5. cbn in E5. injection E5 as <-.
      cbn in E6. unfold find_blob in E6.
      destruct (alookup exguid_eqb b (pk_blobs pk)) as [bd|] eqn:E8; try discriminate E6.
      cbn in E6. injection E6 as <-. exists os, cs, b, bd. split; [now apply find_object_entry|]. auto.
    + left. cbn in E5. injection E5 as <-. cbn in E6. injection E6 as <-. split; auto.
      now apply find_object_none.
Qed.

(** Objects with the same observations. *)
Definition same_object (a b : object) : Prop :=
  ob_context a = ob_context b /\ ob_jcid a = ob_jcid b /\ ob_props a = ob_props b /\
  ob_file a = ob_file b /\
  (forall i c, mapping_get_object (ob_mapping a) i c = mapping_get_object (ob_mapping b) i c) /\
  (forall i c, mapping_get_space (ob_mapping a) i c = mapping_get_space (ob_mapping b) i c).

Lemma group_entry_fun g oid p a b : group_entry g oid p a -> group_entry g oid p b -> a = b.
Proof. rewrite <- !find_object_entry. congruence. Qed.

Lemma object_of_fun pk ctx sp g oid a b :
  object_of pk ctx sp g oid a -> object_of pk ctx sp g oid b -> same_object a b.
Proof.
  intros [_ A1 (gr & ce & md & A2 & A3) (refs & cells & d & A4 & A5 & A6 & A7 & A8 & A9) A10].
  intros [_ B1 (gr' & ce' & md' & B2 & B3) (refs' & cells' & d' & B4 & B5 & B6 & B7 & B8 & B9) B10].
  pose proof (group_entry_fun _ _ _ _ _ A2 B2) as E; injection E as <- <- <-.
  pose proof (group_entry_fun _ _ _ _ _ A4 B4) as E; injection E as <- <- <-.
  assert (EP : ob_props a = ob_props b) by congruence. rewrite EP in *.
  split; [congruence|]. split; [congruence|]. split; [congruence|]. split.
  - destruct A10 as [[-> A]|(os & cs & bl & bd & A & A' & ->)],
             B10 as [[-> Bn]|(os' & cs' & bl' & bd' & Bn & B' & ->)]; auto.
    + exfalso; eapply A; eauto.
    + exfalso; eapply Bn; eauto.
    + pose proof (group_entry_fun _ _ _ _ _ A Bn) as E; injection E as <- <- <-.
      unfold blob_at in *. congruence.
  - split; intros i c; eapply resolves_fun; eauto.
Qed.

Lemma object_of_parse pk ctx sp g oid o :
  object_of pk ctx sp g oid o ->
  exists o', object_parse oid ctx sp (gdata g) pk = Ok o' /\ same_object o' o.
Proof.
  intro H. destruct (object_of_fun _ _ _ _ _ _ _ H H) as [_ _].
  pose proof H as [A0 A1 (gr & ce & md & A2 & A3) (refs & cells & d & A4 & A5 & A6 & A7 & A8 & A9) A10].
  assert (EX : exists o', object_parse oid ctx sp (gdata g) pk = Ok o').
  { unfold object_parse.
    rewrite (proj2 (find_object_entry g oid 4 _) A2 : find_object oid partition_metadata _ = _).
    rewrite (proj2 (find_object_entry g oid 1 _) A4 : find_object oid partition_object_data _ = _).
    cbn [ok_or rbind]. rewrite A3. cbn [rbind]. rewrite A5. cbn [rbind].
    assert (F : exists fd, (let! blob := find_blob_id oid (gdata g) in
       opt_map_res (fun b => ok_or MalformedOneStoreData (find_blob pk b)) blob) = Ok fd).
    { unfold find_blob_id. destruct A10 as [[_ A]|(os & cs & bl & bd & A & A' & _)].
      - rewrite (proj2 (find_object_none g oid 2) A : find_object oid partition_file_data _ = _). cbn. eauto.
      - rewrite (proj2 (find_object_entry g oid 2 _) A : find_object oid partition_file_data _ = _). cbn.
        unfold find_blob. rewrite A'. cbn. eauto. }
    destruct F as [fd F]. destruct (find_blob_id oid (gdata g)) as [bl| | |]; try discriminate F.
    cbn [rbind] in F |- *. rewrite F. cbn [rbind]. unfold len.
    replace (_ <? _) with false by lia.
    replace (negb _) with false by lia. eauto. }
  destruct EX as [o' E]. exists o'. split; auto.
  eapply object_of_fun; eauto. now apply object_parse_spec.
Qed.

(** ** Group loop *)
Lemma group_objects_ok pk ctx sp g ids objs objs' :
  group_objects pk ctx sp g (gdata g) ids objs = Ok objs' ->
  forall oid,
    match alookup exguid_eqb oid objs with
    | Some o => alookup exguid_eqb oid objs' = Some o
    | None =>
      (In oid ids /\ length (og_decls g) = length (og_objects g) /\
       exists o, object_parse oid ctx sp (gdata g) pk = Ok o /\ alookup exguid_eqb oid objs' = Some o)
      \/ (~ In oid ids /\ alookup exguid_eqb oid objs' = None)
    end.
Proof.
  revert objs; induction ids as [|i ids IH]; intros objs; cbn.
  - intro H; injection H as <-. intro oid. destruct (alookup exguid_eqb oid objs); auto.
  - unfold amember. destruct (alookup exguid_eqb i objs) as [oi|] eqn:Ei.
    + intros H oid. specialize (IH _ H oid).
      destruct (alookup exguid_eqb oid objs) as [o|] eqn:E; auto.
      destruct IH as [(I1 & I2)|(I1 & I2)]; [left; auto|]. right. split; auto.
      intros [->|?]; congruence || auto.
    + unfold len. destruct (negb _) eqn:Hl; [discriminate|].
      destruct (object_parse i ctx sp (gdata g) pk) as [o| | |] eqn:Eo; cbn [rbind]; try discriminate.
      intros H oid. specialize (IH _ H oid).
      rewrite (alookup_insert exguid_eqb exguid_eqb_eq) in IH.
      destruct (exguid_eqb i oid) eqn:E.
      * apply exguid_eqb_eq in E. subst oid. rewrite Ei. left. repeat split; auto; [lia|eauto].
      * assert (i <> oid) by (intros ->; rewrite (proj2 (exguid_eqb_eq oid oid) eq_refl) in E; discriminate).
        destruct (alookup exguid_eqb oid objs) as [o2|] eqn:E2; auto.
        destruct IH as [(I1 & I2)|(I1 & I2)]; [left; auto|]. right. split; auto. tauto.
Qed.

Lemma group_objects_exists pk ctx sp g ids objs :
  (forall oid, alookup exguid_eqb oid objs = None -> In oid ids ->
     length (og_decls g) = length (og_objects g) /\
     exists o, object_parse oid ctx sp (gdata g) pk = Ok o) ->
  exists objs', group_objects pk ctx sp g (gdata g) ids objs = Ok objs'.
Proof.
  revert objs; induction ids as [|i ids IH]; intros objs H; cbn; [eauto|].
  unfold amember. destruct (alookup exguid_eqb i objs) as [oi|] eqn:Ei.
  - apply IH. intros oid E Hin. apply H; auto. now right.
  - destruct (H i Ei (or_introl eq_refl)) as (L & o & Eo). unfold len.
    replace (negb _) with false by lia. rewrite Eo. cbn [rbind]. apply IH.
    intros oid E Hin. rewrite (alookup_insert exguid_eqb exguid_eqb_eq) in E.
    destruct (exguid_eqb i oid); [discriminate|]. apply H; auto. now right.
Qed.

(** ** Several groups *)
Fixpoint do_groups (pk : package) (ctx sp : exguid) (gs : list object_group) (objs : objects)
  : res objects :=
  match gs with
  | [] => Ok objs
  | g :: r =>
    let! objs' := group_objects pk ctx sp g (gdata g) (map decl_object_id (og_decls g)) objs in
    do_groups pk ctx sp r objs'
  end.

Lemma do_groups_app pk ctx sp a b objs :
  do_groups pk ctx sp (a ++ b) objs = (let! o := do_groups pk ctx sp a objs in do_groups pk ctx sp b o).
Proof.
  revert objs; induction a as [|g a IH]; intro objs; cbn; auto.
  destruct (group_objects _ _ _ _ _ _ _); cbn; auto.
Qed.

Lemma parse_groups_do pk ctx sp ids objs objs' :
  parse_groups pk ctx sp ids objs = Ok objs' <->
  exists gs, Forall2 (group_at pk) ids gs /\ do_groups pk ctx sp gs objs = Ok objs'.
Proof.
  revert objs; induction ids as [|i ids IH]; intro objs; cbn.
  - split; [intro H; exists []; auto|]. intros (gs & F & H). inversion F; subst. exact H.
  - unfold parse_group, find_object_group. rewrite rbind_ok. split.
    + intros (o1 & H1 & H2). apply rbind_ok in H1 as (g & Hg & H1). apply ok_or_ok in Hg.
      apply IH in H2 as (gs & F & H2). exists (g :: gs). split; [constructor; auto|].
      cbn. fold (gdata g) in H1. rewrite H1. exact H2.
    + intros (gs & F & H). inversion F as [|? g ? gs' Hg F']; subst. cbn in H.
      apply rbind_ok in H as (o1 & H1 & H2). exists o1. split.
      * apply rbind_ok. exists g. split; [now apply ok_or_ok|]. exact H1.
      * apply IH. eauto.
Qed.

Lemma declares_in g oid : declares g oid <-> In oid (map decl_object_id (og_decls g)).
Proof.
  unfold declares. rewrite in_map_iff. split; intros (d & A & C); exists d; auto.
Qed.

Lemma declares_dec g oid : declares g oid \/ ~ declares g oid.
Proof.
  rewrite declares_in. assert (D : forall a b : exguid, {a = b} + {a <> b})
    by (decide equality; apply N.eq_dec).
  destruct (in_dec D oid (map decl_object_id (og_decls g))); auto.
Qed.

Lemma first_declaring_cons g gs oid g' :
  first_declaring (g :: gs) oid g' <->
  (declares g oid /\ g' = g) \/ (~ declares g oid /\ first_declaring gs oid g').
Proof.
  split.
  - intros ([|x pre] & suf & E & D & N); cbn in E; injection E as -> ->.
    + auto.
    + right. split; [apply N; now left|]. exists pre, suf. split; auto. split; auto.
      intros g'' Hin. apply N. now right.
  - intros [[D ->]|[D (pre & suf & -> & D' & N)]].
    + exists [], gs. split; [reflexivity|]. split; [exact D|]. intros ? [].
    + exists (g :: pre), suf. split; auto. split; auto. intros g'' [<-|Hin]; auto.
Qed.

Lemma do_groups_ok pk ctx sp gs objs objs' :
  do_groups pk ctx sp gs objs = Ok objs' ->
  forall oid,
    match alookup exguid_eqb oid objs with
    | Some o => alookup exguid_eqb oid objs' = Some o
    | None =>
      (exists g o, first_declaring gs oid g /\ length (og_decls g) = length (og_objects g) /\
         object_parse oid ctx sp (gdata g) pk = Ok o /\ alookup exguid_eqb oid objs' = Some o)
      \/ ((forall g, In g gs -> ~ declares g oid) /\ alookup exguid_eqb oid objs' = None)
    end.
Proof.
  revert objs; induction gs as [|g gs IH]; intros objs; cbn.
  - intro H; injection H as <-. intro oid. destruct (alookup exguid_eqb oid objs); auto.
  - destruct (group_objects _ _ _ _ _ _ _) as [o1| | |] eqn:E1; cbn [rbind]; try discriminate.
    intros H oid. specialize (IH _ H oid). pose proof (group_objects_ok _ _ _ _ _ _ _ E1 oid) as G.
    destruct (alookup exguid_eqb oid objs) as [o|] eqn:E; [now rewrite G in IH|].
    rewrite <- declares_in in G.
    destruct G as [(D & L & o & P & Q)|(D & Q)]; rewrite Q in IH.
    + left. exists g, o. rewrite first_declaring_cons. auto.
    + destruct IH as [(g' & o & F & L & P & R)|(F & R)].
      * left. exists g', o. rewrite first_declaring_cons. auto.
      * right. split; auto. intros g' [<-|Hin]; auto.
Qed.

Lemma do_groups_exists pk ctx sp gs objs :
  (forall oid g, alookup exguid_eqb oid objs = None -> first_declaring gs oid g ->
     length (og_decls g) = length (og_objects g) /\
     exists o, object_parse oid ctx sp (gdata g) pk = Ok o) ->
  exists objs', do_groups pk ctx sp gs objs = Ok objs'.
Proof.
  revert objs; induction gs as [|g gs IH]; intros objs H; cbn; [eauto|].
  destruct (group_objects_exists pk ctx sp g (map decl_object_id (og_decls g)) objs) as [o1 E1].
  { intros oid E Hin. apply H; auto. apply first_declaring_cons. rewrite declares_in. auto. }
  rewrite E1. cbn [rbind]. apply IH. intros oid g' E F.
  pose proof (group_objects_ok _ _ _ _ _ _ _ E1 oid) as G.
  destruct (alookup exguid_eqb oid objs) as [o|] eqn:E2; [congruence|].
  rewrite <- declares_in in G. destruct G as [(_ & _ & o & _ & Q)|(D & _)]; [congruence|].
  apply H; auto. apply first_declaring_cons. auto.
Qed.

(** ** Roots *)
Lemma role_parse_ok i r : role_parse i = Ok r <-> i = role_id r.
Proof.
  destruct i as [g v]. unfold role_parse, role_id. cbn [eg_guid eg_value].
  destruct (g =? _) eqn:E; cbn [negb].
  - apply N.eqb_eq in E. subst g. split.
    + destruct (N.ltb_spec v 5) as [L|L].
      * assert (v = 0 \/ v = 1 \/ v = 2 \/ v = 3 \/ v = 4) as [->|[->|[->|[->| ->]]]] by lia;
          cbn; intro H; try discriminate H; injection H as <-; reflexivity.
      * destruct v as [|p]; [lia|]. destruct p as [p|p|]; try lia; try discriminate.
        -- destruct p as [p|p|]; try discriminate. lia.
        -- destruct p as [p|p|]; try discriminate; try lia. destruct p; try discriminate. lia.
    + intro H. destruct r; injection H as ->; reflexivity.
  - split; [discriminate|]. intro H. injection H as -> ->. rewrite N.eqb_refl in E. discriminate.
Qed.

Lemma map_res_ok {A B} (f : A -> res B) l l' :
  map_res f l = Ok l' <-> Forall2 (fun a b => f a = Ok b) l l'.
Proof.
  revert l'; induction l as [|a l IH]; intro l'; cbn.
  - split; [intro H; injection H as <-; constructor|]. inversion 1; auto.
  - split.
    + intro H. apply rbind_ok in H as (b & Hb & H). apply rbind_ok in H as (bs & Hbs & H).
      injection H as <-. constructor; auto. now apply IH.
    + inversion 1; subst. apply rbind_ok. eexists; split; eauto. apply rbind_ok.
      exists l'0. split; [apply IH; assumption|reflexivity].
Qed.

Definition role_decl (d : exguid * exguid) : res (role * exguid) :=
  let! r := role_parse (fst d) in Ok (r, snd d).
Lemma role_decl_ok d r oid : role_decl d = Ok (r, oid) <-> d = (role_id r, oid).
Proof.
  unfold role_decl. rewrite rbind_ok. split.
  - intros (r' & H & E). injection E as -> <-. apply role_parse_ok in H. destruct d; cbn in *; congruence.
  - intros ->. exists r. cbn [fst snd]. split; [now apply role_parse_ok|reflexivity].
Qed.

Lemma roots_decls ds new :
  Forall2 (fun d p => role_decl d = Ok p) ds new ->
  ds = map (fun p => (role_id (fst p), snd p)) new.
Proof.
  induction 1 as [|d [r o] ds new H F IH]; cbn; auto. f_equal; auto. now apply role_decl_ok.
Qed.

Lemma role_id_inj a b : role_id a = role_id b -> a = b.
Proof. destruct a, b; cbn; intro H; try reflexivity; discriminate H. Qed.

Lemma last_root_extend new r oid :
  alookup role_eqb r (aextend role_eqb [] new) = Some oid <->
  last_root (map (fun p => (role_id (fst p), snd p)) new) r oid.
Proof.
  rewrite (alookup_extend_last role_eqb role_eqb_eq). unfold last_root. split.
  - intros [(pre & suf & -> & H)|[H _]]; [|discriminate H].
    rewrite map_app. cbn. eexists _, _. split; [reflexivity|].
    intros x Hin E. apply in_map_iff in Hin as ([r' o'] & <- & Hin). cbn in E.
    apply role_id_inj in E. subst. apply H. apply in_map_iff. exists (r, o'); auto.
  - intros (pre & suf & E & H). left.
    apply map_split in E as (p & [r' o'] & s & -> & <- & E & <-). cbn in E. injection E as E ->.
    assert (r' = r) by (destruct r, r'; cbn in E; congruence). subst. exists p, s. split; auto.
    intro Hin. apply in_map_iff in Hin as ([r2 o2] & E2 & Hin). cbn in E2. subst.
    apply (H (role_id r, o2)); auto. apply in_map_iff. exists (r, o2); auto.
Qed.

(** ** Resolving revisions *)
Lemma resolve_revision_spec pk si id rid :
  resolve_revision_manifest_id pk si id = Some rid <-> names_revision pk si id rid.
Proof.
  unfold resolve_revision_manifest_id, find_revision_mapping_id, find_revision_manifest,
    names_revision, revision_at, or_else.
  destruct (alookup exguid_eqb id (si_revs si)) as [m|]; cbn.
  - split.
    + intro H; injection H as <-. left; eauto.
    + intros [(m' & E & <-)|(E & _)]; congruence.
  - destruct (alookup exguid_eqb id (pk_revisions pk)) as [rm|]; cbn; split.
    + intro H; injection H as <-. right; eauto.
    + intros [(m' & E & _)|(_ & -> & _)]; congruence.
    + discriminate.
    + intros [(m' & E & _)|(_ & _ & rm & E)]; congruence.
Qed.

Lemma resolve_revision_none pk si id :
  resolve_revision_manifest_id pk si id = None <-> forall rid, ~ names_revision pk si id rid.
Proof.
  split.
  - intros H rid Hn. apply resolve_revision_spec in Hn. congruence.
  - intro H. destruct (resolve_revision_manifest_id pk si id) eqn:E; auto.
    apply resolve_revision_spec in E. exfalso; eapply H; eauto.
Qed.

(** ** One revision *)
Lemma revision_parse_ok id ctx sp si pk objs rts base objs' rts' :
  revision_parse id ctx sp si pk [] objs rts = Ok (base, objs', rts') <->
  exists rm gs new,
    revision_at pk id rm /\
    match base with
    | None => rm_base_rev_id rm = nil_id
    | Some b => rm_base_rev_id rm <> nil_id /\ names_revision pk si (rm_base_rev_id rm) b
    end /\
    rm_roots rm = map (fun p => (role_id (fst p), snd p)) new /\
    rts' = aextend role_eqb rts new /\
    Forall2 (group_at pk) (rm_groups rm) gs /\
    do_groups pk ctx sp gs objs = Ok objs'.
Proof.
  unfold revision_parse. split.
  - intro H. apply rbind_ok in H as (rm & Hrm & H). apply ok_or_ok in Hrm.
    apply rbind_ok in H as (base' & Hb & H). cbn [alookup] in H.
    apply rbind_ok in H as (new & Hn & H). apply rbind_ok in H as (o1 & Ho & H).
    injection H as -> -> <-.
    apply map_res_ok in Hn. apply parse_groups_do in Ho as (gs & F & Ho).
    exists rm, gs, new. split; [exact Hrm|]. split.
    + unfold exguid_as_option in Hb. destruct (exguid_is_nil (rm_base_rev_id rm)) eqn:E.
      * apply is_nil_spec in E. cbn in Hb. injection Hb as <-. exact E.
      * cbn in Hb. apply rbind_ok in Hb as (b & Hb & E2). injection E2 as <-. apply ok_or_ok in Hb.
        split; [|now apply resolve_revision_spec]. intro X. apply is_nil_spec in X. congruence.
    + split; [now apply roots_decls|]. auto.
  - intros (rm & gs & new & Hrm & Hb & Hr & -> & F & Ho).
    apply rbind_ok. exists rm. split; [now apply ok_or_ok|].
    apply rbind_ok. exists base. split.
    + unfold exguid_as_option. destruct base as [b|].
      * destruct Hb as [Hn Hb]. destruct (exguid_is_nil _) eqn:E; [apply is_nil_spec in E; contradiction|].
        cbn. apply resolve_revision_spec in Hb. rewrite Hb. reflexivity.
      * apply is_nil_spec in Hb. rewrite Hb. reflexivity.
    + cbn [alookup]. apply rbind_ok. exists new. split.
      * apply map_res_ok. rewrite Hr. clear. induction new as [|[r o] new IH]; cbn; constructor; auto.
        now apply role_decl_ok.
      * apply rbind_ok. exists objs'. split; auto. apply parse_groups_do. eauto.
Qed.

(** ** The walk *)
Lemma walk_ok fuel ctx sp si pk id objs rts objs' rts' :
  revision_walk fuel ctx sp si pk [] (Some id) objs rts = Ok (objs', rts') ->
  exists revs gs new,
    chain pk si id revs /\ (length revs <= fuel)%nat /\ chain_groups pk revs gs /\
    flat_map rm_roots revs = map (fun p => (role_id (fst p), snd p)) new /\
    rts' = aextend role_eqb rts new /\ do_groups pk ctx sp gs objs = Ok objs'.
Proof.
  revert id objs rts; induction fuel as [|f IH]; intros id objs rts; cbn; [discriminate|].
  intro H. apply rbind_ok in H as ([[base o1] r1] & H1 & H2).
  apply revision_parse_ok in H1 as (rm & gs & new & Hrm & Hb & Hr & -> & F & Ho).
  destruct base as [b|].
  - apply IH in H2 as (revs & gs2 & new2 & C & L & F2 & R2 & -> & D).
    exists (rm :: revs), (gs ++ gs2), (new ++ new2).
    split; [eapply chain_more; tauto || eauto; tauto|].
    split; [cbn; lia|]. split; [apply Forall2_app; auto|].
    split; [cbn; rewrite Hr, R2, map_app; reflexivity|].
    split; [unfold aextend; now rewrite fold_left_app|].
    rewrite do_groups_app, Ho. exact D.
  - destruct f; cbn in H2; injection H2 as -> <-;
    (exists [rm], gs, new; split; [now constructor|]; split; [cbn; lia|];
     split; [unfold chain_groups; cbn; now rewrite app_nil_r|];
     split; [cbn; now rewrite app_nil_r|]; auto).
Qed.

Lemma Forall2_app_l {A B} (R : A -> B -> Prop) a a' b :
  Forall2 R (a ++ a') b -> exists b1 b2, b = b1 ++ b2 /\ Forall2 R a b1 /\ Forall2 R a' b2.
Proof. intro H. apply Forall2_app_inv_l in H as (b1 & b2 & H1 & H2 & ->). eauto. Qed.

Lemma walk_exists fuel ctx sp si pk id revs gs new objs rts objs' :
  chain pk si id revs -> (length revs <= fuel)%nat -> chain_groups pk revs gs ->
  flat_map rm_roots revs = map (fun p => (role_id (fst p), snd p)) new ->
  do_groups pk ctx sp gs objs = Ok objs' ->
  revision_walk fuel ctx sp si pk [] (Some id) objs rts = Ok (objs', aextend role_eqb rts new).
Proof.
  intro C. revert fuel gs new objs rts; induction C as [id rm Hrm Hb|id rm id' l Hrm Hb Hn C IH];
    intros fuel gs new objs rts L F R D.
  - destruct fuel as [|f]; [cbn in L; lia|]. cbn. apply rbind_ok.
    exists (None, objs', aextend role_eqb rts new). split; [|destruct f; reflexivity].
    apply revision_parse_ok. exists rm, gs, new. cbn in R. rewrite app_nil_r in R.
    unfold chain_groups in F; cbn in F; rewrite app_nil_r in F. auto 10.
  - destruct fuel as [|f]; [cbn in L; lia|]. cbn in R, L.
    unfold chain_groups in F; cbn in F. apply Forall2_app_l in F as (g1 & g2 & -> & F1 & F2).
    symmetry in R. apply map_eq_app in R as (n1 & n2 & -> & R1 & R2).
    rewrite do_groups_app in D. apply rbind_ok in D as (o1 & D1 & D2).
    cbn. apply rbind_ok. exists (Some id', o1, aextend role_eqb rts n1). split.
    + apply revision_parse_ok. exists rm, g1, n1. auto 10.
    + unfold aextend at 2. rewrite fold_left_app. apply (IH f g2); auto. lia.
Qed.
