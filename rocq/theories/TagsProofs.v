(** Which definition each note tag reports. *)
From Coq Require Import Lia ZifyBool ZifyNat ZifyN.
From Verif Require Import Base BaseProofs Codec Package SpecPackage PropSet PropIds Store SpecStore
  StoreProofs Shapes Props Nodes SpecCodec SpecPropSet PropSetProofs PropSetRT SpecRefs RefsProofs SpecValues
  SpecNodes NodesProofs NodesProofs2.

Lemma sets_nth sets ms i s : sets_mean sets ms -> nth_error sets i = Some s ->
  exists m, nth_error ms i = Some m /\ set_means s m.
Proof.
  intros H. revert i. induction H as [|s0 m0 ss ms0 Hm Hs IH]; intros [|i] E; try discriminate E.
  - injection E as ->. exists m0. auto.
  - apply IH. exact E.
Qed.
Lemma forall2_nth {A B} (R : A -> B -> Prop) l1 l2 i x : Forall2 R l1 l2 -> nth_error l1 i = Some x ->
  exists y, nth_error l2 i = Some y /\ R x y.
Proof.
  intros H. revert i. induction H as [|a b l1 l2 Hab Hl IH]; intros [|i] E; try discriminate E.
  - injection E as ->. exists b. auto.
  - apply IH. exact E.
Qed.
Lemma all_nth {A} (P : A -> Prop) l i x : all P l -> nth_error l i = Some x -> P x.
Proof.
  revert i. induction l as [|a l IH]; intros [|i] H E; try discriminate E; cbn in H.
  - injection E as ->. apply H.
  - eapply IH; [apply H|exact E].
Qed.
Lemma nodup_combine {A B} (a : list A) (b : list B) : NoDup a -> NoDup (map fst (combine a b)).
Proof.
  intros H. revert b. induction H as [|x a Hx Ha IH]; intros [|y b]; cbn; try constructor; [|apply IH].
  intros Hin. apply Hx. apply in_map_iff in Hin as ([u v] & <- & Hin). now apply in_combine_l in Hin.
Qed.
Lemma count_set s m : set_means s m -> regular_set own_objects s ->
  sumN count_object_refs (map (fun e => snd (snd e)) m) = total (fun p => taken own_objects (snd p)) s.
Proof.
  intros Hm [ND HR].
  assert (H : count_object_refs (VPropertyValues 0 [m]) = taken own_objects (SValues 0 [s])).
  { apply count_objects_taken.
    - cbn. auto.
    - constructor. constructor; [exact Hm|constructor]. }
  cbn [count_object_refs taken] in H. rewrite sumN_cons in H. cbn in H.
  change (fold_right (fun x n => fold_right (fun p k => taken own_objects (snd p) + k) 0 x + n) 0 [s]) with
    (total (fun p => taken own_objects (snd p)) s + 0) in H.
  rewrite !N.add_0_r in H. rewrite <- H. clear.
  induction m as [|[i [k v]] m IH]; cbn [map]; [reflexivity|]. rewrite !sumN_cons. cbn [snd]. now rewrite IH.
Qed.

Definition context_ids (w : oset) : list compactid :=
  match os_spaces w with Some (_, Some c) => c | _ => [] end.

Lemma tag_rule oid ctx sid g pk o refs cells d w e t l p tid sets i s k :
  object_parse oid ctx sid g pk = Ok o ->
  find_object oid partition_object_data g = Some (DataObject refs cells d) ->
  d = e ++ t -> l_oset w e ->
  length refs = length (os_objects w) -> NoDup (os_objects w ++ context_ids w) ->
  regular_set own_objects (os_props w) ->
  total (fun p => taken own_objects (snd p)) (os_props w) <= N.of_nat (length refs) ->
  nth_error (os_props w) p = Some (pid_id 0x40003489, SValues tid sets) ->
  nth_error sets i = Some s -> nth_error s k = Some (pid_id 0x20003488, SObjectId) ->
  dflt [] (tags_parse o) = Ok l ->
  exists tg x, nth_error l i = Some tg /\ tg_definition tg = Some x /\
    nth_error refs (N.to_nat (total (fun p => taken own_objects (snd p)) (firstn p (os_props w)) +
                              total (fun p => taken own_objects (snd p)) (firstn k s))) = Some x.
Proof.
  intros HP Hd -> Hw HL ND HR HT Hp Hs Hk Ht.
  destruct (object_parse_inv _ _ _ _ _ _ _ _ _ HP Hd) as (Hrun & _ & _ & Hmap).
  destruct (reads_oset w e t Hw) as (ps & Hps & M).
  unfold run in Hrun. rewrite Hps in Hrun. cbn [rbind] in Hrun. injection Hrun as ->.
  assert (Eo : op_object_ids (ob_props o) = os_objects w) by (now destruct M).
  assert (Ec : op_context_ids (ob_props o) = context_ids w).
  { destruct M as (_ & _ & -> & _). unfold context_ids. destruct (os_spaces w) as [[sp [c|]]|]; reflexivity. }
  destruct (offset_before o w p _ _ 0x40003489 M HR Hp eq_refl) as ((pv & Hget & Hpv) & Hoff).
  inversion Hpv as [| | | | | | | | | | | | |i0 s0 ms HM E1 E2|]; subst.
  destruct (sets_nth _ _ _ _ HM Hs) as (m & Hm & Mm).
  apply tags_iff in Ht. unfold tags, stored in Ht. rewrite Hget in Ht.
  destruct Ht as (tid' & sets' & [= <- <-] & Ht).
  destruct (forall2_nth _ _ _ _ _ Ht Hm) as (tg & Htg & Htag).
  destruct Htag as (inner & Hin & Href & _).
  assert (HRs : regular_set own_objects s).
  { destruct HR as [_ HR]. pose proof (all_nth _ _ _ _ HR Hp) as HV. cbn [snd regular] in HV.
    exact (all_nth _ _ _ _ HV Hs). }
  unfold nested_object in Hin. rewrite Hoff in Hin. cbn [rbind] in Hin.
  apply bind_ok in Hin as (soff & _ & Hin). injection Hin as <-.
  rewrite (count_set _ _ Mm HRs) in Href. rewrite Eo in Href. unfold take, skip in Href.
  set (off := total (fun p => taken own_objects (snd p)) (firstn p (os_props w))) in *.
  set (cnt := total (fun p => taken own_objects (snd p)) s) in *.
  set (ids := firstn (N.to_nat cnt) (skipn (N.to_nat off) (os_objects w))) in *.
  match type of Href with reference ?ob _ _ => set (inner := ob) in * end.
  unfold reference in Href.
  assert (M' : oset_means (OSet ids (Some (op_space_ids (ob_props inner), None)) s) (ob_props inner)).
  { split; [reflexivity|]. split; [reflexivity|]. split; [reflexivity|]. exact Mm. }
  rewrite (read_object inner _ k _ 0x20003488 M' HRs Hk eq_refl) in Href. cbn [os_objects os_props] in Href.
  set (koff := total (fun p => taken own_objects (snd p)) (firstn k s)) in *.
  pose proof (total_firstn_nth (fun p => taken own_objects (snd p)) _ _ _ Hk) as TB. cbn [snd taken own_objects] in TB.
  fold koff cnt in TB.
  pose proof (total_firstn_nth (fun p => taken own_objects (snd p)) _ _ _ Hp) as TP. fold off in TP. cbn [snd taken] in TP.
  assert (TS : cnt <= total (fun s => total (fun p => taken own_objects (snd p)) s) sets).
  { pose proof (total_firstn_nth (fun s => total (fun p => taken own_objects (snd p)) s) _ _ _ Hs) as TS.
    cbv beta in TS. fold cnt in TS. lia. }
  unfold ids in Href. rewrite nth_error_firstn, nth_error_skipn in Href by lia.
  destruct (nth_error (os_objects w) (N.to_nat off + N.to_nat koff)) as [c|] eqn:Ec'; [|discriminate Href].
  destruct (nth_error refs (N.to_nat off + N.to_nat koff)) as [x|] eqn:Ex.
  2:{ apply nth_error_None in Ex. assert (X : nth_error (os_objects w) (N.to_nat off + N.to_nat koff) <> None) by congruence.
      apply nth_error_Some in X. lia. }
  exists tg, x. split; [exact Htg|]. injection Href as Href. split.
  - rewrite <- Href. unfold inner. cbn [ob_mapping]. rewrite Hmap.
    eapply resolves_distinct; [| |apply mapping_resolves].
    + rewrite map_app, Eo, Ec. rewrite combine_fst by auto.
      clear -ND. generalize (map fst (filter (fun c : exguid * exguid => exguid_eqb (snd c) sid) cells)) as b. intros b.
      assert (H : NoDup (map fst (combine (os_objects w ++ context_ids w) (repeat (ExGuid 0 0) (length (os_objects w)) ++ b)))).
      { now apply nodup_combine. }
      assert (EE : forall (a : list compactid) x (b' : list exguid),
        combine (a ++ x) (repeat (ExGuid 0 0) (length a) ++ b') = combine a (repeat (ExGuid 0 0) (length a)) ++ combine x b').
      { induction a as [|y a IH]; intros; cbn; [reflexivity|]. now rewrite IH. }
      rewrite EE, map_app, combine_fst in H by (now rewrite repeat_length). exact H.
    + rewrite nth_error_app1.
      * rewrite nth_error_combine, Eo, Ec', Ex. reflexivity.
      * rewrite combine_length, Eo, HL, Nat.min_id. apply nth_error_Some. congruence.
  - rewrite N2Nat.inj_add. exact Ex.
Qed.
