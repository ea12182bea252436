(** Reading note tags and run data of described objects. *)
From Coq Require Import Lia ZifyBool ZifyNat ZifyN.
From Verif Require Import Base BaseProofs Codec SpecCodec CodecProofs CodecRT2 Package SpecPackage PackageRT PropSet PropIds SpecPropSet
  PropSetRT Store SpecStore StoreProofs Shapes Props Nodes Doc SpecRefs RefsProofs TagsProofs SpecValues SpecNodes SpecDoc SpecAccept SpecSame ExampleFile WriterProofs SpecFile FileProofs AuthorProofs DescProofs DescProofs2.

Lemma inner_some o s raw k v : set_means s (op_props (ob_props o)) -> last_at 0 (pid_id raw) s = Some (k, v) ->
  exists w, stored o raw = Some w /\ val_means v w.
Proof.
  intros H L. inversion H as [s0 m0 _ _ Hs]; subst. destruct (Hs _ _ _ L) as (w & A & V). exists w. split; [|exact V].
  unfold stored, oprops_get, propset_get. now rewrite A.
Qed.
Lemma inner_none o s raw : set_means s (op_props (ob_props o)) -> last_at 0 (pid_id raw) s = None -> stored o raw = None.
Proof.
  intros H L. inversion H as [s0 m0 _ Hn _]; subst. unfold stored, oprops_get, propset_get. now rewrite (Hn _ L).
Qed.

Section Nested.
  Context (cell : cellid) (a : aobject) (o : object).
  Context (W : ao_wf a) (O : object_is cell (describe a) o).
  Let M := described_means cell a o O.

  (** The tag [t] written at offset [k] of the references of the tags. *)
  Lemma inner_tag raw off k t m tid refs : raw = 0x40003489 ->
    (exists i pre suf v, nth_error (os_props (ao_set a)) i = Some (pid_id raw, v) /\
      refs_of (ao_props a) = pre ++ refs ++ suf /\ off = length pre /\
      total (fun p => taken own_objects (snd p)) (firstn i (os_props (ao_set a))) = N.of_nat off) ->
    (forall x, tg_definition t = Some x -> nth_error refs k = Some x) ->
    set_means (tag_set (N.of_nat k) t) m -> tag o tid m t.
  Proof.
    intros -> (i & pre & suf & v & E & S & -> & T) D Hm.
    destruct (offset_before o (ao_set a) i _ _ 0x40003489 M (regular_objects a W) E eq_refl) as (_ & Off).
    destruct (space_offset_before o (ao_set a) i _ _ 0x40003489 M (regular_spaces a W) E eq_refl) as (_ & SOff).
    unfold tag, nested_object. rewrite Off, SOff. cbn [rbind]. eexists. split; [reflexivity|].
    match goal with |- reference ?ob _ _ /\ _ => set (inner := ob) end.
    assert (Hi : set_means (tag_set (N.of_nat k) t) (op_props (ob_props inner))) by exact Hm.
    refine (conj _ (conj _ (conj _ _))).
    - unfold reference. destruct (tg_definition t) as [x|] eqn:Et.
      + specialize (D x eq_refl).
        assert (Hn : nth_error (tag_set (N.of_nat k) t) 1 = Some (pid_id 0x20003488, SObjectId)) by (unfold tag_set; rewrite Et; reflexivity).
        assert (M' : oset_means (OSet (op_object_ids (ob_props inner)) (Some (op_space_ids (ob_props inner), None)) (tag_set (N.of_nat k) t)) (ob_props inner)).
        { split; [reflexivity|]. split; [reflexivity|]. split; [reflexivity|]. exact Hm. }
        rewrite (read_object inner _ 1 _ 0x20003488 M' (tag_set_regular _ _ _) Hn eq_refl). cbv zeta. cbn [os_objects os_props].
        assert (K : total (fun p => taken own_objects (snd p)) (firstn 1 (tag_set (N.of_nat k) t)) = N.of_nat k).
        { unfold tag_set. rewrite Et. cbn. lia. }
        rewrite K, Nat2N.id. cbn [ob_props op_object_ids inner].
        rewrite (count_set _ _ Hm (tag_set_regular _ _ _)), T. unfold take, skip. rewrite Nat2N.id.
        rewrite (own_list cell a o O). assert (C : total (fun p => taken own_objects (snd p)) (tag_set (N.of_nat k) t) = N.of_nat k + 1).
        { unfold tag_set, tag_values. rewrite Et. destruct (tg_completed_at t); cbn; lia. }
        rewrite C, nth_firstn, nth_skipn by lia.
        assert (J : (length pre + k < length (refs_of (ao_props a)))%nat).
        { rewrite S, !app_length. assert (k < length refs)%nat by (apply nth_error_Some; congruence). lia. }
        rewrite cids_nth by exact J. f_equal. cbn [ob_mapping inner].
        apply (resolve_ref cell a o O _ (length pre + k)%nat); [now apply cids_nth|].
        rewrite S, nth_error_app2, nth_error_app1 by (try lia; replace (length pre + k - length pre)%nat with k by lia; apply nth_error_Some; congruence).
        now replace (length pre + k - length pre)%nat with k by lia.
      + assert (N0 : stored inner 0x20003488 = None).
        { apply (inner_none _ _ _ Hi). unfold tag_set, tag_values. rewrite Et. destruct (tg_completed_at t); reflexivity. }
        unfold prop_object, get_prop. unfold stored in N0. now rewrite N0.
    - assert (L : exists q, last_at 0 (pid_id 0x1400346E) (tag_set (N.of_nat k) t) = Some (q, SU32 (tg_created_at t))).
      { unfold tag_set, tag_values. destruct (tg_definition t), (tg_completed_at t); eexists; reflexivity. }
      destruct L as (q & L). destruct (inner_some _ _ _ _ _ Hi L) as (w & Ew & Vw). exists w. split; [exact Ew|]. inversion Vw. reflexivity.
    - unfold optional. destruct (tg_completed_at t) as [n|] eqn:Ec.
      + assert (L : exists q, last_at 0 (pid_id 0x1400346F) (tag_set (N.of_nat k) t) = Some (q, SU32 n)).
        { unfold tag_set, tag_values. rewrite Ec. destruct (tg_definition t); eexists; reflexivity. }
        destruct L as (q & L). destruct (inner_some _ _ _ _ _ Hi L) as (w & -> & Vw). exists n. split; [|reflexivity]. inversion Vw. reflexivity.
      + rewrite (inner_none _ _ 0x1400346F Hi); [reflexivity|]. unfold tag_set, tag_values. rewrite Ec. destruct (tg_definition t); reflexivity.
    - assert (L : exists q, last_at 0 (pid_id 0x10003470) (tag_set (N.of_nat k) t) = Some (q, SU16 (status_code (tg_item_status t)))).
      { unfold tag_set, tag_values. destruct (tg_definition t), (tg_completed_at t); eexists; reflexivity. }
      destruct L as (q & L). destruct (inner_some _ _ _ _ _ Hi L) as (w & Ew & Vw). exists w. split; [exact Ew|]. inversion Vw.
      apply status_coded.
  Qed.
  Lemma r_tags l : field_at 0x40003489 (ao_fields a) = None -> ao_last a = ftags l -> tags o l.
  Proof.
    intros F L. assert (H : prop_at 0x40003489 a = Some (AProp (SValues 0 (tag_sets 0 l)) (defs l) [])).
    { unfold prop_at. rewrite F, L. reflexivity. }
    destruct (stored_some a o W (described_props cell a o O) _ _ H) as (v & Ev & Mv). cbn [ap_val] in Mv. unfold tags. rewrite Ev.
    inversion Mv as [| | | | | | | | | | | | |i0 s0 ms HM E1 E2|]; subst. exists 0, ms. split; [reflexivity|].
    destruct (split_at a W 0x40003489 _ H) as (i & pre & suf & E & S & T). cbn [ap_val ap_refs] in E, S.
    assert (G : forall l2 l1 ms, defs l = defs l1 ++ defs l2 -> sets_mean (tag_sets (N.of_nat (length (defs l1))) l2) ms -> Forall2 (tag o 0) ms l2).
    { clear HM Mv ms Ev. induction l2 as [|t l2 IH]; intros l1 ms Q HM; inversion HM as [|s m ss ms' Hm HM']; subst; [constructor|]. constructor.
      - eapply (inner_tag 0x40003489 (length pre) (length (defs l1)) t m 0 (defs l) eq_refl); [|  |exact Hm].
        + exists i, pre, suf, (SValues 0 (tag_sets 0 l)). auto.
        + intros x Et. rewrite Q, nth_error_app2, Nat.sub_diag by lia. unfold defs. cbn [flat_map]. rewrite Et. reflexivity.
      - apply (IH (l1 ++ [t])).
        + unfold defs in *. rewrite Q, flat_map_app, <- app_assoc. cbn [flat_map]. now rewrite app_nil_r.
        + unfold defs in *. rewrite flat_map_app, app_length. cbn [flat_map]. rewrite app_nil_r. destruct (tg_definition t); cbn [length].
          * now replace (N.of_nat (length (flat_map (fun t => match tg_definition t with Some x => [x] | None => [] end) l1) + 1)) with (N.of_nat (length (flat_map (fun t => match tg_definition t with Some x => [x] | None => [] end) l1)) + 1) by lia.
          * now rewrite Nat.add_0_r. }
    apply (G l [] ms eq_refl HM).
  Qed.
End Nested.

(** ** Run data *)
Definition run_object (fs : list (N * option aprop)) : aobject := AObject (ExGuid 0 0) 0 fs None None.
Definition run_set (fs : list (N * option aprop)) : list (N * sval) := map (fun p => (fst p, ap_val (snd p))) (given fs).
Lemma run_set_is fs : os_props (ao_set (run_object fs)) = run_set fs.
Proof. unfold ao_set, ao_props, run_set. cbn [os_props run_object ao_fields ao_last given_last]. now rewrite app_nil_r. Qed.
(** Fields without references. *)
Inductive plain_fields : list (N * option aprop) -> Prop :=
| pf_nil : plain_fields []
| pf_cons r P s fs : writes P s -> plain_fields fs -> plain_fields ((r, fv s) :: fs).
Definition fruns (runs : list (list (N * option aprop))) : sval := SValues 0 (map run_set runs).
Definition run_good (fs : list (N * option aprop)) : Prop :=
  NoDup (map (fun f => pid_id (fst f)) fs) /\ plain_fields fs /\ (length fs <= 16)%nat.

Lemma plain_vals fs : plain_fields fs -> Forall (fun p => fst p < 2 ^ 26 /\ vgood (snd p)) (run_set fs) /\ (length (run_set fs) <= length fs)%nat.
Proof.
  induction 1 as [|r P s fs Hw _ (IH & L)]; [split; [constructor|apply le_n]|]. destruct s as [s|]; cbn [run_set given flat_map fv option_map snd fst app map length] in *.
  - split; [|unfold run_set, given in L; lia]. constructor; [|exact IH]. split; [apply pid_small|apply Hw].
  - split; [exact IH|unfold run_set, given in L; lia].
Qed.
Lemma run_wf fs : run_good fs -> ao_wf (run_object fs).
Proof.
  intros (D & P & _). refine (conj _ (conj _ (conj _ I))).
  - unfold ao_ids. cbn. rewrite app_nil_r. exact D.
  - cbn [run_object ao_fields]. clear D. induction P as [|r Q s fs Hw _ IH]; constructor; [|exact IH]. unfold counted_field. destruct s as [s|]; cbn; [|exact I].
    destruct Hw as ((_ & _ & _ & A & B & _) & _). split; assumption.
  - cbn [run_object ao_fields]. clear D. induction P as [|r Q s fs Hw _ IH]; constructor; [|exact IH]. unfold regular_field. destruct s as [s|]; cbn; [|exact I].
    destruct Hw as ((_ & _ & _ & _ & _ & A & B) & _). split; assumption.
Qed.
Lemma total_zero {A} (f : A -> N) l : Forall (fun x => f x = 0) l -> total f l = 0.
Proof. induction 1 as [|x l E _ IH]; [reflexivity|]. cbn [total fold_right]. rewrite E. exact IH. Qed.
Lemma run_vgood fs : run_good fs -> w_props_ok w_val_ok (run_set fs) = true /\ set_bytes (run_set fs) /\
  N.of_nat (length (w_props w_val (run_set fs))) <= 2 ^ 32 /\
  total (fun p => taken own_objects (snd p)) (run_set fs) = 0 /\ total (fun p => taken own_spaces (snd p)) (run_set fs) = 0 /\
  regular_set own_objects (run_set fs) /\ regular_set own_spaces (run_set fs).
Proof.
  intros (D & P & L). destruct (plain_vals fs P) as (F & L'). refine (conj _ (conj _ (conj _ (conj _ (conj _ (conj _ _)))))).
  - unfold w_props_ok. apply andb_true_iff. split; [apply andb_true_iff; split; [lia|]|]; apply forallb_forall; rewrite Forall_forall in F; intros p Hp;
      destruct (F p Hp) as (F1 & F2); [now apply N.ltb_lt|apply F2].
  - clear - F. induction F as [|p l (_ & V) _ IH]; [exact I|]. split; [apply V|exact IH].
  - assert (G : Forall (fun p => N.of_nat (length (w_val (snd p))) <= 2 ^ 27) (run_set fs)).
    { eapply Forall_impl; [|exact F]. intros p (_ & _ & _ & V & _). lia. }
    apply w_props_length in G. lia.
  - apply total_zero. eapply Forall_impl; [|exact F]. intros p (_ & _ & _ & _ & V & _). exact V.
  - apply total_zero. eapply Forall_impl; [|exact F]. intros p (_ & _ & _ & _ & _ & V & _). exact V.
  - split; [|apply all_Forall; eapply Forall_impl; [|exact F]; intros p (_ & V); apply V].
    unfold run_set. rewrite map_map. cbn [fst]. now apply given_nodup.
  - split; [|apply all_Forall; eapply Forall_impl; [|exact F]; intros p (_ & V); apply V].
    unfold run_set. rewrite map_map. cbn [fst]. now apply given_nodup.
Qed.
Lemma runs_fgood runs : Forall run_good runs -> N.of_nat (length runs) < 2 ^ 23 -> fgood 0 (Some (AProp (fruns runs) [] [])).
Proof.
  intros F L. assert (G : forallb (fun s => w_props_ok w_val_ok s) (map run_set runs) = true /\ val_bytes (fruns runs) /\
    N.of_nat (length (w_val (fruns runs))) <= 8 + 2 ^ 32 * N.of_nat (length runs) /\
    taken own_objects (fruns runs) = 0 /\ taken own_spaces (fruns runs) = 0 /\ regular own_objects (fruns runs) /\ regular own_spaces (fruns runs)).
  { clear L. unfold fruns. induction F as [|fs runs R _ (B1 & B2 & B3 & B4 & B5 & B6 & B7)].
    - cbn [map w_val]. rewrite !app_length, !le_bytes_length. cbn. repeat split; lia.
    - destruct (run_vgood fs R) as (A1 & A2 & A3 & A4 & A5 & A6 & A7). cbn [map].
      refine (conj _ (conj _ (conj _ (conj _ (conj _ (conj _ _)))))).
      + cbn [forallb]. now rewrite A1, B1.
      + split; [|exact B2]. clear - A2. induction (run_set fs); [exact I|]. destruct A2. split; auto.
      + cbn [w_val] in *. rewrite !app_length, !le_bytes_length in *. cbn [length]. lia.
      + cbn [taken total fold_right] in *. change (fold_right _ 0 (run_set fs)) with (total (fun p => taken own_objects (snd p)) (run_set fs)). rewrite A4. exact B4.
      + cbn [taken total fold_right] in *. change (fold_right _ 0 (run_set fs)) with (total (fun p => taken own_spaces (snd p)) (run_set fs)). rewrite A5. exact B5.
      + split; [exact A6|exact B6].
      + split; [exact A7|exact B7]. }
  destruct G as (B1 & B2 & B3 & B4 & B5 & B6 & B7). split; [|split; assumption].
  refine (conj _ (conj B2 (conj _ (conj (conj B6 B7) (conj (Forall_nil _) (conj (Forall_nil _) _)))))).
  - cbn [ap_val fruns w_val_ok]. rewrite map_length, B1. rewrite (proj2 (N.ltb_lt _ _)) by lia. reflexivity.
  - cbn [ap_val]. lia.
  - cbn. lia.
Qed.

Section Runs.
  Context (cell : cellid) (a : aobject) (o : object).
  Context (W : ao_wf a) (O : object_is cell (describe a) o).
  Let M := described_means cell a o O.
  Lemma r_runs runs : misses 0x40003499 a = true -> field_at 0x40003499 (ao_fields a) = Some (AProp (fruns runs) [] []) -> Forall run_good runs ->
    exists rs, run_data o rs /\ Forall2 (fun fs r => ao_wf (run_object fs) /\ set_means (os_props (ao_set (run_object fs))) (op_props (ob_props r))) runs rs.
  Proof.
    intros Hm Hf G. pose proof (field_prop _ _ _ Hm Hf) as H.
    destruct (stored_some a o W (described_props cell a o O) _ _ H) as (v & Ev & Mv). cbn [ap_val] in Mv. unfold run_data. rewrite Ev.
    destruct (split_at a W 0x40003499 _ H) as (i & pre & suf & E & _).
    destruct (offset_before o (ao_set a) i _ _ 0x40003499 M (regular_objects a W) E eq_refl) as (_ & Off).
    destruct (space_offset_before o (ao_set a) i _ _ 0x40003499 M (regular_spaces a W) E eq_refl) as (_ & SOff).
    inversion Mv as [| | | | | | | | | | | | |i0 s0 ms HM E1 E2|]; subst.
    assert (X : forall runs, Forall run_good runs -> forall ms, sets_mean (map run_set runs) ms -> exists rs, Forall2 (fun set run => nested_object 0x40003499 0 o set = Ok run) ms rs /\
       Forall2 (fun fs r => ao_wf (run_object fs) /\ set_means (os_props (ao_set (run_object fs))) (op_props (ob_props r))) runs rs).
    { clear - Off SOff. induction 1 as [|fs runs R _ IH]; intros ms HM; cbn [map] in HM; inversion HM as [|s m ss ms' Hm' HM']; subst.
      - exists []. split; constructor.
      - destruct (IH ms' HM') as (rs & I1 & I2). assert (Hn : exists r, nested_object 0x40003499 0 o m = Ok r /\ op_props (ob_props r) = m).
        { unfold nested_object. rewrite Off, SOff. cbn [rbind]. eexists. split; reflexivity. }
        destruct Hn as (r & Hn & Hp). exists (r :: rs).
        split; constructor; [exact Hn|exact I1|split; [now apply run_wf|]|exact I2]. rewrite run_set_is, Hp. exact Hm'. }
    destruct (X runs G ms HM) as (rs & X1 & X2). exists rs. split; [|exact X2]. exists 0, ms. split; [reflexivity|exact X1].
  Qed.
End Runs.
