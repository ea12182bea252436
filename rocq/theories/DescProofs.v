(** Objects described field by field: what they encode to and how they are read. *)
From Coq Require Import Lia ZifyBool ZifyNat ZifyN Permutation.
From Verif Require Import Base BaseProofs Codec SpecCodec CodecProofs CodecRT2 Package SpecPackage PackageRT PropSet PropIds SpecPropSet
  PropSetRT Store SpecStore StoreProofs Shapes Props Nodes Doc SpecRefs RefsProofs SpecValues SpecNodes SpecAccept SpecSame ExampleFile WriterProofs SpecFile AuthorProofs.

(** A property with the references it takes. *)
Record aprop := AProp { ap_val : sval; ap_refs : list exguid; ap_cells : list cellid }.
(** An object; the last property need not take as many references as it has. *)
Record aobject := AObject {
  ao_id : exguid; ao_kind : N;
  ao_fields : list (N * option aprop);
  ao_last : option (N * aprop);
  ao_file : option (list N) }.

Definition given (fs : list (N * option aprop)) : list (N * aprop) :=
  flat_map (fun f => match snd f with Some p => [(pid_id (fst f), p)] | None => [] end) fs.
Definition given_last (x : option (N * aprop)) : list (N * aprop) :=
  match x with Some (r, p) => [(pid_id r, p)] | None => [] end.
Definition ao_props (a : aobject) : list (N * aprop) := given (ao_fields a) ++ given_last (ao_last a).
Definition refs_of (l : list (N * aprop)) : list exguid := flat_map (fun p => ap_refs (snd p)) l.
Definition cells_of (l : list (N * aprop)) : list cellid := flat_map (fun p => ap_cells (snd p)) l.
Definition ao_set (a : aobject) : oset :=
  OSet (cids 1 (length (refs_of (ao_props a))))
       (match cells_of (ao_props a) with [] => None | _ => Some (cids 2 (length (cells_of (ao_props a))), None) end)
       (map (fun p => (fst p, ap_val (snd p))) (ao_props a)).
Definition describe (a : aobject) : object_desc :=
  ObjectDesc (ao_id a) (ao_kind a) (ao_set a) (refs_of (ao_props a)) (cells_of (ao_props a)) (ao_file a).

Definition counted (p : aprop) : Prop :=
  taken own_objects (ap_val p) = N.of_nat (length (ap_refs p)) /\
  taken own_spaces (ap_val p) = N.of_nat (length (ap_cells p)).
Definition counted_field (f : N * option aprop) : Prop := match snd f with Some p => counted p | None => True end.
Definition regular_prop (p : aprop) : Prop := regular own_objects (ap_val p) /\ regular own_spaces (ap_val p).
Definition regular_field (f : N * option aprop) : Prop := match snd f with Some p => regular_prop p | None => True end.

Definition ao_ids (a : aobject) : list N :=
  map (fun f => pid_id (fst f)) (ao_fields a) ++ match ao_last a with Some (r, _) => [pid_id r] | None => [] end.
Definition ao_wf (a : aobject) : Prop :=
  NoDup (ao_ids a) /\ Forall counted_field (ao_fields a) /\ Forall regular_field (ao_fields a) /\
  match ao_last a with Some (_, p) => regular_prop p | None => True end.

(** ** Reading *)
Fixpoint field_at (raw : N) (fs : list (N * option aprop)) : option aprop :=
  match fs with [] => None | (r, x) :: t => if pid_id r =? pid_id raw then x else field_at raw t end.
Definition prop_at (raw : N) (a : aobject) : option aprop :=
  match field_at raw (ao_fields a) with
  | Some p => Some p
  | None => match ao_last a with Some (r, p) => if pid_id r =? pid_id raw then Some p else None | None => None end
  end.

Lemma given_ids fs i : In i (map fst (given fs)) -> In i (map (fun f => pid_id (fst f)) fs).
Proof.
  induction fs as [|[r x] fs IH]; cbn; [auto|]. rewrite map_app, in_app_iff. intros [H|H]; [|auto].
  destruct x; cbn in H; [|destruct H]. destruct H as [<-|[]]. now left.
Qed.
Lemma nodup_app_inv {A} (l l' : list A) : NoDup (l ++ l') -> NoDup l /\ NoDup l' /\ forall x, In x l -> ~ In x l'.
Proof.
  induction l as [|a l IH]; cbn; intro D; [split; [constructor|split; [exact D|intros x []]]|].
  inversion D as [|? ? N0 D']; subst. destruct (IH D') as (A1 & A2 & A3). rewrite in_app_iff in N0. split; [constructor; tauto|]. split; [exact A2|].
  intros x [<-|X]; [tauto|now apply A3].
Qed.
Lemma given_nodup fs : NoDup (map (fun f => pid_id (fst f)) fs) -> NoDup (map fst (given fs)).
Proof.
  induction fs as [|[r x] fs IH]; cbn; intro D; [constructor|]. inversion D as [|? ? N0 D']; subst. rewrite map_app.
  destruct x; cbn; [|auto]. constructor; [|auto]. intro I. now apply given_ids in I.
Qed.
Lemma props_nodup a : NoDup (ao_ids a) -> NoDup (map fst (ao_props a)).
Proof.
  unfold ao_ids, ao_props. intro D. apply nodup_app_inv in D as (D1 & D2 & D3). rewrite map_app. apply nodup_app.
  - now apply given_nodup.
  - destruct (ao_last a) as [[r p]|]; cbn; [|constructor]. constructor; [intros []|constructor].
  - intros x X Y. apply given_ids in X. apply (D3 x X). destruct (ao_last a) as [[r p]|]; exact Y.
Qed.
Lemma set_fst a : map fst (os_props (ao_set a)) = map fst (ao_props a).
Proof. cbn. rewrite map_map. apply map_ext. reflexivity. Qed.

Lemma field_given raw fs p : field_at raw fs = Some p -> exists pre suf, given fs = pre ++ (pid_id raw, p) :: suf /\
  (Forall counted_field fs -> Forall (fun q => counted (snd q)) pre).
Proof.
  induction fs as [|[r x] fs IH]; cbn [field_at]; [discriminate|]. destruct (N.eqb_spec (pid_id r) (pid_id raw)) as [E|E].
  - intros ->. cbn [given flat_map fst snd app]. rewrite E. exists [], (given fs). split; [reflexivity|constructor].
  - intro H. destruct (IH H) as (pre & suf & G & C). cbn [given flat_map fst snd]. fold (given fs). rewrite G. destruct x as [q|].
    + exists ((pid_id r, q) :: pre), suf. split; [reflexivity|]. intro F. inversion F; subst. constructor; auto.
    + exists pre, suf. split; [reflexivity|]. intro F. inversion F; subst. auto.
Qed.
Lemma field_none raw fs : NoDup (map (fun f => pid_id (fst f)) fs) -> field_at raw fs = None -> ~ In (pid_id raw) (map fst (given fs)).
Proof.
  induction fs as [|[r x] fs IH]; cbn [field_at map]; intros D H; [intros []|]. cbn [fst] in D. inversion D as [|? ? N0 D']; subst.
  cbn [given flat_map fst snd]. fold (given fs). rewrite map_app, in_app_iff. destruct (N.eqb_spec (pid_id r) (pid_id raw)) as [E|E].
  - subst x. cbn. intros [[]|I]. apply given_ids in I. congruence.
  - intros [I|I]; [|now apply IH]. destruct x; cbn in I; [destruct I; [congruence|contradiction]|destruct I].
Qed.
Lemma counted_given fs : Forall counted_field fs -> Forall (fun q => counted (snd q)) (given fs).
Proof.
  induction 1 as [|[r [p|]] fs C _ IH]; cbn; [constructor|constructor; assumption|assumption].
Qed.
Lemma prop_split raw a p : ao_wf a -> prop_at raw a = Some p -> exists pre suf, ao_props a = pre ++ (pid_id raw, p) :: suf /\
  Forall (fun q => counted (snd q)) pre.
Proof.
  intros (_ & C & _) H. unfold prop_at in H. destruct (field_at raw (ao_fields a)) as [q|] eqn:E.
  - injection H as ->. apply field_given in E as (pre & suf & G & K). exists pre, (suf ++ given_last (ao_last a)).
    split; [|auto]. unfold ao_props. rewrite G, <- app_assoc. reflexivity.
  - destruct (ao_last a) as [[r q]|] eqn:L; [|discriminate]. destruct (N.eqb_spec (pid_id r) (pid_id raw)) as [Q|]; [|discriminate].
    injection H as ->. exists (given (ao_fields a)), []. split; [|now apply counted_given]. unfold ao_props, given_last. rewrite L. now rewrite Q.
Qed.
Lemma prop_none raw a : ao_wf a -> prop_at raw a = None -> ~ In (pid_id raw) (map fst (ao_props a)).
Proof.
  intros (D & _) H. unfold prop_at in H. destruct (field_at raw (ao_fields a)) as [q|] eqn:E; [discriminate|].
  unfold ao_ids in D. apply nodup_app_inv in D as (D1 & _). unfold ao_props. rewrite map_app, in_app_iff. intros [I|I].
  - now apply (field_none raw) in I.
  - unfold given_last in I. destruct (ao_last a) as [[r q]|]; [|destruct I]. destruct (N.eqb_spec (pid_id r) (pid_id raw)); [discriminate|].
    cbn in I. destruct I; [congruence|contradiction].
Qed.

Section Values.
  Context (a : aobject) (o : object).
  Context (W : ao_wf a) (HM : set_means (os_props (ao_set a)) (op_props (ob_props o))).

  Lemma stored_some raw p : prop_at raw a = Some p -> exists v, stored o raw = Some v /\ val_means (ap_val p) v.
  Proof.
    intro H. destruct (prop_split raw a p W H) as (pre & suf & E & _).
    inversion HM as [s m Hd Hnone Hsome]; subst.
    assert (Q : nth_error (os_props (ao_set a)) (length pre) = Some (pid_id raw, ap_val p)).
    { cbn. rewrite E, map_app, nth_error_app2 by (rewrite map_length; lia). now rewrite map_length, Nat.sub_diag. }
    assert (D : NoDup (map fst (os_props (ao_set a)))) by (rewrite set_fst; apply props_nodup, W).
    destruct (Hsome _ _ _ (nth_last_at _ 0 _ _ _ D Q)) as (pv & Hpv & Mv). exists pv. split; [|exact Mv].
    unfold stored, get_prop, oprops_get, propset_get. now rewrite Hpv.
  Qed.
  Lemma stored_none raw : prop_at raw a = None -> stored o raw = None.
  Proof.
    intro H. apply (prop_none raw a W) in H.
    inversion HM as [s m Hd Hnone Hsome]; subst. unfold stored, get_prop, oprops_get, propset_get.
    rewrite Hnone; [reflexivity|]. apply last_at_notin. now rewrite set_fst.
  Qed.

  (** Fields with values *)
  Lemma f_optional {A} raw (R : pvalue -> A -> Prop) (g : A -> sval) (x : option A) :
    prop_at raw a = option_map (fun y => AProp (g y) [] []) x ->
    (forall y v, x = Some y -> val_means (g y) v -> R v y) -> optional o raw R x.
  Proof.
    intros H K. unfold optional. destruct x as [y|]; cbn in H.
    - destruct (stored_some raw _ H) as (v & -> & V). exists y. split; [now apply K|reflexivity].
    - now rewrite (stored_none raw H).
  Qed.
  Lemma f_required {A} raw (R : pvalue -> A -> Prop) s (x : A) :
    prop_at raw a = Some (AProp s [] []) -> (forall v, val_means s v -> R v x) -> required o raw R x.
  Proof.
    intros H K. destruct (stored_some raw _ H) as (v & E & V). exists v. split; [exact E|now apply K].
  Qed.
  Lemma f_defaulted {A} raw (R : pvalue -> A -> Prop) s (d x : A) :
    prop_at raw a = Some (AProp s [] []) -> (forall v, val_means s v -> R v x) -> defaulted o raw R d x.
  Proof.
    intros H K. unfold defaulted. destruct (stored_some raw _ H) as (v & -> & V). now apply K.
  Qed.
  Lemma f_defaulted_opt {A} raw (R : pvalue -> A -> Prop) (s : option sval) (d x : A) :
    prop_at raw a = option_map (fun y => AProp y [] []) s ->
    match s with None => x = d | Some s => forall v, val_means s v -> R v x end -> defaulted o raw R d x.
  Proof.
    intros H K. unfold defaulted. destruct s as [s|]; cbn in H.
    - destruct (stored_some raw _ H) as (v & -> & V). now apply K.
    - now rewrite (stored_none raw H).
  Qed.
  Lemma f_absent {A} raw (R : pvalue -> A -> Prop) (d : A) : prop_at raw a = None -> defaulted o raw R d d.
  Proof. intro H. unfold defaulted. now rewrite (stored_none raw H). Qed.

End Values.

Section Read.
  Context (cell : cellid) (a : aobject) (o : object).
  Context (W : ao_wf a) (O : object_is cell (describe a) o).

  Lemma described_means : oset_means (ao_set a) (ob_props o).
  Proof. destruct O as (_ & _ & M & _). exact M. Qed.
  Let M := described_means.
  Lemma described_props : set_means (os_props (ao_set a)) (op_props (ob_props o)).
  Proof. exact (proj2 (proj2 (proj2 described_means))). Qed.

  Lemma kind_is : ob_jcid o = ao_kind a.
  Proof. exact (proj1 (proj2 O)). Qed.
  Lemma context_is : ob_context o = fst cell.
  Proof. exact (proj1 O). Qed.
  Lemma file_is_ : ob_file o = ao_file a.
  Proof. exact (proj1 (proj2 (proj2 (proj2 O)))). Qed.

  (** Fields with references *)
  Lemma own_list : op_object_ids (ob_props o) = cids 1 (length (refs_of (ao_props a))).
  Proof. exact (proj1 M). Qed.
  Lemma no_contexts : op_context_ids (ob_props o) = [].
  Proof.
    destruct M as (_ & _ & C & _). rewrite C. unfold ao_set. cbn [os_spaces]. destruct (cells_of (ao_props a)); reflexivity.
  Qed.
  Lemma space_list : op_space_ids (ob_props o) = cids 2 (length (cells_of (ao_props a))).
  Proof.
    destruct M as (_ & C & _). rewrite C. unfold ao_set. cbn [os_spaces]. destruct (cells_of (ao_props a)); reflexivity.
  Qed.
  Lemma cids_length b n : length (cids b n) = n.
  Proof. unfold cids. now rewrite map_length, seq_length. Qed.
  Lemma cids_nodup b n : NoDup (cids b n).
  Proof.
    unfold cids. apply FinFun.Injective_map_NoDup; [|apply seq_NoDup]. intros x y H. injection H. lia.
  Qed.
  Lemma combine_nth_ {A B} (l : list A) (l' : list B) i x y :
    nth_error l i = Some x -> nth_error l' i = Some y -> nth_error (combine l l') i = Some (x, y).
  Proof. revert l' i. induction l as [|u l IH]; intros [|v l'] [|i] X Y; try discriminate; cbn in *; [congruence|auto]. Qed.
  Lemma map_fst_combine_ {A B} (l : list A) (l' : list B) : length l = length l' -> map fst (combine l l') = l.
  Proof. revert l'. induction l as [|u l IH]; intros [|v l'] L; try discriminate; cbn; [reflexivity|]. f_equal. apply IH. now injection L. Qed.

  Lemma resolve_ref i j c x : nth_error (cids 1 (length (refs_of (ao_props a)))) j = Some c ->
    nth_error (refs_of (ao_props a)) j = Some x -> mapping_get_object (ob_mapping o) i c = Some x.
  Proof.
    intros C X. destruct O as (_ & _ & _ & _ & R & _). specialize (R i c). cbn [od_refs od_cells describe] in R.
    unfold own_table in R. rewrite own_list, no_contexts in R. cbn [combine] in R. rewrite app_nil_r in R.
    eapply resolves_distinct; [|apply combine_nth_; eassumption|exact R].
    rewrite map_fst_combine_ by apply cids_length. apply cids_nodup.
  Qed.
  Lemma regular_objects : regular_set own_objects (os_props (ao_set a)).
  Proof.
    split; [rewrite set_fst; apply props_nodup, W|]. destruct W as (_ & _ & F & L). apply all_Forall. cbn. apply Forall_map. cbn.
    unfold ao_props. apply Forall_app. split.
    - induction F as [|[r [p|]] fs P _ IH]; cbn; [constructor|constructor; [exact (proj1 P)|assumption]|assumption].
    - destruct (ao_last a) as [[r p]|]; cbn; [|constructor]. constructor; [apply L|constructor].
  Qed.
  Lemma regular_spaces : regular_set own_spaces (os_props (ao_set a)).
  Proof.
    split; [rewrite set_fst; apply props_nodup, W|]. destruct W as (_ & _ & F & L). apply all_Forall. cbn. apply Forall_map. cbn.
    unfold ao_props. apply Forall_app. split.
    - induction F as [|[r [p|]] fs P _ IH]; cbn; [constructor|constructor; [exact (proj2 P)|assumption]|assumption].
    - destruct (ao_last a) as [[r p]|]; cbn; [|constructor]. constructor; [apply L|constructor].
  Qed.

  Lemma split_at raw p : prop_at raw a = Some p -> exists i pre suf,
    nth_error (os_props (ao_set a)) i = Some (pid_id raw, ap_val p) /\
    refs_of (ao_props a) = pre ++ ap_refs p ++ suf /\
    total (fun p => taken own_objects (snd p)) (firstn i (os_props (ao_set a))) = N.of_nat (length pre).
  Proof.
    intro H. destruct (prop_split raw a p W H) as (pre & suf & E & C). exists (length pre), (refs_of pre), (refs_of suf).
    refine (conj _ (conj _ _)).
    - cbn. rewrite E, map_app, nth_error_app2 by (rewrite map_length; lia). now rewrite map_length, Nat.sub_diag.
    - rewrite E. unfold refs_of. rewrite flat_map_app. reflexivity.
    - cbn [ao_set os_props]. rewrite E, map_app, firstn_app, map_length, Nat.sub_diag, firstn_O, app_nil_r, <- (map_length (fun p => (fst p, ap_val (snd p))) pre), firstn_all.
      clear - C. induction C as [|[i q] pre (K & _) _ IH]; [reflexivity|]. cbn [map total fold_right fst snd refs_of flat_map] in *.
      change (fold_right _ 0 ?l) with (total (fun p : N * sval => taken own_objects (snd p)) l). rewrite K, IH, app_length. unfold refs_of. lia.
  Qed.
  Lemma split_cells_at raw p : prop_at raw a = Some p -> exists i pre suf,
    nth_error (os_props (ao_set a)) i = Some (pid_id raw, ap_val p) /\
    cells_of (ao_props a) = pre ++ ap_cells p ++ suf /\
    total (fun p => taken own_spaces (snd p)) (firstn i (os_props (ao_set a))) = N.of_nat (length pre).
  Proof.
    intro H. destruct (prop_split raw a p W H) as (pre & suf & E & C). exists (length pre), (cells_of pre), (cells_of suf).
    refine (conj _ (conj _ _)).
    - cbn. rewrite E, map_app, nth_error_app2 by (rewrite map_length; lia). now rewrite map_length, Nat.sub_diag.
    - rewrite E. unfold cells_of. rewrite flat_map_app. reflexivity.
    - cbn [ao_set os_props]. rewrite E, map_app, firstn_app, map_length, Nat.sub_diag, firstn_O, app_nil_r, <- (map_length (fun p => (fst p, ap_val (snd p))) pre), firstn_all.
      clear - C. induction C as [|[i q] pre (_ & K) _ IH]; [reflexivity|]. cbn [map total fold_right fst snd cells_of flat_map] in *.
      change (fold_right _ 0 ?l) with (total (fun p : N * sval => taken own_spaces (snd p)) l). rewrite K, IH, app_length. unfold cells_of. lia.
  Qed.

  Lemma cids_nth b n j : (j < n)%nat -> nth_error (cids b n) j = Some (CompactId b (N.of_nat j)).
  Proof.
    intro H. unfold cids. apply (map_nth_error (fun i => CompactId b (N.of_nat i))).
    rewrite nth_error_nth' with (d := 0%nat) by now rewrite seq_length. now rewrite seq_nth.
  Qed.
  Lemma nth_skipn {A} (l : list A) n j : nth_error (skipn n l) j = nth_error l (n + j).
  Proof. revert l; induction n as [|n IH]; intros [|x l]; cbn; auto; now destruct j. Qed.
  Lemma nth_firstn {A} (l : list A) n j : (j < n)%nat -> nth_error (firstn n l) j = nth_error l j.
  Proof. revert l j; induction n as [|n IH]; intros [|x l] [|j] H; cbn; auto; try lia. apply IH. lia. Qed.

  Lemma f_references raw l : prop_at raw a = Some (AProp (SObjectIds (N.of_nat (length l))) l []) -> references o raw l.
  Proof.
    intro H. destruct (split_at raw _ H) as (i & pre & suf & E & S & T). unfold references.
    rewrite (read_objects o (ao_set a) i (pid_id raw) _ raw M regular_objects E eq_refl). cbn zeta. rewrite T, !Nat2N.id. f_equal. f_equal.
    cbn [ap_refs] in S. apply flat_resolve_all.
    - rewrite firstn_length, skipn_length. cbn [ao_set os_objects]. rewrite cids_length, S, !app_length. lia.
    - intros j c x C X. assert (J : (j < length l)%nat) by (apply nth_error_Some; congruence).
      rewrite nth_firstn, nth_skipn in C by exact J. eapply resolve_ref; [exact C|].
      rewrite S, nth_error_app2, nth_error_app1 by lia. replace (length pre + j - length pre)%nat with j by lia. exact X.
  Qed.
  Lemma f_reference raw x : prop_at raw a = Some (AProp SObjectId [x] []) -> reference o raw (Some x).
  Proof.
    intro H. destruct (split_at raw _ H) as (i & pre & suf & E & S & T). unfold reference.
    rewrite (read_object o (ao_set a) i (pid_id raw) raw M regular_objects E eq_refl). cbn zeta. rewrite T, !Nat2N.id.
    cbn [ap_refs app] in S. cbn [ao_set os_objects]. assert (J : (length pre < length (refs_of (ao_props a)))%nat) by (rewrite S, app_length; cbn; lia).
    rewrite cids_nth by exact J. f_equal. eapply resolve_ref; [apply cids_nth; exact J|].
    rewrite S, nth_error_app2, Nat.sub_diag by lia. reflexivity.
  Qed.
  Lemma f_no_reference raw : prop_at raw a = None -> reference o raw None.
  Proof.
    intro H. unfold reference, prop_object. pose proof (stored_none a o W described_props raw H) as E. unfold stored in E. unfold get_prop. now rewrite E.
  Qed.
  Lemma f_reference_opt raw x : prop_at raw a = option_map (fun r => AProp SObjectId [r] []) x -> reference o raw x.
  Proof. destruct x; cbn; [apply f_reference|apply f_no_reference]. Qed.
  Lemma f_children raw l : prop_at raw a = Some (AProp (SObjectIds (N.of_nat (length l))) l []) -> children o raw l.
  Proof.
    intro H. unfold children. destruct (stored_some a o W described_props raw _ H) as (v & -> & _). now apply f_references.
  Qed.
  Lemma f_spaces raw l : prop_at raw a = Some (AProp (SSpaceIds (N.of_nat (length l))) [] l) ->
    Forall (fun c => exguid_eqb (snd c) (snd cell) = false) (cells_of (ao_props a)) -> spaces o raw l.
  Proof.
    intros H F. unfold spaces. destruct (stored_some a o W described_props raw _ H) as (v & -> & _).
    destruct (split_cells_at raw _ H) as (i & pre & suf & E & S & T).
    rewrite (read_spaces o (ao_set a) i (pid_id raw) _ raw M regular_spaces E eq_refl). cbn zeta. rewrite T, !Nat2N.id. f_equal. f_equal.
    replace (match os_spaces (ao_set a) with Some (sp, _) => sp | None => [] end) with (cids 2 (length (cells_of (ao_props a))))
      by (unfold ao_set; cbn [os_spaces]; destruct (cells_of (ao_props a)); reflexivity).
    cbn [ap_cells] in S. apply flat_resolve_all.
    - rewrite firstn_length, skipn_length, cids_length, S, !app_length. lia.
    - intros j c x C X. assert (J : (j < length l)%nat) by (apply nth_error_Some; congruence).
      rewrite nth_firstn, nth_skipn in C by exact J.
      destruct O as (_ & _ & _ & _ & _ & R). specialize (R (0 + N.of_nat j) c). cbn [od_cells describe] in R.
      unfold space_table in R. rewrite space_list in R.
      replace (filter _ (cells_of (ao_props a))) with (cells_of (ao_props a)) in R
        by (clear - F; induction F as [|y t Y _ IH]; cbn; [reflexivity|]; rewrite Y; cbn; now rewrite <- IH).
      eapply resolves_distinct; [|apply combine_nth_; [exact C|]|exact R].
      + rewrite map_fst_combine_ by apply cids_length. apply cids_nodup.
      + rewrite S, nth_error_app2, nth_error_app1 by lia. replace (length pre + j - length pre)%nat with j by lia. exact X.
  Qed.
End Read.
