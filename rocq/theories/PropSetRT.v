(** Round trip of property sets. *)
From Coq Require Import Lia ZifyBool ZifyNat ZifyN.
From Verif Require Import Base BaseProofs Codec SpecCodec CodecProofs CodecRT CodecRT2 CodecRT4
  Package PackageProofs SpecPackage PackageRT PropSet PropSetProofs SpecPropSet.
Ltac Zify.zify_post_hook ::= Z.div_mod_to_equations.

(** Induction on nested values. *)
Section SvalInd.
  Context (P : sval -> Prop).
  Context (Hleaf : forall v, (match v with SValues _ _ | SSet _ => False | _ => True end) -> P v).
  Context (Hvalues : forall id sets, Forall (Forall (fun p => P (snd p))) sets -> P (SValues id sets)).
  Context (Hset : forall s, Forall (fun p => P (snd p)) s -> P (SSet s)).
  Fixpoint sval_rect' (v : sval) : P v :=
    let fix props (s : list (N * sval)) : Forall (fun p => P (snd p)) s :=
      match s with
      | [] => Forall_nil _
      | p :: r => Forall_cons p (sval_rect' (snd p)) (props r)
      end in
    let fix sets (ss : list (list (N * sval))) : Forall (Forall (fun p => P (snd p))) ss :=
      match ss with
      | [] => Forall_nil _
      | s :: r => Forall_cons s (props s) (sets r)
      end in
    match v with
    | SValues id ss => Hvalues id ss (sets ss)
    | SSet s => Hset s (props s)
    | SEmpty => Hleaf SEmpty I
    | SBool b => Hleaf (SBool b) I
    | SU8 n => Hleaf (SU8 n) I
    | SU16 n => Hleaf (SU16 n) I
    | SU32 n => Hleaf (SU32 n) I
    | SU64 n => Hleaf (SU64 n) I
    | SVec d => Hleaf (SVec d) I
    | SObjectId => Hleaf SObjectId I
    | SObjectIds n => Hleaf (SObjectIds n) I
    | SSpaceId => Hleaf SSpaceId I
    | SSpaceIds n => Hleaf (SSpaceIds n) I
    | SContextId => Hleaf SContextId I
    | SContextIds n => Hleaf (SContextIds n) I
    end.
End SvalInd.

(** The map the code builds. *)
Fixpoint number {A} (k : N) (l : list (N * A)) : list (N * (N * A)) :=
  match l with [] => [] | (i, v) :: r => (i, (k, v)) :: number (k + 1) r end.

Fixpoint denote (v : sval) : pvalue :=
  let mk := fun s : list (N * sval) =>
    aextend N.eqb [] (number 0 (map (fun p => (fst p, denote (snd p))) s)) in
  match v with
  | SEmpty => VEmpty
  | SBool b => VBool b
  | SU8 n => VU8 n
  | SU16 n => VU16 n
  | SU32 n => VU32 n
  | SU64 n => VU64 n
  | SVec d => VVec d
  | SObjectId => VObjectId
  | SObjectIds n => VObjectIds n
  | SSpaceId => VObjectSpaceId
  | SSpaceIds n => VObjectSpaceIds n
  | SContextId => VContextId
  | SContextIds n => VContextIds n
  | SValues id sets => VPropertyValues id (map mk sets)
  | SSet s => VPropertySet (mk s)
  end.

Definition denote_set (s : list (N * sval)) : propset :=
  aextend N.eqb [] (number 0 (map (fun p => (fst p, denote (snd p))) s)).

(** ** Bit fields of property ids *)
Lemma pid_id_enc i t b : i < 2 ^ 26 -> t < 32 -> pid_id (i + t * 2 ^ 26 + flag b * 2 ^ 31) = i.
Proof.
  intros Hi Ht. unfold pid_id. change 0x3ffffff with (N.ones 26). rewrite N.land_ones.
  pose proof (flag_bound b). cpow. lia.
Qed.
Lemma pid_type_enc i t b : i < 2 ^ 26 -> t < 32 -> pid_type (i + t * 2 ^ 26 + flag b * 2 ^ 31) = t.
Proof.
  intros Hi Ht. unfold pid_type. change 0x1f with (N.ones 5). rewrite N.land_ones, N.shiftr_div_pow2.
  pose proof (flag_bound b). cpow. lia.
Qed.
Lemma pid_bool_enc i t b : i < 2 ^ 26 -> t < 32 -> pid_bool (i + t * 2 ^ 26 + flag b * 2 ^ 31) = b.
Proof.
  intros Hi Ht. unfold pid_bool. rewrite N.shiftr_div_pow2.
  destruct b; cbn [flag]; cpow; lia.
Qed.
Lemma stype_bound v : stype v < 32.
Proof. destruct v; reflexivity. Qed.

(** A property id read from the file describes property [p]. *)
Definition pid_for (p : N * sval) (id : N) : Prop :=
  pid_id id = fst p /\ pid_type id = stype (snd p) /\
  match snd p with SBool b => pid_bool id = b | _ => True end.

Lemma reads_propid p e t : l_propid p e -> exists id, pid_for p id /\ pid_parse (e ++ t) = Ok (id, t).
Proof.
  intros (b & Hb & Hi & Hu). eexists; split; [|exact (reads_uint 4 _ e t Hu)].
  pose proof (stype_bound (snd p)) as Ht. split; [|split].
  - apply pid_id_enc; auto.
  - apply pid_type_enc; auto.
  - destruct (snd p); auto. subst. apply pid_bool_enc; auto.
Qed.

Lemma reads_propids s e t : many l_propid s e ->
  exists ids, Forall2 pid_for s ids /\ rep (N.of_nat (length s)) pid_parse (e ++ t) = Ok (ids, t).
Proof.
  revert e; induction s as [|p s IH]; intros e.
  - intros ->. exists []. split; [constructor|]. apply rep_0.
  - intros (a & b & -> & Ha & Hb). rewrite <- app_assoc.
    destruct (reads_propid p a (b ++ t) Ha) as (id & Hid & E).
    destruct (IH b Hb) as (ids & Hids & Er).
    exists (id :: ids). split; [constructor; auto|]. cbn [length].
    replace (N.of_nat (S (length s))) with (N.of_nat (length s) + 1) by lia.
    erewrite rep_S; [|apply good_pid|exact E]. rewrite Er. reflexivity.
Qed.

(** ** Values *)
Definition reads_val (v : sval) : Prop := forall f id e t,
  pid_type id = stype v -> match v with SBool b => pid_bool id = b | _ => True end ->
  l_val v e -> (length (e ++ t) < f)%nat ->
  pvalue_parse (propset_fuel f) f id (e ++ t) = Ok (denote v, t).

Lemma reads_vals s ids f e t k m :
  Forall (fun p => reads_val (snd p)) s -> Forall2 pid_for s ids ->
  many (fun p => l_val (snd p)) s e -> (length (e ++ t) < f)%nat ->
  pvalues_parse (pvalue_parse (propset_fuel f) f) k ids m (e ++ t) =
    Ok (aextend N.eqb m (number k (map (fun p => (fst p, denote (snd p))) s)), t).
Proof.
  intros HF H2. revert HF e k m; induction H2 as [|p id s ids Hp H2 IH]; intros HF e k m.
  - intros -> _. reflexivity.
  - intros (a & b & -> & Ha & Hb) L. inversion HF as [|? ? Hv HF' E1]; subst.
    cbn [pvalues_parse map number]. unfold aextend. cbn [fold_left fst snd].
    destruct Hp as (Hi & Ht & Hbool). unfold pbind. rewrite <- app_assoc in *.
    rewrite (Hv f id a (b ++ t)) by auto.
    rewrite Hi. apply IH; auto. rewrite !app_length in *. lia.
Qed.

Lemma reads_props s f e t :
  Forall (fun p => reads_val (snd p)) s -> l_props l_val s e -> (length (e ++ t) < f)%nat ->
  propset_fuel f (e ++ t) = Ok (denote_set s, t).
Proof.
  intros HF (a & b & -> & Ha & c & d & -> & Hc & Hd) L.
  destruct f as [|f]; [lia|]. cbn [propset_fuel]. unfold pbind.
  rewrite <- !app_assoc.
  rewrite (reads_uint 2 _ a (c ++ d ++ t) Ha : get_u16 _ = _).
  destruct (reads_propids s c (d ++ t) Hc) as (ids & Hids & ->).
  unfold denote_set. apply reads_vals; auto.
  destruct Ha as [_ ->]. rewrite !app_length, le_bytes_length in L. rewrite app_length. lia.
Qed.

Lemma reads_sets ss f e t :
  Forall (Forall (fun p => reads_val (snd p))) ss -> many (l_props l_val) ss e ->
  (length (e ++ t) < f)%nat -> forall f', (length (e ++ t) < f')%nat ->
  rep_fuel (propset_fuel f) f' (N.of_nat (length ss)) (e ++ t) = Ok (map denote_set ss, t).
Proof.
  revert e; induction ss as [|s ss IH]; intros e HF.
  - intros He L f' L'. change (e = []) in He. subst e. destruct f'; reflexivity.
  - intros (a & b & -> & Ha & Hb) L f' L'. inversion HF as [|? ? Hs HF']; subst.
    destruct f' as [|f']; [lia|]. cbn [rep_fuel length map].
    replace (N.of_nat (S (length ss)) =? 0) with false by lia.
    unfold pbind. rewrite <- app_assoc in *. rewrite (reads_props s f a (b ++ t)) by auto.
    assert (2 <= length a)%nat.
    { destruct Ha as (x & y & -> & [_ ->] & _). rewrite app_length, le_bytes_length. lia. }
    replace (N.of_nat (S (length ss)) - 1) with (N.of_nat (length ss)) by lia.
    rewrite !app_length in *.
    rewrite (IH b HF' Hb) by (rewrite !app_length; lia). reflexivity.
Qed.

Lemma reads_all v : reads_val v.
Proof.
  induction v as [v Hv|id ss IH|s IH] using sval_rect'; intros f i e t Ht Hb He L;
    unfold pvalue_parse; rewrite Ht.
  - destruct v; try contradiction; cbn [stype denote l_val] in *.
    all: try (rewrite He; cbn [app]; unfold pret; congruence).
    all: try (unfold pbind;
      first [ rewrite (reads_uint 1 _ e t He : get_u8 _ = _)
            | rewrite (reads_uint 2 _ e t He : get_u16 _ = _)
            | rewrite (reads_uint 4 _ e t He : get_u32 _ = _)
            | rewrite (reads_uint 8 _ e t He : get_u64 _ = _) ]; reflexivity).
    destruct He as (a & b & -> & Ha & Hl). rewrite Hl. unfold pvec_parse, pbind.
    rewrite <- app_assoc, (reads_uint 4 _ a _ Ha : get_u32 _ = _), read_app. reflexivity.
  - cbn [stype]. destruct He as (a & b & -> & Ha & c & d & -> & Hc & Hd).
    unfold pbind. rewrite <- !app_assoc.
    rewrite (reads_uint 4 _ a _ Ha : get_u32 _ = _).
    rewrite (reads_uint 4 _ c _ Hc : pid_parse _ = _).
    rewrite !app_length in L.
    rewrite (reads_sets ss f d t) by (auto; rewrite app_length; lia). reflexivity.
  - cbn [stype]. unfold pbind. rewrite (reads_props s f e t) by auto. reflexivity.
Qed.

Lemma reads_set s : reads propset_parse (l_set s) (denote_set s).
Proof.
  intros e t He. unfold propset_parse. apply reads_props; auto.
  apply Forall_forall. intros p _. apply reads_all.
Qed.

(** ** The map means what the list means *)
Lemma last_at_map {A B} (g : A -> B) k id s :
  last_at k id (map (fun p => (fst p, g (snd p))) s)
  = option_map (fun x => (fst x, g (snd x))) (last_at k id s).
Proof.
  revert k; induction s as [|[i v] s IH]; intro k; cbn; auto.
  rewrite IH. destruct (last_at (k + 1) id s); cbn; auto. destruct (i =? id); reflexivity.
Qed.

Lemma alookup_number {A} (l : list (N * A)) k id m :
  alookup N.eqb id (aextend N.eqb m (number k l))
  = match last_at k id l with Some x => Some x | None => alookup N.eqb id m end.
Proof.
  revert k m; induction l as [|[i v] l IH]; intros k m; [reflexivity|].
  cbn [number last_at]. unfold aextend. cbn [fold_left fst snd].
  change (fold_left _ (number (k + 1) l) ?m0) with (aextend N.eqb m0 (number (k + 1) l)).
  rewrite IH. destruct (last_at (k + 1) id l); auto.
  rewrite (alookup_insert N.eqb N.eqb_eq). destruct (i =? id); auto.
Qed.

Lemma nodup_snoc {A} (l : list A) x : NoDup l -> ~ In x l -> NoDup (l ++ [x]).
Proof.
  induction 1 as [|a l Ha H IH]; intro Hx; cbn; [repeat constructor; auto|].
  constructor.
  - intro Hin. apply in_app_or in Hin as [Hin|[->|[]]]; [auto|]. apply Hx. now left.
  - apply IH. intro. apply Hx. now right.
Qed.

Lemma nodup_filter_fst {K V} (q : K * V -> bool) m :
  NoDup (map fst m) -> NoDup (map fst (filter q m)).
Proof.
  induction m as [|[a b] m IH]; intro H; cbn in *; auto. inversion H; subst.
  destruct (q (a, b)); auto. cbn. constructor; auto.
  intro Hin. apply in_map_iff in Hin as ([u w] & <- & Hx). apply filter_In in Hx as [Hx _].
  apply H2. apply in_map_iff. exists (u, w); auto.
Qed.

Lemma ainsert_nodup {V} k (v : V) (m : amap N V) :
  NoDup (map fst m) -> NoDup (map fst (ainsert N.eqb k v m)).
Proof.
  intro H. unfold ainsert. rewrite map_app. cbn [map fst].
  apply nodup_snoc; [now apply nodup_filter_fst|].
  intro Hin. apply in_map_iff in Hin as ([u w] & <- & Hx). apply filter_In in Hx as [_ Hx].
  cbn in Hx. lia.
Qed.

Lemma aextend_nodup {V} (l : list (N * V)) (m : amap N V) :
  NoDup (map fst m) -> NoDup (map fst (aextend N.eqb m l)).
Proof.
  revert m; induction l as [|[k v] l IH]; intros m H; [exact H|].
  unfold aextend; cbn [fold_left]. apply IH. now apply ainsert_nodup.
Qed.

Lemma denote_set_means_if s :
  Forall (fun p => val_means (snd p) (denote (snd p))) s -> set_means s (denote_set s).
Proof.
  intro H. assert (L : forall id, alookup N.eqb id (denote_set s)
    = option_map (fun x => (fst x, denote (snd x))) (last_at 0 id s)).
  { intro id. unfold denote_set. rewrite alookup_number, last_at_map.
    destruct (last_at 0 id s); reflexivity. }
  assert (I : forall k id j v, last_at k id s = Some (j, v) -> val_means v (denote v)).
  { clear L. induction H as [|[i w] s Hv H IH]; intros k id j v; cbn; [discriminate|].
    destruct (last_at (k + 1) id s) eqn:E; [intro X; injection X as ->; eauto|].
    destruct (i =? id); [|discriminate]. intro X; injection X as <- <-. exact Hv. }
  constructor.
  - apply aextend_nodup. constructor.
  - intros id E. rewrite L, E. reflexivity.
  - intros id k v E. exists (denote v). rewrite L, E. split; [reflexivity|]. eapply I; eauto.
Qed.

Lemma denote_means v : val_means v (denote v).
Proof.
  induction v as [v Hv|id ss IH|s IH] using sval_rect'.
  - destruct v; try contradiction; constructor.
  - cbn [denote]. constructor. change (sets_mean ss (map denote_set ss)).
    induction IH as [|s ss Hs _ IH]; constructor; auto. now apply denote_set_means_if.
  - cbn [denote]. constructor. now apply denote_set_means_if.
Qed.

Lemma denote_set_means s : set_means s (denote_set s).
Proof. apply denote_set_means_if. apply Forall_forall. intros. apply denote_means. Qed.

(** ** Objects *)
Lemma reads_compactid c : reads compactid_parse (l_compactid c) c.
Proof.
  destruct c as [n i]. intros e t (Hn & Hi & Hu). cbn [ci_n ci_index] in *.
  unfold compactid_parse, pbind. rewrite (reads_uint 4 _ e t Hu : get_u32 _ = _).
  unfold pret. do 3 f_equal.
  - change 0xFF with (N.ones 8). rewrite N.land_ones. cpow. lia.
  - rewrite N.shiftr_div_pow2. cpow. lia.
Qed.

Lemma reads_stream c x a : reads stream_header_parse (l_stream c x a) (StreamHeader c x a).
Proof.
  intros e t (Hc & r & Hr & Hu). unfold stream_header_parse, pbind.
  rewrite (reads_uint 4 _ e t Hu : get_u32 _ = _). unfold pret. do 3 f_equal.
  - change 0xFFFFFF with (N.ones 24). rewrite N.land_ones.
    pose proof (flag_bound x); pose proof (flag_bound a). cpow. lia.
  - change (N.land ?v 1) with (N.land v (N.ones 1)). rewrite N.land_ones, N.shiftr_div_pow2.
    pose proof (flag_bound a). destruct x; cbn [flag]; cpow; lia.
  - rewrite N.shiftr_div_pow2. pose proof (flag_bound x). destruct a; cbn [flag]; cpow; lia.
Qed.

Lemma reads_oset o e t : l_oset o e ->
  exists p, oprops_parse (e ++ t) = Ok (p, t) /\ oset_means o p.
Proof.
  intros (b1 & b2 & b3 & b4 & H). destruct o as [oids sp props]. cbn [os_spaces os_objects os_props] in *.
  assert (R : forall l, reads (rep (N.of_nat (length l)) compactid_parse) (many l_compactid l) l).
  { intro. apply reads_rep; auto using reads_compactid with gdb. }
  unfold oprops_parse. destruct sp as [[sp [ctx|]]|].
  - exists (OProps oids sp ctx (denote_set props)). split; [|exact (conj eq_refl (conj eq_refl (conj eq_refl (denote_set_means props))))].
    destruct H as (x1 & y1 & -> & (s1 & i1 & -> & S1 & I1) & x2 & y2 & -> & (s2 & i2 & -> & S2 & I2)
                   & x3 & y3 & -> & (s3 & i3 & -> & S3 & I3) & P).
    rewrite <- !app_assoc. unfold pbind, pret.
    rewrite (reads_stream _ _ _ _ _ S1); cbn [sh_count sh_osid_absent].
    rewrite (R _ _ _ I1), (reads_stream _ _ _ _ _ S2); cbn [sh_count sh_extended].
    rewrite (R _ _ _ I2), (reads_stream _ _ _ _ _ S3); cbn [sh_count].
    rewrite (R _ _ _ I3), (reads_set _ _ _ P). reflexivity.
  - exists (OProps oids sp [] (denote_set props)). split; [|exact (conj eq_refl (conj eq_refl (conj eq_refl (denote_set_means props))))].
    destruct H as (x1 & y1 & -> & (s1 & i1 & -> & S1 & I1) & x2 & y2 & -> & (s2 & i2 & -> & S2 & I2)
                   & P).
    rewrite <- !app_assoc. unfold pbind, pret.
    rewrite (reads_stream _ _ _ _ _ S1); cbn [sh_count sh_osid_absent].
    rewrite (R _ _ _ I1), (reads_stream _ _ _ _ _ S2); cbn [sh_count sh_extended].
    rewrite (R _ _ _ I2), (reads_set _ _ _ P). reflexivity.
  - exists (OProps oids [] [] (denote_set props)). split; [|exact (conj eq_refl (conj eq_refl (conj eq_refl (denote_set_means props))))].
    destruct H as (x1 & y1 & -> & (s1 & i1 & -> & S1 & I1) & P).
    rewrite <- !app_assoc. unfold pbind, pret.
    rewrite (reads_stream _ _ _ _ _ S1); cbn [sh_count sh_osid_absent].
    rewrite (R _ _ _ I1), (reads_set _ _ _ P). reflexivity.
Qed.

(** ** Everything accepted is an encoding *)
Lemma bytes_ok_app a b : bytes_ok (a ++ b) -> bytes_ok a /\ bytes_ok b.
Proof. apply Forall_app. Qed.

(** Whatever [p] returns is described by the bytes it consumed. *)
Definition explains {A} (p : parser A) (M : A -> lang) : Prop :=
  forall bs x rest, bytes_ok bs -> p bs = Ok (x, rest) -> exists e, bs = e ++ rest /\ M x e.

Lemma explains_bind {A B} (p : parser A) (g : A -> parser B) M K :
  explains p M -> (forall a, explains (g a) (K a)) ->
  explains (pbind p g) (fun b e => exists a, (M a +++ K a b) e).
Proof.
  intros Hp Hg bs x rest Bk H. unfold pbind in H.
  destruct (p bs) as [[a r]|e| |] eqn:E; try discriminate.
  destruct (Hp bs a r Bk E) as (e1 & -> & H1). apply bytes_ok_app in Bk as [_ Bk].
  destruct (Hg a r x rest Bk H) as (e2 & -> & H2).
  exists (e1 ++ e2). split; [apply app_assoc|]. exists a, e1, e2. auto.
Qed.

Lemma explains_weaken {A} (p : parser A) (M M' : A -> lang) :
  explains p M -> (forall x e, M x e -> M' x e) -> explains p M'.
Proof. intros H W bs x rest B E. destruct (H bs x rest B E) as (e & ? & ?); eauto. Qed.

Lemma explains_pret {A} (a : A) : explains (pret a) (fun x e => x = a /\ e = []).
Proof. intros bs x rest _ E. injection E as <- <-. exists []. auto. Qed.

Lemma explains_uint w : explains (get_le (N.of_nat w)) (fun v => l_uint w v).
Proof.
  intros bs x rest B E. destruct (get_le_inv w bs x rest B E) as (-> & H).
  exists (le_bytes w x). split; auto. split; auto. rewrite <- pow256_pow2. exact H.
Qed.

Lemma explains_read n : explains (read n) (fun x e => x = e /\ n = N.of_nat (length x)).
Proof.
  intros bs x rest _ E. unfold read in E. destruct (remaining bs <? n) eqn:L; [discriminate|].
  injection E as <- <-. exists (firstn (N.to_nat n) bs). split; [symmetry; apply firstn_skipn|].
  split; auto. unfold remaining in L. rewrite firstn_length. lia.
Qed.

Lemma explains_rep_fuel {A} (p : parser A) (M : A -> lang) f n :
  explains p M -> explains (rep_fuel p f n) (fun l e => N.of_nat (length l) = n /\ many M l e).
Proof.
  intro H. revert n; induction f as [|f IH]; intros n bs l rest B E; cbn [rep_fuel] in E;
    destruct (n =? 0) eqn:N0; try discriminate.
  1,2: injection E as <- <-; exists []; repeat split; cbn; lia.
  unfold pbind in E. destruct (p bs) as [[a r]|e| |] eqn:Ep; try discriminate.
  destruct (H bs a r B Ep) as (e1 & -> & H1). apply bytes_ok_app in B as [_ B].
  destruct (rep_fuel p f (n - 1) r) as [[l' r']|e| |] eqn:Er; try discriminate.
  injection E as <- <-. destruct (IH _ _ _ _ B Er) as (e2 & -> & L & H2).
  exists (e1 ++ e2). split; [apply app_assoc|]. split; [cbn [length]; lia|].
  exists e1, e2. auto.
Qed.

Lemma explains_rep {A} (p : parser A) (M : A -> lang) n :
  explains p M -> explains (rep n p) (fun l e => N.of_nat (length l) = n /\ many M l e).
Proof. intros H bs l rest. apply explains_rep_fuel. exact H. Qed.

(** A raw 32-bit property id, and the property it can announce. *)
Lemma pid_split id : id < 2 ^ 32 ->
  id = pid_id id + pid_type id * 2 ^ 26 + flag (pid_bool id) * 2 ^ 31 /\ pid_id id < 2 ^ 26.
Proof.
  intro H. unfold pid_id, pid_type, pid_bool.
  change 0x3ffffff with (N.ones 26). change (N.land ?v 0x1f) with (N.land v (N.ones 5)).
  rewrite !N.land_ones, !N.shiftr_div_pow2.
  change (2 ^ 31) with (2 ^ 26 * 2 ^ 5) at 1. rewrite <- N.div_div by discriminate.
  split; [|apply N.mod_lt; discriminate].
  assert (Hq : id / 2 ^ 26 < 64) by (apply N.div_lt_upper_bound; [discriminate|exact H]).
  pose proof (N.div_mod id (2 ^ 26) ltac:(discriminate)) as D.
  revert Hq D. generalize (id / 2 ^ 26) as q, (id mod 2 ^ 26) as r. intros q r Hq D.
  destruct (q / 2 ^ 5 =? 1) eqn:E; cbn [flag]; cpow; lia.
Qed.

Definition val_ok (id : N) (pv : pvalue) : lang := fun e =>
  exists v, stype v = pid_type id /\ match v with SBool b => b = pid_bool id | _ => True end /\
    l_val v e /\ denote v = pv.
Definition set_ok (m : propset) : lang := fun e => exists s, l_set s e /\ denote_set s = m.

Lemma many_exists {A B} (g : A -> B) (E : A -> lang) l e :
  many (fun y e => exists x, E x e /\ g x = y) l e -> exists xs, map g xs = l /\ many E xs e.
Proof.
  revert e; induction l as [|y l IH]; intros e.
  - intro H. exists []. auto.
  - intros (a & b & -> & (x & Hx & <-) & Hb). destruct (IH b Hb) as (xs & <- & Hxs).
    exists (x :: xs). split; auto. exists a, b. auto.
Qed.

Lemma pret_inv {A} (a x : A) bs rest : pret a bs = Ok (x, rest) -> x = a /\ rest = bs.
Proof. unfold pret. intro H. split; congruence. Qed.

Ltac stepE E := unfold pbind in E;
  match type of E with
  | match ?q with _ => _ end = _ => destruct q as [[? ?]|?| |] eqn:?Eq; try discriminate E
  end.

Lemma explains_pvalue ps f id :
  explains ps set_ok -> explains (pvalue_parse ps f id) (val_ok id).
Proof.
  intro H.
  assert (C : pid_type id = 1 \/ pid_type id = 2 \/ pid_type id = 3 \/ pid_type id = 4 \/
    pid_type id = 5 \/ pid_type id = 6 \/ pid_type id = 7 \/ pid_type id = 8 \/ pid_type id = 9 \/
    pid_type id = 10 \/ pid_type id = 11 \/ pid_type id = 12 \/ pid_type id = 13 \/
    pid_type id = 16 \/ pid_type id = 17 \/ pvalue_parse ps f id = pfail MalformedOneStoreData).
  { unfold pvalue_parse. generalize (pid_type id) as n. intros [|p].
    - do 15 right. reflexivity.
    - do 5 (try destruct p as [p|p|]); first [do 15 right; reflexivity|lia]. }
  destruct C as [T|[T|[T|[T|[T|[T|[T|[T|[T|[T|[T|[T|[T|[T|[T|T]]]]]]]]]]]]]]];
    [..|rewrite T; intros bs x rest _ E; discriminate];
    unfold pvalue_parse; rewrite T.
  - eapply explains_weaken; [apply explains_pret|]. intros x e [-> ->]. exact (ex_intro _ SEmpty (conj (eq_sym T) (conj I (conj eq_refl eq_refl)))).
  - eapply explains_weaken; [apply explains_pret|]. intros x e [-> ->].
    exact (ex_intro _ (SBool (pid_bool id)) (conj (eq_sym T) (conj eq_refl (conj eq_refl eq_refl)))).
  - intros bs x rest B E. stepE E. injection E as <- <-.
    destruct (explains_uint 1 _ _ _ B Eq) as (e & -> & U). exists e. split; auto.
    exact (ex_intro _ (SU8 n) (conj (eq_sym T) (conj I (conj U eq_refl)))).
  - intros bs x rest B E. stepE E. injection E as <- <-.
    destruct (explains_uint 2 _ _ _ B Eq) as (e & -> & U). exists e. split; auto.
    exact (ex_intro _ (SU16 n) (conj (eq_sym T) (conj I (conj U eq_refl)))).
  - intros bs x rest B E. stepE E. injection E as <- <-.
    destruct (explains_uint 4 _ _ _ B Eq) as (e & -> & U). exists e. split; auto.
    exact (ex_intro _ (SU32 n) (conj (eq_sym T) (conj I (conj U eq_refl)))).
  - intros bs x rest B E. stepE E. injection E as <- <-.
    destruct (explains_uint 8 _ _ _ B Eq) as (e & -> & U). exists e. split; auto.
    exact (ex_intro _ (SU64 n) (conj (eq_sym T) (conj I (conj U eq_refl)))).
  - intros bs x rest B E. unfold pvec_parse in E. stepE E. stepE E. injection E as <- <-.
    destruct (explains_uint 4 _ _ _ B Eq) as (e & -> & U). apply bytes_ok_app in B as [_ B].
    destruct (explains_read _ _ _ _ B Eq0) as (e2 & -> & -> & ->).
    exists (e ++ e2). split; [apply app_assoc|]. exists (SVec e2).
    split; [exact (eq_sym T)|split; [exact I|split; [|reflexivity]]].
    exists e, e2. exact (conj eq_refl (conj U eq_refl)).
  - eapply explains_weaken; [apply explains_pret|]. intros x e [-> ->]. exact (ex_intro _ SObjectId (conj (eq_sym T) (conj I (conj eq_refl eq_refl)))).
  - intros bs x rest B E. stepE E. injection E as <- <-.
    destruct (explains_uint 4 _ _ _ B Eq) as (e & -> & U). exists e. split; auto.
    exact (ex_intro _ (SObjectIds n) (conj (eq_sym T) (conj I (conj U eq_refl)))).
  - eapply explains_weaken; [apply explains_pret|]. intros x e [-> ->]. exact (ex_intro _ SSpaceId (conj (eq_sym T) (conj I (conj eq_refl eq_refl)))).
  - intros bs x rest B E. stepE E. injection E as <- <-.
    destruct (explains_uint 4 _ _ _ B Eq) as (e & -> & U). exists e. split; auto.
    exact (ex_intro _ (SSpaceIds n) (conj (eq_sym T) (conj I (conj U eq_refl)))).
  - eapply explains_weaken; [apply explains_pret|]. intros x e [-> ->]. exact (ex_intro _ SContextId (conj (eq_sym T) (conj I (conj eq_refl eq_refl)))).
  - intros bs x rest B E. stepE E. injection E as <- <-.
    destruct (explains_uint 4 _ _ _ B Eq) as (e & -> & U). exists e. split; auto.
    exact (ex_intro _ (SContextIds n) (conj (eq_sym T) (conj I (conj U eq_refl)))).
  - intros bs x rest B E. stepE E. stepE E. stepE E. injection E as <- <-.
    destruct (explains_uint 4 _ _ _ B Eq) as (e & -> & U). apply bytes_ok_app in B as [_ B].
    destruct (explains_uint 4 _ _ _ B Eq0) as (e2 & -> & U2). apply bytes_ok_app in B as [_ B].
    destruct (explains_rep_fuel _ _ _ _ H _ _ _ B Eq1) as (e3 & -> & L & Hm).
    destruct (many_exists _ _ _ _ Hm) as (ss & <- & Hss).
    exists (e ++ e2 ++ e3). split; [now rewrite <- !app_assoc|].
    exists (SValues n0 ss). split; [now rewrite T|split; [auto|split; [|reflexivity]]].
    rewrite map_length in L. rewrite <- L in U.
    exists e, (e2 ++ e3). split; auto. split; auto. exists e2, e3. auto.
  - intros bs x rest B E. stepE E. injection E as <- <-.
    destruct (H _ _ _ B Eq) as (e & -> & s & Hs & <-). exists e. split; auto.
    exact (ex_intro _ (SSet s) (conj (eq_sym T) (conj I (conj Hs eq_refl)))).
Qed.

Lemma explains_pvalues pv k ids m :
  (forall id, explains (pv id) (val_ok id)) -> Forall (fun id => id < 2 ^ 32) ids ->
  explains (pvalues_parse pv k ids m) (fun m' e =>
    exists s, (forall e', many (l_uint 4) ids e' -> many l_propid s e') /\ length s = length ids /\
      many (fun p => l_val (snd p)) s e /\
      m' = aextend N.eqb m (number k (map (fun p => (fst p, denote (snd p))) s))).
Proof.
  intros H F. revert k m; induction F as [|id ids Hid F IH]; intros k m.
  - eapply explains_weaken; [apply explains_pret|]. intros x e [-> ->]. exists [].
    repeat split; auto.
  - intros bs m' rest B E. cbn [pvalues_parse] in E. stepE E.
    destruct (H id _ _ _ B Eq) as (e1 & -> & v & Tv & Bv & Lv & Dv).
    apply bytes_ok_app in B as [_ B].
    destruct (IH _ _ _ _ _ B E) as (e2 & -> & s & S1 & S2 & S3 & S4).
    exists (e1 ++ e2). split; [apply app_assoc|].
    exists ((pid_id id, v) :: s). split; [|split; [cbn; now rewrite S2|split]].
    + intros e' (a & b & -> & Ha & Hb). exists a, b. split; auto. split; [|auto].
      destruct (pid_split id Hid) as [Eid Hlt].
      exists (pid_bool id). cbn [fst snd]. split; [destruct v; auto|]. split; auto.
      rewrite Tv, <- Eid. exact Ha.
    + exists e1, e2. auto.
    + cbn [map number fst snd]. rewrite Dv. exact S4.
Qed.

Lemma many_uint_bound w ids e : many (l_uint w) ids e -> Forall (fun id => id < 2 ^ (8 * N.of_nat w)) ids.
Proof.
  revert e; induction ids as [|i ids IH]; intro e; [constructor|].
  intros (a & b & -> & [Ha _] & Hb). constructor; eauto.
Qed.

Lemma explains_propset_fuel f : explains (propset_fuel f) set_ok.
Proof.
  induction f as [|f IH]; intros bs m rest B E; [discriminate|]. cbn [propset_fuel] in E.
  stepE E. stepE E.
  destruct (explains_uint 2 _ _ _ B Eq) as (e & -> & U). apply bytes_ok_app in B as [_ B].
  destruct (explains_rep _ _ _ (explains_uint 4 : explains pid_parse _) _ _ _ B Eq0)
    as (e2 & -> & L & M). apply bytes_ok_app in B as [_ B].
  destruct (explains_pvalues _ 0 _ [] (fun id => explains_pvalue _ f id IH) (many_uint_bound 4 _ _ M)
              _ _ _ B E) as (e3 & -> & s & S1 & S2 & S3 & ->).
  exists (e ++ e2 ++ e3). split; [now rewrite <- !app_assoc|]. exists s. split; [|reflexivity].
  rewrite <- L, <- S2 in U. exists e, (e2 ++ e3). split; auto. split; auto.
  exists e2, e3. auto.
Qed.

Lemma explains_propset : explains propset_parse set_ok.
Proof. intros bs. apply explains_propset_fuel. Qed.

Lemma explains_compactid : explains compactid_parse l_compactid.
Proof.
  intros bs x rest B E. unfold compactid_parse in E. stepE E. apply pret_inv in E as [-> ->].
  destruct (explains_uint 4 _ _ _ B Eq) as (e & -> & U). exists e. split; auto.
  unfold l_compactid. cbn [ci_n ci_index]. change 0xFF with (N.ones 8).
  rewrite N.land_ones, N.shiftr_div_pow2. pose proof (proj1 U) as Hn.
  replace (n mod 2 ^ 8 + n / 2 ^ 8 * 2 ^ 8) with n by (cpow; lia).
  split; [|split; [|exact U]]; change (8 * N.of_nat 4) with 32 in Hn; cpow; lia.
Qed.

Lemma explains_stream : explains stream_header_parse
  (fun h => l_stream (sh_count h) (sh_extended h) (sh_osid_absent h)).
Proof.
  intros bs x rest B E. unfold stream_header_parse in E. stepE E. apply pret_inv in E as [-> ->].
  destruct (explains_uint 4 _ _ _ B Eq) as (e & -> & U). exists e. split; [reflexivity|].
  cbn [sh_count sh_extended sh_osid_absent]. unfold l_stream.
  change 0xFFFFFF with (N.ones 24). change (N.land ?v 1) with (N.land v (N.ones 1)).
  rewrite !N.land_ones, !N.shiftr_div_pow2. pose proof (proj1 U) as Hn.
  change (8 * N.of_nat 4) with 32 in Hn. split; [apply N.mod_lt; discriminate|].
  exists (n / 2 ^ 24 mod 2 ^ 6). split; [apply N.mod_lt; discriminate|].
  replace (_ + _ + _ + _) with n; [exact U|]. clear U Eq.
  replace (n / 2 ^ 30) with (n / 2 ^ 24 / 2 ^ 6) by (rewrite N.div_div by discriminate; reflexivity).
  replace (n / 2 ^ 31) with (n / 2 ^ 24 / 2 ^ 7) by (rewrite N.div_div by discriminate; reflexivity).
  assert (Hq : n / 2 ^ 24 < 256) by (apply N.div_lt_upper_bound; [discriminate|exact Hn]).
  pose proof (N.div_mod n (2 ^ 24) ltac:(discriminate)) as D.
  revert Hq D. generalize (n / 2 ^ 24) as q, (n mod 2 ^ 24) as r. intros q r Hq D.
  destruct (q / 2 ^ 6 mod 2 ^ 1 =? 0) eqn:E1; destruct (q / 2 ^ 7 =? 0) eqn:E2;
    cbn [flag negb]; cpow; lia.
Qed.

Lemma explains_oprops bs p rest : bytes_ok bs -> oprops_parse bs = Ok (p, rest) ->
  exists o e, bs = e ++ rest /\ l_oset o e /\ oset_means o p.
Proof.
  intros B E. unfold oprops_parse in E. stepE E. stepE E.
  destruct (explains_stream _ _ _ B Eq) as (h1 & -> & H1). apply bytes_ok_app in B as [_ B].
  destruct (explains_rep _ _ _ explains_compactid _ _ _ B Eq0) as (i1 & -> & L1 & I1).
  apply bytes_ok_app in B as [_ B]. rewrite <- L1 in H1. clear Eq Eq0 L1.
  stepE E. destruct (sh_osid_absent s) eqn:A1.
  - injection Eq as <- <-. stepE E. injection E as <- <-.
    destruct (explains_propset _ _ _ B Eq) as (e & -> & ps & Hs & <-).
    exists (OSet l0 None ps), ((h1 ++ i1) ++ e). split; [now rewrite <- !app_assoc|].
    split; [|exact (conj eq_refl (conj eq_refl (conj eq_refl (denote_set_means ps))))].
    exists (sh_extended s), false, false, false. cbn [os_spaces os_objects os_props].
    exists (h1 ++ i1), e. split; auto. split; auto. exists h1, i1. auto.
  - stepE Eq. stepE Eq.
    destruct (explains_stream _ _ _ B Eq0) as (h2 & -> & H2). apply bytes_ok_app in B as [_ B].
    destruct (explains_rep _ _ _ explains_compactid _ _ _ B Eq1) as (i2 & -> & L2 & I2).
    apply bytes_ok_app in B as [_ B]. rewrite <- L2 in H2. clear Eq0 Eq1 L2.
    stepE Eq. injection Eq as <- <-. destruct (sh_extended s0) eqn:A2.
    + stepE Eq0. destruct (explains_stream _ _ _ B Eq) as (h3 & -> & H3).
      apply bytes_ok_app in B as [_ B].
      destruct (explains_rep _ _ _ explains_compactid _ _ _ B Eq0) as (i3 & -> & L3 & I3).
      apply bytes_ok_app in B as [_ B]. rewrite <- L3 in H3. stepE E. injection E as <- <-.
      destruct (explains_propset _ _ _ B Eq1) as (e & -> & ps & Hs & <-).
      exists (OSet l0 (Some (l3, Some l1)) ps), ((h1 ++ i1) ++ (h2 ++ i2) ++ (h3 ++ i3) ++ e).
      split; [now rewrite <- !app_assoc|].
      split; [|exact (conj eq_refl (conj eq_refl (conj eq_refl (denote_set_means ps))))].
      exists (sh_extended s), (sh_osid_absent s0), (sh_extended s1), (sh_osid_absent s1).
      cbn [os_spaces os_objects os_props].
      eexists _, _. split; [reflexivity|]. split; [exists h1, i1; auto|].
      eexists _, _. split; [reflexivity|]. split; [exists h2, i2; auto|].
      eexists _, _. split; [reflexivity|]. split; [exists h3, i3; auto|]. exact Hs.
    + injection Eq0 as <- <-. stepE E. injection E as <- <-.
      destruct (explains_propset _ _ _ B Eq) as (e & -> & ps & Hs & <-).
      exists (OSet l0 (Some (l3, None)) ps), ((h1 ++ i1) ++ (h2 ++ i2) ++ e).
      split; [now rewrite <- !app_assoc|].
      split; [|exact (conj eq_refl (conj eq_refl (conj eq_refl (denote_set_means ps))))].
      exists (sh_extended s), (sh_osid_absent s0), false, false.
      cbn [os_spaces os_objects os_props].
      eexists _, _. split; [reflexivity|]. split; [exists h1, i1; auto|].
      eexists _, _. split; [reflexivity|]. split; [exists h2, i2; auto|]. exact Hs.
Qed.

(** ** Nesting is not limited *)
Fixpoint tower (n : nat) : list (N * sval) :=
  match n with O => [] | S n => [(1, SSet (tower n))] end.
Fixpoint tower_bytes (n : nat) : list N :=
  match n with O => [0; 0] | S n => [1; 0; 1; 0; 0; 0x44] ++ tower_bytes n end.

Lemma tower_enc n : l_set (tower n) (tower_bytes n).
Proof.
  induction n as [|n IH]; cbn [tower tower_bytes].
  - exists [0; 0], []. split; [reflexivity|]. split; [split; reflexivity|].
    exists [], []. repeat split.
  - exists [1; 0], ([1; 0; 0; 0x44] ++ tower_bytes n). split; [reflexivity|].
    split; [split; reflexivity|]. exists [1; 0; 0; 0x44], (tower_bytes n). split; [reflexivity|].
    split.
    + exists [1; 0; 0; 0x44], []. split; [reflexivity|]. split; [|reflexivity].
      exists false. split; [exact I|]. split; [reflexivity|]. split; reflexivity.
    + exists (tower_bytes n), []. split; [now rewrite app_nil_r|]. split; [exact IH|reflexivity].
Qed.

Lemma tower_nested n : nested n (denote_set (tower n)).
Proof.
  induction n as [|n IH]; [constructor|].
  apply (ne_step n _ (denote_set (tower n)) 1 0); [left; reflexivity|exact IH].
Qed.

Lemma tower_length n : length (tower_bytes n) = (6 * n + 2)%nat.
Proof. induction n; cbn [tower_bytes app length] in *; lia. Qed.

Lemma nesting_unbounded n : exists bs m,
  length bs = (6 * n + 2)%nat /\ propset_parse bs = Ok (m, []) /\ nested n m.
Proof.
  exists (tower_bytes n), (denote_set (tower n)).
  split; [apply tower_length|]. split; [|apply tower_nested].
  pose proof (reads_set (tower n) _ [] (tower_enc n)) as H. now rewrite app_nil_r in H.
Qed.

Lemma nested_bounded_fuel f bs m rest n :
  propset_fuel f bs = Ok (m, rest) -> nested n m -> (6 * n + 2 <= length bs)%nat.
Proof.
  intros E Hn. revert f bs rest E; induction Hn as [s|n s t id k Hin Hn IH]; intros f bs rest E.
  - pose proof (exact_shrinks _ _ _ _ _ (exact_propset f) E). lia.
  - destruct f as [|f]; [discriminate|]. cbn [propset_fuel] in E. stepE E.
    pose proof (exact_shrinks _ _ _ _ _ (exact_get_le 2) Eq) as L1. stepE E.
    assert (Q : forall ids k0 m0 bs' rest',
      pvalues_parse (pvalue_parse (propset_fuel f) f) k0 ids m0 bs' = Ok (s, rest') ->
      In (id, (k, VPropertySet t)) s -> In (id, (k, VPropertySet t)) m0 \/
      (ids <> [] /\ 6 * n + 2 <= length bs')%nat).
    { induction ids as [|i ids IHi]; intros k0 m0 bs' rest' E' Hs; cbn [pvalues_parse] in E'.
      - apply pret_inv in E' as [-> ->]. auto.
      - stepE E'.
        pose proof (exact_shrinks 0 _ _ _ _ (exact_pvalue _ f i (exact_weaken _ 0 _ ltac:(lia) (exact_propset f))) Eq1) as L.
        destruct (IHi _ _ _ _ E' Hs) as [Hin'|[_ L']]; [|right; split; [easy|lia]].
        unfold ainsert in Hin'. apply in_app_or in Hin' as [Hin'|[Hin'|[]]].
        + apply filter_In in Hin' as [Hin' _]. auto.
        + injection Hin' as _ _ ->. right. split; [easy|].
          revert Eq1. unfold pvalue_parse. generalize (pid_type i) as ty. intros [|q]; [discriminate|].
          do 5 (try destruct q as [q|q|]); try discriminate; intro X;
            try (unfold pvec_parse in X; repeat stepE X; discriminate).
          stepE X. injection X as ->. eauto. }
    destruct (Q _ _ _ _ _ E Hin) as [[]|[Hids L]].
    assert (4 <= length l - length l1)%nat; [|lia].
    unfold rep in Eq0. cbn [rep_fuel] in Eq0. destruct (n0 =? 0).
    { injection Eq0 as <- <-. congruence. }
    stepE Eq0. pose proof (exact_shrinks _ _ _ _ _ (exact_get_le 4) Eq1) as L4.
    stepE Eq0. injection Eq0 as <- <-.
    pose proof (exact_shrinks 0 _ _ _ _ (rep_fuel_exact _ _ _ (gd_exact _ _ (good_0 _ _ good_pid))) Eq2).
    change (N.to_nat 4) with 4%nat in L4. lia.
Qed.

Lemma nested_bounded bs m rest n :
  propset_parse bs = Ok (m, rest) -> nested n m -> (6 * n + 2 <= length bs)%nat.
Proof. apply nested_bounded_fuel. Qed.
