(** The byte at which the reading of a damaged container stops. *)
From Coq Require Import Lia ZifyBool ZifyNat ZifyN.
From Verif Require Import Base Codec SpecCodec Package SpecPackage PropSet PropIds Store Notebook BaseProofs
  CodecProofs PackageProofs PackageRT PropSetRT PackageFacts AcceptProofs ApiProofs SpecKinds KindsProofs SpecStop.

(** ** Kinds without [MalformedData] *)
Definition KN : list ekind := [UnexpectedEof; MalformedFssHttpBData; MalformedOneStoreData].
Definition never {A} (p : parser A) : Prop := ponly KN p.

Lemma never_err : forall {A} (p : parser A) bs, never p -> p bs <> Err MalformedData.
Proof.
  intros A p bs H E. apply H in E. cbn in E. intuition discriminate.
Qed.

(** ** Stopping at a byte *)
Definition soft {A} (r : res (A * list N)) : Prop :=
  r = Err UnexpectedEof \/ exists a, r = Ok (a, []).

Definition stuck {A} (p : parser A) : Prop := forall bs, p bs = Err MalformedData ->
  exists pre b suf, bs = pre ++ b :: suf /\ ~ starts_exguid b /\ p pre = Err UnexpectedEof /\
    p (pre ++ [b]) = Err MalformedData /\
    soft (p (pre ++ [0])).
Definition hard {A} (p : parser A) : Prop := forall bs, p bs = Err MalformedData ->
  exists pre b suf, bs = pre ++ b :: suf /\ ~ starts_exguid b /\ p pre = Err UnexpectedEof /\
    p (pre ++ [b]) = Err MalformedData /\
    p (pre ++ [0]) = Err UnexpectedEof.

Lemma hard_stuck : forall {A} (p : parser A), hard p -> stuck p.
Proof.
  intros A p H bs E. destruct (H bs E) as (pre & b & suf & Q & F & X & W & Y).
  exists pre, b, suf. repeat (split; [assumption|]). left. exact Y.
Qed.
Lemma never_hard : forall {A} (p : parser A), never p -> hard p.
Proof. intros A p H bs E. destruct (never_err p bs H E). Qed.
Lemma never_stuck : forall {A} (p : parser A), never p -> stuck p.
Proof. intros A p H. apply hard_stuck, never_hard, H. Qed.

Lemma bind_err_l : forall {A B} (p : parser A) (f : A -> parser B) bs e,
  p bs = Err e -> pbind p f bs = Err e.
Proof. intros A B p f bs e E. unfold pbind. rewrite E. reflexivity. Qed.
Lemma bind_ok_l : forall {A B} (p : parser A) (f : A -> parser B) bs a r,
  p bs = Ok (a, r) -> pbind p f bs = f a r.
Proof. intros A B p f bs a r E. unfold pbind. rewrite E. reflexivity. Qed.

(** [p] before: the failure is in [f]. *)
Lemma after : forall {A B} k (p : parser A) (f : A -> parser B) (T : res (B * list N) -> Prop) bs a r,
  good k p -> p bs = Ok (a, r) ->
  (exists pre b suf, r = pre ++ b :: suf /\ ~ starts_exguid b /\ f a pre = Err UnexpectedEof /\
     f a (pre ++ [b]) = Err MalformedData /\ T (f a (pre ++ [0]))) ->
  exists pre b suf, bs = pre ++ b :: suf /\ ~ starts_exguid b /\ pbind p f pre = Err UnexpectedEof /\
     pbind p f (pre ++ [b]) = Err MalformedData /\ T (pbind p f (pre ++ [0])).
Proof.
  intros A B k p f T bs a r G E (pre & b & suf & Q & F & X & W & Y).
  destruct (ex_ok _ _ (gd_exact _ _ G) _ _ _ E) as (u & U & _ & M & _).
  exists (u ++ pre), b, suf. subst r. rewrite <- !app_assoc.
  refine (conj U (conj F (conj _ (conj _ _)))).
  - rewrite (bind_ok_l p f _ a pre (M pre)). exact X.
  - rewrite (bind_ok_l p f _ a (pre ++ [b]) (M _)). exact W.
  - rewrite (bind_ok_l p f _ a (pre ++ [0]) (M _)). exact Y.
Qed.

Lemma stuck_bind : forall {A B} k (p : parser A) (f : A -> parser B),
  good k p -> stuck p -> (forall a, stuck (f a)) -> (forall a, soft (f a [])) -> stuck (pbind p f).
Proof.
  intros A B k p f G P F S bs E. unfold pbind in E.
  destruct (p bs) as [[a r]|e| |] eqn:D; try discriminate.
  - apply (after k p f soft bs a r G D). apply F, E.
  - injection E as ->. destruct (P bs D) as (pre & b & suf & Q & N & X & W & Y).
    exists pre, b, suf. refine (conj Q (conj N (conj _ (conj _ _)))); [apply bind_err_l, X|apply bind_err_l, W|].
    destruct Y as [Y|[a Y]]; [left; apply bind_err_l, Y|].
    rewrite (bind_ok_l p f _ a [] Y). apply S.
Qed.
Lemma stuck_bind_never : forall {A B} k (p : parser A) (f : A -> parser B),
  good k p -> never p -> (forall a, stuck (f a)) -> stuck (pbind p f).
Proof.
  intros A B k p f G P F bs E. unfold pbind in E.
  destruct (p bs) as [[a r]|e| |] eqn:D; try discriminate.
  - apply (after k p f soft bs a r G D). apply F, E.
  - injection E as ->. destruct (never_err p bs P D).
Qed.
Lemma hard_bind : forall {A B} k (p : parser A) (f : A -> parser B),
  good k p -> stuck p -> (forall a, hard (f a)) -> (forall a, f a [] = Err UnexpectedEof) ->
  hard (pbind p f).
Proof.
  intros A B k p f G P F S bs E. unfold pbind in E.
  destruct (p bs) as [[a r]|e| |] eqn:D; try discriminate.
  - apply (after k p f (fun r => r = Err UnexpectedEof) bs a r G D). apply F, E.
  - injection E as ->. destruct (P bs D) as (pre & b & suf & Q & N & X & W & Y).
    exists pre, b, suf. refine (conj Q (conj N (conj _ (conj _ _)))); [apply bind_err_l, X|apply bind_err_l, W|].
    destruct Y as [Y|[a Y]]; [apply bind_err_l, Y|].
    rewrite (bind_ok_l p f _ a [] Y). apply S.
Qed.
Lemma hard_bind_never : forall {A B} k (p : parser A) (f : A -> parser B),
  good k p -> never p -> (forall a, hard (f a)) -> hard (pbind p f).
Proof.
  intros A B k p f G P F bs E. unfold pbind in E.
  destruct (p bs) as [[a r]|e| |] eqn:D; try discriminate.
  - apply (after k p f (fun r => r = Err UnexpectedEof) bs a r G D). apply F, E.
  - injection E as ->. destruct (never_err p bs P D).
Qed.

(** ** Extended GUIDs *)
Lemma never_u8 : never get_u8. Proof. unfold never. kinds. Qed.
Lemma never_guid : never guid_parse. Proof. unfold never. kinds. Qed.
Lemma land7 : forall b, N.land b 7 = b mod 8.
Proof. intro. change 7 with (N.ones 3). rewrite N.land_ones. reflexivity. Qed.
Lemma land63 : forall b, N.land b 63 = b mod 64.
Proof. intro. change 63 with (N.ones 6). rewrite N.land_ones. reflexivity. Qed.
Lemma land127 : forall b, N.land b 127 = b mod 128.
Proof. intro. change 127 with (N.ones 7). rewrite N.land_ones. reflexivity. Qed.

Lemma u8_cons : forall b bs, get_u8 (b :: bs) = Ok (b, bs).
Proof.
  intros b bs. unfold get_u8, get_le, pbind, read, remaining.
  replace (N.of_nat (length (b :: bs)) <? 1) with false by (symmetry; apply N.ltb_ge; cbn [length]; lia).
  change (N.to_nat 1) with 1%nat. cbn [firstn skipn le]. unfold pret. f_equal. f_equal. lia.
Qed.

Lemma stuck_exguid : stuck exguid_parse.
Proof.
  intros [|b bs] E; [discriminate E|]. exists [], b, bs.
  enough (~ starts_exguid b /\ exguid_parse [b] = Err MalformedData) as [F W].
  { refine (conj eq_refl (conj F (conj eq_refl (conj W _)))). right; exists (ExGuid guid_nil 0); reflexivity. }
  unfold exguid_parse in *. cbn [app]. rewrite (bind_ok_l _ _ _ _ _ (u8_cons b bs)) in E.
  rewrite (bind_ok_l _ _ _ _ _ (u8_cons b [])). cbv beta in *.
  rewrite land7, land63, land127 in *. unfold starts_exguid.
  destruct (N.eqb_spec b 0) as [|N0]; [discriminate E|].
  destruct (N.eqb_spec (b mod 8) 4) as [|N1].
  { exfalso. revert E. apply never_err. unfold never. kinds. }
  destruct (N.eqb_spec (b mod 64) 32) as [|N2].
  { exfalso. revert E. apply never_err. unfold never. kinds. }
  destruct (N.eqb_spec (b mod 128) 64) as [|N3].
  { exfalso. revert E. apply never_err. unfold never. kinds. }
  destruct (N.eqb_spec b 128) as [|N4].
  { exfalso. revert E. apply never_err. unfold never. kinds. }
  split; [tauto|reflexivity].
Qed.

(** ** Loops *)
Lemma rep_nil : forall {A} (p : parser A) n, p [] = Err UnexpectedEof -> soft (rep n p []).
Proof.
  intros A p n E. unfold rep. cbn [rep_fuel length]. destruct (n =? 0).
  - right. exists []. reflexivity.
  - left. apply bind_err_l, E.
Qed.
Lemma rep_unroll : forall {A} (p : parser A) n bs, good 1 p -> n <> 0 ->
  rep n p bs = pbind p (fun x => pbind (rep (n - 1) p) (fun xs => pret (x :: xs))) bs.
Proof.
  intros A p n bs G N0. unfold pbind. destruct (p bs) as [[x r]|e| |] eqn:E.
  - replace n with ((n - 1) + 1) at 1 by lia. rewrite (rep_S p (n - 1) bs x r G E). reflexivity.
  - unfold rep. cbn [rep_fuel]. replace (n =? 0) with false by (symmetry; apply N.eqb_neq, N0).
    unfold pbind. rewrite E. reflexivity.
  - destruct (gd_nopanic _ _ G _ E).
  - destruct (gd_nofuel _ _ G _ E).
Qed.
Lemma stuck_ext : forall {A} (p q : parser A), (forall bs, p bs = q bs) -> stuck p -> stuck q.
Proof.
  intros A p q E H bs D. rewrite <- E in D. destruct (H bs D) as (pre & b & suf & Q).
  exists pre, b, suf. rewrite <- !E. exact Q.
Qed.
Lemma hard_ext : forall {A} (p q : parser A), (forall bs, p bs = q bs) -> hard p -> hard q.
Proof.
  intros A p q E H bs D. rewrite <- E in D. destruct (H bs D) as (pre & b & suf & Q).
  exists pre, b, suf. rewrite <- !E. exact Q.
Qed.

Lemma never_ret : forall {A} (a : A), never (pret a).
Proof. intros. apply ponly_ret. Qed.

Lemma stuck_rep : forall {A} (p : parser A) n, good 1 p -> stuck p -> p [] = Err UnexpectedEof ->
  stuck (rep n p).
Proof.
  intros A p n G P Z. rewrite <- (N2Nat.id n). induction (N.to_nat n) as [|m IH].
  - apply never_stuck. intros bs e E. discriminate E.
  - apply (stuck_ext (pbind p (fun x => pbind (rep (N.of_nat m) p) (fun xs => pret (x :: xs))))).
    { intro bs. rewrite (rep_unroll p (N.of_nat (S m)) bs G) by lia.
      replace (N.of_nat (S m) - 1) with (N.of_nat m) by lia. reflexivity. }
    apply (stuck_bind 1); [exact G|exact P| |].
    + intro x. apply (stuck_bind 0); [apply good_rep, G|exact IH| |].
      * intro. apply never_stuck, never_ret.
      * intro xs. right. eexists. reflexivity.
    + intro x. unfold pbind. destruct (rep_nil p (N.of_nat m) Z) as [->|[a ->]]; [left; reflexivity|].
      right. eexists. reflexivity.
Qed.

Lemma until_nil : forall {A} fin fp (body : A -> parser A) s, until fin fp body s [] = Err UnexpectedEof.
Proof. reflexivity. Qed.
Lemma until_body_err : forall {A} fin fp (body : A -> parser A) s b bs e,
  fin b = false -> body s (b :: bs) = Err e -> until fin fp body s (b :: bs) = Err e.
Proof.
  intros A fin fp body s b bs e F E. unfold until. cbn [until_fuel]. unfold with_peek. cbn [peek].
  rewrite F. apply bind_err_l, E.
Qed.

(** What the loop does with input on which the body does not fail for good. *)
Lemma until_soft : forall {A} fin fp (body : A -> parser A) s b bs,
  good 1 fp -> (forall s, good 1 (body s)) -> fin b = false ->
  soft (body s (b :: bs)) -> until fin fp body s (b :: bs) = Err UnexpectedEof.
Proof.
  intros A fin fp body s b bs G B F [E|[s' E]].
  - apply until_body_err; assumption.
  - rewrite (until_step fin fp body s s' b bs [] G B F E). apply until_nil.
Qed.

Lemma hard_until : forall {A} fin fp (body : A -> parser A),
  good 1 fp -> (forall s, good 1 (body s)) -> never fp -> (forall s, stuck (body s)) -> fin 0 = false ->
  forall s, hard (until fin fp body s).
Proof.
  intros A fin fp body G B P S Z s bs. remember (length bs) as n eqn:L.
  revert s bs L. induction n as [n IH] using (well_founded_induction Nat.lt_wf_0). intros s bs L E.
  destruct bs as [|c bs]; [discriminate E|].
  destruct (fin c) eqn:F.
  { exfalso. unfold until in E. cbn [until_fuel] in E. unfold with_peek in E. cbn [peek] in E.
    rewrite F in E. revert E. apply (never_err (fp ;;; pret s)). apply ponly_bind; [exact P|].
    intro. apply ponly_ret. }
  destruct (body s (c :: bs)) as [[s' r]|e| |] eqn:D.
  - rewrite (until_step fin fp body s s' c bs r G B F D) in E.
    destruct (ex_ok _ _ (gd_exact _ _ (B s)) _ _ _ D) as (u & U & K & M & _).
    assert (LL : (length r < n)%nat).
    { subst n. rewrite U, app_length. lia. }
    destruct (IH _ LL s' r eq_refl E) as (pre & b & suf & Q & N & X & W & Y).
    destruct u as [|c' u]; [cbn in K; lia|]. injection U as <- U.
    exists (c :: u ++ pre), b, suf. rewrite U, Q. cbn [app]. rewrite <- !app_assoc.
    refine (conj eq_refl (conj N (conj _ (conj _ _)))).
    + rewrite (until_step fin fp body s s' c (u ++ pre) pre G B F (M pre)). exact X.
    + rewrite (until_step fin fp body s s' c (u ++ pre ++ [b]) (pre ++ [b]) G B F (M _)). exact W.
    + rewrite (until_step fin fp body s s' c (u ++ pre ++ [0]) (pre ++ [0]) G B F (M _)). exact Y.
  - rewrite (until_body_err fin fp body s c bs e F D) in E. injection E as ->.
    destruct (S s _ D) as (pre & b & suf & Q & N & X & W & Y).
    destruct pre as [|c' pre].
    + exists [], b, suf. refine (conj Q (conj N (conj (until_nil _ _ _ _) (conj _ _)))).
      * injection Q as <- _. apply until_body_err; assumption.
      * apply until_soft; assumption.
    + injection Q as <- Q. exists (c :: pre), b, suf. cbn [app].
      refine (conj _ (conj N (conj _ (conj _ _)))).
      * rewrite Q. reflexivity.
      * apply until_body_err; assumption.
      * apply until_body_err; assumption.
      * apply until_soft; assumption.
  - destruct (gd_nopanic _ _ (B s) _ D).
  - destruct (gd_nofuel _ _ (B s) _ D).
Qed.

(** ** The package *)
Ltac nev := unfold never; kinds.
Lemma never_compact : never compact_parse. Proof. nev. Qed.
Lemma never_serial : never serial_parse. Proof. nev. Qed.
Lemma never_header : never header_parse. Proof. nev. Qed.
Lemma never_header_16 : never header_parse_16. Proof. nev. Qed.
Lemma never_try : forall t, never (try_parse t). Proof. intro. nev. Qed.
Lemma never_try_16 : forall t, never (try_parse_16 t). Proof. intro. nev. Qed.
Lemma never_try_32 : forall t, never (try_parse_32 t). Proof. intro. nev. Qed.
Lemma never_end_8 : forall t, never (try_parse_end_8 t). Proof. intro. nev. Qed.
Lemma never_end_16 : forall t, never (try_parse_end_16 t). Proof. intro. nev. Qed.
Lemma never_binary : never binary_item_parse. Proof. nev. Qed.
Lemma never_fail : forall {A}, never (@pfail A MalformedFssHttpBData). Proof. intro. nev. Qed.
Lemma never_fail2 : forall {A}, never (@pfail A MalformedOneStoreData). Proof. intro. nev. Qed.
Lemma never_frequency : forall n, never (plift (change_frequency n)). Proof. intro. nev. Qed.
Lemma never_ometa : never ometa_parse. Proof. nev. Qed.
Lemma never_u32 : never get_u32. Proof. nev. Qed.
Lemma never_read : forall n, never (read n). Proof. intro. nev. Qed.
Create HintDb stop discriminated.
#[local] Hint Resolve never_ret never_u8 never_u32 never_guid never_compact never_serial never_header never_header_16 never_try
  never_try_16 never_try_32 never_end_8 never_end_16 never_binary never_fail never_fail2 never_frequency never_ometa never_read
  stuck_exguid : stop.
Lemma is_end_0 : forall t, is_end_8 t 0 = false. Proof. reflexivity. Qed.

Ltac soft_nil := intros; try (left; reflexivity); try (right; eexists; reflexivity).
Ltac stop_step :=
  cbv beta zeta;
  lazymatch goal with
  | |- stuck (pbind ?p _) =>
      first [ eapply stuck_bind_never; [solve [eauto 2 with gdb]|solve [auto with stop]|intro]
            | eapply stuck_bind; [solve [eauto 2 with gdb]| |intro|soft_nil] ]
  | |- hard (pbind ?p _) =>
      first [ eapply hard_bind_never; [solve [eauto 2 with gdb]|solve [auto with stop]|intro]
            | eapply hard_bind; [solve [eauto 2 with gdb]| |intro|intros; reflexivity] ]
  | |- stuck (match ?x with _ => _ end) => destruct x
  | |- hard (match ?x with _ => _ end) => destruct x
  | |- stuck _ => first [solve [auto with stop] | solve [apply never_stuck; auto with stop]]
  | |- hard _ => first [solve [auto with stop] | solve [apply never_hard; auto with stop]]
  end.
Ltac stop := repeat stop_step.

Lemma stuck_cellid : stuck cellid_parse.
Proof. unfold cellid_parse. stop. Qed.
#[local] Hint Resolve stuck_cellid : stop.
Lemma stuck_exguids : stuck exguid_parse_array.
Proof.
  unfold exguid_parse_array. eapply stuck_bind_never; [apply good_compact|auto with stop|]. intro.
  apply stuck_rep; [apply good_exguid|apply stuck_exguid|reflexivity].
Qed.
Lemma stuck_cellids : stuck cellid_parse_array.
Proof.
  unfold cellid_parse_array. eapply stuck_bind_never; [apply good_compact|auto with stop|]. intro.
  apply stuck_rep; [apply good_cellid|apply stuck_cellid|reflexivity].
Qed.
#[local] Hint Resolve stuck_exguids stuck_cellids : stop.
Lemma stuck_root : stuck root_declare_parse. Proof. unfold root_declare_parse. stop. Qed.
#[local] Hint Resolve stuck_root : stop.
Lemma stuck_mapping : stuck manifest_mapping_parse. Proof. unfold manifest_mapping_parse. stop. Qed.
Lemma stuck_cell_mapping : stuck cell_mapping_parse. Proof. unfold cell_mapping_parse. stop. Qed.
Lemma stuck_rev_mapping : stuck rev_mapping_parse. Proof. unfold rev_mapping_parse. stop. Qed.
#[local] Hint Resolve stuck_mapping stuck_cell_mapping stuck_rev_mapping : stop.
Lemma stuck_revision_item : forall s, stuck (revision_manifest_item s).
Proof. intro. unfold revision_manifest_item. stop. Qed.
Lemma stuck_index_item : forall s, stuck (storage_index_item s).
Proof. intro. unfold storage_index_item. stop. Qed.
Lemma stuck_manifest_item : forall s, stuck (storage_manifest_item s).
Proof. intro. unfold storage_manifest_item. stop. Qed.
Lemma stuck_odecl : forall s, stuck (odecl_item s).
Proof. intro. unfold odecl_item. stop. Qed.
Lemma stuck_odata : forall s, stuck (odata_item s).
Proof. intro. unfold odata_item. stop. Qed.

Lemma hard_until_end_8 : forall {A} t (body : A -> parser A),
  (forall s, good 1 (body s)) -> (forall s, stuck (body s)) -> forall s, hard (until_end_8 t body s).
Proof.
  intros A t body B S. unfold until_end_8. apply hard_until; auto with stop. apply good_try_parse_end_8.
Qed.
Lemma stuck_until_end_8 : forall {A} t (body : A -> parser A),
  (forall s, good 1 (body s)) -> (forall s, stuck (body s)) -> forall s, stuck (until_end_8 t body s).
Proof. intros. apply hard_stuck, hard_until_end_8; assumption. Qed.

Lemma stuck_index : stuck storage_index_parse.
Proof. apply stuck_until_end_8; [apply good_storage_index_item|apply stuck_index_item]. Qed.
Lemma stuck_revs : forall s, stuck (until_end_8 DataElement revision_manifest_item s).
Proof. apply stuck_until_end_8; [apply good_revision_manifest_item|apply stuck_revision_item]. Qed.
Lemma stuck_roots : forall s, stuck (until_end_8 DataElement storage_manifest_item s).
Proof. apply stuck_until_end_8; [apply good_storage_manifest_item|apply stuck_manifest_item]. Qed.
Lemma stuck_decls : forall s, stuck (until_end_8 ObjectGroupDeclaration odecl_item s).
Proof. apply stuck_until_end_8; [apply good_odecl_item|apply stuck_odecl]. Qed.
Lemma stuck_datas : stuck odata_parse.
Proof. apply stuck_until_end_8; [apply good_odata_item|apply stuck_odata]. Qed.
#[local] Hint Resolve stuck_index stuck_revs stuck_roots stuck_decls stuck_datas : stop.
Lemma stuck_odecls : stuck odecls_parse.
Proof. unfold odecls_parse. stop. Qed.
#[local] Hint Resolve stuck_odecls : stop.
Lemma stuck_revision : stuck revision_manifest_parse.
Proof. unfold revision_manifest_parse. stop. Qed.
Lemma stuck_manifest : stuck storage_manifest_parse.
Proof. unfold storage_manifest_parse. stop. Qed.
Lemma stuck_cell_manifest : stuck cell_manifest_parse.
Proof. unfold cell_manifest_parse. stop. Qed.
Lemma stuck_fragment : stuck fragment_parse.
Proof. unfold fragment_parse. stop. Qed.
Lemma stuck_blob : stuck blob_parse.
Proof. unfold blob_parse. stop. Qed.
Lemma stuck_group : stuck object_group_parse.
Proof.
  unfold object_group_parse. stop_step; [stop|].
  - stop_step. eapply stuck_bind_never; [| |intro; stop].
    + instantiate (1 := 0%nat). gd.
    + destruct (oh_type a0); try (auto with stop; fail). unfold never. kinds.
Qed.
#[local] Hint Resolve stuck_revision stuck_manifest stuck_cell_manifest stuck_fragment stuck_blob stuck_group : stop.
Lemma stuck_body : forall id ty p, stuck (element_body id ty p).
Proof. intros id ty [a b c d e f g]. unfold element_body. stop. Qed.
#[local] Hint Resolve stuck_body : stop.
Lemma stuck_element : forall p, stuck (element_parse p).
Proof. intro. unfold element_parse. stop. Qed.
Lemma hard_package : hard package_parse.
Proof.
  unfold package_parse. stop. apply hard_until_end_8; [apply good_element|apply stuck_element].
Qed.
Lemma stuck_package : stuck package_parse.
Proof. apply hard_stuck, hard_package. Qed.
#[local] Hint Resolve stuck_package hard_package : stop.
Lemma hard_legacy : forall a b c d, hard (parse_legacy a b c d).
Proof. intros. unfold parse_legacy. stop. Qed.
#[local] Hint Resolve hard_legacy : stop.
Lemma never_log : forall l r, never (plift (log_offset l r)). Proof. intros. nev. Qed.
Lemma never_rs_header : never revision_store_header. Proof. nev. Qed.
Lemma never_advance : forall n, never (advance n). Proof. intro. nev. Qed.
#[local] Hint Resolve never_log never_rs_header never_advance : stop.
Lemma hard_packaging : hard packaging_parse.
Proof.
  apply (hard_ext packaging_parse'); [intro; symmetry; apply packaging_parse_eq|].
  unfold packaging_parse'. stop.
Qed.

(** ** The store says nothing of extended GUIDs *)
Lemma pvalues_never : forall (pv : N -> parser pvalue) ids,
  (forall id, ponly KN (pv id)) -> forall i m, ponly KN (pvalues_parse pv i ids m).
Proof.
  intros pv ids P. induction ids as [|id ids IH]; intros i m; cbn [pvalues_parse]; [kinds|].
  apply ponly_bind; [apply P|]. intro. apply IH.
Qed.
Lemma propset_never : ponly KN propset_parse.
Proof.
  intro bs. unfold propset_parse. generalize (S (length bs)). intro f. revert bs.
  change (ponly KN (propset_fuel f)).
  induction f as [|f IH]; cbn [propset_fuel]; [apply ponly_fuel|].
  apply ponly_bind; [kinds|]. intro. apply ponly_bind; [kinds|]. intro. apply pvalues_never.
  intro id. unfold pvalue_parse. generalize (pid_type id). intro t.
  kinds; exact IH.
Qed.
#[local] Hint Resolve propset_never : kinds.
Lemma oprops_never : ponly KN oprops_parse.
Proof. kinds. Qed.
#[local] Hint Resolve oprops_never : kinds.
Lemma object_never : forall i c s g pk, only KN (object_parse i c s g pk).
Proof. intros. kinds. Qed.
#[local] Hint Resolve object_never : kinds.
Lemma group_objects_never : forall pk c s g d is objs, only KN (group_objects pk c s g d is objs).
Proof.
  intros pk c s g d is. induction is as [|i is IH]; intro objs; cbn [group_objects]; kinds; apply IH.
Qed.
#[local] Hint Resolve group_objects_never : kinds.
Lemma groups_never : forall pk c s gs objs, only KN (parse_groups pk c s gs objs).
Proof. intros pk c s gs. induction gs as [|g gs IH]; intro objs; cbn [parse_groups]; kinds; apply IH. Qed.
#[local] Hint Resolve groups_never : kinds.
Lemma walk_never : forall f c s si pk cache r objs rts,
  only KN (revision_walk f c s si pk cache r objs rts).
Proof.
  intros f c s si pk cache. induction f as [|f IH]; intros [r|] objs rts; cbn [revision_walk]; kinds; apply IH.
Qed.
#[local] Hint Resolve walk_never : kinds.
Lemma spaces_never : forall h f si pk cache d ms sps, only KN (parse_spaces h f si pk cache d ms sps).
Proof. intros h f si pk cache d ms. induction ms as [|m ms IH]; intro sps; cbn [parse_spaces]; kinds; apply IH. Qed.
#[local] Hint Resolve spaces_never : kinds.
Lemma store_never : forall h f pg, only KN (parse_store h f pg).
Proof. intros. kinds. Qed.

Lemma open_malformed : forall h f d, open_store h f d = Err MalformedData ->
  packaging_parse d = Err MalformedData.
Proof.
  intros h f d. unfold open_store, run. destruct (packaging_parse d) as [[pg r]|e| |]; cbn [rbind]; try discriminate.
  - intro E. apply store_never in E. cbn in E. intuition discriminate.
  - intro E. injection E as ->. reflexivity.
Qed.
Lemma open_packaging_err : forall h f d e, packaging_parse d = Err e -> open_store h f d = Err e.
Proof. intros h f d e E. unfold open_store, run. rewrite E. reflexivity. Qed.
Lemma buffer_packaging_err : forall h f d n e, packaging_parse d = Err e -> parse_section_buffer h f d n = Err e.
Proof. intros h f d n e E. unfold parse_section_buffer. rewrite (open_packaging_err h f d e E). reflexivity. Qed.
Lemma buffer_malformed : forall h f d n, parse_section_buffer h f d n = Err MalformedData ->
  packaging_parse d = Err MalformedData.
Proof.
  intros h f d n E. apply section_stages in E. destruct E as [(E & _)|[(st & _ & _ & E)|(st & _ & _ & _ & I)]].
  - apply (open_malformed h f d E).
  - discriminate E.
  - cbn in I. intuition discriminate.
Qed.

(** ** Every answer is decided by a prefix *)
Lemma decided : forall {A} (f : list N -> res A) data r,
  (forall d, f d <> Err UnexpectedEof -> forall t, f (d ++ t) = f d) ->
  (forall x, x = Err UnexpectedEof \/ x <> (Err UnexpectedEof : res A)) ->
  f data = r -> r <> Err UnexpectedEof -> exists k, decided_by f data k r.
Proof.
  intros A f data r M D E R.
  assert (H : forall n, (n <= length data)%nat -> f (firstn n data) <> Err UnexpectedEof ->
            exists k, (k <= n)%nat /\ (forall m, (m < k)%nat -> f (firstn m data) = Err UnexpectedEof) /\
              f (firstn k data) <> Err UnexpectedEof).
  { induction n as [n IH] using (well_founded_induction Nat.lt_wf_0). intros L Hn.
    assert (Q : (forall m, (m < n)%nat -> f (firstn m data) = Err UnexpectedEof) \/
                exists m, (m < n)%nat /\ f (firstn m data) <> Err UnexpectedEof).
    { clear IH Hn L. induction n as [|n IHn]; [left; intros; lia|].
      destruct IHn as [IHn|(m & Hm & X)].
      - destruct (D (f (firstn n data))) as [X|X].
        + left. intros m Hm. destruct (Nat.eq_dec m n) as [->|Ne]; [exact X|apply IHn; lia].
        + right. exists n. split; [lia|exact X].
      - right. exists m. split; [lia|exact X]. }
    destruct Q as [Q|(m & Hm & X)].
    - exists n. split; [lia|]. split; assumption.
    - destruct (IH m Hm) as (k & Hk & Y); [lia|exact X|]. exists k. split; [lia|exact Y]. }
  destruct (H (length data)) as (k & L & B & K); [lia| |].
  { rewrite firstn_all, E. exact R. }
  exists k. split; [exact L|]. split; [exact B|]. intro t.
  rewrite (M _ K t). rewrite <- (M _ K (skipn k data)), firstn_skipn. exact E.
Qed.

Lemma buffer_decided : forall h fuel data file r,
  parse_section_buffer h fuel data file = r -> r <> Err UnexpectedEof ->
  exists k, decided_by (fun d => parse_section_buffer h fuel d file) data k r.
Proof.
  intros h fuel data file r. apply (decided (fun d => parse_section_buffer h fuel d file)).
  - intros d H t. apply buffer_more, H.
  - intros [x|[]| |]; first [left; reflexivity|right; discriminate].
Qed.

(** ** [MalformedData] *)
Lemma buffer_exguid : forall h fuel data file, parse_section_buffer h fuel data file = Err MalformedData ->
  exists k, decided_by (fun d => parse_section_buffer h fuel d file) data (S k) (Err MalformedData) /\
    ~ starts_exguid (nth k data 0) /\
    parse_section_buffer h fuel (firstn k data ++ [0]) file = Err UnexpectedEof.
Proof.
  intros h fuel data file E.
  destruct (hard_packaging data (buffer_malformed h fuel data file E)) as (pre & b & suf & Q & F & X & W & Y).
  destruct (buffer_decided h fuel data file _ E) as (k & L & B & T); [discriminate|].
  apply (buffer_packaging_err h fuel _ file) in X, W, Y.
  assert (Lk : k = S (length pre)).
  { assert (k <= S (length pre))%nat.
    { apply Nat.nlt_ge. intro Lt. specialize (B _ Lt). rewrite Q in B.
      replace (pre ++ b :: suf) with ((pre ++ [b]) ++ suf) in B by (rewrite <- app_assoc; reflexivity).
      rewrite firstn_app in B.
      replace (S (length pre) - length (pre ++ [b]))%nat with 0%nat in B by (rewrite app_length; cbn [length]; lia).
      rewrite firstn_all2 in B by (rewrite app_length; cbn [length]; lia). cbn [firstn] in B.
      rewrite app_nil_r in B. congruence. }
    assert (~ (k <= length pre)%nat); [|lia]. intro Le.
    specialize (T (skipn k pre)). rewrite Q, firstn_app in T.
    replace (k - length pre)%nat with 0%nat in T by lia. cbn [firstn] in T.
    rewrite app_nil_r, firstn_skipn in T. congruence. }
  subst k. exists (length pre). split; [|split].
  - split; [exact L|]. split; [exact B|exact T].
  - rewrite Q, app_nth2, Nat.sub_diag by lia. exact F.
  - rewrite Q, firstn_app, Nat.sub_diag, firstn_all. cbn [firstn]. rewrite app_nil_r. exact Y.
Qed.

(** ** [MalformedOneStoreData] from the container *)
Lemma guids_lang : forall a b c d e t,
  l_guids a b c d e -> forall {B} (f : guid -> guid -> guid -> guid -> parser B),
  (w <- guid_parse ;; y <- guid_parse ;; z <- guid_parse ;; v <- guid_parse ;; f w y z v) (e ++ t) = f a b c d t.
Proof.
  intros a b c d e t H B f.
  destruct H as (e1 & e' & -> & H1 & e2 & e'' & -> & H2 & e3 & e4 & -> & H3 & H4).
  rewrite <- !app_assoc.
  rewrite (bind_ok_l _ _ _ _ _ (reads_guid a e1 _ H1)).
  rewrite (bind_ok_l _ _ _ _ _ (reads_guid b e2 _ H2)).
  rewrite (bind_ok_l _ _ _ _ _ (reads_guid c e3 _ H3)).
  rewrite (bind_ok_l _ _ _ _ _ (reads_guid d e4 _ H4)). reflexivity.
Qed.

Lemma unknown_layout_err : forall e t, unknown_layout e -> packaging_parse (e ++ t) = Err MalformedOneStoreData.
Proof.
  intros e t (ft & f & lv & ff & N1 & N2 & H). rewrite packaging_parse_eq. unfold packaging_parse'.
  erewrite (guids_lang _ _ _ _ _ t H (fun w y z v => _)). cbv beta.
  replace (ff =? package_store_format) with false by (symmetry; apply N.eqb_neq, N1).
  replace (ff =? revision_store_format) with false by (symmetry; apply N.eqb_neq, N2). reflexivity.
Qed.
Lemma bad_log_err : forall e t, bad_log e -> packaging_parse (e ++ t) = Err MalformedOneStoreData.
Proof.
  intros e t (h1 & h2 & stp & cb & N1 & e1 & e2 & -> & H1 & H2). rewrite packaging_parse_eq. unfold packaging_parse'.
  rewrite <- app_assoc. erewrite (guids_lang _ _ _ _ _ _ H1 (fun w y z v => _)). cbv beta.
  change (0x109ADD3F911B49F5A5D01791EDC8AED8 =? package_store_format) with false.
  change (0x109ADD3F911B49F5A5D01791EDC8AED8 =? revision_store_format) with true.
  change (guid_is_nil 0) with true. cbn [negb].
  rewrite (bind_ok_l _ _ _ _ _ (reads_header stp cb e2 t H2)). cbv beta.
  apply bind_err_l. unfold plift, log_offset, fcr_end. cbn [fst snd].
  destruct (stp + cb <? 2 ^ 64) eqn:C; [|reflexivity]. cbn [rbind].
  destruct (stp + cb <? 172) eqn:D; [reflexivity|]. apply N.ltb_lt in C. apply N.ltb_ge in D.
  destruct N1; lia.
Qed.

Definition KO : list ekind := [UnexpectedEof; MalformedData; MalformedFssHttpBData].
Lemma no_store : forall {A} (p : parser A) bs, ponly KO p -> p bs <> Err MalformedOneStoreData.
Proof. intros A p bs H E. apply H in E. cbn in E. intuition discriminate. Qed.
Lemma package_no_store : ponly KO package_parse.
Proof. kinds. Qed.
#[local] Hint Resolve package_no_store : kinds.
Lemma legacy_no_store : forall a b c d, ponly KO (parse_legacy a b c d).
Proof. intros. kinds. Qed.
#[local] Hint Resolve legacy_no_store : kinds.
Lemma guid_no_store : ponly KO guid_parse. Proof. kinds. Qed.
Lemma header_no_store : ponly KO revision_store_header. Proof. kinds. Qed.

Lemma bind_inv : forall {A B} (p : parser A) (f : A -> parser B) bs,
  ponly KO p -> pbind p f bs = Err MalformedOneStoreData ->
  exists a r, p bs = Ok (a, r) /\ f a r = Err MalformedOneStoreData.
Proof.
  intros A B p f bs P E. unfold pbind in E. destruct (p bs) as [[a r]|e| |] eqn:D; try discriminate.
  - exists a, r. split; [reflexivity|exact E].
  - injection E as ->. destruct (no_store p bs P D).
Qed.
Lemma bytes_app : forall a b, bytes_ok (a ++ b) -> bytes_ok b.
Proof. intros a b H. unfold bytes_ok in *. apply Forall_app in H. apply H. Qed.

Lemma layout_only : forall bs, bytes_ok bs -> packaging_parse bs = Err MalformedOneStoreData ->
  exists e t, bs = e ++ t /\ (unknown_layout e \/ bad_log e).
Proof.
  intros bs W E. rewrite packaging_parse_eq in E. unfold packaging_parse' in E.
  apply bind_inv in E; [|apply guid_no_store]. destruct E as (ft & r1 & G1 & E).
  apply bind_inv in E; [|apply guid_no_store]. destruct E as (f & r2 & G2 & E).
  apply bind_inv in E; [|apply guid_no_store]. destruct E as (lv & r3 & G3 & E).
  apply bind_inv in E; [|apply guid_no_store]. destruct E as (ff & r4 & G4 & E).
  destruct (explains_guid bs ft r1 W G1) as (e1 & -> & L1). apply bytes_app in W.
  destruct (explains_guid r1 f r2 W G2) as (e2 & -> & L2). apply bytes_app in W.
  destruct (explains_guid r2 lv r3 W G3) as (e3 & -> & L3). apply bytes_app in W.
  destruct (explains_guid r3 ff r4 W G4) as (e4 & -> & L4). apply bytes_app in W.
  assert (LG : l_guids ft f lv ff (e1 ++ e2 ++ e3 ++ e4)).
  { unfold l_guids. repeat (eexists _, _; split; [reflexivity|]; split; [eassumption|]). assumption. }
  destruct (N.eqb_spec ff package_store_format) as [|N1]; [destruct (no_store _ _ (legacy_no_store _ _ _ _) E)|].
  destruct (N.eqb_spec ff revision_store_format) as [->|N2]; cbn [negb] in E.
  2:{ exists (e1 ++ e2 ++ e3 ++ e4), r4. split; [rewrite <- !app_assoc; reflexivity|]. left.
      exists ft, f, lv, ff. split; [exact N1|]. split; [exact N2|exact LG]. }
  destruct (guid_is_nil lv) eqn:Z; cbn [negb] in E; [|destruct (no_store _ _ (legacy_no_store _ _ _ _) E)].
  apply N.eqb_eq in Z. subst lv.
  apply bind_inv in E; [|apply header_no_store]. destruct E as ([stp cb] & r5 & G5 & E).
  destruct (explains_file_header r4 (stp, cb) r5 W G5) as (e5 & -> & L5). cbn [fst snd] in L5.
  exists (e1 ++ e2 ++ e3 ++ e4 ++ e5), r5. split; [rewrite <- !app_assoc; reflexivity|]. right.
  exists ft, f, stp, cb. split.
  - destruct (N.lt_ge_cases (stp + cb) 172) as [C|C]; [left; exact C|].
    destruct (N.lt_ge_cases (stp + cb) (2 ^ 64)) as [D|D]; [|right; exact D]. exfalso.
    assert (LO : log_offset (stp, cb) 172 = Ok (stp + cb - 172)).
    { unfold log_offset, fcr_end. cbn [fst snd].
      replace (stp + cb <? 2 ^ 64) with true by (symmetry; apply N.ltb_lt, D). cbn [rbind].
      replace (stp + cb <? 172) with false by (symmetry; apply N.ltb_ge, C). reflexivity. }
    rewrite LO in E. revert E. apply no_store. kinds.
  - exists (e1 ++ e2 ++ e3 ++ e4), e5. split; [rewrite <- !app_assoc; reflexivity|]. split; assumption.
Qed.

Lemma buffer_layout : forall h fuel data file, bytes_ok data ->
  parse_section_buffer h fuel data file = Err MalformedOneStoreData ->
  (exists e t, data = e ++ t /\ (unknown_layout e \/ bad_log e)) \/
  (exists pg rest, packaging_parse data = Ok (pg, rest) /\ parse_store h fuel pg = Err MalformedOneStoreData).
Proof.
  intros h fuel data file W E. apply section_stages in E.
  destruct E as [(E & _)|[(st & _ & _ & E)|(st & _ & _ & _ & I)]].
  - unfold open_store, run in E. destruct (packaging_parse data) as [[pg r]|e| |] eqn:P; cbn [rbind] in E; try discriminate.
    + right. exists pg, r. split; [reflexivity|exact E].
    + injection E as ->. left. apply layout_only; assumption.
  - discriminate E.
  - cbn in I. intuition discriminate.
Qed.

(** ** Input that ended too early *)
Definition helped {A} (p : parser A) : Prop := forall bs, p bs = Err UnexpectedEof ->
  exists t, p (bs ++ t) <> Err UnexpectedEof.

(** The shortest addition that helps. *)
Lemma helped_min : forall {A} k (p : parser A), good k p -> helped p ->
  forall bs, p bs = Err UnexpectedEof ->
  exists t, (exists a, p (bs ++ t) = Ok (a, [])) \/ (exists e, e <> UnexpectedEof /\ p (bs ++ t) = Err e).
Proof.
  intros A k p G H bs E. destruct (H bs E) as (t & X).
  destruct (p (bs ++ t)) as [[a r]|e| |] eqn:D.
  - destruct (ex_ok _ _ (gd_exact _ _ G) _ _ _ D) as (pre & Q & _ & M & C).
    destruct (app_eq_split _ _ _ _ Q) as [(l & -> & ->)|(l & -> & ->)].
    + exists l. left. exists a. specialize (M []). rewrite app_nil_r in M. exact M.
    + exfalso. specialize (M l). rewrite M in E. discriminate.
  - exists t. right. exists e. split; [congruence|exact D].
  - destruct (gd_nopanic _ _ G _ D).
  - destruct (gd_nofuel _ _ G _ D).
Qed.
Lemma ok_more : forall {A} k (p : parser A) bs a r t, good k p -> p bs = Ok (a, r) -> p (bs ++ t) = Ok (a, r ++ t).
Proof.
  intros A k p bs a r t G D. destruct (ex_ok _ _ (gd_exact _ _ G) _ _ _ D) as (pre & -> & _ & M & _).
  rewrite <- app_assoc. apply M.
Qed.
Lemma eof_dec : forall {A} (r : res A), r = Err UnexpectedEof \/ r <> Err UnexpectedEof.
Proof. intros A [x|[]| |]; first [left; reflexivity|right; discriminate]. Qed.

Lemma helped_bind : forall {A B} k (p : parser A) (f : A -> parser B),
  good k p -> helped p -> (forall a, helped (f a)) -> helped (pbind p f).
Proof.
  intros A B k p f G P F bs E. unfold pbind in E.
  destruct (p bs) as [[a r]|e| |] eqn:D; try discriminate.
  - destruct (F a r E) as (t & X). exists t.
    rewrite (bind_ok_l p f _ a (r ++ t) (ok_more k p bs a r t G D)). exact X.
  - injection E as ->. destruct (helped_min k p G P bs D) as (t & [(a & X)|(e & N & X)]).
    + destruct (eof_dec (f a [])) as [Y|Y].
      * destruct (F a [] Y) as (t' & Z). exists (t ++ t'). rewrite app_assoc.
        rewrite (bind_ok_l p f _ a t' (ok_more k p _ a [] t' G X)). exact Z.
      * exists t. rewrite (bind_ok_l p f _ a [] X). exact Y.
    + exists t. rewrite (bind_err_l p f _ e X). congruence.
Qed.
Lemma helped_ret : forall {A} (a : A), helped (pret a).
Proof. intros A a bs E. discriminate E. Qed.
Lemma helped_fail : forall {A} e, e <> UnexpectedEof -> helped (@pfail A e).
Proof. intros A e N bs E. unfold pfail in E. congruence. Qed.
Lemma helped_lift : forall {A} (r : res A), r <> Err UnexpectedEof -> helped (plift r).
Proof. intros A r N bs E. unfold plift in E. destruct r; cbn [rbind] in E; congruence. Qed.
Lemma helped_read : forall n, helped (read n).
Proof.
  intros n bs _. exists (repeat 0 (N.to_nat n)). unfold read, remaining.
  replace (_ <? _) with false; [discriminate|]. symmetry. apply N.ltb_ge.
  rewrite app_length, repeat_length. lia.
Qed.
Lemma helped_advance : forall n, helped (advance n).
Proof.
  intros n bs _. exists (repeat 0 (N.to_nat n)). unfold advance, remaining.
  replace (_ <? _) with false; [discriminate|]. symmetry. apply N.ltb_ge.
  rewrite app_length, repeat_length. lia.
Qed.
Lemma helped_peek : forall {A} (f : N -> parser A), (forall b, helped (f b)) -> helped (with_peek f).
Proof.
  intros A f F [|b bs] E.
  - destruct (eof_dec (f 0 [0])) as [X|X].
    + destruct (F 0 [0] X) as (t & Y). exists (0 :: t). exact Y.
    + exists [0]. exact X.
  - destruct (F b (b :: bs) E) as (t & Y). exists t. exact Y.
Qed.
Lemma helped_ext : forall {A} (p q : parser A), (forall bs, p bs = q bs) -> helped p -> helped q.
Proof.
  intros A p q E H bs D. rewrite <- E in D. destruct (H bs D) as (t & X). exists t. rewrite <- E. exact X.
Qed.
Lemma helped_rep : forall {A} (p : parser A) n, good 1 p -> helped p -> helped (rep n p).
Proof.
  intros A p n G P. rewrite <- (N2Nat.id n). induction (N.to_nat n) as [|m IH].
  - intros bs E. discriminate E.
  - apply (helped_ext (pbind p (fun x => pbind (rep (N.of_nat m) p) (fun xs => pret (x :: xs))))).
    { intro bs. rewrite (rep_unroll p (N.of_nat (S m)) bs G) by lia.
      replace (N.of_nat (S m) - 1) with (N.of_nat m) by lia. reflexivity. }
    apply (helped_bind 1); [exact G|exact P|]. intro x.
    apply (helped_bind 0); [apply good_rep, G|exact IH|]. intro. apply helped_ret.
Qed.

Lemma helped_until : forall {A} fin fp (body : A -> parser A) w,
  good 1 fp -> (forall s, good 1 (body s)) -> helped fp -> (forall s, helped (body s)) ->
  (forall s, until fin fp body s w <> Err UnexpectedEof) -> forall s, helped (until fin fp body s).
Proof.
  intros A fin fp body w G B P Hb Stop s bs. remember (length bs) as n eqn:L.
  revert s bs L. induction n as [n IH] using (well_founded_induction Nat.lt_wf_0). intros s bs L E.
  destruct bs as [|d bs]; [exists w; apply Stop|].
  assert (U : forall f bs s, until_fuel fin fp body (S f) s (d :: bs) =
     if fin d then (fp ;;; pret s) (d :: bs) else (s' <- body s ;; until_fuel fin fp body f s') (d :: bs)).
  { intros f0 bs0 s0. cbn [until_fuel]. unfold with_peek. cbn [peek]. destruct (fin d); reflexivity. }
  destruct (fin d) eqn:F.
  { assert (H : helped (fp ;;; pret s)).
    { apply (helped_bind 1); [exact G|exact P|]. intro. apply helped_ret. }
    unfold until in E. rewrite U in E. destruct (H _ E) as (t & X). exists t.
    unfold until. cbn [app]. rewrite U. exact X. }
  destruct (body s (d :: bs)) as [[s' r]|e| |] eqn:D.
  - rewrite (until_step fin fp body s s' d bs r G B F D) in E.
    assert (LL : (length r < n)%nat).
    { pose proof (exact_shrinks _ _ _ _ _ (gd_exact _ _ (B s)) D). subst n. lia. }
    destruct (IH _ LL s' r eq_refl E) as (t & X). exists t. cbn [app].
    rewrite (until_step fin fp body s s' d (bs ++ t) (r ++ t) G B F); [exact X|].
    exact (ok_more 1 (body s) (d :: bs) s' r t (B s) D).
  - rewrite (until_body_err fin fp body s d bs e F D) in E. injection E as ->.
    destruct (helped_min 1 (body s) (B s) (Hb s) _ D) as (t & [(s' & X)|(e & N & X)]).
    + exists (t ++ w). cbn [app]. rewrite app_assoc.
      rewrite (until_step fin fp body s s' d ((bs ++ t) ++ w) w G B F); [apply Stop|].
      exact (ok_more 1 (body s) (d :: bs ++ t) s' [] w (B s) X).
    + exists t. cbn [app]. rewrite (until_body_err fin fp body s d (bs ++ t) e F X). congruence.
  - destruct (gd_nopanic _ _ (B s) _ D).
  - destruct (gd_nofuel _ _ (B s) _ D).
Qed.

Definition ender (t : otype) : N := otype_code t * 4 + 1.
Create HintDb help discriminated.
Lemma helped_le : forall n, helped (get_le n).
Proof. intro. unfold get_le. apply (helped_bind (N.to_nat n)); [apply good_read|apply helped_read|]. intro. apply helped_ret. Qed.
#[local] Hint Resolve helped_le helped_read helped_advance helped_ret : help.
Ltac help_step :=
  cbv beta zeta;
  lazymatch goal with
  | |- helped (pbind _ _) => eapply helped_bind; [solve [eauto 2 with gdb]| |intro]
  | |- helped (pfail _) => apply helped_fail; discriminate
  | |- helped (plift _) => apply helped_lift
  | |- helped (with_peek _) => apply helped_peek; intro
  | |- helped (match ?x with _ => _ end) => destruct x
  | |- helped ?p => first [solve [auto with help] | solve [apply helped_le] | let h := head p in unfold h]
  end.
Ltac help := repeat help_step.
Lemma helped_guid : helped guid_parse. Proof. help. Qed.
#[local] Hint Resolve helped_guid : help.
Lemma helped_exguid : helped exguid_parse. Proof. help. Qed.
Lemma helped_compact : helped compact_parse. Proof. help. Qed.
#[local] Hint Resolve helped_exguid helped_compact : help.
Lemma helped_header_16 : helped header_parse_16. Proof. help. Qed.
Lemma helped_header_32 : helped header_parse_32. Proof. help. Qed.
#[local] Hint Resolve helped_header_16 helped_header_32 : help.
Lemma helped_header : helped header_parse. Proof. help. Qed.
Lemma helped_end_8 : helped end_parse_8. Proof. help. Qed.
Lemma helped_end_16 : helped end_parse_16. Proof. help. Qed.
#[local] Hint Resolve helped_header helped_end_8 helped_end_16 : help.
Lemma helped_start : forall p t, good 1 p -> helped p -> helped (try_parse_start p t).
Proof. intros p t G H. unfold try_parse_start. eapply helped_bind; [exact G|exact H|]. intro. help. Qed.
Lemma helped_finish : forall p t, good 1 p -> helped p -> helped (try_parse_end p t).
Proof. intros p t G H. unfold try_parse_end. eapply helped_bind; [exact G|exact H|]. intro. help. Qed.
Lemma helped_try : forall t, helped (try_parse t).
Proof. intro. apply helped_start; auto with help gdb. Qed.
Lemma helped_try_16 : forall t, helped (try_parse_16 t).
Proof. intro. apply helped_start; auto with help gdb. Qed.
Lemma helped_try_32 : forall t, helped (try_parse_32 t).
Proof. intro. apply helped_start; auto with help gdb. Qed.
Lemma helped_tend_8 : forall t, helped (try_parse_end_8 t).
Proof. intro. apply helped_finish; auto with help gdb. Qed.
Lemma helped_tend_16 : forall t, helped (try_parse_end_16 t).
Proof. intro. apply helped_finish; auto with help gdb. Qed.
#[local] Hint Resolve helped_try helped_try_16 helped_try_32 helped_tend_8 helped_tend_16 : help.
Lemma helped_cellid : helped cellid_parse. Proof. help. Qed.
#[local] Hint Resolve helped_cellid : help.
Lemma helped_exguids : helped exguid_parse_array.
Proof.
  unfold exguid_parse_array. eapply helped_bind; [apply good_compact|auto with help|]. intro.
  apply helped_rep; [apply good_exguid|apply helped_exguid].
Qed.
Lemma helped_cellids : helped cellid_parse_array.
Proof.
  unfold cellid_parse_array. eapply helped_bind; [apply good_compact|auto with help|]. intro.
  apply helped_rep; [apply good_cellid|apply helped_cellid].
Qed.
Lemma helped_binary : helped binary_item_parse. Proof. help. Qed.
Lemma helped_serial : helped serial_parse. Proof. help. Qed.
#[local] Hint Resolve helped_exguids helped_cellids helped_binary helped_serial : help.
Lemma ender_ends : forall t, is_end_8 t (ender t) = true /\ try_parse_end_8 t [ender t] = Ok (tt, []) \/ 64 <= otype_code t.
Proof. intros []; vm_compute; first [left; split; reflexivity|right; discriminate]. Qed.
Lemma helped_until_end_8 : forall {A} t (body : A -> parser A), otype_code t < 64 ->
  (forall s, good 1 (body s)) -> (forall s, helped (body s)) -> forall s, helped (until_end_8 t body s).
Proof.
  intros A t body T B S. unfold until_end_8. destruct (ender_ends t) as [(E & F)|E]; [|lia].
  apply (helped_until _ _ _ [ender t]); auto with help; [apply good_try_parse_end_8|].
  intros s H. rewrite (until_stop _ _ body s (ender t) [] [] E F) in H. discriminate.
Qed.
Ltac loops G H := apply helped_until_end_8; [reflexivity|apply G|apply H].

Lemma helped_root : helped root_declare_parse. Proof. help. Qed.
Lemma helped_mapping : helped manifest_mapping_parse. Proof. help. Qed.
Lemma helped_cell_mapping : helped cell_mapping_parse. Proof. help. Qed.
Lemma helped_rev_mapping : helped rev_mapping_parse. Proof. help. Qed.
#[local] Hint Resolve helped_root helped_mapping helped_cell_mapping helped_rev_mapping : help.
Lemma helped_revision_item : forall s, helped (revision_manifest_item s). Proof. intro. help. Qed.
Lemma helped_index_item : forall s, helped (storage_index_item s). Proof. intro. help. Qed.
Lemma helped_manifest_item : forall s, helped (storage_manifest_item s). Proof. intro. help. Qed.
Lemma helped_odecl : forall s, helped (odecl_item s). Proof. intro. help. Qed.
Lemma helped_odata : forall s, helped (odata_item s). Proof. intro. help. Qed.
Lemma helped_ometa_item : forall s, helped (ometa_item s).
Proof.
  intro. unfold ometa_item. help. unfold change_frequency. destruct (_ <=? _); discriminate.
Qed.
Lemma helped_index : helped storage_index_parse.
Proof. loops good_storage_index_item helped_index_item. Qed.
Lemma helped_revs : forall s, helped (until_end_8 DataElement revision_manifest_item s).
Proof. loops good_revision_manifest_item helped_revision_item. Qed.
Lemma helped_roots : forall s, helped (until_end_8 DataElement storage_manifest_item s).
Proof. loops good_storage_manifest_item helped_manifest_item. Qed.
Lemma helped_decls : forall s, helped (until_end_8 ObjectGroupDeclaration odecl_item s).
Proof. loops good_odecl_item helped_odecl. Qed.
Lemma helped_datas : helped odata_parse.
Proof. loops good_odata_item helped_odata. Qed.
(** A metadata block has no end the reader accepts, but it fails. *)
Lemma helped_metas : helped ometa_parse.
Proof.
  apply (helped_until _ _ _ [0; 0; 0; 0]); auto with help; [apply good_try_parse_end_8|apply good_ometa_item|
    apply helped_ometa_item|].
  intro s. discriminate.
Qed.
#[local] Hint Resolve helped_index helped_revs helped_roots helped_decls helped_datas helped_metas : help.
Lemma helped_group : helped object_group_parse.
Proof.
  unfold object_group_parse, odecls_parse. help_step; [help|]. help_step; [help|].
  eapply helped_bind; [|help|intro; help]. instantiate (1 := 0%nat). gd.
Qed.
#[local] Hint Resolve helped_group : help.
Lemma helped_body : forall id ty p, helped (element_body id ty p).
Proof. intros id ty [a b c d e f g]. unfold element_body. help. Qed.
#[local] Hint Resolve helped_body : help.
Lemma helped_element : forall p, helped (element_parse p).
Proof. intro. help. Qed.
Lemma helped_package : helped package_parse.
Proof. unfold package_parse. help_step; [help|]. help_step; [help|]. help_step; [help|]. loops good_element helped_element. Qed.
#[local] Hint Resolve helped_package : help.
Lemma helped_legacy : forall a b c d, helped (parse_legacy a b c d).
Proof. intros. help. Qed.
#[local] Hint Resolve helped_legacy : help.
Lemma helped_rs_header : helped revision_store_header. Proof. help. Qed.
#[local] Hint Resolve helped_rs_header : help.
Lemma helped_packaging : helped packaging_parse.
Proof.
  apply (helped_ext packaging_parse'); [intro; symmetry; apply packaging_parse_eq|].
  unfold packaging_parse'. help. unfold log_offset, fcr_end, rbind.
  destruct (_ <? _); [destruct (_ <? _)|]; discriminate.
Qed.

(** An [UnexpectedEof] of the container is about its end; any other is about the end
    of an object's data in a complete container. *)
Lemma buffer_eof : forall h fuel data file, parse_section_buffer h fuel data file = Err UnexpectedEof ->
  (exists pg rest, packaging_parse data = Ok (pg, rest)) \/
  (packaging_parse data = Err UnexpectedEof /\ exists t, packaging_parse (data ++ t) <> Err UnexpectedEof).
Proof.
  intros h fuel data file E.
  assert (P : forall e, packaging_parse data = Err e -> e = UnexpectedEof).
  { intros e D. rewrite (buffer_packaging_err h fuel data file e D) in E. congruence. }
  destruct (packaging_parse data) as [[pg r]|e| |] eqn:D.
  - left. exists pg, r. reflexivity.
  - right. rewrite (P e eq_refl) in *. split; [reflexivity|]. apply helped_packaging, D.
  - destruct (gd_nopanic _ _ good_packaging _ D).
  - destruct (gd_nofuel _ _ good_packaging _ D).
Qed.

Lemma ended_early : forall h fuel data file, parse_section_buffer h fuel data file = Err UnexpectedEof ->
  whole data \/
  exists t, whole (data ++ t) \/ parse_section_buffer h fuel (data ++ t) file <> Err UnexpectedEof.
Proof.
  intros h fuel data file E. destruct (buffer_eof h fuel data file E) as [W|(_ & t & X)]; [left; exact W|].
  right. exists t. destruct (packaging_parse (data ++ t)) as [[pg r]|e| |] eqn:D.
  - left. exists pg, r. exact D.
  - right. rewrite (buffer_packaging_err h fuel _ file e D). congruence.
  - destruct (gd_nopanic _ _ good_packaging _ D).
  - destruct (gd_nofuel _ _ good_packaging _ D).
Qed.
Lemma layout_cause : forall h fuel data file, bytes_ok data ->
  parse_section_buffer h fuel data file = Err MalformedOneStoreData ->
  (exists e t, data = e ++ t /\ (unknown_layout e \/ bad_log e)) \/ whole data.
Proof.
  intros h fuel data file W E. destruct (buffer_layout h fuel data file W E) as [H|(pg & r & H & _)].
  - left. exact H.
  - right. exists pg, r. exact H.
Qed.
Lemma layout_error : forall h fuel e t file, unknown_layout e \/ bad_log e ->
  parse_section_buffer h fuel (e ++ t) file = Err MalformedOneStoreData.
Proof.
  intros h fuel e t file [H|H]; apply buffer_packaging_err; [apply unknown_layout_err, H|apply bad_log_err, H].
Qed.
