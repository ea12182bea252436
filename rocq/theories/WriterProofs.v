(** The writer of ExampleFile.v produces files of the format. *)
From Coq Require Import Lia ZifyBool ZifyNat ZifyN.
From Verif Require Import Base BaseProofs Codec SpecCodec Package SpecPackage PackageRT PackageFacts SpecAccept AcceptProofs
  PropSet SpecPropSet ExampleFile.

(** Everything fits its field. *)
Definition w_exguid_ok (x : exguid) : bool := (eg_guid x <? 2 ^ 128) && (eg_value x <? 2 ^ 32).
Definition w_cellid_ok (c : cellid) : bool := w_exguid_ok (fst c) && w_exguid_ok (snd c).
Definition w_serial_ok (s : serial) : bool := (sn_guid s <? 2 ^ 128) && (sn_serial s <? 2 ^ 64).
Definition w_compact_ok (v : N) : bool := v <? 2 ^ 64.
Definition w_array_ok {A} (f : A -> bool) (l : list A) : bool :=
  (N.of_nat (length l) <? 2 ^ 64) && forallb f l.
Definition w_index_item_ok (i : index_item) : bool :=
  match i with
  | IxManifest m s => w_exguid_ok m && w_serial_ok s
  | IxCell c m s => w_cellid_ok c && w_exguid_ok m && w_serial_ok s
  | IxRevision r m s => w_exguid_ok r && w_exguid_ok m && w_serial_ok s
  end.
Definition w_rev_item_ok (i : rev_item) : bool :=
  match i with RvRoot r o => w_exguid_ok r && w_exguid_ok o | RvGroup g => w_exguid_ok g end.
Definition w_decl_ok (d : odecl) : bool :=
  match d with
  | DeclObject i p s o c => w_exguid_ok i && w_compact_ok p && w_compact_ok s && w_compact_ok o && w_compact_ok c
  | DeclBlob i b p o c => w_exguid_ok i && w_exguid_ok b && w_compact_ok p && w_compact_ok o && w_compact_ok c
  end.
Definition w_data_ok (d : odata) : bool :=
  match d with
  | DataObject g c b => w_array_ok w_exguid_ok g && w_array_ok w_cellid_ok c && w_array_ok (fun _ => true) b
  | DataExcluded g c n => w_array_ok w_exguid_ok g && w_array_ok w_cellid_ok c && w_compact_ok n
  | DataBlobRef g c b => w_array_ok w_exguid_ok g && w_array_ok w_cellid_ok c && w_exguid_ok b
  end.
Definition w_body_ok (x : element) : bool :=
  match x with
  | ElIndex items => forallb w_index_item_ok items
  | ElManifest g roots => (g <? 2 ^ 128) && forallb (fun r => w_exguid_ok (fst r) && w_cellid_ok (snd r)) roots
  | ElCell r => w_exguid_ok r
  | ElRevision r b items => w_exguid_ok r && w_exguid_ok b && forallb w_rev_item_ok items
  | ElGroup decls data => forallb w_decl_ok decls && forallb w_data_ok data
  | ElBlob bs => w_array_ok (fun _ => true) bs
  end.
Definition w_elem_ok (x : elem) : bool :=
  w_exguid_ok (el_id x) && w_serial_ok (el_serial x) && w_body_ok (el_content x).

Lemma in_compact v : w_compact_ok v = true -> l_compact v (w_compact v).
Proof.
  unfold w_compact_ok, w_compact, l_compact. intro H. destruct (v =? 0) eqn:E.
  - apply N.eqb_eq in E. subst. constructor.
  - constructor. lia.
Qed.
Lemma in_exguid x : w_exguid_ok x = true -> l_exguid x (w_exguid x).
Proof.
  unfold w_exguid_ok, w_exguid, l_exguid, exguid_is_nil. destruct x as [g v]. cbn [eg_guid eg_value].
  intro H. destruct (guid_is_nil g && _) eqn:E.
  - unfold guid_is_nil in E. assert (g = 0 /\ v = 0) as [-> ->] by lia. constructor.
  - constructor; lia.
Qed.
Lemma in_cellid c : w_cellid_ok c = true -> l_cellid c (w_cellid c).
Proof. intro H. apply andb_true_iff in H as [? ?]. apply cat_intro; now apply in_exguid. Qed.
Lemma in_serial s : w_serial_ok s = true -> l_serial s (w_serial s).
Proof. intro H. apply andb_true_iff in H as [? ?]. destruct s; cbn in *. constructor; lia. Qed.
Lemma in_many {A} (E : A -> lang) (w : A -> list N) ok l :
  (forall x, ok x = true -> E x (w x)) -> forallb ok l = true -> many E l (flat_map w l).
Proof.
  intros H. induction l as [|x l IH]; cbn; intro F; [reflexivity|].
  apply andb_true_iff in F as [F G]. apply cat_intro; auto.
Qed.
Lemma in_array {A} (E : A -> lang) (w : A -> list N) ok l :
  (forall x, ok x = true -> E x (w x)) -> w_array_ok ok l = true -> l_array E l (w_array w l).
Proof.
  intros H F. apply andb_true_iff in F as [F G]. apply cat_intro; [now apply in_compact|eapply in_many; eauto].
Qed.
Lemma in_blob l : w_array_ok (fun _ => true) l = true -> l_blob l (w_array (fun b => [b]) l).
Proof.
  intro F. apply andb_true_iff in F as [F G]. apply cat_intro; [now apply in_compact|].
  unfold lit. clear. induction l; cbn; congruence.
Qed.
Lemma in_h16 t : otype_code t < 64 -> h16 t (w_h16 t).
Proof.
  intro H. exists false, 0. pose proof (s16 false (otype_code t) 0 H ltac:(lia)) as X.
  unfold w_h16. replace (otype_code t * 8) with (flag false * 4 + otype_code t * 2 ^ 3 + 0 * 2 ^ 9); [exact X|].
  cbn [flag]. lia.
Qed.
Lemma in_h32 t : h32 t (w_h32 t).
Proof.
  exists false, 0. assert (H : otype_code t < 2 ^ 14) by (destruct t; reflexivity).
  pose proof (s32 false (otype_code t) 0 H ltac:(lia)) as X.
  unfold w_h32. replace (2 + otype_code t * 8) with (2 + flag false * 4 + otype_code t * 2 ^ 3 + 0 * 2 ^ 17); [exact X|].
  cbn [flag]. lia.
Qed.

Ltac wr := repeat match goal with
  | |- (_ +++ _) (_ ++ _) => apply cat_intro
  | |- h16 _ _ => apply in_h16; reflexivity
  | |- h_any _ (w_h16 _) => left; apply in_h16; reflexivity
  | |- fin8 _ _ => constructor; reflexivity
  | |- fin16 _ _ => constructor; reflexivity
  | |- l_exguid _ _ => apply in_exguid
  | |- l_cellid _ _ => apply in_cellid
  | |- l_serial _ _ => apply in_serial
  | |- l_compact _ _ => apply in_compact
  | |- l_blob _ _ => apply in_blob
  | |- l_array l_exguid _ _ => eapply in_array; [exact in_exguid|]
  | |- l_array l_cellid _ _ => eapply in_array; [exact in_cellid|]
  end; auto.
Ltac ands := repeat match goal with H : _ && _ = true |- _ => apply andb_true_iff in H as [? ?] end.

Lemma in_index_item i : w_index_item_ok i = true -> l_index_item i (w_index_item i).
Proof. destruct i; cbn [w_index_item_ok w_index_item l_index_item]; intro; ands; wr. Qed.
Lemma in_rev_item i : w_rev_item_ok i = true -> l_rev_item i (w_rev_item i).
Proof. destruct i; cbn [w_rev_item_ok w_rev_item l_rev_item]; intro; ands; wr. Qed.
Lemma in_decl i : w_decl_ok i = true -> l_decl i (w_decl i).
Proof. destruct i; cbn [w_decl_ok w_decl l_decl]; intro; ands; wr. Qed.
Lemma in_data i : w_data_ok i = true -> l_data i (w_data i).
Proof. destruct i; cbn [w_data_ok w_data l_data]; intro; ands; wr. Qed.
Lemma in_body x : w_body_ok x = true -> l_body x (w_body x).
Proof.
  destruct x; cbn [w_body_ok w_body l_body]; unfold l_group; intro; ands; wr.
  - eapply in_many; eauto using in_index_item.
  - split; [lia|reflexivity].
  - eapply in_many; [|eassumption]. intros r Hr. cbv beta in Hr. ands. unfold l_root. wr.
  - eapply in_many; eauto using in_rev_item.
  - eapply in_many; eauto using in_decl.
  - eapply in_many; eauto using in_data.
Qed.
Lemma in_elem x : w_elem_ok x = true -> l_elem x (w_elem x).
Proof.
  unfold w_elem_ok, w_elem, l_elem. intro; ands; wr; [|now apply in_body].
  destruct (el_content x); reflexivity.
Qed.

(** The writer with all identifiers given, in the two layouts. *)
Lemma in_content index els schema : w_exguid_ok index = true -> schema < 2 ^ 128 -> forallb w_elem_ok els = true ->
  l_content index schema els
    (le_bytes 4 0 ++ w_h32 OneNotePackaging ++ w_exguid index ++ guid_enc schema
     ++ w_h16 DataElementPackage ++ [0] ++ flat_map w_elem els ++ w_fin8 DataElementPackage
     ++ w_fin16 OneNotePackaging).
Proof.
  intros Hi Hs He. unfold l_content, l_package.
  apply cat_intro; [split; reflexivity|]. apply cat_intro; [apply in_h32|]. apply cat_intro; [now apply in_exguid|].
  apply cat_intro; [now split|].
  replace (w_h16 DataElementPackage ++ [0] ++ flat_map w_elem els ++ w_fin8 DataElementPackage ++ w_fin16 OneNotePackaging)
    with ((w_h16 DataElementPackage ++ [0] ++ flat_map w_elem els ++ w_fin8 DataElementPackage) ++ w_fin16 OneNotePackaging)
    by now rewrite <- !app_assoc.
  wr; [reflexivity|]. eapply in_many; eauto using in_elem.
Qed.

Lemma in_file ft index els : ft < 2 ^ 128 -> w_exguid_ok index = true -> forallb w_elem_ok els = true ->
  l_plain ft 1 0 0x638DE92FA6D44BC19A36B3FC2511A5B7 index 5 els (w_file ft index els).
Proof.
  intros Hf Hi He. unfold l_plain, w_file.
  assert (G : l_guids ft 1 0 0x638DE92FA6D44BC19A36B3FC2511A5B7
    (guid_enc ft ++ guid_enc 1 ++ guid_enc 0 ++ guid_enc 0x638DE92FA6D44BC19A36B3FC2511A5B7)).
  { unfold l_guids. repeat apply cat_intro; split; auto; reflexivity. }
  exists (guid_enc ft ++ guid_enc 1 ++ guid_enc 0 ++ guid_enc 0x638DE92FA6D44BC19A36B3FC2511A5B7).
  eexists. split; [rewrite <- !app_assoc; reflexivity|]. split; [exact G|]. now apply in_content.
Qed.

Lemma content_lenient index schema els e :
  l_content index schema els e -> a_content index schema (map AElem els) e.
Proof.
  apply cat_mono; auto. intro. apply cat_mono; auto. intro. apply cat_mono; auto.
  intro. apply cat_mono; auto. intro. apply cat_mono; auto. intro. apply package_lenient.
Qed.

Lemma plain_lenient ft f lv ff index schema els e :
  l_plain ft f lv ff index schema els e -> a_plain ft f lv ff index schema (map AElem els) e.
Proof. apply cat_mono; auto. intro. apply content_lenient. Qed.
