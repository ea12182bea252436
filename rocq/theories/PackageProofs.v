(** Self-delimitation and totality of every parser of [Package.v]. *)
From Coq Require Import Lia ZifyBool ZifyNat ZifyN.
From Verif Require Import Base BaseProofs Codec SpecCodec CodecProofs Package.
Ltac Zify.zify_post_hook ::= Z.div_mod_to_equations.

Lemma good_change_frequency v : good 0 (plift (change_frequency v)).
Proof.
  apply good_plift; unfold change_frequency; destruct (v <=? 4); discriminate.
Qed.
#[export] Hint Resolve good_change_frequency : gdb.

Lemma good_cell_manifest : good 1 cell_manifest_parse.
Proof. unfold cell_manifest_parse; gd. Qed.
Lemma good_fragment : good 1 fragment_parse.
Proof. unfold fragment_parse; gd. Qed.
Lemma good_blob : good 1 blob_parse.
Proof. unfold blob_parse; gd. Qed.
Lemma good_root_declare : good 1 root_declare_parse.
Proof. unfold root_declare_parse; gd. Qed.
#[export] Hint Resolve good_cell_manifest good_fragment good_blob good_root_declare : gdb.
Lemma good_revision_manifest_item s : good 1 (revision_manifest_item s).
Proof. unfold revision_manifest_item; gd. Qed.
#[export] Hint Resolve good_revision_manifest_item : gdb.
Lemma good_revision_manifest : good 1 revision_manifest_parse.
Proof. unfold revision_manifest_parse; gd. Qed.
Lemma good_manifest_mapping : good 1 manifest_mapping_parse.
Proof. unfold manifest_mapping_parse; gd. Qed.
Lemma good_cell_mapping : good 1 cell_mapping_parse.
Proof. unfold cell_mapping_parse; gd. Qed.
Lemma good_rev_mapping : good 1 rev_mapping_parse.
Proof. unfold rev_mapping_parse; gd. Qed.
#[export] Hint Resolve good_revision_manifest good_manifest_mapping good_cell_mapping
  good_rev_mapping : gdb.
Lemma good_storage_index_item s : good 1 (storage_index_item s).
Proof. unfold storage_index_item; gd. Qed.
#[export] Hint Resolve good_storage_index_item : gdb.
Lemma good_storage_index : good 1 storage_index_parse.
Proof. unfold storage_index_parse; gd. Qed.
Lemma good_storage_manifest_item s : good 1 (storage_manifest_item s).
Proof. unfold storage_manifest_item; gd. Qed.
#[export] Hint Resolve good_storage_index good_storage_manifest_item : gdb.
Lemma good_storage_manifest : good 1 storage_manifest_parse.
Proof. unfold storage_manifest_parse; gd. Qed.
Lemma good_odecl_item s : good 1 (odecl_item s).
Proof. unfold odecl_item; gd. Qed.
Lemma good_ometa_item s : good 1 (ometa_item s).
Proof. unfold ometa_item; gd. Qed.
Lemma good_odata_item s : good 1 (odata_item s).
Proof. unfold odata_item; gd. Qed.
#[export] Hint Resolve good_storage_manifest good_odecl_item good_ometa_item
  good_odata_item : gdb.
Lemma good_odecls : good 1 odecls_parse.
Proof. unfold odecls_parse; gd. Qed.
Lemma good_ometa : good 1 ometa_parse.
Proof. unfold ometa_parse; gd. Qed.
Lemma good_odata : good 1 odata_parse.
Proof. unfold odata_parse; gd. Qed.
#[export] Hint Resolve good_odecls good_ometa good_odata : gdb.
Lemma good_object_group : good 1 object_group_parse.
Proof. unfold object_group_parse; gd. Qed.
#[export] Hint Resolve good_object_group : gdb.
Lemma good_element_body id ty p : good 1 (element_body id ty p).
Proof. unfold element_body; gd. Qed.
#[export] Hint Resolve good_element_body : gdb.
Lemma good_element p : good 1 (element_parse p).
Proof. unfold element_parse; gd. Qed.
#[export] Hint Resolve good_element : gdb.
Lemma good_package : good 1 package_parse.
Proof. unfold package_parse; gd. Qed.
#[export] Hint Resolve good_package : gdb.
Lemma good_legacy a b c d : good 1 (parse_legacy a b c d).
Proof. unfold parse_legacy; gd. Qed.
#[export] Hint Resolve good_legacy : gdb.
Lemma good_fcr : good 1 fcr64x32_parse.
Proof. unfold fcr64x32_parse; gd. Qed.
Lemma good_version_check : good 1 version_check.
Proof. unfold version_check; gd. Qed.
#[export] Hint Resolve good_fcr good_version_check : gdb.
Lemma good_revision_store_header : good 1 revision_store_header.
Proof. unfold revision_store_header. gd. Qed.
#[export] Hint Resolve good_revision_store_header : gdb.

(** ** Fixed-size parsers *)
Definition fixed {A} (k : nat) (p : parser A) : Prop :=
  forall bs x rest, p bs = Ok (x, rest) -> length bs = (k + length rest)%nat.

Lemma fixed_pret {A} (a : A) : fixed 0 (pret a).
Proof. intros bs x rest H. unfold pret in H. replace rest with bs by congruence. reflexivity. Qed.

Lemma fixed_bind {A B} k1 k2 (p : parser A) (f : A -> parser B) :
  fixed k1 p -> (forall a, fixed k2 (f a)) -> fixed (k1 + k2) (pbind p f).
Proof.
  intros Hp Hf bs x rest H. unfold pbind in H.
  destruct (p bs) as [[a r]| | |] eqn:E; try discriminate.
  apply Hp in E. apply Hf in H. lia.
Qed.

Lemma fixed_get_le n : fixed (N.to_nat n) (get_le n).
Proof.
  intros bs x rest H. unfold get_le, pbind, read, remaining in H.
  destruct (N.of_nat (length bs) <? n) eqn:E; [discriminate|].
  unfold pret in H. assert (rest = skipn (N.to_nat n) bs) as -> by congruence.
  rewrite skipn_length. lia.
Qed.

Lemma fixed_read n : fixed (N.to_nat n) (read n).
Proof.
  intros bs x rest H. unfold read, remaining in H.
  destruct (N.of_nat (length bs) <? n) eqn:E; [discriminate|].
  assert (rest = skipn (N.to_nat n) bs) as -> by congruence.
  rewrite skipn_length. lia.
Qed.

Lemma fixed_pfail {A} k e : fixed k (@pfail A e).
Proof. intros bs x rest H. discriminate. Qed.

Ltac fx := lazymatch goal with
  | |- fixed _ (pbind _ _) => eapply fixed_bind; [fx|intro; fx]
  | |- fixed _ (if ?b then pfail _ else _) => destruct b; [apply fixed_pfail|fx]
  | |- fixed _ (pret _) => apply fixed_pret
  | |- fixed _ (read _) => apply fixed_read
  | |- _ => first [apply fixed_get_le | eassumption | eauto 1 with fxdb]
  end.
Create HintDb fxdb.

Lemma fixed_guid : fixed 16 guid_parse.
Proof.
  eassert (H : fixed _ guid_parse).
  { unfold guid_parse, get_u128. fx. }
  exact H.
Qed.
#[export] Hint Resolve fixed_guid : fxdb.

Lemma fixed_version_check : fixed 4 version_check.
Proof.
  apply (fixed_bind 4 0); [apply (fixed_get_le 4)|]. intro.
  destruct (_ && _); [apply fixed_pfail|apply fixed_pret].
Qed.
#[export] Hint Resolve fixed_version_check : fxdb.

Lemma fixed_fcr : fixed 12 fcr64x32_parse.
Proof.
  apply (fixed_bind 8 4); [apply (fixed_get_le 8)|]. intro.
  apply (fixed_bind 4 0); [apply (fixed_get_le 4)|]. intro. apply fixed_pret.
Qed.
#[export] Hint Resolve fixed_fcr : fxdb.

Lemma fixed_revision_store_header : fixed 108 revision_store_header.
Proof.
  eassert (H : fixed _ revision_store_header).
  { unfold revision_store_header. unfold get_u64, get_u32, get_u8. fx. }
  exact H.
Qed.

(** The number of bytes read before the log offset is a constant. *)
Definition packaging_parse' : parser packaging :=
  file_type <- guid_parse ;;
  file <- guid_parse ;;
  legacy_version <- guid_parse ;;
  file_format <- guid_parse ;;
  if file_format =? package_store_format then
    parse_legacy file_type file legacy_version file_format
  else if negb (file_format =? revision_store_format) then
    pfail MalformedOneStoreData
  else if negb (guid_is_nil legacy_version) then
    parse_legacy file_type file legacy_version file_format
  else
    log <- revision_store_header ;;
    offset <- plift (log_offset log 172) ;;
    advance offset ;;;
    file_type <- guid_parse ;;
    file <- guid_parse ;;
    legacy_version <- guid_parse ;;
    file_format <- guid_parse ;;
    parse_legacy file_type file legacy_version file_format.

Lemma pbind_congr {A B} (p : parser A) (f g : A -> parser B) bs :
  (forall a r, p bs = Ok (a, r) -> f a r = g a r) -> pbind p f bs = pbind p g bs.
Proof. intro H. unfold pbind. destruct (p bs) as [[a r]| | |]; auto. Qed.

Lemma packaging_parse_eq bs : packaging_parse bs = packaging_parse' bs.
Proof.
  unfold packaging_parse, packaging_parse', parse_packaging.
  apply pbind_congr; intros ft r1 E1. apply pbind_congr; intros fi r2 E2.
  apply pbind_congr; intros lv r3 E3. apply pbind_congr; intros ff r4 E4.
  destruct (ff =? package_store_format); [reflexivity|].
  destruct (negb (ff =? revision_store_format)); [reflexivity|].
  destruct (negb (guid_is_nil lv)); [reflexivity|].
  apply pbind_congr; intros log r5 E5.
  apply fixed_guid in E1, E2, E3, E4. apply fixed_revision_store_header in E5.
  replace (remaining bs - remaining r5) with 172 by (unfold remaining; lia).
  reflexivity.
Qed.

Lemma good_log_offset log r : good 0 (plift (log_offset log r)).
Proof.
  apply good_plift; unfold log_offset, fcr_end, rbind;
    destruct (_ <? 2 ^ 64); try discriminate; destruct (_ <? r); discriminate.
Qed.
#[export] Hint Resolve good_log_offset : gdb.

Lemma good_packaging : good 1 packaging_parse.
Proof.
  apply good_ext with (p := packaging_parse').
  - intro; symmetry; apply packaging_parse_eq.
  - unfold packaging_parse'; gd.
Qed.
