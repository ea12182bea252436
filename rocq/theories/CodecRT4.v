(** Statement-level lemmas for the codec properties. *)
From Coq Require Import Lia ZifyBool ZifyNat ZifyN.
From Verif Require Import Base BaseProofs Codec SpecCodec CodecProofs CodecRT CodecRT2 CodecRT3.
Ltac Zify.zify_post_hook ::= Z.div_mod_to_equations.

Lemma pow256_pow2 n : 256 ^ N.of_nat n = 2 ^ (8 * N.of_nat n).
Proof. change 256 with (2 ^ 8). rewrite <- N.pow_mul_r. reflexivity. Qed.

Lemma read_spec n bs :
  (n <= N.of_nat (length bs) ->
     exists x rest, read n bs = Ok (x, rest) /\ bs = x ++ rest /\ N.of_nat (length x) = n) /\
  (N.of_nat (length bs) < n -> read n bs = Err UnexpectedEof).
Proof.
  split; intro H.
  - exists (firstn (N.to_nat n) bs), (skipn (N.to_nat n) bs). split; [|split].
    + unfold read, remaining. replace (_ <? _) with false by lia. reflexivity.
    + now rewrite firstn_skipn.
    + rewrite firstn_length. lia.
  - unfold read, remaining. replace (_ <? _) with true by lia. reflexivity.
Qed.

Lemma advance_spec n bs :
  (n <= N.of_nat (length bs) ->
     exists x rest, advance n bs = Ok (tt, rest) /\ bs = x ++ rest /\ N.of_nat (length x) = n) /\
  (N.of_nat (length bs) < n -> advance n bs = Err UnexpectedEof).
Proof.
  split; intro H.
  - exists (firstn (N.to_nat n) bs), (skipn (N.to_nat n) bs). split; [|split].
    + unfold advance, remaining. replace (_ <? _) with false by lia. reflexivity.
    + now rewrite firstn_skipn.
    + rewrite firstn_length. lia.
  - unfold advance, remaining. replace (_ <? _) with true by lia. reflexivity.
Qed.

Lemma get_le_exact w : exact_int_reader w (get_le (N.of_nat w)).
Proof.
  split; [|split; [|split]].
  - intros v rest H. apply get_le_bytes. rewrite pow256_pow2. exact H.
  - intros bs v rest B H. apply get_le_inv in H as [E L]; auto.
    rewrite <- pow256_pow2. auto.
  - intros bs H. destruct (read_spec (N.of_nat w) bs) as [R _].
    destruct R as (x & rest & R & _); [lia|].
    exists (le x), rest. unfold get_le, pbind. now rewrite R.
  - intros bs H. destruct (read_spec (N.of_nat w) bs) as [_ R].
    unfold get_le, pbind. rewrite R by lia. reflexivity.
Qed.

Lemma int_readers_exact :
  exact_int_reader 1 get_u8 /\ exact_int_reader 2 get_u16 /\ exact_int_reader 4 get_u32 /\
  exact_int_reader 8 get_u64 /\ exact_int_reader 16 get_u128 /\ exact_int_reader 4 get_f32.
Proof.
  exact (conj (get_le_exact 1) (conj (get_le_exact 2) (conj (get_le_exact 4)
    (conj (get_le_exact 8) (conj (get_le_exact 16) (get_le_exact 4)))))).
Qed.

Lemma compact_iff bs v rest :
  bytes_ok bs ->
  (compact_parse bs = Ok (v, rest) <-> exists e, bs = e ++ rest /\ compact_encodes v e).
Proof.
  intro B; split.
  - apply compact_sound; auto.
  - intros (e & -> & E). apply compact_roundtrip; auto.
Qed.

Lemma exguid_iff bs e rest :
  bytes_ok bs ->
  (exguid_parse bs = Ok (e, rest) <-> exists p, bs = p ++ rest /\ exguid_encodes e p).
Proof.
  intro B; split.
  - apply exguid_sound; auto.
  - intros (p & -> & E). apply exguid_roundtrip; auto.
Qed.

Lemma guid_iff bs g rest :
  bytes_ok bs ->
  (guid_parse bs = Ok (g, rest) <-> g < 2 ^ 128 /\ bs = guid_enc g ++ rest).
Proof.
  intro B; split.
  - intro H. apply guid_inv in H as []; auto.
  - intros [H ->]. apply guid_roundtrip; auto.
Qed.

Lemma guid_injective a b g :
  bytes_ok a -> bytes_ok b -> length a = 16%nat -> length b = 16%nat ->
  guid_parse a = Ok (g, []) -> guid_parse b = Ok (g, []) -> a = b.
Proof.
  intros Ba Bb La Lb Ha Hb. apply guid_inv in Ha as [-> _]; auto.
  apply guid_inv in Hb as [-> _]; auto.
Qed.

(** The textual fields of the GUID spelled by 16 bytes. *)
Lemma guid_byte_order b0 b1 b2 b3 b4 b5 b6 b7 b8 b9 b10 b11 b12 b13 b14 b15 t :
  bytes_ok [b0;b1;b2;b3;b4;b5;b6;b7;b8;b9;b10;b11;b12;b13;b14;b15] ->
  exists g,
  guid_parse ([b0;b1;b2;b3;b4;b5;b6;b7;b8;b9;b10;b11;b12;b13;b14;b15] ++ t) = Ok (g, t) /\
  be_bytes 16 g = [b3;b2;b1;b0;b5;b4;b7;b6;b8;b9;b10;b11;b12;b13;b14;b15].
Proof.
  intro B. rewrite guid_parse_fields by auto. eexists; split; [reflexivity|].
  cbn [firstn skipn]. unfold be_bytes.
  match goal with |- rev (le_bytes _ ?g) = ?l =>
    assert (E : g = le (rev l)); [|rewrite E] end.
  - rewrite <- be_le_rev. unfold be, guid_text. cbn [le fold_left]. cpow. lia.
  - rewrite <- rev_involutive. f_equal.
    change 16%nat with (length (rev [b3;b2;b1;b0;b5;b4;b7;b6;b8;b9;b10;b11;b12;b13;b14;b15])).
    apply le_bytes_le.
    repeat match goal with H : bytes_ok (_ :: _) |- _ => inversion_clear H as [|? ? ? H'] ; rename H' into H end.
    repeat match goal with H : Forall _ (_ :: _) |- _ => inversion_clear H end.
    apply Forall_rev. repeat constructor; auto.
Qed.

Lemma header_required_type t bs rest :
  (try_parse t bs = Ok (tt, rest) <-> exists h, header_parse bs = Ok (h, rest) /\ oh_type h = t) /\
  (try_parse_16 t bs = Ok (tt, rest) <-> exists h, header_parse_16 bs = Ok (h, rest) /\ oh_type h = t) /\
  (try_parse_32 t bs = Ok (tt, rest) <-> exists h, header_parse_32 bs = Ok (h, rest) /\ oh_type h = t) /\
  (try_parse_end_8 t bs = Ok (tt, rest) <-> end_parse_8 bs = Ok (t, rest)) /\
  (try_parse_end_16 t bs = Ok (tt, rest) <-> end_parse_16 bs = Ok (t, rest)).
Proof.
  repeat apply conj; first [apply try_start_iff|apply try_end_iff].
Qed.

Lemma starts16_iff bs c t n rest :
  bytes_ok bs ->
  (header_parse_16 bs = Ok (OHeader c t n, rest) <->
   exists p, bs = p ++ rest /\ start16_encodes c (otype_code t) n p).
Proof.
  intro B; split.
  - intro H. apply header16_sound in H; auto.
  - intros (p & -> & E). apply header16_roundtrip; auto.
Qed.

Lemma starts32_iff bs c t n rest :
  bytes_ok bs ->
  (header_parse_32 bs = Ok (OHeader c t n, rest) <->
   exists p, bs = p ++ rest /\ start32_encodes c (otype_code t) n p).
Proof.
  intro B; split.
  - intro H. apply header32_sound in H; auto.
  - intros (p & -> & E). apply header32_roundtrip; auto.
Qed.

Lemma starts_iff bs c t n rest :
  bytes_ok bs ->
  (header_parse bs = Ok (OHeader c t n, rest) <->
   exists p, bs = p ++ rest /\
     (start16_encodes c (otype_code t) n p \/ start32_encodes c (otype_code t) n p)).
Proof.
  intro B; split.
  - intro H. apply header_sound in H; auto.
  - intros (p & -> & E). apply header_roundtrip; auto.
Qed.

Lemma ends8_iff bs t rest :
  bytes_ok bs ->
  (end_parse_8 bs = Ok (t, rest) <-> exists p, bs = p ++ rest /\ end8_encodes (otype_code t) p).
Proof.
  intro B; split.
  - intro H. apply end8_sound in H; auto.
  - intros (p & -> & E). apply end8_roundtrip; auto.
Qed.

Lemma ends16_iff bs t rest :
  bytes_ok bs ->
  (end_parse_16 bs = Ok (t, rest) <-> exists p, bs = p ++ rest /\ end16_encodes (otype_code t) p).
Proof.
  intro B; split.
  - intro H. apply end16_sound in H; auto.
  - intros (p & -> & E). apply end16_roundtrip; auto.
Qed.

Lemma exguid_bad_tag b t :
  b <> 0 -> b mod 8 <> 4 -> b mod 64 <> 32 -> b mod 128 <> 64 -> b <> 128 ->
  exguid_parse (b :: t) = Err MalformedData.
Proof.
  intros. apply exguid_reject. unfold exguid_tag.
  repeat (apply orb_false_intro; [|now apply N.eqb_neq]). now apply N.eqb_neq.
Qed.

Lemma truncation_refuted :
  exists v l cut, mb_encodes v l /\ l = cut ++ [1] /\ exists w n, decode_uint cut = Ok (w, n).
Proof.
  exists 133, [133; 1], [133]. split; [|split; [reflexivity|exists 5, 1; reflexivity]].
  apply (mb_more 5 1); [reflexivity|]. constructor; reflexivity.
Qed.

Lemma overwide_refuted :
  exists v l w n, mb_encodes v l /\ decode_uint l = Ok (w, n) /\ w <> v.
Proof.
  exists (2 ^ 64), [128;128;128;128;128;128;128;128;128;2], 0, 10.
  split; [|split; [reflexivity|discriminate]].
  change (2 ^ 64) with (0 + 128 * (0 + 128 * (0 + 128 * (0 + 128 * (0 + 128 * (0 + 128 * (0 + 128 * (0 + 128 * (0 + 128 * 2))))))))).
  repeat (apply (mb_more 0); [reflexivity|]). constructor; reflexivity.
Qed.

Lemma type_numbers :
  map otype_code
    [DataElement; ObjectDataBlob; ObjectGroupDataExcluded; ObjectGroupDataBlob;
     StorageManifestRoot; RevisionManifestRoot; CellManifest; StorageManifest;
     StorageIndexRevisionMapping; StorageIndexCellMapping; StorageIndexManifestMapping;
     DataElementPackage; ObjectGroupDataObject; ObjectGroupObject;
     RevisionManifestGroupReference; RevisionManifest; ObjectGroupBlobReference;
     ObjectGroupDeclaration; ObjectGroupData; DataElementFragment; ObjectGroupMetadata;
     ObjectGroupMetadataBlock; OneNotePackaging]
  = [0x01; 0x02; 0x03; 0x05; 0x07; 0x0A; 0x0B; 0x0C; 0x0D; 0x0E; 0x11; 0x15; 0x16; 0x18;
     0x19; 0x1A; 0x1C; 0x1D; 0x1E; 0x6A; 0x78; 0x79; 0x7A]
  /\ forall a b, otype_code a = otype_code b -> a = b.
Proof.
  split; [reflexivity|]. intros a b H. apply otype_eqb_eq. unfold otype_eqb. rewrite H. apply N.eqb_refl.
Qed.

Lemma u16_chunks_split bs :
  bytes_ok bs -> exists odd, bs = u16_bytes (u16_chunks bs) ++ odd /\ (length odd <= 1)%nat.
Proof.
  remember (length bs) as n eqn:En. revert bs En.
  induction n as [n IH] using lt_wf_ind. intros bs En B.
  destruct bs as [|a [|b r]].
  - exists []; auto.
  - exists [a]; auto.
  - inversion B as [|? ? Ha B']; inversion B' as [|? ? Hb Br]; subst.
    destruct (IH (length r)) with (bs := r) as (odd & E & L); auto; [cbn; lia|].
    exists odd; split; auto. cbn [u16_chunks]. rewrite u16_bytes_cons. cbn [app].
    rewrite <- E. f_equal; [lia|]. f_equal. lia.
Qed.

Lemma utf16_complete bs :
  bytes_ok bs ->
  exists us rest odd, bs = u16_bytes (us ++ rest) ++ odd /\ (length odd <= 1)%nat /\
    Forall (fun u => 0 < u < 65536) us /\ (rest = [] \/ exists r, rest = 0 :: r) /\
    ((exists s, utf16_to_string bs = Ok s /\ Forall scalar s /\ us = utf16_enc s) \/
     (utf16_to_string bs = Err MalformedOneNoteData /\
      ~ exists s, Forall scalar s /\ us = utf16_enc s)).
Proof.
  intro B. destruct (u16_chunks_split bs B) as (odd & E & L).
  destruct (truncate_nul_spec (u16_chunks bs)) as (rest & E2 & D & NZ).
  exists (truncate_nul (u16_chunks bs)), rest, odd. rewrite <- E2.
  split; [exact E|]. split; [exact L|]. split.
  - pose proof (u16_chunks_range bs B) as R. rewrite E2 in R. apply Forall_app in R as [R _].
    rewrite Forall_forall in *. intros u Hu. specialize (R u Hu). specialize (NZ u Hu). cbn in *. lia.
  - split; [exact D|]. apply utf16_decode_spec. exact B.
Qed.
