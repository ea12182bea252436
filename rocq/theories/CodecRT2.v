(** Round trips and converses: GUIDs, extended GUIDs, serial numbers, headers. *)
From Coq Require Import Lia ZifyBool ZifyNat ZifyN.
From Verif Require Import Base BaseProofs Codec SpecCodec CodecProofs CodecRT.
Ltac Zify.zify_post_hook ::= Z.div_mod_to_equations.

(** ** GUIDs *)

Lemma le_nth l i :
  bytes_ok l -> (i < length l)%nat ->
  as_u8 (N.shiftr (le l) (8 * N.of_nat i)) = nth i l 0.
Proof.
  intro B; revert i; induction B as [|b r Hb B IH]; intros i Hi; [cbn in Hi; lia|].
  destruct i as [|i]; cbn [nth le].
  - change (8 * N.of_nat 0) with 0. rewrite N.shiftr_0_r. unfold as_u8. lia.
  - replace (8 * N.of_nat (S i)) with (8 + 8 * N.of_nat i) by lia.
    rewrite <- N.shiftr_shiftr. rewrite (N.shiftr_div_pow2 (b + 256 * le r)).
    change (2 ^ 8) with 256. replace ((b + 256 * le r) / 256) with (le r) by lia.
    apply IH. cbn in Hi; lia.
Qed.

Lemma be_app2 a b : be (a ++ b) = be a * 256 ^ N.of_nat (length b) + be b.
Proof.
  revert a; induction b as [|x b IH] using rev_ind; intro a.
  - rewrite app_nil_r. cbn [length N.of_nat]. rewrite N.pow_0_r. unfold be at 3; cbn; lia.
  - rewrite app_assoc, !be_app, IH, app_length. cbn [length].
    replace (length b + 1)%nat with (S (length b)) by lia. rewrite pow256_S. lia.
Qed.

Lemma be_le_rev l : be l = le (rev l).
Proof. rewrite <- be_rev, rev_involutive; reflexivity. Qed.

Lemma be_bound l : bytes_ok l -> be l < 256 ^ N.of_nat (length l).
Proof.
  intro B. rewrite be_le_rev, <- rev_length. apply le_bound. now apply Forall_rev.
Qed.

Ltac list16 l L :=
  do 16 (destruct l as [|? l]; [discriminate L|]); destruct l; [|discriminate L].

Lemma guid_parse_fields l t :
  bytes_ok l -> length l = 16%nat ->
  guid_parse (l ++ t) =
    Ok (guid_text (le (firstn 4 l)) (le (firstn 2 (skipn 4 l)))
          (le (firstn 2 (skipn 6 l))) (be (skipn 8 l)), t).
Proof.
  intros B L. unfold guid_parse, pbind, get_u128.
  rewrite get_le_app by (rewrite L; reflexivity).
  unfold pret. do 2 f_equal.
  change 24 with (8 * N.of_nat 3). change 16 with (8 * N.of_nat 2).
  change 40 with (8 * N.of_nat 5). change 32 with (8 * N.of_nat 4).
  change 56 with (8 * N.of_nat 7). change 48 with (8 * N.of_nat 6).
  change 64 with (8 * N.of_nat 8). change 72 with (8 * N.of_nat 9).
  change 80 with (8 * N.of_nat 10). change 88 with (8 * N.of_nat 11).
  change 96 with (8 * N.of_nat 12). change 104 with (8 * N.of_nat 13).
  change 112 with (8 * N.of_nat 14). change 120 with (8 * N.of_nat 15).
  replace (as_u8 (le l)) with (as_u8 (N.shiftr (le l) (8 * N.of_nat 0)))
    by (change (8 * N.of_nat 0) with 0; now rewrite N.shiftr_0_r).
  change (N.shiftr (le l) 8) with (N.shiftr (le l) (8 * N.of_nat 1)).
  rewrite !le_nth by (auto; lia).
  clear B. list16 l L.
  cbn [nth firstn skipn le]. unfold be, guid_text. cbn [fold_left]. cpow. lia.
Qed.

Lemma guid_text_bound d1 d2 d3 d4 :
  d1 < 2 ^ 32 -> d2 < 2 ^ 16 -> d3 < 2 ^ 16 -> d4 < 2 ^ 64 ->
  guid_text d1 d2 d3 d4 < 2 ^ 128.
Proof. unfold guid_text; cpow; lia. Qed.

Lemma guid_text_fields d1 d2 d3 d4 :
  d2 < 2 ^ 16 -> d3 < 2 ^ 16 -> d4 < 2 ^ 64 ->
  guid_text d1 d2 d3 d4 / 2 ^ 96 = d1 /\
  guid_text d1 d2 d3 d4 / 2 ^ 80 mod 2 ^ 16 = d2 /\
  guid_text d1 d2 d3 d4 / 2 ^ 64 mod 2 ^ 16 = d3 /\
  guid_text d1 d2 d3 d4 mod 2 ^ 64 = d4.
Proof. unfold guid_text; cpow; intros. repeat split; lia. Qed.

Lemma guid_text_split g :
  g = guid_text (g / 2 ^ 96) (g / 2 ^ 80 mod 2 ^ 16) (g / 2 ^ 64 mod 2 ^ 16) (g mod 2 ^ 64).
Proof. unfold guid_text; cpow; lia. Qed.

Lemma guid_enc_length g : length (guid_enc g) = 16%nat.
Proof.
  unfold guid_enc, be_bytes. rewrite !app_length, rev_length, !le_bytes_length. reflexivity.
Qed.

Lemma guid_enc_ok g : bytes_ok (guid_enc g).
Proof.
  unfold guid_enc, be_bytes.
  do 3 (apply bytes_ok_app; split; [apply le_bytes_ok|]).
  apply Forall_rev. apply (le_bytes_ok 8).
Qed.

Lemma guid_roundtrip g t : g < 2 ^ 128 -> guid_parse (guid_enc g ++ t) = Ok (g, t).
Proof.
  intro Hg. rewrite guid_parse_fields by (try apply guid_enc_ok; apply guid_enc_length).
  do 2 f_equal.
  change (firstn 4 (guid_enc g)) with (le_bytes 4 (g / 2 ^ 96)).
  change (firstn 2 (skipn 4 (guid_enc g))) with (le_bytes 2 (g / 2 ^ 80 mod 2 ^ 16)).
  change (firstn 2 (skipn 6 (guid_enc g))) with (le_bytes 2 (g / 2 ^ 64 mod 2 ^ 16)).
  change (skipn 8 (guid_enc g)) with (be_bytes 8 (g mod 2 ^ 64)).
  unfold be_bytes. rewrite be_rev.
  rewrite (le_le_bytes 4), !(le_le_bytes 2), (le_le_bytes 8).
  - symmetry; apply guid_text_split.
  - apply N.mod_lt. discriminate.
  - apply N.mod_lt. discriminate.
  - apply N.mod_lt. discriminate.
  - change (256 ^ N.of_nat 4) with (2 ^ 32). apply N.div_lt_upper_bound; [discriminate|exact Hg].
Qed.

Lemma guid_enc_fields l :
  bytes_ok l -> length l = 16%nat ->
  guid_enc (guid_text (le (firstn 4 l)) (le (firstn 2 (skipn 4 l)))
              (le (firstn 2 (skipn 6 l))) (be (skipn 8 l))) = l
  /\ guid_text (le (firstn 4 l)) (le (firstn 2 (skipn 4 l)))
              (le (firstn 2 (skipn 6 l))) (be (skipn 8 l)) < 2 ^ 128.
Proof.
  intros B L.
  assert (B1 := bytes_ok_firstn 4 l B).
  assert (B2 := bytes_ok_firstn 2 _ (bytes_ok_skipn 4 l B)).
  assert (B3 := bytes_ok_firstn 2 _ (bytes_ok_skipn 6 l B)).
  assert (B4 := bytes_ok_skipn 8 l B).
  assert (L1 := le_bound _ B1). assert (L2 := le_bound _ B2).
  assert (L3 := le_bound _ B3). assert (L4 := be_bound _ B4).
  rewrite firstn_length, ?skipn_length, L in *.
  change (256 ^ N.of_nat (Nat.min 4 16)) with (2 ^ 32) in L1.
  change (256 ^ N.of_nat (Nat.min 2 (16 - 4))) with (2 ^ 16) in L2.
  change (256 ^ N.of_nat (Nat.min 2 (16 - 6))) with (2 ^ 16) in L3.
  change (256 ^ N.of_nat (16 - 8)) with (2 ^ 64) in L4.
  split; [|apply guid_text_bound; auto].
  unfold guid_enc.
  destruct (guid_text_fields (le (firstn 4 l)) _ _ _ L2 L3 L4) as (-> & -> & -> & ->).
  unfold be_bytes. rewrite be_le_rev.
  assert (B4' : bytes_ok (rev (skipn 8 l))) by (now apply Forall_rev).
  clear L1 L2 L3 L4 B.
  list16 l L.
  cbn [firstn skipn] in *.
  change 4%nat with (length [n; n0; n1; n2]) at 1. rewrite le_bytes_le by auto.
  change 2%nat with (length [n3; n4]) at 1. rewrite le_bytes_le by auto.
  change 2%nat with (length [n5; n6]) at 1. rewrite le_bytes_le by auto.
  match goal with |- context [le_bytes 8 (le ?x)] =>
    change 8%nat with (length x) at 1 end.
  rewrite le_bytes_le by auto. rewrite rev_involutive. reflexivity.
Qed.

Lemma guid_inv bs g rest :
  bytes_ok bs -> guid_parse bs = Ok (g, rest) -> bs = guid_enc g ++ rest /\ g < 2 ^ 128.
Proof.
  intros B H.
  assert (exists l, bs = l ++ rest /\ length l = 16%nat) as (l & -> & L).
  { unfold guid_parse, pbind, get_u128, get_le, pbind in H.
    destruct (read 16 bs) as [[x r]| | |] eqn:R; try discriminate.
    unfold pret in H. injection H as _ <-. apply read_inv in R as [-> R].
    exists x; split; auto. lia. }
  apply bytes_ok_app in B as [B _].
  rewrite guid_parse_fields in H by auto.
  match type of H with Ok (?x, _) = Ok (?y, _) => assert (x = y) as <- by congruence end.
  destruct (guid_enc_fields l B L) as [E Hb]. rewrite E. auto.
Qed.

(** ** Extended GUIDs *)

Lemma u16_split x y : x < 256 -> y < 256 -> le_bytes 2 (x + 256 * y) = [x; y].
Proof. intros. cbn [le_bytes]. repeat f_equal; lia. Qed.

Lemma exguid_roundtrip e bs t :
  exguid_encodes e bs -> exguid_parse (bs ++ t) = Ok (e, t).
Proof.
  intros [|g v Hg Hv|g v Hg Hv|g v Hg Hv|g v Hg Hv]; unfold exguid_parse, pbind.
  - cbn [app]. rewrite get_u8_cons. reflexivity.
  - cbn [app]. rewrite get_u8_cons. land_arith. cpow. kill_if.
    rewrite guid_roundtrip by auto. unfold pret. do 3 f_equal.
    rewrite N.shiftr_div_pow2; cpow; lia.
  - cbn [le_bytes app]. rewrite get_u8_cons. land_arith. cpow. kill_if.
    rewrite get_u8_cons, guid_roundtrip by auto. unfold pret. do 3 f_equal.
    rewrite lor_shiftl; rewrite N.shiftr_div_pow2; cpow; lia.
  - cbn [le_bytes app]. rewrite get_u8_cons. land_arith. cpow. kill_if.
    unfold get_u16.
    match goal with |- context [get_le 2 (?x :: ?y :: ?r)] =>
      change (x :: y :: r) with ([x; y] ++ r) end.
    rewrite get_le_app, guid_roundtrip by auto. unfold pret. do 3 f_equal.
    rewrite lor_shiftl; rewrite N.shiftr_div_pow2; cbn [le]; cpow; lia.
  - cbn [app]. rewrite get_u8_cons. land_arith. kill_if.
    rewrite <- app_assoc. unfold get_u32. rewrite (get_le_bytes 4) by exact Hv.
    rewrite guid_roundtrip by auto. reflexivity.
Qed.

Lemma get_u8_inv bs b rest : get_u8 bs = Ok (b, rest) -> bs = b :: rest.
Proof.
  destruct bs as [|x bs]; [discriminate|]. rewrite get_u8_cons.
  intro H; injection H as <- <-; reflexivity.
Qed.

Ltac pinv H :=
  unfold pbind in H;
  match type of H with
  | match ?p with _ => _ end = Ok _ =>
    let E := fresh "E" in destruct p as [[? ?]| | |] eqn:E; try discriminate H
  end.

Lemma exguid_sound bs e rest :
  bytes_ok bs -> exguid_parse bs = Ok (e, rest) ->
  exists p, bs = p ++ rest /\ exguid_encodes e p.
Proof.
  intros B H. unfold exguid_parse in H. pinv H. apply get_u8_inv in E. subst bs.
  assert (Hb : n < 256) by (inversion B; auto).
  assert (B' : bytes_ok l) by (inversion B; auto). clear B.
  revert H. land_arith.
  destruct (n =? 0) eqn:E0.
  { intro H; injection H as <- <-. exists [0]; split; [|constructor].
    cbn; f_equal; lia. }
  destruct (n mod 8 =? 4) eqn:E1.
  { intro H; pinv H. apply guid_inv in E as [-> Hg]; auto. injection H as <- <-.
    exists (n :: guid_enc g); split; auto.
    replace n with (4 + N.shiftr n 3 * 8) at 2
      by (rewrite N.shiftr_div_pow2; cpow; lia).
    apply ege_5; auto. rewrite N.shiftr_div_pow2; cpow; lia. }
  destruct (n mod 64 =? 32) eqn:E2.
  { intro H; pinv H. apply get_u8_inv in E. subst l. pinv H.
    assert (Hh : n0 < 256) by (inversion B'; auto).
    assert (B'' : bytes_ok l0) by (inversion B'; auto). clear B'.
    apply guid_inv in E as [-> Hg]; auto. injection H as <- <-.
    exists (n :: n0 :: guid_enc g); split; auto.
    rewrite lor_shiftl by (rewrite N.shiftr_div_pow2; cpow; lia).
    rewrite N.shiftr_div_pow2; cpow.
    replace (n :: n0 :: guid_enc g)
      with (le_bytes 2 (32 + (n0 * 4 + n / 64) * 64) ++ guid_enc g).
    - apply ege_10; auto; cpow; lia.
    - replace (32 + (n0 * 4 + n / 64) * 64) with (n + 256 * n0) by lia.
      rewrite u16_split by auto. reflexivity. }
  destruct (n mod 128 =? 64) eqn:E3.
  { intro H; pinv H. apply (get_le_inv 2) in E as [-> Hh]; auto. pinv H.
    apply bytes_ok_app in B' as [_ B'].
    apply guid_inv in E as [-> Hg]; auto. injection H as <- <-.
    change (256 ^ N.of_nat 2) with 65536 in Hh.
    exists (n :: le_bytes 2 n0 ++ guid_enc g); split;
      [cbn [app]; now rewrite <- app_assoc|].
    rewrite lor_shiftl by (rewrite N.shiftr_div_pow2; cpow; lia).
    rewrite N.shiftr_div_pow2; cpow.
    replace (n :: le_bytes 2 n0 ++ guid_enc g)
      with (le_bytes 3 (64 + (n0 * 2 + n / 128) * 128) ++ guid_enc g).
    - apply ege_17; auto; cpow; lia.
    - replace (64 + (n0 * 2 + n / 128) * 128) with (n + 256 * n0) by lia.
      cbn [le_bytes app]. repeat f_equal; lia. }
  destruct (n =? 128) eqn:E4; [|discriminate].
  intro H; pinv H. apply (get_le_inv 4) in E as [-> Hh]; auto. pinv H.
  apply bytes_ok_app in B' as [_ B'].
  apply guid_inv in E as [-> Hg]; auto. injection H as <- <-.
  exists (128 :: le_bytes 4 n0 ++ guid_enc g); split.
  - cbn [app]; rewrite <- app_assoc. f_equal; lia.
  - apply ege_32; auto.
Qed.

(** The first byte decides acceptance: none of the five tags means rejection. *)
Definition exguid_tag (b : N) : bool :=
  (b =? 0) || (b mod 8 =? 4) || (b mod 64 =? 32) || (b mod 128 =? 64) || (b =? 128).

Lemma exguid_reject b t : exguid_tag b = false -> exguid_parse (b :: t) = Err MalformedData.
Proof.
  unfold exguid_tag, exguid_parse, pbind. rewrite get_u8_cons. land_arith.
  intro H. repeat apply orb_false_elim in H as [H ?].
  repeat match goal with E : _ = false |- _ => rewrite E; clear E end. reflexivity.
Qed.

Lemma exguid_encodes_bytes e bs : exguid_encodes e bs -> bytes_ok bs.
Proof.
  intros [|g v Hg Hv|g v Hg Hv|g v Hg Hv|g v Hg Hv].
  - repeat constructor.
  - constructor; [cpow; lia|apply guid_enc_ok].
  - apply bytes_ok_app; split; [apply le_bytes_ok|apply guid_enc_ok].
  - apply bytes_ok_app; split; [apply le_bytes_ok|apply guid_enc_ok].
  - constructor; [reflexivity|]. apply bytes_ok_app; split; [apply (le_bytes_ok 4)|apply guid_enc_ok].
Qed.

(** ** Serial numbers *)

Lemma serial_roundtrip s bs t :
  serial_encodes s bs -> serial_parse (bs ++ t) = Ok (s, t).
Proof.
  intros [|g n Hg Hn]; unfold serial_parse, pbind.
  - cbn [app]. rewrite get_u8_cons. reflexivity.
  - cbn [app]. rewrite get_u8_cons. kill_if.
    rewrite <- app_assoc, guid_roundtrip by auto.
    unfold get_u64. rewrite (get_le_bytes 8) by exact Hn. reflexivity.
Qed.

(** ** Object types *)

Lemma otype_of_code t : otype_of (otype_code t) = Some t.
Proof. destruct t; reflexivity. Qed.

Lemma otype_of_sound v t : otype_of v = Some t -> v = otype_code t.
Proof.
  unfold otype_of. intro H. apply find_some in H as [_ H]. apply N.eqb_eq in H. auto.
Qed.

Lemma otype_eqb_eq a b : otype_eqb a b = true <-> a = b.
Proof.
  split; [|intros ->; apply N.eqb_refl]. unfold otype_eqb. intro H. apply N.eqb_eq in H.
  assert (Some a = Some b) by (rewrite <- !otype_of_code; congruence). congruence.
Qed.

Lemma otype_eqb_refl a : otype_eqb a a = true.
Proof. apply N.eqb_refl. Qed.

Lemma otype_code_bound t : otype_code t < 128.
Proof. destruct t; reflexivity. Qed.

(** ** Stream object headers *)

Lemma flag_bound c : flag c <= 1.
Proof. destruct c; cbn; lia. Qed.

Lemma header16_roundtrip c t n bs r :
  start16_encodes c (otype_code t) n bs ->
  header_parse_16 (bs ++ r) = Ok (OHeader c t n, r).
Proof.
  intros [Ht Hn]. pose proof (flag_bound c) as Hc. unfold header_parse_16, pbind, get_u16.
  rewrite (get_le_bytes 2) by (cpow; lia).
  land_arith. cpow. kill_if. rewrite !N.shiftr_div_pow2; cpow.
  replace (_ / 8 mod 64) with (otype_code t) by lia. rewrite otype_of_code.
  unfold pret. do 2 f_equal. f_equal; [destruct c; cbn [flag] in *; lia|lia].
Qed.

Lemma header32_roundtrip c t n bs r :
  start32_encodes c (otype_code t) n bs ->
  header_parse_32 (bs ++ r) = Ok (OHeader c t n, r).
Proof.
  intros [Ht Hn|e Ht He]; pose proof (flag_bound c) as Hc;
    unfold header_parse_32, pbind, get_u32.
  - rewrite (get_le_bytes 4) by (cpow; lia).
    land_arith. cpow. kill_if. rewrite !N.shiftr_div_pow2; cpow.
    replace (_ / 8 mod 16384) with (otype_code t) by lia. rewrite otype_of_code.
    kill_if. unfold pret. do 2 f_equal. f_equal; [destruct c; cbn [flag] in *; lia|lia].
  - rewrite <- app_assoc. rewrite (get_le_bytes 4) by (cpow; lia).
    land_arith. cpow. kill_if. rewrite !N.shiftr_div_pow2; cpow.
    replace (_ / 8 mod 16384) with (otype_code t) by lia. rewrite otype_of_code.
    kill_if. rewrite (compact_roundtrip n) by auto.
    unfold pret. do 2 f_equal. f_equal. destruct c; cbn [flag] in *; lia.
Qed.

Lemma header_roundtrip c t n bs r :
  start16_encodes c (otype_code t) n bs \/ start32_encodes c (otype_code t) n bs ->
  header_parse (bs ++ r) = Ok (OHeader c t n, r).
Proof.
  pose proof (flag_bound c) as Hc.
  intros [H|H]; unfold header_parse, with_peek.
  - pose proof (header16_roundtrip _ _ _ _ r H) as G.
    destruct H as [Ht Hn]. cbn [le_bytes app peek] in *. land_arith. cpow. kill_if. exact G.
  - pose proof (header32_roundtrip _ _ _ _ r H) as G.
    destruct H as [Ht Hn|e Ht He]; cbn [le_bytes app peek] in *; land_arith; cpow; kill_if;
      exact G.
Qed.

Lemma end8_roundtrip t bs r :
  end8_encodes (otype_code t) bs -> end_parse_8 (bs ++ r) = Ok (t, r).
Proof.
  intros [Ht]. unfold end_parse_8, pbind. cbn [app]. rewrite get_u8_cons.
  land_arith. kill_if. rewrite N.shiftr_div_pow2; cpow.
  replace (_ / 4) with (otype_code t) by lia. rewrite otype_of_code. reflexivity.
Qed.

Lemma end16_roundtrip t bs r :
  end16_encodes (otype_code t) bs -> end_parse_16 (bs ++ r) = Ok (t, r).
Proof.
  intros [Ht]. unfold end_parse_16, pbind, get_u16.
  rewrite (get_le_bytes 2) by (cpow; lia).
  land_arith. kill_if. rewrite N.shiftr_div_pow2; cpow.
  replace (_ / 4) with (otype_code t) by lia. rewrite otype_of_code. reflexivity.
Qed.

Lemma is_end_8_enc t bs r :
  end8_encodes (otype_code t) bs -> exists b, bs ++ r = b :: r /\ is_end_8 t b = true.
Proof.
  intros [Ht]. eexists; split; [reflexivity|]. unfold is_end_8. land_arith.
  rewrite N.shiftr_div_pow2; cpow. lia.
Qed.

(** Converses: what is accepted is an encoding of what is returned. *)
Lemma header16_sound bs h rest :
  bytes_ok bs -> header_parse_16 bs = Ok (h, rest) ->
  exists p, bs = p ++ rest /\
    start16_encodes (oh_compound h) (otype_code (oh_type h)) (oh_length h) p.
Proof.
  intros B H. unfold header_parse_16 in H. pinv H.
  apply (get_le_inv 2) in E as [-> Hn]; auto. revert H. land_arith.
  rewrite !N.shiftr_div_pow2; cpow. destruct (n mod 4 =? 0) eqn:E0; cbn [negb]; [|discriminate].
  destruct (otype_of _) as [t|] eqn:Et; [|discriminate]. apply otype_of_sound in Et.
  intro H; injection H as <- <-. exists (le_bytes 2 n); split; auto. cbn [oh_compound oh_type oh_length].
  rewrite <- Et.
  replace n with (flag (n / 4 mod 2 =? 1) * 4 + (n / 8 mod 64) * 2 ^ 3 + (n / 512) * 2 ^ 9) at 4.
  - constructor; lia.
  - unfold flag. destruct (n / 4 mod 2 =? 1) eqn:F; cpow; lia.
Qed.

Lemma header32_sound bs h rest :
  bytes_ok bs -> header_parse_32 bs = Ok (h, rest) ->
  exists p, bs = p ++ rest /\
    start32_encodes (oh_compound h) (otype_code (oh_type h)) (oh_length h) p.
Proof.
  intros B H. unfold header_parse_32 in H. pinv H.
  apply (get_le_inv 4) in E as [-> Hn]; auto. revert H. land_arith.
  rewrite !N.shiftr_div_pow2; cpow. destruct (n mod 4 =? 2) eqn:E0; cbn [negb]; [|discriminate].
  destruct (otype_of _) as [t|] eqn:Et; [|discriminate]. apply otype_of_sound in Et.
  apply bytes_ok_app in B as [_ B].
  assert (R : n = 2 + flag (n / 4 mod 2 =? 1) * 4 + (n / 8 mod 16384) * 2 ^ 3 + (n / 131072) * 2 ^ 17)
    by (unfold flag; destruct (n / 4 mod 2 =? 1) eqn:F; cpow; lia).
  destruct (n / 131072 =? 32767) eqn:EL; intro H.
  - pinv H. apply compact_sound in E as (e & -> & Ee); auto.
    injection H as <- <-. cbn [oh_compound oh_type oh_length].
    exists (le_bytes 4 n ++ e); split; [now rewrite app_assoc|].
    rewrite <- Et. apply N.eqb_eq in EL. rewrite EL in R. rewrite R at 3.
    apply s32_large; auto. cpow; lia.
  - injection H as <- <-. cbn [oh_compound oh_type oh_length].
    exists (le_bytes 4 n); split; auto. rewrite <- Et. rewrite R at 4.
    apply s32; cpow; lia.
Qed.

Lemma header_sound bs h rest :
  bytes_ok bs -> header_parse bs = Ok (h, rest) ->
  exists p, bs = p ++ rest /\
    (start16_encodes (oh_compound h) (otype_code (oh_type h)) (oh_length h) p \/
     start32_encodes (oh_compound h) (otype_code (oh_type h)) (oh_length h) p).
Proof.
  intros B H. unfold header_parse, with_peek in H.
  destruct bs as [|b bs]; [discriminate|]. cbn [peek] in H.
  destruct (_ =? 0).
  - apply header16_sound in H as (p & ? & ?); eauto.
  - destruct (_ =? 2); [|discriminate]. apply header32_sound in H as (p & ? & ?); eauto.
Qed.

Lemma end8_sound bs t rest :
  bytes_ok bs -> end_parse_8 bs = Ok (t, rest) ->
  exists p, bs = p ++ rest /\ end8_encodes (otype_code t) p.
Proof.
  intros B H. unfold end_parse_8 in H. pinv H. apply get_u8_inv in E. subst bs.
  assert (Hb : n < 256) by (inversion B; auto). revert H. land_arith.
  rewrite N.shiftr_div_pow2; cpow. destruct (n mod 4 =? 1) eqn:E0; cbn [negb]; [|discriminate].
  destruct (otype_of _) as [t'|] eqn:Et; [|discriminate]. apply otype_of_sound in Et.
  intro H; injection H as -> <-. exists [n]; split; auto.
  rewrite <- Et. replace n with (1 + n / 4 * 4) at 2 by lia. constructor. lia.
Qed.

Lemma end16_sound bs t rest :
  bytes_ok bs -> end_parse_16 bs = Ok (t, rest) ->
  exists p, bs = p ++ rest /\ end16_encodes (otype_code t) p.
Proof.
  intros B H. unfold end_parse_16 in H. pinv H.
  apply (get_le_inv 2) in E as [-> Hn]; auto. revert H. land_arith.
  rewrite N.shiftr_div_pow2; cpow. destruct (n mod 4 =? 3) eqn:E0; cbn [negb]; [|discriminate].
  destruct (otype_of _) as [t'|] eqn:Et; [|discriminate]. apply otype_of_sound in Et.
  intro H; injection H as -> <-. exists (le_bytes 2 n); split; auto.
  rewrite <- Et. replace n with (3 + n / 4 * 4) at 2 by lia. constructor. cpow; lia.
Qed.

(** Parsing with a required type. *)
Lemma try_start_iff (p : parser oheader) t bs rest :
  try_parse_start p t bs = Ok (tt, rest) <->
  exists h, p bs = Ok (h, rest) /\ oh_type h = t.
Proof.
  unfold try_parse_start, pbind. split.
  - destruct (p bs) as [[h r]| | |]; try discriminate.
    destruct (otype_eqb (oh_type h) t) eqn:E; [|discriminate].
    apply otype_eqb_eq in E. unfold pret; intro H; injection H as <-. eauto.
  - intros (h & -> & <-). rewrite otype_eqb_refl. reflexivity.
Qed.

Lemma try_end_iff (p : parser otype) t bs rest :
  try_parse_end p t bs = Ok (tt, rest) <-> p bs = Ok (t, rest).
Proof.
  unfold try_parse_end, pbind. split.
  - destruct (p bs) as [[h r]| | |]; try discriminate.
    destruct (otype_eqb h t) eqn:E; [|discriminate].
    apply otype_eqb_eq in E as ->. unfold pret; intro H; injection H as <-. reflexivity.
  - intros ->. rewrite otype_eqb_refl. reflexivity.
Qed.
