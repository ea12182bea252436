(** Round trips and converses: multi-byte integers and UTF-16. *)
From Coq Require Import Lia ZifyBool ZifyNat ZifyN.
From Verif Require Import Base BaseProofs Codec SpecCodec CodecProofs CodecRT.
Ltac Zify.zify_post_hook ::= Z.div_mod_to_equations.

(** ** Multi-byte integers *)

Lemma lor_low a b k : a < 2 ^ k -> N.lor a (b * 2 ^ k) = a + b * 2 ^ k.
Proof. intro H. rewrite N.lor_comm, lor_disjoint by auto. lia. Qed.

(** One step of the accumulation. *)
Lemma accum_step value b c :
  c <= 9 -> b < 128 -> value < 2 ^ (c * 7) ->
  N.lor value (N.modulo (N.shiftl b (c * 7)) (2 ^ 64)) = (value + b * 2 ^ (c * 7)) mod 2 ^ 64.
Proof.
  intros Hc Hb Hv. rewrite N.shiftl_mul_pow2.
  assert (C : c = 0 \/ c = 1 \/ c = 2 \/ c = 3 \/ c = 4 \/ c = 5 \/ c = 6 \/ c = 7 \/ c = 8 \/ c = 9) by lia.
  destruct C as [->|C].
  { rewrite N.pow_0_r in *. assert (value = 0) by lia. subst.
    rewrite N.lor_0_l. f_equal; lia. }
  destruct (N.eq_dec c 9) as [->|D].
  - replace ((b * 2 ^ (9 * 7)) mod 2 ^ 64) with ((b mod 2) * 2 ^ 63) by (cpow; lia).
    rewrite lor_low by exact Hv. cpow. lia.
  - rewrite (N.mod_small (b * _)).
    + rewrite lor_low by auto. rewrite N.mod_small; [reflexivity|].
      decompose [or] C; subst; try lia; cpow; lia.
    + decompose [or] C; subst; try lia; cpow; lia.
Qed.

Lemma pow_step c : 2 ^ ((c + 1) * 7) = 128 * 2 ^ (c * 7).
Proof. replace ((c + 1) * 7) with (7 + c * 7) by lia. rewrite N.pow_add_r. reflexivity. Qed.

Lemma pow_c_bound c : c <= 8 -> 2 ^ (c * 7) <= 2 ^ 56.
Proof. intro. apply N.pow_le_mono_r; lia. Qed.

Lemma uint_loop_decode v l t value c :
  mb_encodes v l -> c + N.of_nat (length l) <= 10 -> value < 2 ^ (c * 7) ->
  decode_uint_loop (l ++ t) value c =
    Ok ((value + v * 2 ^ (c * 7)) mod 2 ^ 64, c + N.of_nat (length l)).
Proof.
  intro H; revert value c; induction H as [b Hb|b v l Hb H IH]; intros value c Hc Hv.
  - cbn [app decode_uint_loop length] in *. land_arith. kill_if.
    rewrite N.mod_small with (a := b) by auto.
    rewrite accum_step by (auto; lia). repeat f_equal. 
  - cbn [app decode_uint_loop length] in *.
    assert (L : (1 <= length l)%nat) by (destruct H; cbn; lia).
    land_arith. kill_if.
    replace ((128 + b) mod 128) with b by lia.
    rewrite accum_step by (auto; lia).
    assert (Hc8 : c <= 8) by lia. pose proof (pow_c_bound c Hc8) as P.
    rewrite N.mod_small by (set (X := 2 ^ (c * 7)) in *; clearbody X; cpow; nia).
    rewrite IH.
    + rewrite pow_step. do 2 f_equal; [f_equal|]; nia.
    + lia.
    + rewrite pow_step. nia.
Qed.

Lemma mb_decode v l t :
  mb_encodes v l -> (length l <= 10)%nat ->
  decode_uint (l ++ t) = Ok (v mod 2 ^ 64, N.of_nat (length l)).
Proof.
  intros H L. unfold decode_uint. rewrite (uint_loop_decode v l t 0 0); auto.
  - cbn [rbind]. change (2 ^ (0 * 7)) with 1.
    replace (0 + v * 1) with v by lia. rewrite N.add_0_l.
    assert (1 <= length l)%nat by (destruct H; cbn; lia). kill_if. reflexivity.
  - lia.
  - reflexivity.
Qed.

Lemma mb_enc_fuel_encodes n v :
  v < 2 ^ (7 * (N.of_nat n + 1)) -> mb_encodes v (mb_enc_fuel n v).
Proof.
  revert v; induction n as [|n IH]; intros v Hv; cbn [mb_enc_fuel].
  - change (2 ^ (7 * (N.of_nat 0 + 1))) with 128 in Hv.
    replace (v mod 128) with v by lia. constructor; auto.
  - destruct (v <? 128) eqn:E; [constructor; lia|].
    replace v with (v mod 128 + 128 * (v / 128)) at 1 by lia.
    constructor; [lia|]. apply IH.
    replace (7 * (N.of_nat (S n) + 1)) with (7 + 7 * (N.of_nat n + 1)) in Hv by lia.
    rewrite N.pow_add_r in Hv. change (2 ^ 7) with 128 in Hv.
    apply N.div_lt_upper_bound; [lia|exact Hv].
Qed.

Lemma mb_enc_fuel_length n v : (length (mb_enc_fuel n v) <= S n)%nat.
Proof.
  revert v; induction n as [|n IH]; intro v; cbn [mb_enc_fuel length]; [lia|].
  destruct (_ <? _); cbn [length]; [lia|]. specialize (IH (v / 128)); lia.
Qed.

Lemma mb_enc_encodes v : v < 2 ^ 64 -> mb_encodes v (mb_enc v).
Proof.
  intro H. apply mb_enc_fuel_encodes. eapply N.lt_le_trans; [exact H|].
  apply N.pow_le_mono_r; lia.
Qed.

Lemma mb_enc_length v : (length (mb_enc v) <= 10)%nat.
Proof. apply mb_enc_fuel_length. Qed.

Lemma mb_enc_nonempty v : mb_enc v <> [].
Proof. unfold mb_enc; cbn [mb_enc_fuel]. destruct (_ <? _); discriminate. Qed.

Lemma decode_uint_enc v t :
  v < 2 ^ 64 -> decode_uint (mb_enc v ++ t) = Ok (v, N.of_nat (length (mb_enc v))).
Proof.
  intro H. rewrite (mb_decode v); auto using mb_enc_encodes, mb_enc_length.
  now rewrite N.mod_small.
Qed.

Lemma skipn_app_exact {A} (l t : list A) : skipn (N.to_nat (N.of_nat (length l))) (l ++ t) = t.
Proof.
  rewrite Nat2N.id, skipn_app, skipn_all, Nat.sub_diag. reflexivity.
Qed.

(** Any encoding of each value, padded or not. *)
Lemma decode_loop_enc vs ls t fuel :
  Forall2 mb_encodes vs ls -> Forall (fun v => v < 2 ^ 64) vs ->
  Forall (fun l => (length l <= 10)%nat) ls ->
  (length (concat ls ++ t) < fuel)%nat ->
  decode_loop fuel (N.of_nat (length vs)) (concat ls ++ t) = Ok vs.
Proof.
  intro H; revert fuel; induction H as [|v l vs ls Hv H IH]; intros fuel HV HL Hf.
  - destruct fuel; reflexivity.
  - destruct fuel as [|fuel]; [lia|]. cbn [decode_loop length concat] in *.
    inversion HV; inversion HL; subst.
    replace (N.of_nat (S (length vs)) =? 0) with false by lia.
    rewrite <- app_assoc in *.
    rewrite (mb_decode v l) by auto.
    assert (L : (1 <= length l)%nat) by (destruct Hv; cbn; lia).
    destruct (l ++ concat ls ++ t) as [|x r] eqn:E;
      [apply app_eq_nil in E as [-> _]; cbn in L; lia|].
    rewrite <- E in *. cbn [rbind]. rewrite skipn_app_exact.
    replace (N.of_nat (S (length vs)) - 1) with (N.of_nat (length vs)) by lia.
    rewrite IH; auto.
    + cbn [rbind]. now rewrite N.mod_small.
    + rewrite app_length in Hf. lia.
Qed.

Lemma decode_roundtrip vs ls n l t :
  Forall2 mb_encodes vs ls -> Forall (fun v => v < 2 ^ 64) vs ->
  Forall (fun l => (length l <= 10)%nat) ls ->
  mb_encodes n l -> (length l <= 10)%nat -> n < 2 ^ 64 ->
  n / 2 = N.of_nat (length vs) ->
  decode (l ++ concat ls ++ t) = Ok vs.
Proof.
  intros H HV HL Hn Ln Bn En. unfold decode. rewrite (mb_decode n) by auto.
  rewrite N.mod_small by auto. cbn [rbind]. rewrite skipn_app_exact.
  rewrite N.shiftr_div_pow2. change (2 ^ 1) with 2. rewrite En.
  apply decode_loop_enc; auto. rewrite (app_length l). lia.
Qed.

Lemma mb_stream_decode vs t :
  Forall (fun v => v < 2 ^ 64) vs -> N.of_nat (length vs) < 2 ^ 63 ->
  decode (mb_stream vs ++ t) = Ok vs.
Proof.
  intros HV HN. unfold mb_stream. rewrite <- app_assoc.
  apply (decode_roundtrip vs (map mb_enc vs) (2 * N.of_nat (length vs))); auto.
  - clear HN. induction HV; cbn [map]; constructor; auto. apply mb_enc_encodes; assumption.
  - apply Forall_map. rewrite Forall_forall; intros; apply mb_enc_length.
  - apply mb_enc_encodes. cpow; lia.
  - apply mb_enc_length.
  - cpow; lia.
  - lia.
Qed.

Lemma zigzag_sign_magnitude z : zigzag (sign_magnitude z) = z.
Proof.
  unfold zigzag, sign_magnitude. land_arith.
  rewrite N.shiftr_div_pow2. change (2 ^ 1) with 2.
  destruct (z <? 0)%Z eqn:E; kill_if; lia.
Qed.

Lemma decode_signed_roundtrip zs t :
  Forall (fun z => (- 2 ^ 63 < z < 2 ^ 63)%Z) zs -> N.of_nat (length zs) < 2 ^ 63 ->
  decode_signed (mb_stream (map sign_magnitude zs) ++ t) = Ok zs.
Proof.
  intros H L. unfold decode_signed. rewrite mb_stream_decode.
  - cbn [rbind]. f_equal. rewrite map_map. rewrite <- (map_id zs) at 2.
    apply map_ext. apply zigzag_sign_magnitude.
  - apply Forall_map. eapply Forall_impl; [|exact H]. cbn beta. intros z Hz.
    unfold sign_magnitude. cpow. destruct (z <? 0)%Z eqn:E; lia.
  - now rewrite map_length.
Qed.

(** ** Totality and range of the decoder *)

Lemma mod64_bound x : x mod 2 ^ 64 < 2 ^ 64.
Proof. apply N.mod_lt. discriminate. Qed.

Lemma lor_bound a b k : a < 2 ^ k -> b < 2 ^ k -> N.lor a b < 2 ^ k.
Proof.
  intros Ha Hb.
  assert (E : N.lor a b = N.lor a b mod 2 ^ k).
  { apply N.bits_inj; intro i. destruct (N.lt_ge_cases i k).
    - now rewrite N.mod_pow2_bits_low.
    - rewrite N.mod_pow2_bits_high by auto. rewrite N.lor_spec.
      rewrite <- (N.mod_small a (2 ^ k)), <- (N.mod_small b (2 ^ k)) by auto.
      rewrite !N.mod_pow2_bits_high by auto. reflexivity. }
  rewrite E. apply N.mod_lt. apply N.pow_nonzero. lia.
Qed.

Lemma uint_loop_facts data value c v n :
  decode_uint_loop data value c = Ok (v, n) -> value < 2 ^ 64 ->
  v < 2 ^ 64 /\ c <= n /\ (data <> [] -> c < n) /\ n <= c + N.of_nat (length data).
Proof.
  revert value c; induction data as [|b r IH]; intros value c H Hv; cbn [decode_uint_loop] in H.
  - injection H as <- <-. cbn. repeat split; try lia; auto. congruence.
  - destruct (c =? 10); [discriminate|]. destruct (64 <=? c * 7); [discriminate|].
    assert (B : N.lor value (N.shiftl (N.land b 127) (c * 7) mod 2 ^ 64) < 2 ^ 64)
      by (apply lor_bound; auto using mod64_bound).
    cbn [length]. destruct (N.land b 128 =? 128).
    + apply IH in H as (? & ? & ? & ?); auto. repeat split; auto; lia.
    + injection H as <- <-. repeat split; auto; lia.
Qed.

Lemma decode_uint_facts data v n :
  decode_uint data = Ok (v, n) -> v < 2 ^ 64 /\ 1 <= n /\ n <= N.of_nat (length data).
Proof.
  unfold decode_uint. destruct (decode_uint_loop data 0 0) as [[v' n']| | |] eqn:E; try discriminate.
  cbn [rbind]. destruct (n' =? 0) eqn:Z; [discriminate|]. intro H; injection H as <- <-.
  apply uint_loop_facts in E as (? & ? & ? & ?); [|reflexivity]. repeat split; auto; lia.
Qed.

Lemma uint_loop_total data value c :
  exists r, decode_uint_loop data value c = r /\ r <> Panic /\ r <> OutOfFuel.
Proof.
  eexists; split; [reflexivity|]. revert value c; induction data as [|b r IH]; intros; cbn [decode_uint_loop].
  - split; discriminate.
  - destruct (c =? 10); [split; discriminate|]. destruct (64 <=? _); [split; discriminate|].
    destruct (_ =? 128); [apply IH|split; discriminate].
Qed.

Lemma decode_uint_total data : decode_uint data <> Panic /\ decode_uint data <> OutOfFuel.
Proof.
  unfold decode_uint. destruct (uint_loop_total data 0 0) as (r & -> & ? & ?).
  destruct r as [[v n]| | |]; cbn [rbind]; try congruence; [|split; discriminate].
  destruct (n =? 0); split; discriminate.
Qed.

Lemma decode_loop_facts fuel n data :
  (length data < fuel)%nat ->
  decode_loop fuel n data <> Panic /\ decode_loop fuel n data <> OutOfFuel /\
  forall vs, decode_loop fuel n data = Ok vs ->
    Forall (fun v => v < 2 ^ 64) vs /\ N.of_nat (length vs) = n /\ (length vs <= length data)%nat.
Proof.
  revert n data; induction fuel as [|f IH]; intros n data Hf; [lia|].
  cbn [decode_loop]. destruct (n =? 0) eqn:En.
  - repeat split; try discriminate; injection H as <-; cbn; auto; lia.
  - destruct data as [|b r] eqn:Ed; [repeat split; discriminate|]. rewrite <- Ed in *.
    destruct (decode_uint_total data) as [P F].
    destruct (decode_uint data) as [[v off]| | |] eqn:E; cbn [rbind];
      try (repeat split; congruence).
    apply decode_uint_facts in E as (Hv & Ho & Hl).
    destruct (IH (n - 1) (skipn (N.to_nat off) data)) as (P' & F' & O').
    { rewrite skipn_length. lia. }
    destruct (decode_loop f (n - 1) (skipn (N.to_nat off) data)) as [vs| | |] eqn:E';
      cbn [rbind]; try (repeat split; congruence).
    repeat split; try discriminate; injection H as <-; destruct (O' _ eq_refl) as (A & B & C).
    + constructor; auto.
    + cbn [length]; lia.
    + cbn [length]. rewrite skipn_length in C. lia.
Qed.

Lemma decode_total input : decode input <> Panic /\ decode input <> OutOfFuel.
Proof.
  unfold decode. destruct (decode_uint_total input) as [P F].
  destruct (decode_uint input) as [[v off]| | |] eqn:E; cbn [rbind]; try (split; congruence).
  destruct (decode_loop_facts (S (length input)) (N.shiftr v 1) (skipn (N.to_nat off) input)) as (? & ? & _).
  - rewrite skipn_length; lia.
  - auto.
Qed.

Lemma decode_facts input vs :
  decode input = Ok vs ->
  Forall (fun v => v < 2 ^ 64) vs /\ (length vs < length input)%nat /\
  exists n off, decode_uint input = Ok (n, off) /\ N.of_nat (length vs) = n / 2.
Proof.
  unfold decode. destruct (decode_uint input) as [[v off]| | |] eqn:E; cbn [rbind]; try discriminate.
  intro H.
  destruct (decode_loop_facts (S (length input)) (N.shiftr v 1) (skipn (N.to_nat off) input)) as (_ & _ & O).
  { rewrite skipn_length; lia. }
  destruct (O _ H) as (A & B & C).
  apply decode_uint_facts in E as E'. destruct E' as (? & ? & ?). repeat split; auto.
  - rewrite skipn_length in C. lia.
  - exists v, off; split; auto. rewrite B, N.shiftr_div_pow2. reflexivity.
Qed.

Lemma zigzag_range v : v < 2 ^ 64 -> (- 2 ^ 63 < zigzag v < 2 ^ 63)%Z.
Proof.
  intro H. unfold zigzag. rewrite N.shiftr_div_pow2. change (2 ^ 1) with 2.
  change (2 ^ 64) with 18446744073709551616 in H.
  change (2 ^ 63)%Z with 9223372036854775808%Z.
  destruct (N.land v 1 =? 1); lia.
Qed.

Lemma decode_signed_facts input :
  decode_signed input <> Panic /\ decode_signed input <> OutOfFuel /\
  forall zs, decode_signed input = Ok zs -> Forall (fun z => (- 2 ^ 63 < z < 2 ^ 63)%Z) zs.
Proof.
  unfold decode_signed. destruct (decode_total input) as [P F].
  destruct (decode input) as [vs| | |] eqn:E; cbn [rbind]; try (repeat split; congruence).
  repeat split; try discriminate. intros zs H; injection H as <-.
  apply Forall_map. apply decode_facts in E as (HV & _). eapply Forall_impl; [|exact HV].
  apply zigzag_range.
Qed.

(** ** Truncated and over-wide integers *)

(** A run of 1..10 continuation bytes at the end of the input is accepted. *)
Lemma uint_loop_truncated l value c :
  Forall (fun b => 128 <= b < 256) l -> c + N.of_nat (length l) <= 10 ->
  value < 2 ^ (c * 7) -> value < 2 ^ 64 ->
  decode_uint_loop l value c =
    Ok ((value + mb_groups l * 2 ^ (c * 7)) mod 2 ^ 64, c + N.of_nat (length l)).
Proof.
  intro H; revert value c; induction H as [|b l Hb H IH]; intros value c Hc Hv Hv64.
  - cbn [decode_uint_loop mb_groups length]. change (N.of_nat 0) with 0.
    rewrite N.mul_0_l, !N.add_0_r, N.mod_small; auto.
  - cbn [decode_uint_loop mb_groups length] in *. land_arith. kill_if.
    rewrite accum_step by (auto; lia).
    rewrite IH.
    + rewrite pow_step. rewrite N.add_mod_idemp_l by discriminate.
      do 2 f_equal; [f_equal|]; nia.
    + lia.
    + rewrite pow_step. eapply N.le_lt_trans; [apply N.mod_le; discriminate|].
      set (X := 2 ^ (c * 7)) in *; clearbody X. clear - Hv Hb.
      assert (b mod 128 < 128) by lia. nia.
    + apply mod64_bound.
Qed.

Lemma mb_truncated l :
  l <> [] -> Forall (fun b => 128 <= b < 256) l -> (length l <= 10)%nat ->
  decode_uint l = Ok (mb_groups l mod 2 ^ 64, N.of_nat (length l)).
Proof.
  intros N0 H L. unfold decode_uint. rewrite uint_loop_truncated; auto; try lia; try reflexivity.
  cbn [rbind]. change (2 ^ (0 * 7)) with 1. rewrite N.mul_1_r, !N.add_0_l.
  destruct l; [congruence|]. replace (_ =? 0) with false; [reflexivity|].
  symmetry; apply N.eqb_neq; cbn [length]; lia.
Qed.

Lemma uint_loop_too_long l t value c :
  Forall (fun b => 128 <= b < 256) l -> c + N.of_nat (length l) = 10 -> t <> [] ->
  decode_uint_loop (l ++ t) value c = Err MalformedOneNoteFileData.
Proof.
  intro H; revert value c; induction H as [|b l Hb H IH]; intros value c Hc Ht.
  - destruct t; [congruence|]. cbn [app decode_uint_loop]. cbn in Hc.
    replace (c =? 10) with true by lia. reflexivity.
  - cbn [app decode_uint_loop length] in *. land_arith. kill_if.
    apply IH; auto. lia.
Qed.

Lemma mb_too_long l t :
  Forall (fun b => 128 <= b < 256) l -> length l = 10%nat -> t <> [] ->
  decode_uint (l ++ t) = Err MalformedOneNoteFileData.
Proof.
  intros H L Ht. unfold decode_uint. rewrite uint_loop_too_long; auto. rewrite L. reflexivity.
Qed.

(** ** UTF-16 *)

Lemma u16_bytes_cons u us :
  u16_bytes (u :: us) = u mod 256 :: (u / 256) mod 256 :: u16_bytes us.
Proof. reflexivity. Qed.

Lemma u16_chunks_bytes us t :
  Forall (fun u => u < 65536) us -> (length t <= 1)%nat ->
  u16_chunks (u16_bytes us ++ t) = us.
Proof.
  intros H Ht. induction H as [|u us Hu H IH].
  - destruct t as [|? [|? ?]]; cbn in *; try reflexivity. lia.
  - rewrite u16_bytes_cons. cbn [app u16_chunks]. rewrite IH. f_equal. lia.
Qed.

Lemma truncate_nul_app us r :
  Forall (fun u => u <> 0) us -> truncate_nul (us ++ 0 :: r) = us.
Proof.
  induction 1 as [|u us Hu H IH]; cbn [app truncate_nul]; [reflexivity|].
  replace (u =? 0) with false by lia. now rewrite IH.
Qed.

Lemma truncate_nul_id us :
  Forall (fun u => u <> 0) us -> truncate_nul us = us.
Proof.
  induction 1 as [|u us Hu H IH]; cbn [truncate_nul]; [reflexivity|].
  replace (u =? 0) with false by lia. now rewrite IH.
Qed.

Lemma from_utf16_units c r :
  scalar c ->
  from_utf16 (utf16_units c ++ r) =
    match from_utf16 r with Some s => Some (c :: s) | None => None end.
Proof.
  intro S. unfold utf16_units. destruct (c <? 0x10000) eqn:E; cbn [app from_utf16].
  - unfold is_high_surrogate, is_low_surrogate. destruct S as [S|[S1 S2]]; kill_if; reflexivity.
  - destruct S as [S|[S1 S2]]; [lia|].
    unfold is_high_surrogate, is_low_surrogate. kill_if.
    destruct (from_utf16 r); [|reflexivity]. do 2 f_equal. lia.
Qed.

Lemma from_utf16_enc s : Forall scalar s -> from_utf16 (utf16_enc s) = Some s.
Proof.
  induction 1 as [|c s Hc H IH]; [reflexivity|].
  unfold utf16_enc in *. cbn [flat_map]. rewrite from_utf16_units by auto. now rewrite IH.
Qed.

Lemma from_utf16_sound us s :
  Forall (fun u => u < 65536) us -> from_utf16 us = Some s ->
  Forall scalar s /\ us = utf16_enc s.
Proof.
  remember (length us) as n eqn:En. revert us s En.
  induction n as [n IH] using lt_wf_ind. intros us s En B H.
  destruct us as [|u r]; cbn [from_utf16] in H.
  { injection H as <-. split; [constructor|reflexivity]. }
  inversion B as [|? ? Hu Br]; subst.
  destruct (is_high_surrogate u) eqn:EH.
  - destruct r as [|v r']; [discriminate|]. destruct (is_low_surrogate v) eqn:EL; [|discriminate].
    destruct (from_utf16 r') as [s'|] eqn:E; [|discriminate]. injection H as <-.
    inversion Br; subst.
    destruct (IH (length r')) with (us := r') (s := s') as [A ->]; auto; [cbn; lia|].
    unfold is_high_surrogate, is_low_surrogate in *.
    split; [constructor; auto; right; lia|].
    unfold utf16_enc. cbn [flat_map]. unfold utf16_units at 2. kill_if. cbn [app].
    f_equal; [lia|]. f_equal. lia.
  - destruct (is_low_surrogate u) eqn:EL; [discriminate|].
    destruct (from_utf16 r) as [s'|] eqn:E; [|discriminate]. injection H as <-.
    destruct (IH (length r)) with (us := r) (s := s') as [A ->]; auto.
    unfold is_high_surrogate, is_low_surrogate in *.
    split; [constructor; auto; unfold scalar; lia|].
    unfold utf16_enc. cbn [flat_map]. unfold utf16_units at 2. kill_if. reflexivity.
Qed.

Lemma utf16_units_range c : scalar c -> Forall (fun u => u < 65536) (utf16_units c).
Proof.
  intro S. unfold utf16_units. destruct (c <? _) eqn:E; repeat constructor; try lia.
  all: destruct S as [S|[S1 S2]]; lia.
Qed.

Lemma utf16_units_nonzero c : c <> 0 -> Forall (fun u => u <> 0) (utf16_units c).
Proof. intro S. unfold utf16_units. destruct (c <? _) eqn:E; repeat constructor; lia. Qed.

Lemma utf16_enc_range s : Forall scalar s -> Forall (fun u => u < 65536) (utf16_enc s).
Proof.
  induction 1; cbn; [constructor|]. apply Forall_app; split; auto using utf16_units_range.
Qed.

Lemma utf16_enc_nonzero s : Forall (fun c => c <> 0) s -> Forall (fun u => u <> 0) (utf16_enc s).
Proof.
  induction 1; cbn; [constructor|]. apply Forall_app; split; auto using utf16_units_nonzero.
Qed.

Lemma utf16_roundtrip s t :
  Forall scalar s -> Forall (fun c => c <> 0) s -> (length t <= 1)%nat ->
  utf16_to_string (u16_bytes (utf16_enc s) ++ t) = Ok s.
Proof.
  intros S Z T. unfold utf16_to_string.
  rewrite u16_chunks_bytes, truncate_nul_id, from_utf16_enc;
    auto using utf16_enc_range, utf16_enc_nonzero.
Qed.

Lemma u16_bytes_app a b : u16_bytes (a ++ b) = u16_bytes a ++ u16_bytes b.
Proof. apply flat_map_app. Qed.

Lemma u16_chunks_app us t :
  Forall (fun u => u < 65536) us -> u16_chunks (u16_bytes us ++ t) = us ++ u16_chunks t.
Proof.
  intros H. induction H as [|u us Hu H IH]; [reflexivity|].
  rewrite u16_bytes_cons. cbn [app u16_chunks]. rewrite IH. f_equal. lia.
Qed.

Lemma utf16_stops_at_nul s t :
  Forall scalar s -> Forall (fun c => c <> 0) s ->
  utf16_to_string (u16_bytes (utf16_enc s) ++ 0 :: 0 :: t) = Ok s.
Proof.
  intros S Z. unfold utf16_to_string. rewrite u16_chunks_app by auto using utf16_enc_range.
  cbn [u16_chunks]. change (0 + 256 * 0) with 0.
  rewrite truncate_nul_app, from_utf16_enc; auto using utf16_enc_nonzero.
Qed.

Lemma u16_chunks_range bs : bytes_ok bs -> Forall (fun u => u < 65536) (u16_chunks bs).
Proof.
  remember (length bs) as n eqn:En. revert bs En.
  induction n as [n IH] using lt_wf_ind. intros bs En B.
  destruct bs as [|a [|b r]]; cbn [u16_chunks]; try constructor.
  - inversion B as [|? ? Ha B']; inversion B'; subst. lia.
  - eapply (IH (length r)); subst; cbn; auto. inversion B as [|? ? Ha B']; inversion B'; auto.
Qed.

Lemma truncate_nul_spec us :
  exists rest, us = truncate_nul us ++ rest /\ (rest = [] \/ exists r, rest = 0 :: r) /\
    Forall (fun u => u <> 0) (truncate_nul us).
Proof.
  induction us as [|u us (rest & E & D & F)]; cbn [truncate_nul].
  - exists []; repeat split; auto.
  - destruct (u =? 0) eqn:Z.
    + exists (u :: us); repeat split; auto. right. exists us. f_equal. lia.
    + exists rest; repeat split; auto; [cbn; congruence|]. constructor; auto. lia.
Qed.

(** Complete characterisation: decoding succeeds with [s] exactly when the code
    units before the first NUL are the UTF-16 encoding of [s]; otherwise it is a
    malformed-data error. *)
Lemma utf16_decode_spec bs :
  bytes_ok bs ->
  let us := truncate_nul (u16_chunks bs) in
  (exists s, utf16_to_string bs = Ok s /\ Forall scalar s /\ us = utf16_enc s) \/
  (utf16_to_string bs = Err MalformedOneNoteData /\
   ~ exists s, Forall scalar s /\ us = utf16_enc s).
Proof.
  intros B us. unfold utf16_to_string. fold us.
  assert (R : Forall (fun u => u < 65536) us).
  { destruct (truncate_nul_spec (u16_chunks bs)) as (rest & E & _).
    pose proof (u16_chunks_range bs B) as R. rewrite E in R. apply Forall_app in R. apply R. }
  destruct (from_utf16 us) as [s|] eqn:E.
  - left. exists s. split; auto. apply from_utf16_sound; auto.
  - right. split; auto. intros (s & S & Es). rewrite Es, from_utf16_enc in E by auto. discriminate.
Qed.
