(** Proofs about [Codec.v]. *)
From Coq Require Import Lia ZifyBool ZifyNat ZifyN.
From Verif Require Import Base BaseProofs Codec SpecCodec.
Ltac Zify.zify_post_hook ::= Z.div_mod_to_equations.

Arguments N.add : simpl never.
Arguments N.mul : simpl never.
Arguments N.sub : simpl never.
Arguments N.pow : simpl never.
Arguments N.div : simpl never.
Arguments N.modulo : simpl never.
Arguments N.land : simpl never.
Arguments N.lor : simpl never.
Arguments N.shiftr : simpl never.
Arguments N.shiftl : simpl never.

(** ** Automation for [good] *)

Create HintDb gdb.

Lemma good_0 {A} k (p : parser A) : good k p -> good 0 p.
Proof. apply good_weaken; lia. Qed.

Lemma good_u8 : good 1 get_u8. Proof. exact (good_get_le 1). Qed.
Lemma good_u16 : good 1 get_u16. Proof. eapply good_weaken; [|apply good_get_le]; cbn; lia. Qed.
Lemma good_u32 : good 1 get_u32. Proof. eapply good_weaken; [|apply good_get_le]; cbn; lia. Qed.
Lemma good_u64 : good 1 get_u64. Proof. eapply good_weaken; [|apply good_get_le]; cbn; lia. Qed.
Lemma good_u128 : good 1 get_u128. Proof. eapply good_weaken; [|apply good_get_le]; cbn; lia. Qed.
Lemma good_f32 : good 1 get_f32. Proof. eapply good_weaken; [|apply good_get_le]; cbn; lia. Qed.
Lemma good_read0 n : good 0 (read n). Proof. eapply good_0; apply good_read. Qed.
Lemma good_advance0 n : good 0 (advance n). Proof. eapply good_0; apply good_advance. Qed.
Lemma good_advance1 : good 1 (advance 1). Proof. exact (good_advance 1). Qed.
Lemma good_pfail1 {A} e : good 1 (@pfail A e). Proof. apply good_pfail. Qed.
Lemma good_pfail0 {A} e : good 0 (@pfail A e). Proof. apply good_pfail. Qed.

#[export] Hint Resolve good_u8 good_u16 good_u32 good_u64 good_u128 good_f32
  good_read0 good_advance0 good_advance1 good_pfail1 good_pfail0 good_pret : gdb.

Ltac good_leaf :=
  solve [ eauto 2 with gdb nocore
        | simple eapply good_0; eauto 2 with gdb nocore
        | eapply good_weaken; [|apply good_read]; cbn; lia ].

Ltac gd :=
  intros; lazymatch goal with
  | |- good ?k (pbind _ _) =>
    first [ apply good_bind_l; [ good_leaf | solve [gd] ]
          | apply good_bind_r; [ good_leaf | solve [gd] ]
          | apply good_bind_l; [ solve [gd] | solve [gd] ] ]
  | |- good _ (if ?b then _ else _) => destruct b; gd
  | |- good _ (match ?x with _ => _ end) => destruct x; gd
  | |- good _ (let x := _ in _) => cbv zeta; gd
  | |- good 1 (with_peek _) => apply good_peek; gd
  | |- good 0 (with_peek _) => apply (good_0 1); apply good_peek; gd
  | |- good 0 (rep _ _) => apply good_rep; gd
  | |- _ => good_leaf
  end.

Lemma good_guid : good 1 guid_parse. Proof. unfold guid_parse; gd. Qed.
#[export] Hint Resolve good_guid : gdb.

Lemma good_compact : good 1 compact_parse.
Proof. unfold compact_parse; gd. Qed.
#[export] Hint Resolve good_compact : gdb.

Lemma good_exguid : good 1 exguid_parse. Proof. unfold exguid_parse; gd. Qed.
#[export] Hint Resolve good_exguid : gdb.
Lemma good_exguid_array : good 1 exguid_parse_array. Proof. unfold exguid_parse_array; gd. Qed.
Lemma good_cellid : good 1 cellid_parse. Proof. unfold cellid_parse; gd. Qed.
#[export] Hint Resolve good_exguid_array good_cellid : gdb.
Lemma good_cellid_array : good 1 cellid_parse_array. Proof. unfold cellid_parse_array; gd. Qed.
Lemma good_binary_item : good 1 binary_item_parse. Proof. unfold binary_item_parse; gd. Qed.
Lemma good_serial : good 1 serial_parse. Proof. unfold serial_parse; gd. Qed.
#[export] Hint Resolve good_cellid_array good_binary_item good_serial : gdb.
Lemma good_header_16 : good 1 header_parse_16. Proof. unfold header_parse_16; gd. Qed.
Lemma good_header_32 : good 1 header_parse_32. Proof. unfold header_parse_32; gd. Qed.
#[export] Hint Resolve good_header_16 good_header_32 : gdb.
Lemma good_header : good 1 header_parse. Proof. unfold header_parse; gd. Qed.
Lemma good_end_16 : good 1 end_parse_16. Proof. unfold end_parse_16; gd. Qed.
Lemma good_end_8 : good 1 end_parse_8. Proof. unfold end_parse_8; gd. Qed.
#[export] Hint Resolve good_header good_end_16 good_end_8 : gdb.
Lemma good_try_parse t : good 1 (try_parse t).
Proof. unfold try_parse, try_parse_start; gd. Qed.
Lemma good_try_parse_16 t : good 1 (try_parse_16 t).
Proof. unfold try_parse_16, try_parse_start; gd. Qed.
Lemma good_try_parse_32 t : good 1 (try_parse_32 t).
Proof. unfold try_parse_32, try_parse_start; gd. Qed.
Lemma good_try_parse_end_16 t : good 1 (try_parse_end_16 t).
Proof. unfold try_parse_end_16, try_parse_end; gd. Qed.
Lemma good_try_parse_end_8 t : good 1 (try_parse_end_8 t).
Proof. unfold try_parse_end_8, try_parse_end; gd. Qed.
#[export] Hint Resolve good_try_parse good_try_parse_16 good_try_parse_32
  good_try_parse_end_16 good_try_parse_end_8 : gdb.

Lemma good_until_end_8 {A} t (body : A -> parser A) s :
  (forall s, good 1 (body s)) -> good 1 (until_end_8 t body s).
Proof. intro; apply good_until; auto with gdb. Qed.
#[export] Hint Resolve good_until_end_8 : gdb.

(** ** Little-endian numbers *)

Lemma pow256_S n : 256 ^ N.of_nat (S n) = 256 * 256 ^ N.of_nat n.
Proof. rewrite Nat2N.inj_succ, N.pow_succ_r'; reflexivity. Qed.

Lemma le_bound bs : bytes_ok bs -> le bs < 256 ^ N.of_nat (length bs).
Proof.
  induction 1 as [|b r Hb _ IH]; [reflexivity|].
  cbn [le length]. rewrite pow256_S.
  set (X := 256 ^ _) in *; clearbody X. lia.
Qed.

Lemma le_bytes_length n v : length (le_bytes n v) = n.
Proof. revert v; induction n; cbn; auto. Qed.

Lemma le_bytes_ok n v : bytes_ok (le_bytes n v).
Proof.
  revert v; induction n; intro v; cbn; constructor; [|apply IHn].
  apply N.mod_lt; lia.
Qed.

Lemma le_le_bytes n v : v < 256 ^ N.of_nat n -> le (le_bytes n v) = v.
Proof.
  revert v; induction n as [|n IH]; intros v H; cbn [le le_bytes].
  - cbn in H; lia.
  - rewrite pow256_S in H. rewrite IH.
    + lia.
    + set (X := 256 ^ _) in *; clearbody X. lia.
Qed.

Lemma le_bytes_le bs : bytes_ok bs -> le_bytes (length bs) (le bs) = bs.
Proof.
  induction 1 as [|b r Hb _ IH]; [reflexivity|].
  cbn [le length le_bytes]. f_equal.
  - lia.
  - replace ((b + 256 * le r) / 256) with (le r) by lia. exact IH.
Qed.

Lemma le_app a b : le (a ++ b) = le a + 256 ^ N.of_nat (length a) * le b.
Proof.
  induction a as [|x a IH]; [cbn [app le length N.of_nat]; rewrite N.pow_0_r; lia|].
  cbn [app le length]. rewrite IH, pow256_S. lia.
Qed.

Lemma be_app a b : be (a ++ [b]) = be a * 256 + b.
Proof. unfold be; rewrite fold_left_app; reflexivity. Qed.

Lemma be_rev l : be (rev l) = le l.
Proof.
  induction l as [|x l IH]; [reflexivity|].
  cbn [rev le]. rewrite be_app, IH. lia.
Qed.

Lemma bytes_ok_app a b : bytes_ok (a ++ b) <-> bytes_ok a /\ bytes_ok b.
Proof. apply Forall_app. Qed.

Lemma bytes_ok_firstn n bs : bytes_ok bs -> bytes_ok (firstn n bs).
Proof. intro H; rewrite <- (firstn_skipn n bs) in H; apply bytes_ok_app in H; tauto. Qed.

Lemma bytes_ok_skipn n bs : bytes_ok bs -> bytes_ok (skipn n bs).
Proof. intro H; rewrite <- (firstn_skipn n bs) in H; apply bytes_ok_app in H; tauto. Qed.

Lemma read_app l t : read (N.of_nat (length l)) (l ++ t) = Ok (l, t).
Proof.
  unfold read, remaining. rewrite app_length.
  replace (_ <? _) with false by (symmetry; apply N.ltb_ge; lia).
  rewrite Nat2N.id, firstn_app, skipn_app, firstn_all, skipn_all, Nat.sub_diag.
  cbn. now rewrite app_nil_r.
Qed.

Lemma get_le_app n l t :
  N.of_nat (length l) = n -> get_le n (l ++ t) = Ok (le l, t).
Proof. intros <-. unfold get_le, pbind. now rewrite read_app. Qed.

Lemma get_le_bytes n v t :
  v < 256 ^ N.of_nat n -> get_le (N.of_nat n) (le_bytes n v ++ t) = Ok (v, t).
Proof.
  intro H. rewrite get_le_app by (now rewrite le_bytes_length).
  now rewrite le_le_bytes.
Qed.

Lemma get_u8_cons b t : get_u8 (b :: t) = Ok (b, t).
Proof.
  unfold get_u8. change (b :: t) with ([b] ++ t).
  rewrite get_le_app by reflexivity. cbn [le]. repeat f_equal. lia.
Qed.

Lemma read_inv n bs x rest :
  read n bs = Ok (x, rest) -> bs = x ++ rest /\ N.of_nat (length x) = n.
Proof.
  unfold read, remaining. destruct (_ <? n) eqn:E; [discriminate|].
  intro H; injection H as <- <-. split.
  - now rewrite firstn_skipn.
  - rewrite firstn_length. lia.
Qed.

Lemma get_le_inv n bs v rest :
  bytes_ok bs -> get_le (N.of_nat n) bs = Ok (v, rest) ->
  bs = le_bytes n v ++ rest /\ v < 256 ^ N.of_nat n.
Proof.
  intros B H. unfold get_le, pbind in H.
  destruct (read (N.of_nat n) bs) as [[x r]|e| |] eqn:E; try discriminate.
  injection H as <- <-. apply read_inv in E as [-> L].
  apply bytes_ok_app in B as [B _].
  assert (length x = n) as <- by lia.
  rewrite le_bytes_le by auto. split; auto. apply le_bound; auto.
Qed.

(** ** Bits as arithmetic *)

Lemma land_pow2 b j : (N.land b (2 ^ j) =? 0) = negb (N.testbit b j).
Proof.
  destruct (N.testbit b j) eqn:T; cbn [negb].
  - apply N.eqb_neq; intro H.
    assert (N.testbit (N.land b (2 ^ j)) j = true)
      by (rewrite N.land_spec, T, N.pow2_bits_true; reflexivity).
    rewrite H, N.bits_0 in *; discriminate.
  - apply N.eqb_eq. apply N.bits_inj; intro i. rewrite N.land_spec, N.bits_0.
    destruct (N.eq_dec i j) as [->|D]; [now rewrite T|].
    rewrite N.pow2_bits_false by auto. apply andb_false_r.
Qed.

Lemma land_1 b : (N.land b 1 =? 0) = negb (b mod 2 =? 1).
Proof. change 1 with (2 ^ 0) at 1. rewrite land_pow2, N.testbit_eqb, N.pow_0_r, N.div_1_r. reflexivity. Qed.
Lemma land_2 b : (N.land b 2 =? 0) = negb (b / 2 mod 2 =? 1).
Proof. change 2 with (2 ^ 1) at 1. rewrite land_pow2, N.testbit_eqb. reflexivity. Qed.
Lemma land_4 b : (N.land b 4 =? 0) = negb (b / 4 mod 2 =? 1).
Proof. change 4 with (2 ^ 2) at 1. rewrite land_pow2, N.testbit_eqb. reflexivity. Qed.
Lemma land_8 b : (N.land b 8 =? 0) = negb (b / 8 mod 2 =? 1).
Proof. change 8 with (2 ^ 3) at 1. rewrite land_pow2, N.testbit_eqb. reflexivity. Qed.
Lemma land_16 b : (N.land b 16 =? 0) = negb (b / 16 mod 2 =? 1).
Proof. change 16 with (2 ^ 4) at 1. rewrite land_pow2, N.testbit_eqb. reflexivity. Qed.
Lemma land_32 b : (N.land b 32 =? 0) = negb (b / 32 mod 2 =? 1).
Proof. change 32 with (2 ^ 5) at 1. rewrite land_pow2, N.testbit_eqb. reflexivity. Qed.
Lemma land_64 b : (N.land b 64 =? 0) = negb (b / 64 mod 2 =? 1).
Proof. change 64 with (2 ^ 6) at 1. rewrite land_pow2, N.testbit_eqb. reflexivity. Qed.
Lemma land_128 b : (N.land b 128 =? 0) = negb (b / 128 mod 2 =? 1).
Proof. change 128 with (2 ^ 7) at 1. rewrite land_pow2, N.testbit_eqb. reflexivity. Qed.

Lemma land_pow2_eq b j : (N.land b (2 ^ j) =? 2 ^ j) = N.testbit b j.
Proof.
  destruct (N.testbit b j) eqn:T.
  - apply N.eqb_eq. apply N.bits_inj; intro i. rewrite N.land_spec.
    destruct (N.eq_dec i j) as [->|D]; [now rewrite T, N.pow2_bits_true|].
    rewrite N.pow2_bits_false by auto. apply andb_false_r.
  - apply N.eqb_neq; intro H. pose proof (land_pow2 b j) as L.
    rewrite T, H in L. cbn in L. apply N.eqb_eq in L.
    apply N.pow_nonzero in L; [auto|lia].
Qed.

Lemma land_4_eq b : (N.land b 4 =? 4) = (b / 4 mod 2 =? 1).
Proof. change 4 with (2 ^ 2) at 1 2. rewrite land_pow2_eq, N.testbit_eqb. reflexivity. Qed.
Lemma land_128_eq b : (N.land b 128 =? 128) = (b / 128 mod 2 =? 1).
Proof. change 128 with (2 ^ 7) at 1 2. rewrite land_pow2_eq, N.testbit_eqb. reflexivity. Qed.
Lemma land_1_eq b : (N.land b 1 =? 1) = (b mod 2 =? 1).
Proof. change 1 with (2 ^ 0) at 1 2. rewrite land_pow2_eq, N.testbit_eqb, N.pow_0_r, N.div_1_r. reflexivity. Qed.

Lemma land_mask_3 b : N.land b 3 = b mod 4. Proof. apply (N.land_ones b 2). Qed.
Lemma land_mask_7 b : N.land b 7 = b mod 8. Proof. apply (N.land_ones b 3). Qed.
Lemma land_mask_63 b : N.land b 63 = b mod 64. Proof. apply (N.land_ones b 6). Qed.
Lemma land_mask_127 b : N.land b 127 = b mod 128. Proof. apply (N.land_ones b 7). Qed.
Lemma land_mask_3fff b : N.land b 0x3fff = b mod 0x4000. Proof. apply (N.land_ones b 14). Qed.

Lemma lor_disjoint a b k : b < 2 ^ k -> N.lor (a * 2 ^ k) b = a * 2 ^ k + b.
Proof.
  intro H. assert (D : N.land (a * 2 ^ k) b = 0).
  { apply N.bits_inj; intro i. rewrite N.land_spec, N.bits_0.
    destruct (N.lt_ge_cases i k).
    - rewrite N.mul_pow2_bits_low by auto. reflexivity.
    - replace b with (b mod 2 ^ k) by (apply N.mod_small; auto).
      rewrite N.mod_pow2_bits_high by auto. apply andb_false_r. }
  rewrite <- N.lxor_lor by auto. symmetry. apply N.add_nocarry_lxor. exact D.
Qed.

Lemma lor_shiftl a b k : b < 2 ^ k -> N.lor (N.shiftl a k) b = a * 2 ^ k + b.
Proof. rewrite N.shiftl_mul_pow2. apply lor_disjoint. Qed.

