(** Round trips and their converses for [Codec.v]. *)
From Coq Require Import Lia ZifyBool ZifyNat ZifyN.
From Verif Require Import Base BaseProofs Codec SpecCodec CodecProofs.
Ltac Zify.zify_post_hook ::= Z.div_mod_to_equations.

(** Evaluate closed powers. *)
Ltac cpow :=
  repeat match goal with
  | |- context [N.pow ?a ?b] =>
    let v := eval vm_compute in (N.pow a b) in change (N.pow a b) with v
  | H : context [N.pow ?a ?b] |- _ =>
    let v := eval vm_compute in (N.pow a b) in change (N.pow a b) with v in H
  end.

(** Finite sweeps. *)
Definition range (n : nat) : list N := map N.of_nat (seq 0 n).

Lemma sweep n (P : N -> bool) :
  forallb P (range n) = true -> forall b, b < N.of_nat n -> P b = true.
Proof.
  intros H b Hb. rewrite forallb_forall in H. apply H.
  unfold range. apply in_map_iff. exists (N.to_nat b). split; [lia|].
  apply in_seq. lia.
Qed.

Lemma sweep_impl n (P Q : N -> bool) :
  forallb (fun b => implb (P b) (Q b)) (range n) = true ->
  forall b, b < N.of_nat n -> P b = true -> Q b = true.
Proof.
  intros H b Hb HP. pose proof (sweep n _ H b Hb) as S. cbn beta in S.
  rewrite HP in S. exact S.
Qed.

(** ** Compact integers *)

(** The low [k-1] bits are clear and bit [k-1] is set. *)
Definition tag_bits (k : nat) (b : N) : bool :=
  forallb (fun i => negb (b / 2 ^ i mod 2 =? 1)) (range (k - 1))
  && (b / 2 ^ (N.of_nat k - 1) mod 2 =? 1).

Lemma tag_bits_mod k b :
  (1 <= k <= 7)%nat -> b < 256 -> tag_bits k b = true ->
  b mod 2 ^ N.of_nat k = 2 ^ (N.of_nat k - 1).
Proof.
  intros Hk Hb H. apply N.eqb_eq.
  assert (K : k = 1%nat \/ k = 2%nat \/ k = 3%nat \/ k = 4%nat \/ k = 5%nat \/ k = 6%nat \/ k = 7%nat) by lia.
  destruct K as [->|[->|[->|[->|[->|[->| ->]]]]]];
    revert H; apply (sweep_impl 256 (tag_bits _) (fun b => b mod _ =? _)); auto;
    vm_compute; reflexivity.
Qed.

Lemma last_tag b :
  b < 256 ->
  (if b =? 0 then true else
   existsb (fun k => tag_bits k b) (seq 1 7) || (b =? 128)) = true.
Proof. apply (sweep 256 (fun b => if b =? 0 then true else existsb (fun k => tag_bits k b) (seq 1 7) || (b =? 128))). vm_compute; reflexivity. Qed.

Lemma compact_first k v :
  (1 <= k <= 7)%nat ->
  exists m, le_bytes k (v * 2 ^ N.of_nat k + 2 ^ (N.of_nat k - 1))
     = (v * 2 ^ N.of_nat k + 2 ^ (N.of_nat k - 1)) mod 256 :: m.
Proof. intro H. destruct k; [lia|]. cbn [le_bytes]. eexists; reflexivity. Qed.

Lemma read_le_bytes n v t :
  read (N.of_nat n) (le_bytes n v ++ t) = Ok (le_bytes n v, t).
Proof.
  rewrite <- (le_bytes_length n v) at 1. apply read_app.
Qed.

Ltac kill_if :=
  repeat match goal with
  | |- context [if ?c then _ else _] =>
    first [ replace c with true by (symmetry; lia)
          | replace c with false by (symmetry; lia) ];
    cbv iota
  end.

Lemma compact_parse_short k v t :
  (1 <= k <= 7)%nat -> v < 2 ^ (7 * N.of_nat k) ->
  compact_parse (le_bytes k (v * 2 ^ N.of_nat k + 2 ^ (N.of_nat k - 1)) ++ t) = Ok (v, t).
Proof.
  intros Hk Hv.
  remember (v * 2 ^ N.of_nat k + 2 ^ (N.of_nat k - 1)) as n eqn:En.
  assert (P : exists m, le_bytes k n = n mod 256 :: m) by (subst n; apply compact_first; auto).
  destruct P as [m P].
  unfold compact_parse, with_peek. rewrite P at 1. cbn [app peek].
  rewrite land_1, land_2, land_4, land_8, land_16, land_32, land_64, land_128.
  rewrite !negb_involutive.
  assert (Hn : n < 256 ^ N.of_nat k).
  { subst n. do 8 (destruct k as [|k]; [try lia; cpow; lia|]); lia. }
  assert (K : k = 1%nat \/ k = 2%nat \/ k = 3%nat \/ k = 4%nat \/ k = 5%nat \/ k = 6%nat \/ k = 7%nat) by lia;
  destruct K as [->|[->|[->|[->|[->|[->| ->]]]]]];
    cpow;
    (* the tag bits decide the branch *)
    [ kill_if; pose proof (get_le_bytes 1 n t Hn) as G
    | kill_if; pose proof (get_le_bytes 2 n t Hn) as G
    | kill_if; pose proof (read_le_bytes 3 n t) as G
    | kill_if; pose proof (read_le_bytes 4 n t) as G
    | kill_if; pose proof (read_le_bytes 5 n t) as G
    | kill_if; pose proof (read_le_bytes 6 n t) as G
    | kill_if; pose proof (read_le_bytes 7 n t) as G ];
    unfold get_u8, get_u16, pbind; cbn [N.of_nat Pos.of_succ_nat Pos.succ] in G; rewrite G;
    rewrite ?le_le_bytes by exact Hn; unfold pret;
    rewrite N.shiftr_div_pow2; repeat f_equal; cpow; lia.
Qed.

Lemma advance_1_cons b t : advance 1 (b :: t) = Ok (tt, t).
Proof.
  unfold advance, remaining. cbn [length].
  replace (_ <? _) with false by (symmetry; apply N.ltb_ge; lia). reflexivity.
Qed.

Ltac land_arith :=
  rewrite ?land_1, ?land_2, ?land_4, ?land_8, ?land_16, ?land_32, ?land_64,
    ?land_128, ?negb_involutive, ?land_4_eq, ?land_128_eq, ?land_1_eq,
    ?land_mask_3, ?land_mask_7, ?land_mask_63, ?land_mask_127, ?land_mask_3fff.

Lemma compact_parse_full v t :
  v < 2 ^ 64 -> compact_parse (0x80 :: le_bytes 8 v ++ t) = Ok (v, t).
Proof.
  intro Hv. unfold compact_parse, with_peek; cbn [peek]. land_arith. kill_if.
  unfold pbind. rewrite advance_1_cons. apply (get_le_bytes 8). exact Hv.
Qed.

Lemma compact_parse_zero t : compact_parse (0 :: t) = Ok (0, t).
Proof.
  unfold compact_parse, with_peek; cbn [peek]. kill_if.
  unfold pbind. rewrite advance_1_cons. reflexivity.
Qed.

Lemma compact_roundtrip v e t :
  compact_encodes v e -> compact_parse (e ++ t) = Ok (v, t).
Proof.
  intros [|k w Hk Hw|w Hw].
  - apply compact_parse_zero.
  - apply compact_parse_short; auto.
  - apply compact_parse_full; auto.
Qed.

Lemma compact_short_inv k x :
  (1 <= k <= 7)%nat -> bytes_ok x -> length x = k ->
  le x mod 2 ^ N.of_nat k = 2 ^ (N.of_nat k - 1) ->
  compact_encodes (N.shiftr (le x) (N.of_nat k)) x.
Proof.
  intros Hk B L M. rewrite N.shiftr_div_pow2.
  pose proof (le_bound x B) as Lt. rewrite L in Lt.
  rewrite <- (le_bytes_le x B) at 2. rewrite L.
  replace (le x) with (le x / 2 ^ N.of_nat k * 2 ^ N.of_nat k + 2 ^ (N.of_nat k - 1)) at 2.
  - apply ce_short; auto. clear L M.
    assert (K : k = 1%nat \/ k = 2%nat \/ k = 3%nat \/ k = 4%nat \/ k = 5%nat \/ k = 6%nat \/ k = 7%nat) by lia;
  destruct K as [->|[->|[->|[->|[->|[->| ->]]]]]]; cpow; lia.
  - rewrite <- M. rewrite N.mul_comm. symmetry. apply N.div_mod.
    apply N.pow_nonzero; lia.
Qed.

(** Rewrites the tag-bit tests recorded in the context. *)
Ltac tagz :=
  change (N.of_nat 0) with 0; change (N.of_nat 1) with 1; change (N.of_nat 2) with 2;
  change (N.of_nat 3) with 3; change (N.of_nat 4) with 4; change (N.of_nat 5) with 5;
  change (N.of_nat 6) with 6; change (N.of_nat 7) with 7;
  cpow; change (1 - 1) with 0; change (2 - 1) with 1; change (3 - 1) with 2;
  rewrite ?N.div_1_r;
  repeat match goal with E : (_ =? 1) = _ |- _ => rewrite E end;
  try reflexivity.

Lemma compact_sound bs v rest :
  bytes_ok bs -> compact_parse bs = Ok (v, rest) ->
  exists e, bs = e ++ rest /\ compact_encodes v e.
Proof.
  intros B H. unfold compact_parse, with_peek in H.
  destruct bs as [|b bs]; [discriminate|]; cbn [peek] in H.
  assert (Hb : b < 256) by (inversion B; auto).
  revert H; land_arith.
  assert (RD : forall k (x r : list N), (1 <= k <= 7)%nat ->
    read (N.of_nat k) (b :: bs) = Ok (x, r) ->
    tag_bits k b = true ->
    exists e, b :: bs = e ++ r /\ compact_encodes (N.shiftr (le x) (N.of_nat k)) e).
  { intros k x r Hk E Hm. apply tag_bits_mod in Hm; auto. apply read_inv in E as [E L].
    rewrite E in B. apply bytes_ok_app in B as [B _].
    exists x; split; auto. apply compact_short_inv; auto; [lia|].
    destruct x as [|b' x]; [cbn in L; lia|]. cbn in E; injection E as <- _.
    cbn [le]. rewrite <- Hm.
    assert (K : k = 1%nat \/ k = 2%nat \/ k = 3%nat \/ k = 4%nat \/ k = 5%nat \/ k = 6%nat \/ k = 7%nat) by lia;
    destruct K as [->|[->|[->|[->|[->|[->| ->]]]]]]; cpow; lia. }
  assert (GL : forall k (x : N) r, (1 <= k <= 7)%nat ->
    get_le (N.of_nat k) (b :: bs) = Ok (x, r) ->
    tag_bits k b = true ->
    exists e, b :: bs = e ++ r /\ compact_encodes (N.shiftr x (N.of_nat k)) e).
  { intros k x r Hk E Hm. unfold get_le, pbind in E.
    destruct (read (N.of_nat k) (b :: bs)) as [[y s]| | |] eqn:R; try discriminate.
    injection E as <- <-. eauto. }
  destruct (b =? 0) eqn:E0.
  { unfold pbind; rewrite advance_1_cons; intro H; injection H as <- <-.
    exists [0]; split; [cbn; f_equal; lia|constructor]. }
  destruct (b mod 2 =? 1) eqn:E1.
  { unfold pbind, get_u8, pret; destruct (get_le 1 _) as [[x r]| | |] eqn:R; try discriminate.
    intro H; injection H as <- <-. apply (GL 1%nat x r); [lia|assumption|].
    unfold tag_bits; cbn [forallb range seq map Nat.sub]. tagz. }
  destruct (b / 2 mod 2 =? 1) eqn:E2.
  { unfold pbind, get_u16, pret; destruct (get_le 2 _) as [[x r]| | |] eqn:R; try discriminate.
    intro H; injection H as <- <-. apply (GL 2%nat x r); [lia|assumption|].
    unfold tag_bits; cbn [forallb range seq map Nat.sub]. tagz. }
  destruct (b / 4 mod 2 =? 1) eqn:E3.
  { unfold pbind, pret; destruct (read 3 _) as [[x r]| | |] eqn:R; try discriminate.
    intro H; injection H as <- <-. apply (RD 3%nat x r); [lia|assumption|].
    unfold tag_bits; cbn [forallb range seq map Nat.sub]. tagz. }
  destruct (b / 8 mod 2 =? 1) eqn:E4.
  { unfold pbind, pret; destruct (read 4 _) as [[x r]| | |] eqn:R; try discriminate.
    intro H; injection H as <- <-. apply (RD 4%nat x r); [lia|assumption|].
    unfold tag_bits; cbn [forallb range seq map Nat.sub]. tagz. }
  destruct (b / 16 mod 2 =? 1) eqn:E5.
  { unfold pbind, pret; destruct (read 5 _) as [[x r]| | |] eqn:R; try discriminate.
    intro H; injection H as <- <-. apply (RD 5%nat x r); [lia|assumption|].
    unfold tag_bits; cbn [forallb range seq map Nat.sub]. tagz. }
  destruct (b / 32 mod 2 =? 1) eqn:E6.
  { unfold pbind, pret; destruct (read 6 _) as [[x r]| | |] eqn:R; try discriminate.
    intro H; injection H as <- <-. apply (RD 6%nat x r); [lia|assumption|].
    unfold tag_bits; cbn [forallb range seq map Nat.sub]. tagz. }
  destruct (b / 64 mod 2 =? 1) eqn:E7.
  { unfold pbind, pret; destruct (read 7 _) as [[x r]| | |] eqn:R; try discriminate.
    intro H; injection H as <- <-. apply (RD 7%nat x r); [lia|assumption|].
    unfold tag_bits; cbn [forallb range seq map Nat.sub]. tagz. }
  destruct (b / 128 mod 2 =? 1) eqn:E8; [|discriminate].
  assert (b = 128) as ->.
  { pose proof (last_tag b Hb) as L. rewrite E0 in L.
    apply orb_prop in L as [L|L]; [|apply N.eqb_eq in L; exact L]. exfalso.
    cbn [existsb seq] in L. unfold tag_bits in L.
    revert L. cbn [forallb range seq map Nat.sub]. tagz. discriminate. }
  unfold pbind; rewrite advance_1_cons. intro H.
  assert (B' : bytes_ok bs) by (inversion B; auto).
  apply (get_le_inv 8) in H as [-> Hv]; auto.
  exists (0x80 :: le_bytes 8 v); split; [reflexivity|].
  constructor. exact Hv.
Qed.

Lemma compact_encodes_bound v e : compact_encodes v e -> v < 2 ^ 64.
Proof.
  intros [|k w Hk Hw|w Hw]; auto; [reflexivity|].
  eapply N.lt_le_trans; [exact Hw|]. apply N.pow_le_mono_r; lia.
Qed.

Lemma compact_bound bs v rest :
  bytes_ok bs -> compact_parse bs = Ok (v, rest) -> v < 2 ^ 64.
Proof.
  intros B H. apply compact_sound in H as (e & _ & E); auto.
  eapply compact_encodes_bound; eauto.
Qed.

(** Every [u64] has an encoding of each sufficient width. *)
Lemma compact_encodes_bytes v e : compact_encodes v e -> bytes_ok e.
Proof.
  intros [| |w Hw].
  - repeat constructor.
  - apply le_bytes_ok.
  - constructor; [reflexivity|apply (le_bytes_ok 8)].
Qed.

Lemma compact_only_eof bs e :
  bytes_ok bs -> compact_parse bs = Err e -> e = UnexpectedEof.
Proof.
  intros B. unfold compact_parse, with_peek.
  destruct bs as [|b bs]; cbn [peek]; [congruence|].
  assert (Hb : b < 256) by (inversion B; auto). land_arith.
  assert (R : forall n bs' e', read n bs' = Err e' -> e' = UnexpectedEof)
    by (intros n bs' e'; unfold read; destruct (_ <? _); congruence).
  assert (G : forall n bs' e', get_le n bs' = Err e' -> e' = UnexpectedEof).
  { intros n bs' e'; unfold get_le, pbind, pret.
    destruct (read n bs') as [[]| | |] eqn:E; try discriminate.
    intro H; injection H as <-; eauto. }
  unfold pbind, get_u8, get_u16, get_u64, pret.
  destruct (b =? 0) eqn:E0; [rewrite advance_1_cons; discriminate|].
  destruct (b mod 2 =? 1) eqn:E1;
    [destruct (get_le 1 _) as [[]| | |] eqn:X; try discriminate; intro H; injection H as <-; eauto|].
  destruct (b / 2 mod 2 =? 1) eqn:E2;
    [destruct (get_le 2 _) as [[]| | |] eqn:X; try discriminate; intro H; injection H as <-; eauto|].
  destruct (b / 4 mod 2 =? 1) eqn:E3;
    [destruct (read 3 _) as [[]| | |] eqn:X; try discriminate; intro H; injection H as <-; eauto|].
  destruct (b / 8 mod 2 =? 1) eqn:E4;
    [destruct (read 4 _) as [[]| | |] eqn:X; try discriminate; intro H; injection H as <-; eauto|].
  destruct (b / 16 mod 2 =? 1) eqn:E5;
    [destruct (read 5 _) as [[]| | |] eqn:X; try discriminate; intro H; injection H as <-; eauto|].
  destruct (b / 32 mod 2 =? 1) eqn:E6;
    [destruct (read 6 _) as [[]| | |] eqn:X; try discriminate; intro H; injection H as <-; eauto|].
  destruct (b / 64 mod 2 =? 1) eqn:E7;
    [destruct (read 7 _) as [[]| | |] eqn:X; try discriminate; intro H; injection H as <-; eauto|].
  destruct (b / 128 mod 2 =? 1) eqn:E8; [rewrite advance_1_cons; apply G|].
  exfalso. pose proof (last_tag b Hb) as L. rewrite E0 in L.
  apply orb_prop in L as [L|L].
  - cbn [existsb seq] in L. unfold tag_bits in L.
    revert L. cbn [forallb range seq map Nat.sub]. tagz. discriminate.
  - apply N.eqb_eq in L. subst b. discriminate.
Qed.
