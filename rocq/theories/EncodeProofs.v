(** For every valid value, a value of a property that is read as it. *)
From Coq Require Import Lia ZifyBool ZifyNat ZifyN Floats.SpecFloat.
From Verif Require Import ValuesProofs.
From Verif Require Import Base BaseProofs Codec SpecCodec CodecProofs CodecRT2 CodecRT3 Package SpecPackage PropSet PropIds SpecPropSet
  Store Shapes Props Nodes Doc SpecRefs SpecValues SpecNodes SpecDoc SpecValid ExampleFile SpecFile AuthorProofs DescProofs2.
Ltac Zify.zify_post_hook ::= Z.div_mod_to_equations.

Definition enc {A} (R : pvalue -> A -> Prop) (x : A) : Prop := exists s, vgood s /\ forall v, val_means s v -> R v x.

Lemma has_opt {A} (R : pvalue -> A -> Prop) x : if_any (enc R) x -> exists s, writes (opt_rel R x) s.
Proof.
  destruct x as [x|]; cbn; [|intros _; exists None; reflexivity]. intros (s & G & H). exists (Some s). split; [exact G|].
  intros v V. exists x. split; [now apply H|reflexivity].
Qed.
Lemma has_req {A} (R : pvalue -> A -> Prop) x : enc R x -> exists s, writes (req_rel R x) s.
Proof. intros (s & G & H). exists (Some s). split; [exact G|]. intros v V. exists v. split; [reflexivity|now apply H]. Qed.
Lemma has_def {A} (R : pvalue -> A -> Prop) d x : enc R x -> exists s, writes (def_rel R d x) s.
Proof. intros (s & G & H). exists (Some s). split; [exact G|]. intros v V. now apply H. Qed.
Lemma if_any_impl {A} (P Q : A -> Prop) x : (forall y, P y -> Q y) -> if_any P x -> if_any Q x.
Proof. intro H. destruct x; cbn; auto. Qed.

Lemma vg_small s : match s with SEmpty | SBool _ => True | SU8 n => n < 2 ^ 8 | SU16 n => n < 2 ^ 16 | SU32 n => n < 2 ^ 32 | SU64 n => n < 2 ^ 64
                   | SVec d => bytes_ok d /\ N.of_nat (length d) < 2 ^ 26 | _ => False end -> vgood s.
Proof.
  intro H. unfold vgood. destruct s; try contradiction; (refine (conj _ (conj _ (conj _ (conj eq_refl (conj eq_refl (conj I I)))))));
    cbn [w_val_ok val_bytes w_val]; try exact I; try reflexivity; try (apply N.ltb_lt; assumption); try (rewrite le_bytes_length; reflexivity).
  - apply N.ltb_lt. lia.
  - apply H.
  - rewrite app_length, le_bytes_length. lia.
Qed.
Ltac leaf s := exists s; split; [apply vg_small; cbv beta iota|let v := fresh "v" in let V := fresh "V" in intros v V; inversion V; subst].

Lemma e_bool b : enc boolean b.
Proof. leaf (SBool b); [exact I|reflexivity]. Qed.
Lemma e_inverted b : enc inverted b.
Proof. leaf (SBool (negb b)); [exact I|reflexivity]. Qed.
Lemma e_byte n : u8 n -> enc byte n.
Proof. intro H. leaf (SU8 n); [exact H|reflexivity]. Qed.
Lemma e_word n : u16 n -> enc word n.
Proof. intro H. leaf (SU16 n); [exact H|reflexivity]. Qed.
Lemma e_dword n : u32 n -> enc dword n.
Proof. intro H. leaf (SU32 n); [exact H|reflexivity]. Qed.
Lemma e_float n : u32 n -> enc float n.
Proof. intro H. leaf (SU32 n); [exact H|reflexivity]. Qed.
Lemma e_qword n : n < 2 ^ 64 -> enc qword n.
Proof. intro H. leaf (SU64 n); [exact H|reflexivity]. Qed.
Lemma e_raw d : Forall u8 d -> N.of_nat (length d) < 2 ^ 26 -> enc SpecNodes.raw d.
Proof. intros H L. leaf (SVec d); [split; [exact H|exact L]|reflexivity]. Qed.
Lemma e_uuid g : g < 2 ^ 128 -> enc uuid g.
Proof.
  intro H. leaf (SVec (guid_enc g)); [split; [apply guid_enc_ok|rewrite guid_enc_length; reflexivity]|].
  exists (guid_enc g), []. split; [reflexivity|]. rewrite <- (app_nil_r (guid_enc g)). now apply guid_roundtrip.
Qed.
Lemma e_signed z : i32 z -> enc signed z.
Proof.
  intro H. unfold i32 in H. assert (K : exists n, n < 2 ^ 32 /\ z = if n <? 0x80000000 then Z.of_N n else (Z.of_N n - 0x100000000)%Z).
  { exists (Z.to_N (if (z <? 0)%Z then z + 2 ^ 32 else z)%Z). destruct (Z.ltb_spec z 0).
    - split; [lia|]. destruct (N.ltb_spec (Z.to_N (z + 2 ^ 32)) 0x80000000); lia.
    - split; [lia|]. destruct (N.ltb_spec (Z.to_N z) 0x80000000); lia. }
  destruct K as (n & U & K). leaf (SU32 n); [exact U|]. exists n. split; [reflexivity|reflexivity].
Qed.

Lemma u16_bytes_length us : length (u16_bytes us) = (2 * length us)%nat.
Proof. induction us as [|u us IH]; [reflexivity|]. unfold u16_bytes in *. cbn [flat_map length]. rewrite app_length, le_bytes_length. lia. Qed.
Lemma u16_bytes_ok us : bytes_ok (u16_bytes us).
Proof. apply bytes_flat. intros ? _. apply le_bytes_ok. Qed.
Lemma utf16_enc_length s : (length (utf16_enc s) <= 2 * length s)%nat.
Proof. induction s as [|c s IH]; [cbn; lia|]. unfold utf16_enc in *. cbn [flat_map length]. rewrite app_length. unfold utf16_units at 1. destruct (c <? 65536); cbn [length]; lia. Qed.
Lemma e_text s : plain s -> N.of_nat (length s) < 2 ^ 22 -> enc text s.
Proof.
  intros (S & Z) L. leaf (SVec (u16_bytes (utf16_enc s))).
  - split; [apply u16_bytes_ok|]. rewrite u16_bytes_length. pose proof (utf16_enc_length s). lia.
  - eexists. split; [reflexivity|]. rewrite <- (app_nil_r (u16_bytes _)). apply utf16_roundtrip; cbn; auto.
Qed.
Lemma numbers_bytes w ns : Forall (fun n => n < 256 ^ N.of_nat w) ns -> (0 < w)%nat -> numbers w (flat_map (le_bytes w) ns) ns.
Proof.
  intros F W. induction F as [|n ns H _ IH]; [constructor; exact W|]. cbn [flat_map]. constructor; [apply le_bytes_length| |exact IH]. now rewrite le_le_bytes.
Qed.
Lemma flat_le_length w ns : length (flat_map (le_bytes w) ns) = (w * length ns)%nat.
Proof. induction ns as [|n ns IH]; [cbn; lia|]. cbn [flat_map length]. rewrite app_length, le_bytes_length. lia. Qed.
Lemma flat_le_ok w ns : bytes_ok (flat_map (le_bytes w) ns).
Proof. apply bytes_flat. intros ? _. apply le_bytes_ok. Qed.
Lemma e_dwords ns : Forall u32 ns -> N.of_nat (length ns) < 2 ^ 24 -> enc dwords ns.
Proof.
  intros F L. leaf (SVec (flat_map (le_bytes 4) ns)); [split; [apply flat_le_ok|rewrite flat_le_length; lia]|].
  eexists. split; [reflexivity|]. apply numbers_bytes; [exact F|lia].
Qed.
Lemma e_indents ns : indents_ok ns -> enc indents ns.
Proof.
  intros (F & L). leaf (SVec (N.of_nat (length ns) :: 0 :: 0 :: 0 :: flat_map (le_bytes 4) ns)).
  - split; [|cbn [length]; rewrite flat_le_length; lia]. repeat (apply bytes_cons; [lia|]). apply flat_le_ok.
  - exists 0, 0, 0. eexists _, _. split; [reflexivity|]. split; [reflexivity|]. exists (flat_map (le_bytes 4) ns), [].
    split; [now rewrite app_nil_r|]. split; [apply flat_le_length|]. apply numbers_bytes; [exact F|lia].
Qed.
Lemma e_flags fs : Forall u8 fs -> N.of_nat (length fs) < 2 ^ 24 -> enc column_flags fs.
Proof.
  intros F L. leaf (SVec (0 :: fs)); [split; [apply bytes_cons; [lia|exact F]|cbn [length]; lia]|]. right. exists 0. reflexivity.
Qed.
Lemma e_widths ns : Forall u32 ns -> N.of_nat (length ns) < 2 ^ 23 -> enc column_widths ns.
Proof.
  intros F L. leaf (SVec (0 :: flat_map (le_bytes 4) ns)); [split; [apply bytes_cons; [lia|apply flat_le_ok]|cbn [length]; rewrite flat_le_length; lia]|].
  right. exists 0. eexists. split; [reflexivity|]. apply numbers_bytes; [exact F|lia].
Qed.
Lemma mb_enc_ok v : bytes_ok (mb_enc v).
Proof.
  unfold mb_enc. generalize 9%nat. intro n. revert v. induction n as [|n IH]; intro v; cbn [mb_enc_fuel].
  - apply bytes_cons; [lia|constructor].
  - destruct (N.ltb_spec v 128); [apply bytes_cons; [lia|constructor]|]. apply bytes_cons; [lia|apply IH].
Qed.
Lemma e_path zs : Forall i64 zs -> N.of_nat (length zs) < 2 ^ 22 + 2 ^ 20 -> enc path zs.
Proof.
  intros F L. leaf (SVec (mb_stream (map sign_magnitude zs))).
  - unfold mb_stream. split.
    + apply bytes_app; [apply mb_enc_ok|]. rewrite <- flat_map_concat_map. apply bytes_flat. intros ? _. apply mb_enc_ok.
    + rewrite app_length, map_length. pose proof (mb_enc_length (2 * N.of_nat (length zs))) as A. rewrite <- flat_map_concat_map.
      assert (B : (length (flat_map mb_enc (map sign_magnitude zs)) <= 10 * length zs)%nat).
      { clear. induction zs as [|z zs IH]; [cbn; lia|]. cbn [map flat_map length]. rewrite app_length. pose proof (mb_enc_length (sign_magnitude z)). lia. }
      lia.
  - eexists. split; [reflexivity|]. rewrite <- (app_nil_r (mb_stream _)). apply decode_signed_roundtrip; [exact F|lia].
Qed.

Lemma e_entry8 {A} (table : list (N * A)) x : (exists n, u8 n /\ In (n, x) table) -> enc (SpecNodes.entry VU8 table) x.
Proof. intros (n & U & I). leaf (SU8 n); [exact U|]. exists n. auto. Qed.
Lemma e_entry16 {A} (table : list (N * A)) x : (exists n, u16 n /\ In (n, x) table) -> enc (SpecNodes.entry VU16 table) x.
Proof. intros (n & U & I). leaf (SU16 n); [exact U|]. exists n. auto. Qed.
Lemma table_pick {A} (b : N) (table : list (N * A)) x : forallb (fun p => fst p <? b) table = true -> In x (map snd table) -> exists n, n < b /\ In (n, x) table.
Proof.
  intros F I. apply in_map_iff in I as ((n & y) & E & I). cbn in E. subst. exists n. split; [|exact I].
  rewrite forallb_forall in F. specialize (F _ I). now apply N.ltb_lt in F.
Qed.
Lemma e_charset c : enc (SpecNodes.entry VU8 charset_table) c.
Proof. apply e_entry8, table_pick; [reflexivity|]. destruct c; cbn; tauto. Qed.
Lemma e_shape s : enc (SpecNodes.entry VU16 (coded shape_list)) s.
Proof. apply e_entry16, table_pick; [vm_compute; reflexivity|]. apply ValuesProofs.shape_decodes. Qed.
Lemma e_bias b : enc (SpecNodes.entry VU8 bias_table) b.
Proof. apply e_entry8, table_pick; [reflexivity|]. destruct b; cbn; tauto. Qed.
Lemma e_argb c : color_ok c -> enc argb c.
Proof.
  destruct c as [a r g b]. intros (A & R & G & B). unfold u8 in *. cbn [co_alpha co_r co_g co_b] in *.
  leaf (SU32 (r + g * 2 ^ 8 + b * 2 ^ 16 + (255 - a) * 2 ^ 24)); [lia|]. eexists. split; [reflexivity|]. f_equal; lia.
Qed.
Lemma e_colorref c : color_ref_ok c -> enc colorref c.
Proof.
  destruct c as [|r g b]; cbn; [intros _|intros (R & G & B); unfold u8 in *].
  - leaf (SU32 (255 * 2 ^ 24)); [lia|]. eexists. split; [reflexivity|]. left. split; reflexivity.
  - leaf (SU32 (r + g * 2 ^ 8 + b * 2 ^ 16)); [lia|]. eexists. split; [reflexivity|]. right. split; [lia|]. f_equal; lia.
Qed.
Lemma has_alignment x : exists s, writes (def_rel alignment None x) s.
Proof.
  destruct x as [[h hm va vm]|]; [|exists None; reflexivity].
  exists (Some (SU32 ((match h with HaUnknown => 0 | HaLeft => 1 | HaCenter => 2 | HaRight => 3 | HaBiDiNormal => 4 | HaBiDiReverse => 5 end) +
     (match hm with HmLeft => 8 | HmRight => 0 end) + (match va with VaTop => 2 ^ 16 | VaBottom => 0 end) + (match vm with VmTop => 2 ^ 19 | VmBottom => 0 end)))).
  split; [apply vg_small; destruct h, hm, va, vm; reflexivity|]. intros v V. inversion V; subst. eexists. split; [reflexivity|]. right.
  destruct h, hm, va, vm; (split; [reflexivity|]; eexists; split; [|reflexivity]; vm_compute; tauto).
Qed.
Lemma e_palign a : enc paragraph_align a.
Proof.
  destruct a.
  1: leaf (SU8 3). 3: leaf (SU8 0). 5: leaf (SU8 1). 7: leaf (SU8 2).
  all: try reflexivity; eexists; (split; [reflexivity|]); cbn; try (left; tauto); try (right; split; [lia|reflexivity]).
Qed.
Lemma has_media t : exists s, writes (def_rel media FtUnknown t) s.
Proof.
  destruct t.
  - exists None. reflexivity.
  - exists (Some (SU32 1)). split; [apply vg_small; reflexivity|]. intros v V. inversion V. left. split; reflexivity.
  - exists (Some (SU32 2)). split; [apply vg_small; reflexivity|]. intros v V. inversion V. right. split; reflexivity.
Qed.
Lemma bit_succ m b p : N.testbit (2 * m + N.b2n b) (N.pos p) = N.testbit m (N.pred (N.pos p)).
Proof. rewrite <- (N.succ_pred (N.pos p)) at 1 by discriminate. apply N.testbit_succ_r. Qed.
Lemma e_tag_status s : enc tag_status_bits s.
Proof.
  destruct s as [b0 b1 b2 b3 b6 b7 b8 b9 b10 b11].
  set (n := 2 * (2 * (2 * (2 * (2 * (2 * (2 * (2 * (2 * (2 * (2 * N.b2n b11 + N.b2n b10) + N.b2n b9) + N.b2n b8) + N.b2n b7) + N.b2n b6) + N.b2n false) + N.b2n false)
             + N.b2n b3) + N.b2n b2) + N.b2n b1) + N.b2n b0).
  assert (B : forall b, N.b2n b <= 1) by (intros []; cbn; lia).
  leaf (SU32 n).
  - pose proof (B b0). pose proof (B b1). pose proof (B b2). pose proof (B b3). pose proof (B b6). pose proof (B b7). pose proof (B b8).
    pose proof (B b9). pose proof (B b10). pose proof (B b11). cbn [N.b2n] in n. unfold n. lia.
  - exists n. split; [reflexivity|]. unfold n.
    f_equal; symmetry; repeat (rewrite bit_succ; cbn [N.pred Pos.pred_N Pos.pred_double]); apply N.testbit_0_r || (cbn [N.pred Pos.pred_N]; now destruct b11).
Qed.
Lemma e_item_type t : item_type_ok t -> enc item_type t.
Proof.
  destruct t as [n| | | | | | |]; cbn; intro H.
  1: (leaf (SU16 n); [lia|]; eexists; split; [reflexivity|]; left; auto).
  1: leaf (SU16 100). 3: leaf (SU16 101). 5: leaf (SU16 102). 7: leaf (SU16 103). 9: leaf (SU16 104). 11: leaf (SU16 105). 13: leaf (SU16 106).
  all: try reflexivity; eexists; (split; [reflexivity|]); right; cbn; try (left; tauto); try (right; split; [lia|reflexivity]).
Qed.
Lemma has_character x : if_any unit_ok x -> exists s, writes (def_rel character None x) s.
Proof.
  destruct x as [n|]; [|intros _; exists None; reflexivity]. intros (U & S). exists (Some (SU16 n)). split; [apply vg_small; exact U|].
  intros v V. inversion V; subst. exists n. refine (conj eq_refl (conj eq_refl _)). unfold scalar in S. lia.
Qed.
Lemma lossy_enc s : Forall scalar s -> lossy (utf16_enc s) s.
Proof.
  induction 1 as [|c s S _ IH]; [constructor|]. unfold utf16_enc in *. cbn [flat_map]. unfold utf16_units at 1. unfold scalar in S.
  destruct (N.ltb_spec c 65536); cbn [app].
  - apply lo_plain; [unfold high; lia|unfold low; lia|exact IH].
  - replace c with (0x10000 + ((0xD800 + (c - 0x10000) / 0x400) - 0xD800) * 0x400 + ((0xDC00 + (c - 0x10000) mod 0x400) - 0xDC00)) at 3 by lia.
    apply lo_pair; [unfold high; lia|unfold low; lia|exact IH].
Qed.
Lemma e_numbering s : Forall scalar s -> N.of_nat (length s) < 2 ^ 22 -> enc numbering s.
Proof.
  intros S L. leaf (SVec (flat_map (le_bytes 2) (0 :: utf16_enc s))).
  - split; [apply flat_le_ok|]. rewrite flat_le_length. cbn [length]. pose proof (utf16_enc_length s). lia.
  - exists 0, (utf16_enc s). split; [|now apply lossy_enc]. eexists. split; [reflexivity|]. apply (numbers_bytes 2 (0 :: utf16_enc s)); [|lia].
    constructor; [reflexivity|]. exact (utf16_enc_range s S).
Qed.
