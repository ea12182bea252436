(** Reading and writing texts of GUIDs. *)
From Coq Require Import Lia ZifyBool ZifyNat ZifyN.
From Verif Require Import Base Codec SpecCodec BaseProofs CodecProofs PropertiesCodec GuidText SpecGuidText.

Lemma digit_iff c d : hex_digit c = Some d <-> digit c d.
Proof.
  unfold hex_digit. split.
  - destruct (N.leb_spec 48 c), (N.leb_spec c 57); cbn [andb]; intros E.
    { injection E as <-. replace c with (48 + (c - 48)) at 1 by lia. apply dg_number. lia. }
    all: revert E; destruct (N.leb_spec 65 c), (N.leb_spec c 70); cbn [andb]; intros E;
      try (injection E as <-; replace c with (65 + (c - 55 - 10)) at 1 by lia; apply dg_upper; lia);
      revert E; destruct (N.leb_spec 97 c), (N.leb_spec c 102); cbn [andb]; intros E; try discriminate E;
      injection E as <-; replace c with (97 + (c - 87 - 10)) at 1 by lia; apply dg_lower; lia.
  - intros H. destruct H as [d L|d L|d L].
    + replace ((48 <=? 48 + d) && (48 + d <=? 57)) with true by lia. f_equal. lia.
    + replace ((48 <=? 65 + (d - 10)) && (65 + (d - 10) <=? 57)) with false by lia.
      replace ((65 <=? 65 + (d - 10)) && (65 + (d - 10) <=? 70)) with true by lia. f_equal. lia.
    + replace ((48 <=? 97 + (d - 10)) && (97 + (d - 10) <=? 57)) with false by lia.
      replace ((65 <=? 97 + (d - 10)) && (97 + (d - 10) <=? 70)) with false by lia.
      replace ((97 <=? 97 + (d - 10)) && (97 + (d - 10) <=? 102)) with true by lia. f_equal. lia.
Qed.
Lemma digit_range c d : digit c d -> d < 16.
Proof. intros [x H|x H|x H]; lia. Qed.
Lemma number_snoc s c : forall acc, hex_number acc (s ++ [c]) =
  match hex_number acc s with Some v => option_map (fun d => v * 16 + d) (hex_digit c) | None => None end.
Proof.
  induction s as [|x s IH]; intros acc; cbn [app hex_number].
  - destruct (hex_digit c); reflexivity.
  - destruct (hex_digit x); [apply IH|reflexivity].
Qed.
Lemma number_iff s v : hex_number 0 s = Some v <-> hexadecimal s v.
Proof.
  split.
  - revert v. induction s as [|c s IH] using rev_ind; intros v H.
    + injection H as <-. constructor.
    + rewrite number_snoc in H. destruct (hex_number 0 s) as [u|]; [|discriminate H].
      destruct (hex_digit c) as [d|] eqn:E; [|discriminate H]. cbn [option_map] in H. injection H as <-.
      replace (u * 16 + d) with (16 * u + d) by lia. constructor; [now apply IH|now apply digit_iff].
  - induction 1 as [|s v c d H IH D]; [reflexivity|]. rewrite number_snoc, IH. apply digit_iff in D as ->. cbn [option_map]. f_equal. lia.
Qed.
Lemma hexadecimal_bound s v : hexadecimal s v -> v < 16 ^ N.of_nat (length s).
Proof.
  induction 1 as [|s v c d H IH D]; [cbn; lia|]. rewrite app_length. cbn [length].
  replace (N.of_nat (length s + 1)) with (N.succ (N.of_nat (length s))) by lia. rewrite N.pow_succ_r'. apply digit_range in D. lia.
Qed.
Lemma bytes_eqb_eq a b : bytes_eqb a b = true <-> a = b.
Proof.
  revert b. induction a as [|x a IH]; intros [|y b]; cbn [bytes_eqb]; try (split; congruence).
  rewrite andb_true_iff, N.eqb_eq, IH. split; [intros (-> & ->); reflexivity|intros [= -> ->]; auto].
Qed.

Lemma split_at {A} n (l : list A) : (n <= length l)%nat -> exists a b, l = a ++ b /\ length a = n.
Proof. intros L. exists (firstn n l), (skipn n l). split; [now rewrite firstn_skipn|now apply firstn_length_le]. Qed.
Lemma hyphenated_iff s g : length s = 36%nat -> hyphenated_parse s = Some g <-> hyphenated s g.
Proof.
  intros L. unfold hyphenated_parse, hyphenated. split.
  - do 37 (destruct s as [|? s]; [try discriminate L|]); [|discriminate L]. clear L. cbn [nth].
    intros H.
    match type of H with (if ?t then _ else _) = _ => destruct t eqn:E; [|discriminate H] end.
    apply andb_true_iff in E as (E & E4). apply andb_true_iff in E as (E & E3). apply andb_true_iff in E as (E1 & E2).
    apply N.eqb_eq in E1, E2, E3, E4. subst. cbn [firstn skipn app] in H. apply number_iff in H.
    refine (ex_intro _ [_;_;_;_;_;_;_;_] (ex_intro _ [_;_;_;_] (ex_intro _ [_;_;_;_] (ex_intro _ [_;_;_;_] (ex_intro _ [_;_;_;_;_;_;_;_;_;_;_;_] _))))).
    split; [reflexivity|]. split; [reflexivity|]. split; [reflexivity|]. split; [reflexivity|]. split; [reflexivity|].
    split; [reflexivity|exact H].
  - intros (a & b & c & d & e & La & Lb & Lc & Ld & Le & -> & H). apply number_iff in H. clear L.
    do 9 (destruct a as [|? a]; [try discriminate La|]); [|discriminate La].
    do 5 (destruct b as [|? b]; [try discriminate Lb|]); [|discriminate Lb].
    do 5 (destruct c as [|? c]; [try discriminate Lc|]); [|discriminate Lc].
    do 5 (destruct d as [|? d]; [try discriminate Ld|]); [|discriminate Ld].
    cbn [app nth firstn skipn]. exact H.
Qed.
Lemma hyphenated_length s g : hyphenated s g -> length s = 36%nat.
Proof.
  intros (a & b & c & d & e & La & Lb & Lc & Ld & Le & -> & _). repeat (rewrite app_length; cbn [length]). lia.
Qed.
Lemma uuid_iff s g : uuid_parse_str s = Some g <-> guid_text s g.
Proof.
  unfold uuid_parse_str. split.
  - destruct (Nat.eqb_spec (length s) 32) as [L|_]; [intros H; apply gt_simple; [exact L|now apply number_iff]|].
    destruct (Nat.eqb_spec (length s) 36) as [L|_]; [intros H; apply gt_hyphenated; now apply hyphenated_iff|].
    destruct (Nat.eqb_spec (length s) 38) as [L|_].
    { destruct s as [|x s]; [discriminate L|]. destruct (exists_last (l := s)) as (t & y & ->); [intros ->; discriminate L|].
      assert (Lt : length t = 36%nat) by (cbn [length] in L; rewrite app_length in L; cbn [length] in L; lia).
      change (x :: t ++ [y]) with ((x :: t) ++ [y]) at 2. rewrite last_last. cbn [hd skipn].
      rewrite firstn_app, Lt, Nat.sub_diag, <- Lt, firstn_all, app_nil_r.
      destruct (N.eqb_spec x 123) as [->|_]; [|discriminate]. destruct (N.eqb_spec y 125) as [->|_]; [|discriminate]. cbn [andb].
      intros H. apply gt_braced. now apply hyphenated_iff. }
    destruct (Nat.eqb_spec (length s) 45) as [L|_]; [|discriminate].
    destruct (bytes_eqb (firstn 9 s) urn_prefix) eqn:E; [|discriminate]. apply bytes_eqb_eq in E. intros H.
    rewrite <- (firstn_skipn 9 s), E. apply gt_urn. apply hyphenated_iff; [rewrite skipn_length; lia|exact H].
  - intros H. destruct H as [s g L H|s g H|s g H|s g H].
    + rewrite L. cbn [Nat.eqb]. now apply number_iff.
    + pose proof (hyphenated_length s g H) as L. rewrite L. cbn [Nat.eqb]. now apply hyphenated_iff.
    + pose proof (hyphenated_length s g H) as L.
      assert (L' : length (123 :: s ++ [125]) = 38%nat) by (cbn [length]; rewrite app_length, L; reflexivity). rewrite L'. cbn [Nat.eqb hd skipn].
      change (123 :: s ++ [125]) with ((123 :: s) ++ [125]). rewrite last_last. cbn [N.eqb andb]. rewrite firstn_app, L, Nat.sub_diag, <- L, firstn_all, app_nil_r.
      replace ((123 =? 123) && (125 =? 125)) with true by reflexivity. now apply hyphenated_iff.
    + pose proof (hyphenated_length s g H) as L. rewrite app_length, L. cbn [length Nat.eqb Nat.add firstn skipn app]. cbn [bytes_eqb urn_prefix].
      rewrite !N.eqb_refl. cbn [andb]. now apply hyphenated_iff.
Qed.
Lemma from_str_iff s g : guid_from_str s = Ok g <-> guid_text s g.
Proof.
  unfold guid_from_str. rewrite <- uuid_iff. destruct (uuid_parse_str s); split; intros H; try discriminate H; injection H as ->; reflexivity.
Qed.
Lemma from_str_err s r : guid_from_str s = r -> (exists g, r = Ok g) \/ r = Err InvalidUuid.
Proof. unfold guid_from_str. destruct (uuid_parse_str s); intros <-; [left; eexists; reflexivity|now right]. Qed.
Lemma text_bound s g : guid_text s g -> g < 2 ^ 128.
Proof.
  assert (A : forall s g, length s = 32%nat -> hexadecimal s g -> g < 2 ^ 128).
  { intros t v L H. apply hexadecimal_bound in H. rewrite L in H. exact H. }
  assert (B : forall s g, hyphenated s g -> g < 2 ^ 128).
  { intros t v (a & b & c & d & e & La & Lb & Lc & Ld & Le & _ & H). apply (A _ _) in H; [exact H|]. rewrite !app_length. lia. }
  intros [t v L H|t v H|t v H|t v H]; [exact (A t v L H)|exact (B t v H)..].
Qed.

(** ** Writing *)
Lemma uuid_bytes_be g : uuid_bytes g = be_bytes 16 g.
Proof.
  unfold uuid_bytes, be_bytes, as_u8. 
  assert (E : forall n k v, le_bytes n (N.shiftr v k) = map (fun i => N.shiftr v (k + 8 * N.of_nat i) mod 256) (seq 0 n)).
  { induction n as [|n IH]; intros k v; [reflexivity|]. cbn [le_bytes seq map]. f_equal; [f_equal; f_equal; lia|].
    change 256 with (2 ^ 8) at 1. rewrite <- N.shiftr_div_pow2, N.shiftr_shiftr, IH, <- seq_shift, map_map.
    apply map_ext. intros i. f_equal. f_equal. lia. }
  specialize (E 16%nat 0 g). rewrite N.shiftr_0_r in E. rewrite E. reflexivity.
Qed.
Lemma upper_digit_ok d : d < 16 -> digit (upper_digit d) d /\ not_lower (upper_digit d).
Proof.
  intros L. unfold upper_digit, not_lower. destruct (N.ltb_spec d 10); (split; [|lia]).
  - now apply dg_number.
  - replace (55 + d) with (65 + (d - 10)) by lia. apply dg_upper. lia.
Qed.
Lemma upper_hex s v b : hexadecimal s v -> b < 256 -> hexadecimal (s ++ upper_byte b) (v * 256 + b).
Proof.
  intros H L. unfold upper_byte. rewrite N.shiftr_div_pow2. change 15 with (N.ones 4). rewrite N.land_ones. change (2 ^ 4) with 16.
  change [?x; ?y] with ([x] ++ [y]). rewrite app_assoc.
  replace (v * 256 + b) with (16 * (16 * v + b / 16) + b mod 16) by (pose proof (N.div_mod b 16); lia).
  constructor; [constructor; [exact H|]|]; apply upper_digit_ok.
  - apply N.div_lt_upper_bound; lia.
  - apply N.mod_lt. lia.
Qed.
Lemma upper_all bs : bytes_ok bs -> hexadecimal (flat_map upper_byte bs) (be bs).
Proof.
  induction bs as [|b bs IH] using rev_ind; intros H; [constructor|]. apply bytes_ok_app in H as (H1 & H2).
  rewrite flat_map_app. cbn [flat_map]. rewrite app_nil_r, be_app. apply upper_hex; [auto|now inversion H2].
Qed.
Lemma upper_none bs : bytes_ok bs -> Forall not_lower (flat_map upper_byte bs).
Proof.
  induction 1 as [|b bs L H IH]; [constructor|]. cbn [flat_map upper_byte app]. constructor; [|constructor; [|exact IH]]; apply upper_digit_ok.
  - rewrite N.shiftr_div_pow2. apply N.div_lt_upper_bound; cbn; lia.
  - change 15 with (N.ones 4). rewrite N.land_ones. apply N.mod_lt. discriminate.
Qed.
Lemma be_bytes_ok n g : bytes_ok (be_bytes n g).
Proof.
  unfold be_bytes. apply Forall_rev. revert g. induction n as [|n IH]; intros g; constructor; [apply N.mod_lt; lia|apply IH].
Qed.
Lemma be_bytes_be n g : g < 256 ^ N.of_nat n -> be (be_bytes n g) = g.
Proof.
  unfold be_bytes. rewrite be_rev. revert g. induction n as [|n IH]; intros g L; [cbn in *; lia|]. cbn [le_bytes le].
  rewrite IH.
  - pose proof (N.div_mod g 256). lia.
  - apply N.div_lt_upper_bound; [lia|]. replace (N.of_nat (S n)) with (N.succ (N.of_nat n)) in L by lia. rewrite N.pow_succ_r' in L. exact L.
Qed.
Lemma display_form g : g < 2 ^ 128 -> exists t, guid_display g = 123 :: t ++ [125] /\ hyphenated t g /\ Forall not_lower (guid_display g).
Proof.
  intros L. unfold guid_display. rewrite uuid_bytes_be.
  pose proof (be_bytes_ok 16 g) as Ok16. pose proof (be_bytes_be 16 g L) as E.
  assert (L16 : length (be_bytes 16 g) = 16%nat) by reflexivity.
  generalize dependent (be_bytes 16 g). intros bs Ok16 E L16.
  do 17 (destruct bs as [|? bs]; [try discriminate L16|]); [|discriminate L16].
  pose proof (upper_all _ Ok16) as H. rewrite E in H. pose proof (upper_none _ Ok16) as U.
  match goal with |- exists t, ?l = _ /\ _ => exists (removelast (tl l)) end. cbn [flat_map upper_byte app tl removelast]. split; [reflexivity|]. split.
  - refine (ex_intro _ [_;_;_;_;_;_;_;_] (ex_intro _ [_;_;_;_] (ex_intro _ [_;_;_;_] (ex_intro _ [_;_;_;_] (ex_intro _ [_;_;_;_;_;_;_;_;_;_;_;_] _))))).
    split; [reflexivity|]. split; [reflexivity|]. split; [reflexivity|]. split; [reflexivity|]. split; [reflexivity|].
    split; [cbn [app]; reflexivity|]. cbn [app]. cbn [flat_map upper_byte app] in H. exact H.
  - cbn [flat_map upper_byte app] in U |- *. rewrite Forall_forall in U |- *. unfold not_lower in *. cbn [In] in U |- *.
    intros x I. repeat (destruct I as [I|I]; [first [subst x; lia|apply U; tauto]|]). contradiction.
Qed.
Lemma digit_upper c c' d : digit c d -> digit c' d -> not_lower c -> not_lower c' -> c = c'.
Proof. unfold not_lower. intros H H' N N'. destruct H; inversion H'; subst; try lia. Qed.
Lemma hexadecimal_snoc s c v : hexadecimal (s ++ [c]) v -> exists u d, hexadecimal s u /\ digit c d /\ v = 16 * u + d.
Proof.
  intros H. inversion H as [E|s' u c' d Hs Hd E E2]; [destruct s; discriminate E|]. apply app_inj_tail in E as (-> & ->). eauto.
Qed.
Lemma hexadecimal_upper s : forall s' v, length s = length s' -> hexadecimal s v -> hexadecimal s' v -> Forall not_lower s -> Forall not_lower s' -> s = s'.
Proof.
  induction s as [|c s IH] using rev_ind; intros s' v L H H' N N'; [destruct s'; [reflexivity|discriminate L]|].
  destruct s' as [|c' s' _] using rev_ind; [rewrite app_length in L; cbn in L; lia|].
  apply hexadecimal_snoc in H as (u & d & Hs & Hd & ->). apply hexadecimal_snoc in H' as (u' & d' & Hs' & Hd' & E).
  pose proof (digit_range _ _ Hd). pose proof (digit_range _ _ Hd'). assert (u' = u) as -> by lia. assert (d' = d) as -> by lia.
  apply Forall_app in N as (N & Nc). apply Forall_app in N' as (N' & Nc'). inversion Nc; inversion Nc'; subst.
  rewrite !app_length in L. cbn [length] in L. rewrite (IH s' u) by (auto; lia). f_equal. f_equal. exact (digit_upper c c' d Hd Hd' ltac:(assumption) ltac:(assumption)).
Qed.
Lemma hyphenated_upper s s' g : hyphenated s g -> hyphenated s' g -> Forall not_lower s -> Forall not_lower s' -> s = s'.
Proof.
  intros (a & b & c & d & e & La & Lb & Lc & Ld & Le & -> & H) (a' & b' & c' & d' & e' & La' & Lb' & Lc' & Ld' & Le' & -> & H') N N'.
  assert (F : forall x y z u v, Forall not_lower (x ++ hyphen :: y ++ hyphen :: z ++ hyphen :: u ++ hyphen :: v) -> Forall not_lower (x ++ y ++ z ++ u ++ v)).
  { clear. intros x y z u v H. rewrite Forall_forall in H |- *. intros i I. apply H. repeat (rewrite in_app_iff in *; cbn [In]). tauto. }
  apply F in N, N'.
  assert (E : a ++ b ++ c ++ d ++ e = a' ++ b' ++ c' ++ d' ++ e') by (apply (hexadecimal_upper _ _ g); auto; rewrite !app_length; lia).
  clear -E La La' Lb Lb' Lc Lc' Ld Ld'.
  assert (K : forall (x x' y y' : list N), length x = length x' -> x ++ y = x' ++ y' -> x = x' /\ y = y').
  { clear. induction x as [|i x IH]; intros [|j x'] y y' L E; try discriminate L; [now split|]. injection E as -> E. injection L as L.
    destruct (IH _ _ _ L E) as (-> & ->). now split. }
  apply K in E as (-> & E); [|congruence]. apply K in E as (-> & E); [|congruence]. apply K in E as (-> & E); [|congruence]. apply K in E as (-> & ->); [reflexivity|congruence].
Qed.
Lemma display_iff s g : g < 2 ^ 128 ->
  s = guid_display g <-> exists t, s = 123 :: t ++ [125] /\ hyphenated t g /\ Forall not_lower t.
Proof.
  intros L. destruct (display_form g L) as (t & E & H & U). rewrite E in U. apply Forall_inv_tail in U. apply Forall_app in U as (U & _). split.
  - intros ->. exists t. auto.
  - intros (t' & -> & H' & U'). rewrite E, (hyphenated_upper t t' g); auto.
Qed.
Lemma display_read g : g < 2 ^ 128 -> guid_from_str (guid_display g) = Ok g.
Proof. intros L. destruct (display_form g L) as (t & -> & H & _). apply from_str_iff. now apply gt_braced. Qed.
Lemma display_fun g g' : g < 2 ^ 128 -> g' < 2 ^ 128 -> guid_display g = guid_display g' -> g = g'.
Proof. intros L L' E. pose proof (display_read g L). pose proof (display_read g' L'). congruence. Qed.
Lemma display_wire b0 b1 b2 b3 b4 b5 b6 b7 b8 b9 b10 b11 b12 b13 b14 b15 t :
  bytes_ok [b0; b1; b2; b3; b4; b5; b6; b7; b8; b9; b10; b11; b12; b13; b14; b15] ->
  exists g a b c d e, guid_parse ([b0; b1; b2; b3; b4; b5; b6; b7; b8; b9; b10; b11; b12; b13; b14; b15] ++ t) = Ok (g, t) /\
    guid_display g = [123] ++ a ++ [45] ++ b ++ [45] ++ c ++ [45] ++ d ++ [45] ++ e ++ [125] /\
    length a = 8%nat /\ length b = 4%nat /\ length c = 4%nat /\ length d = 4%nat /\ length e = 12%nat /\
    hexadecimal a (b0 + 2 ^ 8 * b1 + 2 ^ 16 * b2 + 2 ^ 24 * b3) /\ hexadecimal b (b4 + 2 ^ 8 * b5) /\ hexadecimal c (b6 + 2 ^ 8 * b7) /\
    hexadecimal d (2 ^ 8 * b8 + b9) /\
    hexadecimal e (2 ^ 40 * b10 + 2 ^ 32 * b11 + 2 ^ 24 * b12 + 2 ^ 16 * b13 + 2 ^ 8 * b14 + b15).
Proof.
  intros H. destruct (C04_guid_byte_order b0 b1 b2 b3 b4 b5 b6 b7 b8 b9 b10 b11 b12 b13 b14 b15 t H) as (g & P & E).
  exists g, (flat_map upper_byte [b3; b2; b1; b0]), (flat_map upper_byte [b5; b4]), (flat_map upper_byte [b7; b6]),
    (flat_map upper_byte [b8; b9]), (flat_map upper_byte [b10; b11; b12; b13; b14; b15]). split; [exact P|].
  split; [unfold guid_display; rewrite uuid_bytes_be, E; reflexivity|]. do 5 (split; [reflexivity|]).
  assert (K : forall bs v, be bs = v -> (forall x, In x bs -> In x [b0; b1; b2; b3; b4; b5; b6; b7; b8; b9; b10; b11; b12; b13; b14; b15]) ->
    hexadecimal (flat_map upper_byte bs) v).
  { intros bs v <- I. apply upper_all. unfold bytes_ok in *. rewrite Forall_forall in H |- *. intros x Ix. exact (H x (I x Ix)). }
  do 4 (split; [apply K; [unfold be; cbn [fold_left]; lia|cbn [In]; tauto]|]).
  apply K; [unfold be; cbn [fold_left]; lia|cbn [In]; tauto].
Qed.
