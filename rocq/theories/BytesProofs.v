(** Proofs about paths as bytes. *)
From Coq Require Import Lia ZifyBool ZifyNat ZifyN.
From Verif Require Import Base BaseProofs Codec SpecCodec Package PropSet Store Props Nodes Doc Notebook SpecNotebook NotebookProofs NotebookProofs2 RangeProofs RangeProofs2 RangeProofs3 SpecKinds KindsProofs Report Unix SpecUnix UnixProofs Message SpecMessage MessageProofs Bytes SpecBytes.
Local Open Scope nat_scope.

(** ** UTF-8 *)
Ltac euclid := zify; Z.to_euclidean_division_equations; lia.
Lemma utf8_app a b : utf8 (a ++ b) = utf8 a ++ utf8 b.
Proof. apply flat_map_app. Qed.
Lemma utf8_cons c t : utf8 (c :: t) = utf8_char c ++ utf8 t.
Proof. reflexivity. Qed.
Lemma char_low c : (c < 128)%N -> utf8_char c = [c].
Proof. intro H. unfold utf8_char. apply N.ltb_lt in H. now rewrite H. Qed.
Lemma char_high c x : (128 <= c)%N -> In x (utf8_char c) -> (128 <= x)%N.
Proof.
  intros H. unfold utf8_char. destruct (N.ltb_spec c 128) as [L|_]; [lia|].
  destruct (N.ltb_spec c 2048); [|destruct (N.ltb_spec c 65536)]; cbn [In]; intros I; repeat (destruct I as [<-|I]; [euclid|]); contradiction.
Qed.
Lemma char_in c x : (x < 128)%N -> In x (utf8_char c) -> x = c.
Proof.
  intros H I. destruct (N.lt_ge_cases c 128) as [L|L]; [rewrite (char_low c L) in I; destruct I as [<-|[]]; reflexivity|]. pose proof (char_high c x L I). lia.
Qed.
Lemma utf8_in x t : (x < 128)%N -> In x (utf8 t) <-> In x t.
Proof.
  intro H. unfold utf8. rewrite in_flat_map. split.
  - intros (c & I & J). now rewrite (char_in c x H J).
  - intro I. exists x. split; [exact I|]. rewrite (char_low x H). now left.
Qed.
Lemma char_ne c : utf8_char c <> [].
Proof. unfold utf8_char. repeat destruct (_ <? _)%N; discriminate. Qed.
Lemma utf8_ne t : t <> [] -> utf8 t <> [].
Proof. destruct t as [|c t]; [now intros []|]. intros _ E. rewrite utf8_cons in E. apply app_eq_nil in E as (E & _). exact (char_ne c E). Qed.
Lemma utf8_length t : length t <= length (utf8 t).
Proof. induction t as [|c t IH]; [reflexivity|]. rewrite utf8_cons, app_length. cbn [length]. pose proof (char_ne c). destruct (utf8_char c); [congruence|]. cbn [length]. lia. Qed.

Lemma one_char_utf8 c r : scalar c -> exists b r0, utf8_char c ++ r = b :: r0 /\ one_char b r0 = (Some c, r).
Proof.
  intro SC. unfold scalar in SC. unfold utf8_char. destruct (N.ltb_spec c 128) as [L|L]; [exists c, r; split; [reflexivity|]; unfold one_char; apply N.ltb_lt in L; now rewrite L|].
  destruct (N.ltb_spec c 2048) as [L2|L2]; [|destruct (N.ltb_spec c 65536) as [L3|L3]]; cbn [app]; (eexists _, _; split; [reflexivity|]); unfold one_char, cont, second3, second4, cont.
  - replace (192 + c / 64 <? 128)%N with false by euclid. replace ((194 <=? 192 + c / 64) && (192 + c / 64 <=? 223))%N with true by euclid.
    replace ((128 <=? 128 + c mod 64) && (128 + c mod 64 <=? 191))%N with true by euclid. f_equal. f_equal. euclid.
  - replace (224 + c / 4096 <? 128)%N with false by euclid. replace ((194 <=? 224 + c / 4096) && (224 + c / 4096 <=? 223))%N with false by euclid.
    replace ((224 <=? 224 + c / 4096) && (224 + c / 4096 <=? 239))%N with true by euclid.
    replace ((128 <=? 128 + c mod 64) && (128 + c mod 64 <=? 191))%N with true by euclid.
    assert (Z : (c = 4096 * (c / 4096) + 64 * (c / 64 mod 64) + c mod 64)%N) by euclid.
    destruct (N.eqb_spec (224 + c / 4096) 224); [|destruct (N.eqb_spec (224 + c / 4096) 237)].
    + replace ((160 <=? 128 + c / 64 mod 64) && (128 + c / 64 mod 64 <=? 191))%N with true by euclid. f_equal. f_equal. lia.
    + replace ((128 <=? 128 + c / 64 mod 64) && (128 + c / 64 mod 64 <=? 159))%N with true by euclid. f_equal. f_equal. lia.
    + replace ((128 <=? 128 + c / 64 mod 64) && (128 + c / 64 mod 64 <=? 191))%N with true by euclid. f_equal. f_equal. lia.
  - replace (240 + c / 262144 <? 128)%N with false by euclid. replace ((194 <=? 240 + c / 262144) && (240 + c / 262144 <=? 223))%N with false by euclid.
    replace ((224 <=? 240 + c / 262144) && (240 + c / 262144 <=? 239))%N with false by euclid.
    replace ((240 <=? 240 + c / 262144) && (240 + c / 262144 <=? 244))%N with true by euclid.
    replace ((128 <=? 128 + c mod 64) && (128 + c mod 64 <=? 191))%N with true by euclid.
    replace ((128 <=? 128 + c / 64 mod 64) && (128 + c / 64 mod 64 <=? 191))%N with true by euclid.
    assert (Z : (c = 262144 * (c / 262144) + 4096 * (c / 4096 mod 64) + 64 * (c / 64 mod 64) + c mod 64)%N) by euclid.
    destruct (N.eqb_spec (240 + c / 262144) 240); [|destruct (N.eqb_spec (240 + c / 262144) 244)].
    + replace ((144 <=? 128 + c / 4096 mod 64) && (128 + c / 4096 mod 64 <=? 191))%N with true by euclid. f_equal. f_equal. lia.
    + replace ((128 <=? 128 + c / 4096 mod 64) && (128 + c / 4096 mod 64 <=? 143))%N with true by euclid. f_equal. f_equal. lia.
    + replace ((128 <=? 128 + c / 4096 mod 64) && (128 + c / 4096 mod 64 <=? 191))%N with true by euclid. f_equal. f_equal. lia.
Qed.
Lemma one_char_sound b r c r' : one_char b r = (Some c, r') -> scalar c /\ b :: r = utf8_char c ++ r'.
Proof.
  unfold one_char. destruct (N.ltb_spec b 128) as [L|L]; [intro E; injection E as <- <-; split; [left; lia|now rewrite (char_low b L)]|].
  destruct ((194 <=? b) && (b <=? 223))%N eqn:R2; [|destruct ((224 <=? b) && (b <=? 239))%N eqn:R3; [|destruct ((240 <=? b) && (b <=? 244))%N eqn:R4; [|discriminate]]].
  - destruct r as [|x r]; [discriminate|]. destruct (cont x) eqn:X; [|discriminate]. unfold cont in X. intro E. injection E as E <-.
    split; [left; lia|]. unfold utf8_char. replace (c <? 128)%N with false by lia. replace (c <? 2048)%N with true by lia. cbn [app].
    replace (192 + c / 64)%N with b by euclid. replace (128 + c mod 64)%N with x by euclid. reflexivity.
  - destruct r as [|x r]; [discriminate|]. destruct (second3 b x) eqn:X; [|discriminate]. destruct r as [|y r]; [discriminate|]. destruct (cont y) eqn:Y; [|discriminate]. intro E. injection E as E <-.
    assert (X' : ((128 <= x <= 191) /\ (b = 224 -> 160 <= x) /\ (b = 237 -> x <= 159))%N) by (unfold second3, cont in X; destruct (N.eqb_spec b 224); [|destruct (N.eqb_spec b 237)]; lia). unfold cont in Y.
    split; [unfold scalar; lia|]. unfold utf8_char. replace (c <? 128)%N with false by lia. replace (c <? 2048)%N with false by lia. replace (c <? 65536)%N with true by lia. cbn [app].
    replace (224 + c / 4096)%N with b by euclid. replace (128 + c / 64 mod 64)%N with x by euclid. replace (128 + c mod 64)%N with y by euclid. reflexivity.
  - destruct r as [|x r]; [discriminate|]. destruct (second4 b x) eqn:X; [|discriminate]. destruct r as [|y r]; [discriminate|]. destruct (cont y) eqn:Y; [|discriminate].
    destruct r as [|z r]; [discriminate|]. destruct (cont z) eqn:Zz; [|discriminate]. intro E. injection E as E <-.
    assert (X' : ((128 <= x <= 191) /\ (b = 240 -> 144 <= x) /\ (b = 244 -> x <= 143))%N) by (unfold second4, cont in X; destruct (N.eqb_spec b 240); [|destruct (N.eqb_spec b 244)]; lia). unfold cont in Y, Zz.
    split; [unfold scalar; lia|]. unfold utf8_char. replace (c <? 128)%N with false by lia. replace (c <? 2048)%N with false by lia. replace (c <? 65536)%N with false by lia. cbn [app].
    replace (240 + c / 262144)%N with b by euclid. replace (128 + c / 4096 mod 64)%N with x by euclid. replace (128 + c / 64 mod 64)%N with y by euclid. replace (128 + c mod 64)%N with z by euclid. reflexivity.
Qed.
Lemma one_char_short b r c r' : one_char b r = (c, r') -> length r' <= length r.
Proof.
  unfold one_char, second3, second4, cont. destruct (_ <? _)%N; [intro E; injection E as <- <-; reflexivity|].
  repeat match goal with
  | |- context [if ?x then _ else _] => destruct x
  | |- context [match ?l with [] => _ | _ :: _ => _ end] => destruct l
  end; intro E; injection E as <- <-; cbn [length]; lia.
Qed.
Lemma chars_more n : forall m b, length b <= n -> length b <= m -> chars_fuel n b = chars_fuel m b.
Proof.
  induction n as [|n IH]; intros m b N M; [destruct b; [now destruct m|cbn in N; lia]|]. destruct b as [|x r]; [now destruct m|]. destruct m as [|m]; [cbn in M; lia|].
  cbn [chars_fuel length] in *. destruct (one_char x r) as [c r'] eqn:E. apply one_char_short in E. f_equal. apply IH; lia.
Qed.
Lemma chars_step x r c r' : one_char x r = (c, r') -> chars (x :: r) = c :: chars r'.
Proof. intro E. unfold chars. cbn [chars_fuel length]. rewrite E. f_equal. apply one_char_short in E. apply chars_more; lia. Qed.
Lemma chars_utf8 t : Forall scalar t -> chars (utf8 t) = map Some t.
Proof.
  induction 1 as [|c t C _ IH]; [reflexivity|]. rewrite utf8_cons. destruct (one_char_utf8 c (utf8 t) C) as (b & r & E & O). rewrite E, (chars_step _ _ _ _ O), IH. reflexivity.
Qed.
Lemma all_chars_some l t : all_chars l = Some t <-> l = map Some t.
Proof.
  revert t. induction l as [|[c|] l IH]; intro t; cbn [all_chars].
  - split; [intro E; injection E as <-; reflexivity|]. destruct t; [reflexivity|discriminate].
  - destruct (all_chars l) as [u|] eqn:A; cbn [option_map]; split.
    + intro E. injection E as <-. cbn [map]. f_equal. now apply IH.
    + destruct t as [|d t]; [discriminate|]. cbn [map]. intro E. injection E as -> E. apply IH in E. injection E as ->. reflexivity.
    + discriminate.
    + destruct t as [|d t]; [discriminate|]. cbn [map]. intro E. injection E as -> E. apply IH in E. discriminate E.
  - split; [discriminate|]. destruct t; discriminate.
Qed.
Lemma chars_sound n : forall b t, length b <= n -> chars b = map Some t -> Forall scalar t /\ b = utf8 t.
Proof.
  induction n as [|n IH]; intros b t L E; [destruct b; [destruct t; [split; constructor|discriminate E]|cbn in L; lia]|].
  destruct b as [|x r]; [destruct t; [split; constructor|discriminate E]|]. destruct (one_char x r) as [c r'] eqn:O. rewrite (chars_step _ _ _ _ O) in E.
  destruct t as [|d t]; [discriminate E|]. cbn [map] in E. injection E as -> E. pose proof (one_char_short _ _ _ _ O). cbn [length] in L. apply IH in E as (E1 & E2); [|lia].
  apply one_char_sound in O as (O1 & O2). split; [now constructor|]. rewrite O2, utf8_cons, <- E2. reflexivity.
Qed.
Lemma to_str_iff b t : to_str b = Some t <-> Forall scalar t /\ b = utf8 t.
Proof.
  unfold to_str. rewrite all_chars_some. split; [exact (chars_sound (length b) b t (le_n _))|]. intros (H & ->). now apply chars_utf8.
Qed.
Lemma lossy_utf8 t : Forall scalar t -> to_lossy (utf8 t) = t.
Proof. intro H. unfold to_lossy. rewrite (chars_utf8 t H), map_map. apply map_id. Qed.
Lemma utf8_inj a b : Forall scalar a -> Forall scalar b -> utf8 a = utf8 b -> a = b.
Proof. intros A B E. now rewrite <- (lossy_utf8 a A), E, lossy_utf8. Qed.
Lemma chars_scalar n : forall b, length b <= n -> Forall (fun o => match o with Some c => scalar c | None => True end) (chars b).
Proof.
  induction n as [|n IH]; intros b L; [destruct b; [constructor|cbn in L; lia]|]. destruct b as [|x r]; [constructor|]. destruct (one_char x r) as [c r'] eqn:O. rewrite (chars_step _ _ _ _ O).
  pose proof (one_char_short _ _ _ _ O). cbn [length] in L. constructor; [|apply IH; lia]. destruct c as [c|]; [|exact I]. exact (proj1 (one_char_sound _ _ _ _ O)).
Qed.
Lemma to_lossy_scalar b : Forall scalar (to_lossy b).
Proof.
  unfold to_lossy. pose proof (chars_scalar (length b) b (le_n _)) as H. induction H as [|[c|] l C _ IH]; cbn [map]; constructor; auto. right. unfold replacement. lia.
Qed.
Lemma to_str_none b : to_str b = None -> In replacement (to_lossy b).
Proof.
  unfold to_str, to_lossy. induction (chars b) as [|[c|] l IH]; cbn [all_chars map]; [discriminate| |intros _; now left].
  destruct (all_chars l); [discriminate|]. intros _. right. now apply IH.
Qed.

(** ** The functions of [std::path] on UTF-8 *)
Definition cu (c : component) : component := match c with Normal n => Normal (utf8 n) | _ => c end.
Notation uni := (Forall scalar).
Lemma uni_app a b : uni (a ++ b) <-> uni a /\ uni b.
Proof. apply Forall_app. Qed.
Lemma uni_low c : (c < 128)%N -> scalar c.
Proof. left. lia. Qed.
Lemma uni_slash : scalar slash.
Proof. left. reflexivity. Qed.
Lemma uni_firstn n t : uni t -> uni (firstn n t).
Proof. intro H. rewrite <- (firstn_skipn n t) in H. now apply uni_app in H. Qed.
Lemma uni_skipn n t : uni t -> uni (skipn n t).
Proof. intro H. rewrite <- (firstn_skipn n t) in H. now apply uni_app in H. Qed.
Lemma name_eqb_u a b : uni a -> uni b -> name_eqb (utf8 a) (utf8 b) = name_eqb a b.
Proof.
  intros A B. destruct (name_eqb a b) eqn:E; [apply name_eqb_eq in E; subst; now apply name_eqb_eq|].
  destruct (name_eqb (utf8 a) (utf8 b)) eqn:E'; [|reflexivity]. apply name_eqb_eq in E'. apply utf8_inj in E'; [|assumption|assumption]. apply name_eqb_eq in E'. congruence.
Qed.
Definition low (t : text) : bool := forallb (fun c => (c <? 128)%N) t.
Lemma low_utf8 t : low t = true -> utf8 t = t /\ uni t.
Proof.
  induction t as [|c t IH]; cbn [low forallb]; [intros _; split; [reflexivity|constructor]|]. intro H. apply andb_true_iff in H as (C & H). destruct (IH H) as (E & U). apply N.ltb_lt in C.
  rewrite utf8_cons, (char_low c C), E. split; [reflexivity|]. constructor; [now apply uni_low|exact U].
Qed.
Lemma name_eqb_low a b : uni a -> low b = true -> name_eqb (utf8 a) b = name_eqb a b.
Proof. intros A B. destruct (low_utf8 b B) as (E & U). rewrite <- E at 1. now apply name_eqb_u. Qed.
Lemma piece_u w : uni w -> piece (utf8 w) = map cu (piece w).
Proof.
  intro U. unfold piece. rewrite !name_eqb_low by (exact U || reflexivity). repeat destruct (name_eqb _ _); reflexivity.
Qed.
Lemma no_slash_u c : c <> slash -> ~ In slash (utf8_char c).
Proof. intros N I. apply N. symmetry. apply (char_in c slash); [reflexivity|exact I]. Qed.
Lemma split_front p s : ~ In slash p -> split_slash (p ++ s) = match split_slash s with w :: ws => (p ++ w) :: ws | [] => [p] end.
Proof.
  induction p as [|c p IH]; intro N; cbn [app]; [destruct (split_slash s) eqn:E; [now elim (split_ne s)|reflexivity]|].
  rewrite split_cons, IH by (intro I; apply N; now right). destruct (N.eqb_spec c slash) as [->|_]; [elim N; now left|]. destruct (split_slash s) eqn:E; [now elim (split_ne s)|reflexivity].
Qed.
Lemma split_u t : split_slash (utf8 t) = map utf8 (split_slash t).
Proof.
  induction t as [|c t IH]; [reflexivity|]. rewrite utf8_cons. pose proof (split_ne t) as NE. destruct (N.eq_dec c slash) as [->|N].
  - rewrite (char_low slash) by reflexivity. cbn [app split_slash]. rewrite IH. destruct (split_slash t); [now elim NE|reflexivity].
  - rewrite (split_front _ _ (no_slash_u c N)), IH. cbn [split_slash]. destruct (split_slash t) as [|w ws]; [now elim NE|]. apply N.eqb_neq in N. rewrite N. reflexivity.
Qed.
Lemma split_uni t : uni t -> Forall uni (split_slash t).
Proof.
  induction 1 as [|c t C _ IH]; [repeat constructor|]. cbn [split_slash]. destruct (split_slash t) as [|w ws]; [exact (Forall_cons _ (Forall_cons _ C (Forall_nil _)) (Forall_nil _))|]. inversion IH as [|? ? W Ws]; subst.
  destruct (_ =? _)%N; [exact (Forall_cons _ (Forall_nil _) IH)|exact (Forall_cons _ (Forall_cons _ C W) Ws)].
Qed.
Lemma flat_piece_u ws : Forall uni ws -> flat_map piece (map utf8 ws) = map cu (flat_map piece ws).
Proof. induction 1 as [|w ws W _ IH]; [reflexivity|]. cbn [map flat_map]. now rewrite (piece_u w W), IH, map_app. Qed.
Lemma first_u x c t : (x < 128)%N -> exists b r, utf8 (c :: t) = b :: r /\ (b =? x)%N = (c =? x)%N.
Proof.
  intro X. rewrite utf8_cons. pose proof (char_ne c) as NE. destruct (utf8_char c) as [|b r] eqn:E; [now elim NE|]. exists b, (r ++ utf8 t). split; [reflexivity|].
  destruct (N.eqb_spec c x) as [->|N]; [rewrite (char_low x X) in E; injection E as <- _; apply N.eqb_refl|]. apply N.eqb_neq. intros ->. apply N. symmetry. apply (char_in c x X). rewrite E. now left.
Qed.
Lemma components_u t : uni t -> components (utf8 t) = map cu (components t).
Proof.
  intro U. pose proof (split_uni t U) as SU. unfold components. rewrite split_u. destruct (split_slash t) as [|w ws] eqn:E; [now elim (split_ne t)|]. inversion SU as [|? ? W Ws]; subst. cbn [map].
  destruct t as [|c t]; [reflexivity|]. destruct (first_u slash c t eq_refl) as (b & r & -> & ->). destruct (_ =? _)%N; [cbn [map]; f_equal; now apply flat_piece_u|].
  rewrite (name_eqb_low w [dot] W eq_refl). destruct (name_eqb w [dot]); [cbn [map]; f_equal; now apply flat_piece_u|]. exact (flat_piece_u (w :: ws) SU).
Qed.
Lemma absolute_u t : is_absolute (utf8 t) = is_absolute t.
Proof. destruct t as [|c t]; [reflexivity|]. destruct (first_u slash c t eq_refl) as (b & r & -> & E). exact E. Qed.
Lemma cur_dir_u t : cur_dir (utf8 t) = cur_dir t.
Proof.
  destruct t as [|c t]; [reflexivity|]. destruct (N.eq_dec c dot) as [->|N].
  - rewrite utf8_cons, (char_low dot) by reflexivity. cbn [app]. destruct t as [|d t]; [reflexivity|]. destruct (first_u slash d t eq_refl) as (b & r & -> & E). cbn [cur_dir]. now rewrite E.
  - destruct (first_u dot c t eq_refl) as (b & r & -> & E). apply N.eqb_neq in N. rewrite N in E. cbn [cur_dir]. rewrite E, N. destruct r, t; reflexivity.
Qed.
Lemma before_u t : before_body (utf8 t) = before_body t.
Proof. unfold before_body. now rewrite absolute_u, cur_dir_u. Qed.
Lemma body_u t : skipn (before_body t) (utf8 t) = utf8 (skipn (before_body t) t) /\ firstn (before_body t) (utf8 t) = utf8 (firstn (before_body t) t).
Proof.
  unfold before_body. destruct t as [|c t]; [split; reflexivity|]. destruct (is_absolute (c :: t)) eqn:A; [|destruct (cur_dir (c :: t)) eqn:C; [|split; reflexivity]].
  - cbn [is_absolute] in A. apply N.eqb_eq in A. subst. split; reflexivity.
  - assert (c = dot) as -> by (apply N.eqb_eq; destruct t; cbn [cur_dir] in C; [exact C|apply andb_true_iff in C; apply C]). split; reflexivity.
Qed.
Definition ru (r : text) : bytes := rev (utf8 (rev r)).
Lemma ru_cons c r : ru (c :: r) = rev (utf8_char c) ++ ru r.
Proof. unfold ru. cbn [rev]. rewrite utf8_app, rev_app_distr. cbn [utf8 flat_map]. now rewrite app_nil_r. Qed.
Lemma ru_app a b : ru (a ++ b) = ru a ++ ru b.
Proof. unfold ru. now rewrite rev_app_distr, utf8_app, rev_app_distr. Qed.
Lemma ru_slash : ru [slash] = [slash].
Proof. reflexivity. Qed.
Lemma ru_in x r : (x < 128)%N -> In x (ru r) <-> In x r.
Proof. intro X. unfold ru. rewrite <- in_rev, (utf8_in x _ X), <- in_rev. reflexivity. Qed.
Lemma last_piece_u r : last_piece (ru r) = (ru (fst (last_piece r)), ru (snd (last_piece r))).
Proof.
  destruct (last_piece r) as [p q] eqn:E. apply last_piece_ok in E as (N & E). cbn [fst snd]. assert (N' : ~ In slash (ru p)) by now rewrite (ru_in slash p eq_refl).
  destruct E as [->|(-> & ->)]; [|now apply last_piece_end]. change (slash :: q) with ([slash] ++ q). rewrite !ru_app. exact (last_piece_sep _ _ N').
Qed.
Lemma uni_rev t : uni t -> uni (rev t).
Proof. intro H. apply Forall_forall. intros x I. rewrite <- in_rev in I. rewrite Forall_forall in H. auto. Qed.
Lemma last_piece_uni r : uni r -> uni (fst (last_piece r)) /\ uni (snd (last_piece r)).
Proof.
  destruct (last_piece r) as [p q] eqn:E. apply last_piece_ok in E as (_ & E). cbn [fst snd]. intro U. destruct E as [->|(-> & ->)]; [|now split].
  apply uni_app in U as (U1 & U2). inversion_clear U2. now split.
Qed.
Lemma ru_ne r : r <> [] -> ru r <> [].
Proof.
  intros NE E. apply NE. unfold ru in E. apply (f_equal (@rev _)) in E. rewrite rev_involutive in E. destruct (rev r) as [|c s] eqn:R; [|now elim (utf8_ne (c :: s))].
  apply (f_equal (@rev _)) in R. now rewrite rev_involutive in R.
Qed.
Lemma rev_ru r : rev (ru r) = utf8 (rev r).
Proof. unfold ru. apply rev_involutive. Qed.
Lemma back_u n : forall m r, uni r -> length r <= n -> length (ru r) <= m ->
  back_fuel m (ru r) = option_map (fun x => (cu (fst x), ru (snd x))) (back_fuel n r).
Proof.
  induction n as [|n IH]; intros m r U L M; [destruct r; [now destruct m|cbn in L; lia]|]. destruct r as [|c r]; [now destruct m|].
  destruct m as [|m]; [pose proof (ru_ne (c :: r)); destruct (ru (c :: r)); [elim H; [discriminate|reflexivity]|cbn in M; lia]|].
  assert (Q1 : length (snd (last_piece (c :: r))) <= n) by (destruct (last_piece (c :: r)) eqn:E; apply last_piece_short in E; cbn in *; lia).
  cbn [back_fuel]. pose proof (last_piece_u (c :: r)) as LU. pose proof (last_piece_uni _ U) as (P1 & P2).
  assert (Q2 : length (ru (snd (last_piece (c :: r)))) <= m).
  { destruct (ru (c :: r)) as [|b s] eqn:R; [now elim (ru_ne (c :: r)); [discriminate|]|]. destruct (last_piece (b :: s)) as [p q] eqn:E. pose proof (last_piece_short _ _ _ _ E). assert (QQ : q = ru (snd (last_piece (c :: r)))) by exact (f_equal snd LU). rewrite <- QQ. cbn [length] in M. lia. }
  destruct (ru (c :: r)) as [|b s] eqn:R; [now elim (ru_ne (c :: r)); [discriminate|]|]. rewrite LU. destruct (last_piece (c :: r)) as [p q]; cbn [fst snd] in *.
  rewrite rev_ru, (piece_u (rev p)) by now apply uni_rev. destruct (piece (rev p)) as [|x xs]; cbn [map]; [now apply IH|reflexivity].
Qed.
Lemma trim_u n : forall m r, uni r -> length r <= n -> length (ru r) <= m -> trim_fuel m (ru r) = ru (trim_fuel n r).
Proof.
  induction n as [|n IH]; intros m r U L M; [destruct r; [now destruct m|cbn in L; lia]|]. destruct r as [|c r]; [now destruct m|].
  destruct m as [|m]; [pose proof (ru_ne (c :: r)); destruct (ru (c :: r)); [elim H; [discriminate|reflexivity]|cbn in M; lia]|].
  assert (Q1 : length (snd (last_piece (c :: r))) <= n) by (destruct (last_piece (c :: r)) eqn:E; apply last_piece_short in E; cbn in *; lia).
  cbn [trim_fuel]. pose proof (last_piece_u (c :: r)) as LU. pose proof (last_piece_uni _ U) as (P1 & P2).
  assert (Q2 : length (ru (snd (last_piece (c :: r)))) <= m).
  { destruct (ru (c :: r)) as [|b s] eqn:R; [now elim (ru_ne (c :: r)); [discriminate|]|]. destruct (last_piece (b :: s)) as [p q] eqn:E. pose proof (last_piece_short _ _ _ _ E). assert (QQ : q = ru (snd (last_piece (c :: r)))) by exact (f_equal snd LU). rewrite <- QQ. cbn [length] in M. lia. }
  destruct (ru (c :: r)) as [|b s] eqn:R; [now elim (ru_ne (c :: r)); [discriminate|]|]. rewrite LU. destruct (last_piece (c :: r)) as [p q]; cbn [fst snd] in *.
  rewrite rev_ru, (piece_u (rev p)) by now apply uni_rev. destruct (piece (rev p)) as [|x xs]; cbn [map]; [now apply IH|symmetry; exact R].
Qed.
Lemma rev_utf8 t : rev (utf8 t) = ru (rev t).
Proof. unfold ru. now rewrite rev_involutive. Qed.
Lemma body_back_u b : uni b -> body_back (utf8 b) = option_map (fun x => (cu (fst x), utf8 (snd x))) (body_back b).
Proof.
  intro U. unfold body_back. rewrite rev_utf8, (back_u (length b)); [|now apply uni_rev|now rewrite rev_length|unfold ru; now rewrite rev_length, rev_involutive].
  destruct (back_fuel _ _) as [[c q]|]; [|reflexivity]. cbn [option_map fst snd]. now rewrite rev_ru.
Qed.
Lemma trim_right_u b : uni b -> trim_right (utf8 b) = utf8 (trim_right b).
Proof.
  intro U. unfold trim_right. rewrite rev_utf8, (trim_u (length b)); [|now apply uni_rev|now rewrite rev_length|unfold ru; now rewrite rev_length, rev_involutive]. apply rev_ru.
Qed.
Lemma back_uni n : forall r c q, uni r -> back_fuel n r = Some (c, q) -> uni q.
Proof.
  induction n as [|n IH]; intros r c q U; [discriminate|]. destruct r as [|x r]; [discriminate|]. cbn [back_fuel]. pose proof (last_piece_uni _ U) as (_ & P). destruct (last_piece (x :: r)) as [p s]. cbn [snd] in P.
  destruct (piece (rev p)); [now apply IH|]. intro E. injection E as _ <-. exact P.
Qed.
Lemma body_back_uni b c q : uni b -> body_back b = Some (c, q) -> uni q.
Proof. intros U. unfold body_back. destruct (back_fuel _ _) as [[x s]|] eqn:E; [|discriminate]. intro H. injection H as _ <-. apply uni_rev. exact (back_uni _ _ _ _ (uni_rev _ U) E). Qed.
Lemma last_u t : uni t -> t_last (utf8 t) = option_map cu (t_last t).
Proof.
  intro U. unfold t_last. rewrite before_u, (proj1 (body_u t)), body_back_u by now apply uni_skipn. rewrite absolute_u, cur_dir_u. destruct (body_back _) as [[c q]|]; [reflexivity|]. cbn [option_map].
  destruct (is_absolute t), (cur_dir t); reflexivity.
Qed.
Lemma parent_u t : uni t -> t_parent (utf8 t) = option_map utf8 (t_parent t).
Proof.
  intro U. unfold t_parent. rewrite before_u, (proj1 (body_u t)), body_back_u by now apply uni_skipn. rewrite absolute_u, cur_dir_u. destruct (body_back _) as [[c q]|] eqn:E; cbn [option_map fst snd].
  - rewrite (proj2 (body_u t)), trim_right_u, <- utf8_app; [reflexivity|]. exact (body_back_uni _ _ _ (uni_skipn _ _ U) E).
  - destruct (is_absolute t), (cur_dir t); reflexivity.
Qed.
Lemma parent_uni t b : uni t -> t_parent t = Some b -> uni b.
Proof. intros U E. apply parent_front in E as (s & ->). now apply uni_app in U. Qed.
Lemma file_name_u t : uni t -> t_file_name (utf8 t) = option_map utf8 (t_file_name t).
Proof. intro U. unfold t_file_name. rewrite (last_u t U). destruct (t_last t) as [[| | |n]|]; reflexivity. Qed.
Lemma component_uni t n : uni t -> In (Normal n) (components t) -> uni n.
Proof.
  intro U. pose proof (split_uni t U) as SU. unfold components. destruct (split_slash t) as [|w ws]; [contradiction|]. destruct t as [|c t]; [contradiction|].
  assert (K : forall ws, Forall uni ws -> In (Normal n) (flat_map piece ws) -> uni n).
  { intros vs V J. apply in_flat_map in J as (v & J1 & J2). apply piece_normal in J2 as (-> & _). rewrite Forall_forall in V. auto. }
  inversion SU as [|? ? W Ws]; subst. destruct (_ =? _)%N; [intros [J|J]; [discriminate J|exact (K ws Ws J)]|]. destruct (name_eqb _ _); [intros [J|J]; [discriminate J|exact (K ws Ws J)]|]. exact (K (w :: ws) SU).
Qed.
Lemma file_name_uni t n : uni t -> t_file_name t = Some n -> uni n.
Proof.
  intros U F. apply (component_uni t n U). rewrite last_file_name in F. unfold file_name in F. rewrite (in_rev (components t)).
  destruct (rev (components t)) as [|[| | |m] l]; try discriminate F. injection F as ->. now left.
Qed.
Lemma recycle_u t : uni t -> t_recycle_bin (utf8 t) = t_recycle_bin t.
Proof.
  intro U. unfold t_recycle_bin. rewrite (last_u t U). destruct (t_last t) as [[| | |n]|] eqn:E; try reflexivity. cbn [option_map cu]. apply name_eqb_low; [|reflexivity].
  apply (file_name_uni t n U). unfold t_file_name. now rewrite E.
Qed.
Lemma rev_ext_front acc p x : ~ In dot p -> rev_ext acc (p ++ x) = rev_ext (rev p ++ acc) x.
Proof.
  revert acc. induction p as [|c p IH]; intros acc N; [reflexivity|]. cbn [app rev_ext]. destruct (N.eqb_spec c dot) as [->|_]; [elim N; now left|].
  rewrite IH by (intro I; apply N; now right). cbn [rev]. now rewrite <- app_assoc.
Qed.
Lemma rev_ext_u r : forall acc, rev_ext (utf8 acc) (ru r) = option_map utf8 (rev_ext acc r).
Proof.
  induction r as [|c r IH]; intro acc; [reflexivity|]. rewrite ru_cons. cbn [rev_ext]. destruct (N.eqb_spec c dot) as [->|N].
  - rewrite (char_low dot) by reflexivity. cbn [rev app rev_ext]. rewrite N.eqb_refl. destruct r as [|d r]; [reflexivity|]. pose proof (ru_ne (d :: r)) as NE. destruct (ru (d :: r)); [now elim NE|reflexivity].
  - rewrite rev_ext_front by (rewrite <- in_rev; intro I; apply N; symmetry; apply (char_in c dot); [reflexivity|exact I]). rewrite rev_involutive, <- utf8_cons. apply IH.
Qed.
Lemma extension_name_u n : extension (utf8 n) = option_map utf8 (extension n).
Proof. unfold extension. rewrite rev_utf8. exact (rev_ext_u (rev n) []). Qed.
Lemma extension_u t : uni t -> t_extension (utf8 t) = option_map utf8 (t_extension t).
Proof. intro U. unfold t_extension. rewrite (file_name_u t U). destruct (t_file_name t) as [n|]; [apply extension_name_u|reflexivity]. Qed.
Lemma rev_ext_uni r : forall acc e, uni acc -> uni r -> rev_ext acc r = Some e -> uni e.
Proof.
  induction r as [|c r IH]; intros acc e A R; [discriminate|]. cbn [rev_ext]. inversion_clear R. destruct (_ =? _)%N; [destruct r; [discriminate|]; intro E; injection E as <-; exact A|].
  apply IH; [now constructor|assumption].
Qed.
Lemma extension_uni t e : uni t -> t_extension t = Some e -> uni e.
Proof.
  intro U. unfold t_extension. destruct (t_file_name t) as [n|] eqn:F; [|discriminate]. apply (rev_ext_uni (rev n) []); [constructor|]. apply uni_rev. exact (file_name_uni t n U F).
Qed.
Lemma push_u a b : t_push (utf8 a) (utf8 b) = utf8 (t_push a b).
Proof.
  unfold t_push. rewrite absolute_u. destruct (is_absolute b); [reflexivity|]. rewrite rev_utf8. destruct (rev a) as [|c r] eqn:R; [reflexivity|].
  rewrite ru_cons. destruct (rev (utf8_char c)) as [|x y] eqn:E; [apply (f_equal (@rev _)) in E; rewrite rev_involutive in E; now elim (char_ne c)|]. cbn [app].
  assert (X : In x (utf8_char c)) by (rewrite in_rev, E; now left).
  destruct (N.eqb_spec c slash) as [->|N].
  - rewrite (char_low slash) in E by reflexivity. injection E as <- _. rewrite N.eqb_refl. symmetry. apply utf8_app.
  - destruct (N.eqb_spec x slash) as [->|_]; [elim (no_slash_u c N); exact X|]. rewrite utf8_app. reflexivity.
Qed.
Lemma push_uni a b : uni a -> uni b -> uni (t_push a b).
Proof.
  intros A B. unfold t_push. destruct (is_absolute b); [exact B|]. destruct (rev a); [exact B|]. destruct (_ =? _)%N; apply uni_app; split; auto. constructor; [exact uni_slash|exact B].
Qed.
Lemma starts_with_u p : forall b, Forall (fun c => match c with Normal n => uni n | _ => True end) p -> Forall (fun c => match c with Normal n => uni n | _ => True end) b ->
  starts_with (map cu p) (map cu b) = starts_with p b.
Proof.
  induction p as [|c p IH]; intros b P B; [now destruct b|]. destruct b as [|d b]; [reflexivity|]. inversion_clear P. inversion_clear B. cbn [map starts_with]. rewrite IH by assumption. f_equal.
  destruct c, d; try reflexivity. cbn [cu component_eqb]. now apply name_eqb_u.
Qed.
Lemma components_uni t : uni t -> Forall (fun c => match c with Normal n => uni n | _ => True end) (components t).
Proof. intro U. apply Forall_forall. intros [| | |n] I; try exact Logic.I. exact (component_uni t n U I). Qed.

(** ** The parser *)
Definition spells (b : bytes) (t : text) : Prop := b = utf8 t /\ uni t.
(** Results alike, with the same report. *)
Definition balike {A B} (R : A -> B -> Prop) (m : mres A) (n : mres B) : Prop :=
  match m, n with
  | MGot a, MGot b => R a b
  | MSaid r, MSaid r' => r = r'
  | MCrashed, MCrashed => True
  | MTooDeep, MTooDeep => True
  | _, _ => False
  end.
Lemma balike_eq {A} (m n : mres A) : balike eq m n -> m = n.
Proof. destruct m, n; cbn; intro H; try contradiction; congruence. Qed.
Lemma balike_refl {A} (m : mres A) : balike eq m m.
Proof. destruct m; cbn; auto. Qed.
Lemma balike_bind {A B C D} (R : A -> B -> Prop) (Q : C -> D -> Prop) m n f g : balike R m n -> (forall a b, R a b -> m = MGot a -> n = MGot b -> balike Q (f a) (g b)) -> balike Q (mbind m f) (mbind n g).
Proof. destruct m, n; cbn; intros H G; try contradiction; subst; auto. Qed.
Lemma balike_map {A A' B C} (P : A -> A' -> Prop) (R : B -> C -> Prop) f g l l' : (forall a a', P a a' -> balike R (f a) (g a')) -> Forall2 P l l' -> balike (Forall2 R) (mmap f l) (mmap g l').
Proof.
  intro H. induction 1 as [|a a' l l' P1 _ IH]; cbn [mmap]; [constructor|]. apply (balike_bind R); [now apply H|]. intros b c BC _ _. apply (balike_bind (Forall2 R)); [exact IH|]. intros bs cs F _ _. now constructor.
Qed.
Lemma balike_or {A B} (R : A -> B -> Prop) r o o' : match o, o' with Some a, Some b => R a b | None, None => True | _, _ => False end -> balike R (or_tell r o) (or_tell r o').
Proof. destruct o, o'; cbn; intro H; try contradiction; auto. Qed.
Lemma sanitize_u f cs : Forall (fun c => match c with Normal n => uni n | _ => True end) cs -> forall buf, uni buf ->
  balike spells (b_sanitize f (utf8 buf) (map cu cs)) (m_sanitize f buf cs).
Proof.
  induction 1 as [|c cs C _ IH]; intros buf U; cbn [map b_sanitize m_sanitize]; [now split|]. destruct c as [| | |n]; cbn [cu b_sanitize]; try reflexivity; [now apply IH|].
  rewrite (proj2 (to_str_iff (utf8 n) n) (conj C eq_refl)). destruct (name_eqb _ _); [|reflexivity]. rewrite push_u. apply IH. now apply push_uni.
Qed.
Lemma resolve_u f B T base e : spelled B T -> uni base -> uni e -> balike spells (b_resolve f B (utf8 base) e) (m_resolve f T base e).
Proof.
  intros SP UB UE. unfold b_resolve, m_resolve. rewrite absolute_u. destruct (is_absolute e); [reflexivity|]. rewrite (components_u e UE).
  apply (balike_bind spells); [exact (sanitize_u f _ (components_uni e UE) [] (Forall_nil _))|]. intros b t (-> & U) _ _. destruct t as [|c t]; [reflexivity|].
  pose proof (utf8_ne (c :: t)) as NE. destruct (utf8 (c :: t)) as [|x y] eqn:X; [now elim NE|]. rewrite <- X. cbv zeta. rewrite push_u. pose proof (push_uni _ _ UB U) as UP. set (p := t_push base (c :: t)) in *.
  rewrite (sp_exists _ _ SP p UP). destruct (tfs_exists T p); [|now split]. rewrite (sp_canonicalize _ _ SP base UB), (sp_canonicalize _ _ SP p UP).
  destruct (tfs_canonicalize T base) as [bc|] eqn:BC; cbn [option_map or_tell mbind]; [|reflexivity]. destruct (tfs_canonicalize T p) as [cc|] eqn:CC; cbn [option_map or_tell mbind]; [|reflexivity].
  apply (sp_canonical _ _ SP) in BC, CC. rewrite !components_u, starts_with_u by auto using components_uni. destruct (starts_with _ _); [now split|reflexivity].
Qed.
Lemma buffer_u h fuel d n : uni n -> b_section_buffer h fuel d (utf8 n) = m_section_buffer h fuel d n.
Proof. intro U. unfold b_section_buffer, m_section_buffer. now rewrite (lossy_utf8 n U). Qed.
Lemma section_u h fuel B T t : spelled B T -> uni t -> b_section h fuel B (utf8 t) = m_section h fuel T t.
Proof.
  intros SP U. unfold b_section, m_section. rewrite (sp_read _ _ SP t U), (lossy_utf8 t U), (file_name_u t U). destruct (tfs_read T t); cbn [or_tell mbind]; [|reflexivity].
  destruct (beneath _) as [st| | |]; cbn [mbind]; try reflexivity. destruct (_ =? _)%N; [|reflexivity]. destruct (t_file_name t) as [n|] eqn:F; cbn [option_map or_tell mbind]; [|reflexivity].
  now rewrite (lossy_utf8 n (file_name_uni t n U F)).
Qed.
Lemma toc_u dir l : uni dir -> (forall n, In (Some n) l -> uni n) -> balike spells (b_toc (utf8 dir) (map (option_map utf8) l)) (m_toc dir l).
Proof.
  intros U. induction l as [|[n|] l IH]; intro P; cbn [map option_map b_toc m_toc]; [cbn; now rewrite (lossy_utf8 dir U)| |reflexivity].
  specialize (IH (fun n I => P n (or_intror I))). assert (Un : uni n) by (apply P; now left). cbv zeta. rewrite push_u. pose proof (push_uni _ _ U Un) as UP. rewrite (extension_u _ UP).
  destruct (t_extension (t_push dir n)) as [e|] eqn:E; cbn [option_map]; [|exact IH]. rewrite (name_eqb_low e onetoc2 (extension_uni _ _ UP E) eq_refl). destruct (name_eqb _ _); [now split|exact IH].
Qed.
Lemma toc_names_uni h fuel k d st names c : bytes_ok d -> open_store h fuel d = Ok st -> parse_toc k (st_data_root st) = Ok (names, c) -> Forall uni names.
Proof.
  intros BO O E. pose proof (open_store_fits _ _ _ _ BO O) as [RF _]. apply toc_settles in E. apply (toc_valid _ RF) in E as (E & _).
  apply Forall_forall. intros n I. rewrite Forall_forall in E. exact (proj1 (proj1 (E n I))).
Qed.
Lemma filter_u (f g : text -> bool) l m : (forall t, uni t -> f (utf8 t) = g t) -> Forall2 spells l m -> Forall2 spells (filter f l) (filter g m).
Proof.
  intro H. induction 1 as [|b t l m (-> & U) _ IH]; cbn [filter]; [constructor|]. rewrite (H t U). destruct (g t); [|exact IH]. constructor; [now split|exact IH].
Qed.
Lemma notebook_u f h fuel B T : spelled B T -> forall depth t, uni t -> b_notebook f h depth fuel B (utf8 t) = m_notebook f h depth fuel T t.
Proof.
  intro SP. induction depth as [|d IH]; intros t U; cbn [b_notebook m_notebook]; [reflexivity|]. apply balike_eq. rewrite (sp_read _ _ SP t U), (lossy_utf8 t U), (parent_u t U).
  apply (balike_bind eq); [apply balike_refl|]. intros data ? <- RD _. apply (balike_bind eq); [apply balike_refl|]. intros st ? <- OS _. destruct (_ =? _)%N; [|reflexivity].
  apply (balike_bind spells); [apply balike_or; destruct (t_parent t) as [b|] eqn:P; cbn [option_map]; [split; [reflexivity|exact (parent_uni t b U P)]|exact I]|]. intros ? base (-> & UB) _ _.
  apply (balike_bind eq); [apply balike_refl|]. intros [names color] ? <- PT _.
  assert (UN : Forall uni names).
  { destruct (tfs_read T t) as [dd|] eqn:R; [|discriminate RD]. injection RD as ->. apply (sp_bytes _ _ SP) in R. destruct (open_store h fuel data) as [st'| | |] eqn:O; try discriminate OS. injection OS as ->.
    destruct (parse_toc fuel (st_data_root st)) as [x| | |] eqn:E; try discriminate PT. injection PT as ->. exact (toc_names_uni _ _ _ _ _ _ _ R O E). }
  apply (balike_bind (Forall2 spells)).
  { apply (balike_map (fun a b => a = b /\ uni a)); [intros e ? (<- & UE); now apply resolve_u|]. clear - UN. induction UN; constructor; auto. }
  intros bs ts M _ _. cbv zeta. apply (balike_bind eq); [|now intros ? ? <- _ _].
  assert (G : forall A (m n : mres A), m = n -> balike eq m n) by (intros A m n ->; apply balike_refl).
  assert (K : Forall2 spells (filter (fun p => negb (t_recycle_bin p)) (filter (tfs_exists B) bs)) (filter (fun p => negb (t_recycle_bin p)) (filter (tfs_exists T) ts))).
  { apply filter_u; [intros u Uu; now rewrite (recycle_u u Uu)|]. apply filter_u; [exact (sp_exists _ _ SP)|exact M]. }
  assert (Q : forall A (l m : list A), Forall2 eq l m -> l = m) by (induction 1; congruence).
  match goal with |- balike eq ?m ?n => assert (X : balike (Forall2 eq) m n) end; [|destruct (mmap _ _), (mmap _ _); cbn [balike] in *; try contradiction; auto].
  apply (balike_map spells); [|exact K]. intros ? u (-> & Uu). rewrite (sp_is_file _ _ SP u Uu). destruct (tfs_is_file T u).
  - apply G. now rewrite (section_u h fuel B T u SP Uu).
  - rewrite (file_name_u u Uu). apply (balike_bind spells); [apply balike_or; destruct (t_file_name u) as [n|] eqn:F; cbn [option_map]; [split; [reflexivity|exact (file_name_uni u n Uu F)]|exact I]|]. intros ? dn (-> & UD) _ _.
    rewrite (sp_read_dir _ _ SP u Uu), (lossy_utf8 dn UD). destruct (tfs_read_dir T u) as [l|] eqn:RDR; cbn [option_map or_tell mbind]; [|reflexivity].
    apply (balike_bind spells); [exact (toc_u u l Uu (fun n I => sp_names _ _ SP u l n RDR I))|]. intros ? v (-> & Uv) _ _. apply G. now rewrite (IH v Uv).
Qed.

(** ** Any bytes *)
Lemma joined_u l : utf8 (joined l) = joined (map utf8 l).
Proof.
  induction l as [|n l IH]; [reflexivity|]. destruct l as [|m l]; [exact eq_refl|]. rewrite joined_cons by discriminate. change (map utf8 (n :: m :: l)) with (utf8 n :: map utf8 (m :: l)).
  rewrite (joined_cons (utf8 n)) by discriminate. rewrite utf8_app, utf8_cons, IH. reflexivity.
Qed.
Lemma proper_u n : uni n -> proper_name n -> proper_name (utf8 n).
Proof.
  intros U (P1 & P2 & P3 & P4). repeat split.
  - now rewrite (utf8_in slash n eq_refl).
  - now apply utf8_ne.
  - intro E. apply P3. apply (utf8_inj n [dot] U); [repeat constructor|exact E].
  - intro E. apply P4. apply (utf8_inj n [dot; dot] U); [repeat constructor|exact E].
Qed.
Lemma below_last base l n p : Forall proper_name (l ++ [n]) -> below base (l ++ [n]) p -> t_file_name p = Some n.
Proof.
  intros F B. apply Forall_app in F as (Fl & Fn). inversion_clear Fn as [|? ? Pn _].
  assert (E : exists u, p = u ++ n /\ (u = [] \/ exists s, u = s ++ [slash])).
  { destruct B as (sep & -> & S). destruct l as [|x l].
    - exists (base ++ sep). split; [now rewrite <- app_assoc|]. destruct S as [(-> & [->|(s & ->)])|(-> & _ & _)]; [now left|right; exists s; now rewrite app_nil_r|right; now exists base].
    - rewrite joined_snoc by discriminate. exists (base ++ sep ++ joined (x :: l) ++ [slash]). split; [now rewrite <- !app_assoc|]. right. exists (base ++ sep ++ joined (x :: l)). now rewrite <- !app_assoc. }
  destruct E as (u & -> & U). unfold t_file_name, t_last. destruct (before_body_proper (u ++ n) u n eq_refl Pn U) as (L & K). set (k := before_body (u ++ n)) in *.
  rewrite skipn_app. replace (k - length u) with 0 by lia. cbn [skipn]. unfold body_back. destruct (last_piece_proper _ n Pn K) as (q & LP).
  destruct (length (skipn k u ++ n)) as [|m] eqn:M; [rewrite app_length in M; destruct n; [now elim (proj1 (proj2 Pn))|cbn in M; lia]|].
  destruct (rev (skipn k u ++ n)) as [|c r] eqn:R; [apply (f_equal (@length _)) in R; rewrite rev_length, M in R; discriminate R|].
  cbn [back_fuel]. rewrite LP, rev_involutive, (proper_piece' n Pn). reflexivity.
Qed.
Lemma entry_names f B base e p : uni e -> b_resolve f B base e = MGot p ->
  exists l n, Forall proper_name (l ++ [n]) /\ uni (concat (l ++ [n])) /\ Forall (fun x => f x = x) (l ++ [n]) /\ below base (map utf8 (l ++ [n])) p /\
    map Normal (l ++ [n]) = filter (fun c => negb (component_eqb c CurDir)) (components e) /\ t_file_name p = Some (utf8 n) /\ to_lossy (utf8 n) = n /\
    (tfs_exists B p = true -> exists b c, tfs_canonicalize B base = Some b /\ tfs_canonicalize B p = Some c /\ starts_with (components c) (components b) = true).
Proof.
  intros UE. unfold b_resolve. rewrite absolute_u. destruct (is_absolute e); [discriminate|]. rewrite (components_u e UE).
  pose proof (sanitize_u f _ (components_uni e UE) [] (Forall_nil _)) as SA. change (utf8 []) with (@nil N) in SA. destruct (b_sanitize f [] (map cu (components e))) as [b| | |]; try discriminate.
  destruct (m_sanitize f [] (components e)) as [s| | |] eqn:MS; try contradiction. destruct SA as (-> & US). apply bare_got in MS. rewrite bare_sanitize in MS.
  destruct (sanitize_names f _ (components_proper e) [] s (Forall_nil _) MS) as (names & F & FF & -> & F2). cbn [app mbind] in *.
  assert (MN : map Normal names = filter (fun c => negb (component_eqb c CurDir)) (components e)) by (clear - F2; revert F2; generalize (filter (fun c => negb (component_eqb c CurDir)) (components e)); induction (map Normal names); intros l' H; inversion H; subst; f_equal; auto).
  destruct (utf8 (joined names)) as [|x y] eqn:X; [discriminate|]. rewrite <- X. cbv zeta. intro H.
  assert (NE : names <> []) by (intros ->; discriminate X). destruct (exists_last NE) as (l & n & ->). exists l, n.
  assert (UN : Forall uni (l ++ [n])).
  { apply Forall_forall. intros z I. apply (component_uni e z UE). assert (J : In (Normal z) (filter (fun c => negb (component_eqb c CurDir)) (components e))) by (rewrite <- MN; now apply in_map). now apply filter_In in J. }
  assert (UC : uni (concat (l ++ [n]))) by (apply Forall_forall; intros z I; apply in_concat in I as (w & I & J); rewrite Forall_forall in UN; specialize (UN w I); rewrite Forall_forall in UN; auto).
  assert (PN : Forall proper_name (map utf8 (l ++ [n]))).
  { clear - F UN. induction F; [constructor|]. inversion_clear UN. constructor; [now apply proper_u|auto]. }
  pose proof (push_below base (map utf8 (l ++ [n])) PN) as BL. rewrite <- joined_u in BL. set (q := t_push base (utf8 (joined (l ++ [n])))) in *.
  assert (Un : uni n) by (apply Forall_app in UN as (_ & UN); now inversion UN).
  assert (Q : p = q /\ (tfs_exists B q = true -> exists b c, tfs_canonicalize B base = Some b /\ tfs_canonicalize B q = Some c /\ starts_with (components c) (components b) = true)).
  { destruct (tfs_exists B q); [|injection H as <-; split; [reflexivity|discriminate]]. destruct (tfs_canonicalize B base) as [bc|]; cbn [or_tell mbind] in H; [|discriminate H].
    destruct (tfs_canonicalize B q) as [cc|]; cbn [or_tell mbind] in H; [|discriminate H]. destruct (starts_with _ _) eqn:SW; [|discriminate H]. injection H as <-. split; [reflexivity|]. intros _. now exists bc, cc. }
  destruct Q as (-> & Q). refine (conj F (conj UC (conj FF (conj BL (conj MN (conj _ (conj (lossy_utf8 n Un) Q))))))).
  rewrite map_app in PN, BL. exact (below_last base (map utf8 l) (utf8 n) q PN BL).
Qed.
(** Reports *)
Lemma b_resolve_invalid f B base e : uni e -> every (fun r => exists m, r = TInvalid m /\ m <> NotUnicode) (b_resolve f B base e).
Proof.
  intro UE. unfold b_resolve. destruct (is_absolute (utf8 e)); [apply every_said; eexists; split; [reflexivity|discriminate]|]. rewrite (components_u e UE). apply every_bind.
  - pose proof (components_uni e UE) as C. revert C. generalize (@nil N) as buf. generalize (components e) as cs. intro cs.
    induction cs as [|c cs IH]; intros buf C; cbn [map b_sanitize]; [apply every_got|]. inversion_clear C as [|? ? Cc Ccs].
    destruct c as [| | |n]; cbn [cu b_sanitize]; try (apply every_said; eexists; split; [reflexivity|discriminate]); [now apply IH|].
    rewrite (proj2 (to_str_iff (utf8 n) n) (conj Cc eq_refl)). destruct (name_eqb _ _); [now apply IH|apply every_said; eexists; split; [reflexivity|discriminate]].
  - intros [|x s] _; [apply every_said; eexists; split; [reflexivity|discriminate]|]. cbv zeta. destruct (tfs_exists _ _); [|apply every_got].
    apply every_bind; [apply every_or; eexists; split; [reflexivity|discriminate]|]. intros b _. apply every_bind; [apply every_or; eexists; split; [reflexivity|discriminate]|]. intros c _.
    destruct (starts_with _ _); [apply every_got|apply every_said; eexists; split; [reflexivity|discriminate]].
Qed.
(** The path of a report: [t] or one inside. *)
Definition shows (t : bytes) (r : told) : Prop := forall f, named r = Some f -> exists q, inside t q /\ f = to_lossy q.
Definition fine (r : told) : Prop := proper_report r /\ r <> TInvalid NotUnicode.
Lemma fine_other e : from_elsewhere e -> fine (TOther e).
Proof. intro H. split; [exact H|discriminate]. Qed.
Lemma b_section_says h fuel B p : every (fun r => fine r /\ forall f, named r = Some f -> f = to_lossy p) (b_section h fuel B p).
Proof.
  unfold b_section. apply every_bind; [apply every_or; split; [apply fine_other; now left|discriminate]|]. intros d _.
  apply every_bind; [apply every_beneath; intros e E; split; [apply fine_other, elsewhere_container; exact (open_store_kinds h fuel d e E)|discriminate]|]. intros st _.
  destruct (_ =? _)%N; [|apply every_said; split; [split; [exact I|discriminate]|intros f E; now injection E as <-]].
  apply every_bind; [apply every_or; split; [split; [exact I|discriminate]|discriminate]|]. intros n _. apply every_beneath. intros e E. split; [|discriminate]. apply fine_other, elsewhere_document. exact (section_kinds _ _ _ _ E).
Qed.
Lemma b_buffer_says h fuel d n : every (fun r => fine r /\ forall f, named r = Some f -> f = to_lossy n) (b_section_buffer h fuel d n).
Proof.
  unfold b_section_buffer. apply every_bind; [apply every_beneath; intros e E; split; [apply fine_other, elsewhere_container; exact (open_store_kinds h fuel d e E)|discriminate]|]. intros st _.
  destruct (_ =? _)%N; [|apply every_said; split; [split; [exact I|discriminate]|intros f E; now injection E as <-]].
  apply every_beneath. intros e E. split; [|discriminate]. apply fine_other, elsewhere_document. exact (section_kinds _ _ _ _ E).
Qed.
Lemma b_toc_says t dir l : inside t dir -> every (fun r => fine r /\ shows t r) (b_toc dir l).
Proof.
  intro D. induction l as [|[n|] l IH]; cbn [b_toc].
  - apply every_said. split; [split; [exact I|discriminate]|]. intros f E. injection E as <-. now exists dir.
  - cbv zeta. destruct (t_extension _) as [e|]; [|exact IH]. destruct (name_eqb _ _); [apply every_got|exact IH].
  - apply every_said. split; [apply fine_other; now left|discriminate].
Qed.
Lemma b_toc_below dir l t : (forall n, In (Some n) l -> proper_name n) -> b_toc dir l = MGot t -> exists n, proper_name n /\ t = t_push dir n.
Proof.
  induction l as [|[n|] l IH]; intro P; cbn [b_toc]; try discriminate. specialize (IH (fun n I => P n (or_intror I))). cbv zeta.
  destruct (t_extension _) as [e|]; [|exact IH]. destruct (name_eqb _ _); [|exact IH]. intro E. injection E as <-. exists n. split; [apply P; now left|reflexivity].
Qed.
Lemma b_notebook_says f h fuel B : proper_listings B -> byte_files B -> forall depth t,
  every (fun r => fine r /\ (r = TNotAToc (to_lossy t) \/ shows t r)) (b_notebook f h depth fuel B t).
Proof.
  intros PL BF. induction depth as [|d IH]; intro t; cbn [b_notebook]; [intros r E; discriminate E|].
  apply every_bind; [apply every_or; split; [apply fine_other; now left|right; discriminate]|]. intros data RD.
  apply every_bind; [apply every_beneath; intros e E; split; [apply fine_other, elsewhere_container; exact (open_store_kinds h fuel data e E)|right; discriminate]|]. intros st OS.
  destruct (_ =? _)%N; [|apply every_said; split; [split; [exact I|discriminate]|now left]]. apply every_bind; [apply every_or; split; [split; [exact I|discriminate]|right; discriminate]|]. intros base PB.
  assert (TP : t_parent t = Some base) by (destruct (t_parent t); [now injection PB as <-|discriminate PB]).
  apply every_bind; [apply every_beneath; intros e E; split; [apply fine_other, elsewhere_toc; exact (parse_toc_kinds _ _ e E)|right; discriminate]|]. intros [names color] PT.
  assert (UN : Forall uni names).
  { destruct (tfs_read B t) as [dd|] eqn:R; [|discriminate RD]. injection RD as ->. apply BF in R. destruct (open_store h fuel data) as [st'| | |] eqn:O; try discriminate OS. injection OS as ->.
    destruct (parse_toc fuel (st_data_root st)) as [x| | |] eqn:E; try discriminate PT. injection PT as ->. exact (toc_names_uni _ _ _ _ _ _ _ R O E). }
  rewrite Forall_forall in UN.
  apply every_bind; [apply every_map; intros e I; eapply every_weaken; [|exact (b_resolve_invalid f B base e (UN e I))]; intros r (m & -> & NM); split; [split; [exact Logic.I|congruence]|right; discriminate]|]. intros ps M. cbv zeta.
  apply every_bind; [|intros; apply every_got]. apply every_map. intros p I. apply filter_In in I as (I & _). apply filter_In in I as (I & _).
  destruct (mmap_in _ _ _ _ M I) as (e & Ie & E). destruct (entry_names f B base e p (UN e Ie) E) as (l0 & n0 & F0 & U0 & _ & BL & _).
  assert (Fl : Forall proper_name (map utf8 (l0 ++ [n0]))).
  { clear - F0 U0. induction F0; [constructor|]. cbn [concat] in U0. apply uni_app in U0 as (U1 & U2). constructor; [now apply proper_u|auto]. }
  set (l := map utf8 (l0 ++ [n0])) in *. assert (NE : l <> []) by (unfold l; destruct l0; discriminate).
  assert (IP : inside t p) by (exists base, l; auto). destruct (tfs_is_file B p).
  - apply every_bind; [|intros; apply every_got]. eapply every_weaken; [|apply b_section_says]. intros r (FI & H). split; [exact FI|]. right. intros x X. exists p. split; [exact IP|exact (H x X)].
  - apply every_bind; [apply every_or; split; [split; [exact Logic.I|discriminate]|right; discriminate]|]. intros dn _. destruct (tfs_read_dir B p) as [fl|] eqn:RDR; cbn [or_tell mbind]; [|apply every_said; split; [apply fine_other; now left|right; discriminate]].
    apply every_bind; [eapply every_weaken; [|exact (b_toc_says t p fl IP)]; intros r (X & Y); split; [exact X|now right]|]. intros tc TC.
    destruct (b_toc_below p fl tc (fun n J => PL p fl n RDR J) TC) as (n & Pn & ->). apply every_bind; [|intros; apply every_got].
    assert (Fn : Forall proper_name [n]) by (constructor; auto).
    eapply every_weaken; [|apply IH]. intros r (FI & [->|H]); (split; [exact FI|]); right.
    + intros x X. injection X as <-. exists (t_push p n). split; [|reflexivity]. exists base, (l ++ [n]). split; [exact TP|]. split; [destruct l; discriminate|]. split; [apply Forall_app; auto|].
      apply (below_trans base l p [n]); try assumption; [discriminate|]. exact (push_below p [n] Fn).
    + intros x X. destruct (H x X) as (y & (b2 & m & Q1 & Q2 & Q3 & Q4) & ->). exists y. split; [|reflexivity]. rewrite (parent_push p n (below_ends base l p NE Fl BL) Pn) in Q1. injection Q1 as <-.
      exists base, (l ++ m). split; [exact TP|]. split; [destruct l; [exact Q2|discriminate]|]. split; [apply Forall_app; auto|]. now apply (below_trans base l p m).
Qed.
