(** Proofs for C91: packages. *)
From Coq Require Import Lia ZifyBool ZifyNat ZifyN.
From Verif Require Import Base BaseProofs Codec CodecProofs SpecCodec CodecRT CodecRT2 CodecRT4 Package PackageProofs Target.

From Verif Require CodecRT.

Section Packages.
  (** [E]: the outcomes may differ if the data end too early. *)
  Context (T : target) (E : Prop).
  Definition dom (bs : list N) : Prop := remaining bs < usize_count T /\ (E \/ bytes_ok bs /\ usize_count T = 2 ^ 64).
  Definition either {A} (r r' : res A) : Prop := r' = r \/ (E /\ r = Err UnexpectedEof).
  Definition like {A} (p q : parser A) : Prop := forall bs, dom bs -> either (p bs) (q bs).
  Lemma dom_rest {A} k (p : parser A) bs a r : exact k p -> p bs = Ok (a, r) -> dom bs -> dom r.
  Proof.
    intros X P (L & B). destruct (ex_ok _ _ X _ _ _ P) as (pre & -> & _). unfold dom, remaining in *. rewrite app_length in L. split; [lia|].
    destruct B as [e|(B & W)]; [now left|right]. apply bytes_ok_app in B as [_ B]. now split.
  Qed.
  Lemma like_refl {A} (p : parser A) : like p p.
  Proof. intros bs _. now left. Qed.
  Lemma like_bind_of {A B} (P : A -> Prop) k (p q : parser A) (f g : A -> parser B) : like p q -> good k p ->
    (forall bs a r, dom bs -> p bs = Ok (a, r) -> P a) -> (forall a, P a -> like (f a) (g a)) -> like (pbind p f) (pbind q g).
  Proof.
    intros H X HP HF bs D. unfold pbind. destruct (H bs D) as [->|(e & ->)]; [|right; now split].
    destruct (p bs) as [[a r]| | |] eqn:Z; try now left. apply HF; [eapply HP; eauto|]. eapply dom_rest; [apply X|exact Z|exact D].
  Qed.
  Lemma like_bind {A B} k (p q : parser A) (f g : A -> parser B) : like p q -> good k p -> (forall a, like (f a) (g a)) -> like (pbind p f) (pbind q g).
  Proof. intros H X F. apply (like_bind_of (fun _ => True) k); auto. Qed.
  Lemma like_then {A B} k (p : parser A) (f g : A -> parser B) : good k p -> (forall a, like (f a) (g a)) -> like (pbind p f) (pbind p g).
  Proof. intros X F. apply (like_bind k); auto using like_refl. Qed.
  Lemma like_until {A} fin fp (b c : A -> parser A) s : (forall s, good 1 (b s)) -> (forall s, like (b s) (c s)) -> like (until fin fp b s) (until fin fp c s).
  Proof.
    intros X H bs D. unfold until. generalize (S (length bs)) as f. intro f. revert bs s D. induction f as [|f IH]; intros bs s D; [now left|].
    cbn [until_fuel]. unfold with_peek. destruct (peek bs) as [x| | |]; try now left. destruct (fin x); [now left|].
    revert bs D. change (like (s' <- b s ;; until_fuel fin fp b f s') (s' <- c s ;; until_fuel fin fp c f s')). apply (like_bind 1); auto. intros a bs D. now apply IH.
  Qed.

  (** ** Sizes *)
  Definition sized_ok (n : N) : Prop := E \/ n < usize_count T.
  Lemma like_read n : sized_ok n -> like (read n) (read (as_usize T n)).
  Proof.
    intros H bs (L & _). destruct (N.ltb_spec n (usize_count T)) as [Q|Q]; [left; unfold as_usize; now rewrite N.mod_small|].
    destruct H as [e|H]; [|lia]. right. split; [exact e|]. unfold read. now destruct (N.ltb_spec (remaining bs) n); [|lia].
  Qed.
  Lemma compact_sized bs n r : dom bs -> compact_parse bs = Ok (n, r) -> sized_ok n.
  Proof.
    intros (_ & [e|(B & W)]) H; [now left|right]. rewrite W. exact (CodecRT.compact_bound bs n r B H).
  Qed.
  Lemma like_binary : like binary_item_parse (binary_item_parse_on T).
  Proof. apply (like_bind_of sized_ok 1); [apply like_refl|gd|exact compact_sized|exact like_read]. Qed.
  Lemma like_fragment : like fragment_parse (fragment_parse_on T).
  Proof.
    apply (like_then 1); [gd|intro]. apply (like_then 1); [gd|intro]. apply (like_bind_of sized_ok 1); [apply like_refl|gd|exact compact_sized|]. intros size Hs.
    apply (like_then 1); [gd|intro]. apply (like_then 1); [gd|intro]. apply (like_bind 0); [now apply like_read|gd|]. intro. apply like_refl.
  Qed.
  Lemma like_blob : like blob_parse (blob_parse_on T).
  Proof. apply (like_then 1); [gd|intro]. apply (like_bind 1); [exact like_binary|gd|intro]. apply like_refl. Qed.
  Lemma like_odata_item s : like (odata_item s) (odata_item_on T s).
  Proof.
    apply (like_then 1); [gd|intro h]. destruct (oh_type h); try apply like_refl. apply (like_then 1); [gd|intro]. apply (like_then 1); [gd|intro].
    apply (like_bind 1); [exact like_binary|gd|intro]. apply like_refl.
  Qed.
  Lemma like_group : like object_group_parse (object_group_parse_on T).
  Proof.
    apply (like_then 1); [apply good_odecls|intro]. apply (like_then 1); [gd|intro h].
    apply (like_bind 0); [apply like_refl| |intro].
    - destruct (oh_type h); gd.
    - apply (like_bind 1); [|apply good_odata|intro; apply like_refl]. apply like_until; [apply good_odata_item|apply like_odata_item].
  Qed.
  Lemma like_element p : like (element_parse p) (element_parse_on T p).
  Proof.
    do 4 (apply (like_then 1); [gd|intro]). destruct p. cbn [element_body element_body_on].
    repeat match goal with |- like (if ?b then _ else _) _ => destruct b; [first [apply like_refl | apply (like_bind 1); [first [exact like_group|exact like_fragment|exact like_blob]|gd|intro; apply like_refl]]|] end.
    apply like_refl.
  Qed.
  Lemma like_package : like package_parse (package_parse_on T).
  Proof.
    do 2 (apply (like_then 1); [gd|intro]). destruct (negb _); [apply like_refl|]. apply like_until; [apply good_element|apply like_element].
  Qed.
  Lemma like_legacy a b c d : like (parse_legacy a b c d) (parse_legacy_on T a b c d).
  Proof.
    apply (like_then 1); [gd|intro]. destruct (negb _); [apply like_refl|]. do 3 (apply (like_then 1); [gd|intro]).
    apply (like_bind 1); [exact like_package|apply good_package|intro; apply like_refl].
  Qed.
  Lemma log_cases log r : log_offset_on T log r = log_offset log r \/
    exists off, log_offset log r = Ok off /\ usize_count T <= off /\ off < 2 ^ 64 /\ log_offset_on T log r = Err MalformedOneStoreData.
  Proof.
    unfold log_offset, log_offset_on, fcr_end. destruct (N.ltb_spec (fst log + snd log) (2 ^ 64)) as [L|L]; cbn [rbind]; [|left; reflexivity].
    destruct (_ <? r); [left; reflexivity|]. destruct (N.ltb_spec (usize_count T - 1) (fst log + snd log - r)) as [Q|Q]; [|left; reflexivity].
    right. exists (fst log + snd log - r). repeat split; lia.
  Qed.
  Lemma like_log {A} log r (f g : N -> parser A) : (forall n, like (advance n ;;; f n) (advance n ;;; g n)) ->
    like (n <- plift (log_offset log r) ;; advance n ;;; f n) (n <- plift (log_offset_on T log r) ;; advance n ;;; g n).
  Proof.
    intros H. destruct (log_cases log r) as [->|(off & E1 & L & S & E2)].
    - intros bs D. unfold pbind at 1 3, plift. destruct (log_offset log r) as [n| | |]; cbn [rbind]; try (left; reflexivity). now apply H.
    - intros bs (Dl & D). rewrite E1, E2. unfold plift, pbind at 1. cbn [rbind]. right.
      destruct D as [e|(_ & W)]; [|lia]. split; [exact e|]. unfold pbind, advance. now destruct (N.ltb_spec (remaining bs) off); [|lia].
  Qed.
  Lemma like_packaging : like packaging_parse (packaging_parse_on T).
  Proof.
    intros bs0 D0. unfold packaging_parse, packaging_parse_on. generalize (remaining bs0) as start. intro start. revert bs0 D0.
    match goal with |- forall bs, dom bs -> either (?p bs) (?q bs) => change (like p q) end.
    do 3 (apply (like_then 1); [gd|intro]). apply (like_then 1); [gd|intro]. destruct (_ =? package_store_format); [apply like_legacy|].
    destruct (negb (_ =? _)); [apply like_refl|]. destruct (negb (guid_is_nil _)); [apply like_legacy|].
    apply (like_then 1); [apply good_revision_store_header|intro log]. intros bs D. cbv beta zeta. generalize (start - remaining bs) as r. intro r. revert bs D.
    match goal with |- forall bs, dom bs -> either (?p bs) (?q bs) => change (like p q) end. apply like_log. intro n.
    apply (like_then 0); [gd|intro]. do 4 (apply (like_then 1); [gd|intro]). apply like_legacy.
  Qed.
End Packages.
