(** Every document that is read is valid. *)
From Coq Require Import Lia ZifyBool ZifyNat ZifyN Floats.SpecFloat.
From Verif Require Import Base BaseProofs Codec SpecCodec CodecProofs CodecRT2 CodecRT3 CodecRT4 PropSet Store Package Shapes Props Nodes Doc
  SpecValues SpecNodes SpecDoc SpecValid DocProofs4 RangeProofs.
From Verif Require RefsProofs.

(** ** Attributes *)
Definition gives {A} (R : pvalue -> A -> Prop) (P : A -> Prop) : Prop := forall v a, fits v -> R v a -> P a.
Lemma stored_fits o id v : object_fits o -> stored o id = Some v -> fits v.
Proof.
  intros [F _] E. unfold stored, oprops_get, propset_get in E. destruct (alookup _ _ _) as [[k w]|] eqn:L; [|discriminate].
  injection E as <-. eapply F. exact (RefsProofs.n_alookup_in _ _ _ L).
Qed.
Section Attr.
  Context {A : Type} (o : object) (id : N) (R : pvalue -> A -> Prop) (P : A -> Prop) (Ob : object_fits o).
  Lemma optional_ok x : gives R P -> optional o id R x -> if_any P x.
  Proof.
    intros G H. unfold optional in H. destruct (stored o id) eqn:E; [|subst; exact I].
    destruct H as (a & H & ->). apply (G p); [eapply stored_fits; eauto|exact H].
  Qed.
  Lemma required_ok x : gives R P -> required o id R x -> P x.
  Proof. intros G (v & E & H). apply (G v); [eapply stored_fits; eauto|exact H]. Qed.
  Lemma defaulted_ok d x : gives R P -> P d -> defaulted o id R d x -> P x.
  Proof.
    intros G D H. unfold defaulted in H. destruct (stored o id) eqn:E; [|subst; exact D].
    apply (G p); [eapply stored_fits; eauto|exact H].
  Qed.
End Attr.

(** ** Values *)
Lemma dword_ok : gives dword u32.
Proof. intros v a F ->. now inversion F. Qed.
Lemma float_ok : gives float u32.
Proof. intros v a F ->. now inversion F. Qed.
Lemma word_ok : gives word u16.
Proof. intros v a F ->. now inversion F. Qed.
Lemma byte_ok : gives byte u8.
Proof. intros v a F ->. now inversion F. Qed.
Lemma raw_ok : gives raw (Forall u8).
Proof. intros v a F ->. now inversion F. Qed.
Lemma enc_in c s : In c s -> forall u, In u (utf16_units c) -> In u (utf16_enc s).
Proof. intros I u U. apply in_flat_map. eauto. Qed.
Lemma text_val_ok : gives text plain.
Proof.
  intros v s F (d & -> & E). inversion F as [| | | | | |? B| | | | | | | |]; subst.
  destruct (utf16_complete d B) as (us & rest & odd & _ & _ & NZ & _ & [(s' & E' & S & ->)|[E' _]]); rewrite E in E'; [|discriminate].
  injection E' as <-. split; [exact S|]. apply Forall_forall. intros c I ->. rewrite Forall_forall in NZ.
  specialize (NZ 0 (enc_in 0 s I 0 (or_introl eq_refl))). lia.
Qed.
Lemma mod256 n : u8 (n mod 256).
Proof. unfold u8. apply N.mod_lt. discriminate. Qed.
Lemma argb_ok : gives argb color_ok.
Proof.
  intros v c F (n & -> & ->). unfold color_ok. cbn [co_alpha co_r co_g co_b]. refine (conj _ (conj _ (conj _ _))); try apply mod256.
  unfold u8. lia.
Qed.
Lemma colorref_val_ok : gives colorref color_ref_ok.
Proof. intros v c F (n & -> & [[_ ->]|[_ ->]]); [exact I|]. refine (conj _ (conj _ _)); apply mod256. Qed.
Lemma signed_ok : gives signed i32.
Proof.
  intros v z F (n & -> & ->). inversion F as [| | | |? H| | | | | | | | | |]; subst. unfold i32. destruct (n <? 0x80000000) eqn:E; lia.
Qed.
Lemma le_small d : bytes_ok d -> le d < 2 ^ (8 * N.of_nat (length d)).
Proof.
  intro B. induction B as [|x d Hx B IH]; [reflexivity|]. cbn [le length].
  replace (8 * N.of_nat (S (length d))) with (8 + 8 * N.of_nat (length d)) by lia. rewrite N.pow_add_r. change (2 ^ 8) with 256. lia.
Qed.
Lemma numbers_small w d ns : numbers w d ns -> bytes_ok d -> Forall (fun n => n < 2 ^ (8 * N.of_nat w)) ns.
Proof.
  induction 1 as [d L|d n ns L -> r H IH]; intro B; [constructor|]. apply bytes_ok_app in B as [B1 B2]. constructor; [|auto].
  rewrite <- L. apply le_small. exact B1.
Qed.
Lemma dwords_ok : gives dwords (Forall u32).
Proof. intros v ns F (d & -> & H). inversion F; subst. exact (numbers_small _ _ _ H ltac:(assumption)). Qed.
Lemma lossy_scalar us s : lossy us s -> Forall (fun n => n < 2 ^ 16) us -> Forall scalar s.
Proof.
  induction 1 as [|h l r s Hh Hl H IH|u r s Hh Hl H IH|u r s _ _ H IH]; intro F; constructor.
  - unfold high, low in *. right. lia.
  - inversion F as [|? ? _ F']; inversion F'; auto.
  - inversion F as [|? ? U _]; subst. unfold high, low, scalar in *. lia.
  - inversion F; auto.
  - right. lia.
  - inversion F; auto.
Qed.
Lemma numbering_ok : gives numbering (Forall scalar).
Proof.
  intros v s F (n & r & (d & -> & H) & L). inversion F; subst. apply numbers_small in H; [|assumption].
  inversion H; subst. eapply lossy_scalar; eauto.
Qed.
Lemma indents_val_ok : gives indents indents_ok.
Proof.
  intros v ns F (a & b & c & d & n & -> & E & e & t & -> & L & H). inversion F as [| | | | | |? B| | | | | | | |]; subst.
  inversion B as [|? ? B0 B1]; subst. inversion B1 as [|? ? _ B2]; subst. inversion B2 as [|? ? _ B3]; subst.
  inversion B3 as [|? ? _ B4]; subst. apply bytes_ok_app in B4 as [B4 _]. split; [exact (numbers_small _ _ _ H B4)|lia].
Qed.
Lemma path_ok : gives path (Forall i64).
Proof. intros v zs F (d & -> & H). exact (proj2 (proj2 (decode_signed_facts d)) zs H). Qed.
Lemma item_type_val_ok : gives item_type item_type_ok.
Proof.
  intros v t F (n & -> & [[H ->]|[H|[_ ->]]]); [exact H| |exact I].
  cbn in H. decompose [or] H; try contradiction; match goal with E : (_, _) = (_, _) |- _ => injection E as _ <-; exact I end.
Qed.
Lemma character_ok : gives character (if_any unit_ok).
Proof.
  intros v c F (n & -> & -> & H). inversion F as [| | |? U| | | | | | | | | | |]; subst. split; [exact U|]. unfold scalar. lia.
Qed.
Lemma flags_ok : gives column_flags (Forall u8).
Proof.
  intros v fs F [[-> ->]|(n & ->)]; [constructor|]. inversion F as [| | | | | |? B| | | | | | | |]; subst. now inversion B.
Qed.
Lemma widths_ok : gives column_widths (Forall u32).
Proof.
  intros v ws F [[-> ->]|(n & d & -> & H)]; [constructor|]. inversion F as [| | | | | |? B| | | | | | | |]; subst. inversion B; subst.
  exact (numbers_small _ _ _ H ltac:(assumption)).
Qed.
#[local] Hint Resolve dword_ok float_ok word_ok byte_ok raw_ok text_val_ok argb_ok colorref_val_ok signed_ok dwords_ok numbering_ok
  indents_val_ok path_ok item_type_val_ok character_ok flags_ok widths_ok : gv.
Ltac attr Ob :=
  match goal with
  | H : optional _ _ _ ?x |- if_any _ ?x => refine (optional_ok _ _ _ _ Ob _ _ H); solve [auto with gv]
  | H : required _ _ _ ?x |- _ ?x => refine (required_ok _ _ _ _ Ob _ _ H); solve [auto with gv]
  | H : defaulted _ _ _ ?d ?x |- _ ?x => refine (defaulted_ok _ _ _ _ Ob _ _ _ _ H); [solve [auto with gv]|]
  end.

(** ** Lists *)
Section Every.
  Context {A B : Type} (R : A -> B -> Prop) (P : B -> Prop) (H : forall a b, R a b -> P b).
  Definition every_of : forall l l', Forall2 R l l' -> every P l' :=
    fix go l l' (f : Forall2 R l l') {struct f} : every P l' :=
      match f with Forall2_nil _ => I | Forall2_cons _ _ r fr => conj (H _ _ r) (go _ _ fr) end.
End Every.
Lemma every_weaken {A B} (R : A -> B -> Prop) (P : B -> Prop) l l' :
  (forall a b, In a l -> R a b -> P b) -> Forall2 R l l' -> every P l'.
Proof.
  intros H F. induction F as [|a b l l' r F IH]; [exact I|]. split; [apply (H a); [now left|exact r]|].
  apply IH. intros x y Ix. apply H. now right.
Qed.

Section Space.
  Context (sp : space) (S_ : space_fits sp).
  Lemma found_fits id P : found sp id P -> exists o, object_fits o /\ P o.
  Proof. intros (o & E & H). exists o. split; [exact (S_ _ _ E)|exact H]. Qed.
  Ltac find H o Ob := apply found_fits in H as (o & Ob & H).

  (** ** Tags, lists, files, images *)
  Lemma tag_definition_valid id d : found sp id (fun o => tag_definition_object o d) -> tag_definition_ok d.
  Proof.
    intro H. find H o Ob. unfold tag_definition_object in H. decompose [and] H. unfold tag_definition_ok.
    refine (conj _ (conj _ (conj _ _))); attr Ob.
  Qed.
  Lemma nested_fits p i o s x : set_fits s -> nested_object p i o s = Ok x -> object_fits x.
  Proof.
    intros F E. unfold nested_object in E. cbv zeta in E. destruct (object_offset p o) as [n| | |]; try discriminate. cbn [rbind] in E.
    destruct (space_offset p o) as [m| | |]; try discriminate. cbn [rbind] in E. injection E as <-. split; [exact F|exact I].
  Qed.
  Lemma tags_valid o l ts : object_fits o -> tags o l -> Forall2 (tag_is sp) l ts -> every tag_ok ts.
  Proof.
    intros Ob H T. unfold tags in H. destruct (stored o 0x40003489) eqn:E; [|subst; inversion T; exact I].
    destruct H as (tid & sets & -> & H). apply (stored_fits _ _ _ Ob) in E. inversion E as [| | | | | | | | | | | | |? ? F|]; subst.
    clear E. revert ts T F. induction H as [|s d sets l Hs H IH]; intros ts T F; inversion T as [|? t ? ts' Ht Hts]; subst; [exact I|].
    split; [|apply IH; [exact Hts|intros s1 Is; exact (F s1 (or_intror Is))]]. clear IH.
    destruct Hs as (inner & Hn & _ & _ & H1 & _). apply nested_fits in Hn; [|exact (F s (or_introl eq_refl))].
    destruct Ht as (E1 & _ & H2). split; [rewrite E1; attr Hn|].
    destruct (tg_definition d), (nt_definition t); cbn in *; try contradiction; auto. eapply tag_definition_valid; eauto.
  Qed.
  Lemma list_valid id l : list_is sp id l -> list_ok l.
  Proof.
    intro H. find H o Ob. destruct H as (d & H & E). unfold list_object in H. decompose [and] H. decompose [and] E. unfold list_ok.
    repeat match goal with E : ?f l = _ |- _ => rewrite E; clear E end.
    refine (conj _ (conj _ (conj _ (conj _ (conj _ _))))); attr Ob.
  Qed.
  Lemma iframe_valid id f : iframe_is sp id f -> iframe_ok f.
  Proof. intro H. find H o Ob. destruct H as (_ & H1 & H2). split; attr Ob. Qed.
  Lemma file_valid id f : file_is sp id f -> file_ok f.
  Proof.
    intro H. find H o Ob. destruct H as (d & H & E). unfold file_node in H. decompose [and] H. clear H. decompose [and] E. clear E. unfold file_ok.
    repeat match goal with E : ?g f = _ |- _ => rewrite E; clear E end.
    refine (conj _ (conj _ (conj _ (conj _ (conj _ (conj _ _)))))); try attr Ob.
    - match goal with H : found _ _ _ |- _ => find H c C; destruct H as [_ H]; destruct C as [_ C]; rewrite H in C; exact C end.
    - eapply tags_valid; eauto.
  Qed.
  Lemma image_valid id g : image_is sp id g -> image_ok g.
  Proof.
    intro H. find H o Ob. destruct H as (d & H & P & E). unfold image_object in H. decompose [and] H. clear H. decompose [and] E. clear E.
    unfold image_ok.
    assert (X : if_any file_data (ig_data g) /\ if_any plain (ig_extension g) /\ (ig_data g = None -> ig_extension g = None)).
    { destruct (im_picture_container d).
      - find P c C. destruct P as (p & (_ & PD & PE) & -> & ->). refine (conj _ (conj _ _)).
        + destruct C as [_ C]. cbn. destruct (ob_file c); rewrite PD; [exact C|]. split; [constructor|reflexivity].
        + attr C.
        + discriminate.
      - destruct P as [-> ->]. refine (conj I (conj I (fun _ => eq_refl))). }
    destruct X as (X1 & X2 & X3). refine (conj X1 (conj X2 (conj X3 _))).
    repeat match goal with E : ?f g = _ |- _ => rewrite E; clear E end.
    refine (conj _ (conj _ (conj _ (conj _ (conj _ (conj _ (conj _ (conj _ (conj _ (conj _ (conj _ (conj _ (conj _ _)))))))))))));
      try attr Ob.
    - eapply tags_valid; eauto.
    - eapply every_of; [|eassumption]. exact iframe_valid.
  Qed.

  (** ** Ink *)
  Lemma stroke_valid sc id s : stroke_is sp sc sc id s -> stroke_ok sc s.
  Proof.
    intro H. find H o Ob. destruct H as (d & H & Q). find Q po PO. destruct Q as (p & P & PT & E).
    unfold stroke_node in H. decompose [and] H. clear H. unfold stroke_properties in P. decompose [and] P. clear P. decompose [and] E. clear E.
    unfold stroke_ok.
    repeat match goal with E : ?f s = _ |- _ => rewrite E; clear E end.
    refine (conj _ (conj _ (conj _ (conj _ (conj _ _))))); try attr PO.
    assert (Z : Forall i64 (ss_path d)) by attr Ob. destruct PT as (ix & iy & _ & _ & _ & PT).
    apply Forall_forall. intros pt I. apply In_nth_error in I as [i I]. destruct (PT _ _ I) as (x & y & Nx & Ny & Ex & Ey).
    rewrite Forall_forall in Z. apply nth_error_In in Nx, Ny. split; [exists x|exists y]; auto.
  Qed.
  Lemma drawing_valid sc id ss b : drawing_is sp sc sc id ss b -> every (stroke_ok sc) ss /\ if_any (box_ok sc) b.
  Proof.
    intro H. find H o Ob. destruct H as (d & (_ & _ & box & HB & HX) & HS & HD). split; [eapply every_of; [|exact HS]; apply stroke_valid|].
    apply (optional_ok _ _ _ _ Ob _ dwords_ok) in HB. destruct HX as [(x & y & z & w & -> & E)|[_ E]]; rewrite E in HD;
      destruct b as [b|]; cbn in *; try contradiction; auto.
    inversion HB as [|? ? U1 B1]; subst. inversion B1 as [|? ? U2 B2]; subst. inversion B2 as [|? ? U3 B3]; subst.
    inversion B3 as [|? ? U4 B4]; subst. exists x, y, z, w. auto.
  Qed.
  Lemma same_optional {A} o i (R : pvalue -> A -> Prop) x y :
    (forall v a b, R v a -> R v b -> a = b) -> optional o i R x -> optional o i R y -> x = y.
  Proof.
    intros D H1 H2. unfold optional in *. destruct (stored o i); [|congruence].
    destruct H1 as (a & H1 & ->), H2 as (b & H2 & ->). f_equal. eauto.
  Qed.
  Lemma ink_valid id i : ink_is sp id i -> ink_ok i.
  Proof.
    intro H. find H o Ob. destruct H as (d & (_ & H1 & H2 & _ & _ & H3 & H4) & E1 & E2 & HI). exists (ic_scaling_x d).
    assert (Q : ic_scaling_y d = ic_scaling_x d).
    { eapply same_optional; [|exact H4|exact H3]. unfold float. intros v a b -> [= ->]. reflexivity. }
    unfold ink_scaled. rewrite E1, E2. refine (conj _ _); [attr Ob|].
    assert (X : every (stroke_ok (ic_scaling_x d)) (in_strokes i) /\ if_any (box_ok (ic_scaling_x d)) (in_bounding_box i)).
    { destruct (ic_ink_data d); [rewrite Q in HI; eapply drawing_valid; exact HI|]. destruct HI as [-> ->]. exact (conj I I). }
    destruct X as [X1 X2]. refine (conj X1 (conj X2 (conj _ _))); attr Ob.
  Qed.

  (** ** Paragraphs *)
  Lemma or_zero_ok x : if_any u32 x -> u32 (or_zero x).
  Proof. destruct x; [auto|reflexivity]. Qed.
  Lemma math_valid run m : object_fits run -> math_is run m -> math_ok m.
  Proof.
    intros Ob (d & H & _ & E). unfold math_object_data in H. decompose [and] H. clear H. decompose [and] E. clear E. unfold math_ok.
    repeat match goal with E : ?f m = _ |- _ => rewrite E; clear E end.
    refine (conj (or_zero_ok _ _) (conj _ (conj _ (conj _ (conj _ _))))); attr Ob; exact I.
  Qed.
  Lemma style_valid id d s : found sp id (fun o => style_object o d) -> styled d s -> styling_ok s.
  Proof.
    intros H E. find H o Ob. unfold style_object in H. decompose [and] H. clear H. unfold styled in E. decompose [and] E. clear E.
    unfold styling_ok. repeat match goal with E : ?f s = _ |- _ => rewrite E; clear E end.
    refine (conj _ (conj _ (conj _ (conj _ (conj _ (conj _ (conj _ (conj _ (conj _ _))))))))); attr Ob.
  Qed.
  Lemma runs_fit o runs : object_fits o -> run_data o runs -> Forall object_fits runs.
  Proof.
    intros Ob H. unfold run_data in H. destruct (stored o 0x40003499) eqn:E; [|subst; constructor].
    destruct H as (rid & sets & -> & H). apply (stored_fits _ _ _ Ob) in E. inversion E as [| | | | | | | | | | | | |? ? F|]; subst.
    clear E. induction H as [|s r sets runs Hs H IH]; constructor.
    - exact (nested_fits _ _ _ _ _ (F s (or_introl eq_refl)) Hs).
    - apply IH. intros s1 Is. exact (F s1 (or_intror Is)).
  Qed.
  Lemma selects_every {A B} keep (R : A -> B -> Prop) (P : B -> Prop) l out :
    (forall a b, In a l -> R a b -> P b) -> selects keep R l out -> every P out.
  Proof.
    intros H S. induction S as [|a l out K S IH|a l b out K r S IH]; [exact I| |].
    - apply IH. intros x y Ix. apply H. now right.
    - split; [apply (H a); [now left|exact r]|]. apply IH. intros x y Ix. apply H. now right.
  Qed.
  Lemma selects_length {A B} keep (R : A -> B -> Prop) l out : selects keep R l out -> length out = length (filter keep l).
  Proof. induction 1 as [|a l out K S IH|a l b out K r S IH]; cbn; rewrite ?K; cbn; auto. Qed.
  Lemma run_valid run d : object_fits run -> embedded_ink_run run d ->
    if_any u32 (ei_space_width d) /\ if_any u32 (ei_space_height d) /\ if_any stored_box_ok (shown_box d) /\
    if_any u32 (ei_offset_horiz d) /\ if_any u32 (ei_offset_vert d).
  Proof.
    intros Ob H. unfold embedded_ink_run in H. decompose [and] H. clear H.
    refine (conj _ (conj _ (conj _ (conj _ _)))); try attr Ob. unfold shown_box.
    assert (X : if_any u32 (ei_start_x d) /\ if_any u32 (ei_start_y d) /\ if_any u32 (ei_height d) /\ if_any u32 (ei_width d)).
    { refine (conj _ (conj _ (conj _ _))); attr Ob. }
    destruct (ei_start_x d), (ei_start_y d), (ei_height d), (ei_width d); try exact I. exact X.
  Qed.
  Lemma embeds_valid refs k inks out : embeds sp refs k inks out ->
    every (fun i => exists run, object_fits run /\ embedded_ink_run run (snd i)) inks -> every embedded_ok out.
  Proof.
    induction 1 as [k|k d r out H IH|k d h w r out Hh Hw H IH|k d id ss bb r out N D H IH|k d r out N H IH]; intro F; [exact I| | | |];
      destruct F as [(run & Ob & R) F]; try (apply IH; exact F); refine (conj _ (IH F)); [exact I| |].
    - apply (run_valid _ _ Ob) in R as (R1 & R2 & _). cbn [snd] in *. rewrite Hw in R1. rewrite Hh in R2. exact (conj R2 R1).
    - apply (run_valid _ _ Ob) in R as (_ & _ & R3 & R4 & R5). cbn [snd] in *. apply drawing_valid in D as [D1 D2].
      split; [|exact R3]. exact (conj I (conj D1 (conj D2 (conj R4 R5)))).
  Qed.
  Lemma embeds_length refs k inks out : embeds sp refs k inks out -> (length out <= length inks)%nat.
  Proof. induction 1; cbn [length]; lia. Qed.
  Lemma combine_every {A B} (P : A -> Prop) (l : list A) (l' : list B) p : Forall P l -> In p (combine l l') -> P (fst p).
  Proof. destruct p as [a b]. intros F I. apply in_combine_l in I. rewrite Forall_forall in F. auto. Qed.
  Lemma count_prefix {A} (runs : list A) : forall styles sts, Forall2 styled styles sts ->
    length (filter (fun p => sy_math_formatting (snd p)) (combine runs styles)) =
    count ps_math_formatting (firstn (length runs) sts).
  Proof.
    unfold count. induction runs as [|r runs IH]; intros styles sts F; [reflexivity|].
    destruct F as [|d s styles sts Hd F]; [reflexivity|]. cbn [combine filter firstn length snd].
    assert (Q : ps_math_formatting s = sy_math_formatting d) by (unfold styled in Hd; tauto).
    rewrite Q. destruct (sy_math_formatting d); cbn [length]; now rewrite (IH _ _ F).
  Qed.
  Lemma rel_length {A B} (R : A -> B -> Prop) l l' : Forall2 R l l' -> length l = length l'.
  Proof. induction 1; cbn; auto. Qed.
  Lemma filter_length {A} (f : A -> bool) l : (length (filter f l) <= length l)%nat.
  Proof. induction l as [|x l IH]; cbn; [lia|]. destruct (f x); cbn; lia. Qed.
  Lemma every_to {A} (P : A -> Prop) l : every P l <-> Forall P l.
  Proof. split; [induction l; intros H; [constructor|destruct H; constructor; auto]|induction 1; [exact I|split; auto]]. Qed.
  Lemma text_valid id t : text_is sp id t -> text_ok t.
  Proof.
    intro H. find H o Ob. destruct H as (d & pd & styles & runs & inks & H & HP & SP & HS & SS & HR & HM & HI & HE & HT & EX).
    pose proof (runs_fit _ _ Ob HR) as RF. unfold text_object in H. decompose [and] H. clear H. decompose [and] EX. clear EX.
    match goal with X : paragraph_text _ _ |- _ => rename X into PT end.
    unfold text_ok.
    assert (TX : plain (tx_text t) \/ Forall u8 (tx_text t)).
    { destruct HT as [[_ ->]|[_ ->]]; [right; constructor|]. unfold paragraph_text in PT.
      destruct (stored o 0x1C001C22) eqn:E.
      - destruct PT as (s & PT & ->). left. exact (text_val_ok _ _ (stored_fits _ _ _ Ob E) PT).
      - apply (optional_ok _ _ _ _ Ob _ raw_ok) in PT. destruct (rt_text d); [right; exact PT|right; constructor]. }
    refine (conj TX _). clear TX PT.
    assert (FS : every styling_ok (tx_run_formatting t)).
    { clear - S_ HS SS. revert HS. generalize (rt_run_formatting d). induction SS as [|sd s styles sts H SS IH]; intros l HS; [exact I|].
      inversion HS as [|sid ? l0 ? Hf HS']; subst. split; [eapply style_valid; eauto|exact (IH _ HS')]. }
    refine (conj FS _). clear FS.
    repeat match goal with E : ?f t = ?g d |- _ => rewrite E; clear E end.
    refine (conj _ (conj _ (conj _ (conj _ (conj _ (conj _ (conj _ (conj _ (conj _ _))))))))); try (attr Ob; solve [constructor|reflexivity]).
    - eapply style_valid; eauto.
    - eapply tags_valid; eauto.
    - eapply embeds_valid; [exact HE|]. eapply selects_every; [|exact HI]. intros [run sd] i Ii [_ R]. exists run. split; [|exact R].
      exact (combine_every _ _ _ _ RF Ii).
    - eapply selects_every; [|exact HM]. intros p m Ip R. eapply math_valid; [|exact R]. exact (combine_every _ _ _ _ RF Ip).
    - apply selects_length in HM, HI. apply embeds_length in HE. pose proof (rel_length _ _ _ SS) as LS.
      pose proof (filter_length (fun p : object * style_data => sy_is_embedded_object (snd p)) (combine runs styles)) as FL.
      rewrite combine_length in FL. rewrite (count_prefix runs _ _ SS) in HM.
      exists (Nat.min (length runs) (length (tx_run_formatting t))). refine (conj (Nat.le_min_r _ _) (conj _ _)); [|lia].
      rewrite HM, <- (firstn_all (tx_run_formatting t)) at 1. now rewrite firstn_firstn.
    - intro NE. destruct HT as [[_ E]|[E _]]; [exact E|contradiction].
  Qed.

  (** ** Outlines and tables *)
  Fixpoint item_valid id i (H : item_is sp id i) {struct H} : item_ok i
  with element_valid id e (H : element_is sp id e) {struct H} : element_ok e
  with content_valid id c (H : content_is sp id c) {struct H} : content_ok c
  with table_valid id t (H : table_is sp id t) {struct H} : table_ok t
  with row_valid id r (H : row_is sp id r) {struct H} : row_ok r
  with cell_valid id c (H : cell_is sp id c) {struct H} : cell_ok c.
  Proof.
    - destruct H as [id o d level items G (_ & _ & _ & L) -> F|id e H].
      + split; [|exact (every_of _ _ item_valid _ _ F)]. pose proof (S_ _ _ G) as Ob. attr Ob.
      + exact (element_valid _ _ H).
    - destruct H as [id o d contents lists spacing level items G D -> -> FC FL FI]. pose proof (S_ _ _ G) as Ob.
      refine (conj (every_of _ _ content_valid _ _ FC) (conj (every_of _ _ list_valid _ _ FL) (conj _ (conj _ (every_of _ _ item_valid _ _ FI)))));
        unfold element_object in D; decompose [and] D; attr Ob.
    - destruct H as [id t H|id g H|id f H|id i H|id H|id t H].
      + exact (text_valid _ _ H).
      + exact (image_valid _ _ H).
      + exact (file_valid _ _ H).
      + exact (ink_valid _ _ H).
      + exact I.
      + exact (table_valid _ _ H).
    - destruct H as [id o d rows cols contents locked widths borders ap aself tgs G D -> -> -> -> _ _ _ FR FT]. pose proof (S_ _ _ G) as Ob.
      refine (conj _ (conj _ (conj (every_of _ _ row_valid _ _ FR) (conj _ (conj _ _)))));
        unfold table_object in D; decompose [and] D; try (attr Ob; constructor). eapply tags_valid; eauto.
    - destruct H as [id o d cells G D FC]. exact (every_of _ _ cell_valid _ _ FC).
    - destruct H as [id o d contents colour width indent G D -> -> -> FE]. pose proof (S_ _ _ G) as Ob.
      refine (conj (every_of _ _ element_valid _ _ FE) (conj _ (conj _ _))); unfold cell_object in D; decompose [and] D; attr Ob.
  Qed.
  Lemma outline_valid id x : outline_is sp id x -> outline_ok x.
  Proof.
    intro H. find H o Ob. destruct H as (d & H & E). unfold outline_object in H. decompose [and] H. clear H. decompose [and] E. clear E.
    unfold outline_ok. repeat match goal with E : ?f x = ?g d |- _ => rewrite E; clear E end.
    refine (conj _ (conj _ (conj _ (conj _ (conj _ (conj _ (conj _ (conj _ (conj _ _))))))))); try attr Ob.
    eapply every_of; [|eassumption]. exact item_valid.
  Qed.

  (** ** Pages *)
  Lemma page_content_valid id c : page_content_is sp id c -> page_content_ok c.
  Proof.
    destruct 1; cbn; eauto using outline_valid, image_valid, file_valid, ink_valid.
  Qed.
  Lemma title_valid id t : title_is sp id t -> title_ok t.
  Proof.
    intro H. find H o Ob. destruct H as (d & H & E). unfold title_object in H. decompose [and] H. clear H. decompose [and] E. clear E.
    unfold title_ok. repeat match goal with E : ?f t = ?g d |- _ => rewrite E; clear E end.
    refine (conj _ (conj _ _)); try attr Ob. eapply every_of; [|eassumption]. exact outline_valid.
  Qed.
  Lemma page_valid p : page_is sp p -> page_ok p.
  Proof.
    intros (mid & m & cid & pid & d & _ & HM & _ & _ & HP & E). find HM mo MO. find HP po PO.
    unfold page_meta in HM. decompose [and] HM. clear HM. unfold page_object in HP. decompose [and] HP. clear HP. decompose [and] E. clear E.
    unfold page_ok. repeat match goal with E : ?f p = ?g d |- _ => rewrite E; clear E end.
    match goal with E : ?f p = ?g m |- _ => rewrite E; clear E end.
    refine (conj _ (conj _ (conj _ (conj _ _)))); try attr PO.
    - match goal with B : both _ _ _ |- _ => destruct (pd_title d), (pg_title p); cbn in B; try contradiction; [|exact I]; exact (title_valid _ _ B) end.
    - attr MO. unfold i32. lia.
    - eapply every_of; [|eassumption]. exact page_content_valid.
  Qed.
End Space.

(** ** Sections *)
Lemma section_valid st file s : store_fits st -> plain file -> section_is st file s -> section_ok s.
Proof.
  intros [RF SF] PF (mid & m & cid & d & _ & HM & _ & HC & (( k & DN) & NS) & EC & FS).
  apply (found_fits _ RF) in HM as (mo & MO & (_ & _ & _ & H1 & H2)).
  refine (conj _ (conj NS (conj _ _))).
  - assert (X : plain (se_display_name s ++ copies k one_suffix)).
    { rewrite <- DN. apply (optional_ok _ _ _ _ MO _ text_val_ok) in H1. destruct (sm_display_name m); [exact H1|exact PF]. }
    destruct X as [X1 X2]. apply Forall_app in X1 as [X1 _]. apply Forall_app in X2 as [X2 _]. exact (conj X1 X2).
  - rewrite EC. attr MO.
  - eapply every_of; [|exact FS]. intros id ps H. apply (found_fits _ RF) in H as (o & _ & (pd & _ & H)).
    eapply every_of; [|exact H]. intros c p (sp & E & Hp). eapply page_valid; [exact (SF _ _ E)|exact Hp].
Qed.
