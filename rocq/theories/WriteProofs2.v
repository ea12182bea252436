(** For every valid paragraph, objects that are read as it. *)
From Coq Require Import Lia ZifyBool ZifyNat ZifyN Floats.SpecFloat.
From Verif Require Import Base Codec SpecCodec Package PropSet PropIds SpecPropSet Store Shapes Props Nodes Doc SpecRefs SpecValues SpecNodes SpecDoc
  SpecValid SpecFile DescProofs DescProofs2 DescProofs3 EncodeProofs WriteNodes WriteProofs.

Definition object_type_of (e : embedded_object) : option N :=
  match e with EoInk _ _ => None | EoInkSpace _ _ => Some 0x20026 | EoInkLineBreak => Some 0x20027 end.
Definition style_of (s : styling) (e : option embedded_object) : style_data :=
  StyleData (ps_charset s) (ps_bold s) (ps_italic s) (ps_underline s) (ps_strikethrough s) (ps_superscript s) (ps_subscript s) (ps_font s)
    (ps_font_size s) (ps_font_color s) (ps_highlight s) (ps_next_style s) (ps_style_id s) (ps_alignment s) (ps_space_before s)
    (ps_space_after s) (ps_line_spacing_exact s) (ps_language_code s) (ps_math_formatting s) (ps_hyperlink s) false false
    (match e with Some _ => true | None => false end) (match e with Some e => object_type_of e | None => None end).
Lemma styled_of s e : styled (style_of s e) s.
Proof.
  refine (conj eq_refl (conj eq_refl (conj eq_refl (conj eq_refl (conj eq_refl (conj eq_refl (conj eq_refl (conj eq_refl (conj eq_refl (conj eq_refl
    (conj eq_refl (conj eq_refl (conj eq_refl (conj eq_refl (conj eq_refl (conj eq_refl (conj eq_refl (conj eq_refl (conj eq_refl eq_refl))))))))))))))))))).
Qed.
Fixpoint styles_of (fs : list styling) (es : list embedded_object) : list style_data :=
  match fs with
  | [] => []
  | f :: fs => style_of f (hd_error es) :: styles_of fs (tl es)
  end.
Lemma styles_styled fs : forall es, Forall2 styled (styles_of fs es) fs.
Proof. induction fs as [|f fs IH]; intro es; cbn; [constructor|]. constructor; [apply styled_of|apply IH]. Qed.

(** ** Run data *)
Definition no_math := MathData None None None None None None None.
Definition ink_of (e : option embedded_object) : embedded_ink_data :=
  match e with
  | Some (EoInk i b) => EmbeddedInkData None None (option_map sb_x b) (option_map sb_y b) (option_map sb_height b) (option_map sb_width b)
                          (in_offset_horizontal i) (in_offset_vertical i)
  | Some (EoInkSpace h w) => EmbeddedInkData (Some w) (Some h) None None None None None None
  | _ => EmbeddedInkData None None None None None None None None
  end.
Lemma math_code t : exists n, u32 n /\ In (n, t) math_table.
Proof.
  destruct (table_pick (2 ^ 32) math_table t) as (n & H); [reflexivity| |exists n; exact H].
  destruct t; cbn; tauto.
Qed.
Lemma run_of (m : option math_object) (e : option embedded_object) : if_any math_ok m -> if_any embedded_ok e ->
  exists fs, run_good fs /\ forall r, is_run fs r -> match m with Some m => math_is r m | None => True end /\ embedded_ink_run r (ink_of e).
Proof.
  intros Hm He.
  assert (M : exists md, has (opt_rel dword (md_object_type md)) /\ has (opt_rel dword (md_arg_count md)) /\ has (opt_rel byte (md_column md)) /\
    has (opt_rel byte (md_align md)) /\ has (def_rel character None (md_char md)) /\ has (def_rel character None (md_char1 md)) /\
    has (def_rel character None (md_char2 md)) /\ forall r, math_object_data r md -> match m with Some m => math_is r m | None => True end).
  { destruct m as [m|].
    - destruct Hm as (A1 & A2 & A3 & A4 & A5 & A6). destruct (math_code (mo_type m)) as (n & U & I).
      exists (MathData (Some n) (Some (mo_arg_count m)) (mo_column m) (mo_align m) (mo_char m) (mo_char1 m) (mo_char2 m)).
      refine (conj _ (conj _ (conj _ (conj _ (conj _ (conj _ (conj _ _))))))); try hv.
      intros r H. eexists. split; [exact H|]. refine (conj I (conj eq_refl (conj eq_refl (conj eq_refl (conj eq_refl (conj eq_refl eq_refl)))))).
    - exists no_math. refine (conj _ (conj _ (conj _ (conj _ (conj _ (conj _ (conj _ _))))))); try hv. auto. }
  destruct M as (md & M1 & M2 & M3 & M4 & M5 & M6 & M7 & M8).
  destruct (w_run md (ink_of e)) as (fs & G & H); try assumption.
  1-8: destruct e as [[i b|h w|]|]; cbn [ink_of ei_space_width ei_space_height ei_start_x ei_start_y ei_height ei_width ei_offset_horiz ei_offset_vert]; try apply has_none.
  1, 2: destruct He as (H1 & H2); hv.
  1-4: destruct He as (_ & H2); (destruct b as [b|]; [destruct H2 as (B1 & B2 & B3 & B4)|]; cbn [option_map]; hv).
  1, 2: destruct He as ((_ & _ & _ & H1 & H2) & _); hv.
  exists fs. split; [exact G|]. intros r R. destruct (H r R) as (X1 & X2). split; [now apply M8|exact X2].
Qed.

Definition shows (i : option N * embedded_ink_data) (e : embedded_object) : Prop := i = (object_type_of e, ink_of (Some e)).
Lemma runs_of k : forall fs es ms, (k <= length fs)%nat -> length ms = count ps_math_formatting (firstn k fs) -> (length es <= k)%nat ->
  every math_ok ms -> every embedded_ok es ->
  exists runs inks, length runs = k /\ Forall run_good runs /\ Forall2 shows inks es /\ forall rs, Forall2 is_run runs rs ->
    selects (fun p => sy_math_formatting (snd p)) (fun p m => math_is (fst p) m) (combine rs (styles_of fs es)) ms /\
    selects (fun p => sy_is_embedded_object (snd p)) (fun p i => fst i = sy_object_type (snd p) /\ embedded_ink_run (fst p) (snd i))
      (combine rs (styles_of fs es)) inks.
Proof.
  induction k as [|k IH]; intros fs es ms Hk Hm He Om Oe.
  - exists [], []. destruct es; [|cbn in He; lia]. destruct ms; [|discriminate Hm]. refine (conj eq_refl (conj (Forall_nil _) (conj (Forall2_nil _) _))).
    intros rs R. inversion R; subst. split; constructor.
  - destruct fs as [|f fs]; [cbn in Hk; lia|]. cbn [firstn] in Hm. unfold count in Hm. cbn [filter] in Hm. cbn [length] in Hk.
    assert (M : exists m ms', (if ps_math_formatting f then ms = opt_list m ++ ms' /\ m <> None else ms = ms' /\ m = None) /\
              length ms' = count ps_math_formatting (firstn k fs) /\ if_any math_ok m /\ every math_ok ms').
    { destruct (ps_math_formatting f).
      - destruct ms as [|m ms]; [discriminate Hm|]. exists (Some m), ms. destruct Om. refine (conj (conj eq_refl _) (conj _ (conj _ _))); try assumption; [discriminate|].
        now injection Hm.
      - exists None, ms. refine (conj (conj eq_refl eq_refl) (conj Hm (conj I Om))). }
    destruct M as (m & ms' & Em & Lm & Om1 & Om2).
    assert (E : (length (tl es) <= k)%nat /\ if_any embedded_ok (hd_error es) /\ every embedded_ok (tl es)).
    { destruct es as [|e es]; cbn in *; [split; [lia|tauto]|]. split; [lia|tauto]. }
    destruct E as (E1 & E2 & E3). destruct (IH fs (tl es) ms' ltac:(lia) Lm E1 Om2 E3) as (runs & inks & R1 & R2 & R3 & R4).
    destruct (run_of m (hd_error es) Om1 E2) as (r0 & G & H0).
    exists (r0 :: runs), (match es with [] => inks | e :: _ => (object_type_of e, ink_of (Some e)) :: inks end).
    refine (conj _ (conj (Forall_cons _ G R2) (conj _ _))); [cbn; lia|destruct es as [|e es]; [exact R3|constructor; [reflexivity|exact R3]]|].
    intros rs R. inversion R as [|? r ? rs' Hr R']; subst. destruct (R4 rs' R') as (S1 & S2). destruct (H0 r Hr) as (K1 & K2).
    cbn [styles_of combine]. split.
    + destruct (ps_math_formatting f) eqn:Ef.
      * destruct Em as (-> & Em). destruct m as [m|]; [|congruence]. cbn [opt_list app]. apply se_keep; [exact Ef|exact K1|exact S1].
      * destruct Em as (-> & ->). apply se_skip; [exact Ef|exact S1].
    + destruct es as [|e es]; [apply se_skip; [reflexivity|exact S2]|]. apply se_keep; [reflexivity|split; [reflexivity|exact K2]|exact S2].
Qed.

(** ** Embedded objects *)
Definition drawings (es : list embedded_object) : list ink := flat_map (fun e => match e with EoInk i _ => [i] | _ => [] end) es.
Lemma embeds_of sp es : forall pre suf inks, Forall2 shows inks es ->
  Forall2 (fun id i => drawing_is sp None None id (in_strokes i) (in_bounding_box i)) suf (drawings es) ->
  embeds sp (pre ++ suf) (length pre) inks es.
Proof.
  induction es as [|e es IH]; intros pre suf inks SH D; inversion SH as [|i e' inks' es' Hi SH']; subst; [apply em_end|]. unfold shows in Hi. subst i.
  destruct e as [i b|h w|]; cbn [object_type_of]; cbn [drawings flat_map app] in D; fold (drawings es) in D.
  - inversion D as [|id i' suf' l' Hd D']; subst.
    assert (B : b = shown_box (ink_of (Some (EoInk i b)))) by (destruct b as [[? ? ? ?]|]; reflexivity).
    destruct i as [ss bb oh ov]. rewrite B at 2.
    change (Ink ss bb oh ov) with (Ink ss bb (ei_offset_horiz (ink_of (Some (EoInk (Ink ss bb oh ov) b)))) (ei_offset_vert (ink_of (Some (EoInk (Ink ss bb oh ov) b))))) at 2.
    apply em_ink with (id := id); [|exact Hd|].
    + rewrite nth_error_app2 by lia. now rewrite Nat.sub_diag.
    + replace (pre ++ id :: suf') with ((pre ++ [id]) ++ suf') by (now rewrite <- app_assoc). replace (S (length pre)) with (length (pre ++ [id])) by (rewrite app_length; cbn; lia).
      now apply IH.
  - apply em_space; [reflexivity|reflexivity|]. now apply IH.
  - apply em_break. now apply IH.
Qed.

Section Texts.
  Context (cell : cellid).
  Notation wrote := (wrote cell).
  Notation id_wrote := (WriteProofs.wrote cell id_fits).

  Lemma w_style_data s e : styling_ok s -> N.of_nat (styling_size s) < 2 ^ 21 -> id_wrote (fun sp id => found sp id (fun o => style_object o (style_of s e))) 1.
  Proof.
    intros (A1 & A2 & A3 & A4 & A5 & A6 & A7 & A8 & A9 & A10) L. unfold styling_size in L. apply w_object. intros id Hid.
    apply w_style; [exact Hid|..]; unfold style_of; try hv.
    - proj. apply has_opt. destruct (ps_charset s); [apply e_charset|exact I].
    - proj. apply has_opt. destruct (ps_alignment s); [apply e_palign|exact I].
    - proj. destruct e as [[| |]|]; cbn [object_type_of]; hv.
  Qed.
  Lemma w_styles fs : forall es, every styling_ok fs -> N.of_nat (sum_of styling_size fs) < 2 ^ 21 ->
    wrote (all_good id_fits fs) (fun sp ids => Forall2 (fun sid sd => found sp sid (fun so => style_object so sd)) ids (styles_of fs es)) (length fs).
  Proof.
    induction fs as [|f fs IH]; intros es H L.
    - apply w_ret with (t := []); [split; [constructor|reflexivity]|constructor].
    - destruct H as (H1 & H2). cbn [sum_of] in L. eapply w_map with (f := fun tu => fst tu :: snd tu) (m := (1 + length fs)%nat).
      + eapply w_pair; [apply (w_style_data f (hd_error es) H1); lia|apply (IH (tl es) H2); lia].
      + intros (t & u) (A & B & C). cbn [fst snd] in *. split; [now constructor|cbn; now rewrite C].
      + intros sp (t & u) _ (A & B). cbn [fst snd styles_of] in *. constructor; assumption.
  Qed.
  Lemma w_drawings es : every embedded_ok es -> N.of_nat (sum_of embedded_size es) < 2 ^ 21 ->
    wrote (all_good id_fits (drawings es)) (fun sp ids => Forall2 (fun id i => drawing_is sp None None id (in_strokes i) (in_bounding_box i)) ids (drawings es))
      (2 * sum_of embedded_size es).
  Proof.
    induction es as [|e es IH]; intros H L.
    - apply w_ret with (t := []); [split; [constructor|reflexivity]|constructor].
    - destruct H as (H1 & H2). cbn [sum_of] in *. destruct e as [i b|h w|]; cbn [embedded_size] in *.
      + destruct H1 as ((_ & D1 & D2 & _) & _). unfold ink_size in *.
        eapply w_more; [eapply w_map with (f := fun tu => fst tu :: snd tu); [eapply w_pair; [apply (w_drawing cell None _ _ D1 D2); lia|apply (IH H2); lia]|..]|].
        * intros (t & u) (A & B & C). cbn [fst snd] in *. split; [now constructor|cbn; now rewrite C].
        * intros sp (t & u) _ (A & B). cbn [fst snd drawings flat_map app] in *. constructor; assumption.
        * lia.
      + eapply w_more; [apply (IH H2); lia|lia].
      + eapply w_more; [apply (IH H2); lia|lia].
  Qed.
  Lemma drawings_length es : (length (drawings es) <= sum_of embedded_size es)%nat.
  Proof. induction es as [|e es IH]; cbn; [lia|]. fold (drawings es). destruct e; cbn; unfold ink_size; lia. Qed.

  Lemma w_text_data t : text_ok t -> N.of_nat (text_size t) < 2 ^ 21 -> id_wrote (fun sp id => text_is sp id t) (2 * text_size t).
  Proof.
    intros (A1 & A2 & A3 & A4 & A5 & A6 & A7 & A8 & A9 & A10 & (k & K1 & K2 & K3) & A11) L. unfold text_size in *.
    destruct (runs_of k _ _ _ K1 K2 K3 A10 A9) as (runs & inks & R1 & R2 & R3 & R4).
    assert (Lf : (length (tx_run_formatting t) <= sum_of styling_size (tx_run_formatting t))%nat) by (apply sum_length; intros; unfold styling_size; lia).
    pose proof (drawings_length (tx_embedded_objects t)) as Ld.
    eapply w_more; [eapply w_node with (Q := fun (x : exguid * (list exguid * (list exguid * list tag_data))) o => text_object o (RichTextData 0 false (fst (snd x)) (tx_run_indices t) (fst (snd (snd x))) (fst x) (tx_space_before t) (tx_space_after t)
        (tx_line_spacing_exact t) (tx_alignment t) (Some (tx_text t)) false false false false (tx_alignment_in_parent t) (tx_alignment_self t) None false
        (snd (snd (snd x)))) /\ exists rs, run_data o rs /\ Forall2 is_run runs rs); [eapply w_pair; [|eapply w_pair; [|eapply w_pair]]|..]|].
    - apply (w_style_data (tx_paragraph_style t) None A4). lia.
    - apply (w_styles _ (tx_embedded_objects t) A2). lia.
    - apply (w_drawings _ A9). lia.
    - apply (w_tags cell _ A8). lia.
    - intros (c & fs & ds & ts) id (Hc & (Hf & Ef) & (Hd & Ed) & Ht) Hid. cbn [fst snd] in *.
      apply w_text; [exact Hid|..]; try hv; try assumption; proj.
      + split; [exact Hf|lia].
      + apply has_def, e_dwords; [exact A3|lia].
      + split; [exact Hd|lia].
      + destruct A1 as [A1|A1].
        * destruct (e_text _ A1 ltac:(lia)) as (s & G & H). exists (Some s), None. left. exists s. refine (conj eq_refl (conj eq_refl (conj G _))).
          intros v V. exists (tx_text t). split; [now apply H|reflexivity].
        * destruct (e_raw _ A1 ltac:(lia)) as (s & G & H). exists None, (Some s). right. refine (conj eq_refl (conj G _)).
          intros v V. exists (tx_text t). split; [now apply H|reflexivity].
      + lia.
    - intros sp (c & fs & ds & ts) id _ (Rc & Rf & Rd & Rt) (o & Eo & Ho & rs & Hrs & Rrs). cbn [fst snd] in *. destruct (R4 rs Rrs) as (S1 & S2).
      exists o. split; [exact Eo|].
      do 5 eexists. refine (conj Ho (conj Rc (conj (styled_of _ _) (conj Rf (conj (styles_styled _ _) (conj Hrs (conj S1 (conj S2 (conj _ (conj _
        (conj eq_refl (conj eq_refl (conj eq_refl (conj eq_refl (conj eq_refl (conj eq_refl (conj eq_refl Rt))))))))))))))))).
      + apply (embeds_of sp _ [] ds inks R3 Rd).
      + destruct (tx_embedded_objects t) eqn:E; [right; split; reflexivity|left; split; [discriminate|apply A11; discriminate]].
    - lia.
  Qed.
End Texts.
