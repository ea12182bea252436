(** Proofs for C99: an invariant of everything a caller can get to. *)
From Coq Require Import Lia Floats.SpecFloat.
From Verif Require Import Base Codec PropSet Store Package Shapes Props Nodes Doc Notebook Getters SpecStore SpecValues SpecNodes SpecDoc SpecGetters.

(** ** Values *)
Lemma color_a v c : argb v c -> a_color v c.
Proof. intros (n & -> & ->). exists n. repeat split. Qed.
Lemma alignment_a v x : alignment v x -> a_alignment v x.
Proof.
  intros (n & -> & [(H & ->)|(H & h & Hh & ->)]); exists n; split; try reflexivity; [exact H|].
  split; [exact H|]. split; [exact Hh|]. repeat split.
Qed.
Lemma item_status_a v s : status_bits v s -> a_item_status v s.
Proof. intros (n & -> & ->). exists n. repeat split. Qed.
Lemma tag_status_a v s : tag_status_bits v s -> a_tag_status v s.
Proof. intros (n & -> & ->). exists n. repeat split. Qed.

Lemma optional_weaken {A} (R Q : pvalue -> A -> Prop) o id x :
  (forall v a, R v a -> Q v a) -> optional o id R x -> optional o id Q x.
Proof. unfold optional. destruct (stored o id); [|trivial]. intros H (a & Ha & E). exists a. auto. Qed.
Lemma defaulted_weaken {A} (R Q : pvalue -> A -> Prop) o id d x :
  (forall v a, R v a -> Q v a) -> defaulted o id R d x -> defaulted o id Q d x.
Proof. unfold defaulted. destruct (stored o id); [|trivial]. auto. Qed.
Lemma required_weaken {A} (R Q : pvalue -> A -> Prop) o id x :
  (forall v a, R v a -> Q v a) -> required o id R x -> required o id Q x.
Proof. intros H (v & E & Hv). exists v. auto. Qed.

Lemma optional_color o id c : optional o id argb c -> optional o id a_color c.
Proof. apply optional_weaken, color_a. Qed.
Lemma defaulted_alignment o id d x : defaulted o id alignment d x -> defaulted o id a_alignment d x.
Proof. apply defaulted_weaken, alignment_a. Qed.
Lemma required_item_status o id x : required o id status_bits x -> required o id a_item_status x.
Proof. apply required_weaken, item_status_a. Qed.
Lemma required_tag_status o id x : required o id tag_status_bits x -> required o id a_tag_status x.
Proof. apply required_weaken, tag_status_a. Qed.

Lemma optional_functional {A} (R : pvalue -> A -> Prop) o id x y :
  (forall v a b, R v a -> R v b -> a = b) -> optional o id R x -> optional o id R y -> x = y.
Proof.
  unfold optional. destruct (stored o id) as [v|]; [|congruence].
  intros F (a & Ha & ->) (b & Hb & ->). f_equal. eauto.
Qed.
Lemma float_functional v a b : float v a -> float v b -> a = b.
Proof. unfold float. congruence. Qed.

Lemma Forall2_len {A B} (R : A -> B -> Prop) l m : Forall2 R l m -> length l = length m.
Proof. induction 1; cbn; congruence. Qed.
Lemma Forall2_right {A B} (R : A -> B -> Prop) l m b : Forall2 R l m -> In b m -> exists a, In a l /\ R a b.
Proof.
  induction 1 as [|x y l m H _ IH]; [intros []|]. intros [->|Hb]; [exists x; split; [now left|exact H]|].
  destruct (IH Hb) as (a & Ha & Hr). exists a. split; [now right|exact Hr].
Qed.
Lemma selects_right {A B} keep (R : A -> B -> Prop) l m b : selects keep R l m -> In b m ->
  exists a, In a l /\ keep a = true /\ R a b.
Proof.
  induction 1 as [|a l m K H IH|a l y m K Hr H IH]; [intros []| |].
  - intros Hb. destruct (IH Hb) as (a' & Ha & P). exists a'. split; [now right|exact P].
  - intros [->|Hb]; [exists a; split; [now left|now split]|].
    destruct (IH Hb) as (a' & Ha & P). exists a'. split; [now right|exact P].
Qed.

(** ** The invariant *)
Section Invariant.
  Variable st : store.
  Variable file : list N.

  (** In some space of the file. *)
  Definition somewhere {A} (R : space -> exguid -> A -> Prop) (x : A) : Prop :=
    exists sp id, store_space st sp /\ R sp id x.
  Definition scale_from (s : option N) : Prop :=
    s = None \/ some_object st 0x00060014 (fun _ c => optional c 0x14001C46 float s).
  Definition tag_somewhere (t : note_tag) : Prop :=
    exists k sp id o tid sets set d, In k [0x0006000E; 0x00060035; 0x00060011; 0x00060022] /\
      store_space st sp /\ get_object sp id = Some o /\ ob_jcid o = k /\
      stored o 0x40003489 = Some (VPropertyValues tid sets) /\ In set sets /\ tag o tid set d /\ tag_is sp d t.
  Definition drawn (i : ink) (b : option stored_box) : Prop :=
    some_run st (fun run => exists d, embedded_ink_run run d /\ in_offset_horizontal i = ei_offset_horiz d /\
      in_offset_vertical i = ei_offset_vert d /\ b = shown_box d) /\
    somewhere (fun sp id j => drawing_is sp None None id (in_strokes j) (in_bounding_box j)) i.

  Definition sound (x : item) : Prop :=
    match x with
    | ASection s => section_is st file s
    | ASeries s => exists id, series_is st id s
    | APage p => exists sp, store_space st sp /\ page_is sp p
    | ATitle t => somewhere title_is t
    | APageContent c => somewhere page_content_is c
    | AOutline o => somewhere outline_is o
    | AOutlineItem i => somewhere item_is i
    | AGroup g => somewhere (fun sp id g => item_is sp id (ItemGroup (fst g) (snd g))) g
    | AElement e => somewhere element_is e
    | AContent c => somewhere content_is c
    | ARichText t => somewhere text_is t
    | ATable t => somewhere table_is t
    | ARow r => somewhere row_is r
    | ACell c => somewhere cell_is c
    | AImage g => somewhere image_is g
    | AFile f => somewhere file_is f
    | AFrame f => somewhere iframe_is f
    | AInk i => somewhere ink_is i \/ exists b, drawn i b
    | AStroke s => exists sx, scale_from sx /\ somewhere (fun sp => stroke_is sp sx sx) s
    | AList l => somewhere list_is l
    | ATag t => tag_somewhere t
    | ADefinition d => somewhere (fun sp id d => found sp id (fun o => tag_definition_object o d)) d
    | AStyle s => somewhere (fun sp id s => found sp id (fun o => exists d, style_object o d /\ styled d s)) s
    | AMath m => some_run st (fun run => math_is run m)
    | AEmbedded e => documented st file x /\
        match e with
        | EoInk i b => drawn i b
        | EoInkSpace h w => some_run st (fun run => exists d, embedded_ink_run run d /\
            ei_space_height d = Some h /\ ei_space_width d = Some w)
        | EoInkLineBreak => True
        end
    | AInkContainer c => drawn (fst c) (snd c)
    | AInkBox b => exists i, drawn i (Some b)
    | AInkSpace s => some_run st (fun run => exists d, embedded_ink_run run d /\
            ei_space_height d = Some (fst s) /\ ei_space_width d = Some (snd s))
    | APoint _ | ABox _ => documented st file x
    end.

  Lemma all_somewhere {A} (R : space -> exguid -> A -> Prop) sp ids xs x :
    store_space st sp -> Forall2 (R sp) ids xs -> In x xs -> somewhere R x.
  Proof. intros S F H. destruct (Forall2_right _ _ _ _ F H) as (id & _ & P). exists sp, id. now split. Qed.

  (** Tags *)
  Lemma tags_somewhere k sp id o ds ts t :
    In k [0x0006000E; 0x00060035; 0x00060011; 0x00060022] -> store_space st sp -> get_object sp id = Some o ->
    ob_jcid o = k -> tags o ds -> Forall2 (tag_is sp) ds ts -> In t ts -> tag_somewhere t.
  Proof.
    intros K S G J T F H. destruct (Forall2_right _ _ _ _ F H) as (d & Hd & P).
    unfold tags in T. destruct (stored o 0x40003489) as [v|] eqn:E; [|subst ds; destruct Hd].
    destruct T as (tid & sets & -> & T). destruct (Forall2_right _ _ _ _ T Hd) as (set & Hs & Q).
    exists k, sp, id, o, tid, sets, set, d. repeat (split; [assumption|]). exact P.
  Qed.

  (** Strokes and boxes of a drawing *)
  Lemma drawing_strokes sp sx id ss b s : store_space st sp -> scale_from sx ->
    drawing_is sp sx sx id ss b -> In s ss -> sound (AStroke s).
  Proof.
    intros S X (o & G & d & K & F & _) H. exists sx. split; [exact X|].
    exact (all_somewhere (fun sp => stroke_is sp sx sx) _ _ _ _ S F H).
  Qed.
  Lemma drawing_box sp sx id ss b : store_space st sp -> scale_from sx ->
    drawing_is sp sx sx id ss (Some b) -> sound (ABox b).
  Proof.
    intros S X (o & G & d & (J & _ & box & O & B) & _ & H). unfold both in H.
    destruct (ik_bounding_box d) as [q|] eqn:Eq; [|destruct H].
    destruct B as [(x & y & x' & y' & -> & E)|(_ & E)]; [|discriminate]. injection E as ->.
    unfold box_is in H. destruct H as (H1 & H2 & H3 & H4).
    exists sp, id, o. repeat (split; [assumption|]). exists x, y, x', y', sx.
    split; [exact O|]. split; [exact X|]. cbv zeta. repeat split; assumption.
  Qed.
  Lemma container_scale sp id o d : store_space st sp -> get_object sp id = Some o -> ink_container o d ->
    scale_from (ic_scaling_x d) /\ ic_scaling_y d = ic_scaling_x d.
  Proof.
    intros S G (J & _ & _ & _ & _ & X & Y). split.
    - right. exists sp, id, o. repeat (split; [assumption|]). exact X.
    - exact (optional_functional _ _ _ _ _ float_functional Y X).
  Qed.

  Lemma combine_fst {A B} (l : list A) (m : list B) p : In p (combine l m) -> In (fst p) l /\ In (snd p) m.
  Proof. destruct p. intros H. split; [eapply in_combine_l|eapply in_combine_r]; exact H. Qed.

  Lemma embeds_in sp refs k l out e : embeds sp refs k l out -> In e out ->
    exists t d, In (t, d) l /\
      match e with
      | EoInk i b => t = None /\ b = shown_box d /\ in_offset_horizontal i = ei_offset_horiz d /\
          in_offset_vertical i = ei_offset_vert d /\
          exists id, drawing_is sp None None id (in_strokes i) (in_bounding_box i)
      | EoInkSpace h w => t = Some 0x20026 /\ ei_space_height d = Some h /\ ei_space_width d = Some w
      | EoInkLineBreak => t = Some 0x20027
      end.
  Proof.
    induction 1 as [k|k d r out H IH|k d h w r out Eh Ew H IH|k d id ss bb r out N D H IH|k d r out N H IH];
      [intros []| | | |]; intros He.
    - destruct He as [<-|He]; [exists (Some 0x20027), d; split; [now left|reflexivity]|].
      destruct (IH He) as (t & x & Hx & P). exists t, x. split; [now right|exact P].
    - destruct He as [<-|He]; [exists (Some 0x20026), d; split; [now left|repeat split; assumption]|].
      destruct (IH He) as (t & x & Hx & P). exists t, x. split; [now right|exact P].
    - destruct He as [<-|He].
      + exists None, d. split; [now left|]. repeat (split; [reflexivity|]). exists id. exact D.
      + destruct (IH He) as (t & x & Hx & P). exists t, x. split; [now right|exact P].
    - destruct (IH He) as (t & x & Hx & P). exists t, x. split; [now right|exact P].
  Qed.
  Lemma text_embedded sp id t e : store_space st sp -> text_is sp id t -> In e (tx_embedded_objects t) ->
    sound (AEmbedded e).
  Proof.
    intros S (o & G & d & pd & styles & runs & inks & T & _ & _ & F & _ & R & _ & K & E & _) H.
    destruct (embeds_in _ _ _ _ _ _ E H) as (ty & x & Hx & P).
    destruct (selects_right _ _ _ _ _ K Hx) as (p & Hp & Ke & Et & Er). cbn [fst snd] in Et, Er.
    destruct (combine_fst _ _ _ Hp) as (Hr & Hs). destruct (Forall2_right _ _ _ _ F Hs) as (sid & _ & so & Gs & Sty).
    split.
    - exists sp, sid, so. unfold style_object in Sty. decompose [and] Sty. split; [exact S|]. split; [exact Gs|]. split; [assumption|].
      rewrite Ke in *. split; [assumption|].
      replace (match EmbeddedObject_Ink e with Some _ => None | None => match EmbeddedObject_InkSpace e with
               | Some _ => Some 0x20026 | None => Some 0x20027 end end) with (sy_object_type (snd p)); [assumption|].
      rewrite <- Et. destruct e; cbn; [now destruct P as (-> & _)|now destruct P as (-> & _)|exact P].
    - assert (J : ob_jcid o = 0x0006000E) by apply T.
      destruct e as [i b|h w|]; [| |exact I].
      + destruct P as (_ & Eb & E1 & E2 & did & D). split.
        * exists sp, id, o. repeat (split; [assumption|]). exists runs, (fst p). split; [exact R|]. split; [exact Hr|].
          exists x. now repeat (split; [assumption|]).
        * exists sp, did. now split.
      + destruct P as (_ & E1 & E2). exists sp, id, o. repeat (split; [assumption|]). exists runs, (fst p).
        split; [exact R|]. split; [exact Hr|]. exists x. now repeat (split; [assumption|]).
  Qed.

  Ltac fin := repeat (split; [assumption|]); assumption.

  Lemma gives_sound x y : sound x -> gives x y -> sound y.
  Proof.
    intros P G. destruct G as [s x H|s x H|p x H|p x H|t x H|c x H|c x H|c x H|c x H|o x H|i x H|i x H|g x H
      |e x H|e x H|e x H|c x H|c x H|c x H|c x H|c x H|t x H|t x H|r x H|c x H|g x H|g x H|f x H|i x H|i x H
      |s x H|t x H|t x H|t|t x H|t x H|t x H|e x H|e x H|c|c x H].
    - destruct P as (mid & m & cid & d & _ & _ & _ & _ & _ & _ & F).
      destruct (Forall2_right _ _ _ _ F H) as (id & _ & Q). now exists id.
    - destruct P as (id & o & _ & d & _ & F). destruct (Forall2_right _ _ _ _ F H) as (c & _ & sp & Q & R).
      exists sp. split; [right; now exists c|exact R].
    - destruct P as (sp & S & mid & m & cid & pid & d & _ & _ & _ & _ & _ & _ & _ & _ & B & _).
      unfold Page_title in H. rewrite H in B. unfold both in B. destruct (pd_title d) as [id|]; [|destruct B].
      exists sp, id. now split.
    - destruct P as (sp & S & mid & m & cid & pid & d & _ & _ & _ & _ & _ & _ & _ & _ & _ & F).
      exact (all_somewhere _ _ _ _ _ S F H).
    - destruct P as (sp & id & S & o & _ & d & _ & _ & _ & _ & _ & F). exact (all_somewhere _ _ _ _ _ S F H).
    - destruct P as (sp & id & S & P). destruct P; inversion H; subst. now exists sp, id.
    - destruct P as (sp & id & S & P). destruct P; inversion H; subst. now exists sp, id.
    - destruct P as (sp & id & S & P). destruct P; inversion H; subst. now exists sp, id.
    - destruct P as (sp & id & S & P). destruct P; inversion H; subst. left. now exists sp, id.
    - destruct P as (sp & id & S & o' & _ & d & P). decompose [and] P.
      match goal with F : Forall2 (item_is sp) _ _ |- _ => exact (all_somewhere _ _ _ _ _ S F H) end.
    - destruct P as (sp & id & S & P). destruct P; inversion H; subst. now exists sp, id.
    - destruct P as (sp & id & S & P). destruct i; inversion H; subst. now exists sp, id.
    - destruct P as (sp & id & S & P). inversion P; subst.
      match goal with F : Forall2 (item_is sp) _ _ |- _ => exact (all_somewhere _ _ _ _ _ S F H) end.
    - destruct P as (sp & id & S & P). inversion P; subst.
      match goal with F : Forall2 (content_is sp) _ _ |- _ => exact (all_somewhere _ _ _ _ _ S F H) end.
    - destruct P as (sp & id & S & P). inversion P; subst.
      match goal with F : Forall2 (list_is sp) _ _ |- _ => exact (all_somewhere _ _ _ _ _ S F H) end.
    - destruct P as (sp & id & S & P). inversion P; subst.
      match goal with F : Forall2 (item_is sp) _ _ |- _ => exact (all_somewhere _ _ _ _ _ S F H) end.
    - destruct P as (sp & id & S & P). destruct c; inversion H; inversion P; subst; now exists sp, id.
    - destruct P as (sp & id & S & P). destruct c; inversion H; inversion P; subst; now exists sp, id.
    - destruct P as (sp & id & S & P). destruct c; inversion H; inversion P; subst; now exists sp, id.
    - destruct P as (sp & id & S & P). destruct c; inversion H; inversion P; subst; now exists sp, id.
    - destruct P as (sp & id & S & P). destruct c; inversion H; inversion P; subst. left; now exists sp, id.
    - destruct P as (sp & id & S & P). inversion P; subst.
      match goal with F : Forall2 (row_is sp) _ _ |- _ => exact (all_somewhere _ _ _ _ _ S F H) end.
    - destruct P as (sp & id & S & P). inversion P as [i0 o d ? ? ? ? ? ? ? ? ? Go To]; subst.
      unfold table_object in To. decompose [and] To.
      match goal with F : Forall2 (tag_is sp) _ _, T : tags _ _, J : ob_jcid _ = _ |- _ =>
        refine (tags_somewhere _ _ _ _ _ _ _ _ S Go J T F H) end. cbn. auto 6.
    - destruct P as (sp & id & S & P). inversion P; subst.
      match goal with F : Forall2 (cell_is sp) _ _ |- _ => exact (all_somewhere _ _ _ _ _ S F H) end.
    - destruct P as (sp & id & S & P). inversion P; subst.
      match goal with F : Forall2 (element_is sp) _ _ |- _ => exact (all_somewhere _ _ _ _ _ S F H) end.
    - destruct P as (sp & id & S & o & Go & d & To & P). unfold image_object in To. decompose [and] To. decompose [and] P.
      match goal with F : Forall2 (tag_is sp) _ _, T : tags _ _, J : ob_jcid _ = _ |- _ =>
        refine (tags_somewhere _ _ _ _ _ _ _ _ S Go J T F H) end. cbn. auto 6.
    - destruct P as (sp & id & S & o & Go & d & To & P). decompose [and] P.
      match goal with F : Forall2 (iframe_is sp) _ _ |- _ => exact (all_somewhere _ _ _ _ _ S F H) end.
    - destruct P as (sp & id & S & o & Go & d & To & P). unfold file_node in To. decompose [and] To. decompose [and] P.
      match goal with F : Forall2 (tag_is sp) _ _, T : tags _ _, J : ob_jcid _ = 0x00060035 |- _ =>
        refine (tags_somewhere _ _ _ _ _ _ _ _ S Go J T F H) end. cbn. auto 6.
    - destruct P as [(sp & id & S & o & Go & d & K & _ & _ & D)|(b & _ & sp & id & S & D)].
      + destruct (container_scale _ _ _ _ S Go K) as (X & E). destruct (ic_ink_data d) as [did|].
        * rewrite E in D. exact (drawing_strokes _ _ _ _ _ _ S X D H).
        * destruct D as (D & _). unfold Ink_ink_strokes in H. rewrite D in H. destruct H.
      + exact (drawing_strokes _ _ _ _ _ _ S (or_introl eq_refl) D H).
    - unfold Ink_bounding_box in H.
      destruct P as [(sp & id & S & o & Go & d & K & _ & _ & D)|(b & _ & sp & id & S & D)].
      + destruct (container_scale _ _ _ _ S Go K) as (X & E). destruct (ic_ink_data d) as [did|].
        * rewrite E, H in D. exact (drawing_box _ _ _ _ _ S X D).
        * destruct D as (_ & D). congruence.
      + rewrite H in D. exact (drawing_box _ _ _ _ _ S (or_introl eq_refl) D).
    - destruct P as (sx & X & sp & id & S & o & Go & d & K & po & Gp & p & Kp & (ix & iy & Q) & _). cbv zeta in Q.
      destruct Q as (_ & _ & _ & Q). apply In_nth_error in H as (i & H). destruct (Q i x H) as (a & b & Ha & Hb & E1 & E2).
      destruct K as (J & Hpath & _). exists sp, id, o. repeat (split; [assumption|]). exists (ss_path d), a, b, sx.
      split; [exact Hpath|]. split; [exact (nth_error_In _ _ Ha)|]. split; [exact (nth_error_In _ _ Hb)|].
      split; [exact X|]. now split.
    - destruct P as (k & sp & id & o & tid & sets & set & d & _ & S & _ & _ & _ & _ & _ & _ & _ & B).
      unfold NoteTag_definition in H. rewrite H in B. unfold both in B. destruct (tg_definition d) as [did|]; [|destruct B].
      now exists sp, did.
    - destruct P as (sp & id & S & o & Go & d & pd & styles & runs & inks & _ & _ & _ & F & F2 & _).
      destruct (Forall2_right _ _ _ _ F2 H) as (sd & Hs & Q). destruct (Forall2_right _ _ _ _ F Hs) as (sid & _ & so & Gs & R).
      exists sp, sid. split; [exact S|]. exists so. split; [exact Gs|]. now exists sd.
    - destruct P as (sp & id & S & o & Go & d & pd & styles & runs & inks & _ & (so & Gs & R) & Q & _).
      exists sp, (rt_paragraph_style d). split; [exact S|]. exists so. split; [exact Gs|]. now exists pd.
    - destruct P as (sp & id & S & o & Go & d & pd & styles & runs & inks & To & P).
      unfold text_object in To. decompose [and] To. decompose [and] P.
      match goal with F : Forall2 (tag_is sp) _ _, T : tags _ _, J : ob_jcid _ = _ |- _ =>
        refine (tags_somewhere _ _ _ _ _ _ _ _ S Go J T F H) end. cbn. auto 6.
    - destruct P as (sp & id & S & P). exact (text_embedded _ _ _ _ S P H).
    - destruct P as (sp & id & S & o & Go & d & pd & styles & runs & inks & To & _ & _ & _ & _ & R & M & _).
      destruct (selects_right _ _ _ _ _ M H) as (p & Hp & _ & Q). destruct (combine_fst _ _ _ Hp) as (Hr & _).
      exists sp, id, o. split; [exact S|]. split; [exact Go|]. split; [apply To|]. exists runs, (fst p). now split.
    - destruct P as (_ & P). destruct e; inversion H; subst. exact P.
    - destruct P as (_ & P). destruct e; inversion H; subst. exact P.
    - right. exists (snd c). exact P.
    - destruct c as (i, b). cbn in H, P. subst b. now exists i.
  Qed.

  (** ** From the invariant to the file *)
  Ltac obj S G := do 3 eexists; split; [exact S|]; split; [exact G|]; split; [eassumption|].
  Ltac rest := repeat match goal with
    | |- _ /\ _ => split
    | |- optional _ _ a_color _ => apply optional_color
    | |- defaulted _ _ a_alignment _ _ => apply defaulted_alignment
    | |- required _ _ a_tag_status _ => apply required_tag_status
    | |- required _ _ a_item_status _ => apply required_item_status
    end; try assumption.
  Ltac list_len := eexists; split; [eassumption|]; unfold as_many; eapply Forall2_len; eassumption.

  Lemma sound_documented x : sound x -> documented st file x.
  Proof.
    intros P. destruct x; cbn [documented]; cbn [sound] in P.
    - destruct P as (mid & m & cid & d & E1 & (o & Go & To) & E2 & (c & Gc & Tc) & Hn & Hc & F). cbv zeta.
      unfold section_meta in To. unfold section_node in Tc. decompose [and] To. decompose [and] Tc. split.
      + exists mid, o. repeat (split; [assumption|]). split; [eexists; split; eassumption|].
        unfold Section_color. rewrite Hc. rest.
      + exists cid, c, (sn_page_series d). repeat (split; [assumption|]). exact (Forall2_len _ _ _ F).
    - destruct P as (id & o & Go & d & To & F). unfold series_node in To. decompose [and] To.
      obj (or_introl (B := exists c, object_space st c = Some (st_data_root st)) (eq_refl (st_data_root st))) Go. list_len.
    - destruct P as (sp & S & mid & m & cid & pid & d & E1 & (o & Go & To) & E2 & (c & Gc & Jc & rs & Rc) & (po & Gp & Tp) & H1 & H2 & H3 & B & F).
      unfold page_meta in To. unfold page_object in Tp. decompose [and] To. decompose [and] Tp.
      exists sp. split; [exact S|]. unfold Page_level, Page_author, Page_height. rewrite H1, H2, H3. split.
      + exists mid, o. fin.
      + exists cid, c, pid, rs, po. repeat (split; [assumption|]). split; [list_len|].
        match goal with H : exists titles, _ |- _ => destruct H as (l & Hl & Et) end. exists l. split; [exact Hl|].
        unfold Page_title. unfold both in B. rewrite Et in B. destruct l as [|a l]; cbn in B; destruct (pg_title p); try contradiction;
          split; congruence.
    - destruct P as (sp & id & S & o & Go & d & To & H1 & H2 & H3 & H4 & F). unfold title_object in To. decompose [and] To.
      obj S Go. unfold Title_offset_horizontal, Title_offset_vertical, Title_layout_alignment_in_parent, Title_layout_alignment_self.
      rewrite H1, H2, H3, H4. rest. list_len.
    - destruct P as (sp & id & S & P). destruct P as [? ? (o & Go & d & To & _)|? ? (o & Go & d & To & _)|? ? (o & Go & d & To & _)|? ? (o & Go & d & To & _)|? (o & Go & K & N)]; cbn.
      1-4: exists sp, id, o; split; [exact S|]; split; [exact Go|]; split; [apply To|exact I].
      exists (ob_jcid o). split; [exists sp, id, o; now repeat split|exact N].
    - destruct P as (sp & id & S & ob & Go & d & To & P). unfold outline_object in To. decompose [and] To.
      destruct P as (E1 & E2 & E3 & E4 & E5 & E6 & E7 & E8 & E9 & E10 & E11 & E12 & F).
      obj S Go. unfold Outline_child_level, Outline_list_spacing, Outline_indents, Outline_alignment_in_parent, Outline_alignment_self,
        Outline_layout_max_height, Outline_layout_max_width, Outline_layout_reserved_width, Outline_layout_minimum_outline_width,
        Outline_is_layout_size_set_by_user, Outline_offset_horizontal, Outline_offset_vertical.
      rewrite E1, E2, E3, E4, E5, E6, E7, E8, E9, E10, E11, E12. rest. list_len.
    - destruct P as (sp & id & S & P). inversion P as [? o d ? ? Go To|? e Pe]; subst; cbn.
      + exists sp, id, o; split; [exact S|]; split; [exact Go|]; split; [apply To|exact I].
      + inversion Pe as [? o d ? ? ? ? ? Go To]; subst. exists sp, id, o; split; [exact S|]; split; [exact Go|]; split; [apply To|exact I].
    - destruct P as (sp & id & S & P). inversion P as [? o d ? ? Go To|]; subst. unfold group_object in To. decompose [and] To.
      obj S Go. unfold OutlineGroup_child_level. match goal with H : fst g = _ |- _ => rewrite H end. rest. list_len.
    - destruct P as (sp & id & S & P). inversion P as [? o d ? ? ? ? ? Go To]; subst. unfold element_object in To. decompose [and] To.
      obj S Go. cbn. rest; list_len.
    - destruct P as (sp & id & S & P).
      inversion P as [? ? (o & Go & d & _ & _ & _ & _ & To & _)|? ? (o & Go & d & To & _)|? ? (o & Go & d & To & _)|? ? (o & Go & d & To & _)
        |? (o & Go & K & N)|? ? Pt]; subst; cbn.
      1-4: exists sp, id, o; split; [exact S|]; split; [exact Go|]; split; [apply To|exact I].
      + exists (ob_jcid o). split; [exists sp, id, o; now repeat split|]. intros H. apply N. cbn in H |- *. intuition.
      + inversion Pt as [? o d ? ? ? ? ? ? ? ? ? Go To]; subst.
        exists sp, id, o; split; [exact S|]; split; [exact Go|]; split; [apply To|exact I].
    - destruct P as (sp & id & S & o & Go & d & pd & styles & runs & inks & To & _ & _ & F1 & F2 & _ & _ & _ & _ & T & E1 & E2 & E3 & E4 & E5 & E6 & E7 & _).
      unfold text_object in To. decompose [and] To. obj S Go.
      unfold RichText_text_run_indices, RichText_paragraph_space_before, RichText_paragraph_space_after,
        RichText_paragraph_line_spacing_exact, RichText_paragraph_alignment, RichText_layout_alignment_in_parent,
        RichText_layout_alignment_self. rewrite E1, E2, E3, E4, E5, E6, E7. rest.
      + destruct T as [T|(T1 & T2)]; [now left|]. right. split; [exact T1|]. exists (rt_text d). now split.
      + eexists. split; [eassumption|]. unfold as_many. rewrite (Forall2_len _ _ _ F1). exact (Forall2_len _ _ _ F2).
    - destruct P as (sp & id & S & P). inversion P as [? o d ? ? ? ? ? ? ? ? ? Go To]; subst. unfold table_object in To. decompose [and] To.
      obj S Go. cbn. rest. list_len.
    - destruct P as (sp & id & S & P). inversion P as [? o d ? Go To]; subst. unfold row_object in To. decompose [and] To.
      obj S Go. list_len.
    - destruct P as (sp & id & S & P). inversion P as [? o d ? ? ? ? Go To]; subst. unfold cell_object in To. decompose [and] To.
      obj S Go. unfold OutlineIndentDistance_value. cbn. rest. list_len.
    - destruct P as (sp & id & S & o & Go & d & To & D & E1 & E2 & E3 & E4 & E5 & E6 & E7 & E8 & E9 & E10 & E11 & E12 & E13 & E14 & E15 & _ & F).
      unfold image_object in To. decompose [and] To. obj S Go.
      unfold Image_layout_max_width, Image_layout_max_height, Image_alt_text, Image_layout_alignment_in_parent, Image_layout_alignment_self,
        Image_image_filename, Image_displayed_page_number, Image_text, Image_text_language_code, Image_picture_width, Image_picture_height,
        Image_hyperlink_url, Image_offset_horizontal, Image_offset_vertical, Image_is_background.
      rewrite E1, E2, E3, E4, E5, E6, E7, E8, E9, E10, E11, E12, E13, E14, E15. rest; [list_len|].
      exists (im_picture_container d). split; [assumption|]. destruct (im_picture_container d) as [c|]; [|exact D].
      destruct D as (co & Gc & p & (K & Df & X) & D1 & D2). exists co. split; [exact Gc|].
      split; [cbn; destruct K as [->| ->]; auto|]. unfold Image_data, Image_extension. rewrite D1, D2.
      split; [|exact X]. destruct (ob_file co); congruence.
    - destruct P as (sp & id & S & o & Go & d & To & E1 & E2 & E3 & E4 & E5 & E6 & (co & Gc & Jc & Fc) & _).
      unfold file_node in To. decompose [and] To. obj S Go.
      unfold EmbeddedFile_filename, EmbeddedFile_file_type, EmbeddedFile_layout_max_width, EmbeddedFile_layout_max_height,
        EmbeddedFile_offset_horizontal, EmbeddedFile_offset_vertical. rewrite E1, E2, E3, E4, E5, E6. rest.
      exists (ef_container d), co. fin.
    - destruct P as (sp & id & S & o & Go & J & H1 & H2). exists sp, id, o. fin.
    - destruct P as [(sp & id & S & o & Go & d & To & E1 & E2 & _)|(b & (sp & id & o & S & Go & Jo & runs & run & R & Hr & d & K & E1 & E2 & _) & _)].
      + left. unfold ink_container in To. decompose [and] To. obj S Go. unfold Ink_offset_horizontal, Ink_offset_vertical. rewrite E1, E2. rest.
      + right. exists sp, id, o. repeat (split; [assumption|]). exists runs, run. repeat (split; [assumption|]).
        unfold embedded_ink_run in K. decompose [and] K. unfold Ink_offset_horizontal, Ink_offset_vertical. rewrite E1, E2. now split.
    - destruct P as (sx & X & sp & id & S & o & Go & d & K & po & Gp & p & Kp & _ & E1 & E2 & E3 & E4 & E5).
      unfold stroke_node in K. unfold stroke_properties in Kp. decompose [and] K. decompose [and] Kp. obj S Go. exists (ss_properties d), po.
      unfold InkStroke_pen_tip, InkStroke_transparency, InkStroke_height, InkStroke_width, InkStroke_color. rewrite E1, E2, E3, E4, E5. fin.
    - exact P.
    - exact P.
    - destruct P as (sp & id & S & o & Go & d & To & E1 & E2 & E3 & E4 & E5 & E6 & E7 & E8). unfold list_object in To. decompose [and] To.
      obj S Go. unfold List_list_font, List_list_restart, List_list_format, List_bold, List_italic, List_font, List_font_size, List_font_color.
      rewrite E1, E2, E3, E4, E5, E6, E7, E8. rest.
    - destruct P as (k & sp & id & o & tid & sets & set & d & K & S & Go & J & E & Hs & (inner & N & R & _ & C & I) & E1 & E2 & B).
      exists k. split; [exact K|]. exists sp, id, o. repeat (split; [assumption|]). exists tid, sets, set, inner.
      repeat (split; [assumption|]). unfold NoteTag_completed_at, NoteTag_item_status. rewrite E1, E2. rest.
      exists (tg_definition d). split; [exact R|]. unfold NoteTag_definition. unfold both in B.
      destruct (tg_definition d), (nt_definition t); try contradiction; split; congruence.
    - destruct P as (sp & id & S & o & Go & To). unfold tag_definition_object in To. decompose [and] To. obj S Go. rest.
    - destruct P as (sp & id & S & o & Go & sd & To & P). unfold style_object in To. decompose [and] To.
      destruct P as (E1 & E2 & E3 & E4 & E5 & E6 & E7 & E8 & E9 & E10 & E11 & E12 & E13 & E14 & E15 & E16 & E17 & E18 & E19 & E20).
      obj S Go. unfold ParagraphStyling_charset, ParagraphStyling_bold, ParagraphStyling_italic, ParagraphStyling_underline,
        ParagraphStyling_strikethrough, ParagraphStyling_superscript, ParagraphStyling_subscript, ParagraphStyling_font,
        ParagraphStyling_font_size, ParagraphStyling_font_color, ParagraphStyling_highlight, ParagraphStyling_next_style,
        ParagraphStyling_style_id, ParagraphStyling_paragraph_alignment, ParagraphStyling_paragraph_space_before,
        ParagraphStyling_paragraph_space_after, ParagraphStyling_paragraph_line_spacing_exact, ParagraphStyling_language_code,
        ParagraphStyling_math_formatting, ParagraphStyling_hyperlink.
      rewrite E1, E2, E3, E4, E5, E6, E7, E8, E9, E10, E11, E12, E13, E14, E15, E16, E17, E18, E19, E20. rest.
    - destruct P as (sp & id & o & S & Go & Jo & runs & run & R & Hr & d & K & E1 & E2 & E3 & E4 & E5 & E6 & E7).
      exists sp, id, o. repeat (split; [assumption|]). exists runs, run. repeat (split; [assumption|]).
      unfold math_object_data in K. decompose [and] K.
      unfold MathInlineObject_object_type, MathInlineObject_arg_count, MathInlineObject_column, MathInlineObject_align,
        MathInlineObject_char, MathInlineObject_char1, MathInlineObject_char2. rewrite E3, E4, E5, E6, E7. rest; eexists; split; eassumption.
    - exact (proj1 P).
    - destruct P as ((sp & id & o & S & Go & Jo & runs & run & R & Hr & d & K & E1 & E2 & E3) & _).
      exists sp, id, o. repeat (split; [assumption|]). exists runs, run. repeat (split; [assumption|]).
      unfold embedded_ink_run in K. decompose [and] K. exists (ei_start_x d), (ei_start_y d), (ei_height d), (ei_width d).
      repeat (split; [assumption|]). unfold EmbeddedInkContainer_bounding_box. rewrite E3. unfold shown_box.
      destruct (ei_start_x d), (ei_start_y d), (ei_height d), (ei_width d); intuition congruence.
    - destruct P as (i & (sp & id & o & S & Go & Jo & runs & run & R & Hr & d & K & E1 & E2 & E3) & _).
      exists sp, id, o. repeat (split; [assumption|]). exists runs, run. repeat (split; [assumption|]).
      unfold embedded_ink_run in K. decompose [and] K. unfold shown_box in E3.
      destruct (ei_start_x d), (ei_start_y d), (ei_height d), (ei_width d); try discriminate. injection E3 as ->. now repeat split.
    - destruct P as (sp & id & o & S & Go & Jo & runs & run & R & Hr & d & K & E1 & E2).
      exists sp, id, o. repeat (split; [assumption|]). exists runs, run. repeat (split; [assumption|]).
      unfold embedded_ink_run in K. decompose [and] K. unfold EmbeddedInkSpace_height, EmbeddedInkSpace_width. rewrite <- E1, <- E2. now split.
  Qed.

  Lemma seen_documented s x : section_is st file s -> seen s x -> documented st file x.
  Proof.
    intros P H. apply sound_documented. induction H as [|x y H IH G]; [exact P|exact (gives_sound _ _ IH G)].
  Qed.
End Invariant.
