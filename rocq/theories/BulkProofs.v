(** What a section holds is paid for by the objects that were looked up. *)
From Coq Require Import Lia ZifyBool ZifyNat ZifyN Relations Floats.SpecFloat.
From Verif Require Import Base BaseProofs Codec SpecCodec Package PropSet PropIds Store Shapes Props Nodes Doc Notebook SpecValues SpecNodes StoreProofs
  NodesProofs NodesProofs2 SpecDoc DocProofs DocProofs2 SpecSize SizeProofs SpecWeight WeightProofs Looks SpecLooks LooksProofs LooksProofs2 LooksProofs3 SpecBulk.
From Verif Require PackageRT CodecRT3 DocProofs4.
Local Open Scope nat_scope.

(** ** The parts of an object *)
Lemma stored_weight o id v : stored o id = Some v -> value_weight v <= set_weight (op_props (ob_props o)).
Proof.
  unfold stored, oprops_get, propset_get. destruct (alookup _ _ _) as [e|] eqn:E; cbn [option_map]; [|discriminate].
  intro H. injection H as <-. apply (alookup_in N.eqb N.eqb_eq) in E. apply set_weight_in in E. cbn [snd] in E. lia.
Qed.
Definition sw (o : object) : nat := set_weight (op_props (ob_props o)).
Definition fits {A} (R : pvalue -> list A -> Prop) : Prop := forall v l, R v l -> length l <= value_weight v.
Lemma optional_fits {A} (R : pvalue -> list A -> Prop) o id x : fits R -> optional o id R x -> length_of x <= sw o.
Proof.
  unfold optional, sw. intros F H. destruct (stored o id) as [v|] eqn:E; [|subst; cbn; lia]. destruct H as (a & H & ->).
  apply F in H. apply stored_weight in E. cbn [length_of]. lia.
Qed.
Lemma required_fits {A} (R : pvalue -> list A -> Prop) o id x : fits R -> required o id R x -> length x <= sw o.
Proof. unfold required, sw. intros F (v & E & H). apply F in H. apply stored_weight in E. lia. Qed.
Lemma defaulted_fits {A} (R : pvalue -> list A -> Prop) o id x : fits R -> defaulted o id R [] x -> length x <= sw o.
Proof.
  unfold defaulted, sw. intros F H. destruct (stored o id) as [v|] eqn:E; [|subst; cbn; lia]. apply F in H. apply stored_weight in E. lia.
Qed.
Lemma chunks_short : forall d, length (u16_chunks d) <= length d.
Proof. fix IH 1. intros [|a [|b r]]; cbn [u16_chunks length]; [lia|lia|]. specialize (IH r). lia. Qed.
Lemma truncate_short us : length (truncate_nul us) <= length us.
Proof. induction us as [|u us IH]; cbn; [lia|]. destruct (u =? 0)%N; cbn; lia. Qed.
Lemma utf16_short us s : from_utf16 us = Some s -> length s <= length us.
Proof.
  remember (length us) as n eqn:L. revert us s L. induction n as [n IH] using lt_wf_ind. intros [|u r] s L H; cbn [from_utf16] in H; [injection H as <-; cbn; lia|].
  cbn [length] in L. destruct (is_high_surrogate u).
  - destruct r as [|v r']; [discriminate|]. cbn [length] in L. destruct (is_low_surrogate v); [|discriminate].
    destruct (from_utf16 r') as [t|] eqn:E; [|discriminate]. injection H as <-. apply (IH (length r') ltac:(lia)) in E; [|reflexivity]. cbn [length]. lia.
  - destruct (is_low_surrogate u); [discriminate|]. destruct (from_utf16 r) as [t|] eqn:E; [|discriminate]. injection H as <-.
    apply (IH (length r) ltac:(lia)) in E; [|reflexivity]. cbn [length]. lia.
Qed.
Lemma text_fits : fits text.
Proof.
  intros v l (d & -> & H). unfold utf16_to_string in H. destruct (from_utf16 _) as [s|] eqn:E; [|discriminate]. cbn in H. injection H as <-.
  apply utf16_short in E. pose proof (truncate_short (u16_chunks d)). pose proof (chunks_short d). cbn [value_weight]. lia.
Qed.
Lemma raw_fits : fits raw. Proof. intros v l ->. cbn. lia. Qed.
Lemma numbers_short w d l : 0 < w -> numbers w d l -> length l <= length d.
Proof. intros P H. induction H; cbn [length]; [lia|]. rewrite app_length. lia. Qed.
Lemma dwords_fits : fits dwords. Proof. intros v l (d & -> & H). apply numbers_short in H; cbn; lia. Qed.
Lemma lossy_short us s : lossy us s -> length s <= length us.
Proof. induction 1; cbn [length]; lia. Qed.
Lemma numbering_fits : fits numbering.
Proof.
  intros v l (n & r & (d & -> & H) & L). apply numbers_short in H; [|lia]. apply lossy_short in L. cbn [length value_weight] in *. lia.
Qed.
Lemma indents_fits : fits indents.
Proof.
  intros v l (a & b & c & d & n & -> & _ & e & t & -> & Le & _). cbn [value_weight length]. rewrite app_length. lia.
Qed.
Lemma flags_fits : fits column_flags.
Proof. intros v l [(-> & ->)|(n & ->)]; cbn [value_weight length]; lia. Qed.
Lemma widths_fits : fits column_widths.
Proof. intros v l [(-> & ->)|(n & d & -> & H)]; cbn [value_weight length]; [lia|]. apply numbers_short in H; lia. Qed.
Lemma path_fits : fits path.
Proof.
  intros v l (d & -> & H). unfold decode_signed in H. apply bind_ok in H as (vs & E & H). injection H as <-.
  apply CodecRT3.decode_facts in E as (_ & E & _). rewrite map_length. cbn [value_weight]. lia.
Qed.
Lemma paragraph_fits o x : paragraph_text o x -> length_of x <= sw o.
Proof.
  unfold paragraph_text. destruct (stored o _) as [v|] eqn:E.
  - intros (s & T & ->). apply text_fits in T. apply stored_weight in E. unfold sw. cbn [length_of]. lia.
  - apply optional_fits, raw_fits.
Qed.
Lemma points_short zs p sx sy l : parse_ink_path zs p sx sy = Ok l -> length l <= length zs.
Proof.
  unfold parse_ink_path. intro H. apply bind_ok in H as (i & _ & H). apply bind_ok in H as (j & _ & H). cbv zeta in H.
  apply bind_ok in H as (x & Ex & H). apply bind_ok in H as (y & _ & H). injection H as <-. rewrite map_length, combine_length.
  unfold slice in Ex. destruct (_ <? _)%N; [discriminate|]. injection Ex as <-. pose proof (@taken_short Z (len zs / len (sp_dimensions p))%N
    (len zs / len (sp_dimensions p) * i)%N zs). lia.
Qed.

(** ** Charges *)
Definition cost (o : object) : nat := 8 * object_bulk o.
Definition got (x : option object) : nat := match x with Some o => cost o | None => 0 end.
Lemma paid_bind {T A B} (c : T -> nat) (p : traced T A) (f : A -> traced T B) b : snd (tbind p f) = Ok b ->
  exists a, snd p = Ok a /\ snd (f a) = Ok b /\ total c (fst (tbind p f)) = total c (fst p) + total c (fst (f a)).
Proof.
  rewrite tbind_eq. destruct (snd p) as [a|e| |]; try discriminate. cbn [snd fst]. intro H. exists a. now rewrite total_app.
Qed.
Lemma paid_map {T A B} (c : T -> nat) (size : B -> nat) (f : A -> traced T B) l : (forall a b, snd (f a) = Ok b -> size b <= total c (fst (f a))) ->
  forall ys, snd (map_t f l) = Ok ys -> total size ys <= total c (fst (map_t f l)).
Proof.
  intro F. induction l as [|a l IH]; intros ys H; cbn [map_t] in *; [injection H as <-; cbn; lia|].
  apply (paid_bind c) in H as (b & Hb & H & ->). apply (paid_bind c) in H as (bs & Hbs & H & ->). injection H as <-. cbn [total].
  apply F in Hb. apply IH in Hbs. lia.
Qed.
(** Each part may also be charged [k] to its host. *)
Lemma paid_map_k {T A B} k (c : T -> nat) (size : B -> nat) (f : A -> traced T B) l : (forall a b, snd (f a) = Ok b -> size b <= k + total c (fst (f a))) ->
  forall ys, snd (map_t f l) = Ok ys -> total size ys <= k * length l + total c (fst (map_t f l)).
Proof.
  intro F. induction l as [|a l IH]; intros ys H; cbn [map_t] in *; [injection H as <-; cbn; lia|].
  apply (paid_bind c) in H as (b & Hb & H & ->). apply (paid_bind c) in H as (bs & Hbs & H & ->). injection H as <-. cbn [total length].
  apply F in Hb. apply IH in Hbs. lia.
Qed.
Lemma bulk_parts o : 1 + length (op_object_ids (ob_props o)) + length (op_space_ids (ob_props o)) + sw o + length_of (ob_file o) <= object_bulk o.
Proof. unfold object_bulk, object_weight, object_ids, sw. lia. Qed.

Section Space.
Variable sp : space.
Definition charge (id : exguid) : nat := got (get_object sp id).
Definition pay (l : list exguid) : nat := total charge l.
Lemma need_paid id o : snd (need_object_t id sp) = Ok o -> get_object sp id = Some o /\ total charge (fst (need_object_t id sp)) = cost o.
Proof.
  cbn [need_object_t snd fst]. intro H. apply need_ok in H. split; [exact H|]. cbn [total]. unfold charge. rewrite H. cbn [got]. lia.
Qed.
Ltac step H a K := apply (paid_bind charge) in H as (a & K & H & ->).
Ltac need H o := let E := fresh "E" in let G := fresh "G" in let P := fresh "P" in
  apply (paid_bind charge) in H as (o & E & H & ->); apply need_paid in E as (G & P); rewrite P; clear P;
  pose proof (bulk_parts o); assert (cost o = 8 * object_bulk o) by reflexivity.
Ltac node H d := let E := fresh "N" in apply (paid_bind charge) in H as (d & E & H & ->); cbn [tlift fst snd total] in *.

Lemma paid_tag id d : snd (note_tag_definition_t id sp) = Ok d -> length (td_label d) <= total charge (fst (note_tag_definition_t id sp)).
Proof.
  unfold note_tag_definition_t. intro H. need H o. cbn [tlift snd fst total] in *. apply tag_definition_ok in H.
  assert (L : required o 0x1C003468 text (td_label d)) by apply H. apply (required_fits _ _ _ _ text_fits) in L. lia.
Qed.
Lemma paid_tags l ts : snd (note_tags_t l sp) = Ok ts -> total tag_bulk ts <= length l + total charge (fst (note_tags_t l sp)).
Proof.
  unfold note_tags_t. intro H. rewrite <- (Nat.mul_1_l (length l)). revert ts H. apply paid_map_k. intros data t H. step H d Kd. injection H as <-. cbn [tret fst total].
  unfold tag_bulk. cbn [nt_definition]. destruct (tg_definition data) as [id|]; cbn [opt_map_t] in *; [|injection Kd as <-; cbn; lia].
  step Kd x Kx. injection Kd as <-. apply paid_tag in Kx. cbn [tret fst total]. lia.
Qed.
Lemma paid_list id l : snd (parse_list_t id sp) = Ok l -> list_bulk l <= total charge (fst (parse_list_t id sp)).
Proof.
  unfold parse_list_t. intro H. need H o. node H d. injection H as <-. apply list_ok in N. unfold list_object in N. decompose [and] N. clear N.
  unfold list_bulk. cbn [li_list_font li_list_format li_font tret fst total].
  pose proof (optional_fits _ o 0x1C001C52 _ text_fits ltac:(eassumption)). pose proof (optional_fits _ o 0x1C001C0A _ text_fits ltac:(eassumption)).
  pose proof (required_fits _ o 0x1C001C1A _ numbering_fits ltac:(eassumption)). lia.
Qed.
Lemma paid_iframe id x : snd (parse_iframe_t id sp) = Ok x -> iframe_bulk x <= total charge (fst (parse_iframe_t id sp)).
Proof.
  unfold parse_iframe_t. intro H. need H o. cbn [tlift snd fst total] in *. apply iframe_ok in H. destruct H as (_ & _ & L).
  apply (required_fits _ _ _ _ text_fits) in L. unfold iframe_bulk. lia.
Qed.
Lemma paid_file id x : snd (parse_embedded_file_t id sp) = Ok x -> file_bulk x <= total charge (fst (parse_embedded_file_t id sp)).
Proof.
  unfold parse_embedded_file_t. intro H. need H o. node H d. need H co. node H bs. step H ts Kts. injection H as <-.
  apply file_node_ok in N. assert (A : required o 0x1C001D9C text (ef_name d)) by apply N. assert (B : tags o (ef_note_tags d)) by apply N.
  apply (required_fits _ _ _ _ text_fits) in A. apply tags_short in B. apply file_container_ok in N0 as (_ & F). rewrite F in *. cbn [length_of] in *.
  apply paid_tags in Kts. unfold file_bulk, sw in *. cbn [fi_filename fi_data fi_note_tags tret fst total]. lia.
Qed.
Lemma paid_image id x : snd (parse_image_t id sp) = Ok x -> image_bulk x <= total charge (fst (parse_image_t id sp)).
Proof.
  unfold parse_image_t. intro H. need H o. node H d. step H co Kco. node H cd. step H fs Kfs. step H ts Kts. injection H as <-.
  apply image_ok in N. unfold image_object in N. decompose [and] N. clear N.
  pose proof (optional_fits _ o 0x1C001E58 _ text_fits ltac:(eassumption)). pose proof (optional_fits _ o 0x1C001DD7 _ text_fits ltac:(eassumption)).
  pose proof (optional_fits _ o 0x1C001C22 _ text_fits ltac:(eassumption)). pose proof (optional_fits _ o 0x1C001E20 _ text_fits ltac:(eassumption)).
  assert (B : tags o (im_note_tags d)) by assumption. apply tags_short in B. fold (sw o) in B.
  apply paid_tags in Kts. apply (paid_map charge iframe_bulk) in Kfs; [|intros; now apply paid_iframe].
  assert (C : length_of (option_map pc_data cd) + length_of (match cd with Some e => pc_extension e | None => None end) <=
    total charge (fst (opt_map_t (fun cid => need_object_t cid sp) (im_picture_container d)))).
  { destruct (im_picture_container d) as [cid|]; cbn [opt_map_t] in *.
    - need Kco c. injection Kco as <-. cbn [opt_map_res] in N0. apply bind_ok in N0 as (e & N0 & Q). injection Q as <-. apply picture_ok in N0 as (_ & Q & X).
      apply (optional_fits _ _ _ _ text_fits) in X. cbn [option_map length_of tret fst total]. destruct (ob_file c); rewrite Q; cbn [length_of length] in *; lia.
    - injection Kco as <-. injection N0 as <-. cbn. lia. }
  unfold image_bulk. cbn [ig_data ig_extension ig_alt_text ig_filename ig_text ig_hyperlink_url ig_note_tags ig_embeds tret fst total]. lia.
Qed.
Lemma paid_stroke id sx sy x : snd (parse_ink_stroke_t id sp sx sy) = Ok x -> stroke_bulk x <= total charge (fst (parse_ink_stroke_t id sp sx sy)).
Proof.
  unfold parse_ink_stroke_t. intro H. need H o. node H d. need H po. node H pr. node H l. injection H as <-.
  apply points_short in N1. apply stroke_ok in N. assert (A : required o 0x1C00340B path (ss_path d)) by apply N.
  apply (required_fits _ _ _ _ path_fits) in A. unfold stroke_bulk. cbn [st_path tret fst total]. lia.
Qed.
Lemma paid_ink_data id sx sy x : snd (parse_ink_data_t id sp sx sy) = Ok x -> 1 + total stroke_bulk (fst x) <= total charge (fst (parse_ink_data_t id sp sx sy)).
Proof.
  unfold parse_ink_data_t. intro H. need H o. node H d. step H l Kl. injection H as <-. cbn [fst tret total].
  apply (paid_map charge stroke_bulk) in Kl; [|intros; now apply paid_stroke]. lia.
Qed.
Lemma paid_ink id x : snd (parse_ink_t id sp) = Ok x -> ink_bulk x <= total charge (fst (parse_ink_t id sp)).
Proof.
  unfold parse_ink_t. intro H. need H o. node H d. destruct (ic_ink_data d) as [did|].
  - step H y Ky. destruct y as [l b]. injection H as <-. apply paid_ink_data in Ky. unfold ink_bulk. cbn [in_strokes fst tret total] in *. lia.
  - injection H as <-. unfold ink_bulk. cbn [in_strokes tret fst total]. lia.
Qed.
Lemma paid_embedded refs objs : forall i k ys, snd (embedded_objects_t sp refs i k objs) = Ok ys ->
  total embedded_bulk (flatten ys) <= length objs + total charge (fst (embedded_objects_t sp refs i k objs)).
Proof.
  induction objs as [|[ty d] rest IH]; intros i k ys H; cbn [embedded_objects_t] in *; [injection H as <-; cbn; lia|]. destruct ty as [t|].
  - node H x. step H xs Kxs. injection H as <-. apply IH in Kxs. cbn [tret fst total length].
    assert (A : match x with Some e => embedded_bulk e | None => 0 end <= 1).
    { destruct (_ =? _)%N; [injection N as <-; cbn; lia|]. destruct (_ =? _)%N; [|discriminate]. apply bind_ok in N as (e & N & Q). injection Q as <-.
      unfold parse_ink_space in N. apply bind_ok in N as (a & _ & N). apply bind_ok in N as (b & _ & N). injection N as <-. cbn. lia. }
    unfold flatten in *. cbn [flat_map]. destruct x; cbn [app total] in *; lia.
  - step H x Kx. step H xs Kxs. injection H as <-. apply IH in Kxs. cbn [tret fst total length].
    match type of Kx with snd ?p = _ => assert (A : match x with Some e => embedded_bulk e | None => 0 end <= total charge (fst p)) end.
    { destruct refs as [|r0 refs']; [injection Kx as <-; cbn; lia|]. destruct (nth_error _ _) as [id|]; [|discriminate].
      step Kx e Ke. injection Kx as <-. unfold parse_embedded_ink_t in *. step Ke y Ky. destruct y as [l b]. injection Ke as <-. apply paid_ink_data in Ky.
      cbn [embedded_bulk ink_bulk in_strokes tret fst total] in *. unfold ink_bulk. cbn [in_strokes]. lia. }
    match goal with |- _ <= _ + (?q + (?r + 0)) => set (Q := q) in *; set (R := r) in * end. clearbody Q R.
    unfold flatten in *. cbn [flat_map]. destruct x; cbn [app total] in *; lia.
Qed.
Lemma style_fits o d : style_object o d -> styling_bulk (parse_style d) <= cost o.
Proof.
  intro N. unfold style_object in N. decompose [and] N. clear N. pose proof (bulk_parts o). unfold styling_bulk, parse_style, cost. cbn [ps_font ps_next_style ps_style_id].
  pose proof (optional_fits _ o 0x1C001C0A _ text_fits ltac:(eassumption)). pose proof (optional_fits _ o 0x1C00348A _ text_fits ltac:(eassumption)).
  pose proof (optional_fits _ o 0x1C00345A _ text_fits ltac:(eassumption)). lia.
Qed.
Lemma total_map {A B} (f : B -> nat) (g : A -> B) l : total f (map g l) = total (fun a => f (g a)) l.
Proof. induction l as [|a l IH]; [reflexivity|]. cbn [map total]. now rewrite IH. Qed.
Lemma paid_text id x : snd (parse_rich_text_t id sp) = Ok x -> text_bulk x <= total charge (fst (parse_rich_text_t id sp)).
Proof.
  unfold parse_rich_text_t. intro H. need H o. node H d. need H pso. node H psd. step H styles Kstyles. node H runs. node H math. node H objs. step H emb Kemb.
  cbv zeta in *. step H ts Kts. injection H as <-.
  apply text_ok in N. unfold text_object in N. decompose [and] N. clear N.
  assert (B : tags o (rt_note_tags d)) by assumption. apply tags_short in B. fold (sw o) in B.
  assert (C : paragraph_text o (rt_text d)) by assumption. apply paragraph_fits in C.
  assert (D : children o 0x24001E13 (rt_run_formatting d)) by assumption. apply children_short in D.
  pose proof (defaulted_fits _ o 0x1C001E12 _ dwords_fits ltac:(eassumption)) as F.
  apply style_ok, style_fits in N0. pose proof (map_t_length _ _ _ Kstyles) as L4.
  apply (paid_map charge (fun y => styling_bulk (parse_style y))) in Kstyles.
  2:{ intros a b Q. need Q so. cbn [tlift snd fst total] in *. apply style_ok, style_fits in Q. lia. }
  assert (Lm : length (flatten math) <= length (rt_run_formatting d)).
  { eapply Nat.le_trans; [apply flatten_short|]. apply map_res_ok, forall2_length in N2. rewrite <- N2, combine_length. lia. }
  assert (Lo : length (flatten objs) <= length (rt_run_formatting d)).
  { eapply Nat.le_trans; [apply flatten_short|]. apply map_res_ok, forall2_length in N3. rewrite <- N3, combine_length. lia. }
  apply paid_embedded in Kemb. apply paid_tags in Kts.
  unfold text_bulk. cbn [tx_text tx_run_formatting tx_run_indices tx_paragraph_style tx_note_tags tx_embedded_objects tx_math_objects tret fst total].
  rewrite total_map.
  assert (T : length (match flatten emb with [] => match rt_text d with Some t => t | None => [] end | _ => [] end) <= sw o).
  { destruct (flatten emb); [|cbn; lia]. destruct (rt_text d); cbn [length_of length] in *; lia. }
  lia.
Qed.

Section Element.
Variable e : exguid -> traced exguid outline_element.
Hypothesis F : forall a x, snd (e a) = Ok x -> element_bulk x <= total charge (fst (e a)).
Lemma paid_cell id c : snd (parse_cell_t e id sp) = Ok c -> cell_bulk c <= total charge (fst (parse_cell_t e id sp)).
Proof.
  unfold parse_cell_t. intro H. need H o. node H d. step H l Kl. injection H as <-. apply (paid_map charge element_bulk) in Kl; [|exact F].
  apply cell_ok in N. assert (A : required o 0x1C001C12 indents (ce_indent_distance d)) by apply N. apply (required_fits _ _ _ _ indents_fits) in A.
  cbn [cell_bulk tret fst total]. lia.
Qed.
Lemma paid_row id c : snd (parse_row_t e id sp) = Ok c -> row_bulk c <= total charge (fst (parse_row_t e id sp)).
Proof.
  unfold parse_row_t. intro H. need H o. node H d. step H l Kl. injection H as <-. apply (paid_map charge cell_bulk) in Kl; [|intros; now apply paid_cell].
  cbn [row_bulk tret fst total]. lia.
Qed.
Lemma paid_table id c : snd (parse_table_t e id sp) = Ok c -> table_bulk c <= total charge (fst (parse_table_t e id sp)).
Proof.
  unfold parse_table_t. intro H. need H o. node H d. step H l Kl. step H ts Kts. injection H as <-. apply (paid_map charge row_bulk) in Kl; [|intros; now apply paid_row].
  apply paid_tags in Kts. apply table_ok in N. unfold table_object in N. decompose [and] N. clear N.
  assert (B : tags o (ta_note_tags d)) by assumption. apply tags_short in B. fold (sw o) in B.
  pose proof (defaulted_fits _ o 0x1C001D7D _ flags_fits ltac:(eassumption)). pose proof (defaulted_fits _ o 0x1C001D66 _ widths_fits ltac:(eassumption)).
  cbn [table_bulk tret fst total]. lia.
Qed.
End Element.
Lemma paid_parts f :
  (forall id i, snd (parse_outline_item_t f sp id) = Ok i -> item_bulk i <= total charge (fst (parse_outline_item_t f sp id))) /\
  (forall id e, snd (parse_outline_element_t f sp id) = Ok e -> element_bulk e <= total charge (fst (parse_outline_element_t f sp id))) /\
  (forall id c, snd (parse_content_t f sp id) = Ok c -> content_bulk c <= total charge (fst (parse_content_t f sp id))).
Proof.
  induction f as [|f (IHi & IHe & IHc)]; [repeat split; discriminate|].
  refine (conj _ (conj _ _)); intros id x H; cbn [parse_outline_item_t parse_outline_element_t parse_content_t] in *.
  - need H o. node H k. destruct k; try discriminate H.
    + step H e Ke. injection H as <-. cbn [item_bulk tret fst total]. apply IHe in Ke. lia.
    + need H go. node H d. step H l Kl. injection H as <-. cbn [item_bulk tret fst total].
      apply (paid_map charge item_bulk) in Kl; [|exact IHi]. lia.
  - need H o. node H d. step H l Kl. step H c Kc. step H li Kli. injection H as <-. cbn [element_bulk tret fst total].
    apply (paid_map charge item_bulk) in Kl; [|exact IHi]. apply (paid_map charge content_bulk) in Kc; [|exact IHc].
    apply (paid_map charge list_bulk) in Kli; [|intros; now apply paid_list]. lia.
  - need H o. node H k. destruct k; try (injection H as <-; cbn [content_bulk tret fst total]; lia); step H y Ky; injection H as <-; cbn [content_bulk tret fst total];
    first [apply paid_text in Ky; lia|apply paid_image in Ky; lia|apply paid_ink in Ky; lia|apply (paid_table _ IHe) in Ky; lia|apply paid_file in Ky; lia].
Qed.
Lemma paid_outline f id x : snd (parse_outline_t f sp id) = Ok x -> outline_bulk x <= total charge (fst (parse_outline_t f sp id)).
Proof.
  unfold parse_outline_t. intro H. need H o. node H d. step H l Kl. injection H as <-. unfold outline_bulk. cbn [ol_items ol_indents tret fst total].
  apply (paid_map charge item_bulk) in Kl; [|exact (proj1 (paid_parts f))]. apply outline_ok in N.
  assert (A : required o 0x1C001C12 indents (ou_indent_distance d)) by apply N. apply (required_fits _ _ _ _ indents_fits) in A. lia.
Qed.
Lemma paid_page_content f id x : snd (parse_page_content_t f sp id) = Ok x -> page_content_bulk x <= total charge (fst (parse_page_content_t f sp id)).
Proof.
  unfold parse_page_content_t. intro H. need H o. node H k.
  destruct k; try (injection H as <-; cbn [page_content_bulk tret fst total]; lia); step H y Ky; injection H as <-; cbn [page_content_bulk tret fst total];
  first [apply paid_image in Ky; lia|apply paid_file in Ky; lia|apply paid_outline in Ky; lia|apply paid_ink in Ky; lia].
Qed.
Lemma paid_title f id x : snd (parse_title_t f sp id) = Ok x -> title_bulk x <= total charge (fst (parse_title_t f sp id)).
Proof.
  unfold parse_title_t. intro H. need H o. node H d. step H l Kl. injection H as <-. unfold title_bulk. cbn [ti_contents tret fst total].
  apply (paid_map charge outline_bulk) in Kl; [|intros; now apply paid_outline]. lia.
Qed.
Lemma paid_page f p : snd (parse_page_t f sp) = Ok p -> page_bulk p <= total charge (fst (parse_page_t f sp)).
Proof.
  unfold parse_page_t. intro H. step H m Km. step H pid Kpid. step H d Kd. step H t Kt. step H c Kc. injection H as <-. unfold page_bulk. cbn [pg_title pg_author pg_contents tret fst total].
  assert (A : 1 + length_of (pd_author d) <= total charge (fst (page_node_t pid sp))).
  { unfold page_node_t in *. need Kd o. cbn [tlift snd fst total] in *. apply page_ok in Kd. assert (A : optional o 0x1C001D75 text (pd_author d)) by apply Kd.
    apply (optional_fits _ _ _ _ text_fits) in A. lia. }
  assert (E : match t with Some t => title_bulk t | None => 0 end <= total charge (fst (opt_map_t (parse_title_t f sp) (pd_title d)))).
  { destruct (pd_title d) as [ti|]; cbn [opt_map_t] in *; [|injection Kt as <-; cbn; lia]. step Kt y Ky. injection Kt as <-. apply paid_title in Ky. cbn [tret fst total]. lia. }
  apply (paid_map charge page_content_bulk) in Kc; [|intros; now apply paid_page_content]. lia.
Qed.
End Space.

(** ** The section *)
Definition dear (st : store) (l : look) : nat := 8 * brings st l.
Lemma total_times {A} k (f : A -> nat) l : total (fun a => k * f a) l = k * total f l.
Proof. induction l as [|a l IH]; cbn [total]; [lia|]. rewrite IH. lia. Qed.
Lemma total_same {A} (f g : A -> nat) l : (forall a, f a = g a) -> total f l = total g l.
Proof. intro E. induction l as [|a l IH]; cbn [total]; [reflexivity|]. now rewrite E, IH. Qed.
Lemma dear_root st id : dear st (InRoot id) = charge (st_data_root st) id.
Proof. unfold dear, brings, charge, got, cost. destruct (get_object _ _); lia. Qed.
Lemma dear_space st cell sp id : object_space st cell = Some sp -> dear st (InSpace cell id) = charge sp id.
Proof. unfold dear, brings, object_at, charge, got, cost. intros ->. destruct (get_object _ _); lia. Qed.
Lemma trim_short s : length (trim_one s) <= length s.
Proof.
  unfold trim_one. destruct (DocProofs4.strip_one_spec (length (rev s)) (rev s) (le_n _)) as ((k & E) & _). rewrite rev_involutive in E.
  rewrite E at 2. rewrite app_length. lia.
Qed.
Lemma paid_section f st file s : snd (parse_section_t f st file) = Ok s ->
  section_bulk s <= length file + 8 * total (brings st) (fst (parse_section_t f st file)).
Proof.
  rewrite <- total_times. change (fun a => 8 * brings st a) with (dear st). unfold parse_section_t. intro H.
  apply (paid_bind (dear st)) in H as (m & Hm & H & ->). apply (paid_bind (dear st)) in H as (c & Hc & H & ->). cbv zeta in *.
  apply (paid_bind (dear st)) in H as (l & Hl & H & ->). injection H as <-. cbn [at_ fst snd tret total] in *.
  rewrite !total_map. rewrite !(total_same (fun a => dear st (InRoot a)) (charge (st_data_root st))) by apply dear_root.
  assert (A : length_of (sm_display_name m) <= total (charge (st_data_root st)) (fst (section_metadata_t (st_data_root st)))).
  { unfold section_metadata_t in *. apply (paid_bind (charge (st_data_root st))) in Hm as (id & _ & Hm & ->). cbn [tlift fst total].
    apply (paid_bind (charge (st_data_root st))) in Hm as (o & E & Hm & ->). apply need_paid in E as (_ & ->). cbn [tlift snd fst total] in *.
    apply section_meta_ok in Hm. assert (A : optional o 0x1C00349B text (sm_display_name m)) by apply Hm. apply (optional_fits _ _ _ _ text_fits) in A.
    pose proof (bulk_parts o). unfold cost. lia. }
  assert (B : 1 <= total (charge (st_data_root st)) (fst (section_content_t (st_data_root st)))).
  { unfold section_content_t in *. apply (paid_bind (charge (st_data_root st))) in Hc as (id & _ & Hc & ->). cbn [tlift fst total].
    apply (paid_bind (charge (st_data_root st))) in Hc as (o & E & Hc & ->). apply need_paid in E as (_ & ->). pose proof (bulk_parts o). unfold cost. lia. }
  apply (paid_map (dear st) (fun ps => 1 + total page_bulk ps)) in Hl.
  - unfold section_bulk. cbn [se_display_name se_page_series].
    pose proof (trim_short (match sm_display_name m with Some n => n | None => file end)).
    destruct (sm_display_name m); cbn [length_of] in *; lia.
  - clear. intros id ps H. unfold parse_page_series_t in *. apply (paid_bind (dear st)) in H as (o & Ho & H & ->). apply (paid_bind (dear st)) in H as (d & _ & H & ->).
    cbn [at_ need_object_t fst snd map total] in *. rewrite dear_root. unfold charge. apply need_ok in Ho. rewrite Ho. cbn [got]. pose proof (bulk_parts o). unfold cost.
    apply (paid_map (dear st) page_bulk) in H; [cbn [tlift fst total]; lia|]. clear. intros cell p H. apply (paid_bind (dear st)) in H as (sp & E & H & ->).
    cbn [snd fst total at_] in *. destruct (object_space st cell) as [sp'|] eqn:Es; [|discriminate]. cbn in E. injection E as <-.
    apply paid_page in H. rewrite total_map, (total_same (fun a => dear st (InSpace cell a)) (charge sp')); [lia|]. intro. now apply dear_space.
Qed.

Lemma total_bound {A} (f : A -> nat) k l : (forall a, f a <= k) -> total f l <= length l * k.
Proof. intro B. induction l as [|a l IH]; cbn [total length]; [lia|]. specialize (B a). lia. Qed.
Lemma brings_bound h f d st l : open_store h f d = Ok st -> brings st l <= length d.
Proof.
  intro E. assert (S : forall sp id o, space_of st sp -> get_object sp id = Some o -> object_bulk o <= length d).
  { intros sp id o I G. destruct (open_light h f d st E sp I) as (L & L'). pose proof (wt_space _ _ _ G) as W. unfold wt in W. unfold object_bulk.
    unfold get_object in G. apply (alookup_in exguid_eqb PackageRT.exguid_eqb_eq) in G. destruct (ob_file o) as [b|] eqn:F; cbn [length_of]; [|lia].
    specialize (L' _ _ _ G F). lia. }
  unfold brings. destruct l as [id|cell|cell id].
  - destruct (get_object _ id) as [o|] eqn:G; [|lia]. eapply S; [left; reflexivity|exact G].
  - lia.
  - unfold object_at. destruct (object_space st cell) as [sp|] eqn:O; [|lia]. destruct (get_object sp id) as [o|] eqn:G; [|lia].
    eapply S; [|exact G]. right. exists cell. unfold object_space in O. now apply (alookup_in cellid_eqb PackageRT.cellid_eqb_eq) in O.
Qed.
Lemma section_fifth h f d file s : (forall st cell sp, open_store h f d = Ok st -> object_space st cell = Some sp -> tree sp) ->
  parse_section_buffer h f d file = Ok s -> section_bulk s <= length file + 16 * (length d + 2) ^ 5.
Proof.
  intros T H. unfold parse_section_buffer in H. apply bind_ok in H as (st & E & H). destruct (_ =? _)%N; [|discriminate].
  rewrite <- same_section in H. apply paid_section in H. pose proof (looks_bound h f d st file E (fun cell sp => T st cell sp E) f) as L.
  pose proof (total_bound (brings st) (length d) (fst (parse_section_t f st file)) (fun l => brings_bound h f d st l E)) as B.
  set (q := length (fst _)) in *. clearbody q. set (n := length d) in *. clearbody n.
  assert (q * n <= 2 * (n + 2) ^ 4 * (n + 2)) by (apply Nat.mul_le_mono; lia).
  change ((n + 2) ^ 5) with ((n + 2) * (n + 2) ^ 4). lia.
Qed.
