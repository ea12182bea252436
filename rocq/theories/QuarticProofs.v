(** A short file, whose spaces are trees, with a document of very many strokes: the section
    lists a series [k] times, the series a page [k] times, the page has [k] drawings, and
    these share the data of a drawing, which lists a stroke of [k] points [k] times. *)
From Coq Require Import Lia ZifyBool ZifyNat ZifyN Relations.
From Verif Require Import Base BaseProofs Codec SpecCodec CodecProofs CodecRT2 CodecRT3 Package PropSet PropIds SpecPropSet Store Shapes Props Nodes Doc Notebook SpecRefs SpecStore SpecValues SpecNodes SpecDoc
  SpecNotebook SpecValid SpecFile DescProofs DescProofs2 DescProofs3 EncodeProofs WriteNodes WriteProofs WriteProofs2 WriteProofs3 DocProofs4 NotebookProofs2 FileProofs
  ExampleFile AuthorProofs WriteProofs4 DoubleNodes CrowdProofs DoubleProofs QuarticNodes.
From Verif Require Import SpecPackage SpecSize SizeProofs Looks SpecLooks.
Local Open Scope N_scope.

(** ** Values *)
Definition zeros (k : nat) : list Z := repeat 0%Z (2 * k).
Definition path_bytes (k : nat) : list N := mb_stream (map sign_magnitude (zeros k)).
Definition v_path (k : nat) : option sval := Some (SVec (path_bytes k)).
Lemma zeros_concat n : concat (map mb_enc (map sign_magnitude (repeat 0%Z n))) = repeat 0 n.
Proof. induction n as [|n IH]; [reflexivity|]. cbn [repeat map concat]. rewrite IH. reflexivity. Qed.
Lemma path_length k : (length (path_bytes k) <= 2 * k + 10)%nat.
Proof.
  unfold path_bytes, mb_stream, zeros. rewrite zeros_concat, app_length, repeat_length. pose proof (mb_enc_length (2 * N.of_nat (length (map sign_magnitude (repeat 0%Z (2 * k)))))). lia.
Qed.
Lemma is_path k : N.of_nat k < 2 ^ 22 -> writes (req_rel path (zeros k)) (v_path k).
Proof.
  intro B. apply writes_req.
  - apply vg_small. split; [|pose proof (path_length k); lia]. unfold path_bytes, mb_stream, zeros. rewrite zeros_concat. apply Forall_app. split; [apply mb_enc_ok|].
    apply Forall_forall. intros x I. apply repeat_spec in I. now subst.
  - intros v V. inversion V; subst. eexists. split; [reflexivity|]. rewrite <- (app_nil_r (path_bytes k)). apply decode_signed_roundtrip.
    + apply Forall_forall. intros z I. apply repeat_spec in I. subst. lia.
    + unfold zeros. rewrite repeat_length. lia.
Qed.
Definition v_dims : option sval := Some (SVec ((guid_enc (id_id dimension_x) ++ repeat 0 16) ++ (guid_enc (id_id dimension_y) ++ repeat 0 16) ++ [])).
Lemma is_bias : writes (req_rel (SpecNodes.entry VU8 bias_table) IbHandwriting) v_byte.
Proof. apply writes_req; [leaf_of; reflexivity|]. intros v V. inversion V. exists 0. split; [reflexivity|now left]. Qed.
Lemma is_float : writes (req_rel float 0) v_dword.
Proof. apply writes_req; [leaf_of; reflexivity|]. intros v V. inversion V. reflexivity. Qed.
Lemma is_dims : writes (def_rel dimension_table [] [dimension_x; dimension_y]) v_dims.
Proof.
  set (e := fun g => guid_enc g ++ repeat 0 16).
  assert (L : forall g, length (e g) = 32%nat) by (intro g; unfold e; rewrite app_length, guid_enc_length, repeat_length; reflexivity).
  assert (B : forall g, bytes_ok (e g)) by (intro g; unfold e; apply Forall_app; split; [apply guid_enc_ok|repeat constructor]).
  assert (Z : signed (VU32 (le (repeat 0 4))) 0%Z) by (exists 0; split; reflexivity).
  assert (P : forall g r xs, g < 2 ^ 128 -> dimensions r xs -> dimensions (e g ++ r) (InkDimension g 0 0 :: xs)).
  { intros g r xs Hg D. apply di_more with (lo := repeat 0 4) (hi := repeat 0 4) (t := repeat 0 8); [apply L|exact (guid_roundtrip g (repeat 0 16) Hg)|reflexivity|reflexivity|exact Z|exact Z|exact D]. }
  unfold v_dims. change (guid_enc (id_id dimension_x) ++ repeat 0 16) with (e (id_id dimension_x)). change (guid_enc (id_id dimension_y) ++ repeat 0 16) with (e (id_id dimension_y)).
  split.
  - apply vg_small. split; [apply Forall_app; split; [apply B|apply Forall_app; split; [apply B|constructor]]|]. rewrite !app_length, !L. reflexivity.
  - intros v V. inversion V; subst. eexists. split; [reflexivity|]. apply P; [reflexivity|]. apply P; [reflexivity|]. apply di_end. cbn. lia.
Qed.

(** ** Objects *)
Definition a_ink (id data : exguid) : aobject :=
  AObject id 0x00060014 [(0x14001C14, fv None); (0x14001C15, fv None); (0x14001D7A, fv None); (0x20003415, fref (Some data)); (0x14001C46, fv None)] None None.
Definition a_data (id : exguid) (l : list exguid) : aobject := AObject id 0x0002003B [(0x24003416, frefs l); (0x1C003418, fv None)] None None.
Definition a_stroke (k : nat) (id props : exguid) : aobject :=
  AObject id 0x00020047 [(0x1C00340B, fv (v_path k)); (0x0C00341C, fv v_byte); (0x14001C3B, fv None); (0x20003409, fref (Some props))] None None.
Definition a_props (id : exguid) : aobject :=
  AObject id 0x00120048 [(0x8000340E, fv None); (0x80003410, fv None); (0x08003411, fv None); (0x0C003412, fv None); (0x0C003413, fv None); (0x0C003414, fv None);
    (0x1400340D, fv v_dword); (0x1400340C, fv v_dword); (0x1400340F, fv None); (0x1C00340A, fv v_dims)] None None.
Definition d_ink (data : exguid) : ink_container_data := InkContainerData None None None (Some data) None None.
Definition d_data (l : list exguid) : ink_data := InkData l None.
Definition d_stroke (k : nat) (props : exguid) : ink_stroke_data := InkStrokeData (zeros k) IbHandwriting None props.
Definition d_props : stroke_props := StrokeProps false false false None None None 0 0 None [dimension_x; dimension_y].

Lemma g_ink cell id data : id_fits id -> id_fits data -> as_written cell (a_ink id data) (fun o => ink_container o (d_ink data)).
Proof. intros Hi Hd. apply (as_ink_container cell id (d_ink data)); [exact Hi|slots|slots|slots|exact Hd|slots|reflexivity]. Qed.
Lemma g_data cell id l : id_fits id -> ids_ok l -> as_written cell (a_data id l) (fun o => ink_node o (d_data l)).
Proof. intros Hi Hl. apply (as_ink_node cell id (d_data l)); [exact Hi|exact Hl|reflexivity|exact eq_refl]. Qed.
Lemma g_stroke k cell id props : N.of_nat k < 2 ^ 22 -> id_fits id -> id_fits props -> as_written cell (a_stroke k id props) (fun o => stroke_node o (d_stroke k props)).
Proof. intros B Hi Hp. apply (as_stroke cell id (d_stroke k props)); [exact Hi|exact (is_path k B)|exact is_bias|slots|exact Hp]. Qed.
Lemma g_props cell id : id_fits id -> as_written cell (a_props id) (fun o => stroke_properties o d_props).
Proof. intros Hi. apply (as_stroke_properties cell id d_props); [exact Hi|slots|slots|slots|slots|slots|slots|exact is_float|exact is_float|slots|exact is_dims]. Qed.

(** ** The spaces *)
Definition inks (k : nat) : list exguid := map oid (seq 0 k).
Definition q_page_os (k : nat) : list aobject :=
  map (fun j => a_ink (oid j) (oid k)) (seq 0 k) ++
  [a_data (oid k) (repeat (oid (k + 1)) k); a_stroke k (oid (k + 1)) (oid (k + 2)); a_props (oid (k + 2)); a_page (oid (k + 3)) (inks k);
   a_meta (oid (k + 4)); a_manifest (oid (k + 5)) (oid (k + 3))].
Definition q_root_os (k : nat) : list aobject := [a_name (oid 0); a_series (oid 1) (repeat (pcell 1) k); a_section (oid 2) (repeat (oid 1) k)].
Definition q_page_desc (k : nat) : space_desc := space_of (oid (k + 4), oid (k + 5)) (q_page_os k).
Definition q_root_desc (k : nat) : space_desc := space_of (oid 0, oid 2) (q_root_os k).
Definition q_store (k : nat) : store_desc := StoreDesc section_schema_ 0 0 None 0 (pcell 0) (q_root_desc k) [(pcell 1, q_page_desc k)].

Definition q_point : ink_point := InkPoint (times (factor None) (rounded 0)) (times (factor None) (rounded 0)).
Definition q_stroke (k : nat) : ink_stroke := InkStroke (repeat q_point k) None None 0 0 None.
Definition q_ink (k : nat) : ink := Ink (repeat (q_stroke k) k) None None None.
Definition q_page (k : nat) : page := Page None 0 None None (repeat (PcInk (q_ink k)) k).
Definition q_section (k : nat) : section := Section_ [120] (repeat (repeat (q_page k) k) k) None.

Lemma q_page_length k : length (q_page_os k) = (k + 6)%nat.
Proof. unfold q_page_os. rewrite app_length, map_length, seq_length. cbn. lia. Qed.
Lemma q_page_ids k : map ao_id (q_page_os k) = map oid (seq 0 (length (q_page_os k))).
Proof.
  rewrite q_page_length, seq_app, map_app. unfold q_page_os. rewrite map_app. f_equal; [rewrite map_map; reflexivity|].
  change (seq (0 + k) 6) with [k; S k; S (S k); S (S (S k)); S (S (S (S k))); S (S (S (S (S k))))].
  cbn [map ao_id a_data a_stroke a_props a_page a_meta a_manifest]. repeat f_equal; lia.
Qed.
Lemma forall_repeat {A} (P : A -> Prop) x n : P x -> Forall P (repeat x n).
Proof. intro H. apply Forall_forall. intros y I. apply repeat_spec in I. now subst. Qed.
Lemma forall2_repeat {A B} (R : A -> B -> Prop) x y n : R x y -> Forall2 R (repeat x n) (repeat y n).
Proof. intro H. induction n; cbn; constructor; auto. Qed.

Section Quartic.
  Variable k : nat.
  Hypothesis bound : N.of_nat k < 2 ^ 22.
  Lemma ink_at j : (j < k)%nat -> as_written (pcell 1) (a_ink (oid j) (oid k)) (fun o => ink_container o (d_ink (oid k))).
  Proof. intro L. apply g_ink; apply oid_fits; lia. Qed.
  Lemma data_at : as_written (pcell 1) (a_data (oid k) (repeat (oid (k + 1)) k)) (fun o => ink_node o (d_data (repeat (oid (k + 1)) k))).
  Proof. apply g_data; [apply oid_fits; lia|]. split; [apply forall_repeat, oid_fits; lia|rewrite repeat_length; lia]. Qed.
  Lemma stroke_at : as_written (pcell 1) (a_stroke k (oid (k + 1)) (oid (k + 2))) (fun o => stroke_node o (d_stroke k (oid (k + 2)))).
  Proof. apply g_stroke; [exact bound|apply oid_fits; lia..]. Qed.
  Lemma props_at : as_written (pcell 1) (a_props (oid (k + 2))) (fun o => stroke_properties o d_props).
  Proof. apply g_props, oid_fits. lia. Qed.
  Lemma page_at : as_written (pcell 1) (a_page (oid (k + 3)) (inks k)) (fun o => page_object o (d_page (inks k))).
  Proof.
    apply g_page; [apply oid_fits; lia|]. split; [|unfold inks; rewrite map_length, seq_length; lia].
    apply Forall_map, Forall_forall. intros j I. apply in_seq in I. apply oid_fits. lia.
  Qed.
  Lemma meta_at : as_written (pcell 1) (a_meta (oid (k + 4))) (fun o => page_meta o d_meta).
  Proof. apply g_meta, oid_fits. lia. Qed.
  Lemma manifest_at : as_written (pcell 1) (a_manifest (oid (k + 5)) (oid (k + 3))) (fun o => manifest_node o (oid (k + 3))).
  Proof. apply g_manifest; apply oid_fits; lia. Qed.
  Lemma name_at : as_written (pcell 0) (a_name (oid 0)) (fun o => section_meta o d_name).
  Proof. apply g_name, oid_fits. reflexivity. Qed.
  Lemma series_at : as_written (pcell 0) (a_series (oid 1) (repeat (pcell 1) k)) (fun o => series_node o (d_series (repeat (pcell 1) k))).
  Proof.
    apply g_series; [apply oid_fits; reflexivity|]. refine (conj _ (conj _ _)); [|apply forall_repeat; reflexivity|rewrite repeat_length; exact bound].
    apply forall_repeat. now apply pcell_fits.
  Qed.
  Lemma section_at : as_written (pcell 0) (a_section (oid 2) (repeat (oid 1) k)) (fun o => section_node o (d_section (repeat (oid 1) k))).
  Proof. apply g_section; [apply oid_fits; reflexivity|]. split; [apply forall_repeat, oid_fits; reflexivity|rewrite repeat_length; exact bound]. Qed.

  Lemma q_page_good : Forall ao_good (q_page_os k).
  Proof.
    unfold q_page_os. apply Forall_app. split.
    - apply Forall_map, Forall_forall. intros j I. apply in_seq in I. exact (proj1 (ink_at j ltac:(lia))).
    - repeat (apply Forall_cons; [first [exact (proj1 data_at)|exact (proj1 stroke_at)|exact (proj1 props_at)|exact (proj1 page_at)|exact (proj1 meta_at)|exact (proj1 manifest_at)]|]). constructor.
  Qed.
  Lemma q_root_good : Forall ao_good (q_root_os k).
  Proof. repeat (apply Forall_cons; [first [exact (proj1 name_at)|exact (proj1 series_at)|exact (proj1 section_at)]|]). constructor. Qed.

  Lemma q_fits : store_fits (q_store k) /\ store_in_range (q_store k).
  Proof.
    destruct (space_of_good (oid (k + 4), oid (k + 5)) (q_page_os k) 0 (q_page_ids k) q_page_good) as (F1 & R1); [rewrite q_page_length; lia|apply oid_fits; lia..|].
    destruct (space_of_good (oid 0, oid 2) (q_root_os k) 0 eq_refl q_root_good) as (F2 & R2); [reflexivity|apply oid_fits; reflexivity..|].
    split.
    - refine (conj F2 (conj _ _)); cbn [q_store td_cell td_spaces map fst].
      + apply NoDup_cons; [|apply NoDup_cons; [intros []|apply NoDup_nil]]. intros [H|[]]. apply pcell_inj in H. discriminate H.
      + constructor; [exact F1|constructor].
    - refine (conj eq_refl (conj eq_refl (conj eq_refl (conj I (conj eq_refl (conj _ (conj R2 (conj _ eq_refl)))))))).
      + now apply pcell_fits.
      + constructor; [split; [now apply pcell_fits|exact R1]|constructor].
  Qed.

  Section Space.
    Variable sp : space.
    Hypothesis S : space_is (pcell 1) (q_page_desc k) sp.
    Lemma q_found a Q : as_written (pcell 1) a Q -> In a (q_page_os k) -> found sp (ao_id a) Q.
    Proof. intros (_ & H) I. destruct (space_of_present _ _ _ _ S) as (P & _). destruct (P a I) as (o & Eo & Ho). exists o. split; [exact Eo|now apply H]. Qed.
    Ltac there := unfold q_page_os; apply in_or_app; right; cbn; tauto.
    Lemma q_strokes : stroke_is sp None None (oid (k + 1)) (q_stroke k).
    Proof.
      destruct (q_found _ _ stroke_at ltac:(there)) as (o & Eo & Ho). exists o. split; [exact Eo|]. eexists. split; [exact Ho|].
      destruct (q_found _ _ props_at ltac:(there)) as (po & Ep & Hp). exists po. split; [exact Ep|]. eexists. split; [exact Hp|].
      refine (conj _ (conj eq_refl (conj eq_refl (conj eq_refl (conj eq_refl eq_refl))))).
      exists 0%nat, 1%nat. cbn zeta.
      assert (Lz : (length (ss_path (d_stroke k (oid (k + 2)))) / length (sp_dimensions d_props))%nat = k).
      { cbn [d_stroke ss_path d_props sp_dimensions length]. unfold zeros. rewrite repeat_length, Nat.mul_comm. apply Nat.div_mul. discriminate. }
      rewrite Lz. refine (conj _ (conj _ (conj _ _))).
      - split; [eexists; split; reflexivity|]. intros j d L. lia.
      - split; [eexists; split; reflexivity|]. intros j d L. destruct j; [|lia]. cbn. intro E. injection E as <-. discriminate.
      - cbn [q_stroke st_path]. apply repeat_length.
      - intros i p E. assert (Li : (i < k)%nat).
        { assert (X : nth_error (st_path (q_stroke k)) i <> None) by congruence. apply nth_error_Some in X. cbn [q_stroke st_path] in X. now rewrite repeat_length in X. }
        apply nth_error_In in E. cbn [q_stroke st_path] in E. apply repeat_spec in E. subst p. exists 0%Z, 0%Z.
        assert (Z0 : forall j, (j < 2 * k)%nat -> nth_error (ss_path (d_stroke k (oid (k + 2)))) j = Some 0%Z).
        { intros j Lj. cbn [d_stroke ss_path]. unfold zeros. destruct (nth_error (repeat 0%Z (2 * k)) j) as [z|] eqn:Ez.
          - apply nth_error_In, repeat_spec in Ez. now subst.
          - apply nth_error_None in Ez. rewrite repeat_length in Ez. lia. }
        refine (conj _ (conj _ (conj eq_refl eq_refl))); apply Z0; lia.
    Qed.
    Lemma q_inks j : (j < k)%nat -> page_content_is sp (oid j) (PcInk (q_ink k)).
    Proof.
      intro L. apply pc_ink. destruct (q_found _ _ (ink_at j L)) as (o & Eo & Ho).
      { unfold q_page_os. apply in_or_app. left. apply (in_map (fun j => a_ink (oid j) (oid k))), in_seq. lia. }
      exists o. split; [exact Eo|]. eexists. split; [exact Ho|]. refine (conj eq_refl (conj eq_refl _)). cbn [d_ink ic_ink_data].
      destruct (q_found _ _ data_at ltac:(there)) as (o' & Eo' & Ho'). exists o'. split; [exact Eo'|]. eexists. split; [exact Ho'|].
      split; [|exact I]. apply forall2_repeat. exact q_strokes.
    Qed.
    Lemma q_page_is : page_is sp (q_page k).
    Proof.
      destruct (space_of_present _ _ _ _ S) as (_ & M & C). cbn [fst snd] in M, C.
      pose proof (q_found _ _ page_at ltac:(there)) as Fp. pose proof (q_found _ _ meta_at ltac:(there)) as Fm. pose proof (q_found _ _ manifest_at ltac:(there)) as Fc.
      cbn [ao_id a_page a_meta a_manifest] in Fp, Fm, Fc.
      exists (oid (k + 4)), d_meta, (oid (k + 5)), (oid (k + 3)), (d_page (inks k)).
      refine (conj M (conj Fm (conj C (conj Fc (conj Fp (conj eq_refl (conj eq_refl (conj eq_refl (conj _ _))))))))); [constructor|].
      cbn [d_page pd_content q_page pg_contents]. unfold inks.
      assert (G : forall n m, (m + n <= k)%nat -> Forall2 (page_content_is sp) (map oid (seq m n)) (repeat (PcInk (q_ink k)) n)).
      { induction n as [|n IH]; intros m L; cbn [seq map repeat]; constructor; [apply q_inks; lia|apply IH; lia]. }
      apply G. lia.
    Qed.
    (** Only the page lists anything. *)
    Lemma q_lists a l : lists sp a l -> a = oid (k + 3) /\ l = inks k.
    Proof.
      intros H. pose proof H as (o & Eo & Ho).
      assert (P : lists sp (oid (k + 3)) (inks k)).
      { destruct (q_found _ _ page_at ltac:(there)) as (po & Ep & Hp). exists po. split; [exact Ep|]. left. eexists. split; [exact Hp|reflexivity]. }
      enough (E : a = oid (k + 3)) by (subst a; split; [reflexivity|]; apply lists_kids in H, P; congruence).
      destruct S as (_ & _ & _ & _ & O). pose proof (O _ _ Eo) as I. cbn [q_page_desc space_of sd_objects] in I. rewrite map_map in I.
      apply in_map_iff in I as (x & Ex & I). cbn [describe od_id] in Ex. subst a.
      destruct (space_of_present _ _ _ _ S) as (Pr & _). destruct (Pr x I) as (o' & Eo' & (_ & K & _)). rewrite Eo in Eo'. injection Eo' as <-.
      assert (D : ob_jcid o = 0x0006000B \/ ob_jcid o = 0x0006002C \/ ob_jcid o = 0x0006000C \/ ob_jcid o = 0x00060019 \/ ob_jcid o = 0x0006000D \/ ob_jcid o = 0x00060022 \/
                  ob_jcid o = 0x00060023 \/ ob_jcid o = 0x00060024).
      { destruct Ho as [(d & (J & _) & _)|[(d & (J & _) & _)|[(d & (J & _) & _)|[(d & (J & _) & _)|[(d & (J & _) & _)|[(d & (J & _) & _)|[(d & (J & _) & _)|(d & (J & _) & _)]]]]]]]; tauto. }
      rewrite K in D. clear - I D. unfold q_page_os in I. apply in_app_or in I as [I|I].
      - apply in_map_iff in I as (j & <- & _). exfalso. cbn in D. intuition discriminate.
      - repeat (destruct I as [<-|I]; [first [reflexivity|exfalso; cbn in D; intuition discriminate]|]). destruct I.
    Qed.
    Lemma q_tree : tree sp.
    Proof.
      split.
      - intros a b la lb i j x La Lb X Y. apply q_lists in La as (-> & ->). apply q_lists in Lb as (-> & ->). split; [reflexivity|].
        eapply (proj1 (NoDup_nth_error (inks k))); [|apply nth_error_Some; rewrite X; discriminate|congruence].
        apply FinFun.Injective_map_NoDup; [intros c d; apply oid_inj|apply seq_NoDup].
      - assert (Q : forall a b, clos_trans _ (listed sp) a b -> a = oid (k + 3) /\ In b (inks k)).
        { induction 1 as [a b (l & H & I)|a b c _ (-> & _) _ (_ & IH)]; [|auto]. apply q_lists in H as (-> & ->). auto. }
        intros a H. apply Q in H as (-> & H). apply in_map_iff in H as (j & E & I). apply in_seq in I. apply oid_inj in E. lia.
    Qed.
  End Space.

  Lemma q_section_is st file : store_is (q_store k) st -> section_is st file (q_section k).
  Proof.
    intros (_ & _ & S1 & S2 & _). cbn [q_store td_cell td_root td_spaces] in *. destruct (space_of_present _ _ _ _ S1) as (P & M & C). cbn [fst snd] in M, C.
    assert (F : forall a Q, as_written (pcell 0) a Q -> In a (q_root_os k) -> found (st_data_root st) (ao_id a) Q).
    { intros a Q (_ & H) I. destruct (P a I) as (o & Eo & Ho). exists o. split; [exact Eo|now apply H]. }
    pose proof (F _ _ name_at ltac:(cbn; auto)) as Fn. pose proof (F _ _ series_at ltac:(cbn; auto)) as Fs. pose proof (F _ _ section_at ltac:(cbn; auto)) as Fc.
    cbn [ao_id a_name a_series a_section] in Fn, Fs, Fc.
    exists (oid 0), d_name, (oid 2), (d_section (repeat (oid 1) k)). refine (conj M (conj Fn (conj C (conj Fc (conj _ (conj eq_refl _)))))).
    - split; [exists 0%nat; reflexivity|]. intros [|a [|b p]]; discriminate.
    - apply forall2_repeat. destruct Fs as (o & Eo & Ho). exists o. split; [exact Eo|]. eexists. split; [exact Ho|].
      apply forall2_repeat. destruct (S2 (pcell 1) (q_page_desc k) (or_introl eq_refl)) as (sp & Es & Hs). exists sp. split; [exact Es|now apply q_page_is].
  Qed.
End Quartic.

(** ** The file *)
Local Open Scope nat_scope.
Lemma object_bytes_le a b : Forall (fun p => length (w_val (ap_val (snd p))) <= b) (ao_props a) ->
  object_bytes (describe a, w_oset (ao_set a)) <= 235 + 25 * length (refs_of (ao_props a)) + 46 * length (cells_of (ao_props a)) + (4 + b) * length (ao_props a).
Proof.
  intro F. unfold object_bytes. cbn [fst snd describe od_refs od_cells].
  assert (L : (N.of_nat (length (w_props w_val (os_props (ao_set a)))) <= 2 + (4 + N.of_nat b) * N.of_nat (length (ao_props a)))%N).
  { etransitivity; [apply (w_props_length _ (N.of_nat b))|cbn [ao_set os_props]; rewrite map_length; reflexivity]. cbn [ao_set os_props]. apply Forall_map.
    eapply Forall_impl; [|exact F]. cbn. intros. lia. }
  unfold w_oset. rewrite app_length. unfold ao_set in *. cbn [os_objects os_spaces os_props] in *.
  destruct (cells_of (ao_props a)) eqn:E; rewrite <- ?E in *.
  - rewrite w_ids_length, cids_length. nia.
  - rewrite app_length, !w_ids_length, !cids_length. nia.
Qed.
Lemma data_bytes id l : object_bytes (describe (a_data id l), w_oset (ao_set (a_data id l))) <= 243 + 25 * length l.
Proof.
  etransitivity; [apply (object_bytes_le _ 4)|].
  - repeat constructor.
  - cbn [ao_props a_data given ao_fields flat_map snd fst frefs fv option_map app given_last ao_last refs_of cells_of ap_refs ap_cells length]. rewrite app_nil_r. lia.
Qed.
Lemma page_bytes id l : object_bytes (describe (a_page id l), w_oset (ao_set (a_page id l))) <= 251 + 25 * length l.
Proof.
  etransitivity; [apply (object_bytes_le _ 4)|].
  - repeat constructor.
  - cbn [ao_props a_page given ao_fields flat_map snd fst frefs fv option_map app given_last ao_last refs_of cells_of ap_refs ap_cells length]. rewrite !app_nil_r. lia.
Qed.
Lemma section_bytes id l : object_bytes (describe (a_section id l), w_oset (ao_set (a_section id l))) <= 307 + 25 * length l.
Proof.
  etransitivity; [apply (object_bytes_le _ 20)|].
  - repeat constructor; cbn; lia.
  - cbn [ao_props a_section given ao_fields flat_map snd fst frefs fv option_map app given_last ao_last refs_of cells_of ap_refs ap_cells length v_uuid v_qword]. rewrite !app_nil_r. lia.
Qed.
Lemma series_bytes id l : object_bytes (describe (a_series id l), w_oset (ao_set (a_series id l))) <= 307 + 46 * length l.
Proof.
  etransitivity; [apply (object_bytes_le _ 20)|].
  - repeat constructor; cbn; lia.
  - cbn [ao_props a_series given ao_fields flat_map snd fst frefs fspaces fv option_map app given_last ao_last refs_of cells_of ap_refs ap_cells length v_uuid]. rewrite !app_nil_r. lia.
Qed.

Lemma stroke_bytes k id props : object_bytes (describe (a_stroke k id props), w_oset (ao_set (a_stroke k id props))) <= 340 + 2 * k.
Proof.
  pose proof (path_length k) as P. unfold a_stroke, v_path. set (q := path_bytes k) in *. clearbody q. unfold object_bytes. cbn -[Nat.mul]. rewrite ?app_length. cbn -[Nat.mul]. lia.
Qed.

Definition q_page_ps (k : nat) : pspace := pspace_for (pcell 1) (oid (k + 4), oid (k + 5)) (q_page_os k).
Definition q_root_ps (k : nat) : pspace := pspace_for (pcell 0) (oid 0, oid 2) (q_root_os k).
Definition q_file (k : nat) (hc : cellid) : list N :=
  w_file 0x109ADD3F911B49F5A5D01791EDC8AED8%N (w_id 0 0) (w_elems (w_store section_schema_ hc (pcell 0)
    [(hc, [], [(header_desc (q_store k), w_oset (header_set (q_store k)))]); q_root_ps k; q_page_ps k])).
Lemma q_page_len k : length (flat_map w_elem (w_elems (w_space 2 (q_page_ps k)))) <= 322 * k + 2450.
Proof.
  pose proof (space_sum 2 (q_page_ps k)) as Sp. cbn [q_page_ps pspace_for fst snd space_of sd_roots map length] in Sp.
  specialize (Sp (no_file (q_page_os k) ltac:(unfold q_page_os; apply Forall_app; split; [apply Forall_map, Forall_forall; reflexivity|repeat constructor]))).
  etransitivity; [exact Sp|]. unfold q_page_os. rewrite !map_app, sum_app.
  assert (G : sum (map object_bytes (map (fun a => (describe a, w_oset (ao_set a))) (map (fun j => a_ink (oid j) (oid k)) (seq 0 k)))) <= 270 * k).
  { etransitivity; [apply (sum_le _ 270)|rewrite !map_length, seq_length; lia]. intros x I. apply in_map_iff in I as (p & <- & I). apply in_map_iff in I as (a & <- & I).
    apply in_map_iff in I as (j & <- & _). unfold object_bytes. cbn. lia. }
  cbn [map sum]. pose proof (data_bytes (oid k) (repeat (oid (k + 1)) k)) as A. pose proof (page_bytes (oid (k + 3)) (inks k)) as B.
  rewrite repeat_length in A. unfold inks in B at 3. rewrite map_length, seq_length in B.
  assert (C1 : object_bytes (describe (a_stroke k (oid (k + 1)) (oid (k + 2))), w_oset (ao_set (a_stroke k (oid (k + 1)) (oid (k + 2))))) <= 340 + 2 * k) by apply stroke_bytes.
  assert (C2 : object_bytes (describe (a_props (oid (k + 2))), w_oset (ao_set (a_props (oid (k + 2))))) <= 330) by (unfold object_bytes; cbn; lia).
  assert (C3 : object_bytes (describe (a_meta (oid (k + 4))), w_oset (ao_set (a_meta (oid (k + 4))))) <= 300) by (unfold object_bytes; cbn; lia).
  assert (C4 : object_bytes (describe (a_manifest (oid (k + 5)) (oid (k + 3))), w_oset (ao_set (a_manifest (oid (k + 5)) (oid (k + 3))))) <= 300) by (unfold object_bytes; cbn; lia).
  lia.
Qed.
Lemma q_root_len k : length (flat_map w_elem (w_elems (w_space 1 (q_root_ps k)))) <= 71 * k + 1500.
Proof.
  pose proof (space_sum 1 (q_root_ps k)) as S. cbn [q_root_ps pspace_for fst snd space_of sd_roots map length] in S. specialize (S (no_file (q_root_os k) ltac:(repeat constructor))).
  etransitivity; [exact S|]. cbn [q_root_os map sum]. pose proof (series_bytes (oid 1) (repeat (pcell 1) k)) as A. pose proof (section_bytes (oid 2) (repeat (oid 1) k)) as B.
  rewrite repeat_length in A, B. assert (C : object_bytes (describe (a_name (oid 0)), w_oset (ao_set (a_name (oid 0)))) <= 300) by (unfold object_bytes; cbn; lia).
  lia.
Qed.
Lemma q_length k hc : (N.of_nat k < 2 ^ 22)%N -> length (q_file k hc) <= 400 * (k + 15).
Proof.
  intro L. destruct (header_encodes (q_store k) (proj2 (q_fits k L))) as (_ & HL).
  unfold q_file, w_file. rewrite !app_length. unfold w_store, w_elems. cbn [map flat_map fst snd w_spaces]. rewrite app_nil_r, !map_app, !flat_map_app.
  fold (w_elems (w_space 0 (hc, [], [(header_desc (q_store k), w_oset (header_set (q_store k)))]))). fold (w_elems (w_space 1 (q_root_ps k))). fold (w_elems (w_space 2 (q_page_ps k))).
  rewrite !app_length.
  pose proof (w_space_len 0 (hc, [], [(header_desc (q_store k), w_oset (header_set (q_store k)))]) 100) as A. cbn [fst snd] in A.
  specialize (A ltac:(intros d e [H|[]]; injection H as <- <-; repeat split; assumption) eq_refl). cbn [length] in A.
  pose proof (q_page_len k) as B. pose proof (q_root_len k) as C.
  set (l := [(hc, [], [(header_desc (q_store k), w_oset (header_set (q_store k)))]); q_root_ps k; q_page_ps k]).
  assert (X : length (w_body (ElIndex (w_items 0 l))) <= 270).
  { cbn [w_body]. etransitivity; [apply (flat_len _ 90); intros x _; destruct x; cbn [w_index_item]; lens; lia|]. unfold l. cbn [w_items length]. lia. }
  apply (elem_len (w_id 0 0, ElIndex (w_items 0 l))) in X. cbn [fst snd] in X.
  pose proof (elem_len (w_id 0 0, ElManifest section_schema_ [(ExGuid 0x1A5A319CC26B41AAB9C59BD8C44E07D4 1, hc); (ExGuid 0x84DEFAB9AAA34A0DA3A8520C77AC7073 2, pcell 0)]%N) 160
    ltac:(cbn [snd w_body flat_map]; lens; lia)) as Y. cbn [fst snd] in Y.
  rewrite !guid_enc_length, le_bytes_length, h32_len, h16_len, fin16_len. pose proof (exguid_len (w_id 0 0)). cbn [w_fin8 length].
  fold l. lia.
Qed.

Lemma q_written k : (N.of_nat k < 2 ^ 22)%N -> exists d, bytes_ok d /\ length d <= 400 * (k + 15) /\ forall h, exists st, open_store h 1 d = Ok st /\ st_schema st = section_schema /\
  (forall cell sp, object_space st cell = Some sp -> tree sp) /\
  forall file, exists f, forall fuel, f <= fuel -> parse_section fuel st file = Ok (q_section k).
Proof.
  intros L. destruct (q_fits k L) as (F & R).
  assert (P : Forall2 prepared ((pcell 0, q_root_desc k) :: [(pcell 1, q_page_desc k)]) [q_root_ps k; q_page_ps k]).
  { constructor; [|constructor; [|constructor]].
    - apply (prepared_for (pcell 0) (oid 0, oid 2) (q_root_os k) 0); [now apply pcell_fits|reflexivity|exact (q_root_good k L)|reflexivity|apply oid_fits; reflexivity..].
    - apply (prepared_for (pcell 1) (oid (k + 4), oid (k + 5)) (q_page_os k) 0); [now apply pcell_fits|apply q_page_ids|exact (q_page_good k L)| |apply oid_fits; lia..].
      rewrite q_page_length. lia. }
  destruct (store_author_with (q_store k) _ F R P) as (hc & els & B & Hd & Hs). exists (q_file k hc). split; [exact B|]. split; [now apply q_length|].
  intros h. destruct (store_described _ els (q_store k) h 1 Hd Hs F (le_n _)) as (st & E & S1).
  exists st. split; [exact E|]. split; [exact (proj1 S1)|]. split.
  - intros cell sp Esp. destruct S1 as (_ & _ & _ & S1 & S2). pose proof (S2 _ _ Esp) as I. cbn [q_store td_spaces map fst] in I. destruct I as [<-|[]].
    destruct (S1 _ _ (or_introl eq_refl)) as (sp' & E' & H). rewrite Esp in E'. injection E' as <-. exact (q_tree k L sp H).
  - intros file. pose proof (q_section_is k L st file S1) as Y. now apply section_settles in Y.
Qed.

(** ** The strokes *)
Lemma total_repeat {A} (f : A -> nat) x n : total f (repeat x n) = n * f x.
Proof. induction n as [|n IH]; [reflexivity|]. cbn [repeat total]. rewrite IH. lia. Qed.
Lemma q_count k : section_strokes (q_section k) = k ^ 4.
Proof.
  unfold section_strokes, page_strokes. cbn [q_section se_page_series]. rewrite total_repeat, total_repeat. unfold page_strokes. cbn [q_page pg_contents]. rewrite total_repeat.
  cbn [content_strokes q_ink in_strokes]. rewrite repeat_length. cbn [Nat.pow]. lia.
Qed.
(** The points *)
Lemma q_points k : total (fun s => length (st_path s)) (repeat (q_stroke k) k) = k * k.
Proof. rewrite total_repeat. cbn [q_stroke st_path]. now rewrite repeat_length. Qed.
