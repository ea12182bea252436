(** Column data of tables. *)
From Coq Require Import Lia ZifyBool ZifyNat ZifyN.
From Verif Require Import Base BaseProofs Codec Package PropSet PropIds Store Shapes Props Nodes SpecCodec
  SpecValues SpecNodes NodesProofs NodesProofs2.

Lemma numbers_nth w d ns : (0 < w)%nat -> numbers w d ns ->
  length ns = (length d / w)%nat /\
  forall i n, nth_error ns i = Some n -> n = le (firstn w (skipn (w * i) d)).
Proof.
  intros Hw H. induction H as [d Hd|d n ns Hd Hn r Hr IH].
  - split; [symmetry; apply Nat.div_small; lia|]. intros [|i] n E; discriminate E.
  - destruct IH as [IL IH]. split.
    + rewrite app_length, Hd. replace (w + length r)%nat with (length r + 1 * w)%nat by (clear; lia).
      rewrite Nat.div_add by (clear -Hw; lia). cbn [length]. rewrite IL. now rewrite Nat.add_1_r.
    + intros [|i] m E; cbn in E.
      * injection E as <-. rewrite Nat.mul_0_r. cbn [skipn]. rewrite <- Hd at 1. now rewrite firstn_app_len.
      * rewrite (IH _ _ E). f_equal. f_equal. replace (w * S i)%nat with (length d + w * i)%nat by (rewrite Nat.mul_succ_r; lia).
        rewrite skipn_app, (@skipn_all2 _ _ d) by (generalize (w * i)%nat; lia). cbn [app]. f_equal. generalize (w * i)%nat. lia.
Qed.

Lemma columns o d : table_node_parse o = Ok d ->
  (forall n bytes, stored o 0x1C001D66 = Some (VVec (n :: bytes)) ->
     length (ta_col_widths d) = (length bytes / 4)%nat /\
     forall i w, nth_error (ta_col_widths d) i = Some w -> w = le (firstn 4 (skipn (4 * i) bytes))) /\
  (forall n bytes, stored o 0x1C001D7D = Some (VVec (n :: bytes)) -> ta_cols_locked d = bytes) /\
  (stored o 0x08001D5E = None -> ta_borders_visible d = true) /\
  (forall b, stored o 0x08001D5E = Some (VBool b) -> ta_borders_visible d = b).
Proof.
  intros H. apply table_ok in H. destruct H as (_ & _ & _ & _ & _ & Hl & Hw & Hb & _).
  unfold defaulted in *. repeat split.
  - rewrite H in Hw. destruct Hw as [([=] & _)|(m & b & [= <- <-] & Hw)]. now apply (numbers_nth 4); [lia|].
  - rewrite H in Hw. destruct Hw as [([=] & _)|(m & b & [= <- <-] & Hw)]. now apply (numbers_nth 4); [lia|].
  - intros n bytes E. rewrite E in Hl. destruct Hl as [([=] & _)|(m & [= <- <-])]. reflexivity.
  - intros E. now rewrite E in Hb.
  - intros b E. rewrite E in Hb. unfold boolean in Hb. congruence.
Qed.

Lemma scales o d : ink_container_parse o = Ok d -> ic_scaling_y d = ic_scaling_x d.
Proof.
  intros H. apply ink_container_ok in H. destruct H as (_ & _ & _ & _ & _ & H1 & H2). unfold optional in *.
  destruct (stored o 0x14001C46) as [v|]; [|congruence]. destruct H1 as (a & Ha & ->), H2 as (b & Hb & ->).
  unfold float in *. congruence.
Qed.
Lemma pen_sizes o d : stroke_properties_parse o = Ok d ->
  stored o 0x1400340C = Some (VU32 (sp_width d)) /\ stored o 0x1400340D = Some (VU32 (sp_height d)).
Proof.
  intros H. apply stroke_properties_ok in H. destruct H as (_ & _ & _ & _ & _ & _ & _ & (v & Hv & ->) & (w & Hw & ->) & _).
  auto.
Qed.
Lemma page_size_rejected o d n : stored o 0x14001C8B = Some (VU32 n) -> page_node_parse o <> Ok d.
Proof.
  intros E H. apply page_ok in H. destruct H as (_ & _ & _ & _ & _ & _ & _ & _ & _ & _ & _ & _ & _ & _ & _ & H & _).
  unfold defaulted in H. rewrite E in H. destruct H as (m & [=] & _).
Qed.
Lemma extension_rejected o d n : stored o 0x24003424 = Some (VObjectIds n) -> picture_container_parse o <> Ok d.
Proof.
  intros E H. apply picture_ok in H. destruct H as (_ & _ & H). unfold optional in H. rewrite E in H.
  destruct H as (a & (b & [=] & _) & _).
Qed.
Lemma flags_boolean o :
  (forall d v, page_metadata_parse o = Ok d -> stored o 0x00001DE9 = Some v -> wire_type v = 2) /\
  (forall d v, stroke_properties_parse o = Ok d ->
     stored o 0x8000340E = Some v \/ stored o 0x80003410 = Some v -> wire_type v = 2).
Proof.
  split.
  - intros d v H E. apply page_meta_ok in H. destruct H as (_ & _ & _ & _ & _ & _ & _ & H).
    unfold defaulted in H. rewrite E in H. rewrite H. reflexivity.
  - intros d v H E. apply stroke_properties_ok in H. destruct H as (_ & H1 & H2 & _).
    unfold defaulted in *. destruct E as [E|E]; rewrite E in *; [rewrite H1|rewrite H2]; reflexivity.
Qed.
Lemma simple_accepted o id v : stored o id = Some v ->
  (wire_type v = 2 <-> exists b, prop_bool id o = Ok (Some b)) /\
  (wire_type v = 3 <-> exists n, prop_u8 id o = Ok (Some n)) /\
  (wire_type v = 4 <-> exists n, prop_u16 id o = Ok (Some n)) /\
  (wire_type v = 5 <-> exists n, prop_u32 id o = Ok (Some n)) /\
  (wire_type v = 5 <-> exists n, prop_f32 id o = Ok (Some n)) /\
  (wire_type v = 5 <-> exists n, time_parse id o = Ok (Some n)) /\
  (wire_type v = 6 <-> exists n, timestamp_parse id o = Ok (Some n)) /\
  (wire_type v = 7 <-> exists d, prop_vec id o = Ok (Some d)) /\
  (wire_type v = 9 <-> exists l, prop_objects id o = Ok (Some l)) /\
  (wire_type v = 11 <-> exists l, prop_spaces id o = Ok (Some l)).
Proof.
  intros E.
  assert (P : exists j, propset_index id (op_props (ob_props o)) = Some j).
  { unfold stored, oprops_get, propset_get in E. unfold propset_index.
    destruct (alookup _ _ _) as [[j w]|]; [exists j; reflexivity|discriminate E]. }
  destruct P as (j & Hj).
  unfold prop_bool, prop_u8, prop_u16, prop_u32, prop_f32, time_parse, timestamp_parse, prop_vec, prop_objects, prop_spaces,
    get_prop, object_offset, space_offset, predecessors.
  unfold stored in E. rewrite E, Hj. cbn [opt_map_res ok_or rbind].
  destruct v; cbn; repeat split; intros H; try discriminate H;
    try (destruct H as (x & H); discriminate H); try reflexivity; eexists; reflexivity.
Qed.
