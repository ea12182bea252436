(** How many look-ups there are. *)
From Coq Require Import Lia ZifyBool ZifyNat ZifyN Relations Floats.SpecFloat.
From Verif Require Import Base BaseProofs Codec Package PropSet PropIds Store Shapes Props Nodes Doc Notebook SpecValues SpecNodes StoreProofs
  NodesProofs NodesProofs2 SpecDoc DocProofs DocProofs2 SpecSize SizeProofs SpecWeight WeightProofs Looks SpecLooks LooksProofs.
From Verif Require PackageRT.
Local Open Scope nat_scope.

Lemma forall2_length {A B} (R : A -> B -> Prop) l l' : Forall2 R l l' -> length l = length l'.
Proof. induction 1; cbn; congruence. Qed.

(** ** At most *)
(** At most [c] look-ups; one more if it fails (the last one may find nothing). *)
Definition within {T A} (c : nat) (p : traced T A) : Prop :=
  match snd p with Ok _ => length (fst p) <= c | _ => length (fst p) <= S c end.

Lemma within_le {T A} c c' (p : traced T A) : c <= c' -> within c p -> within c' p.
Proof. unfold within. destruct (snd p); lia. Qed.
Lemma within_all {T A} c (p : traced T A) : within c p -> length (fst p) <= S c.
Proof. unfold within. destruct (snd p); lia. Qed.
Lemma within_ret {T A} c (a : A) : @within T A c (tret a).
Proof. cbn. lia. Qed.
Lemma within_lift {T A} c (r : res A) : @within T A c (tlift r).
Proof. unfold within. cbn. destruct r; lia. Qed.
Lemma within_bind {T A B} c1 c2 (p : traced T A) (f : A -> traced T B) :
  within c1 p -> (forall a, snd p = Ok a -> within c2 (f a)) -> within (c1 + c2) (tbind p f).
Proof.
  unfold within. intros P F. rewrite tbind_eq. destruct (snd p) as [a|e| |]; cbn [snd fst]; try lia.
  specialize (F a eq_refl). rewrite app_length. destruct (snd (f a)); lia.
Qed.
Lemma within_lifted {T A B} c (r : res A) (f : A -> traced T B) :
  (forall a, r = Ok a -> within c (f a)) -> within c (tbind (tlift r) f).
Proof. intro F. apply (within_bind 0 c); [apply within_lift|exact F]. Qed.
Lemma within_map {T A B} (g : A -> nat) (f : A -> traced T B) l :
  (forall a, In a l -> within (g a) (f a)) -> within (total g l) (map_t f l).
Proof.
  induction l as [|a l IH]; intro F; [apply within_ret|]. cbn [map_t total]. apply within_bind; [apply F; now left|]. intros b _.
  rewrite <- (Nat.add_0_r (total g l)). apply within_bind; [apply IH; intros; apply F; now right|]. intros. apply within_ret.
Qed.
Lemma total_const {A} k (l : list A) : total (fun _ => k) l = length l * k.
Proof. induction l as [|a l IH]; [reflexivity|]. cbn [total length]. rewrite IH. reflexivity. Qed.
Lemma within_times {T A B} k (f : A -> traced T B) l : (forall a, within k (f a)) -> within (length l * k) (map_t f l).
Proof. intro F. rewrite <- total_const. apply within_map. intros. apply F. Qed.
Lemma within_opt {T A B} k (f : A -> traced T B) o : (forall a, within k (f a)) -> within k (opt_map_t f o).
Proof.
  intro F. destruct o as [a|]; [|apply within_ret]. cbn [opt_map_t]. rewrite <- (Nat.add_0_r k). apply within_bind; [apply F|]. intros. apply within_ret.
Qed.
Lemma within_need {B} sp id c C (f : object -> traced exguid B) :
  (forall o, get_object sp id = Some o -> within c (f o) /\ S c <= C) -> within C (tbind (need_object_t id sp) f).
Proof.
  intro F. rewrite tbind_eq. unfold need_object_t, need_object. cbn [snd fst]. destruct (get_object sp id) as [o|]; cbn [ok_or].
  - destruct (F o eq_refl) as (W & L). unfold within in *. cbn [snd fst app length]. destruct (snd (f o)); lia.
  - unfold within. cbn. lia.
Qed.

(** ** The weights *)
Definition wt (o : object) : nat := object_weight o + object_ids o.
Lemma resolved_short {T} (g : N -> compactid -> option T) l : forall i, length (flat_resolve g i l) <= length l.
Proof. induction l as [|c l IH]; intro i; cbn; [lia|]. specialize (IH (i + 1)%N). destruct (g i c); cbn; lia. Qed.
Lemma taken_short {A} n m (l : list A) : length (take n (skip m l)) <= length l.
Proof. unfold take, skip. rewrite firstn_length, skipn_length. lia. Qed.
Lemma references_short o id l : references o id l -> length l <= length (op_object_ids (ob_props o)).
Proof.
  unfold references, prop_objects. intro H. apply bind_ok in H as (v & _ & H). destruct v as [n|]; [|discriminate].
  apply bind_ok in H as (k & _ & H). injection H as <-. eapply Nat.le_trans; [apply resolved_short|apply taken_short].
Qed.
Lemma children_short o id l : children o id l -> length l <= length (op_object_ids (ob_props o)).
Proof. unfold children. destruct (stored o id); [apply references_short|intros ->; cbn; lia]. Qed.
Lemma spaces_short o id l : spaces o id l -> length l <= length (op_space_ids (ob_props o)).
Proof.
  unfold spaces. destruct (stored o id); [|intros ->; cbn; lia]. unfold prop_spaces. intro H. apply bind_ok in H as (v & _ & H).
  destruct v as [n|]; [|discriminate]. apply bind_ok in H as (k & _ & H). injection H as <-. eapply Nat.le_trans; [apply resolved_short|apply taken_short].
Qed.

Lemma total_cons {A} (f : A -> nat) a l : SpecPackage.total f (a :: l) = f a + SpecPackage.total f l.
Proof. reflexivity. Qed.
Lemma set_weight_in s e : In e s -> value_weight (snd (snd e)) < set_weight s.
Proof.
  unfold set_weight. induction s as [|a s IH]; [intros []|]. rewrite total_cons. intros [->|I]; [lia|]. apply IH in I. lia.
Qed.
Lemma tags_short o l : tags o l -> length l <= set_weight (op_props (ob_props o)).
Proof.
  unfold tags, stored, oprops_get, propset_get. destruct (alookup _ _ _) as [e|] eqn:E; cbn [option_map]; [|intros ->; cbn; lia].
  intros (tid & sets & V & F). apply (alookup_in N.eqb N.eqb_eq) in E. apply set_weight_in in E. cbn [snd] in E. rewrite V in E.
  apply forall2_length in F. rewrite <- F. cbn [value_weight] in E.
  assert (Q : forall sets : list propset, length sets <= SpecPackage.total (fun s => S (SpecPackage.total (fun p => S (value_weight (snd (snd p)))) s)) sets).
  { clear. induction sets as [|a l IH]; [cbn; lia|]. rewrite total_cons. cbn [length]. lia. }
  specialize (Q sets). lia.
Qed.

Lemma total_in {A} (f : A -> nat) l a : In a l -> f a <= SpecPackage.total f l.
Proof. induction l as [|b l IH]; [intros []|]. rewrite total_cons. intros [->|I]; [lia|]. apply IH in I. lia. Qed.
Lemma wt_pos o : 1 <= wt o.
Proof. unfold wt, object_weight. lia. Qed.
Lemma wt_space sp id o : get_object sp id = Some o -> wt o <= space_weight sp.
Proof.
  unfold get_object. intro E. apply (alookup_in exguid_eqb PackageRT.exguid_eqb_eq) in E.
  exact (total_in (fun e => object_weight (snd e) + object_ids (snd e)) _ _ E).
Qed.
Lemma wt_parts o : length (op_object_ids (ob_props o)) + length (op_space_ids (ob_props o)) + set_weight (op_props (ob_props o)) < wt o.
Proof. unfold wt, object_weight, object_ids. lia. Qed.

(** ** Parts without parts *)
Section Space.
Variable sp : space.
Notation W := (space_weight sp).

Lemma need_tag id : within 1 (note_tag_definition_t id sp).
Proof. unfold note_tag_definition_t. apply (within_need sp id 0). intros o _. split; [apply within_lift|lia]. Qed.
Lemma need_tags l : within (length l) (note_tags_t l sp).
Proof.
  unfold note_tags_t. rewrite <- (Nat.mul_1_r (length l)). apply within_times. intro d. rewrite <- (Nat.add_0_r 1). apply within_bind; [|intros; apply within_ret].
  apply within_opt. apply need_tag.
Qed.
Lemma need_list id : within 1 (parse_list_t id sp).
Proof. unfold parse_list_t. apply (within_need sp id 0). intros o _. split; [|lia]. apply within_lifted. intros. apply within_ret. Qed.
Lemma need_iframe id : within 1 (parse_iframe_t id sp).
Proof. unfold parse_iframe_t. apply (within_need sp id 0). intros o _. split; [apply within_lift|lia]. Qed.

Lemma need_file id o : get_object sp id = Some o -> within (2 + wt o) (parse_embedded_file_t id sp).
Proof.
  intro Ho. unfold parse_embedded_file_t. apply (within_need sp id (1 + wt o)). intros o' E. rewrite Ho in E. injection E as <-. split; [|lia].
  apply within_lifted. intros d Hd. apply file_node_ok in Hd. assert (Ht : tags o (ef_note_tags d)) by apply Hd. apply tags_short in Ht. pose proof (wt_parts o).
  apply (within_need sp _ (wt o)). intros c _. split; [|lia]. apply within_lifted. intros b _.
  apply (within_le (length (ef_note_tags d) + 0)); [lia|]. apply within_bind; [apply need_tags|]. intros. apply within_ret.
Qed.
Lemma need_image id o : get_object sp id = Some o -> within (2 + wt o) (parse_image_t id sp).
Proof.
  intro Ho. unfold parse_image_t. apply (within_need sp id (1 + wt o)). intros o' E. rewrite Ho in E. injection E as <-. split; [|lia].
  apply within_lifted. intros d Hd. apply image_ok in Hd. assert (Ht : tags o (im_note_tags d)) by apply Hd. assert (Hi : children o 0x24001C1F (im_iframe d)) by apply Hd.
  apply tags_short in Ht. apply children_short in Hi. pose proof (wt_parts o).
  apply (within_bind 1); [apply within_opt; intro c; unfold within, need_object_t; cbn; destruct (need_object _ _); lia|]. intros co _. apply within_lifted. intros cd _.
  apply (within_le (length (im_iframe d) * 1 + (length (im_note_tags d) + 0))); [lia|].
  apply within_bind; [apply within_times; intro; apply need_iframe|]. intros. apply within_bind; [apply need_tags|]. intros. apply within_ret.
Qed.
Lemma need_stroke id sx sy : within 2 (parse_ink_stroke_t id sp sx sy).
Proof.
  unfold parse_ink_stroke_t. apply (within_need sp id 1). intros o _. split; [|lia]. apply within_lifted. intros d _.
  apply (within_need sp _ 0). intros p _. split; [|lia]. apply within_lifted. intros q _. apply within_lifted. intros r _. apply within_ret.
Qed.
Lemma need_ink_data id sx sy : within (1 + 2 * W) (parse_ink_data_t id sp sx sy).
Proof.
  unfold parse_ink_data_t. apply (within_need sp id (2 * W)). intros o Ho. split; [|lia]. apply within_lifted. intros d Hd.
  apply ink_node_ok in Hd. assert (Hs : references o 0x24003416 (ik_strokes d)) by apply Hd. apply references_short in Hs.
  pose proof (wt_parts o). pose proof (wt_space sp id o Ho).
  apply (within_le (length (ik_strokes d) * 2 + 0)); [lia|]. apply within_bind; [apply within_times; intro; apply need_stroke|]. intros. apply within_ret.
Qed.
Lemma need_ink id : within (2 + 2 * W) (parse_ink_t id sp).
Proof.
  unfold parse_ink_t. apply (within_need sp id (1 + 2 * W)). intros o _. split; [|lia]. apply within_lifted. intros c _.
  destruct (ic_ink_data c) as [i|]; [|apply within_ret]. rewrite <- (Nat.add_0_r (1 + 2 * W)). apply within_bind; [apply need_ink_data|]. intros (x, y) _. apply within_ret.
Qed.
Lemma need_embedded refs objs : forall i k, within (length objs * (1 + 2 * W)) (embedded_objects_t sp refs i k objs).
Proof.
  induction objs as [|(ty, d) objs IH]; intros i k; [apply within_ret|]. cbn [embedded_objects_t length Nat.mul].
  destruct ty as [t|].
  - apply within_lifted. intros x _. apply (within_le (length objs * (1 + 2 * W) + 0)); [lia|]. apply within_bind; [apply IH|]. intros. apply within_ret.
  - apply within_bind.
    + destruct refs as [|r refs]; [apply within_ret|]. destruct (nth_error _ _) as [id|]; [|apply within_lift].
      unfold parse_embedded_ink_t. apply (within_le (1 + 2 * W + 0)); [lia|]. apply within_bind; [|intros; apply within_ret].
      apply (within_le (1 + 2 * W + 0)); [lia|]. apply within_bind; [apply need_ink_data|]. intros (x, y) _. apply within_ret.
    + intros x _. apply (within_le (length objs * (1 + 2 * W) + 0)); [lia|]. apply within_bind; [apply IH|]. intros. apply within_ret.
Qed.
Lemma flatten_short {A} (l : list (option A)) : length (flatten l) <= length l.
Proof. unfold flatten. induction l as [|[a|] l IH]; cbn in *; lia. Qed.
Lemma map_t_length {T A B} (f : A -> traced T B) l l' : snd (map_t f l) = Ok l' -> length l' = length l.
Proof.
  intro H. rewrite (snd_map f (fun a => snd (f a)) l (fun _ => eq_refl)) in H. apply NodesProofs.map_res_ok, forall2_length in H. now symmetry.
Qed.
Lemma need_rich_text id o : get_object sp id = Some o -> within (2 + wt o + wt o * (1 + 2 * W)) (parse_rich_text_t id sp).
Proof.
  intro Ho. unfold parse_rich_text_t. apply (within_need sp id (1 + wt o + wt o * (1 + 2 * W))). intros o' E. rewrite Ho in E. injection E as <-. split; [|lia].
  apply within_lifted. intros d Hd. apply text_ok in Hd. assert (Ht : tags o (rt_note_tags d)) by apply Hd. apply tags_short in Ht.
  assert (Hf : length (rt_run_formatting d) <= length (op_object_ids (ob_props o))).
  { unfold text_object in Hd. decompose [and] Hd. eapply children_short; eassumption. }
  pose proof (wt_parts o). apply (within_need sp _ (wt o + wt o * (1 + 2 * W))). intros so _. split; [|lia]. apply within_lifted. intros sd _.
  apply (within_le (length (rt_run_formatting d) * 1 + (length (rt_run_formatting d) * (1 + 2 * W) + (length (rt_note_tags d) + 0)))).
  { assert (length (rt_run_formatting d) * (1 + 2 * W) <= wt o * (1 + 2 * W)) by (apply Nat.mul_le_mono_r; lia). lia. }
  apply within_bind.
  { apply within_times. intro x. apply (within_need sp x 0). intros ? _. split; [apply within_lift|lia]. }
  intros styles Hs. apply map_t_length in Hs. apply within_lifted. intros runs _. apply within_lifted. intros m _. apply within_lifted. intros objs Hobj.
  apply within_bind.
  { eapply within_le; [|apply need_embedded]. apply Nat.mul_le_mono_r. eapply Nat.le_trans; [apply flatten_short|].
    apply NodesProofs.map_res_ok, forall2_length in Hobj. rewrite <- Hobj, combine_length. lia. }
  intros emb _. cbv zeta. apply within_bind; [apply need_tags|]. intros. apply within_ret.
Qed.
End Space.
