(** How many look-ups there are if the objects form trees, and how many at least. *)
From Coq Require Import Lia ZifyBool ZifyNat ZifyN Relations Floats.SpecFloat.
From Verif Require Import Base BaseProofs Codec SpecCodec Package PropSet PropIds Store Shapes Props Nodes Doc Notebook SpecValues SpecNodes StoreProofs
  NodesProofs NodesProofs2 SpecDoc DocProofs DocProofs2 SpecSize SizeProofs SpecWeight WeightProofs Looks SpecLooks LooksProofs LooksProofs2.
From Verif Require PackageRT DoubleProofs OnceProofs.
Local Open Scope nat_scope.

(** ** Sums over the objects of a tree *)
Definition over {V} (g : V -> nat) (m : amap exguid V) (a : exguid) : nat :=
  match alookup exguid_eqb a m with Some o => g o | None => 0 end.
Lemma total_app {A} (f : A -> nat) l l' : total f (l ++ l') = total f l + total f l'.
Proof. induction l as [|a l IH]; [reflexivity|]. cbn [app total]. lia. Qed.
Lemma over_le {V} (g : V -> nat) (m : amap exguid V) : forall l, NoDup l -> total (over g m) l <= SpecPackage.total (fun e => g (snd e)) m.
Proof.
  induction m as [|(k, o) m IH]; intros l D.
  - replace (total (over g []) l) with 0; [lia|]. clear. induction l as [|a l IH]; [reflexivity|]. cbn [total]. now rewrite <- IH.
  - rewrite total_cons. cbn [snd].
    assert (Q : forall l, ~ In k l -> total (over g ((k, o) :: m)) l = total (over g m) l).
    { clear. induction l as [|a l IH]; intro N; [reflexivity|]. cbn [total]. rewrite IH by (intro; apply N; now right). f_equal.
      unfold over. cbn [alookup]. destruct (exguid_eqb a k) eqn:E; [|reflexivity]. apply PackageRT.exguid_eqb_eq in E. exfalso. apply N. now left. }
    destruct (in_dec (fun x y => match exguid_eqb x y as b return exguid_eqb x y = b -> _ with
                       | true => fun e => left (proj1 (PackageRT.exguid_eqb_eq x y) e)
                       | false => fun e => right (fun q => eq_true_false_abs _ (proj2 (PackageRT.exguid_eqb_eq x y) q) e) end eq_refl) k l) as [I|N].
    + apply in_split in I as (l1 & l2 & ->). apply NoDup_remove in D as (D & N).
      rewrite total_app. cbn [total]. rewrite (Q l1), (Q l2) by (intro; apply N, in_app_iff; tauto).
      specialize (IH (l1 ++ l2) D). rewrite total_app in IH.
      assert (over g ((k, o) :: m) k = g o) as ->; [|lia].
      unfold over. cbn [alookup]. now rewrite (proj2 (PackageRT.exguid_eqb_eq k k) eq_refl).
    + rewrite (Q l N). specialize (IH l D). lia.
Qed.

Section Tree.
Variable sp : space.
Notation W := (space_weight sp).
(** What an object may take. *)
Definition cost (a : exguid) : nat := over (fun o => wt o * (2 * W + 6)) (sp_objects sp) a.
Definition costs (n : nat) (l : list exguid) : nat := total cost (below sp n l).

Lemma cost_present a o : get_object sp a = Some o -> exists x, cost a = 2 * x + 6 * wt o /\ W <= x /\ x = wt o * W /\ 1 <= wt o <= W.
Proof.
  intro H. exists (wt o * W). unfold cost, over. change (alookup exguid_eqb a (sp_objects sp)) with (get_object sp a). rewrite H.
  pose proof (wt_pos o). pose proof (wt_space sp a o H). repeat split; try lia. nia.
Qed.
Lemma costs_app n : forall l l', costs n (l ++ l') = costs n l + costs n l'.
Proof.
  unfold costs. induction n as [|n IH]; cbn [below]; intros l l'; [reflexivity|].
  rewrite SizeProofs.flat_map_app, !total_app, IH. lia.
Qed.
Lemma costs_grow n : forall l, costs n l <= costs (S n) l.
Proof.
  unfold costs. induction n as [|n IH]; intro l; [cbn; lia|]. specialize (IH (flat_map (kids sp) l)).
  cbn [below] in IH |- *. rewrite !total_app in *. lia.
Qed.
Lemma costs_mono n m l : n <= m -> costs n l <= costs m l.
Proof. induction 1; [lia|]. pose proof (costs_grow m l). lia. Qed.
Lemma costs_one n a : costs (S n) [a] = cost a + costs n (kids sp a).
Proof. unfold costs. cbn [below flat_map app total]. now rewrite app_nil_r. Qed.
Lemma costs_sum n l : total (fun a => costs n [a]) l = costs n l.
Proof.
  induction l as [|a l IH]; [cbn; unfold costs; induction n as [|n IHn]; [reflexivity|cbn; exact IHn]|].
  change (a :: l) with ([a] ++ l). rewrite costs_app. cbn [app total]. now rewrite IH.
Qed.
Lemma within_costs {B} n (f : exguid -> traced exguid B) l : (forall a, within (costs n [a]) (f a)) -> within (costs n l) (map_t f l).
Proof. intro H. rewrite <- costs_sum. apply within_map. intros. apply H. Qed.

Lemma costs_bound n a : tree sp -> costs n [a] <= W * (2 * W + 6).
Proof.
  intro T. unfold costs. eapply Nat.le_trans.
  - apply over_le. apply below_nodup; [exact T|repeat constructor; intros []|]. intros x y [<-|[]] [<-|[]]. apply (proj2 T).
  - assert (E : forall k m, SpecPackage.total (fun e : exguid * object => wt (snd e) * k) m = SpecPackage.total (fun e => wt (snd e)) m * k).
    { clear. intro k. induction m as [|e m IH]; [reflexivity|]. rewrite !total_cons, IH. lia. }
    cbv beta. change (SpecPackage.total (fun e : exguid * object => wt (snd e) * (2 * W + 6)) (sp_objects sp) <= W * (2 * W + 6)). rewrite E. apply Nat.mul_le_mono_r. reflexivity.
Qed.

(** ** Parts with parts *)
(** [present] brings in the cost of the object. *)
Ltac present Ho := let x := fresh "x" in let E := fresh in destruct (cost_present _ _ Ho) as (x & ? & ? & E & ? & ?).

Lemma need_cell n e id : (forall a, within (costs n [a]) (e a)) -> within (costs (S n) [id]) (parse_cell_t e id sp).
Proof.
  intro H. unfold parse_cell_t. apply (within_need sp id (costs n (kids sp id))). intros o Ho. present Ho. rewrite costs_one. split; [|lia].
  apply within_lifted. intros d Hd. rewrite (kids_cell sp id o d Ho Hd). rewrite <- (Nat.add_0_r (costs n _)).
  apply within_bind; [now apply within_costs|]. intros. apply within_ret.
Qed.
Lemma need_row n e id : (forall a, within (costs n [a]) (e a)) -> within (costs (S (S n)) [id]) (parse_row_t e id sp).
Proof.
  intro H. unfold parse_row_t. apply (within_need sp id (costs (S n) (kids sp id))). intros o Ho. present Ho. rewrite costs_one. split; [|lia].
  apply within_lifted. intros d Hd. rewrite (kids_row sp id o d Ho Hd). rewrite <- (Nat.add_0_r (costs _ _)).
  apply within_bind; [apply within_costs; intro; now apply need_cell|]. intros. apply within_ret.
Qed.
Lemma need_table n e id : (forall a, within (costs n [a]) (e a)) ->
  within (costs (S (S (S n))) [id] - 1) (parse_table_t e id sp).
Proof.
  intro H. unfold parse_table_t. destruct (get_object sp id) as [o|] eqn:Ho.
  - present Ho. apply (within_need sp id (costs (S (S n)) (kids sp id) + wt o)). intros o' E. rewrite Ho in E. injection E as <-.
    rewrite costs_one. split; [|lia]. apply within_lifted. intros d Hd. rewrite (kids_table sp id o d Ho Hd).
    apply table_ok in Hd. assert (Ht : tags o (ta_note_tags d)) by apply Hd. apply tags_short in Ht. pose proof (wt_parts o).
    apply within_bind; [apply within_costs; intro; now apply need_row|]. intros r _.
    apply (within_le (length (ta_note_tags d) + 0)); [lia|]. apply within_bind; [apply need_tags|]. intros. apply within_ret.
  - apply (within_need sp id 0). intros o' E. rewrite Ho in E. discriminate.
Qed.

Lemma need_parts f :
  (forall id, within (costs (3 * f) [id]) (parse_outline_item_t f sp id)) /\
  (forall id, within (costs (3 * f) [id] - 1) (parse_outline_element_t f sp id)) /\
  (forall id, within (costs (3 * f) [id]) (parse_content_t f sp id)).
Proof.
  induction f as [|f (IHi & IHe & IHc)]; [repeat split; intro; apply within_lift|].
  replace (3 * S f) with (S (S (S (3 * f)))) by lia. set (n := 3 * f) in *.
  assert (IHe' : forall a, within (costs n [a]) (parse_outline_element_t f sp a)) by (intro a; eapply within_le; [|apply IHe]; lia).
  refine (conj _ (conj _ _)); intro id; cbn [parse_outline_item_t parse_outline_element_t parse_content_t].
  - apply (within_need sp id (costs (S (S (S n))) [id] - 1)). intros o Ho. present Ho. split; [|rewrite costs_one; lia].
    apply within_lifted. intros k _. destruct k; try apply within_lift.
    + eapply (within_le (costs n [id] - 1 + 0)); [pose proof (costs_mono n (S (S (S n))) [id]); lia|].
      apply within_bind; [apply IHe|]. intros. apply within_ret.
    + apply (within_need sp id (costs n (kids sp id))). intros o' E. rewrite Ho in E. injection E as <-.
      rewrite costs_one. pose proof (costs_mono n (S (S n)) (kids sp id)). split; [|lia].
      apply within_lifted. intros d Hd. rewrite (kids_group sp id o d Ho Hd). rewrite <- (Nat.add_0_r (costs n _)).
      apply within_bind; [apply within_costs, IHi|]. intros. apply within_ret.
  - destruct (get_object sp id) as [o|] eqn:Ho.
    + present Ho. apply (within_need sp id (costs n (kids sp id) + wt o)). intros o' E. rewrite Ho in E. injection E as <-.
      rewrite costs_one. pose proof (costs_mono n (S (S n)) (kids sp id)). split; [|lia].
      apply within_lifted. intros d Hd. rewrite (kids_element sp id o d Ho Hd), costs_app.
      apply element_ok in Hd. assert (Hl : children o 0x24001C26 (oe_list_contents d)) by apply Hd. apply children_short in Hl. pose proof (wt_parts o).
      rewrite <- Nat.add_assoc. apply within_bind; [apply within_costs, IHi|]. intros a _. apply within_bind; [apply within_costs, IHc|]. intros b _.
      apply (within_le (length (oe_list_contents d) * 1 + 0)); [lia|]. apply within_bind; [apply within_times; intro; apply need_list|]. intros. apply within_ret.
    + apply (within_need sp id 0). intros o' E. rewrite Ho in E. discriminate.
  - apply (within_need sp id (costs (S (S (S n))) [id] - 1)). intros o Ho. present Ho. split; [|rewrite costs_one; lia].
    assert (C : cost id <= costs (S (S (S n))) [id]) by (rewrite costs_one; lia).
    apply within_lifted. intros k _. destruct k; try apply within_ret.
    all: rewrite <- (Nat.add_0_r (costs _ _ - 1)); apply within_bind; [|intros; apply within_ret].
    all: match goal with
      | |- within _ (parse_ink_t _ _) => eapply within_le; [|apply need_ink]; lia
      | |- within _ (parse_embedded_file_t _ _) => eapply within_le; [|apply (need_file sp id o Ho)]; lia
      | |- within _ (parse_image_t _ _) => eapply within_le; [|apply (need_image sp id o Ho)]; lia
      | |- within _ (parse_rich_text_t _ _) => eapply within_le; [|apply (need_rich_text sp id o Ho)]; lia
      | |- within _ (parse_table_t _ _ _) => apply need_table; exact IHe'
      end.
Qed.

Lemma need_outline f id : within (costs (S (3 * f)) [id] - 1) (parse_outline_t f sp id).
Proof.
  unfold parse_outline_t. destruct (get_object sp id) as [o|] eqn:Ho.
  - present Ho. apply (within_need sp id (costs (3 * f) (kids sp id))). intros o' E. rewrite Ho in E. injection E as <-.
    rewrite costs_one. split; [|lia]. apply within_lifted. intros d Hd. rewrite (kids_outline sp id o d Ho Hd).
    rewrite <- (Nat.add_0_r (costs _ _)). apply within_bind; [apply within_costs; intro; apply need_parts|]. intros. apply within_ret.
  - apply (within_need sp id 0). intros o' E. rewrite Ho in E. discriminate.
Qed.
Lemma need_title f id : within (costs (S (S (3 * f))) [id]) (parse_title_t f sp id).
Proof.
  unfold parse_title_t. apply (within_need sp id (costs (S (3 * f)) (kids sp id))). intros o Ho. present Ho. rewrite costs_one. split; [|lia].
  apply within_lifted. intros d Hd. rewrite (kids_title sp id o d Ho Hd). rewrite <- (Nat.add_0_r (costs _ _)).
  apply within_bind; [apply within_costs; intro; eapply within_le; [|apply need_outline]; lia|]. intros. apply within_ret.
Qed.
Lemma need_page_content f id : within (costs (S (S (3 * f))) [id]) (parse_page_content_t f sp id).
Proof.
  unfold parse_page_content_t. apply (within_need sp id (costs (S (S (3 * f))) [id] - 1)). intros o Ho. present Ho. split; [|rewrite costs_one; lia].
  assert (C : cost id <= costs (S (S (3 * f))) [id]) by (rewrite costs_one; lia).
  apply within_lifted. intros k _. destruct k; try apply within_ret.
  all: rewrite <- (Nat.add_0_r (costs _ _ - 1)); apply within_bind; [|intros; apply within_ret].
  all: match goal with
      | |- within _ (parse_ink_t _ _) => eapply within_le; [|apply need_ink]; lia
      | |- within _ (parse_embedded_file_t _ _) => eapply within_le; [|apply (need_file sp id o Ho)]; lia
      | |- within _ (parse_image_t _ _) => eapply within_le; [|apply (need_image sp id o Ho)]; lia
      | |- within _ (parse_outline_t _ _ _) => eapply within_le; [|apply need_outline]; pose proof (costs_mono (S (3 * f)) (S (S (3 * f))) [id]); lia
      end.
Qed.

Lemma need_page f : tree sp -> within (2 + W * (2 * W + 6)) (parse_page_t f sp).
Proof.
  intro T. unfold parse_page_t. apply (within_bind 1).
  { apply within_lifted. intros id _. apply (within_need sp id 0). intros o _. split; [apply within_lift|lia]. }
  intros m _. apply (within_bind 1).
  { apply within_lifted. intros id _. apply (within_need sp id 0). intros o _. split; [apply within_lift|lia]. }
  intros id _. unfold page_node_t. eapply within_le; [exact (costs_bound (S (S (S (3 * f)))) id T)|].
  rewrite costs_one. destruct (get_object sp id) as [o|] eqn:Ho.
  - present Ho. rewrite (tbind_eq (need_object_t _ _)). cbn [need_object_t snd fst]. unfold need_object. rewrite Ho. cbn [ok_or].
    destruct (page_node_parse o) as [d|e| |] eqn:Hd.
    2-4: rewrite tbind_eq; cbn [tlift snd fst]; unfold within; cbn; lia.
    rewrite (kids_page sp id o d Ho Hd), costs_app. apply within_bind.
    { unfold within. cbn. lia. }
    intros d' E. cbn in E. injection E as <-. apply within_bind.
    { destruct (pd_title d) as [t|]; cbn [opt_map_t]; [|apply within_ret]. rewrite <- (Nat.add_0_r (costs _ _)).
      apply within_bind; [apply need_title|]. intros. apply within_ret. }
    intros t _. rewrite <- (Nat.add_0_r (costs _ (pd_content d))). apply within_bind; [|intros; apply within_ret].
    apply within_costs. intro. apply need_page_content.
  - rewrite (tbind_eq (need_object_t _ _)). cbn [need_object_t snd fst]. unfold need_object. rewrite Ho. cbn [ok_or]. rewrite tbind_eq. cbn [snd fst]. unfold within. cbn. lia.
Qed.
End Tree.

(** ** The section *)
Lemma need_at {A} w c (p : traced exguid A) : within c p -> within c (at_ w p).
Proof. unfold within, at_. cbn [fst snd]. now rewrite map_length. Qed.
Lemma need_at_root {B} w sp id c (f : object -> traced look B) :
  (forall o, get_object sp id = Some o -> within c (f o)) -> within (S c) (tbind (at_ w (need_object_t id sp)) f).
Proof.
  intro F. rewrite tbind_eq. unfold need_object_t, need_object, at_. cbn [snd fst]. destruct (get_object sp id) as [o|]; cbn [ok_or].
  - specialize (F o eq_refl). unfold within in *. cbn [snd fst app length map]. destruct (snd (f o)); lia.
  - unfold within. cbn. lia.
Qed.
Lemma need_series st f n id : (forall sp, space_of st sp -> space_weight sp <= n) ->
  (forall cell sp, object_space st cell = Some sp -> tree sp) -> within (1 + n * (3 + n * (2 * n + 6))) (parse_page_series_t f st id).
Proof.
  intros L T. unfold parse_page_series_t. apply need_at_root. intros o Ho. apply within_lifted. intros d Hd.
  apply series_ok in Hd. assert (Hs : spaces o 0x2C001D63 (pn_page_spaces d)) by apply Hd. apply spaces_short in Hs.
  pose proof (wt_parts o). pose proof (wt_space _ _ _ Ho). pose proof (L _ (or_introl eq_refl)) as L0.
  apply (within_le (length (pn_page_spaces d) * (3 + n * (2 * n + 6)))); [apply Nat.mul_le_mono_r; lia|].
  apply within_times. intro cell. apply (within_bind 1).
  { unfold within. cbn. destruct (ok_or _ _); lia. }
  intros sp E. cbn in E. destruct (object_space st cell) as [sp'|] eqn:Es; [|discriminate]. cbn in E. injection E as <-. apply need_at.
  eapply within_le; [|apply need_page, (T cell sp' Es)].
  assert (space_of st sp').
  { right. exists cell. unfold object_space in Es. apply (alookup_in cellid_eqb PackageRT.cellid_eqb_eq) in Es. exact Es. }
  apply L in H1. nia.
Qed.
Lemma need_section st f n file : (forall sp, space_of st sp -> space_weight sp <= n) ->
  (forall cell sp, object_space st cell = Some sp -> tree sp) ->
  within (2 + n * (1 + n * (3 + n * (2 * n + 6)))) (parse_section_t f st file).
Proof.
  intros L T. unfold parse_section_t. apply (within_bind 1).
  { apply need_at. apply within_lifted. intros id _. apply (within_need _ id 0). intros o _. split; [apply within_lift|lia]. }
  intros m _. apply (within_bind 1).
  { apply need_at. apply within_lifted. intros id _. apply (within_need _ id 0). intros o _. split; [apply within_lift|lia]. }
  intros c Hc. cbn [at_ snd] in Hc. cbv zeta. unfold section_content_t in Hc. rewrite snd_bind in Hc. apply bind_ok in Hc as (id & _ & Hc).
  rewrite snd_bind in Hc. apply bind_ok in Hc as (o & Ho & Hc). cbn in Ho. apply need_ok in Ho. cbn in Hc.
  apply section_node_ok in Hc. assert (Hs : children o 0x24001C20 (sn_page_series c)) by apply Hc. apply children_short in Hs.
  pose proof (wt_parts o). pose proof (wt_space _ _ _ Ho). pose proof (L _ (or_introl eq_refl)) as L0.
  apply (within_le (length (sn_page_series c) * (1 + n * (3 + n * (2 * n + 6))) + 0)); [rewrite Nat.add_0_r; apply Nat.mul_le_mono_r; lia|].
  apply within_bind; [|intros; apply within_ret]. apply within_times. intro. now apply need_series.
Qed.
Lemma looks_bound h f d st file : open_store h f d = Ok st -> (forall cell sp, object_space st cell = Some sp -> tree sp) ->
  forall fuel, length (fst (parse_section_t fuel st file)) <= 2 * (length d + 2) ^ 4.
Proof.
  intros E T fuel. assert (L : forall sp, space_of st sp -> space_weight sp <= length d).
  { intros sp S. pose proof (proj1 (open_light h f d st E sp S)). lia. }
  pose proof (within_all _ _ (need_section st fuel (length d) file L T)) as B. set (n := length d) in *. clearbody n.
  eapply Nat.le_trans; [exact B|]. cbn [Nat.pow]. clear. nia.
Qed.

(** ** At least *)
Lemma tbind_ok {T A B} (p : traced T A) (f : A -> traced T B) b : snd (tbind p f) = Ok b ->
  exists a, snd p = Ok a /\ snd (f a) = Ok b /\ length (fst (tbind p f)) = length (fst p) + length (fst (f a)).
Proof.
  rewrite tbind_eq. destruct (snd p) as [a|e| |]; try discriminate. cbn [snd fst]. intro H. exists a. now rewrite app_length.
Qed.
Lemma map_least {T A B} (size : B -> nat) (f : A -> traced T B) l : (forall a b, snd (f a) = Ok b -> size b <= length (fst (f a))) ->
  forall ys, snd (map_t f l) = Ok ys -> total size ys <= length (fst (map_t f l)).
Proof.
  intro F. induction l as [|a l IH]; intros ys H; cbn [map_t] in *; [injection H as <-; cbn; lia|].
  apply tbind_ok in H as (b & Hb & H & ->). apply tbind_ok in H as (bs & Hbs & H & ->). injection H as <-. cbn [total].
  apply F in Hb. apply IH in Hbs. lia.
Qed.
Ltac step H a := apply tbind_ok in H as (a & ? & H & ->).

Lemma least_cell e sp id c : (forall a x, snd (e a) = Ok x -> element_size x <= length (fst (e a))) -> snd (parse_cell_t e id sp) = Ok c ->
  cell_size c <= length (fst (parse_cell_t e id sp)).
Proof.
  unfold parse_cell_t. intros F H. step H o. step H d. step H l. injection H as <-. cbn [cell_size need_object_t fst length].
  pose proof (map_least element_size e _ F _ H2). lia.
Qed.
Lemma least_row e sp id r : (forall a x, snd (e a) = Ok x -> element_size x <= length (fst (e a))) -> snd (parse_row_t e id sp) = Ok r ->
  row_size r <= length (fst (parse_row_t e id sp)).
Proof.
  unfold parse_row_t. intros F H. step H o. step H d. step H l. injection H as <-. cbn [row_size need_object_t fst length].
  pose proof (map_least cell_size _ _ (fun a c => least_cell e sp a c F) _ H2). lia.
Qed.
Lemma least_table e sp id r : (forall a x, snd (e a) = Ok x -> element_size x <= length (fst (e a))) -> snd (parse_table_t e id sp) = Ok r ->
  table_size r <= length (fst (parse_table_t e id sp)).
Proof.
  unfold parse_table_t. intros F H. step H o. step H d. step H l. step H t. injection H as <-. cbn [table_size need_object_t fst length].
  pose proof (map_least row_size _ _ (fun a c => least_row e sp a c F) _ H2). lia.
Qed.
Lemma least_parts sp f :
  (forall id i, snd (parse_outline_item_t f sp id) = Ok i -> item_size i <= length (fst (parse_outline_item_t f sp id))) /\
  (forall id e, snd (parse_outline_element_t f sp id) = Ok e -> element_size e <= length (fst (parse_outline_element_t f sp id))) /\
  (forall id c, snd (parse_content_t f sp id) = Ok c -> content_size c <= length (fst (parse_content_t f sp id))).
Proof.
  induction f as [|f (IHi & IHe & IHc)]; [repeat split; discriminate|].
  refine (conj _ (conj _ _)); intros id x H; cbn [parse_outline_item_t parse_outline_element_t parse_content_t] in *.
  - step H o. step H k. destruct k; try discriminate H.
    + step H e. injection H as <-. cbn [item_size]. apply IHe in H2. lia.
    + step H go. step H d. step H l. injection H as <-. cbn [item_size need_object_t fst length].
      pose proof (map_least item_size _ _ IHi _ H4). lia.
  - step H o. step H d. step H l. step H c. step H li. injection H as <-. cbn [element_size need_object_t fst length].
    pose proof (map_least item_size _ _ IHi _ H2). pose proof (map_least content_size _ _ IHc _ H3). lia.
  - step H o. step H k. cbn [need_object_t fst length]. destruct k; try (injection H as <-; cbn [content_size]; lia); step H y; injection H as <-; cbn [content_size]; try lia.
    pose proof (least_table _ _ _ _ IHe H2). lia.
Qed.
Lemma least_outline f sp id x : snd (parse_outline_t f sp id) = Ok x -> outline_size x <= length (fst (parse_outline_t f sp id)).
Proof.
  unfold parse_outline_t. intro H. step H o. step H d. step H l. injection H as <-. unfold outline_size. cbn [ol_items need_object_t fst length].
  pose proof (map_least item_size _ _ (proj1 (least_parts sp f)) _ H2). lia.
Qed.
Lemma least_page_content f sp id x : snd (parse_page_content_t f sp id) = Ok x -> page_content_size x <= length (fst (parse_page_content_t f sp id)).
Proof.
  unfold parse_page_content_t. intro H. step H o. step H k. cbn [need_object_t fst length].
  destruct k; try (injection H as <-; cbn [page_content_size]; lia); step H y; injection H as <-; cbn [page_content_size]; try lia.
  apply least_outline in H2. lia.
Qed.
Lemma least_title f sp id x : snd (parse_title_t f sp id) = Ok x -> title_size x <= length (fst (parse_title_t f sp id)).
Proof.
  unfold parse_title_t. intro H. step H o. step H d. step H l. injection H as <-. unfold title_size. cbn [ti_contents need_object_t fst length].
  pose proof (map_least outline_size _ _ (least_outline f sp) _ H2). lia.
Qed.
Lemma least_page f sp p : snd (parse_page_t f sp) = Ok p -> 2 + page_size p <= length (fst (parse_page_t f sp)).
Proof.
  unfold parse_page_t. intro H. step H m. step H pid. step H d. step H t. step H c. injection H as <-. unfold page_size. cbn [pg_title pg_contents].
  assert (A : length (fst (page_metadata_t sp)) = 1).
  { unfold page_metadata_t in *. apply tbind_ok in H0 as (? & ? & H0 & ->). apply tbind_ok in H0 as (? & ? & H0 & ->). reflexivity. }
  assert (B : length (fst (page_manifest_t sp)) = 1).
  { unfold page_manifest_t in *. apply tbind_ok in H1 as (? & ? & H1 & ->). apply tbind_ok in H1 as (? & ? & H1 & ->). reflexivity. }
  assert (C : length (fst (page_node_t pid sp)) = 1).
  { unfold page_node_t in *. apply tbind_ok in H2 as (? & ? & H2 & ->). reflexivity. }
  pose proof (map_least page_content_size _ _ (least_page_content f sp) _ H4) as D.
  assert (E : match t with Some t => title_size t | None => 0 end <= length (fst (opt_map_t (parse_title_t f sp) (pd_title d)))).
  { destruct (pd_title d) as [ti|]; cbn [opt_map_t] in *; [|injection H3 as <-; cbn; lia].
    apply tbind_ok in H3 as (? & G & H3 & ->). injection H3 as <-. apply least_title in G. lia. }
  rewrite A, B, C. lia.
Qed.
Lemma least_section f st file s : snd (parse_section_t f st file) = Ok s -> section_size s <= length (fst (parse_section_t f st file)).
Proof.
  unfold parse_section_t. intro H. step H m. step H c. step H l. injection H as <-. unfold section_size. cbn [se_page_series].
  assert (F : forall id ps, snd (parse_page_series_t f st id) = Ok ps -> total page_size ps <= length (fst (parse_page_series_t f st id))).
  { clear. unfold parse_page_series_t. intros id ps H. step H o. step H d.
    assert (G : forall cell p, snd (let+ sp := ([TheSpace cell], ok_or MalformedOneNoteData (object_space st cell)) in at_ (InSpace cell) (parse_page_t f sp)) = Ok p ->
      page_size p <= length (fst (let+ sp := ([TheSpace cell], ok_or MalformedOneNoteData (object_space st cell)) in at_ (InSpace cell) (parse_page_t f sp)))).
    { clear. intros cell p H. step H sp. cbn [at_ snd] in H. apply least_page in H. cbn [at_ fst]. rewrite map_length. lia. }
    pose proof (map_least page_size _ _ G _ H). lia. }
  pose proof (map_least (total page_size) _ _ F _ H2). lia.
Qed.
Lemma in_total {A} (g : A -> nat) l a : In a l -> g a <= total g l.
Proof. induction l as [|b l IH]; [intros []|]. cbn [total]. intros [->|I]; [lia|]. apply IH in I. lia. Qed.
Lemma looks_shared k : (N.of_nat k < 2 ^ 31)%N ->
  exists d, bytes_ok d /\ length d <= 320 * k + 5000 /\ forall h, exists st, open_store h 1 d = Ok st /\
    forall file, exists f, forall fuel, f <= fuel -> exists s, snd (parse_section_t fuel st file) = Ok s /\ 2 ^ k <= length (fst (parse_section_t fuel st file)).
Proof.
  intro L. destruct (DoubleProofs.doubled_grows k L) as (d & B & Ln & H). exists d. refine (conj B (conj Ln _)). intro h.
  destruct (H h) as (st & s & E & _ & P & ps & p & I1 & I2 & Z). exists st. split; [exact E|]. intro file. destruct (P file) as (f & F).
  exists (max 1 f). intros fuel Hf. exists s. specialize (F fuel ltac:(lia)). 
  assert (E' : open_store h fuel d = Ok st) by (rewrite (OnceProofs.open_fuel h 1 fuel d ltac:(lia)); [exact E|rewrite E; discriminate]).
  assert (S : snd (parse_section_t fuel st file) = Ok s).
  { rewrite same_section. unfold parse_section_buffer in F. rewrite E' in F. cbn [rbind] in F. destruct (_ =? _)%N; [exact F|discriminate]. }
  split; [exact S|]. apply least_section in S. pose proof (in_total page_size ps p I2). pose proof (in_total (total page_size) _ ps I1).
  unfold section_size in S. lia.
Qed.
Lemma looks_buffer h f d file : (forall st cell sp, open_store h f d = Ok st -> object_space st cell = Some sp -> tree sp) ->
  length (fst (parse_section_buffer_t h f d file)) <= 2 * (length d + 2) ^ 4.
Proof.
  intro T. unfold parse_section_buffer_t. rewrite tbind_eq. cbn [tlift snd fst]. destruct (open_store h f d) as [st|e| |] eqn:E; cbn [fst length]; try lia.
  cbn [app]. destruct (_ =? _)%N; [|cbn; lia]. apply (looks_bound h f d st file E). intros cell sp. now apply T.
Qed.
