(** Proofs for C90. *)
From Coq Require Import Lia ZifyBool ZifyNat ZifyN Permutation Relations.
From Verif Require Import Base BaseProofs Codec Package PropSet PropIds Store Shapes Props Nodes Doc SpecCodec SpecStore SpecValues SpecNodes
  NodesProofs NodesProofs2 NodesProofs3 StoreProofs StoreProofs2 StoreProofs3 PackageProofs PackageFacts SpecDoc DocProofs DocProofs2 DocProofs3 DocProofs4 DocProofs5 DocProofs6
  SpecDeep.
From Verif Require Notebook.
Local Open Scope nat_scope.

(** ** The largest number *)
Lemma most_in {A} (f : A -> nat) l x : In x l -> f x <= most f l.
Proof. induction l as [|a l IH]; [intros []|]. cbn [most]. fold (most f). intros [<-|I]; [lia|]. specialize (IH I). lia. Qed.
Lemma most_le {A} (f : A -> nat) l n : (forall x, In x l -> f x <= n) -> most f l <= n.
Proof. induction l as [|a l IH]; intros H; [cbn; lia|]. change (most f (a :: l)) with (Nat.max (f a) (most f l)). pose proof (H a (or_introl eq_refl)). specialize (IH (fun x I => H x (or_intror I))). lia. Qed.
Lemma most_reached {A} (f : A -> nat) l : most f l = 0 \/ exists x, In x l /\ f x = most f l.
Proof.
  induction l as [|a l IH]; [now left|]. change (most f (a :: l)) with (Nat.max (f a) (most f l)).
  destruct (Nat.max_spec (f a) (most f l)) as [(L & ->)|(L & ->)]; [|right; exists a; split; [now left|reflexivity]].
  destruct IH as [E|(x & I & E)]; [lia|]. right. exists x. split; [now right|exact E].
Qed.

Lemma map_from {A B} (f : A -> res B) l ys y : map_res f l = Ok ys -> In y ys -> exists a, In a l /\ f a = Ok y.
Proof.
  intros H. apply map_res_ok in H. induction H as [|a b l ys E H IH]; intros I; [destruct I|]. destruct I as [<-|I].
  - exists a. split; [now left|exact E].
  - destruct (IH I) as (a' & J & E'). exists a'. split; [now right|exact E'].
Qed.

(** ** Steps *)
Lemma map_calls {A B} (f : A -> res B) (c : B -> nat) n l ys :
  (forall a y, f a = Ok y -> c y <= n) -> map_res f l = Ok ys -> most c ys <= n.
Proof. intros F H. apply most_le. intros y I. destruct (map_from _ _ _ _ H I) as (a & _ & E). exact (F a y E). Qed.
Lemma map_again {A B} (f g : A -> res B) (c : B -> nat) n l ys :
  (forall a y, f a = Ok y -> c y <= n -> g a = Ok y) -> map_res f l = Ok ys -> most c ys <= n -> map_res g l = Ok ys.
Proof.
  intros F H L. apply map_res_ok. apply map_res_ok in H. induction H as [|a b l ys E H IH]; constructor.
  - apply F; [exact E|]. pose proof (most_in c (b :: ys) b (or_introl eq_refl)). lia.
  - apply IH. change (most c (b :: ys)) with (Nat.max (c b) (most c ys)) in L. lia.
Qed.

Lemma table_calls_le sp el n id t : (forall a y, el a = Ok y -> element_calls y <= n) ->
  parse_table el id sp = Ok t -> table_calls t <= n.
Proof.
  intros F H. unfold parse_table in H. apply bind_ok in H as (o & _ & H). apply bind_ok in H as (d & _ & H).
  apply bind_ok in H as (rows & Hr & H). apply bind_ok in H as (ts & _ & H). injection H as <-. cbn [table_calls].
  revert Hr. apply map_calls. intros r y Hy. unfold parse_row in Hy. apply bind_ok in Hy as (ro & _ & Hy).
  apply bind_ok in Hy as (rd & _ & Hy). apply bind_ok in Hy as (cs & Hc & Hy). injection Hy as <-. cbn [row_calls].
  revert Hc. apply map_calls. intros c z Hz. unfold parse_cell in Hz. apply bind_ok in Hz as (co & _ & Hz).
  apply bind_ok in Hz as (cd & _ & Hz). apply bind_ok in Hz as (es & He & Hz). injection Hz as <-. cbn [cell_calls].
  revert He. now apply map_calls.
Qed.

Lemma outline_calls sp f :
  (forall id x, parse_outline_item f sp id = Ok x -> item_calls x <= f) /\
  (forall id x, parse_outline_element f sp id = Ok x -> element_calls x <= f) /\
  (forall id x, parse_content f sp id = Ok x -> content_calls x <= f).
Proof.
  induction f as [|f (IHi & IHe & IHc)]; [split; [|split]; intros id x [=]|]. split; [|split]; intros id x H; cbn in H.
  - apply bind_ok in H as (o & _ & H). apply bind_ok in H as (k & _ & H). destruct k; try discriminate H.
    + apply bind_ok in H as (e & He & H). injection H as <-. apply IHe in He. cbn [item_calls]. lia.
    + apply bind_ok in H as (go & _ & H). apply bind_ok in H as (d & _ & H). apply bind_ok in H as (l & Hl & H). injection H as <-.
      cbn [item_calls]. apply (map_calls _ item_calls f) in Hl; [|exact IHi]. lia.
  - apply bind_ok in H as (o & _ & H). apply bind_ok in H as (d & _ & H). apply bind_ok in H as (l & Hl & H).
    apply bind_ok in H as (cs & Hc & H). apply bind_ok in H as (ls & _ & H). injection H as <-. cbn [element_calls].
    apply (map_calls _ item_calls f) in Hl; [|exact IHi]. apply (map_calls _ content_calls f) in Hc; [|exact IHc]. lia.
  - apply bind_ok in H as (o & _ & H). apply bind_ok in H as (k & _ & H).
    destruct k; try (injection H as <-; cbn [content_calls]; lia);
      apply bind_ok in H as (y & Hy & H); injection H as <-; cbn [content_calls]; try lia.
    apply (table_calls_le sp _ f) in Hy; [lia|exact IHe].
Qed.

Lemma table_again sp el el' n id t : (forall a y, el a = Ok y -> element_calls y <= n -> el' a = Ok y) ->
  parse_table el id sp = Ok t -> table_calls t <= n -> parse_table el' id sp = Ok t.
Proof.
  intros F H. unfold parse_table in *. apply bind_ok in H as (o & -> & H). apply bind_ok in H as (d & Ed & H).
  apply bind_ok in H as (rows & Hr & H). apply bind_ok in H as (ts & Et & H). injection H as <-. cbn [table_calls]. intros L.
  cbn [rbind]. rewrite Ed. cbn [rbind]. rewrite (map_again _ (fun i => parse_row el' i sp) row_calls n _ _) with (2 := Hr) (3 := L).
  { cbn [rbind]. rewrite Et. reflexivity. }
  clear - F. intros r y Hy Ly. unfold parse_row in *. apply bind_ok in Hy as (ro & -> & Hy).
  apply bind_ok in Hy as (rd & Ed & Hy). apply bind_ok in Hy as (cs & Hc & Hy). injection Hy as <-. cbn [row_calls] in Ly.
  cbn [rbind]. rewrite Ed. cbn [rbind]. rewrite (map_again _ (fun i => parse_cell el' i sp) cell_calls n _ _) with (2 := Hc) (3 := Ly); [reflexivity|].
  clear - F. intros c z Hz Lz. unfold parse_cell in *. apply bind_ok in Hz as (co & -> & Hz).
  apply bind_ok in Hz as (cd & Ed & Hz). apply bind_ok in Hz as (es & He & Hz). injection Hz as <-. cbn [cell_calls] in Lz.
  cbn [rbind]. rewrite Ed. cbn [rbind]. rewrite (map_again _ el' element_calls n _ _) with (2 := He) (3 := Lz); [reflexivity|exact F].
Qed.

Lemma outline_again sp f : forall f',
  (forall id x, parse_outline_item f sp id = Ok x -> item_calls x <= f' -> parse_outline_item f' sp id = Ok x) /\
  (forall id x, parse_outline_element f sp id = Ok x -> element_calls x <= f' -> parse_outline_element f' sp id = Ok x) /\
  (forall id x, parse_content f sp id = Ok x -> content_calls x <= f' -> parse_content f' sp id = Ok x).
Proof.
  induction f as [|f IH]; [intros f'; split; [|split]; intros id x [=]|]. intros f'.
  split; [|split]; intros id x H L; cbn in H.
  - assert (P : exists g, f' = S g). { destruct f' as [|g]; [|now exists g]. destruct x; cbn [item_calls] in L; lia. }
    destruct P as (g & ->). destruct (IH g) as (IHi & IHe & IHc). cbn [parse_outline_item].
    apply bind_ok in H as (o & -> & H). cbn [rbind]. apply bind_ok in H as (k & -> & H). cbn [rbind].
    destruct k; try discriminate H.
    + apply bind_ok in H as (e & He & H). injection H as <-. cbn [item_calls] in L. rewrite (IHe _ _ He) by lia. reflexivity.
    + cbn [rbind] in *. apply bind_ok in H as (d & -> & H). cbn [rbind].
      apply bind_ok in H as (l & Hl & H). injection H as <-. cbn [item_calls] in L.
      rewrite (map_again _ (parse_outline_item g sp) item_calls g _ _ IHi Hl) by lia. reflexivity.
  - assert (P : exists g, f' = S g). { destruct f' as [|g]; [|now exists g]. destruct x; cbn [element_calls] in L; lia. }
    destruct P as (g & ->). destruct (IH g) as (IHi & IHe & IHc). cbn [parse_outline_element].
    apply bind_ok in H as (o & -> & H). cbn [rbind]. apply bind_ok in H as (d & -> & H). cbn [rbind].
    apply bind_ok in H as (l & Hl & H). apply bind_ok in H as (cs & Hc & H). apply bind_ok in H as (ls & Es & H). injection H as <-.
    cbn [element_calls] in L. rewrite (map_again _ (parse_outline_item g sp) item_calls g _ _ IHi Hl) by lia. cbn [rbind].
    rewrite (map_again _ (parse_content g sp) content_calls g _ _ IHc Hc) by lia. cbn [rbind]. rewrite Es. reflexivity.
  - assert (P : exists g, f' = S g). { destruct f' as [|g]; [|now exists g]. destruct x; cbn [content_calls] in L; lia. }
    destruct P as (g & ->). destruct (IH g) as (IHi & IHe & IHc). cbn [parse_content].
    apply bind_ok in H as (o & -> & H). cbn [rbind]. apply bind_ok in H as (k & -> & H). cbn [rbind].
    destruct k; try exact H.
    apply bind_ok in H as (t & Ht & H). injection H as <-. cbn [content_calls] in L.
    rewrite (table_again sp _ (parse_outline_element g sp) g _ _ IHe Ht) by lia. reflexivity.
Qed.

Definition outline_deep (o : outline) : nat := most item_calls (ol_items o).
Lemma outline_once sp f f' id x : parse_outline f sp id = Ok x -> outline_deep x <= f /\ (outline_deep x <= f' -> parse_outline f' sp id = Ok x).
Proof.
  unfold parse_outline. intros H. apply bind_ok in H as (o & -> & H). apply bind_ok in H as (d & Ed & H).
  apply bind_ok in H as (l & Hl & H). injection H as <-. unfold outline_deep. cbn [ol_items rbind]. rewrite Ed. cbn [rbind]. split.
  - revert Hl. apply map_calls. apply outline_calls.
  - intros L. rewrite (map_again _ (parse_outline_item f' sp) item_calls f' _ _ (proj1 (outline_again sp f f')) Hl L). reflexivity.
Qed.
Lemma map_once {A B} (f g : A -> res B) (c : B -> nat) n m l ys :
  (forall a y, f a = Ok y -> c y <= n /\ (c y <= m -> g a = Ok y)) -> map_res f l = Ok ys ->
  most c ys <= n /\ (most c ys <= m -> map_res g l = Ok ys).
Proof.
  intros F H. split; [revert H; apply map_calls; intros a y E; apply (F a y E)|].
  apply (map_again f); [|exact H]. intros a y E. apply (F a y E).
Qed.
Definition content_deep (c : page_content) : nat := match c with PcOutline o => outline_deep o | _ => 0 end.
Lemma content_once sp f f' id x : parse_page_content f sp id = Ok x ->
  content_deep x <= f /\ (content_deep x <= f' -> parse_page_content f' sp id = Ok x).
Proof.
  unfold parse_page_content. intros H. apply bind_ok in H as (o & -> & H). cbn [rbind]. apply bind_ok in H as (k & -> & H). cbn [rbind].
  destruct k; try (injection H as <-; cbn [content_deep]; split; [lia|reflexivity]);
    try (apply bind_ok in H as (y & Hy & H); injection H as <-; cbn [content_deep]; split; [lia|]; rewrite Hy; reflexivity).
  apply bind_ok in H as (y & Hy & H). injection H as <-. cbn [content_deep]. destruct (outline_once sp f f' _ _ Hy) as (L & G).
  split; [exact L|]. intros M. rewrite (G M). reflexivity.
Qed.
Lemma contents_deep cs : most content_deep cs = most outline_deep (Doc.filter_map page_content_outline cs).
Proof.
  induction cs as [|c cs IH]; [reflexivity|]. change (most content_deep (c :: cs)) with (Nat.max (content_deep c) (most content_deep cs)).
  rewrite IH. unfold Doc.filter_map. cbn [map concat flat_map]. destruct c; reflexivity.
Qed.
Lemma most_app {A} (f : A -> nat) l l' : most f (l ++ l') = Nat.max (most f l) (most f l').
Proof. induction l as [|a l IH]; [reflexivity|]. change (most f ((a :: l) ++ l')) with (Nat.max (f a) (most f (l ++ l'))). change (most f (a :: l)) with (Nat.max (f a) (most f l)). lia. Qed.
Lemma page_once sp f f' p : parse_page f sp = Ok p -> page_calls p <= f /\ (page_calls p <= f' -> parse_page f' sp = Ok p).
Proof.
  unfold parse_page. intros H. apply bind_ok in H as (m & -> & H). apply bind_ok in H as (mf & Ef & H). apply bind_ok in H as (d & Ed & H).
  apply bind_ok in H as (t & Et & H). apply bind_ok in H as (cs & Ec & H). injection H as <-. cbn [rbind]. rewrite Ef. cbn [rbind]. rewrite Ed. cbn [rbind].
  unfold page_calls, page_outlines. cbn [pg_title pg_contents]. rewrite most_app. fold outline_deep. rewrite <- contents_deep.
  destruct (map_once _ (parse_page_content f' sp) content_deep f f' _ _ (content_once sp f f') Ec) as (L & G).
  assert (T : most outline_deep (match t with Some t => ti_contents t | None => [] end) <= f /\
    (most outline_deep (match t with Some t => ti_contents t | None => [] end) <= f' -> opt_map_res (parse_title f' sp) (pd_title d) = Ok t)).
  { destruct (pd_title d) as [tid|]; cbn [opt_map_res] in *; [|injection Et as <-; cbn; split; [lia|reflexivity]].
    apply bind_ok in Et as (t' & Et & H). injection H as <-. unfold parse_title in *. apply bind_ok in Et as (o & -> & H).
    apply bind_ok in H as (td & Etd & H). apply bind_ok in H as (l & Hl & H). injection H as <-. cbn [ti_contents rbind]. rewrite Etd. cbn [rbind].
    destruct (map_once _ (parse_outline f' sp) outline_deep f f' _ _ (outline_once sp f f') Hl) as (L' & G'). split; [exact L'|].
    intros M. rewrite (G' M). reflexivity. }
  destruct T as (L' & G'). split; [change (fun o => most item_calls (ol_items o)) with outline_deep; lia|].
  change (fun o => most item_calls (ol_items o)) with outline_deep. intros M. rewrite G' by lia. cbn [rbind]. rewrite G by lia. reflexivity.
Qed.
Lemma page_exact sp f p : parse_page f sp = Ok p -> forall f', parse_page f' sp = Ok p <-> page_calls p <= f'.
Proof.
  intros H f'. split; [intros H'; exact (proj1 (page_once sp f' f' p H'))|exact (proj2 (page_once sp f f' p H))].
Qed.
Lemma most_concat {A} (f : A -> nat) ll : most f (concat ll) = most (most f) ll.
Proof. induction ll as [|l ll IH]; [reflexivity|]. cbn [concat]. rewrite most_app, IH. reflexivity. Qed.
Lemma section_once st f f' n s : Doc.parse_section f st n = Ok s -> section_calls s <= f /\ (section_calls s <= f' -> Doc.parse_section f' st n = Ok s).
Proof.
  unfold Doc.parse_section. intros H. apply bind_ok in H as (m & -> & H). apply bind_ok in H as (c & Ec & H). cbv zeta in H.
  apply bind_ok in H as (l & Hl & H). injection H as <-. unfold section_calls. cbn [se_page_series rbind]. rewrite Ec. cbn [rbind]. rewrite most_concat.
  destruct (map_once (parse_page_series f st) (parse_page_series f' st) (most page_calls) f f' (sn_page_series c) l) as (L & G); [|exact Hl|].
  { intros id ps H. unfold parse_page_series in *. apply bind_ok in H as (o & -> & H). apply bind_ok in H as (d & Ed & H). cbn [rbind]. rewrite Ed. cbn [rbind].
    revert H. apply map_once. intros cell p H. apply bind_ok in H as (sp & -> & H). cbn [rbind]. exact (page_once sp f f' p H). }
  split; [exact L|]. intros M. cbv zeta. rewrite (G M). reflexivity.
Qed.
Lemma section_exact st f n s : Doc.parse_section f st n = Ok s -> forall f', Doc.parse_section f' st n = Ok s <-> section_calls s <= f'.
Proof.
  intros H f'. split; [intros H'; exact (proj1 (section_once st f' f' n s H'))|exact (proj2 (section_once st f f' n s H))].
Qed.

(** ** Objects *)
(** [n] objects, each a part of the one before. *)
Inductive deep (sp : space) : nat -> exguid -> Prop :=
| dp_one a o : get_object sp a = Some o -> deep sp 1 a
| dp_more n a b : part sp a b -> deep sp n b -> deep sp (S n) a.
Lemma deep_over sp a o n : get_object sp a = Some o -> n = 0 \/ (exists b, part sp a b /\ deep sp n b) -> deep sp (S n) a.
Proof. intros G [->|(b & P & D)]; [exact (dp_one sp a o G)|exact (dp_more sp n a b P D)]. Qed.

Lemma deep_table sp el id t : (forall a y, el a = Ok y -> deep sp (element_levels y) a) ->
  parse_table el id sp = Ok t -> found sp id (fun o => ob_jcid o = 0x60022%N) /\ deep sp (table_levels t) id.
Proof.
  intros F H. unfold parse_table in H. apply bind_ok in H as (o & Ho & H). apply need_ok in Ho. apply bind_ok in H as (d & Hd & H).
  apply table_ok in Hd. apply bind_ok in H as (rows & Hr & H). apply bind_ok in H as (ts & _ & H). injection H as <-. cbn [table_levels].
  split; [exists o; split; [exact Ho|exact (table_jcid _ _ Hd)]|]. apply (deep_over sp id o); [exact Ho|].
  destruct (most_reached row_levels rows) as [E|(r & I & <-)]; [now left|]. right. destruct (map_from _ _ _ _ Hr I) as (rid & J & H).
  exists rid. split; [exists o; split; [exact Ho|]; right; right; left; eauto|]. clear - F H.
  unfold parse_row in H. apply bind_ok in H as (o & Ho & H). apply need_ok in Ho. apply bind_ok in H as (d & Hd & H).
  apply row_ok in Hd. apply bind_ok in H as (cs & Hc & H). injection H as <-. cbn [row_levels]. apply (deep_over sp rid o); [exact Ho|].
  destruct (most_reached cell_levels cs) as [E|(r & I & <-)]; [now left|]. right. destruct (map_from _ _ _ _ Hc I) as (cid & J & H).
  exists cid. split; [exists o; split; [exact Ho|]; right; right; right; left; eauto|]. clear - F H.
  unfold parse_cell in H. apply bind_ok in H as (o & Ho & H). apply need_ok in Ho. apply bind_ok in H as (d & Hd & H).
  apply cell_ok in Hd. apply bind_ok in H as (es & He & H). injection H as <-. cbn [cell_levels]. apply (deep_over sp cid o); [exact Ho|].
  destruct (most_reached element_levels es) as [E|(r & I & <-)]; [now left|]. right. destruct (map_from _ _ _ _ He I) as (eid & J & H).
  exists eid. split; [exists o; split; [exact Ho|]; right; right; right; right; eauto|]. exact (F _ _ H).
Qed.
Lemma outline_objects sp f :
  (forall id x, parse_outline_item f sp id = Ok x -> deep sp (item_levels x) id) /\
  (forall id x, parse_outline_element f sp id = Ok x -> deep sp (element_levels x) id) /\
  (forall id x, parse_content f sp id = Ok x -> content_levels x = 0 \/ found sp id (fun o => ob_jcid o = 0x60022%N) /\ deep sp (content_levels x) id).
Proof.
  induction f as [|f (IHi & IHe & IHc)]; [split; [|split]; intros id x [=]|]. split; [|split]; intros id x H; cbn in H.
  - apply bind_ok in H as (o & Ho & H). apply need_ok in Ho. apply bind_ok in H as (k & _ & H). destruct k; try discriminate H.
    + apply bind_ok in H as (e & He & H). injection H as <-. exact (IHe _ _ He).
    + apply bind_ok in H as (go & Hg & H). apply need_ok in Hg. apply bind_ok in H as (d & Hd & H). apply group_ok in Hd.
      apply bind_ok in H as (l & Hl & H). injection H as <-. cbn [item_levels]. apply (deep_over sp id go); [exact Hg|].
      destruct (most_reached item_levels l) as [E|(y & I & <-)]; [now left|]. right. destruct (map_from _ _ _ _ Hl I) as (b & J & H).
      exists b. split; [exists go; split; [exact Hg|left; eauto]|exact (IHi _ _ H)].
  - apply bind_ok in H as (o & Ho & H). apply need_ok in Ho. apply bind_ok in H as (d & Hd & H). apply element_ok in Hd.
    apply bind_ok in H as (l & Hl & H). apply bind_ok in H as (cs & Hc & H). apply bind_ok in H as (ls & _ & H). injection H as <-.
    cbn [element_levels]. apply (deep_over sp id o); [exact Ho|].
    destruct (Nat.max_spec (most item_levels l) (most content_levels cs)) as [(_ & ->)|(_ & ->)].
    + destruct (most_reached content_levels cs) as [E|(y & I & <-)]; [now left|]. destruct (map_from _ _ _ _ Hc I) as (b & J & H).
      destruct (IHc _ _ H) as [E|(T & D)]; [now left|]. right. exists b. split; [|exact D].
      exists o. split; [exact Ho|]. right; left. exists d. split; [exact Hd|]. right. split; [exact J|exact T].
    + destruct (most_reached item_levels l) as [E|(y & I & <-)]; [now left|]. right. destruct (map_from _ _ _ _ Hl I) as (b & J & H).
      exists b. split; [exists o; split; [exact Ho|right; left; eauto]|exact (IHi _ _ H)].
  - apply bind_ok in H as (o & Ho & H). apply need_ok in Ho. apply bind_ok in H as (k & _ & H).
    destruct k; try (injection H as <-; now left); apply bind_ok in H as (y & Hy & H); injection H as <-; try (now left).
    right. exact (deep_table sp _ _ _ IHe Hy).
Qed.

Lemma deep_found sp n a : deep sp n a -> In a (map fst (sp_objects sp)).
Proof.
  intros D. destruct D as [a o G|n a b P D]; [|exact (part_found sp a b P)].
  unfold get_object in G. apply (alookup_in exguid_eqb PackageRT.exguid_eqb_eq) in G. now apply (in_map fst) in G.
Qed.
Lemma deep_list sp n a : deep sp n a -> Acc (inside sp) a ->
  exists l, length l = n /\ NoDup l /\ incl l (map fst (sp_objects sp)) /\ forall x, In x l -> x = a \/ clos_trans _ (part sp) a x.
Proof.
  intros D. induction D as [a o G|n a b P D IH]; intros A.
  - exists [a]. repeat split; [repeat constructor; intros []| |intros x [<-|[]]; now left].
    intros x [<-|[]]. exact (deep_found sp 1 a (dp_one sp a o G)).
  - destruct (IH (Acc_inv A b P)) as (l & Ln & Nd & Hi & Hc). exists (a :: l). split; [cbn [length]; lia|]. split; [|split].
    + constructor; [|exact Nd]. intros Ha. apply (acc_loop (part sp) a A). destruct (Hc a Ha) as [<-|Hb]; [now apply t_step|].
      eapply t_trans; [apply t_step; exact P|exact Hb].
    + intros x [<-|Hx]; [exact (part_found sp a b P)|now apply Hi].
    + intros x [<-|Hx]; [now left|]. right. destruct (Hc x Hx) as [->|Hb]; [now apply t_step|].
      eapply t_trans; [apply t_step; exact P|exact Hb].
Qed.
Lemma item_objects sp f id x : parse_outline_item f sp id = Ok x -> item_levels x <= length (sp_objects sp).
Proof.
  intros H. destruct (deep_list sp _ _ (proj1 (outline_objects sp f) id x H) (proj1 (outline_acc sp f) id x H)) as (l & <- & Nd & Hi & _).
  pose proof (NoDup_incl_length Nd Hi) as L. now rewrite map_length in L.
Qed.
Lemma outline_level sp f id x : parse_outline f sp id = Ok x -> most item_levels (ol_items x) <= length (sp_objects sp).
Proof.
  unfold parse_outline. intros H. apply bind_ok in H as (o & _ & H). apply bind_ok in H as (d & _ & H).
  apply bind_ok in H as (l & Hl & H). injection H as <-. cbn [ol_items]. revert Hl. apply map_calls. apply item_objects.
Qed.
Lemma page_objects sp f p : parse_page f sp = Ok p -> page_levels p <= length (sp_objects sp).
Proof.
  unfold parse_page. intros H. apply bind_ok in H as (m & _ & H). apply bind_ok in H as (mf & _ & H). apply bind_ok in H as (d & _ & H).
  apply bind_ok in H as (t & Et & H). apply bind_ok in H as (cs & Ec & H). injection H as <-. unfold page_levels, page_outlines. cbn [pg_title pg_contents].
  apply most_le. intros o I. apply in_app_or in I as [I|I].
  - destruct t as [t|]; [|destruct I]. destruct (pd_title d) as [tid|]; cbn [opt_map_res] in Et; [|discriminate Et].
    apply bind_ok in Et as (t' & Et & H). injection H as ->. unfold parse_title in Et. apply bind_ok in Et as (to & _ & H).
    apply bind_ok in H as (td & _ & H). apply bind_ok in H as (l & Hl & H). injection H as <-. cbn [ti_contents] in I.
    destruct (map_from _ _ _ _ Hl I) as (a & _ & Ha). exact (outline_level sp f a o Ha).
  - assert (J : In (PcOutline o) cs).
    { clear - I. induction cs as [|c cs IH]; [destruct I|]. unfold Doc.filter_map in I. cbn [flat_map map concat] in I. apply in_app_or in I as [I|I]; [|right; now apply IH].
      destruct c; try (destruct I; fail). destruct I as [<-|[]]. now left. }
    destruct (map_from _ _ _ _ Ec J) as (a & _ & Ha). unfold parse_page_content in Ha. apply bind_ok in Ha as (o' & _ & H).
    apply bind_ok in H as (k & _ & H). destruct k; try discriminate H; apply bind_ok in H as (y & Hy & H); try discriminate H.
    injection H as <-. exact (outline_level sp f a y Hy).
Qed.
