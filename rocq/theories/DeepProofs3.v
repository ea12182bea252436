(** Proofs for C90: how many steps decide; files and folders. *)
From Coq Require Import Lia ZifyBool ZifyNat ZifyN.
From Verif Require Import Base BaseProofs Codec Package PropSet PropIds Store Shapes Props Nodes Doc SpecCodec SpecStore SpecPackage SpecValues SpecNodes
  StoreProofs PackageProofs SpecDoc DocProofs Notebook OnceProofs SpecWeight WeightProofs CrowdProofs SpecSize WriteProofs4 DoubleProofs SpecDeep DeepProofs DeepProofs2.
Local Open Scope nat_scope.

Lemma space_objects sp : length (sp_objects sp) <= space_weight sp.
Proof.
  unfold space_weight. induction (sp_objects sp) as [|[x o] m IH]; [cbn; lia|]. cbn [length].
  change (SpecPackage.total ?f ((x, o) :: m)) with (f (x, o) + SpecPackage.total f m). cbn [snd]. unfold object_weight at 1. lia.
Qed.
Lemma opened_objects h f d st cell sp : open_store h f d = Ok st -> object_space st cell = Some sp -> length (sp_objects sp) <= length d.
Proof.
  intros O S. destruct (open_light h f d st O sp) as (W & _).
  { right. exists cell. exact (lookup_in _ PackageRT.cellid_eqb_eq _ _ _ S). }
  pose proof (space_objects sp). lia.
Qed.
Lemma root_objects h f d st : open_store h f d = Ok st -> length (sp_objects (st_data_root st)) <= length d.
Proof.
  intros O. destruct (open_light h f d st O (st_data_root st)) as (W & _); [now left|].
  pose proof (space_objects (st_data_root st)). lia.
Qed.

(** ** Enough steps *)
Lemma section_enough st n f F : (forall cell sp, object_space st cell = Some sp -> 2 * length (sp_objects sp) < F) ->
  refines (Doc.parse_section f st n) (Doc.parse_section F st n).
Proof.
  intro L. unfold Doc.parse_section. cbv zeta. do 2 more. more; [|more]. more.
  unfold parse_page_series. do 2 more. apply refines_map. intro pid.
  destruct (object_space st pid) as [sp|] eqn:E; cbn [ok_or rbind]; [|apply refines_refl]. apply page_enough. eauto.
Qed.
Lemma open_refines {A} h f F d (k k' : store -> res A) : length d < F ->
  (forall st, open_store h F d = Ok st -> refines (k st) (k' st)) ->
  refines (let! st := open_store h f d in k st) (let! st := open_store h F d in k' st).
Proof.
  intros L H. pose proof (open_enough h f F d L) as R. intros N.
  destruct (open_store h f d) as [st|e| |] eqn:E; cbn [rbind] in N |- *; [..|contradiction];
    rewrite (R ltac:(discriminate)); cbn [rbind]; try reflexivity.
  apply H; [now rewrite (R ltac:(discriminate))|exact N].
Qed.
Lemma buffer_enough h d n f F : 2 * length d < F -> refines (parse_section_buffer h f d n) (parse_section_buffer h F d n).
Proof.
  intro L. unfold parse_section_buffer. apply open_refines; [lia|]. intros st O.
  destruct (_ =? _)%N; [|apply refines_refl]. apply section_enough. intros cell sp S.
  pose proof (opened_objects _ _ _ _ _ _ O S). lia.
Qed.
Lemma section_file_enough h fs p f F : (forall d, fs_read fs p = Some d -> 2 * length d < F) ->
  refines (parse_section_file h f fs p) (parse_section_file h F fs p).
Proof.
  intro L. unfold parse_section_file. destruct (fs_read fs p) as [d|]; cbn [ok_or rbind]; [|apply refines_refl].
  specialize (L d eq_refl). apply open_refines; [lia|]. intros st O.
  destruct (_ =? _)%N; [|apply refines_refl]. more. apply section_enough. intros cell sp S.
  pose proof (opened_objects _ _ _ _ _ _ O S). lia.
Qed.
Lemma notebook_enough s h fs f F : (forall p d, fs_read fs p = Some d -> 2 * length d < F) -> forall depth p,
  refines (parse_notebook s h depth f fs p) (parse_notebook s h depth F fs p).
Proof.
  intro L. induction depth as [|depth IH]; intros p; [apply refines_refl|].
  cbn [parse_notebook]. destruct (fs_read fs p) as [d|] eqn:R; cbn [ok_or rbind]; [|apply refines_refl].
  pose proof (L p d R) as Ld. apply open_refines; [lia|]. intros st O.
  destruct (_ =? _)%N; [|apply refines_refl]. more.
  apply refines_rbind; [apply toc_enough; pose proof (root_objects _ _ _ _ O); lia|]. intros (names, color).
  more. more; [|more]. more. more; [more; [apply section_file_enough; eauto|more]|].
  do 3 more. more; [apply IH|more].
Qed.

(** ** Bytes *)
Lemma parsed_page f st n s ps p : Doc.parse_section f st n = Ok s -> In ps (se_page_series s) -> In p ps ->
  exists cell sp, object_space st cell = Some sp /\ parse_page f sp = Ok p.
Proof.
  unfold Doc.parse_section. cbv zeta. intros H. apply rbind_ok in H as (m & _ & H). apply rbind_ok in H as (c & _ & H).
  apply rbind_ok in H as (l & Hl & [= <-]). cbn [se_page_series]. intros I J.
  destruct (DeepProofs.map_from _ _ _ _ Hl I) as (id & _ & Hs). unfold parse_page_series in Hs.
  apply rbind_ok in Hs as (o & _ & Hs). apply rbind_ok in Hs as (d & _ & Hs).
  destruct (DeepProofs.map_from _ _ _ _ Hs J) as (cell & _ & Hp).
  apply rbind_ok in Hp as (sp & Hsp & Hp). exists cell, sp. split; [|exact Hp].
  destruct (object_space st cell); [|discriminate Hsp]. now injection Hsp as ->.
Qed.
Lemma buffer_levels h f d n s ps p : parse_section_buffer h f d n = Ok s -> In ps (se_page_series s) -> In p ps -> page_levels p <= length d.
Proof.
  unfold parse_section_buffer. intros H I J. destruct (open_store h f d) as [st| | |] eqn:O; cbn [rbind] in H; try discriminate H.
  destruct (_ =? _)%N; [|discriminate H]. destruct (parsed_page _ _ _ _ _ _ H I J) as (cell & sp & S & P).
  pose proof (page_objects _ _ _ P). pose proof (opened_objects _ _ _ _ _ _ O S). lia.
Qed.

(** ** Calls and levels *)
Lemma most_bound {A} (f g : A -> nat) a b l : (forall x, In x l -> f x <= a * g x + b) -> l = [] \/ most f l <= a * most g l + b.
Proof.
  intros H. destruct l as [|y l]; [now left|]. right. apply most_le. intros x I. apply H in I as K. pose proof (most_in g _ x I).
  assert (a * g x <= a * most g (y :: l)) by now apply Nat.mul_le_mono_l. lia.
Qed.
Lemma most_plain {A} (f g : A -> nat) a b l : (forall x, In x l -> f x <= a * g x + b) -> most f l <= a * most g l + b.
Proof. intros H. destruct (most_bound f g a b l H) as [->|K]; [cbn; lia|exact K]. Qed.
Lemma calls_levels n :
  (forall i, item_calls i <= n -> item_calls i <= 2 * item_levels i + 1) /\
  (forall e, element_calls e <= n -> element_calls e <= 2 * element_levels e + 0) /\
  (forall c, content_calls c <= n -> content_calls c <= 2 * content_levels c + 1).
Proof.
  induction n as [|n (Ii & Ie & Ic)].
  - refine (conj _ (conj _ _)); [intros []|intros []|intros []]; cbn [item_calls element_calls content_calls]; lia.
  - refine (conj _ (conj _ _)).
    + intros [g l|e]; cbn [item_calls item_levels]; intros L.
      * enough (most item_calls l <= 2 * most item_levels l + 1) by lia. apply most_plain. intros x I. apply Ii. pose proof (most_in item_calls l x I). lia.
      * pose proof (Ie e). lia.
    + intros [cs a b c l]. cbn [element_calls element_levels]. intros L.
      assert (most item_calls l <= 2 * most item_levels l + 1) by (apply most_plain; intros x I; apply Ii; pose proof (most_in item_calls l x I); lia).
      assert (most content_calls cs <= 2 * most content_levels cs + 1) by (apply most_plain; intros x I; apply Ic; pose proof (most_in content_calls cs x I); lia).
      lia.
    + intros [|t| | | |]; cbn [content_calls content_levels]; try lia. destruct t. cbn [table_calls table_levels]. intros L.
      match goal with |- context[most row_calls ?l] => set (rws := l) in * end.
      enough (most row_calls rws <= 2 * most row_levels rws + 0) by lia. apply most_plain. intros [cells] I.
      pose proof (most_in row_calls rws _ I) as M. cbn [row_calls row_levels] in *.
      enough (most cell_calls cells <= 2 * most cell_levels cells + 0) by lia. apply most_plain. intros [es a b c] J.
      pose proof (most_in cell_calls cells _ J) as M'. cbn [cell_calls cell_levels] in *.
      enough (most element_calls es <= 2 * most element_levels es + 0) by lia. apply most_plain. intros e K. apply Ie.
      pose proof (most_in element_calls es _ K). lia.
Qed.
Lemma page_calls_levels p : page_calls p <= 2 * page_levels p + 1.
Proof. apply most_plain. intros o _. apply most_plain. intros i _. exact (proj1 (calls_levels _) i (le_n _)). Qed.

(** ** No fixed depth suffices *)
Lemma doubled_levels k : item_levels (doubled k) = S k.
Proof. induction k as [|k IH]; [reflexivity|]. cbn [doubled item_levels most]. rewrite IH. lia. Qed.
Lemma deep_written k : (N.of_nat k < 2 ^ 31)%N -> exists d, bytes_ok d /\ length d <= 320 * k + 5000 /\ forall h file, exists s p,
  (exists f, parse_section_buffer h f d file = Ok s) /\ se_page_series s = [[p]] /\ page_levels p = S k /\
  forall f, f <= k -> parse_section_buffer h f d file = OutOfFuel.
Proof.
  intros L. destruct (short_written k L) as (d & B & Ln & H). exists d. split; [exact B|]. split; [exact Ln|]. intros h file.
  destruct (H h) as (st & O & _ & Q). destruct (Q file) as (f & E). exists (doubled_section k), (doubled_page k).
  split; [exists f; apply E; lia|]. split; [reflexivity|].
  assert (V : page_levels (doubled_page k) = S k).
  { change (page_levels (doubled_page k)) with (Nat.max (Nat.max (item_levels (doubled k)) 0) 0). rewrite doubled_levels. lia. }
  split; [exact V|]. intros f' M. destruct (parse_section_buffer h f' d file) as [x|e| |] eqn:Z; [| | |reflexivity].
  all: pose proof (buffer_fuel h f' (f + f') d file ltac:(lia) ltac:(rewrite Z; discriminate)) as R; rewrite Z, (E (f + f') ltac:(lia)) in R;
    try discriminate R.
  injection R as <-. exfalso. unfold parse_section_buffer in Z. destruct (open_store h f' d) as [st'| | |]; cbn [rbind] in Z; try discriminate Z.
  destruct (_ =? _)%N; [|discriminate Z]. apply (section_exact _ _ _ _ Z f') in Z.
  change (section_calls (doubled_section k)) with (Nat.max (Nat.max (Nat.max (item_calls (doubled k)) 0) 0) 0) in Z.
  assert (C : S k <= item_calls (doubled k)); [|lia]. clear. induction k as [|k IH]; [cbn; lia|]. cbn [doubled item_calls most]. lia.
Qed.

(** ** Deciding *)
Lemma decided {A} (r : nat -> res A) F : (forall f, refines (r f) (r F)) ->
  (r F = OutOfFuel -> forall f, r f = OutOfFuel) /\ (forall f, r f <> OutOfFuel -> r f = r F).
Proof.
  intros R. split; [|intros f N; symmetry; exact (R f N)].
  intros E f. destruct (r f) as [y|e| |] eqn:Z; [| | |reflexivity];
    exfalso; pose proof (R f ltac:(rewrite Z; discriminate)) as Q; rewrite E, Z in Q; discriminate Q.
Qed.
Lemma buffer_decided h d n : let r := parse_section_buffer h (2 * length d + 1) d n in
  (r = OutOfFuel -> forall f, parse_section_buffer h f d n = OutOfFuel) /\
  (forall f, parse_section_buffer h f d n <> OutOfFuel -> parse_section_buffer h f d n = r).
Proof. apply (decided (fun f => parse_section_buffer h f d n)). intro f. apply buffer_enough. lia. Qed.
Lemma file_decided h fs p d : fs_read fs p = Some d -> let r := parse_section_file h (2 * length d + 1) fs p in
  (r = OutOfFuel -> forall f, parse_section_file h f fs p = OutOfFuel) /\
  (forall f, parse_section_file h f fs p <> OutOfFuel -> parse_section_file h f fs p = r).
Proof.
  intros R. apply (decided (fun f => parse_section_file h f fs p)). intro f. apply section_file_enough.
  intros d' R'. assert (d' = d) as -> by congruence. lia.
Qed.
Lemma notebook_decided s h fs depth p size : (forall q d, fs_read fs q = Some d -> length d <= size) ->
  let r := parse_notebook s h depth (2 * size + 1) fs p in
  (r = OutOfFuel -> forall f, parse_notebook s h depth f fs p = OutOfFuel) /\
  (forall f, parse_notebook s h depth f fs p <> OutOfFuel -> parse_notebook s h depth f fs p = r).
Proof.
  intros L. apply (decided (fun f => parse_notebook s h depth f fs p)). intro f. apply notebook_enough.
  intros q d R. apply L in R. lia.
Qed.
