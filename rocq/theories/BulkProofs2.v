(** The fifth power is reached. *)
From Coq Require Import Lia.
From Verif Require Import Base Codec SpecCodec Package PropSet Store Nodes Doc Notebook SpecSize Looks SpecLooks SpecBulk BulkProofs QuarticProofs.
From Verif Require OnceProofs DoubleProofs LooksProofs3.
Local Open Scope nat_scope.

Lemma quintic k : (N.of_nat k < 2 ^ 22)%N ->
  exists d, bytes_ok d /\ length d <= 400 * (k + 15) /\ forall h,
    (forall st cell sp, open_store h 1 d = Ok st -> object_space st cell = Some sp -> tree sp) /\
    forall file, exists f s, section_points s = k ^ 5 /\ forall fuel, f <= fuel -> parse_section_buffer h fuel d file = Ok s.
Proof.
  intro L. destruct (q_written k L) as (d & B & Ln & H). exists d. refine (conj B (conj Ln _)). intro h. destruct (H h) as (st & E & Sc & T & P).
  split; [intros st' cell sp E'; rewrite E in E'; injection E' as <-; apply T|].
  intro file. destruct (P file) as (f & F). exists (S f), (q_section k). split.
  - unfold section_points, page_points. cbn [q_section se_page_series]. rewrite total_repeat, total_repeat. unfold page_points. cbn [q_page pg_contents]. rewrite total_repeat.
    cbn [content_points q_ink in_strokes]. rewrite q_points. cbn [Nat.pow]. lia.
  - intros fuel Hf. unfold parse_section_buffer.
    assert (E' : open_store h fuel d = Ok st) by (rewrite (OnceProofs.open_fuel h 1 fuel d ltac:(lia)); [exact E|rewrite E; discriminate]).
    rewrite E'. cbn [rbind]. rewrite Sc, N.eqb_refl. apply F. lia.
Qed.

(** Points are part of what a section holds. *)
Lemma total_le {A} (f g : A -> nat) l : (forall a, f a <= g a) -> total f l <= total g l.
Proof. intro H. induction l as [|a l IH]; cbn [total]; [lia|]. specialize (H a). lia. Qed.
Lemma points_held s : section_points s <= section_bulk s.
Proof.
  unfold section_points, section_bulk. eapply Nat.le_trans; [|apply Nat.le_add_l]. apply total_le. intro ps. apply Nat.le_le_succ_r, total_le. intro p.
  unfold page_points, page_bulk. eapply Nat.le_trans; [|apply Nat.le_add_l]. apply total_le. intros [o|i|f|i|]; cbn [content_points page_content_bulk]; try lia.
  unfold ink_bulk. apply Nat.le_le_succ_r, total_le. intro. unfold stroke_bulk. lia.
Qed.

(** Every part counts for at least one. *)
Fixpoint item_le (i : outline_item) : item_size i <= item_bulk i
with element_le (e : outline_element) : element_size e <= element_bulk e
with content_le (c : content) : content_size c <= content_bulk c
with table_le (t : table) : table_size t <= table_bulk t
with row_le (r : table_row) : row_size r <= row_bulk r
with cell_le (c : table_cell) : cell_size c <= cell_bulk c.
Proof.
  - destruct i as [n l|e]; cbn [item_size item_bulk].
    + assert (total item_size l <= total item_bulk l); [|lia]. induction l as [|a l IH]; cbn [total]; [lia|]. pose proof (item_le a). lia.
    + apply element_le.
  - destruct e as [cs ls sp n l]; cbn [element_size element_bulk].
    assert (total item_size l <= total item_bulk l). { induction l as [|a l IH]; cbn [total]; [lia|]. pose proof (item_le a). lia. }
    assert (total content_size cs <= total content_bulk cs). { induction cs as [|a cs IH]; cbn [total]; [lia|]. pose proof (content_le a). lia. }
    lia.
  - destruct c as [t|t|i|f|i|]; cbn [content_size content_bulk]; [|apply table_le| | | |lia];
    [unfold text_bulk|unfold image_bulk|unfold file_bulk|unfold ink_bulk]; lia.
  - destruct t as [r c rows lk w b x y tg]; cbn [table_size table_bulk].
    assert (total row_size rows <= total row_bulk rows); [|lia]. induction rows as [|a l IH]; cbn [total]; [lia|]. pose proof (row_le a). lia.
  - destruct r as [cells]; cbn [row_size row_bulk].
    assert (total cell_size cells <= total cell_bulk cells); [|lia]. induction cells as [|a l IH]; cbn [total]; [lia|]. pose proof (cell_le a). lia.
  - destruct c as [es b w l]; cbn [cell_size cell_bulk].
    assert (total element_size es <= total element_bulk es); [|lia]. induction es as [|a l' IH]; cbn [total]; [lia|]. pose proof (element_le a). lia.
Qed.
Lemma outline_le o : outline_size o <= outline_bulk o.
Proof. unfold outline_size, outline_bulk. pose proof (total_le _ _ (ol_items o) item_le). lia. Qed.
Lemma page_le p : page_size p <= page_bulk p.
Proof.
  unfold page_size, page_bulk.
  assert (total page_content_size (pg_contents p) <= total page_content_bulk (pg_contents p)).
  { apply total_le. intros [o|i|f|i|]; cbn [page_content_size page_content_bulk]; [apply outline_le| | | |lia]; [unfold image_bulk|unfold file_bulk|unfold ink_bulk]; lia. }
  destruct (pg_title p) as [t|]; [|lia]. unfold title_size, title_bulk. pose proof (total_le _ _ (ti_contents t) outline_le). lia.
Qed.
Lemma section_le s : section_size s <= section_bulk s.
Proof.
  unfold section_size, section_bulk. eapply Nat.le_trans; [|apply Nat.le_add_l]. apply total_le. intro ps. apply Nat.le_le_succ_r, total_le, page_le.
Qed.
Lemma doubled_bulk k : (N.of_nat k < 2 ^ 31)%N ->
  exists d, bytes_ok d /\ length d <= 320 * k + 5000 /\ forall h file, exists f s, 2 ^ k <= section_bulk s /\ forall fuel, f <= fuel -> parse_section_buffer h fuel d file = Ok s.
Proof.
  intro L. destruct (DoubleProofs.doubled_grows k L) as (d & B & Ln & H). exists d. refine (conj B (conj Ln _)). intros h file.
  destruct (H h) as (st & s & _ & _ & P & ps & p & I1 & I2 & Z). destruct (P file) as (f & F). exists f, s. split; [|exact F].
  pose proof (LooksProofs3.in_total page_size ps p I2). pose proof (LooksProofs3.in_total (total page_size) _ ps I1). pose proof (section_le s).
  unfold section_size in *. lia.
Qed.
