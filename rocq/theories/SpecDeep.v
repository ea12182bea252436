(** How deep a document is nested. *)
From Verif Require Import Base Codec PropSet Store Props Nodes Doc.

(** The largest of the numbers of a list; 0 if it is empty. *)
Definition most {A} (f : A -> nat) : list A -> nat :=
  fix go l := match l with [] => 0 | x :: r => Nat.max (f x) (go r) end%nat.

(** The number of groups, elements, tables, rows and cells around the innermost part of a
    document, those that contain nothing included. *)
Fixpoint item_levels (i : outline_item) : nat :=
  match i with
  | ItemGroup _ l => S (most item_levels l)
  | ItemElement e => element_levels e
  end
with element_levels (e : outline_element) : nat :=
  match e with OutlineElement cs _ _ _ l => S (Nat.max (most item_levels l) (most content_levels cs)) end
with content_levels (c : content) : nat :=
  match c with CoTable t => table_levels t | _ => 0 end
with table_levels (t : table) : nat :=
  match t with Table _ _ rows _ _ _ _ _ _ => S (most row_levels rows) end
with row_levels (r : table_row) : nat :=
  match r with TableRow cells => S (most cell_levels cells) end
with cell_levels (c : table_cell) : nat :=
  match c with TableCell es _ _ _ => S (most element_levels es) end.

(** The number of calls of the three recursive functions of the reader (for items, elements
    and contents) that are open at once at the innermost part: an element that is an item
    takes two, a table one, its rows and cells none. *)
Fixpoint item_calls (i : outline_item) : nat :=
  match i with
  | ItemGroup _ l => S (most item_calls l)
  | ItemElement e => S (element_calls e)
  end
with element_calls (e : outline_element) : nat :=
  match e with OutlineElement cs _ _ _ l => S (Nat.max (most item_calls l) (most content_calls cs)) end
with content_calls (c : content) : nat :=
  match c with CoTable t => S (table_calls t) | _ => 1 end
with table_calls (t : table) : nat :=
  match t with Table _ _ rows _ _ _ _ _ _ => most row_calls rows end
with row_calls (r : table_row) : nat :=
  match r with TableRow cells => most cell_calls cells end
with cell_calls (c : table_cell) : nat :=
  match c with TableCell es _ _ _ => most element_calls es end.

(** Of a page: the largest number of an item in one of its outlines. *)
Definition page_outlines (p : page) : list outline :=
  match pg_title p with Some t => ti_contents t | None => [] end ++ filter_map page_content_outline (pg_contents p).
Definition page_levels (p : page) : nat := most (fun o => most item_levels (ol_items o)) (page_outlines p).
Definition page_calls (p : page) : nat := most (fun o => most item_calls (ol_items o)) (page_outlines p).
Definition section_calls (s : section) : nat := most page_calls (concat (se_page_series s)).
