(** The size of a document, and of the objects it is made from. *)
From Coq Require Import Relations.
From Verif Require Import Base Codec PropSet Store Props Nodes Doc SpecNodes SpecDoc.

(** The number of groups, elements, paragraphs, tables, rows, cells, images, files
    and drawings in a part of a document. *)
Definition total {A} (f : A -> nat) : list A -> nat :=
  fix go l := match l with [] => 0 | x :: r => f x + go r end%nat.
Fixpoint item_size (i : outline_item) : nat :=
  match i with
  | ItemGroup _ l => S (total item_size l)
  | ItemElement e => element_size e
  end
with element_size (e : outline_element) : nat :=
  match e with OutlineElement cs _ _ _ l => S (total item_size l + total content_size cs) end
with content_size (c : content) : nat :=
  match c with CoTable t => table_size t | _ => 1 end
with table_size (t : table) : nat :=
  match t with Table _ _ rows _ _ _ _ _ _ => S (total row_size rows) end
with row_size (r : table_row) : nat :=
  match r with TableRow cells => S (total cell_size cells) end
with cell_size (c : table_cell) : nat :=
  match c with TableCell es _ _ _ => S (total element_size es) end.
Definition outline_size (o : outline) : nat := S (total item_size (ol_items o)).
Definition page_content_size (c : page_content) : nat :=
  match c with PcOutline o => outline_size o | _ => 1 end.
Definition title_size (t : title) : nat := S (total outline_size (ti_contents t)).
Definition page_size (p : page) : nat :=
  S (match pg_title p with Some t => title_size t | None => 0 end + total page_content_size (pg_contents p)).

(** The object [a] of the space lists the objects [l] as its parts. *)
Definition lists (sp : space) (a : exguid) (l : list exguid) : Prop :=
  found sp a (fun o =>
    (exists d, page_object o d /\ l = match pd_title d with Some t => [t] | None => [] end ++ pd_content d) \/
    (exists d, title_object o d /\ l = tn_children d) \/
    (exists d, outline_object o d /\ l = ou_children d) \/
    (exists d, group_object o d /\ l = gr_children d) \/
    (exists d, element_object o d /\ l = oe_children d ++ oe_contents d) \/
    (exists d, table_object o d /\ l = ta_rows d) \/
    (exists d, row_object o d /\ l = ro_cells d) \/
    (exists d, cell_object o d /\ l = ce_contents d)).
Definition listed (sp : space) (a b : exguid) : Prop := exists l, lists sp a l /\ In b l.

(** No object is listed twice, by one object or by two, and none is part of itself. *)
Definition tree (sp : space) : Prop :=
  (forall a b la lb i j x, lists sp a la -> lists sp b lb ->
     nth_error la i = Some x -> nth_error lb j = Some x -> a = b /\ i = j) /\
  (forall a, ~ clos_trans _ (listed sp) a a).

(** The space has at least [n] objects. *)
Definition has_objects (sp : space) (n : nat) : Prop :=
  exists l, NoDup l /\ (forall x, In x l -> exists o, get_object sp x = Some o) /\ (n <= length l)%nat.
