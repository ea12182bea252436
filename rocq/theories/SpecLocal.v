(** Sections, page by page: which page is read from which object space, and saves that
    leave a space as it is. *)
From Verif Require Import Base Codec Package PropSet Store Props Nodes SpecNodes Doc SpecDoc SpecAccept SpecSame SpecFile SpecHistory.

(** The file [d] holds the history [H], of at most [n] saves per space. *)
Definition keeps (n : nat) (d : list N) (H : history) : Prop :=
  exists els, holds d els /\ holds_history (content els) H /\ history_fits H /\
    Forall (fun es => (length es <= n)%nat) (histories H).

(** The space [c] has the same end in both histories. *)
Definition same_at (H H' : history) (c : cellid) : Prop :=
  exists es es', In (c, es) (hi_spaces H) /\ In (c, es') (hi_spaces H') /\ same_space (after es) (after es').
(** The histories differ in the spaces [cs] at most. *)
Definition differ_in (cs : list cellid) (H H' : history) : Prop :=
  hi_schema H = hi_schema H' /\ hi_cell H = hi_cell H' /\ same_space (after (hi_root H)) (after (hi_root H')) /\
  forall c, ~ In c cs -> (In c (map fst (hi_spaces H)) \/ In c (map fst (hi_spaces H')) -> same_at H H' c).

(** The spaces of the pages, series by series, in the order in which the section lists
    them. *)
Definition lists (st : store) (refs : list (list cellid)) : Prop :=
  exists cid d, content_root (st_data_root st) = Some cid /\ found (st_data_root st) cid (fun o => section_node o d) /\
    Forall2 (fun id cs => found (st_data_root st) id (fun o => exists n, series_node o n /\ pn_page_spaces n = cs))
      (sn_page_series d) refs.
(** Place [j] of series [i]. *)
Definition place {A} (l : list (list A)) (i j : nat) : option A :=
  match nth_error l i with Some r => nth_error r j | None => None end.
(** The page in the space [c]. *)
Definition page_in (st : store) (c : cellid) (p : page) : Prop :=
  exists sp, object_space st c = Some sp /\ page_is sp p.
