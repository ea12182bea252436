(** Several calls at the same time, by several threads that share one parser. At every
    moment one of them gets its question answered; which one, the schedule says. *)
From Verif Require Import Base Notebook SpecNotebook Timed SpecTimed.

Definition advance {A} (fs : filesystem) (m : io A) : io A :=
  match m with Done r => Done r | Ask q k => k (reply fs q) end.
Fixpoint update {A} (l : list A) (i : nat) (f : A -> A) : list A :=
  match l, i with
  | [], _ => []
  | a :: r, O => f a :: r
  | a :: r, S i => a :: update r i f
  end.
(** The threads after the moments [t], [t + 1], ... of a schedule, in which the threads
    with these numbers move. *)
Fixpoint share {A} (w : world) (t : nat) (schedule : list nat) (threads : list (io A)) : list (io A) :=
  match schedule with
  | [] => threads
  | i :: s => share w (S t) s (update threads i (advance (w t)))
  end.
(** The moments of a schedule at which thread [i] moves. *)
Fixpoint moments (t : nat) (schedule : list nat) (i : nat) : list nat :=
  match schedule with
  | [] => []
  | j :: s => if Nat.eqb j i then t :: moments (S t) s i else moments (S t) s i
  end.
(** The world as a thread that moves at these moments sees it. *)
Definition seen_at (w : world) (ms : list nat) : world := fun k => w (nth k ms 0%nat).
