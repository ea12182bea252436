(** Independent description of what becomes of reading a section or a table of contents
    when nothing in it is faulty: whether it crashes and whether it ends. *)
From Coq Require Import Relations.
From Verif Require Import Base Codec PropSet Store Package Shapes Props Nodes Doc Notebook
  SpecCodec SpecStore SpecValues SpecNodes SpecDoc SpecNotebook SpecCause.

(** From an object looked at as something, one comes to the objects it leads to, and to
    itself looked at as what its kind says. *)
Definition step (sp : space) (x y : exguid * role) : Prop :=
  exists o, get_object sp (fst x) = Some o /\
    (leads sp o (snd x) (fst y) (snd y) \/ fst y = fst x /\ kind_role (snd x) (ob_jcid o) (snd y)).

Section Fate.
  Variable st : store.
  (** One of the lists has a number format without room for its length unit, or one of
      the paragraphs has references to ink, but too few. *)
  Definition crash_at : Prop :=
    exists sp i, visits st sp i R_list /\ short_list_format sp i \/ visits st sp i R_text /\ ink_shortage sp i.
  (** An object that is looked at leads back to itself. *)
  Definition comes_round : Prop :=
    exists sp i r, visits st sp i r /\ clos_trans _ (step sp) (i, r) (i, r).
End Fate.

(** An entry of a table of contents that is looked at leads back to itself: [below]
    (SpecNotebook.v) is from an entry without a name to those it refers to. *)
Definition toc_comes_round (sp : space) : Prop :=
  exists i, toc_visits sp i /\ clos_trans _ (below sp) i i.
