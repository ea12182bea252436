(** Independent description of the names a table of contents may list on Windows, and of
    the paths they stand for. *)
From Verif Require Import Base Codec PropSet Store Package Shapes Props Nodes Doc
  SpecCodec SpecStore SpecValues SpecNodes SpecDoc Notebook SpecNotebook Windows.

(** '/' and '\'. *)
Definition separator (c : N) : Prop := c = 47 \/ c = 92.
Definition letter (c : N) : Prop := 65 <= c <= 90 \/ 97 <= c <= 122.
(** ["C:"] and what follows. *)
Definition has_drive (e : list N) : Prop := exists c r, letter c /\ e = c :: 58 :: r.
Definition starts_at_root (e : list N) : Prop := exists c r, separator c /\ e = c :: r.
Definition two_seps (s : list N) : Prop := exists c d r, separator c /\ separator d /\ s = c :: d :: r.
(** The text is [ws] with a separator between each two. *)
Inductive wpieces : list N -> list name -> Prop :=
| wp_one w : (forall c, In c w -> ~ separator c) -> wpieces w [w]
| wp_more w c r ws : (forall d, In d w -> ~ separator d) -> separator c -> wpieces r ws -> wpieces (w ++ c :: r) (w :: ws).

(** The sanitiser lets no separator and no colon pass. *)
Definition windows_safe (sanitise : name -> name) : Prop :=
  forall n c, sanitise n = n -> In c n -> ~ separator c /\ c <> 58.

Fixpoint wjoin (ns : list name) : list N :=
  match ns with
  | [] => []
  | [n] => n
  | n :: r => n ++ 92 :: wjoin r
  end.
(** Nothing has to be put between [base] and what follows: it is empty, ends in a
    separator or is a drive. *)
Definition open_ended (base : list N) : Prop :=
  base = [] \/ (exists b c, base = b ++ [c] /\ separator c) \/ exists c, letter c /\ base = [c; 58].
Definition placed (base rel p : list N) : Prop :=
  open_ended base /\ p = base ++ rel \/ ~ open_ended base /\ p = base ++ 92 :: rel.

(** What a name may look like on Windows, and the path it stands for. *)
Definition wlexical (sanitise : name -> name) (base e p : list N) (ns : list name) : Prop :=
  exists ws, wpieces e ws /\ ~ has_drive e /\ ~ starts_at_root e /\ picks not_dot ws ns /\ ns <> [] /\
    Forall (fun n => n <> [46; 46] /\ sanitise n = n) ns /\ placed base (wjoin ns) p.
Definition wcontained (other : list N -> option nat) (fs : wfilesystem) (base p : list N) : Prop :=
  wfs_exists fs p = true ->
  exists cb cp rest, wfs_canonicalize fs base = Some cb /\ wfs_canonicalize fs p = Some cp /\
    wcomponents other cp = wcomponents other cb ++ rest.
