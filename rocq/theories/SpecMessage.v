(** For the statements about the texts of errors. *)
From Verif Require Import Base Codec Notebook SpecKinds Report Unix SpecUnix Message.

(** The same report with components instead of texts. *)
Definition in_components (r : told) : report :=
  match r with
  | TNotAToc f => SaysNotAToc (components f)
  | TNotASection f => SaysNotASection (components f)
  | TTocMissing d => SaysTocMissing (components d)
  | TInvalid m => SaysInvalid m
  | TOther e => SaysOther e
  end.
Definition as_rep {A} (m : mres A) : rep A :=
  match m with MGot a => Got a | MSaid r => Said (in_components r) | MCrashed => Crashed | MTooDeep => TooDeep end.

(** The result alone. *)
Definition told_kind (r : told) : ekind :=
  match r with
  | TNotAToc _ => NotATocFile | TNotASection _ => NotASectionFile | TTocMissing _ => TocFileMissing
  | TInvalid _ => InvalidPath | TOther e => e
  end.
Definition bare {A} (m : mres A) : res A :=
  match m with MGot a => Ok a | MSaid r => Err (told_kind r) | MCrashed => Panic | MTooDeep => OutOfFuel end.

(** The kinds of the errors made below mod.rs, or by the operating system when it opens,
    lists or reads. *)
Definition from_elsewhere (e : ekind) : Prop := In e (IO :: container_kinds ++ document_kinds ++ toc_kinds).
Definition proper_report (r : told) : Prop := match r with TOther e => from_elsewhere e | _ => True end.

(** Directory entries have proper names. *)
Definition proper_listings (T : tfilesystem) : Prop :=
  forall t l n, tfs_read_dir T t = Some l -> In (Some n) l -> proper_name n.

(** A text in the directory of [t], at any depth. *)
Definition inside (t f : text) : Prop :=
  exists base names, t_parent t = Some base /\ names <> [] /\ Forall proper_name names /\ below base names f.
(** The texts an error names. *)
Definition named (r : told) : option text :=
  match r with TNotAToc f => Some f | TNotASection f => Some f | TTocMissing d => Some d | _ => None end.
