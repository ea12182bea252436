(** For the statements about notebooks on Windows. *)
From Verif Require Import Base Codec PropSet Store Package Shapes Props Nodes Doc
  SpecCodec SpecStore SpecValues SpecNodes SpecDoc Notebook SpecNotebook Windows SpecWindows WinNotebook.

(** A name that stays where it is: no separator, no colon, not empty, ["."] or [".."]. *)
Definition wproper (n : name) : Prop :=
  (forall c, In c n -> ~ separator c /\ c <> 58) /\ not_dot n /\ n <> [46; 46].

(** Without a separator, or a separator and ["."], at the end, except that of the root
    (with them the operating system accepts only a directory). *)
Definition wplain (t : wtext) : Prop :=
  (exists c, separator c /\ (t = [c] \/ exists d, t = [d; 58; c])) \/
  forall s c, separator c -> t <> s ++ [c] /\ t <> s ++ [c; 46].

(** [t] spells the path of the directory [base] with the names [ns] behind it. *)
Definition spells (other : wtext -> option nat) (base : wtext) (ns : list name) (t : wtext) : Prop :=
  wplain t /\ ~ two_seps t /\ wcomponents other t = wcomponents other base ++ map WNormal ns.

(** The directory [base] on the Windows system [W] holds what the directory [ubase] on
    the Unix system [F] holds, under the same names; links lead inside on one system if
    they do on the other. *)
Record same_directory (other : wtext -> option nat) (W : wdisk) (F : filesystem) (base : wtext) (ubase : path) : Prop := {
  sd_exists : forall ns t, Forall wproper ns -> spells other base ns t ->
    wfs_exists (wd_fs W) t = fs_exists F (ubase ++ map Normal ns);
  sd_is_file : forall ns t, Forall wproper ns -> spells other base ns t ->
    wd_is_file W t = fs_is_file F (ubase ++ map Normal ns);
  sd_read : forall ns t, Forall wproper ns -> spells other base ns t ->
    wd_read W t = fs_read F (ubase ++ map Normal ns);
  sd_read_dir : forall ns t, Forall wproper ns -> spells other base ns t ->
    wd_read_dir W t = fs_read_dir F (ubase ++ map Normal ns);
  sd_inside : forall ms ns dir t, Forall wproper ms -> Forall wproper ns -> spells other base ms dir -> spells other base (ms ++ ns) t ->
    (exists cb cp rest, wfs_canonicalize (wd_fs W) dir = Some cb /\ wfs_canonicalize (wd_fs W) t = Some cp /\
       wcomponents other cp = wcomponents other cb ++ rest) <->
    (exists cb cp, fs_canonicalize F (ubase ++ map Normal ms) = Some cb /\ fs_canonicalize F (ubase ++ map Normal (ms ++ ns)) = Some cp /\
       below_path cp cb);
  sd_names : forall t l n, wd_read_dir W t = Some l -> In (Some n) l -> wproper n }.

(** No table of contents below the directory lists a name with a backslash. *)
Definition no_backslash (h : order) (fuel : nat) (F : filesystem) (ubase : path) : Prop :=
  forall ns bs st names c, fs_read F (ubase ++ map Normal ns) = Some bs -> open_store h fuel bs = Ok st ->
    parse_toc fuel (st_data_root st) = Ok (names, c) -> Forall (fun e => ~ In 92 e) names.

(** The two systems answer alike about [base] and what is below it by name; they hold
    the same bytes in the files really inside [base], links followed, and under every
    name with the extension ".onetoc2". Where a path leads does not depend on how it is
    spelled, and directories hold proper names. *)
Definition walike_inside (other : wtext -> option nat) (base : wtext) (W W' : wdisk) : Prop :=
  (forall ns t, Forall wproper ns -> spells other base ns t ->
     wfs_exists (wd_fs W) t = wfs_exists (wd_fs W') t /\ wd_is_file W t = wd_is_file W' t /\
     wfs_canonicalize (wd_fs W) t = wfs_canonicalize (wd_fs W') t /\ wd_read_dir W t = wd_read_dir W' t) /\
  (forall ns t cb cp rest, Forall wproper ns -> spells other base ns t ->
     wfs_canonicalize (wd_fs W) base = Some cb -> wfs_canonicalize (wd_fs W) t = Some cp ->
     wcomponents other cp = wcomponents other cb ++ rest -> wd_read W t = wd_read W' t) /\
  (forall ns n t, Forall wproper ns -> toc_name n -> spells other base (ns ++ [n]) t -> wd_read W t = wd_read W' t) /\
  (forall ns t t', Forall wproper ns -> spells other base ns t -> spells other base ns t' ->
     wfs_canonicalize (wd_fs W) t = wfs_canonicalize (wd_fs W) t') /\
  (forall t l n, wd_read_dir W t = Some l -> In (Some n) l -> wproper n).

(** Every file can be read to the end with this fuel (C18 and C31 say when). *)
Definition wreadable (h : order) (fuel : nat) (W : wdisk) : Prop :=
  forall t bs, wd_read W t = Some bs -> open_store h fuel bs <> OutOfFuel /\
    forall st, open_store h fuel bs = Ok st ->
      parse_toc fuel (st_data_root st) <> OutOfFuel /\ forall n, parse_section fuel st n <> OutOfFuel.
(** No path below [base] with more than [n] further names exists. *)
Definition wshallow (other : wtext -> option nat) (W : wdisk) (base : wtext) (n : nat) : Prop :=
  forall ns t, Forall wproper ns -> spells other base ns t -> wfs_exists (wd_fs W) t = true -> (length ns <= n)%nat.
