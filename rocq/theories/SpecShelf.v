(** Which notebooks there are (see SpecValid.v for sections). Section groups are named
    after directories: their names are single path components that are left alone by
    the sanitiser, contain neither "^M" nor "^J" (which stand for other characters in
    a table of contents) and are not that of the recycle bin. *)
From Verif Require Import Base Codec PropSet Store Package Shapes Props Nodes Doc SpecCodec SpecDoc SpecValid Notebook.

Definition folder_name (sanitise : name -> name) (n : name) : Prop :=
  plain n /\ n <> [] /\ n <> [46] /\ n <> [46; 46] /\ ~ In 47 n /\ sanitise n = n /\
  (forall a b c, n = a ++ [94; c] ++ b -> c <> 77 /\ c <> 74) /\
  n <> [79; 110; 101; 78; 111; 116; 101; 95; 82; 101; 99; 121; 99; 108; 101; 66; 105; 110].
Fixpoint entry_ok (sanitise : name -> name) (e : section_entry) : Prop :=
  match e with
  | EnSection s => section_ok s
  | EnGroup n es => folder_name sanitise n /\ every (entry_ok sanitise) es
  end.
Definition notebook_ok (sanitise : name -> name) (nb : notebook) : Prop :=
  every (entry_ok sanitise) (nb_entries nb) /\ if_any color_ok (nb_color nb).
(** The files of a file system are byte strings. *)
Definition holds_bytes (fs : filesystem) : Prop := forall p d, fs_read fs p = Some d -> bytes_ok d.

(** ** File systems as trees *)
(** A directory tree with the content of its files and without links. Its root is the
    working directory. *)
Inductive node := FileNode (d : list N) | DirNode (es : list (name * node)).
Fixpoint node_at (t : node) (ns : list name) : option node :=
  match ns with
  | [] => Some t
  | n :: r =>
      match t with
      | FileNode _ => None
      | DirNode es => match find (fun e => name_eqb n (fst e)) es with Some e => node_at (snd e) r | None => None end
      end
  end.
(** The names on the way from the root. *)
Fixpoint way (ns : list name) (p : path) : list name :=
  match p with
  | [] => ns
  | RootDir :: r => way [] r
  | CurDir :: r => way ns r
  | ParentDir :: r => way (removelast ns) r
  | Normal n :: r => way (ns ++ [n]) r
  end.
Definition fs_of (t : node) : filesystem :=
  let at_ p := match p with [] => None | _ => node_at t (way [] p) end in
  FileSystem
    (fun p => match at_ p with Some _ => true | None => false end)
    (fun p => match at_ p with Some (FileNode _) => true | _ => false end)
    (fun p => match at_ p with Some _ => Some (RootDir :: map Normal (way [] p)) | None => None end)
    (fun p => match at_ p with Some (FileNode d) => Some d | _ => None end)
    (fun p => match at_ p with Some (DirNode es) => Some (map (fun e => Some (fst e)) es) | _ => None end).
(** Names in a directory are different and without slashes; files hold bytes. *)
Definition file_name_ok (n : name) : Prop := plain n /\ n <> [] /\ n <> [46] /\ n <> [46; 46] /\ ~ In 47 n.
Fixpoint node_ok (t : node) : Prop :=
  match t with
  | FileNode d => bytes_ok d
  | DirNode es => NoDup (map fst es) /\ every (fun e => file_name_ok (fst e) /\ node_ok (snd e)) es
  end.

(** ** Limits of C65 *)
Definition short (l : nat) : Prop := N.of_nat l < 2 ^ 20.
(** At most [w] entries in the notebook and in each group, group names below 2^20
    characters, sections within the limit of C63. *)
Fixpoint entry_small (w : nat) (e : section_entry) : Prop :=
  match e with
  | EnSection s => N.of_nat (section_size s) < 2 ^ 21
  | EnGroup n es => short (length n) /\ (length es <= w)%nat /\ every (entry_small w) es
  end.
Definition notebook_small (w : nat) (nb : notebook) : Prop :=
  (length (nb_entries nb) <= w)%nat /\ every (entry_small w) (nb_entries nb).
(** There are [w] names without dots that the sanitiser leaves alone. *)
Definition stocked (sanitise : name -> name) (w : nat) : Prop :=
  exists ns, NoDup ns /\ length ns = w /\ Forall (fun n => folder_name sanitise n /\ ~ In 46 n /\ short (length n)) ns.
(** For instance, names of seven digits. *)
Definition seven_digits (n : name) : Prop := length n = 7%nat /\ Forall (fun c => 48 <= c <= 57) n.
