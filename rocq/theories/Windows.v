(** Paths on Windows. [resolve_entry_path] of /repo/src/onenote/mod.rs on texts, with
    [std::path] for Windows: two separators, drive letters and other prefixes, and
    [PathBuf::push], which replaces what is there when the pushed text has a prefix.

    Simplifications: where a prefix other than a drive ends (["\\server\share"],
    ["\\?\.."], ["\\.\.."]) is an arbitrary function [other]; base directories that
    begin in such a way are pushed to as to any other text (the verbatim form is
    rebuilt from its components by [std]); file names are Unicode. *)
From Verif Require Import Base Codec Package PropSet Store Props Nodes Doc Notebook.

(** [is_sep_byte] of std/src/sys/path/windows.rs: '/' and '\' *)
Definition is_sep (c : N) : bool := (c =? 47) || (c =? 92).
Definition colon : N := 58.
(** [u8::is_ascii_alphabetic] *)
Definition is_letter (c : N) : bool := ((65 <=? c) && (c <=? 90)) || ((97 <=? c) && (c <=? 122)).
(** [parse_drive] of std/src/sys/path/windows.rs *)
Definition drive (s : list N) : bool :=
  match s with c :: d :: _ => is_letter c && (d =? colon) | _ => false end.
(** [parse_prefix] of std/src/sys/path/windows.rs: the length of the prefix. *)
Definition prefix_len (other : list N -> option nat) (s : list N) : option nat :=
  match s with
  | c :: d :: _ => if is_sep c && is_sep d then other s else if drive s then Some 2%nat else None
  | _ => None
  end.
(** [Path::has_root]: a prefix that is not a drive implies it. *)
Definition has_root (other : list N -> option nat) (s : list N) : bool :=
  match prefix_len other s with
  | Some n => if drive s then match skipn n s with c :: _ => is_sep c | [] => false end else true
  | None => match s with c :: _ => is_sep c | [] => false end
  end.
(** [Path::is_absolute] *)
Definition win_absolute (other : list N -> option nat) (s : list N) : bool :=
  match prefix_len other s with Some _ => has_root other s | None => false end.

(** [std::path::Component] *)
Inductive wcomponent := WPrefix (p : list N) | WRoot | WCur | WParent | WNormal (n : name).
(** Splitting at both separators. *)
Fixpoint split_seps (s : list N) : list (list N) :=
  match s with
  | [] => [[]]
  | c :: r =>
    match split_seps r with
    | [] => [[c]]
    | w :: ws => if is_sep c then [] :: w :: ws else (c :: w) :: ws
    end
  end.
(** As [Notebook.piece]. *)
Definition wpiece (w : list N) : list wcomponent :=
  if name_eqb w [] then []
  else if name_eqb w [dot] then []
  else if name_eqb w [dot; dot] then [WParent]
  else [WNormal w].
(** [Path::components]: the prefix, the root, and the names. A leading ["."] gives
    [CurDir], unless there is a prefix or a root. *)
Definition wcomponents (other : list N -> option nat) (s : list N) : list wcomponent :=
  let n := match prefix_len other s with Some n => n | None => O end in
  let rest := skipn n s in
  match prefix_len other s with Some n => [WPrefix (firstn n s)] | None => [] end ++
  (if has_root other s then [WRoot] else
   match prefix_len other s, split_seps rest with
   | None, w :: _ => if name_eqb w [dot] then [WCur] else []
   | _, _ => []
   end) ++
  flat_map wpiece (split_seps rest).

(** [PathBuf::push] on Windows *)
Definition needs_sep (buf : list N) : bool :=
  match rev buf with
  | [] => false
  | c :: _ => negb (is_sep c) && negb (drive buf && (Nat.eqb (length buf) 2))
  end.
Definition wpush (other : list N -> option nat) (buf name : list N) : list N :=
  match prefix_len other name with
  | Some _ => name
  | None =>
    if has_root other name then firstn (match prefix_len other buf with Some n => n | None => O end) buf ++ name
    else buf ++ (if needs_sep buf then [92] else []) ++ name
  end.

(** /repo/src/onenote/mod.rs:205-233: the loop over the components, [buf] is
    [sanitized]. *)
Fixpoint wsanitize (other : list N -> option nat) (sanitise : name -> name) (buf : list N) (cs : list wcomponent) : res (list N) :=
  match cs with
  | [] => Ok buf
  | WNormal n :: r =>
    if name_eqb (sanitise n) n then wsanitize other sanitise (wpush other buf n) r else Err InvalidPath
  | WCur :: r => wsanitize other sanitise buf r
  | _ :: _ => Err InvalidPath
  end.
Definition wcomponent_eqb (a b : wcomponent) : bool :=
  match a, b with
  | WPrefix x, WPrefix y => name_eqb x y
  | WRoot, WRoot | WCur, WCur | WParent, WParent => true
  | WNormal x, WNormal y => name_eqb x y
  | _, _ => false
  end.
(** [Path::starts_with], by components *)
Fixpoint wstarts (p base : list wcomponent) : bool :=
  match base, p with
  | [], _ => true
  | b :: base', c :: p' => wcomponent_eqb c b && wstarts p' base'
  | _ :: _, [] => false
  end.
(** [Path::exists] and [Path::canonicalize] *)
Record wfilesystem := WFs {
  wfs_exists : list N -> bool;
  wfs_canonicalize : list N -> option (list N) }.
(** /repo/src/onenote/mod.rs:196-260 *)
Definition win_resolve (other : list N -> option nat) (sanitise : name -> name) (fs : wfilesystem)
           (base_dir : list N) (entry : list N) : res (list N) :=
  if win_absolute other entry then Err InvalidPath
  else
    let! sanitized := wsanitize other sanitise [] (wcomponents other entry) in
    match sanitized with
    | [] => Err InvalidPath
    | _ =>
      let candidate := wpush other base_dir sanitized in
      if wfs_exists fs candidate then
        let! base_canon := ok_or InvalidPath (wfs_canonicalize fs base_dir) in
        let! candidate_canon := ok_or InvalidPath (wfs_canonicalize fs candidate) in
        if wstarts (wcomponents other candidate_canon) (wcomponents other base_canon) then Ok candidate
        else Err InvalidPath
      else Ok candidate
    end.
