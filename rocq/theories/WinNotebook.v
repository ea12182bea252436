(** Notebooks on Windows: /repo/src/onenote/mod.rs on texts, with the [std::path] of
    Windows (library/std/src/path.rs) as in [Windows.v].

    Simplifications: those of [Windows.v]; so paths that begin with two separators
    are not treated as [std] treats them, and the theorems leave them out. *)
From Verif Require Import Base Codec Package PropSet Store Props Nodes Doc Notebook Windows.

Definition wtext := list N.

Definition wprefix (other : wtext -> option nat) (t : wtext) : nat :=
  match prefix_len other t with Some n => n | None => O end.
(** [has_physical_root] *)
Definition physical_root (other : wtext -> option nat) (t : wtext) : bool :=
  match skipn (wprefix other t) t with c :: _ => is_sep c | [] => false end.
(** [Components::include_cur_dir] *)
Definition wcur_dir (other : wtext -> option nat) (t : wtext) : bool :=
  negb (has_root other t) &&
  match skipn (wprefix other t) t with
  | [c] => c =? dot
  | c :: d :: _ => (c =? dot) && is_sep d
  | [] => false
  end.
(** [Components::len_before_body] *)
Definition wbefore (other : wtext -> option nat) (t : wtext) : nat :=
  wprefix other t + (if physical_root other t then 1 else 0) + (if wcur_dir other t then 1 else 0).

(** [Components::parse_next_component_back] on the reversed body: the last piece
    (reversed), and what is before the separator. *)
Fixpoint wlast_piece (r : wtext) : wtext * wtext :=
  match r with
  | [] => ([], [])
  | c :: r' => if is_sep c then ([], r') else let (p, q) := wlast_piece r' in (c :: p, q)
  end.
(** [Components::next_back] in the body: pieces that are no component are dropped. *)
Fixpoint wback_fuel (fuel : nat) (r : wtext) : option (wcomponent * wtext) :=
  match fuel, r with
  | S f, _ :: _ =>
    let (p, q) := wlast_piece r in
    match wpiece (rev p) with c :: _ => Some (c, q) | [] => wback_fuel f q end
  | _, _ => None
  end.
(** [Components::trim_right] *)
Fixpoint wtrim_fuel (fuel : nat) (r : wtext) : wtext :=
  match fuel, r with
  | S f, _ :: _ =>
    let (p, q) := wlast_piece r in
    match wpiece (rev p) with _ :: _ => r | [] => wtrim_fuel f q end
  | _, _ => []
  end.
Definition wbody_back (body : wtext) : option (wcomponent * wtext) :=
  match wback_fuel (length body) (rev body) with Some (c, q) => Some (c, rev q) | None => None end.
Definition wtrim_right (body : wtext) : wtext := rev (wtrim_fuel (length body) (rev body)).

(** [Components::next_back] of the whole path: behind the body come the root, or the
    prefix, or a leading ["."]. *)
Definition w_last (other : wtext -> option nat) (t : wtext) : option wcomponent :=
  match wbody_back (skipn (wbefore other t) t) with
  | Some (c, _) => Some c
  | None =>
    if has_root other t then Some WRoot
    else match prefix_len other t with
         | Some n => Some (WPrefix (firstn n t))
         | None => if wcur_dir other t then Some WCur else None
         end
  end.
(** [Path::parent] *)
Definition w_parent (other : wtext -> option nat) (t : wtext) : option wtext :=
  match wbody_back (skipn (wbefore other t) t) with
  | Some (_, q) => Some (firstn (wbefore other t) t ++ wtrim_right q)
  | None =>
    if has_root other t then None
    else match prefix_len other t with
         | Some _ => None
         | None => if wcur_dir other t then Some [] else None
         end
  end.
(** [Path::file_name] *)
Definition w_file_name (other : wtext -> option nat) (t : wtext) : option name :=
  match w_last other t with Some (WNormal n) => Some n | _ => None end.
(** [Path::extension] *)
Definition w_extension (other : wtext -> option nat) (t : wtext) : option name :=
  match w_file_name other t with Some n => extension n | None => None end.
(** [Path::ends_with("OneNote_RecycleBin")] *)
Definition w_recycle_bin (other : wtext -> option nat) (t : wtext) : bool :=
  match w_last other t with Some (WNormal n) => name_eqb n recycle_bin | _ => false end.

(** What the operating system does with texts. *)
Record wdisk := WDisk {
  wd_fs : wfilesystem;                                  (** [Path::exists], [Path::canonicalize] *)
  wd_is_file : wtext -> bool;                           (** [Path::is_file] *)
  wd_read : wtext -> option (list N);                   (** [File::open], [metadata], [read_to_end] *)
  wd_read_dir : wtext -> option (list (option name))    (** [Path::read_dir] and its iterator *) }.

(** /repo/src/onenote/mod.rs:128-150, 185-193 *)
Definition w_parse_section_file (other : wtext -> option nat) (h : order) (fuel : nat) (W : wdisk) (t : wtext) : res section :=
  let! data := ok_or IO (wd_read W t) in
  let! st := open_store h fuel data in
  if st_schema st =? section_schema then
    let! n := ok_or InvalidPath (w_file_name other t) in
    Doc.parse_section fuel st n
  else Err NotASectionFile.

(** The loop of /repo/src/onenote/mod.rs:161-177. [DirEntry::path] is the directory
    joined with the name of the entry. *)
Fixpoint w_find_toc (other : wtext -> option nat) (dir : wtext) (entries : list (option name)) : res wtext :=
  match entries with
  | [] => Err TocFileMissing
  | None :: _ => Err IO
  | Some n :: r =>
    let t := wpush other dir n in
    match w_extension other t with
    | Some e => if name_eqb e onetoc2 then Ok t else w_find_toc other dir r
    | None => w_find_toc other dir r
    end
  end.

(** /repo/src/onenote/mod.rs:59-98 with 152-183 *)
Fixpoint w_parse_notebook (other : wtext -> option nat) (sanitise : name -> name) (h : order) (depth fuel : nat)
         (W : wdisk) (t : wtext) : res notebook :=
  match depth with
  | O => OutOfFuel
  | S d =>
    let! data := ok_or IO (wd_read W t) in
    let! st := open_store h fuel data in
    if st_schema st =? toc_schema then
      let! base_dir := ok_or InvalidPath (w_parent other t) in
      let! (names, color) := parse_toc fuel (st_data_root st) in
      let! paths := map_res (win_resolve other sanitise (wd_fs W) base_dir) names in
      let paths := filter (fun p => negb (w_recycle_bin other p)) (filter (wfs_exists (wd_fs W)) paths) in
      let! entries := map_res (fun p =>
        if wd_is_file W p then
          let! s := w_parse_section_file other h fuel W p in Ok (EnSection s)
        else
          let! display_name := ok_or InvalidPath (w_file_name other p) in
          let! files := ok_or IO (wd_read_dir W p) in
          let! toc := w_find_toc other p files in
          let! group := w_parse_notebook other sanitise h d fuel W toc in
          Ok (EnGroup display_name (nb_entries group))) paths in
      Ok (Notebook_ entries color)
    else Err NotATocFile
  end.
