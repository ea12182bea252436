(** Reading while others write. The functions of /repo/src/onenote/mod.rs that use the
    file system, once more, as programs that ask one question after the other: what
    [Notebook.v] looks up in one file system is here a sequence of questions, in the
    order of the source, each answered by the file system of its moment.

    Simplifications: opening a file and reading it to the end is one question, and so
    is listing a directory; since any answer may come at any moment, files that
    change while they are read are covered. *)
From Verif Require Import Base Codec Package PropSet Store Props Nodes Doc Notebook.

Inductive query :=
| QRead (p : path)            (** [File::open] and [Parser::read], mod.rs:60-61, 129-130, 185-193 *)
| QExists (p : path)          (** [Path::exists], mod.rs:82, 240 *)
| QIsFile (p : path)          (** [Path::is_file], mod.rs:85 *)
| QCanonicalize (p : path)    (** [Path::canonicalize], mod.rs:241-250 *)
| QReadDir (p : path)         (** [Path::read_dir] and its iterator, mod.rs:161 *).
Definition answer (q : query) : Type :=
  match q with
  | QRead _ => option (list N)
  | QExists _ | QIsFile _ => bool
  | QCanonicalize _ => option path
  | QReadDir _ => option (list (option name))
  end.

(** A program: a result, or a question and what to do with the answer. There is no
    other way to touch the file system, in particular none to change it. *)
Inductive io (A : Type) := Done (r : res A) | Ask (q : query) (k : answer q -> io A).
Arguments Done {A} _.
Arguments Ask {A} _ _.
Fixpoint ibind {A B} (m : io A) (f : A -> io B) : io B :=
  match m with
  | Done (Ok a) => f a
  | Done (Err e) => Done (Err e)
  | Done Panic => Done Panic
  | Done OutOfFuel => Done OutOfFuel
  | Ask q k => Ask q (fun a => ibind (k a) f)
  end.
Notation "'do!' x ':=' m 'in' k" := (ibind m (fun x => k))
  (at level 200, x pattern, m at level 100, k at level 200).
Definition ask (q : query) : io (answer q) := Ask q (fun a => Done (Ok a)).

(** [collect::<Result<Vec<_>>>()] over a mapped iterator: the first error stops it. *)
Fixpoint imap {A B} (f : A -> io B) (l : list A) : io (list B) :=
  match l with
  | [] => Done (Ok [])
  | a :: r => do! b := f a in do! bs := imap f r in Done (Ok (b :: bs))
  end.

(** /repo/src/onenote/mod.rs:196-260 *)
Definition io_resolve (sanitise : name -> name) (base_dir : path) (entry : name) : io path :=
  if is_absolute entry then Done (Err InvalidPath)
  else
    do! sanitized := Done (sanitize_components sanitise (components entry)) in
    match sanitized with
    | [] => Done (Err InvalidPath)
    | _ =>
      let candidate := base_dir ++ sanitized in
      do! exists_ := ask (QExists candidate) in
      if (exists_ : bool) then
        do! b := ask (QCanonicalize base_dir) in
        do! base_canon := Done (ok_or InvalidPath b) in
        do! c := ask (QCanonicalize candidate) in
        do! candidate_canon := Done (ok_or InvalidPath c) in
        if starts_with candidate_canon base_canon then Done (Ok candidate) else Done (Err InvalidPath)
      else Done (Ok candidate)
    end.

(** /repo/src/onenote/mod.rs:128-150, 185-193 *)
Definition io_section (h : order) (fuel : nat) (p : path) : io section :=
  do! file := ask (QRead p) in
  do! data := Done (ok_or IO file) in
  do! st := Done (open_store h fuel data) in
  if st_schema st =? section_schema then
    do! n := Done (ok_or InvalidPath (file_name p)) in
    Done (Doc.parse_section fuel st n)
  else Done (Err NotASectionFile).

(** /repo/src/onenote/mod.rs:80-92: the iterator over the entries. Both filters and the
    reading are lazy: they are applied to one path before the next is looked at. *)
Fixpoint io_entries (entry : path -> io section_entry) (ps : list path) : io (list section_entry) :=
  match ps with
  | [] => Done (Ok [])
  | p :: r =>
    do! exists_ := ask (QExists p) in
    if (exists_ : bool) && negb (is_recycle_bin p) then
      do! e := entry p in do! es := io_entries entry r in Done (Ok (e :: es))
    else io_entries entry r
  end.

(** /repo/src/onenote/mod.rs:59-98 with 152-183 *)
Fixpoint io_notebook (sanitise : name -> name) (h : order) (depth fuel : nat) (p : path) : io notebook :=
  match depth with
  | O => Done OutOfFuel
  | S d =>
    do! file := ask (QRead p) in
    do! data := Done (ok_or IO file) in
    do! st := Done (open_store h fuel data) in
    if st_schema st =? toc_schema then
      do! base_dir := Done (ok_or InvalidPath (parent p)) in
      do! (names, color) := Done (parse_toc fuel (st_data_root st)) in
      do! paths := imap (io_resolve sanitise base_dir) names in
      do! entries := io_entries (fun p =>
        do! is_file := ask (QIsFile p) in
        if (is_file : bool) then
          do! s := io_section h fuel p in Done (Ok (EnSection s))
        else
          do! display_name := Done (ok_or InvalidPath (file_name p)) in
          do! dir := ask (QReadDir p) in
          do! files := Done (ok_or IO dir) in
          do! toc := Done (find_toc files) in
          do! group := io_notebook sanitise h d fuel (p ++ [Normal toc]) in
          Done (Ok (EnGroup display_name (nb_entries group)))) paths in
      Done (Ok (Notebook_ entries color))
    else Done (Err NotATocFile)
  end.
