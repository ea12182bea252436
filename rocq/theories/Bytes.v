(** Paths on Unix as bytes. A [Path] of Unix is any sequence of bytes, a [str] is the
    UTF-8 of a Unicode text. The functions of /repo/src/onenote/mod.rs once more, with
    bytes for paths: entries of a table of contents are encoded, names and paths that are
    shown are decoded with [to_string_lossy]. The functions of [std::path] on bytes are
    those of [Unix.v]: they look for the bytes ["/"] and ["."] only. *)
From Verif Require Import Base Codec Package PropSet Store Props Nodes Doc Notebook Report Unix Message.

Definition bytes := list N.

(** The bytes of a [char] in a [str] ([char::encode_utf8]) *)
Definition utf8_char (c : N) : bytes :=
  if c <? 0x80 then [c]
  else if c <? 0x800 then [0xC0 + c / 64; 0x80 + c mod 64]
  else if c <? 0x10000 then [0xE0 + c / 4096; 0x80 + c / 64 mod 64; 0x80 + c mod 64]
  else [0xF0 + c / 262144; 0x80 + c / 4096 mod 64; 0x80 + c / 64 mod 64; 0x80 + c mod 64].
Definition utf8 (t : text) : bytes := flat_map utf8_char t.

(** [Utf8Chunks::next] (library/core/src/str/lossy.rs): one character, or the bytes up to
    the first that cannot go on, and what is left. *)
Definition cont (c : N) : bool := (0x80 <=? c) && (c <=? 0xBF).
Definition second3 (b c : N) : bool :=
  if b =? 0xE0 then (0xA0 <=? c) && (c <=? 0xBF)
  else if b =? 0xED then (0x80 <=? c) && (c <=? 0x9F)
  else cont c.
Definition second4 (b c : N) : bool :=
  if b =? 0xF0 then (0x90 <=? c) && (c <=? 0xBF)
  else if b =? 0xF4 then (0x80 <=? c) && (c <=? 0x8F)
  else cont c.
Definition one_char (b : N) (r : bytes) : option N * bytes :=
  if b <? 0x80 then (Some b, r)
  else if (0xC2 <=? b) && (b <=? 0xDF) then
    match r with
    | c :: r1 => if cont c then (Some ((b - 0xC0) * 64 + (c - 0x80)), r1) else (None, r)
    | [] => (None, r)
    end
  else if (0xE0 <=? b) && (b <=? 0xEF) then
    match r with
    | c :: r1 =>
      if second3 b c then
        match r1 with
        | d :: r2 => if cont d then (Some ((b - 0xE0) * 4096 + (c - 0x80) * 64 + (d - 0x80)), r2) else (None, r1)
        | [] => (None, r1)
        end
      else (None, r)
    | [] => (None, r)
    end
  else if (0xF0 <=? b) && (b <=? 0xF4) then
    match r with
    | c :: r1 =>
      if second4 b c then
        match r1 with
        | d :: r2 =>
          if cont d then
            match r2 with
            | e :: r3 =>
              if cont e then
                (Some ((b - 0xF0) * 262144 + (c - 0x80) * 4096 + (d - 0x80) * 64 + (e - 0x80)), r3)
              else (None, r2)
            | [] => (None, r2)
            end
          else (None, r1)
        | [] => (None, r1)
        end
      else (None, r)
    | [] => (None, r)
    end
  else (None, r).
Fixpoint chars_fuel (fuel : nat) (b : bytes) : list (option N) :=
  match fuel, b with
  | S f, x :: r => let (c, r') := one_char x r in c :: chars_fuel f r'
  | _, _ => []
  end.
Definition chars (b : bytes) : list (option N) := chars_fuel (length b) b.

(** [OsStr::to_string_lossy]: U+FFFD for each sequence that is no character. *)
Definition replacement : N := 0xFFFD.
Definition to_lossy (b : bytes) : text :=
  map (fun o => match o with Some c => c | None => replacement end) (chars b).
(** [OsStr::to_str] *)
Fixpoint all_chars (l : list (option N)) : option text :=
  match l with
  | [] => Some []
  | Some c :: r => option_map (cons c) (all_chars r)
  | None :: _ => None
  end.
Definition to_str (b : bytes) : option text := all_chars (chars b).

(** What the operating system does with bytes: as [tfilesystem], with bytes for texts and
    for the names of directory entries. *)

(** /repo/src/onenote/mod.rs:205-233 *)
Fixpoint b_sanitize (sanitise : name -> name) (buf : bytes) (cs : path) : mres bytes :=
  match cs with
  | [] => MGot buf
  | Normal n :: r =>
    match to_str n with
    | None => MSaid (TInvalid NotUnicode)
    | Some s =>
      if name_eqb (sanitise s) s then b_sanitize sanitise (t_push buf (utf8 s)) r
      else MSaid (TInvalid (BadCharacters s))
    end
  | CurDir :: r => b_sanitize sanitise buf r
  | _ :: _ => MSaid (TInvalid BadComponent)
  end.
(** /repo/src/onenote/mod.rs:196-260 *)
Definition b_resolve (sanitise : name -> name) (fs : tfilesystem) (base_dir : bytes) (entry : text) : mres bytes :=
  if is_absolute (utf8 entry) then MSaid (TInvalid NotRelative)
  else
    tell! sanitized := b_sanitize sanitise [] (components (utf8 entry)) in
    match sanitized with
    | [] => MSaid (TInvalid EmptyEntry)
    | _ =>
      let candidate := t_push base_dir sanitized in
      if tfs_exists fs candidate then
        tell! base_canon := or_tell (TInvalid NoBase) (tfs_canonicalize fs base_dir) in
        tell! candidate_canon := or_tell (TInvalid NoEntry) (tfs_canonicalize fs candidate) in
        if starts_with (components candidate_canon) (components base_canon) then MGot candidate
        else MSaid (TInvalid Outside)
      else MGot candidate
    end.
(** /repo/src/onenote/mod.rs:107-119 *)
Definition b_section_buffer (h : order) (fuel : nat) (data : list N) (file_name : bytes) : mres section :=
  tell! st := beneath (open_store h fuel data) in
  if st_schema st =? section_schema then beneath (Doc.parse_section fuel st (to_lossy file_name))
  else MSaid (TNotASection (to_lossy file_name)).
(** /repo/src/onenote/mod.rs:128-150, 185-193 *)
Definition b_section (h : order) (fuel : nat) (fs : tfilesystem) (p : bytes) : mres section :=
  tell! data := or_tell (TOther IO) (tfs_read fs p) in
  tell! st := beneath (open_store h fuel data) in
  if st_schema st =? section_schema then
    tell! n := or_tell (TInvalid NoFileName) (t_file_name p) in
    beneath (Doc.parse_section fuel st (to_lossy n))
  else MSaid (TNotASection (to_lossy p)).
(** The loop of /repo/src/onenote/mod.rs:161-182 *)
Fixpoint b_toc (dir : bytes) (entries : list (option bytes)) : mres bytes :=
  match entries with
  | [] => MSaid (TTocMissing (to_lossy dir))
  | None :: _ => MSaid (TOther IO)
  | Some n :: r =>
    let p := t_push dir n in
    match t_extension p with
    | Some e => if name_eqb e onetoc2 then MGot p else b_toc dir r
    | None => b_toc dir r
    end
  end.
(** /repo/src/onenote/mod.rs:59-98 with 152-183. ["OneNote_RecycleBin"] and ["onetoc2"]
    are their own UTF-8. *)
Fixpoint b_notebook (sanitise : name -> name) (h : order) (depth fuel : nat) (fs : tfilesystem) (p : bytes)
  : mres notebook :=
  match depth with
  | O => MTooDeep
  | S d =>
    tell! data := or_tell (TOther IO) (tfs_read fs p) in
    tell! st := beneath (open_store h fuel data) in
    if st_schema st =? toc_schema then
      tell! base_dir := or_tell (TInvalid NoParent) (t_parent p) in
      tell! (names, color) := beneath (parse_toc fuel (st_data_root st)) in
      tell! paths := mmap (b_resolve sanitise fs base_dir) names in
      let paths := filter (fun p => negb (t_recycle_bin p)) (filter (tfs_exists fs) paths) in
      tell! entries := mmap (fun p =>
        if tfs_is_file fs p then
          tell! s := b_section h fuel fs p in MGot (EnSection s)
        else
          tell! display_name := or_tell (TInvalid NoFileName) (t_file_name p) in
          tell! files := or_tell (TOther IO) (tfs_read_dir fs p) in
          tell! toc := b_toc p files in
          tell! group := b_notebook sanitise h d fuel fs toc in
          MGot (EnGroup (to_lossy display_name) (nb_entries group))) paths in
      MGot (Notebook_ entries color)
    else MSaid (TNotAToc (to_lossy p))
  end.
