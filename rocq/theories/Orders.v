(** Every file in an order of its own. [Notebook.v] reads all files of a notebook under one
    hash order. In the program each [HashMap] has its own random keys
    (std::collections::hash_map::RandomState), so that two files with the same tables, or one
    file read twice, may be iterated differently. Here the files are numbered in the order in
    which they are opened, and the store of the [n]-th is built in the order [hs n]. *)
From Verif Require Import Base Codec Package PropSet Store Props Nodes Doc Notebook.

(** [collect::<Result<Vec<_>>>()] over a mapped iterator, with the number of the next file. *)
Fixpoint map_each {A B} (f : nat -> A -> res (B * nat)) (n : nat) (l : list A) : res (list B * nat) :=
  match l with
  | [] => Ok ([], n)
  | a :: r =>
    let! (b, n1) := f n a in
    let! (bs, n2) := map_each f n1 r in
    Ok (b :: bs, n2)
  end.

(** /repo/src/onenote/mod.rs:59-98 ([parse_notebook]) with 152-183
    ([parse_section_group]) and 128-150 ([parse_section]). [depth] bounds the nesting of
    section groups. *)
Fixpoint notebook_each (sanitise : name -> name) (hs : nat -> order) (depth fuel : nat)
         (fs : filesystem) (n : nat) (p : path) : res (notebook * nat) :=
  match depth with
  | O => OutOfFuel
  | S d =>
    let! data := ok_or IO (fs_read fs p) in
    let! st := open_store (hs n) fuel data in
    if st_schema st =? toc_schema then
      let! base_dir := ok_or InvalidPath (parent p) in
      let! (names, color) := parse_toc fuel (st_data_root st) in
      let! paths := map_res (resolve_entry_path sanitise fs base_dir) names in
      let paths := filter (fun p => negb (is_recycle_bin p)) (filter (fs_exists fs) paths) in
      let! (entries, m) := map_each (fun n p =>
        if fs_is_file fs p then
          let! s := parse_section_file (hs n) fuel fs p in Ok (EnSection s, S n)
        else
          let! display_name := ok_or InvalidPath (file_name p) in
          let! files := ok_or IO (fs_read_dir fs p) in
          let! toc := find_toc files in
          let! (group, m) := notebook_each sanitise hs d fuel fs n (p ++ [Normal toc]) in
          Ok (EnGroup display_name (nb_entries group), m)) (S n) paths in
      Ok (Notebook_ entries color, m)
    else Err NotATocFile
  end.
