(** The command line program. Models /repo/src/bin/onenote-parse.rs. Arguments are
    lists of characters: arguments that are not valid Unicode, on which [env::args]
    panics, are in [Main.v]. What is printed is the value given to [println!]; its
    text is not modelled. *)
From Verif Require Import Base Store Doc Notebook.

Inductive printed := PrNotebook (n : notebook) | PrSection (s : section).

(** [Result::unwrap]: an error is a panic. *)
Definition unwrap {A} (r : res A) : res A :=
  match r with Err _ => Panic | r => r end.

(** [Path::extension]: that of the file name. *)
Definition path_extension (p : path) : option name :=
  match file_name p with Some n => extension n | None => None end.

(** /repo/src/bin/onenote-parse.rs:6-18 *)
Definition cli_main (sanitise : name -> name) (h : order) (depth fuel : nat) (fs : filesystem)
           (args : list (list N)) : res printed :=
  match nth_error args 1 with
  | None => Panic
  | Some arg =>
    let path := components arg in
    let is_toc := match path_extension path with Some e => name_eqb e onetoc2 | None => false end in
    if is_toc then
      let! notebook := unwrap (parse_notebook sanitise h depth fuel fs path) in
      Ok (PrNotebook notebook)
    else
      let! section := unwrap (parse_section_file h fuel fs path) in
      Ok (PrSection section)
  end.
