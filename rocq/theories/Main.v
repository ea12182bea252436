(** The command line program on Unix, with arguments as bytes. Models
    /repo/src/bin/onenote-parse.rs once more; [Cli.v] has texts and components. What is
    printed is the value given to [println!]. *)
From Verif Require Import Base Store Doc Notebook Cli Unix Message SpecMessage Bytes.

(** [Args::next]: [into_string().unwrap()], a panic if the argument is not Unicode. *)
Definition next_arg (args : list bytes) : res (option text * list bytes) :=
  match args with
  | [] => Ok (None, [])
  | a :: r => match to_str a with Some t => Ok (Some t, r) | None => Panic end
  end.
(** /repo/src/bin/onenote-parse.rs:7: [env::args().nth(1).expect(..)]. [nth] takes the
    first argument too, and stops at the end. *)
Definition path_arg (args : list bytes) : res text :=
  let! (a, r) := next_arg args in
  match a with
  | None => Panic
  | Some _ =>
    let! (b, _) := next_arg r in
    match b with Some t => Ok t | None => Panic end
  end.
(** /repo/src/bin/onenote-parse.rs:6-18 *)
Definition main_bytes (sanitise : name -> name) (h : order) (depth fuel : nat) (fs : tfilesystem)
           (args : list bytes) : res printed :=
  let! arg := path_arg args in
  let path := utf8 arg in
  let is_toc := match t_extension path with Some e => name_eqb e onetoc2 | None => false end in
  if is_toc then
    let! notebook := unwrap (bare (b_notebook sanitise h depth fuel fs path)) in
    Ok (PrNotebook notebook)
  else
    let! section := unwrap (bare (b_section h fuel fs path)) in
    Ok (PrSection section).
