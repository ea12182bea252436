(** What a store answers to a look-up. *)
From Verif Require Import Base Codec PropSet Store Doc SpecSize Looks.

(** Two stores give the same answer to a look-up. A space is known by its roots: its
    objects are looked up in turn. *)
Definition roots (sp : space) : option exguid * option exguid := (content_root sp, metadata_root sp).
Definition object_at (st : store) (cell : cellid) (id : exguid) : option object :=
  match object_space st cell with Some sp => get_object sp id | None => None end.
Definition same_answer (st st' : store) (l : look) : Prop :=
  match l with
  | InRoot id => get_object (st_data_root st') id = get_object (st_data_root st) id
  | TheSpace cell => option_map roots (object_space st' cell) = option_map roots (object_space st cell)
  | InSpace cell id => object_at st' cell id = object_at st cell id
  end.

(** The parts of all pages of a section. *)
Definition section_size (s : section) : nat := total (total page_size) (se_page_series s).

(** The strokes of the drawings that lie on the pages of a section. *)
Definition content_strokes (c : page_content) : nat := match c with PcInk i => length (in_strokes i) | _ => 0 end.
Definition page_strokes (p : page) : nat := total content_strokes (pg_contents p).
Definition section_strokes (s : section) : nat := total (total page_strokes) (se_page_series s).
