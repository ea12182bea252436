(** GUIDs as texts. A text is the list of its bytes (UTF-8). *)
From Verif Require Import Base Codec.

(** The sixteen bytes of a [Uuid], which is what [Guid] wraps: /repo/src/shared/guid.rs:15-16. *)
Definition uuid_bytes (g : guid) : list N :=
  map (fun s => as_u8 (N.shiftr g s)) [120; 112; 104; 96; 88; 80; 72; 64; 56; 48; 40; 32; 24; 16; 8; 0].
(** Upper case hexadecimal, two digits for a byte. *)
Definition upper_digit (d : N) : N := if d <? 10 then 48 + d else 55 + d.
Definition upper_byte (b : N) : list N := [upper_digit (N.shiftr b 4); upper_digit (N.land b 15)].

(** /repo/src/shared/guid.rs:62-66: [write!(f, "{{{:X}}}", self.0)]. [UpperHex] of the
    [uuid] crate writes the hyphenated form, 4-2-2-2-6 bytes. *)
Definition guid_display (g : guid) : list N :=
  match uuid_bytes g with
  | [b0; b1; b2; b3; b4; b5; b6; b7; b8; b9; b10; b11; b12; b13; b14; b15] =>
    [123] ++ flat_map upper_byte [b0; b1; b2; b3] ++ [45] ++ flat_map upper_byte [b4; b5] ++ [45] ++
    flat_map upper_byte [b6; b7] ++ [45] ++ flat_map upper_byte [b8; b9] ++ [45] ++
    flat_map upper_byte [b10; b11; b12; b13; b14; b15] ++ [125]
  | _ => []
  end.

(** A hexadecimal digit in either case. *)
Definition hex_digit (c : N) : option N :=
  if (48 <=? c) && (c <=? 57) then Some (c - 48)
  else if (65 <=? c) && (c <=? 70) then Some (c - 55)
  else if (97 <=? c) && (c <=? 102) then Some (c - 87)
  else None.
Fixpoint hex_number (acc : N) (s : list N) : option N :=
  match s with
  | [] => Some acc
  | c :: r => match hex_digit c with Some d => hex_number (acc * 16 + d) r | None => None end
  end.
(** [uuid]'s [parse_hyphenated], given 36 bytes: hyphens in their four places, digits in
    all others. *)
Definition hyphenated_parse (s : list N) : option N :=
  if (nth 8 s 0 =? 45) && (nth 13 s 0 =? 45) && (nth 18 s 0 =? 45) && (nth 23 s 0 =? 45) then
    hex_number 0 (firstn 8 s ++ firstn 4 (skipn 9 s) ++ firstn 4 (skipn 14 s) ++ firstn 4 (skipn 19 s) ++ skipn 24 s)
  else None.
Definition urn_prefix : list N := [117; 114; 110; 58; 117; 117; 105; 100; 58].
Fixpoint bytes_eqb (a b : list N) : bool :=
  match a, b with
  | [], [] => true
  | x :: a, y :: b => (x =? y) && bytes_eqb a b
  | _, _ => false
  end.
(** [Uuid::parse_str] of the [uuid] crate, as documented: the simple, hyphenated, braced
    and URN forms; which it can be is decided by the length. *)
Definition uuid_parse_str (s : list N) : option N :=
  if (length s =? 32)%nat then hex_number 0 s
  else if (length s =? 36)%nat then hyphenated_parse s
  else if (length s =? 38)%nat then
    if (hd 0 s =? 123) && (last s 0 =? 125) then hyphenated_parse (firstn 36 (skipn 1 s)) else None
  else if (length s =? 45)%nat then
    if bytes_eqb (firstn 9 s) urn_prefix then hyphenated_parse (skipn 9 s) else None
  else None.
(** /repo/src/shared/guid.rs:19-21 with /repo/src/errors.rs:60-64 *)
Definition guid_from_str (s : list N) : res guid :=
  match uuid_parse_str s with Some g => Ok g | None => Err InvalidUuid end.
(** The macro [guid!], /repo/src/macros.rs:1-5: [unwrap] panics on an error. *)
Definition guid_literal (s : list N) : res guid :=
  match guid_from_str s with Ok g => Ok g | _ => Panic end.
