(** What a text of a GUID is, independently of how it is read. *)
From Verif Require Import Base.

(** The character [c] is a digit of value [d]: 0-9, A-F or a-f. *)
Inductive digit : N -> N -> Prop :=
| dg_number d : d < 10 -> digit (48 + d) d
| dg_upper d : 10 <= d < 16 -> digit (65 + (d - 10)) d
| dg_lower d : 10 <= d < 16 -> digit (97 + (d - 10)) d.
(** [s] is the hexadecimal number [v]. *)
Inductive hexadecimal : list N -> N -> Prop :=
| hx_nil : hexadecimal [] 0
| hx_digit s v c d : hexadecimal s v -> digit c d -> hexadecimal (s ++ [c]) (16 * v + d).
Definition hyphen : N := 45.
(** 00112233-4455-6677-8899-AABBCCDDEEFF *)
Definition hyphenated (s : list N) (g : N) : Prop :=
  exists a b c d e, length a = 8%nat /\ length b = 4%nat /\ length c = 4%nat /\ length d = 4%nat /\ length e = 12%nat /\
    s = a ++ hyphen :: b ++ hyphen :: c ++ hyphen :: d ++ hyphen :: e /\ hexadecimal (a ++ b ++ c ++ d ++ e) g.
(** The forms of a GUID. *)
Inductive guid_text : list N -> N -> Prop :=
| gt_simple s g : length s = 32%nat -> hexadecimal s g -> guid_text s g
| gt_hyphenated s g : hyphenated s g -> guid_text s g
| gt_braced s g : hyphenated s g -> guid_text (123 :: s ++ [125]) g                (* {...} *)
| gt_urn s g : hyphenated s g -> guid_text ([117; 114; 110; 58; 117; 117; 105; 100; 58] ++ s) g. (* urn:uuid:... *)
Definition not_lower (c : N) : Prop := ~ (97 <= c <= 122).

(** ASCII texts, for the literals. *)
From Coq Require Import String Ascii.
Fixpoint ascii_bytes (s : string) : list N :=
  match s with
  | EmptyString => []
  | String c r => N_of_ascii c :: ascii_bytes r
  end.
