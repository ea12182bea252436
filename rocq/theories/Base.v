(** Outcomes, the byte reader and the loop combinators shared by all parsers.
    Models /repo/src/errors.rs and /repo/src/reader.rs. *)
From Coq Require Export List NArith ZArith Bool.
Export ListNotations.
Open Scope N_scope.

(** /repo/src/errors.rs:35-110, [ErrorKind]. Simplified: payload strings dropped;
    [std::io::Error], [uuid::Error] and UTF-16 error sources dropped. *)
Inductive ekind :=
| UnexpectedEof
| NotATocFile
| NotASectionFile
| TocFileMissing
| MalformedData
| MalformedOneNoteData
| MalformedOneNoteFileData
| MalformedOneStoreData
| MalformedFssHttpBData
| InvalidUuid
| IO
| Utf16Error
| Utf16MissingNull
| InvalidPath.

(** Outcome of a Rust call returning [Result<A>]: /repo/src/errors.rs:6-25.
    [Panic] is an index/slice panic, [OutOfFuel] exists only in the model. *)
Inductive res (A : Type) : Type :=
| Ok (a : A)
| Err (e : ekind)
| Panic
| OutOfFuel.
Arguments Ok {A} a.
Arguments Err {A} e.
Arguments Panic {A}.
Arguments OutOfFuel {A}.

(** The [?] operator. *)
Definition rbind {A B} (r : res A) (f : A -> res B) : res B :=
  match r with
  | Ok a => f a
  | Err e => Err e
  | Panic => Panic
  | OutOfFuel => OutOfFuel
  end.

Notation "'let!' x ':=' r 'in' k" := (rbind r (fun x => k))
  (at level 200, x pattern, r at level 100, k at level 200).

(** [Option::ok_or_else(..)?]. *)
Definition ok_or {A} (e : ekind) (o : option A) : res A :=
  match o with Some a => Ok a | None => Err e end.

(** [Option<Result<A>>::transpose()?] applied to [o.map(f)]. *)
Definition opt_map_res {A B} (f : A -> res B) (o : option A) : res (option B) :=
  match o with
  | None => Ok None
  | Some a => let! b := f a in Ok (Some b)
  end.

(** [iter.map(f).collect::<Result<Vec<_>>>()?]: left to right, stops at the
    first failure. *)
Fixpoint map_res {A B} (f : A -> res B) (l : list A) : res (list B) :=
  match l with
  | [] => Ok []
  | a :: t => let! b := f a in let! bs := map_res f t in Ok (b :: bs)
  end.

(** ** Parsers over the remaining input.
    A function taking [Reader] (= [&mut reader::Reader], /repo/src/lib.rs) maps
    the remaining bytes to its result and the bytes left. *)
Definition parser (A : Type) := list N -> res (A * list N).

Definition pret {A} (a : A) : parser A := fun bs => Ok (a, bs).
Definition pfail {A} (e : ekind) : parser A := fun _ => Err e.
Definition plift {A} (r : res A) : parser A :=
  fun bs => let! a := r in Ok (a, bs).
Definition pbind {A B} (p : parser A) (f : A -> parser B) : parser B :=
  fun bs =>
    match p bs with
    | Ok (a, rest) => f a rest
    | Err e => Err e
    | Panic => Panic
    | OutOfFuel => OutOfFuel
    end.

Notation "x <- p ;; q" := (pbind p (fun x => q))
  (at level 61, p at next level, right associativity).
Notation "p ;;; q" := (pbind p (fun _ => q))
  (at level 61, right associativity).

(** Little-endian value of a byte string (what [from_le_bytes] computes). *)
Fixpoint le (bs : list N) : N :=
  match bs with
  | [] => 0
  | b :: r => b + 256 * le r
  end.

(** Number of bytes left: /repo/src/reader.rs:26-28. *)
Definition remaining (bs : list N) : N := N.of_nat (length bs).

(** /repo/src/reader.rs:11-20, [Reader::read]. *)
Definition read (cnt : N) : parser (list N) :=
  fun bs =>
    if remaining bs <? cnt then Err UnexpectedEof
    else Ok (firstn (N.to_nat cnt) bs, skipn (N.to_nat cnt) bs).

(** /repo/src/reader.rs:30-38, [Reader::advance]. *)
Definition advance (cnt : N) : parser unit :=
  fun bs =>
    if remaining bs <? cnt then Err UnexpectedEof
    else Ok (tt, skipn (N.to_nat cnt) bs).

(** Common part of /repo/src/reader.rs:40-68: [try_get_uX_le] of the [bytes]
    crate fails without consuming when fewer than [cnt] bytes are left. *)
Definition get_le (cnt : N) : parser N := b <- read cnt ;; pret (le b).

(** /repo/src/reader.rs:40-44 *)
Definition get_u8 : parser N := get_le 1.
(** /repo/src/reader.rs:46-50 *)
Definition get_u16 : parser N := get_le 2.
(** /repo/src/reader.rs:52-56 *)
Definition get_u32 : parser N := get_le 4.
(** /repo/src/reader.rs:58-62 *)
Definition get_u64 : parser N := get_le 8.
(** /repo/src/reader.rs:64-68 *)
Definition get_u128 : parser N := get_le 16.
(** /repo/src/reader.rs:70-74, [get_f32]: the value is kept as its raw bits. *)
Definition get_f32 : parser N := get_le 4.

(** [reader.bytes().first().ok_or(UnexpectedEof)?]: peek at the next byte
    (used in compact_u64.rs:24-26, stream_object.rs:27 and 200). *)
Definition peek (bs : list N) : res N :=
  match bs with [] => Err UnexpectedEof | b :: _ => Ok b end.

(** Branching on the next byte without consuming it. *)
Definition with_peek {A} (f : N -> parser A) : parser A :=
  fun bs =>
    match peek bs with
    | Ok b => f b bs
    | Err e => Err e
    | Panic => Panic
    | OutOfFuel => OutOfFuel
    end.

(** ** Loops.
    [(0..n).map(|_| p(reader)).collect::<Result<Vec<_>>>()?] and
    [for _ in 0..n { v.push(p(reader)?) }]. Fuel: the caller supplies more than
    the number of remaining bytes; every iteration consumes at least one byte. *)
Fixpoint rep_fuel {A} (p : parser A) (fuel : nat) (n : N) : parser (list A) :=
  if n =? 0 then pret []
  else
    match fuel with
    | O => fun _ => OutOfFuel
    | S f => x <- p ;; xs <- rep_fuel p f (n - 1) ;; pret (x :: xs)
    end.

Definition rep {A} (n : N) (p : parser A) : parser (list A) :=
  fun bs => rep_fuel p (S (length bs)) n bs.

(** [loop { if <next byte satisfies fin>? { break; } state = body(reader)? }]
    followed by [fin_parse(reader)?]. Every such loop in the code peeks at the
    next byte for an end marker and then parses that marker. *)
Fixpoint until_fuel {A} (fin : N -> bool) (fin_parse : parser unit)
         (body : A -> parser A) (fuel : nat) (s : A) : parser A :=
  match fuel with
  | O => fun _ => OutOfFuel
  | S f =>
    with_peek (fun b =>
      if fin b then fin_parse ;;; pret s
      else s' <- body s ;; until_fuel fin fin_parse body f s')
  end.

Definition until {A} (fin : N -> bool) (fin_parse : parser unit)
           (body : A -> parser A) (s : A) : parser A :=
  fun bs => until_fuel fin fin_parse body (S (length bs)) s bs.

(** ** HashMap as association list with unique keys (insertion order kept; the
    real iteration order is arbitrary, see [Store.v]). *)
Section AMap.
  Context {K V : Type} (eqb : K -> K -> bool).
  Definition amap := list (K * V).
  (** [HashMap::get] *)
  Fixpoint alookup (k : K) (m : amap) : option V :=
    match m with
    | [] => None
    | (k', v) :: t => if eqb k k' then Some v else alookup k t
    end.
  (** [HashMap::contains_key] *)
  Definition amember (k : K) (m : amap) : bool :=
    match alookup k m with Some _ => true | None => false end.
  (** [HashMap::insert]: replaces an existing entry. *)
  Definition ainsert (k : K) (v : V) (m : amap) : amap :=
    filter (fun e => negb (eqb k (fst e))) m ++ [(k, v)].
  (** [HashMap::extend] / [collect::<HashMap>()]: inserts left to right. *)
  Definition aextend (m : amap) (l : list (K * V)) : amap :=
    fold_left (fun m e => ainsert (fst e) (snd e) m) l m.
End AMap.
Arguments amap : clear implicits.
