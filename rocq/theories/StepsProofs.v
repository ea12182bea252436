(** Proofs about [Steps.v]. *)
From Coq Require Import Lia ZifyBool ZifyNat ZifyN.
From Verif Require Import Base Codec Package PropSet Steps.
Local Open Scope nat_scope.

(** ** Counting changes nothing *)
Definition same {A} (p : counted A) (q : parser A) : Prop := forall bs, snd (p bs) = q bs.

Lemma same_ret {A} (a : A) : same (nret a) (pret a). Proof. intro; reflexivity. Qed.
Lemma same_fail {A} e : same (@nfail A e) (pfail e). Proof. intro; reflexivity. Qed.
Lemma same_lift {A} (r : res A) : same (nlift r) (plift r). Proof. intro; reflexivity. Qed.
Lemma same_call {A} (p : parser A) : same (call p) p. Proof. intro; reflexivity. Qed.
Lemma same_out {A} : same (fun _ => (0, @OutOfFuel (A * list N))) (fun _ => OutOfFuel). Proof. intro; reflexivity. Qed.
Lemma same_bind {A B} (p : counted A) q (f : A -> counted B) g :
  same p q -> (forall a, same (f a) (g a)) -> same (nbind p f) (pbind q g).
Proof.
  intros P F bs. unfold nbind, pbind. rewrite <- (P bs). destruct (p bs) as [n [[a rest]| | |]]; cbn [snd]; try reflexivity.
  rewrite <- (F a rest). now destruct (f a rest).
Qed.
Lemma same_turn {A} (p : counted A) q : same p q -> same (turn ~;; p) q.
Proof. intros P bs. unfold nbind, turn. rewrite <- (P bs). now destruct (p bs). Qed.
Lemma same_peek {A} (f : N -> counted A) g : (forall b, same (f b) (g b)) -> same (npeek f) (with_peek g).
Proof. intros F bs. unfold npeek, with_peek. destruct (peek bs) as [b| | |]; try reflexivity. rewrite <- (F b bs). now destruct (f b bs). Qed.
Lemma same_rep_fuel {A} (p : counted A) q : same p q -> forall f n, same (rep_fuel_n p f n) (rep_fuel q f n).
Proof.
  intros P f. induction f as [|f IH]; intro n; cbn [rep_fuel_n rep_fuel]; destruct (n =? 0)%N; try apply same_ret; try apply same_out.
  apply same_bind; [exact P|]. intro x. apply same_turn. apply same_bind; [apply IH|]. intro. apply same_ret.
Qed.
Lemma same_rep {A} n (p : counted A) q : same p q -> same (rep_n n p) (rep n q).
Proof. intros P bs. apply same_rep_fuel, P. Qed.
Lemma same_until {A} fin pn p (body : A -> counted A) body' s : same pn p -> (forall s, same (body s) (body' s)) ->
  same (until_n fin pn body s) (until fin p body' s).
Proof.
  intros P B bs. unfold until_n, until. generalize (S (length bs)). intro f. revert s bs.
  change (forall s, same (until_fuel_n fin pn body f s) (until_fuel fin p body' f s)).
  induction f as [|f IH]; intro s; cbn [until_fuel_n until_fuel]; [apply same_out|].
  apply same_peek. intro b. destruct (fin b).
  - apply same_bind; [exact P|]. intro. apply same_ret.
  - apply same_bind; [apply B|]. intro. apply IH.
Qed.

Create HintDb same.
Ltac sm := repeat first
  [ solve [auto 2 with same nocore]
  | apply same_ret | apply same_fail | apply same_lift | apply same_call
  | apply same_bind; [|intro] | apply same_peek; intro | apply same_rep
  | match goal with
    | |- same (if ?b then _ else _) _ => destruct b
    | |- same (match ?b with _ => _ end) _ => destruct b
    end ].

Lemma same_guid : same guid_parse_n guid_parse. Proof. unfold guid_parse_n, guid_parse. sm. Qed.
#[export] Hint Resolve same_guid : same.
Lemma same_compact : same compact_parse_n compact_parse. Proof. unfold compact_parse_n, compact_parse. sm. Qed.
#[export] Hint Resolve same_compact : same.
Lemma same_exguid : same exguid_parse_n exguid_parse. Proof. unfold exguid_parse_n, exguid_parse. sm. Qed.
#[export] Hint Resolve same_exguid : same.
Lemma same_exguids : same exguid_parse_array_n exguid_parse_array. Proof. unfold exguid_parse_array_n, exguid_parse_array. sm. Qed.
Lemma same_cellid : same cellid_parse_n cellid_parse. Proof. unfold cellid_parse_n, cellid_parse. sm. Qed.
#[export] Hint Resolve same_exguids same_cellid : same.
Lemma same_cellids : same cellid_parse_array_n cellid_parse_array. Proof. unfold cellid_parse_array_n, cellid_parse_array. sm. Qed.
Lemma same_binary : same binary_item_parse_n binary_item_parse. Proof. unfold binary_item_parse_n, binary_item_parse. sm. Qed.
Lemma same_serial : same serial_parse_n serial_parse. Proof. unfold serial_parse_n, serial_parse. sm. Qed.
Lemma same_h16 : same header_parse_16_n header_parse_16. Proof. unfold header_parse_16_n, header_parse_16. sm. Qed.
Lemma same_h32 : same header_parse_32_n header_parse_32. Proof. unfold header_parse_32_n, header_parse_32. sm. Qed.
#[export] Hint Resolve same_cellids same_binary same_serial same_h16 same_h32 : same.
Lemma same_h : same header_parse_n header_parse. Proof. unfold header_parse_n, header_parse. sm. Qed.
Lemma same_e16 : same end_parse_16_n end_parse_16. Proof. unfold end_parse_16_n, end_parse_16. sm. Qed.
Lemma same_e8 : same end_parse_8_n end_parse_8. Proof. unfold end_parse_8_n, end_parse_8. sm. Qed.
#[export] Hint Resolve same_h same_e16 same_e8 : same.
Lemma same_try t : same (try_parse_n t) (try_parse t). Proof. unfold try_parse_n, try_parse, try_parse_start_n, try_parse_start. sm. Qed.
Lemma same_try16 t : same (try_parse_16_n t) (try_parse_16 t). Proof. unfold try_parse_16_n, try_parse_16, try_parse_start_n, try_parse_start. sm. Qed.
Lemma same_try32 t : same (try_parse_32_n t) (try_parse_32 t). Proof. unfold try_parse_32_n, try_parse_32, try_parse_start_n, try_parse_start. sm. Qed.
Lemma same_end16 t : same (try_parse_end_16_n t) (try_parse_end_16 t). Proof. unfold try_parse_end_16_n, try_parse_end_16, try_parse_end_n, try_parse_end. sm. Qed.
Lemma same_end8 t : same (try_parse_end_8_n t) (try_parse_end_8 t). Proof. unfold try_parse_end_8_n, try_parse_end_8, try_parse_end_n, try_parse_end. sm. Qed.
#[export] Hint Resolve same_try same_try16 same_try32 same_end16 same_end8 : same.
Lemma same_until8 {A} t (body : A -> counted A) body' s : (forall s, same (body s) (body' s)) ->
  same (until_end_8_n t body s) (until_end_8 t body' s).
Proof. intro B. apply same_until; [apply same_end8|exact B]. Qed.

(** ** The cost *)
(** At most four steps for each byte taken, less [g] and with [d] to spare; at most [c]
    more if it fails. *)
Definition cheap {A} (g : A -> nat) (d c : nat) (p : counted A) : Prop := forall bs,
  match p bs with
  | (n, Ok (x, rest)) => n + g x + 4 * length rest <= 4 * length bs + d
  | (n, _) => n <= 4 * length bs + d + c
  end.
Definition one {A} : A -> nat := fun _ => 1.

Lemma cheap_weaken {A} (g g' : A -> nat) d d' c c' p : (forall x, g' x <= g x) -> d <= d' -> c <= c' -> cheap g d c p -> cheap g' d' c' p.
Proof. intros G D C P bs. specialize (P bs). destruct (p bs) as [n [[x rest]| | |]]; try lia. specialize (G x). lia. Qed.
Lemma cheap_frame {A} (g : A -> nat) d c p k : cheap g d c p -> cheap (fun x => g x + k) (d + k) c p.
Proof. intros P bs. specialize (P bs). destruct (p bs) as [n [[x rest]| | |]]; lia. Qed.
Lemma cheap_bind {A B} (g : A -> nat) (g' : B -> nat) d c p f : cheap g d c p -> (forall a, cheap g' (g a) c (f a)) -> cheap g' d c (nbind p f).
Proof.
  intros P F bs. specialize (P bs). unfold nbind. destruct (p bs) as [n [[a rest]| | |]]; try exact P.
  specialize (F a rest). destruct (f a rest) as [m [[x r]| | |]]; lia.
Qed.
(** A step of a chain: earns one more. *)
Lemma cheap_step {A B} (g : B -> nat) d c (p : counted A) f : cheap one 0 c p -> (forall a, cheap g (S d) c (f a)) -> cheap g d c (nbind p f).
Proof.
  intros P F. eapply cheap_bind with (g := fun _ => 1 + d); [|exact F].
  apply (cheap_weaken (fun x : A => one x + d) _ (0 + d) d c c); [intro; apply Nat.le_refl|lia|lia|]. apply cheap_frame, P.
Qed.
Lemma cheap_skip {A B} (g : B -> nat) d c (p : counted A) f : cheap (fun _ => 0) 0 c p -> (forall a, cheap g d c (f a)) -> cheap g d c (nbind p f).
Proof.
  intros P F. eapply cheap_bind with (g := fun _ => 0 + d); [|exact F].
  apply (cheap_weaken (fun x : A => 0 + d) _ (0 + d) d c c); [intro; apply Nat.le_refl|lia|lia|]. apply (cheap_frame (fun _ => 0)), P.
Qed.
Lemma cheap_ret {A} (g : A -> nat) d c x : g x <= d -> cheap g d c (nret x).
Proof. intros G bs. cbn. lia. Qed.
Lemma cheap_fail {A} (g : A -> nat) d c e : cheap g d c (nfail e).
Proof. intros bs. cbn. lia. Qed.
Lemma cheap_lift {A} (g : A -> nat) d c r : (forall x, g x <= d) -> cheap g d c (nlift r).
Proof. intros G bs. unfold nlift. destruct r as [x| | |]; cbn; try lia. specialize (G x). lia. Qed.
Lemma cheap_out {A} (g : A -> nat) d c : cheap g d c (fun _ => (0, OutOfFuel)).
Proof. intros bs. lia. Qed.
Lemma cheap_turn {A} (g : A -> nat) d c p : cheap g d c p -> cheap g (S d) c (turn ~;; p).
Proof. intros P bs. specialize (P bs). unfold nbind, turn. destruct (p bs) as [n [[x rest]| | |]]; lia. Qed.
Lemma cheap_read k d c : 1 <= c -> d <= 4 * N.to_nat k -> cheap (fun _ => d) 1 c (read_n k).
Proof.
  intros C D bs. unfold read_n, call, read, remaining. destruct (N.ltb_spec (N.of_nat (length bs)) k); [lia|].
  rewrite skipn_length. lia.
Qed.
Lemma cheap_advance k d c : 1 <= c -> d <= 4 * N.to_nat k -> cheap (fun _ => d) 1 c (advance_n k).
Proof.
  intros C D bs. unfold advance_n, call, advance, remaining. destruct (N.ltb_spec (N.of_nat (length bs)) k); [lia|].
  rewrite skipn_length. lia.
Qed.
Lemma cheap_le k d c : 1 <= c -> d <= 4 * N.to_nat k - 1 -> (1 <= k)%N -> cheap (fun _ => d) 0 c (call (get_le k)).
Proof.
  intros C D K bs. unfold call, get_le, pbind, read, remaining. destruct (N.ltb_spec (N.of_nat (length bs)) k); [lia|].
  cbn [pret]. unfold pret. rewrite skipn_length. lia.
Qed.
Lemma cheap_u8 c : 1 <= c -> cheap (fun _ => 3) 0 c get_u8_n. Proof. intro. apply cheap_le; [assumption|cbn; lia|lia]. Qed.
Lemma cheap_u16 c : 1 <= c -> cheap (fun _ => 3) 0 c get_u16_n. Proof. intro. apply cheap_le; [assumption|cbn; lia|lia]. Qed.
Lemma cheap_u32 c : 1 <= c -> cheap (fun _ => 3) 0 c get_u32_n. Proof. intro. apply cheap_le; [assumption|cbn; lia|lia]. Qed.
Lemma cheap_u64 c : 1 <= c -> cheap (fun _ => 3) 0 c get_u64_n. Proof. intro. apply cheap_le; [assumption|cbn; lia|lia]. Qed.
Lemma cheap_u128 c : 1 <= c -> cheap (fun _ => 3) 0 c get_u128_n. Proof. intro. apply cheap_le; [assumption|cbn; lia|lia]. Qed.
Lemma cheap_three {A} c (p : counted A) : cheap (fun _ => 3) 0 c p -> cheap one 0 c p.
Proof. apply cheap_weaken; [intro; unfold one; lia|lia|lia]. Qed.
Lemma cheap_two {A} c (p : counted A) : cheap (fun _ => 2) 0 c p -> cheap one 0 c p.
Proof. apply cheap_weaken; [intro; unfold one; lia|lia|lia]. Qed.
(** Looking at a byte that is there. *)
Lemma cheap_peek {A} (g : A -> nat) d c f : (forall b, cheap g d c (f b)) -> cheap g (S d) c (npeek f).
Proof.
  intros F bs. unfold npeek, peek. destruct bs as [|b r]; [lia|]. specialize (F b (b :: r)). destruct (f b (b :: r)) as [n [[x rest]| | |]]; lia.
Qed.
(** A look before something that earns more, failing one later. *)
Lemma cheap_peek_paid {A} k c (f : N -> counted A) : (forall b, cheap (fun _ => S k) 0 c (f b)) -> cheap (fun _ => k) 0 (S c) (npeek f).
Proof.
  intros F bs. unfold npeek, peek. destruct bs as [|b r]; [lia|]. specialize (F b (b :: r)). destruct (f b (b :: r)) as [n [[x rest]| | |]]; lia.
Qed.
Lemma cheap_rep_fuel {A} k c (p : counted A) : cheap (fun _ => S k) 0 c p -> forall f n, cheap (fun l => k * length l) 0 c (rep_fuel_n p f n).
Proof.
  intros P f. induction f as [|f IH]; intro n; cbn [rep_fuel_n]; destruct (n =? 0)%N; try (apply cheap_ret; cbn; lia); [apply cheap_out|].
  eapply cheap_bind; [exact P|]. intro x. apply cheap_turn. eapply cheap_bind with (g := fun l => k * length l + k).
  - apply (cheap_weaken (fun l => k * length l + k) _ (0 + k) k c c); [intro; lia|lia|lia|]. apply (cheap_frame (fun l => k * length l)), IH.
  - intro xs. apply cheap_ret. cbn [length]. lia.
Qed.
Lemma cheap_rep {A} k c n (p : counted A) : cheap (fun _ => S k) 0 c p -> cheap (fun l => k * length l) 0 c (rep_n n p).
Proof. intros P bs. apply cheap_rep_fuel, P. Qed.
Lemma cheap_rep0 {A} c n (p : counted A) : cheap one 0 c p -> cheap (fun _ => 0) 0 c (rep_n n p).
Proof.
  intros P. apply (cheap_weaken (fun l : list A => 0 * length l) _ 0 0 c c); [intro; lia|lia|lia|]. exact (cheap_rep 0 c n p P).
Qed.
Lemma cheap_until {A} c fin pn (body : A -> counted A) s : cheap one 0 c pn -> (forall s, cheap one 0 c (body s)) ->
  cheap (fun _ => 0) 0 (S c) (until_n fin pn body s).
Proof.
  intros P B bs. unfold until_n. generalize (S (length bs)). intro f. revert s bs.
  change (forall s, cheap (fun _ => 0) 0 (S c) (until_fuel_n fin pn body f s)).
  induction f as [|f IH]; intro s; cbn [until_fuel_n]; [apply cheap_out|]. intros bs. unfold npeek, peek. destruct bs as [|b r]; [cbn; lia|].
  set (bs := b :: r). destruct (fin b); unfold nbind.
  - specialize (P bs). unfold one in P. destruct (pn bs) as [n [[x rest]| | |]]; unfold nret; lia.
  - specialize (B s bs). unfold one in B. destruct (body s bs) as [n [[x rest]| | |]]; try lia. specialize (IH x rest).
    destruct (until_fuel_n fin pn body f x rest) as [m [[y rest']| | |]]; lia.
Qed.

Lemma cheap_tail {A} d c (p : counted A) : cheap one 0 c p -> cheap one d c p.
Proof. apply cheap_weaken; [intro; lia|lia|lia]. Qed.
Lemma cheap_tail0 {A} d c (p : counted A) : 1 <= d -> cheap (fun _ => 0) 0 c p -> cheap one d c p.
Proof.
  intros D P. apply (cheap_weaken (fun _ : A => 0 + 1) _ (0 + 1) d c c); [intro; unfold one; lia|lia|lia|].
  apply (cheap_frame (fun _ => 0)), P.
Qed.
Lemma cheap_zero {A} d c (p : counted A) : cheap one 0 c p -> cheap (fun _ => 0) d c p.
Proof. apply cheap_weaken; [intro; lia|lia|lia]. Qed.
Lemma cheap_zero0 {A} d c (p : counted A) : cheap (fun _ => 0) 0 c p -> cheap (fun _ => 0) d c p.
Proof. apply cheap_weaken; [intro; lia|lia|lia]. Qed.
Lemma cheap_read_step {B} (g : B -> nat) k d c f : 1 <= c -> (forall a, cheap g d c (f a)) -> cheap g (S d) c (nbind (read_n k) f).
Proof.
  intros C F. eapply cheap_bind with (g := fun _ => 0 + d); [|exact F].
  apply (cheap_weaken (fun _ : list N => 0 + d) _ (1 + d) (S d) c c); [intro; lia|lia|lia|].
  apply (cheap_frame (fun _ => 0)), cheap_read; lia.
Qed.
Lemma cheap_advance_step {B} (g : B -> nat) k d c f : 1 <= c -> (forall a, cheap g d c (f a)) -> cheap g (S d) c (nbind (advance_n k) f).
Proof.
  intros C F. eapply cheap_bind with (g := fun _ => 0 + d); [|exact F].
  apply (cheap_weaken (fun _ : unit => 0 + d) _ (1 + d) (S d) c c); [intro; lia|lia|lia|].
  apply (cheap_frame (fun _ => 0)), cheap_advance; lia.
Qed.

(** ** Each parser *)
Create HintDb cheap.
#[export] Hint Extern 1 (_ <= _) => lia : cheap.
Lemma one_u8 c : 1 <= c -> cheap one 0 c get_u8_n. Proof. intro. now apply cheap_three, cheap_u8. Qed.
Lemma one_u16 c : 1 <= c -> cheap one 0 c get_u16_n. Proof. intro. now apply cheap_three, cheap_u16. Qed.
Lemma one_u32 c : 1 <= c -> cheap one 0 c get_u32_n. Proof. intro. now apply cheap_three, cheap_u32. Qed.
Lemma one_u64 c : 1 <= c -> cheap one 0 c get_u64_n. Proof. intro. now apply cheap_three, cheap_u64. Qed.
Lemma one_u128 c : 1 <= c -> cheap one 0 c get_u128_n. Proof. intro. now apply cheap_three, cheap_u128. Qed.
#[export] Hint Resolve one_u8 one_u16 one_u32 one_u64 one_u128 : cheap.

Ltac ch := repeat first
  [ solve [auto 3 with cheap nocore]
  | apply cheap_ret; unfold one; lia
  | apply cheap_fail
  | apply cheap_lift; intro; unfold one; lia
  | apply cheap_tail; solve [auto 3 with cheap nocore]
  | apply cheap_tail0; [lia|solve [auto 3 with cheap nocore]]
  | apply cheap_zero; solve [auto 3 with cheap nocore]
  | apply cheap_zero0; solve [auto 3 with cheap nocore]
  | apply cheap_step; [solve [auto 3 with cheap nocore]|intro]
  | apply cheap_skip; [solve [auto 3 with cheap nocore]|intro]
  | apply cheap_read_step; [lia|intro]
  | apply cheap_advance_step; [lia|intro]
  | match goal with
    | |- cheap _ _ _ (if ?b then _ else _) => destruct b
    | |- cheap _ _ _ (match ?b with _ => _ end) => destruct b
    end ].

Lemma one_guid c : 1 <= c -> cheap one 0 c guid_parse_n. Proof. intro C. unfold guid_parse_n. ch. Qed.
#[export] Hint Resolve one_guid : cheap.
Lemma two_compact c : 1 <= c -> cheap (fun _ => 2) 0 c compact_parse_n.
Proof.
  intros C bs. unfold compact_parse_n, npeek, peek. destruct bs as [|b r]; [cbn; lia|].
  repeat match goal with |- context [if ?x then _ else _] => destruct x end; unfold nbind, call, advance_n, get_u8_n, get_u16_n, get_u64_n, read_n, call, get_u8, get_u16, get_u64, get_le, advance, read, pbind, pret, nret, nfail, remaining;
  repeat match goal with |- context [(?a <? ?b)%N] => destruct (N.ltb_spec a b) end;
  rewrite ?skipn_length in *; cbn [length] in *; rewrite ?skipn_length in *; lia.
Qed.
Lemma one_compact c : 1 <= c -> cheap one 0 c compact_parse_n. Proof. intro. now apply cheap_two, two_compact. Qed.
#[export] Hint Resolve one_compact : cheap.
Lemma one_exguid c : 1 <= c -> cheap one 0 c exguid_parse_n. Proof. intro C. unfold exguid_parse_n. ch. Qed.
#[export] Hint Resolve one_exguid cheap_rep0 : cheap.
Lemma one_exguids c : 1 <= c -> cheap one 0 c exguid_parse_array_n. Proof. intro C. unfold exguid_parse_array_n. ch. Qed.
Lemma one_cellid c : 1 <= c -> cheap one 0 c cellid_parse_n. Proof. intro C. unfold cellid_parse_n. ch. Qed.
#[export] Hint Resolve one_exguids one_cellid : cheap.
Lemma one_cellids c : 1 <= c -> cheap one 0 c cellid_parse_array_n. Proof. intro C. unfold cellid_parse_array_n. ch. Qed.
Lemma one_binary c : 1 <= c -> cheap one 0 c binary_item_parse_n.
Proof.
  intro C. unfold binary_item_parse_n. eapply cheap_bind; [apply two_compact, C|]. intro n.
  apply (cheap_weaken (fun _ : list N => 0 + 1) _ (1 + 1) 2 c c); [intro; unfold one; lia|lia|lia|].
  apply (cheap_frame (fun _ => 0)), cheap_read; lia.
Qed.
Lemma one_serial c : 1 <= c -> cheap one 0 c serial_parse_n. Proof. intro C. unfold serial_parse_n. ch. Qed.
#[export] Hint Resolve one_cellids one_binary one_serial : cheap.
Lemma two_h16 c : 1 <= c -> cheap (fun _ => 2) 0 c header_parse_16_n.
Proof.
  intro C. unfold header_parse_16_n. eapply cheap_bind; [apply cheap_u16, C|]. intro d. cbv beta.
  repeat match goal with |- context [if ?x then _ else _] => destruct x | |- context [match ?x with _ => _ end] => destruct x end; ch.
Qed.
Lemma two_h32 c : 1 <= c -> cheap (fun _ => 2) 0 c header_parse_32_n.
Proof.
  intro C. unfold header_parse_32_n. eapply cheap_bind; [apply cheap_u32, C|]. intro d. cbv beta.
  repeat match goal with |- context [if ?x then _ else _] => destruct x | |- context [match ?x with _ => _ end] => destruct x end; ch.
Qed.
Lemma one_h16 c : 1 <= c -> cheap one 0 c header_parse_16_n. Proof. intro. now apply cheap_two, two_h16. Qed.
Lemma one_h32 c : 1 <= c -> cheap one 0 c header_parse_32_n. Proof. intro. now apply cheap_two, two_h32. Qed.
Lemma one_h c : 2 <= c -> cheap one 0 c header_parse_n.
Proof.
  intro C. destruct c as [|c]; [lia|]. unfold header_parse_n. apply (cheap_peek_paid 1 c). intro b.
  cbv zeta. destruct (_ =? _)%N; [apply two_h16; lia|]. destruct (_ =? _)%N; [apply two_h32; lia|apply cheap_fail].
Qed.
Lemma one_e16 c : 1 <= c -> cheap one 0 c end_parse_16_n. Proof. intro C. unfold end_parse_16_n. ch. Qed.
Lemma one_e8 c : 1 <= c -> cheap one 0 c end_parse_8_n. Proof. intro C. unfold end_parse_8_n. ch. Qed.
#[export] Hint Resolve one_h16 one_h32 one_h one_e16 one_e8 : cheap.
Lemma one_try c t : 2 <= c -> cheap one 0 c (try_parse_n t). Proof. intro C. unfold try_parse_n, try_parse_start_n. ch. Qed.
Lemma one_try16 c t : 1 <= c -> cheap one 0 c (try_parse_16_n t). Proof. intro C. unfold try_parse_16_n, try_parse_start_n. ch. Qed.
Lemma one_try32 c t : 1 <= c -> cheap one 0 c (try_parse_32_n t). Proof. intro C. unfold try_parse_32_n, try_parse_start_n. ch. Qed.
Lemma one_end16 c t : 1 <= c -> cheap one 0 c (try_parse_end_16_n t). Proof. intro C. unfold try_parse_end_16_n, try_parse_end_n. ch. Qed.
Lemma one_end8 c t : 1 <= c -> cheap one 0 c (try_parse_end_8_n t). Proof. intro C. unfold try_parse_end_8_n, try_parse_end_n. ch. Qed.
#[export] Hint Resolve one_try one_try16 one_try32 one_end16 one_end8 : cheap.
Lemma cheap_until8 {A} c t (body : A -> counted A) s : 2 <= c -> (forall s, cheap one 0 c (body s)) ->
  cheap (fun _ => 0) 0 (S c) (until_end_8_n t body s).
Proof. intros C B. apply cheap_until; [apply one_end8; lia|exact B]. Qed.

Lemma one_cell_manifest c : 2 <= c -> cheap one 0 c cell_manifest_parse_n. Proof. intro C. unfold cell_manifest_parse_n. ch. Qed.
Lemma one_fragment c : 2 <= c -> cheap one 0 c fragment_parse_n. Proof. intro C. unfold fragment_parse_n. ch. Qed.
Lemma one_blob c : 2 <= c -> cheap one 0 c blob_parse_n. Proof. intro C. unfold blob_parse_n. ch. Qed.
Lemma one_root c : 1 <= c -> cheap one 0 c root_declare_parse_n. Proof. intro C. unfold root_declare_parse_n. ch. Qed.
#[export] Hint Resolve one_cell_manifest one_fragment one_blob one_root : cheap.
Lemma one_rev_item c s : 1 <= c -> cheap one 0 c (revision_manifest_item_n s).
Proof. intro C. unfold revision_manifest_item_n. ch. Qed.
Lemma zero_revs c t s : 3 <= c -> cheap (fun _ => 0) 0 c (until_end_8_n t revision_manifest_item_n s).
Proof. intro C. destruct c as [|c]; [lia|]. apply cheap_until8; [lia|]. intro. apply one_rev_item. lia. Qed.
#[export] Hint Resolve zero_revs : cheap.
Lemma one_revision c : 3 <= c -> cheap one 0 c revision_manifest_parse_n. Proof. intro C. unfold revision_manifest_parse_n. ch. Qed.
Lemma one_mmap c : 1 <= c -> cheap one 0 c manifest_mapping_parse_n. Proof. intro C. unfold manifest_mapping_parse_n. ch. Qed.
Lemma one_cmap c : 1 <= c -> cheap one 0 c cell_mapping_parse_n. Proof. intro C. unfold cell_mapping_parse_n. ch. Qed.
Lemma one_rmap c : 1 <= c -> cheap one 0 c rev_mapping_parse_n. Proof. intro C. unfold rev_mapping_parse_n. ch. Qed.
#[export] Hint Resolve one_revision one_mmap one_cmap one_rmap : cheap.
Lemma one_index_item c s : 1 <= c -> cheap one 0 c (storage_index_item_n s).
Proof. intro C. unfold storage_index_item_n. ch. Qed.
Lemma zero_index c : 3 <= c -> cheap (fun _ => 0) 0 c storage_index_parse_n.
Proof. intro C. destruct c as [|c]; [lia|]. apply cheap_until8; [lia|]. intro. apply one_index_item. lia. Qed.
Lemma one_manifest_item c s : 1 <= c -> cheap one 0 c (storage_manifest_item_n s).
Proof. intro C. unfold storage_manifest_item_n. ch. Qed.
Lemma zero_roots c t s : 3 <= c -> cheap (fun _ => 0) 0 c (until_end_8_n t storage_manifest_item_n s).
Proof. intro C. destruct c as [|c]; [lia|]. apply cheap_until8; [lia|]. intro. apply one_manifest_item. lia. Qed.
#[export] Hint Resolve zero_index zero_roots : cheap.
Lemma one_manifest c : 3 <= c -> cheap one 0 c storage_manifest_parse_n. Proof. intro C. unfold storage_manifest_parse_n. ch. Qed.
Lemma one_odecl c s : 2 <= c -> cheap one 0 c (odecl_item_n s). Proof. intro C. unfold odecl_item_n. ch. Qed.
Lemma zero_odecls c t s : 3 <= c -> cheap (fun _ => 0) 0 c (until_end_8_n t odecl_item_n s).
Proof. intro C. destruct c as [|c]; [lia|]. apply cheap_until8; [lia|]. intro. apply one_odecl. lia. Qed.
#[export] Hint Resolve one_manifest zero_odecls : cheap.
Lemma one_odecls c : 3 <= c -> cheap one 0 c odecls_parse_n. Proof. intro C. unfold odecls_parse_n. ch. Qed.
Lemma zero_freq c f : cheap (fun _ => 0) 0 c (nlift (change_frequency f)). Proof. apply cheap_lift. intro. lia. Qed.
#[export] Hint Resolve zero_freq : cheap.
Lemma one_ometa c s : 1 <= c -> cheap one 0 c (ometa_item_n s). Proof. intro C. unfold ometa_item_n. ch. Qed.
Lemma zero_ometas c : 3 <= c -> cheap (fun _ => 0) 0 c ometa_parse_n.
Proof. intro C. destruct c as [|c]; [lia|]. apply cheap_until8; [lia|]. intro. apply one_ometa. lia. Qed.
Lemma one_odata c s : 2 <= c -> cheap one 0 c (odata_item_n s). Proof. intro C. unfold odata_item_n. ch. Qed.
Lemma zero_odatas c : 3 <= c -> cheap (fun _ => 0) 0 c odata_parse_n.
Proof. intro C. destruct c as [|c]; [lia|]. apply cheap_until8; [lia|]. intro. apply one_odata. lia. Qed.
#[export] Hint Resolve one_odecls zero_ometas zero_odatas : cheap.
Lemma zero_meta c h : 3 <= c -> cheap (fun _ => 0) 0 c
  (match oh_type h with
   | ObjectGroupMetadataBlock =>
     m <~ ometa_parse_n ;;
     h2 <~ header_parse_n ;;
     if otype_eqb (oh_type h2) ObjectGroupData then nret m
     else nfail MalformedFssHttpBData
   | ObjectGroupData => nret []
   | _ => nfail MalformedFssHttpBData
   end).
Proof. intro C. ch. Qed.
#[export] Hint Resolve zero_meta : cheap.
Lemma one_group c : 3 <= c -> cheap one 0 c object_group_parse_n. Proof. intro C. unfold object_group_parse_n. ch. Qed.
#[export] Hint Resolve one_group : cheap.
Lemma one_element c s : 3 <= c -> cheap one 0 c (element_parse_n s).
Proof. intro C. unfold element_parse_n, element_body_n. destruct s as [si sm ce re og fr bl]. ch. Qed.
Lemma zero_elements c t s : 4 <= c -> cheap (fun _ => 0) 0 c (until_end_8_n t element_parse_n s).
Proof. intro C. destruct c as [|c]; [lia|]. apply cheap_until8; [lia|]. intro. apply one_element. lia. Qed.
#[export] Hint Resolve zero_elements : cheap.
Lemma one_package c : 4 <= c -> cheap one 0 c package_parse_n. Proof. intro C. unfold package_parse_n. ch. Qed.
#[export] Hint Resolve one_package : cheap.
Lemma one_legacy c a b d e : 4 <= c -> cheap one 0 c (parse_legacy_n a b d e). Proof. intro C. unfold parse_legacy_n. ch. Qed.
Lemma one_fcr c : 1 <= c -> cheap one 0 c fcr64x32_parse_n. Proof. intro C. unfold fcr64x32_parse_n. ch. Qed.
Lemma one_version c : 1 <= c -> cheap one 0 c version_check_n. Proof. intro C. unfold version_check_n. ch. Qed.
#[export] Hint Resolve one_legacy one_fcr one_version : cheap.
Lemma one_store_header c : 1 <= c -> cheap one 0 c revision_store_header_n. Proof. intro C. unfold revision_store_header_n. ch. Qed.
#[export] Hint Resolve one_store_header : cheap.
Lemma zero_any {A} c (r : res A) : cheap (fun _ => 0) 0 c (nlift r). Proof. apply cheap_lift. intro. lia. Qed.
#[export] Hint Resolve zero_any : cheap.
Lemma one_packaging_at c start : 4 <= c -> cheap one 0 c (parse_packaging_n start).
Proof.
  intro C. unfold parse_packaging_n. apply cheap_step; [auto with cheap nocore|]. intros log bs. cbv zeta.
  generalize (start - remaining bs)%N. intro k. revert bs.
  match goal with |- forall bs, match ?p bs with _ => _ end => change (cheap one 1 c p) end. ch.
Qed.
#[export] Hint Resolve one_packaging_at : cheap.
Lemma packaging_cheap c : 4 <= c -> cheap one 0 c packaging_parse_n.
Proof.
  intros C bs. unfold packaging_parse_n. cbv zeta.
  generalize (remaining bs). intro k. revert bs.
  match goal with |- forall bs, match ?p bs with _ => _ end => change (cheap one 0 c p) end. ch.
Qed.

(** ** Property sets *)
Lemma one_compactid c : 1 <= c -> cheap one 0 c compactid_parse_n. Proof. intro C. unfold compactid_parse_n. ch. Qed.
Lemma one_stream c : 1 <= c -> cheap one 0 c stream_header_parse_n. Proof. intro C. unfold stream_header_parse_n. ch. Qed.
Lemma one_pid c : 1 <= c -> cheap one 0 c pid_parse_n. Proof. apply one_u32. Qed.
Lemma zero_pvec c : 1 <= c -> cheap (fun _ => 0) 0 c pvec_parse_n. Proof. intro C. unfold pvec_parse_n. ch. Qed.
#[export] Hint Resolve one_compactid one_stream one_pid zero_pvec : cheap.
Lemma zero_rep_fuel {A} c f n (p : counted A) : cheap one 0 c p -> cheap (fun _ => 0) 0 c (rep_fuel_n p f n).
Proof.
  intro P. apply (cheap_weaken (fun l : list A => 0 * length l) _ 0 0 c c); [intro; lia|lia|lia|]. exact (cheap_rep_fuel 0 c p P f n).
Qed.
#[export] Hint Resolve zero_rep_fuel : cheap.
Lemma zero_pvalue c ps f id : 1 <= c -> cheap one 0 c ps -> cheap (fun _ => 0) 0 c (pvalue_parse_n ps f id).
Proof. intros C P. unfold pvalue_parse_n. ch. Qed.
Lemma zero_pvalues c pv ids : (forall id, cheap (fun _ => 0) 0 c (pv id)) -> forall idx m k,
  cheap (fun _ => k) (length ids + k) c (pvalues_parse_n pv idx ids m).
Proof.
  intros P. induction ids as [|id ids IH]; intros idx m k; cbn [pvalues_parse_n length]; [apply cheap_ret; lia|].
  apply cheap_skip; [apply P|]. intro v. apply (cheap_turn (fun _ => k) (length ids + k)). apply IH.
Qed.
Lemma one_propset_fuel c : 1 <= c -> forall f, cheap one 0 c (propset_fuel_n f).
Proof.
  intros C f. induction f as [|f IH]; cbn [propset_fuel_n]; [apply cheap_out|].
  apply cheap_step; [auto with cheap nocore|]. intro n.
  eapply cheap_bind with (g := fun l => length l + 1).
  - apply (cheap_weaken (fun l : list N => 1 * length l + 1) _ (0 + 1) 1 c c); [intro; lia|lia|lia|].
    apply (cheap_frame (fun l : list N => 1 * length l)), cheap_rep.
    apply (cheap_weaken (fun _ : N => 3) _ 0 0 c c); [intro; lia|lia|lia|]. now apply cheap_u32.
  - intro ids. apply (zero_pvalues c _ ids). intro. apply zero_pvalue; assumption.
Qed.
Lemma one_propset c : 1 <= c -> cheap one 0 c propset_parse_n.
Proof. intros C bs. apply (one_propset_fuel c C). Qed.
#[export] Hint Resolve one_propset : cheap.
Lemma oprops_cheap c : 1 <= c -> cheap one 0 c oprops_parse_n.
Proof.
  intro C. unfold oprops_parse_n. apply cheap_step; [auto with cheap nocore|]. intro h.
  apply cheap_skip; [auto with cheap nocore|]. intro oids. apply cheap_skip; [|intro; ch].
  destruct (sh_osid_absent h); [ch|]. apply cheap_step; [auto with cheap nocore|]. intro h2.
  apply cheap_skip; [auto with cheap nocore|]. intro. apply cheap_skip; [|intro; ch].
  destruct (sh_extended h2); ch.
Qed.

(** ** Erasing the count *)
Lemma same_cell_manifest : same cell_manifest_parse_n cell_manifest_parse. Proof. unfold cell_manifest_parse_n, cell_manifest_parse. sm. Qed.
Lemma same_fragment : same fragment_parse_n fragment_parse. Proof. unfold fragment_parse_n, fragment_parse. sm. Qed.
Lemma same_blob : same blob_parse_n blob_parse. Proof. unfold blob_parse_n, blob_parse. sm. Qed.
Lemma same_root : same root_declare_parse_n root_declare_parse. Proof. unfold root_declare_parse_n, root_declare_parse. sm. Qed.
#[export] Hint Resolve same_cell_manifest same_fragment same_blob same_root same_until8 : same.
Lemma same_rev_item s : same (revision_manifest_item_n s) (revision_manifest_item s). Proof. unfold revision_manifest_item_n, revision_manifest_item. sm. Qed.
#[export] Hint Resolve same_rev_item : same.
Lemma same_revision : same revision_manifest_parse_n revision_manifest_parse. Proof. unfold revision_manifest_parse_n, revision_manifest_parse. sm. Qed.
Lemma same_mmap : same manifest_mapping_parse_n manifest_mapping_parse. Proof. unfold manifest_mapping_parse_n, manifest_mapping_parse. sm. Qed.
Lemma same_cmap : same cell_mapping_parse_n cell_mapping_parse. Proof. unfold cell_mapping_parse_n, cell_mapping_parse. sm. Qed.
Lemma same_rmap : same rev_mapping_parse_n rev_mapping_parse. Proof. unfold rev_mapping_parse_n, rev_mapping_parse. sm. Qed.
#[export] Hint Resolve same_revision same_mmap same_cmap same_rmap : same.
Lemma same_index_item s : same (storage_index_item_n s) (storage_index_item s). Proof. unfold storage_index_item_n, storage_index_item. sm. Qed.
Lemma same_manifest_item s : same (storage_manifest_item_n s) (storage_manifest_item s). Proof. unfold storage_manifest_item_n, storage_manifest_item. sm. Qed.
#[export] Hint Resolve same_index_item same_manifest_item : same.
Lemma same_index : same storage_index_parse_n storage_index_parse. Proof. unfold storage_index_parse_n, storage_index_parse. sm. Qed.
Lemma same_manifest : same storage_manifest_parse_n storage_manifest_parse. Proof. unfold storage_manifest_parse_n, storage_manifest_parse. sm. Qed.
Lemma same_odecl s : same (odecl_item_n s) (odecl_item s). Proof. unfold odecl_item_n, odecl_item. sm. Qed.
Lemma same_ometa s : same (ometa_item_n s) (ometa_item s). Proof. unfold ometa_item_n, ometa_item. sm. Qed.
Lemma same_odata s : same (odata_item_n s) (odata_item s). Proof. unfold odata_item_n, odata_item. sm. Qed.
#[export] Hint Resolve same_index same_manifest same_odecl same_ometa same_odata : same.
Lemma same_odecls : same odecls_parse_n odecls_parse. Proof. unfold odecls_parse_n, odecls_parse. sm. Qed.
Lemma same_ometas : same ometa_parse_n ometa_parse. Proof. unfold ometa_parse_n, ometa_parse. sm. Qed.
Lemma same_odatas : same odata_parse_n odata_parse. Proof. unfold odata_parse_n, odata_parse. sm. Qed.
#[export] Hint Resolve same_odecls same_ometas same_odatas : same.
Lemma same_group : same object_group_parse_n object_group_parse. Proof. unfold object_group_parse_n, object_group_parse. sm. Qed.
#[export] Hint Resolve same_group : same.
Lemma same_element s : same (element_parse_n s) (element_parse s).
Proof. unfold element_parse_n, element_parse, element_body_n, element_body. destruct s. sm. Qed.
#[export] Hint Resolve same_element : same.
Lemma same_package : same package_parse_n package_parse. Proof. unfold package_parse_n, package_parse. sm. Qed.
#[export] Hint Resolve same_package : same.
Lemma same_legacy a b c d : same (parse_legacy_n a b c d) (parse_legacy a b c d). Proof. unfold parse_legacy_n, parse_legacy. sm. Qed.
Lemma same_fcr : same fcr64x32_parse_n fcr64x32_parse. Proof. unfold fcr64x32_parse_n, fcr64x32_parse. sm. Qed.
Lemma same_version : same version_check_n version_check. Proof. unfold version_check_n, version_check. sm. Qed.
#[export] Hint Resolve same_legacy same_fcr same_version : same.
Lemma same_store_header : same revision_store_header_n revision_store_header. Proof. unfold revision_store_header_n, revision_store_header. sm. Qed.
#[export] Hint Resolve same_store_header : same.
Lemma same_packaging_at start : same (parse_packaging_n start) (parse_packaging start).
Proof.
  unfold parse_packaging_n, parse_packaging. apply same_bind; [apply same_store_header|]. intros log bs. cbv zeta.
  generalize (start - remaining bs)%N. intro k. revert bs.
  match goal with |- forall bs, snd (?p bs) = ?q bs => change (same p q) end. sm.
Qed.
#[export] Hint Resolve same_packaging_at : same.
Lemma same_packaging : same packaging_parse_n packaging_parse.
Proof.
  intros bs. unfold packaging_parse_n, packaging_parse. cbv zeta.
  generalize (remaining bs). intro k. revert bs.
  match goal with |- forall bs, snd (?p bs) = ?q bs => change (same p q) end. sm.
Qed.
Lemma same_compactid : same compactid_parse_n compactid_parse. Proof. unfold compactid_parse_n, compactid_parse. sm. Qed.
Lemma same_stream : same stream_header_parse_n stream_header_parse. Proof. unfold stream_header_parse_n, stream_header_parse. sm. Qed.
Lemma same_pid : same pid_parse_n pid_parse. Proof. unfold pid_parse_n, pid_parse. sm. Qed.
Lemma same_pvec : same pvec_parse_n pvec_parse. Proof. unfold pvec_parse_n, pvec_parse. sm. Qed.
#[export] Hint Resolve same_compactid same_stream same_pid same_pvec same_rep_fuel : same.
Lemma same_pvalue ps ps' f id : same ps ps' -> same (pvalue_parse_n ps f id) (pvalue_parse ps' f id).
Proof. intro P. unfold pvalue_parse_n, pvalue_parse. sm. Qed.
Lemma same_pvalues pv pv' ids : (forall id, same (pv id) (pv' id)) -> forall idx m,
  same (pvalues_parse_n pv idx ids m) (pvalues_parse pv' idx ids m).
Proof.
  intros P. induction ids as [|id ids IH]; intros idx m; cbn [pvalues_parse_n pvalues_parse]; [apply same_ret|].
  apply same_bind; [apply P|]. intro v. apply same_turn, IH.
Qed.
Lemma same_propset_fuel f : same (propset_fuel_n f) (propset_fuel f).
Proof.
  induction f as [|f IH]; cbn [propset_fuel_n propset_fuel]; [apply same_out|].
  apply same_bind; [sm|]. intro n. apply same_bind; [sm|]. intro ids. apply same_pvalues. intro id. now apply same_pvalue.
Qed.
Lemma same_propset : same propset_parse_n propset_parse.
Proof. intros bs. apply same_propset_fuel. Qed.
#[export] Hint Resolve same_propset : same.
Lemma same_oprops : same oprops_parse_n oprops_parse. Proof. unfold oprops_parse_n, oprops_parse. sm. Qed.

Lemma cheap_bound {A} c (p : counted A) : cheap one 0 c p -> forall bs, fst (p bs) <= 4 * length bs + c.
Proof. intros P bs. specialize (P bs). unfold one in P. destruct (p bs) as [n [[x rest]| | |]]; cbn [fst]; lia. Qed.
