(** C71: ink coordinates are worth the stored numbers. *)
From Coq Require Import QArith Qabs Floats.SpecFloat.
From Verif Require Import Base Store Props Nodes Doc SpecDoc SpecSingle SingleProofs2 SingleProofs3 SingleProofs4.

(** Conversion, product and difference, as used for ink, give the closest number there
    is; out of range, infinity. *)
Theorem C71_whole : forall z, (Z.abs z < 2 ^ 127)%Z -> closest (inject_Z z) (f32_of_Z z).
Proof. exact whole_ok. Qed.
Print Assumptions C71_whole.
Theorem C71_times : forall a b x y, storable a -> storable b -> value a = Some x -> value b = Some y ->
  (in_range (x * y) -> closest (x * y) (f32_mul a b)) /\ (~ in_range (x * y) -> exists s, f32_mul a b = S754_infinity s).
Proof. exact times_ok. Qed.
Print Assumptions C71_times.
Theorem C71_minus : forall a b x y, storable a -> storable b -> value a = Some x -> value b = Some y ->
  (in_range (x - y) -> closest (x - y) (f32_sub a b)) /\ (~ in_range (x - y) -> exists s, f32_sub a b = S754_infinity s).
Proof. exact minus_ok. Qed.
Print Assumptions C71_minus.

(** A scaled bounding box is scaled on all sides. *)
Theorem C71_scale : forall b factor, let r := ink_box_scale b factor in
  product (bb_x b) factor (bb_x r) /\ product (bb_y b) factor (bb_y r) /\
  product (bb_height b) factor (bb_height r) /\ product (bb_width b) factor (bb_width r).
Proof. exact scale_ok. Qed.
Print Assumptions C71_scale.
(** Position (1, -2), size 3 by 0.5, twice as large. *)
Example C71_example_scale :
  let b := InkBox (single 0x3F800000) (single 0xC0000000) (single 0x40400000) (single 0x3F000000) in
  map (fun f => option_map Qred (value f)) (let r := ink_box_scale b (single 0x40000000) in [bb_x r; bb_y r; bb_height r; bb_width r]) =
    [Some (inject_Z 2); Some (inject_Z (-4)); Some (inject_Z 6); Some (inject_Z 1)] /\
  storable (single 0x40000000) /\ storable (bb_x b).
Proof. split; [vm_compute; reflexivity|]. split; eexists; (split; [|reflexivity]); reflexivity. Qed.

(** The path of a stroke without scale. *)
Theorem C71_path : forall zs props pts, Forall (fun z => Z.abs z < 2 ^ 64)%Z zs -> parse_ink_path zs props None None = Ok pts ->
  exists src, sources zs (sp_dimensions props) src /\ Forall2 (fun s p => about (fst s) (ip_x p) /\ about (snd s) (ip_y p)) src pts.
Proof. exact path_about. Qed.
Print Assumptions C71_path.
(** With any scale that is not negative: no two points change places. *)
Theorem C71_order : forall zs props sx sy pts y, Forall (fun z => Z.abs z < 2 ^ 64)%Z zs -> in_bits sx -> value (factor sx) = Some y -> (0 <= y)%Q ->
  parse_ink_path zs props sx sy = Ok pts ->
  exists src, sources zs (sp_dimensions props) src /\ length src = length pts /\
    forall i j s t p q v w, nth_error src i = Some s -> nth_error src j = Some t -> nth_error pts i = Some p -> nth_error pts j = Some q ->
      (fst s <= fst t)%Z -> value (ip_x p) = Some v -> value (ip_x q) = Some w -> (v <= w)%Q.
Proof. exact path_order. Qed.
Print Assumptions C71_order.
Theorem C71_order_y : forall zs props sx sy pts y, Forall (fun z => Z.abs z < 2 ^ 64)%Z zs -> in_bits sy -> value (factor sy) = Some y -> (0 <= y)%Q ->
  parse_ink_path zs props sx sy = Ok pts ->
  exists src, sources zs (sp_dimensions props) src /\ length src = length pts /\
    forall i j s t p q v w, nth_error src i = Some s -> nth_error src j = Some t -> nth_error pts i = Some p -> nth_error pts j = Some q ->
      (snd s <= snd t)%Z -> value (ip_y p) = Some v -> value (ip_y q) = Some w -> (v <= w)%Q.
Proof. exact path_order_y. Qed.
Print Assumptions C71_order_y.

Definition ex_dims : stroke_props := StrokeProps false false false None None None 0 0 None [InkDimension guid_x 0 0; InkDimension guid_y 0 0].
(** 2 ^ 24 - 1, 2 ^ 24 + 1; the second is rounded to 2 ^ 24. *)
Example C71_example : exists a b, parse_ink_path [16777215; 16777217; -3; 5]%Z ex_dims None None = Ok [a; b] /\
  option_map Qred (value (ip_x a)) = Some (inject_Z 16777215) /\ option_map Qred (value (ip_x b)) = Some (inject_Z 16777216) /\
  option_map Qred (value (ip_y a)) = Some (inject_Z (-3)).
Proof. eexists _, _. split; [vm_compute; reflexivity|]. split; [vm_compute; reflexivity|]. split; vm_compute; reflexivity. Qed.
(** 0.1 times 3; 2 ^ 127 times 2. *)
Example C71_example_times :
  storable (single 0x3DCCCCCD) /\ storable (single 0x40400000) /\ f32_mul (single 0x3DCCCCCD) (single 0x40400000) = single 0x3E99999A /\
  f32_mul (single 0x7F000000) (single 0x40000000) = S754_infinity false /\ f32_sub (single 0x3DCCCCCD) (single 0x3DCCCCCC) = single 0x32000000.
Proof. split; [exists 0x3DCCCCCD; split; reflexivity|]. split; [exists 0x40400000; split; reflexivity|]. split; [reflexivity|]. split; reflexivity. Qed.
(** A scale of one half, and coordinates that cannot be told apart after rounding. *)
Example C71_example_order : in_bits (Some 0x3F000000) /\ value (factor (Some 0x3F000000)) <> None /\
  exists a b, parse_ink_path [16777216; 16777217; -3; 5]%Z ex_dims (Some 0x3F000000) None = Ok [a; b] /\
  option_map Qred (value (ip_x a)) = Some (inject_Z 8388608) /\ option_map Qred (value (ip_x b)) = Some (inject_Z 8388608).
Proof. split; [reflexivity|]. split; [discriminate|]. eexists _, _. split; [vm_compute; reflexivity|]. split; vm_compute; reflexivity. Qed.
