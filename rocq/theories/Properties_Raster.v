(** Theorems about rasterisation and pixel semantics (C31, C32, C51-C53). *)
From Verif Require Import CBase Num NumSpec Buffer Region RegionSpec FloatOps FloatProofs RegionGeom GeomSpec GeomProofs BoundsProofs OverlapProofs RasterProofs.
Local Open Scope Z_scope.

(** C32, default rasterisation of polygons with coordinates up to 2^23, in a buffer of exactly width * height bytes: nothing
    out of bounds is touched (Ok), every pixel becomes 0 or 1, and the returned sum is at least the number of pixels set. *)
Theorem rasterize_partial : forall pts mask width height, Forall (fun p => near (fst p) /\ near (snd p)) pts ->
  0 <= width -> 0 <= height <= 2 ^ 23 -> in_int (width * height) = true -> Z.of_nat (List.length mask) = width * height ->
  height * (width + Z.of_nat (List.length pts)) <= INT_MAX ->
  exists mask' sum, rasterize false pts (Some mask) width height = Ok (Some mask', sum) /\
    List.length mask' = List.length mask /\
    (forall i j, 0 <= i < height -> 0 <= j < width -> cell mask' width i j = Some 0%N \/ cell mask' width i j = Some 1%N) /\
    0 <= ones mask' <= sum.
Proof. exact rasterize_safe. Qed.
Print Assumptions rasterize_partial.
Example rasterize_nonvacuous : let pts := [(float_of_int 0, float_m2_5); (float_of_int 3, float_of_int 1); (float_of_int 2, float_of_int 3)] in
  Forall (fun p => near (fst p) /\ near (snd p)) pts /\
  rasterize false pts (Some (blk_new 12)) 4 3 = Ok (Some (map Some [0; 1; 1; 0; 0; 1; 1; 1; 0; 1; 1; 0]%N), 7).
Proof. cbv zeta. split; [repeat (apply Forall_cons; [vm_compute; repeat split; discriminate|]); apply Forall_nil|now vm_compute]. Qed.
(** C32 violated: a bow tie gets 23 pixels and the sum 24. *)
Theorem rasterize_count_refuted :
  exists mask', rasterize false [(float_of_int 0, float_of_int 0); (float_of_int 4, float_of_int 4); (float_of_int 4, float_of_int 0); (float_of_int 0, float_of_int 4)]
    (Some (blk_new 25)) 5 5 = Ok (Some mask', 24) /\ ones mask' = 23.
Proof. eexists. split; vm_compute; reflexivity. Qed.
Print Assumptions rasterize_count_refuted.

(** C51, default rasterisation: in any window, the pixels of a rectangle with integer position and size are exactly those
    inside it. *)
Theorem rectangle_window_partial : forall x y w h X Y W H wx wy ww wh,
  finite_float x -> finite_float y -> finite_float w -> finite_float h ->
  is_int x X -> is_int y Y -> is_int w W -> is_int h H -> 0 < W -> 0 < H -> 0 < ww -> 0 < wh -> ww * wh <= 2 ^ 24 ->
  - 2 ^ 21 <= X -> X + W - 1 <= 2 ^ 21 -> - 2 ^ 21 <= Y -> Y + H - 1 <= 2 ^ 21 ->
  - 2 ^ 21 <= wx -> wx + ww - 1 <= 2 ^ 21 -> - 2 ^ 21 <= wy -> wy + wh - 1 <= 2 ^ 21 ->
  exists mask, get_mask_offset false (RRect x y w h) (blk_new (Z.to_nat (ww * wh))) wx wy ww wh = Ok mask /\
    Z.of_nat (List.length mask) = ww * wh /\
    forall i j, 0 <= i < wh -> 0 <= j < ww ->
      cell mask ww i j = Some (if (X <=? wx + j) && (wx + j <? X + W) && (Y <=? wy + i) && (wy + i <? Y + H) then 1%N else 0%N).
Proof. exact rect_window_cells. Qed.
Print Assumptions rectangle_window_partial.
Example rectangle_window_nonvacuous : finite_float (float_of_int (-3)) /\ is_int (float_of_int (-3)) (-3) /\
  get_mask_offset false (RRect (float_of_int (-3)) (float_of_int 1) (float_of_int 2) (float_of_int 1)) (blk_new 8) (-3) 0 4 2
  = Ok (map Some [0; 0; 0; 0; 1; 1; 0; 0]%N).
Proof. vm_compute. repeat split. Qed.
(** C51 violated with legacy rasterisation: the square at (0, 0) with sides 2 is drawn one row too low. *)
Theorem rectangle_window_refuted :
  get_mask true (RRect (float_of_int 0) (float_of_int 0) (float_of_int 2) (float_of_int 2)) (blk_new 9) 3 3
  = Ok (map Some [0; 0; 0; 1; 1; 0; 1; 1; 0]%N).
Proof. now vm_compute. Qed.
Print Assumptions rectangle_window_refuted.

(** C52, rectangles with integer position and size: conversion to a mask keeps the pixels, and converting back gives the
    same rectangle. *)
Theorem rectangle_mask_partial : forall legacy x y w h X Y W H,
  finite_float x -> finite_float y -> finite_float w -> finite_float h ->
  is_int x X -> is_int y Y -> is_int w W -> is_int h H -> 0 < W -> 0 < H ->
  exact_span X W -> exact_span Y H -> in_int (W * H) = true ->
  exists data rx ry rw rh, convert legacy (RRect x y w h) MASK = Ok (Some (RMask X Y W H data)) /\ mask_ok W H data /\
    (forall A B, set_at X Y W H data A B <-> X <= A < X + W /\ Y <= B < Y + H) /\
    convert legacy (RMask X Y W H data) RECTANGLE = Ok (Some (RRect rx ry rw rh)) /\
    is_int rx X /\ is_int ry Y /\ is_int rw W /\ is_int rh H.
Proof. exact rect_mask_rect. Qed.
Print Assumptions rectangle_mask_partial.
Example rectangle_mask_nonvacuous : finite_float (float_of_int 7) /\ is_int (float_of_int 7) 7 /\ exact_span 7 2 /\ exact_span (-1) 1 /\
  convert false (RRect (float_of_int 7) (float_of_int (-1)) (float_of_int 2) (float_of_int 1)) MASK = Ok (Some (RMask 7 (-1) 2 1 [255; 255]%N)).
Proof. vm_compute. repeat split; discriminate. Qed.
(** C52 violated: the 5 x 5 square with corners (0, 0) and (4, 4), as a polygon, becomes a mask with four pixels, placed at (0, 4). *)
Theorem polygon_mask_refuted :
  convert false (RPoly [(float_of_int 0, float_of_int 0); (float_of_int 4, float_of_int 0); (float_of_int 4, float_of_int 4); (float_of_int 0, float_of_int 4)]) MASK
  = Ok (Some (RMask 0 4 4 4 [1; 1; 1; 1; 0; 0; 0; 0; 0; 0; 0; 0; 0; 0; 0; 0]%N)).
Proof. now vm_compute. Qed.
Print Assumptions polygon_mask_refuted.

(** C53, masks at non-negative positions: a point is contained exactly when the pixel it lies in is set. *)
Theorem mask_point_partial : forall mx my mw mh data x y X Y, mask_ok mw mh data -> exact_span mx mw -> exact_span my mh ->
  0 <= mx -> 0 <= my -> finite_float x -> finite_float y -> is_floor x X -> is_floor y Y ->
  exists b, contains_point (RMask mx my mw mh data) x y = Ok b /\ (b = true <-> set_at mx my mw mh data X Y).
Proof. exact point_in_mask_ok. Qed.
Print Assumptions mask_point_partial.
Example mask_point_nonvacuous : let x := S754_finite false 11010048 (-22) in
  finite_float x /\ is_floor x 2 /\ mask_ok 2 1 [0; 1]%N /\ exact_span 1 2 /\ set_at 1 0 2 1 [0; 1]%N 2 0 /\
  contains_point (RMask 1 0 2 1 [0; 1]%N) x float_0 = Ok true.
Proof. vm_compute. repeat split; discriminate. Qed.
(** C53 violated: for a mask at x = -1 of width 1, the query for x = -0.5 reads outside the pixels. *)
Theorem mask_point_refuted : contains_point (RMask (-1) 0 1 1 [1]%N) (S754_finite true 8388608 (-24)) float_0 = UB.
Proof. now vm_compute. Qed.
Print Assumptions mask_point_refuted.

(** C31, masks and rectangles with integer position and size, in any combination, under the same conditions as
    overlap_is_jaccard_partial, within 2^21 of the origin and with default rasterisation. *)
Theorem overlap_of_regions_partial : forall g1 g2 S1 S2 bnd bl bt br bb l1 t1 r1 b1 l2 t2 r2 b2 both only1 only2 either,
  covers g1 S1 -> covers g2 S2 -> tight_box S1 l1 t1 r1 b1 -> tight_box S2 l2 t2 r2 b2 ->
  - 2 ^ 21 <= l1 -> r1 <= 2 ^ 21 -> - 2 ^ 21 <= t1 -> b1 <= 2 ^ 21 ->
  - 2 ^ 21 <= l2 -> r2 <= 2 ^ 21 -> - 2 ^ 21 <= t2 -> b2 <= 2 ^ 21 ->
  int_bounds bnd bl bt br bb ->
  let L1 := Z.max l1 bl in let U1 := Z.max t1 bt in let R1 := Z.min r1 br in let D1 := Z.min b1 bb in
  let L2 := Z.max l2 bl in let U2 := Z.max t2 bt in let R2 := Z.min r2 br in let D2 := Z.min b2 bb in
  L1 < R1 /\ U1 < D1 -> L2 < R2 /\ U2 < D2 ->
  (Z.max R1 R2 - Z.min L1 L2 + 1) * (Z.max D1 D2 - Z.min U1 U2 + 1) <= 2 ^ 23 ->
  (Z.max L1 L2 < Z.min R1 R2 /\ Z.max U1 U2 < Z.min D1 D2) \/ Z.min R1 R2 < Z.max L1 L2 \/ Z.min D1 D2 < Z.max U1 U2 ->
  let inside X Y := bl <= X <= br /\ bt <= Y <= bb in
  enumerates both (fun X Y => S1 X Y /\ S2 X Y /\ inside X Y) ->
  enumerates only1 (fun X Y => S1 X Y /\ ~ S2 X Y /\ inside X Y) ->
  enumerates only2 (fun X Y => S2 X Y /\ ~ S1 X Y /\ inside X Y) ->
  enumerates either (fun X Y => (S1 X Y \/ S2 X Y) /\ inside X Y) -> either <> [] ->
  exists o, compute_overlap false g1 g2 bnd = Ok o /\
    quotient (o_overlap o) (Z.of_nat (List.length both)) (Z.of_nat (List.length either)) /\
    quotient (o_only1 o) (Z.of_nat (List.length only1)) (Z.of_nat (List.length either)) /\
    quotient (o_only2 o) (Z.of_nat (List.length only2)) (Z.of_nat (List.length either)) /\
    Z.abs (units (o_overlap o) + units (o_only1 o) + units (o_only2 o) - 2 ^ 1074) * 2 ^ 25 <= 3 * 2 ^ 1074 /\
    compute_overlap false g2 g1 bnd = Ok (mkOverlap (o_overlap o) (o_only2 o) (o_only1 o)).
Proof. exact overlap_of_covers. Qed.
Print Assumptions overlap_of_regions_partial.
(** The rectangle at (0, 0) with sides 2 covers the pixels of the full 2 x 2 mask, for which overlap_nonvacuous meets the
    other hypotheses; overlap with a 3 x 3 mask is 4/9. *)
Example overlap_of_regions_nonvacuous :
  covers (RRect (float_of_int 0) (float_of_int 0) (float_of_int 2) (float_of_int 2)) (set_at 0 0 2 2 (full 2 2)) /\
  covers (RMask 0 0 3 3 (full 3 3)) (set_at 0 0 3 3 (full 3 3)) /\
  compute_overlap false (RRect (float_of_int 0) (float_of_int 0) (float_of_int 2) (float_of_int 2)) (RMask 0 0 3 3 (full 3 3)) no_bounds
  = Ok (mkOverlap (divf (float_of_int 4) (float_of_int 9)) (S754_zero false) (divf (float_of_int 5) (float_of_int 9))).
Proof. exact covers_example. Qed.
