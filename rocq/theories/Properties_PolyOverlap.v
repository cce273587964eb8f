(** C31: overlap of polygons, and of rectangles with fractional position or size. *)
From Verif Require Import CBase Buffer Num NumSpec FloatOps Region RegionSpec RegionGeom GeomSpec OverlapSpec OverlapProofs PolyOverlapProofs.
Local Open Scope Z_scope.

(** The overlap of any two regions with pixels (polygons, rectangles with any finite numbers, masks) within 2^21 of the
    origin, clipped to integer bounds, is counted from the pixels region_get_mask_offset draws: both regions in the
    window around both clipped boxes or, only if the boxes are apart, each in the window of its own box.  Given the
    lists of those pixels, the three results are the exact quotients rounded to single precision, they add up to 1 but
    for rounding, and exchanging the regions exchanges the last two.  Missing: boxes that share one column or row
    (see overlap_is_jaccard_refuted), boxes one pixel wide, larger regions, legacy rasterisation. *)
Theorem overlap_of_drawn_partial : forall g1 g2 bnd bl bt br bb l1 t1 r1 b1 l2 t2 r2 b2,
  proper g1 -> proper g2 -> pixel_box g1 l1 t1 r1 b1 -> pixel_box g2 l2 t2 r2 b2 ->
  - 2 ^ 21 <= l1 -> r1 <= 2 ^ 21 -> - 2 ^ 21 <= t1 -> b1 <= 2 ^ 21 ->
  - 2 ^ 21 <= l2 -> r2 <= 2 ^ 21 -> - 2 ^ 21 <= t2 -> b2 <= 2 ^ 21 ->
  int_bounds bnd bl bt br bb ->
  let L1 := Z.max l1 bl in let U1 := Z.max t1 bt in let R1 := Z.min r1 br in let D1 := Z.min b1 bb in
  let L2 := Z.max l2 bl in let U2 := Z.max t2 bt in let R2 := Z.min r2 br in let D2 := Z.min b2 bb in
  L1 < R1 /\ U1 < D1 -> L2 < R2 /\ U2 < D2 ->
  let hull := around (Z.min L1 L2) (Z.min U1 U2) (Z.max R1 R2) (Z.max D1 D2) in
  w_width hull * w_height hull <= 2 ^ 23 ->
  w_height hull * (w_width hull + Z.max (corners g1) (corners g2)) <= 2147483647 ->
  (Z.max L1 L2 < Z.min R1 R2 /\ Z.max U1 U2 < Z.min D1 D2) \/ Z.min R1 R2 < Z.max L1 L2 \/ Z.min D1 D2 < Z.max U1 U2 ->
  exists w1 w2,
    (w1 = hull /\ w2 = hull \/
     w1 = around L1 U1 R1 D1 /\ w2 = around L2 U2 R2 D2 /\ (Z.min R1 R2 < Z.max L1 L2 \/ Z.min D1 D2 < Z.max U1 U2)) /\
    forall both only1 only2 either,
    enumerates both (fun X Y => drawn g1 w1 X Y /\ drawn g2 w2 X Y) ->
    enumerates only1 (fun X Y => drawn g1 w1 X Y /\ ~ drawn g2 w2 X Y) ->
    enumerates only2 (fun X Y => drawn g2 w2 X Y /\ ~ drawn g1 w1 X Y) ->
    enumerates either (fun X Y => drawn g1 w1 X Y \/ drawn g2 w2 X Y) -> either <> [] ->
    exists o, compute_overlap false g1 g2 bnd = Ok o /\
      quotient (o_overlap o) (Z.of_nat (List.length both)) (Z.of_nat (List.length either)) /\
      quotient (o_only1 o) (Z.of_nat (List.length only1)) (Z.of_nat (List.length either)) /\
      quotient (o_only2 o) (Z.of_nat (List.length only2)) (Z.of_nat (List.length either)) /\
      Z.abs (units (o_overlap o) + units (o_only1 o) + units (o_only2 o) - 2 ^ 1074) * 2 ^ 25 <= 3 * 2 ^ 1074 /\
      compute_overlap false g2 g1 bnd = Ok (mkOverlap (o_overlap o) (o_only2 o) (o_only1 o)).
Proof. exact overlap_of_drawn. Qed.
Print Assumptions overlap_of_drawn_partial.
(** Two triangles, one with fractional coordinates: 27 common pixels of 70. *)
Example overlap_of_drawn_nonvacuous :
  proper triangle_a /\ proper triangle_b /\ pixel_box triangle_a 0 0 10 10 /\ pixel_box triangle_b 0 2 6 10 /\
  drawn triangle_a (around 0 0 10 10) 4 4 /\
  compute_overlap false triangle_a triangle_b no_bounds
  = Ok (mkOverlap (divf (float_of_int 27) (float_of_int 70)) (divf (float_of_int 39) (float_of_int 70)) (divf (float_of_int 4) (float_of_int 70))).
Proof. exact triangles_example. Qed.

(** A region overlaps itself completely, if any of it is drawn inside the bounds. *)
Theorem overlap_with_itself_partial : forall g bnd bl bt br bb l t r b,
  proper g -> pixel_box g l t r b -> - 2 ^ 21 <= l -> r <= 2 ^ 21 -> - 2 ^ 21 <= t -> b <= 2 ^ 21 ->
  int_bounds bnd bl bt br bb ->
  let w := around (Z.max l bl) (Z.max t bt) (Z.min r br) (Z.min b bb) in
  1 < w_width w -> 1 < w_height w -> w_width w * w_height w <= 2 ^ 23 -> w_height w * (w_width w + corners g) <= 2147483647 ->
  (exists X Y, drawn g w X Y) ->
  exists o, compute_overlap false g g bnd = Ok o /\ units (o_overlap o) = 2 ^ 1074 /\ units (o_only1 o) = 0 /\ units (o_only2 o) = 0.
Proof. exact overlap_with_itself. Qed.
Print Assumptions overlap_with_itself_partial.
Example overlap_with_itself_nonvacuous :
  proper triangle_a /\ pixel_box triangle_a 0 0 10 10 /\ drawn triangle_a (around 0 0 10 10) 4 4 /\
  compute_overlap false triangle_a triangle_a no_bounds = Ok (mkOverlap (float_of_int 1) (S754_zero false) (S754_zero false)).
Proof.
  refine (conj (proj1 triangles_example) (conj (proj1 (proj2 (proj2 triangles_example))) (conj (proj1 (proj2 (proj2 (proj2 (proj2 triangles_example))))) _))).
  vm_compute. reflexivity.
Qed.

(** C31 fails for polygons otherwise: the pixels counted for a polygon are not a set of its own.  The triangle (0, 0),
    (0, 49), (49, 49) has pixel (1, 1) in a window that starts at column -1 and not in one that starts at column 0; so
    adding to a mask 50 pixels left of all of the triangle changes the number of common pixels from 1268 to 1274. *)
Theorem polygon_pixels_depend_refuted :
  ~ drawn steep (around 0 0 49 49) 1 1 /\ drawn steep (around (-1) 0 49 49) 1 1 /\
  (forall X Y, drawn steep (around (-1) 0 49 49) X Y -> 0 <= X) /\
  compute_overlap false steep (RMask 0 0 50 50 (full 50 50)) no_bounds
  = Ok (mkOverlap (divf (float_of_int 1268) (float_of_int 2500)) (S754_zero false) (divf (float_of_int 1232) (float_of_int 2500))) /\
  compute_overlap false steep (RMask (-1) 0 51 50 (full 51 50)) no_bounds
  = Ok (mkOverlap (divf (float_of_int 1274) (float_of_int 2550)) (S754_zero false) (divf (float_of_int 1276) (float_of_int 2550))).
Proof. exact steep_example. Qed.
Print Assumptions polygon_pixels_depend_refuted.
