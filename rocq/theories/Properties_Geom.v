(** Theorems about region geometry (C28-C32). *)
From Verif Require Import CBase Num NumSpec Buffer Region RegionSpec FloatOps FloatProofs RegionGeom GeomSpec GeomProofs BoundsProofs OverlapProofs.
Local Open Scope Z_scope.

(** C28, all windows whose corner arithmetic stays within int: every window pixel receives the mask's value at that image
    position, zero outside the mask; nothing else of the buffer changes and nothing out of bounds is touched (Ok). *)
Theorem mask_window_partial : forall legacy mx my mw mh data x y width height mask,
  mask_ok mw mh data -> 0 <= width -> 0 <= height -> in_int (width * height) = true ->
  width * height <= Z.of_nat (List.length mask) -> spans_fit mx mw x width -> spans_fit my mh y height ->
  exists mask', get_mask_offset legacy (RMask mx my mw mh data) mask x y width height = Ok mask' /\
    List.length mask' = List.length mask /\
    (forall i j, 0 <= i < height -> 0 <= j < width ->
       nth_error mask' (Z.to_nat (i * width + j)) = Some (Some (value_at mx my mw mh data (x + j) (y + i)))) /\
    (forall k, width * height <= k -> nth_error mask' (Z.to_nat k) = nth_error mask (Z.to_nat k)).
Proof. exact window_ok. Qed.
Print Assumptions mask_window_partial.
Example mask_window_nonvacuous :
  mask_ok 2 2 [1; 2; 3; 4]%N /\ spans_fit (-1) 2 (-2) 3 /\ spans_fit 5 2 6 2 /\
  get_mask_offset false (RMask (-1) 5 2 2 [1; 2; 3; 4]%N) (blk_new 6) (-2) 6 3 2
  = Ok (map Some [0; 3; 4; 0; 0; 0]%N).
Proof. vm_compute. repeat split; discriminate. Qed.
(** C28 violated: a window that ends beyond INT_MAX overflows int, whatever the mask. *)
Theorem mask_window_refuted : forall mw mh data, mask_ok mw mh data ->
  get_mask_offset false (RMask 0 0 mw mh data) (blk_new 2) INT_MAX 0 2 1 = UB.
Proof. exact window_overflow. Qed.
Print Assumptions mask_window_refuted.

(** C29, positions exact in single precision: the rectangle of a mask is the tight box of its set pixels. *)
Theorem mask_rectangle_partial : forall legacy x y w h data, mask_ok w h data -> exact_span x w -> exact_span y h ->
  (exists X Y, set_at x y w h data X Y) ->
  exists rx ry rw rh l t r b, convert legacy (RMask x y w h data) RECTANGLE = Ok (Some (RRect rx ry rw rh)) /\
    is_int rx l /\ is_int ry t /\ is_int rw (r - l + 1) /\ is_int rh (b - t + 1) /\
    tight_box (set_at x y w h data) l t r b.
Proof. exact convert_mask_rectangle. Qed.
Print Assumptions mask_rectangle_partial.
Example mask_rectangle_nonvacuous : mask_ok 3 2 [0; 0; 0; 0; 1; 1]%N /\ exact_span (-4) 3 /\ set_at (-4) 7 3 2 [0; 0; 0; 0; 1; 1]%N (-3) 8 /\
  convert false (RMask (-4) 7 3 2 [0; 0; 0; 0; 1; 1]%N) RECTANGLE
  = Ok (Some (RRect (float_of_int (-3)) (float_of_int 8) (float_of_int 2) (float_of_int 1))).
Proof. vm_compute. repeat split; discriminate. Qed.
(** C29 violated beyond 2^24: the only set pixel is at 16777217, the rectangle reported is the pixel 16777216. *)
Theorem mask_rectangle_refuted : mask_ok 2 1 [0; 1]%N /\ set_at 16777216 0 2 1 [0; 1]%N 16777217 0 /\
  convert false (RMask 16777216 0 2 1 [0; 1]%N) RECTANGLE
  = Ok (Some (RRect (float_of_int 16777216) (float_of_int 0) (float_of_int 1) (float_of_int 1))).
Proof. vm_compute. repeat split; discriminate. Qed.
Print Assumptions mask_rectangle_refuted.

(** C30, polygons: for all finite coordinates, the bounds contain every vertex and every side passes through one. *)
Theorem polygon_bounds : forall legacy pts, pts <> [] -> Forall point_finite pts ->
  exists b, compute_bounds legacy (RPoly pts) = Ok b /\ Forall (bounds_contain b) pts /\ bounds_attained b pts.
Proof. exact (fun legacy pts Hne F => ex_intro _ (bounds_polygon pts) (conj eq_refl (polygon_bounds_spec pts Hne F))). Qed.
Print Assumptions polygon_bounds.
Example polygon_bounds_nonvacuous : let pts := [(float_m2_5, float_m2_5); (float_of_int (-1), float_of_int (-7))] in
  Forall point_finite pts /\
  compute_bounds false (RPoly pts) = Ok (mkBounds (float_of_int (-7)) float_m2_5 float_m2_5 (float_of_int (-1))).
Proof. cbv zeta. split; [repeat (constructor; [vm_compute; repeat split|]); constructor|now vm_compute]. Qed.
(** C30, rectangles with integer sides of at least one pixel: the polygon of the rectangle fits its bounds exactly. *)
Theorem rectangle_bounds_partial : forall legacy x y w h X Y W H,
  finite_float x -> finite_float y -> finite_float w -> finite_float h ->
  is_int x X -> is_int y Y -> is_int w W -> is_int h H ->
  exact_span X W -> exact_span Y H -> 1 <= W -> 1 <= H ->
  exists b pts, compute_bounds legacy (RRect x y w h) = Ok b /\ convert legacy (RRect x y w h) POLYGON = Ok (Some (RPoly pts)) /\
    is_int (left b) X /\ is_int (right b) (if legacy then X + W else X + W - 1) /\
    is_int (top b) Y /\ is_int (bottom b) (if legacy then Y + H else Y + H - 1) /\
    Forall (bounds_contain b) pts /\ bounds_attained b pts.
Proof. exact rect_bounds_spec. Qed.
Print Assumptions rectangle_bounds_partial.
Example rectangle_bounds_nonvacuous : finite_float (float_of_int (-3)) /\ is_int (float_of_int (-3)) (-3) /\ exact_span (-3) 4 /\
  compute_bounds false (RRect (float_of_int (-3)) (float_of_int 2) (float_of_int 4) (float_of_int 1))
  = Ok (mkBounds (float_of_int 2) (float_of_int 2) (float_of_int (-3)) (float_of_int 0)).
Proof. vm_compute. repeat split; discriminate. Qed.
(** C30 violated: a rectangle narrower than one pixel has its right bound left of its left bound. *)
Theorem rectangle_bounds_refuted : exists b, compute_bounds false (RRect float_1 float_0 float_0 float_1) = Ok b /\
  units (right b) < units (left b).
Proof. exact (ex_intro _ (mkBounds float_0 float_0 float_1 float_0) (conj eq_refl eq_refl)). Qed.
Print Assumptions rectangle_bounds_refuted.
(** C30: the rectangle a polygon converts to is its bounds when it reaches positive coordinates on both axes ... *)
Theorem polygon_rectangle_partial : forall legacy pts, Forall point_finite pts ->
  (exists p, In p pts /\ units FLT_MIN <= units (fst p)) -> (exists p, In p pts /\ units FLT_MIN <= units (snd p)) ->
  let b := bounds_polygon pts in
  convert legacy (RPoly pts) RECTANGLE = Ok (Some (RRect (left b) (top b) (subf (right b) (left b)) (subf (bottom b) (top b)))).
Proof. exact convert_polygon_rectangle. Qed.
Print Assumptions polygon_rectangle_partial.
Example polygon_rectangle_nonvacuous : let pts := [(float_m2_5, float_1); (float_1, float_0)] in
  Forall point_finite pts /\ In (float_1, float_0) pts /\ units FLT_MIN <= units float_1 /\
  convert false (RPoly pts) RECTANGLE = Ok (Some (RRect float_m2_5 float_0 (S754_finite false 14680064 (-22)) float_1)).
Proof. cbv zeta. split; [repeat (constructor; [vm_compute; repeat split|]); constructor|]. split; [right; left; reflexivity|]. split; [vm_compute; discriminate|now vm_compute]. Qed.
(** ... and wrong otherwise: a triangle within [-5,-3] x [-5,-2] becomes a 5 x 5 rectangle (the maximum starts from the
    smallest positive float instead of the most negative one). *)
Theorem polygon_rectangle_refuted :
  convert false (RPoly [(float_of_int (-5), float_of_int (-5)); (float_of_int (-3), float_of_int (-5)); (float_of_int (-3), float_of_int (-2))]) RECTANGLE
  = Ok (Some (RRect (float_of_int (-5)) (float_of_int (-5)) (float_of_int 5) (float_of_int 5))).
Proof. now vm_compute. Qed.
Print Assumptions polygon_rectangle_refuted.

(** C31, for masks whose boxes, clipped to the bounds, are at least two pixels wide and high, and either share at least two
    rows and columns or are apart: the three results are the Jaccard fractions, they sum to 1, and the result is symmetric. *)
Theorem overlap_is_jaccard_partial : forall legacy x1 y1 w1 h1 d1 x2 y2 w2 h2 d2 bnd bl bt br bb l1 t1 r1 b1 l2 t2 r2 b2 both only1 only2 either,
  mask_ok w1 h1 d1 -> mask_ok w2 h2 d2 -> exact_span x1 w1 -> exact_span y1 h1 -> exact_span x2 w2 -> exact_span y2 h2 ->
  tight_box (set_at x1 y1 w1 h1 d1) l1 t1 r1 b1 -> tight_box (set_at x2 y2 w2 h2 d2) l2 t2 r2 b2 ->
  int_bounds bnd bl bt br bb ->
  let L1 := Z.max l1 bl in let U1 := Z.max t1 bt in let R1 := Z.min r1 br in let D1 := Z.min b1 bb in
  let L2 := Z.max l2 bl in let U2 := Z.max t2 bt in let R2 := Z.min r2 br in let D2 := Z.min b2 bb in
  L1 < R1 /\ U1 < D1 -> L2 < R2 /\ U2 < D2 ->
  (Z.max R1 R2 - Z.min L1 L2 + 1) * (Z.max D1 D2 - Z.min U1 U2 + 1) <= 2 ^ 23 ->
  (Z.max L1 L2 < Z.min R1 R2 /\ Z.max U1 U2 < Z.min D1 D2) \/ Z.min R1 R2 < Z.max L1 L2 \/ Z.min D1 D2 < Z.max U1 U2 ->
  let S1 := set_at x1 y1 w1 h1 d1 in let S2 := set_at x2 y2 w2 h2 d2 in
  let inside X Y := bl <= X <= br /\ bt <= Y <= bb in
  enumerates both (fun X Y => S1 X Y /\ S2 X Y /\ inside X Y) ->
  enumerates only1 (fun X Y => S1 X Y /\ ~ S2 X Y /\ inside X Y) ->
  enumerates only2 (fun X Y => S2 X Y /\ ~ S1 X Y /\ inside X Y) ->
  enumerates either (fun X Y => (S1 X Y \/ S2 X Y) /\ inside X Y) -> either <> [] ->
  exists o, compute_overlap legacy (RMask x1 y1 w1 h1 d1) (RMask x2 y2 w2 h2 d2) bnd = Ok o /\
    quotient (o_overlap o) (Z.of_nat (List.length both)) (Z.of_nat (List.length either)) /\
    quotient (o_only1 o) (Z.of_nat (List.length only1)) (Z.of_nat (List.length either)) /\
    quotient (o_only2 o) (Z.of_nat (List.length only2)) (Z.of_nat (List.length either)) /\
    Z.abs (units (o_overlap o) + units (o_only1 o) + units (o_only2 o) - 2 ^ 1074) * 2 ^ 25 <= 3 * 2 ^ 1074 /\
    compute_overlap legacy (RMask x2 y2 w2 h2 d2) (RMask x1 y1 w1 h1 d1) bnd = Ok (mkOverlap (o_overlap o) (o_only2 o) (o_only1 o)).
Proof. exact overlap_of_masks. Qed.
Print Assumptions overlap_is_jaccard_partial.
(** Two full masks of 2x2 and 3x3 meet the hypotheses, without bounds; the overlap is 4/9. *)
Example overlap_nonvacuous : exists l1 t1 r1 b1 l2 t2 r2 b2 both only1 only2 either,
  let S1 := set_at 0 0 2 2 (full 2 2) in let S2 := set_at 0 0 3 3 (full 3 3) in
  mask_ok 2 2 (full 2 2) /\ mask_ok 3 3 (full 3 3) /\ exact_span 0 2 /\ exact_span 0 3 /\
  tight_box S1 l1 t1 r1 b1 /\ tight_box S2 l2 t2 r2 b2 /\ int_bounds no_bounds (- FM) (- FM) FM FM /\
  (Z.max l1 (- FM) < Z.min r1 FM /\ Z.max t1 (- FM) < Z.min b1 FM) /\ (Z.max l2 (- FM) < Z.min r2 FM /\ Z.max t2 (- FM) < Z.min b2 FM) /\
  enumerates both (fun X Y => S1 X Y /\ S2 X Y /\ (- FM <= X <= FM /\ - FM <= Y <= FM)) /\ List.length both = 4%nat /\
  enumerates only1 (fun X Y => S1 X Y /\ ~ S2 X Y /\ (- FM <= X <= FM /\ - FM <= Y <= FM)) /\ List.length only1 = 0%nat /\
  enumerates only2 (fun X Y => S2 X Y /\ ~ S1 X Y /\ (- FM <= X <= FM /\ - FM <= Y <= FM)) /\ List.length only2 = 5%nat /\
  enumerates either (fun X Y => (S1 X Y \/ S2 X Y) /\ (- FM <= X <= FM /\ - FM <= Y <= FM)) /\ List.length either = 9%nat.
Proof. exact overlap_example_hypotheses. Qed.
Example overlap_value : compute_overlap false (RMask 0 0 2 2 (full 2 2)) (RMask 0 0 3 3 (full 3 3)) no_bounds
  = Ok (mkOverlap (divf (float_of_int 4) (float_of_int 9)) (S754_zero false) (divf (float_of_int 5) (float_of_int 9))).
Proof. now vm_compute. Qed.
(** C31 violated: a one-pixel-wide mask inside another (overlap 1/2) gets 0 for all three fractions, and masks that share one
    column (overlap 1/3) get overlap 0. *)
Theorem overlap_is_jaccard_refuted :
  set_at 0 0 1 2 (full 1 2) 0 0 /\ set_at 0 0 2 2 (full 2 2) 0 0 /\ set_at 0 0 2 2 (full 2 2) 1 0 /\
  set_at 1 0 2 2 (full 2 2) 1 0 /\
  compute_overlap false (RMask 0 0 1 2 (full 1 2)) (RMask 0 0 2 2 (full 2 2)) no_bounds = Ok (mkOverlap float_0 float_0 float_0) /\
  exists o, compute_overlap false (RMask 0 0 2 2 (full 2 2)) (RMask 1 0 2 2 (full 2 2)) no_bounds = Ok o /\ o_overlap o = float_0.
Proof. vm_compute. repeat (split; [discriminate|]). split; [reflexivity|]. eexists. split; reflexivity. Qed.
Print Assumptions overlap_is_jaccard_refuted.
(** C31 violated: a mask outside the bounds makes the computation fail an assertion. *)
Theorem overlap_outside_bounds_refuted :
  compute_overlap false (RMask 100 100 2 2 (full 2 2)) (RMask 0 0 3 3 (full 3 3))
    (mkBounds (float_of_int 0) (float_of_int 10) (float_of_int 0) (float_of_int 10)) = Abort.
Proof. now vm_compute. Qed.
Print Assumptions overlap_outside_bounds_refuted.
