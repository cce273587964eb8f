(** Theorems about point queries on rectangles and polygons (C63, C64). *)
From Verif Require Import CBase Num NumSpec Region RegionSpec FloatOps RegionGeom GeomSpec PolygonSpec PolygonProofs ConvexProofs.
Local Open Scope Z_scope.

(** C63: a point inside a rectangle (or on its border), the exact sums of position and size taken, is reported inside; for all
    finite coordinates and sizes. *)
Theorem rectangle_point_inside : forall rx ry rw rh x y,
  finite_float rx -> finite_float ry -> finite_float rw -> finite_float rh -> finite_float x -> finite_float y ->
  units rx <= units x <= units rx + units rw -> units ry <= units y <= units ry + units rh ->
  contains_point (RRect rx ry rw rh) x y = Ok true.
Proof. exact rectangle_inside. Qed.
Print Assumptions rectangle_point_inside.
Example rectangle_point_inside_nonvacuous :
  let '(x, y, w, h, px, py) := (float_of_int (-3), S754_finite false 13421773 (-27), S754_finite false 13421773 (-27), FLT_MAX, float_of_int (-3), FLT_MAX) in
  finite_float h /\ units x <= units px <= units x + units w /\ units y <= units py <= units y + units h /\
  contains_point (RRect x y w h) px py = Ok true.
Proof. vm_compute. repeat split; discriminate. Qed.
(** C63, rectangles whose right and bottom sides are representable: inside exactly when between the sides. *)
Theorem rectangle_point_partial : forall rx ry rw rh x y r b,
  finite_float rx -> finite_float ry -> finite_float rw -> finite_float rh -> finite_float x -> finite_float y ->
  finite_float r -> finite_float b -> units r = units rx + units rw -> units b = units ry + units rh ->
  contains_point (RRect rx ry rw rh) x y =
    Ok ((units rx <=? units x) && (units x <=? units r) && (units ry <=? units y) && (units y <=? units b)).
Proof. exact rectangle_exact. Qed.
Print Assumptions rectangle_point_partial.
Example rectangle_point_nonvacuous :
  let '(x, y, w, h, r, b) := (float_of_int 2, float_of_int (-1), S754_finite false 8388608 (-24), float_of_int 3, S754_finite false 10485760 (-22), float_of_int 2) in
  finite_float r /\ finite_float b /\ units r = units x + units w /\ units b = units y + units h /\
  contains_point (RRect x y w h) r b = Ok true /\ contains_point (RRect x y w h) (float_of_int 3) b = Ok false.
Proof. vm_compute. repeat split. Qed.
(** C63 violated: the right side at 16777218 + 1 is rounded to 16777220, and that point is reported inside. *)
Theorem rectangle_point_refuted :
  let '(x, w, px) := (float_of_int 16777218, float_of_int 1, float_of_int 16777220) in
  finite_float x /\ finite_float w /\ finite_float px /\ units x + units w < units px /\
  contains_point (RRect x float_0 w float_1) px float_0 = Ok true.
Proof. vm_compute. repeat split. Qed.
Print Assumptions rectangle_point_refuted.

(** C64, polygons with integer vertices and sides of at most 4096 pixels in each direction, and query points with an x of at
    most 4095: the answer is the even-odd rule on the exact geometry. *)
Theorem polygon_point_partial : forall pts zs x y X Y, Forall2 int_point pts zs ->
  finite_float x -> finite_float y -> is_int x X -> is_int y Y -> Z.abs X <= 4095 -> sides_within 4096 zs ->
  contains_point (RPoly pts) x y = Ok (even_odd zs (X, Y)).
Proof. exact polygon_even_odd. Qed.
Print Assumptions polygon_point_partial.
Definition float_point (z : point) : spec_float * spec_float := (float_of_int (fst z), float_of_int (snd z)).
(** A chevron: (50, 60) is inside, (50, 90) is in the notch, (10, 100) is a vertex on the top row. *)
Definition chevron : list point := [(10, 10); (50, 50); (90, 10); (90, 100); (50, 80); (10, 100)].
Example polygon_point_nonvacuous : Forall2 int_point (map float_point chevron) chevron /\ sides_within 4096 chevron /\
  map (even_odd chevron) [(50, 60); (50, 90); (10, 50); (90, 50); (49, 49); (9, 50)] = [true; false; true; false; false; false] /\
  contains_point (RPoly (map float_point chevron)) (float_of_int 50) (float_of_int 60) = Ok true /\
  contains_point (RPoly (map float_point chevron)) (float_of_int 50) (float_of_int 90) = Ok false.
Proof.
  split; [|split; [|now vm_compute]].
  - repeat (apply Forall2_cons; [vm_compute; repeat split|]). apply Forall2_nil.
  - intros a b H. vm_compute in H. repeat (destruct H as [H|H]; [injection H as <- <-; vm_compute; split; discriminate|]). destruct H.
Qed.

(** C64, convex polygons: points strictly inside are reported inside, points strictly outside are not. *)
Theorem convex_point_partial : forall s pts zs x y X Y, s = 1 \/ s = -1 -> convex s zs -> Forall2 int_point pts zs ->
  finite_float x -> finite_float y -> is_int x X -> is_int y Y -> Z.abs X <= 4095 -> sides_within 4096 zs ->
  (inside s zs (X, Y) -> contains_point (RPoly pts) x y = Ok true) /\
  (outside s zs (X, Y) -> contains_point (RPoly pts) x y = Ok false).
Proof. exact convex_contains. Qed.
Print Assumptions convex_point_partial.
Definition pentagon : list point := [(0, 0); (-30, 50); (10, 100); (70, 70); (60, 10)].
Example convex_point_nonvacuous : convex (-1) pentagon /\ inside (-1) pentagon (0, 50) /\ outside (-1) pentagon (-20, 10) /\
  contains_point (RPoly (map float_point pentagon)) float_0 (float_of_int 50) = Ok true /\
  contains_point (RPoly (map float_point pentagon)) (float_of_int (-20)) (float_of_int 10) = Ok false.
Proof.
  split; [|split; [|split; [|now vm_compute]]].
  - split; [|split].
    + unfold pentagon. repeat (apply NoDup_cons; [cbn; intros H; repeat (destruct H as [H|H]; [discriminate H|]); destruct H|]). apply NoDup_nil.
    + cbn. lia.
    + intros a b v H Hv. vm_compute in H. repeat (destruct H as [H|H]; [injection H as <- <-|]); [..|destruct H];
        (vm_compute in Hv; repeat (destruct Hv as [<-|Hv]; [intros N1 N2; try (now destruct N1); try (now destruct N2); vm_compute; reflexivity|]); destruct Hv).
  - intros a b H. vm_compute in H. repeat (destruct H as [H|H]; [injection H as <- <-; vm_compute; reflexivity|]). destruct H.
  - exists (0, 0), (-30, 50). split; [vm_compute; auto|]. vm_compute. reflexivity.
Qed.

(** C64: a row that no vertex lies above, or that all vertices lie above, has no point inside; for all vertices and points, NaN
    and infinities included. *)
Theorem polygon_rows_outside : forall pts x y (above_all : bool), Forall (fun p => fgt (snd p) y = above_all) pts ->
  contains_point (RPoly pts) x y = Ok false.
Proof. exact polygon_rows. Qed.
Print Assumptions polygon_rows_outside.
Example polygon_rows_nonvacuous : Forall (fun p => fgt (snd p) (float_of_int 101) = false) (map float_point chevron).
Proof. repeat (apply Forall_cons; [vm_compute; reflexivity|]). apply Forall_nil. Qed.
(** C64: it does not matter which vertex is listed first, whatever the coordinates. *)
Theorem polygon_first_vertex : forall x y p pts, contains_point (RPoly (p :: pts)) x y = contains_point (RPoly (pts ++ [p])) x y.
Proof. exact polygon_rotate. Qed.
Print Assumptions polygon_first_vertex.
Example polygon_first_vertex_nonvacuous : contains_point (RPoly (map float_point (tl chevron ++ [(10, 10)]))) (float_of_int 50) (float_of_int 60) = Ok true.
Proof. vm_compute. reflexivity. Qed.
(** C64: nor, within the same limits, in which direction they are listed. *)
Theorem polygon_direction_partial : forall pts zs x y X Y, Forall2 int_point pts zs ->
  finite_float x -> finite_float y -> is_int x X -> is_int y Y -> Z.abs X <= 4095 -> sides_within 4096 zs ->
  contains_point (RPoly (rev pts)) x y = contains_point (RPoly pts) x y.
Proof. exact polygon_reversed. Qed.
Print Assumptions polygon_direction_partial.
Example polygon_direction_nonvacuous : contains_point (RPoly (rev (map float_point chevron))) (float_of_int 50) (float_of_int 60) = Ok true /\
  contains_point (RPoly (rev (map float_point chevron))) (float_of_int 50) (float_of_int 90) = Ok false.
Proof. split; vm_compute; reflexivity. Qed.
(** C64 violated for larger integer coordinates: (5529, 1994) lies strictly inside this triangle; listed in one direction the
    answer is yes, in the other no. *)
Theorem polygon_point_refuted : let tri := [(4860, 5704); (5540, 1933); (0, 0)] in
  convex (-1) tri /\ inside (-1) tri (5529, 1994) /\
  contains_point (RPoly (map float_point tri)) (float_of_int 5529) (float_of_int 1994) = Ok true /\
  contains_point (RPoly (map float_point (rev tri))) (float_of_int 5529) (float_of_int 1994) = Ok false.
Proof.
  cbv zeta. split; [|split; [|split; vm_compute; reflexivity]].
  - split; [|split].
    + repeat (apply NoDup_cons; [cbn; intros H; repeat (destruct H as [H|H]; [discriminate H|]); destruct H|]). apply NoDup_nil.
    + cbn. lia.
    + intros a b v H Hv. vm_compute in H. repeat (destruct H as [H|H]; [injection H as <- <-|]); [..|destruct H];
        (vm_compute in Hv; repeat (destruct Hv as [<-|Hv]; [intros N1 N2; try (now destruct N1); try (now destruct N2); vm_compute; reflexivity|]); destruct Hv).
  - intros a b H. vm_compute in H. repeat (destruct H as [H|H]; [injection H as <- <-; vm_compute; reflexivity|]). destruct H.
Qed.
Print Assumptions polygon_point_refuted.
(** C64 violated for other coordinates: (0.9, 0) is right of every vertex of this triangle, and reported inside. *)
Theorem polygon_right_refuted :
  let '(a, b, c, x) := ((float_of_int (-16777214), float_of_int 1), (S754_finite false 12582912 (-24), float_0), (float_of_int (-16777214), float_0), S754_finite false 15099494 (-24)) in
  Forall (fun p => finite_float (fst p) /\ units (fst p) < units x) [b; a; c] /\
  contains_point (RPoly [b; a; c]) x float_0 = Ok true.
Proof.
  cbv beta iota zeta. split; [|vm_compute; reflexivity].
  repeat (apply Forall_cons; [split; [|vm_compute; reflexivity]; split; [vm_compute; reflexivity|vm_compute; exact I]|]). apply Forall_nil.
Qed.
Print Assumptions polygon_right_refuted.
