(** Vocabulary for the overlap of regions whose pixels are those region_get_mask_offset draws. *)
From Verif Require Import CBase Buffer Num NumSpec FloatOps Region RegionSpec RegionGeom GeomSpec.
Local Open Scope Z_scope.

(** A window: position and size, in pixels. *)
Record window := mkWindow { w_x : Z; w_y : Z; w_width : Z; w_height : Z }.
(** The smallest window around the columns l..r and rows t..b. *)
Definition around (l t r b : Z) : window := mkWindow l t (r - l + 1) (b - t + 1).
(** Drawing the region into the window succeeds and sets the pixel (X, Y). *)
Definition drawn (g : region) (w : window) (X Y : Z) : Prop :=
  w_x w <= X < w_x w + w_width w /\ w_y w <= Y < w_y w + w_height w /\
  exists mask v, get_mask_offset false g (blk_new (Z.to_nat (w_width w * w_height w))) (w_x w) (w_y w) (w_width w) (w_height w) = Ok mask /\
    nth_error mask (Z.to_nat ((Y - w_y w) * w_width w + (X - w_x w))) = Some (Some v) /\ v <> 0%N.

(** z is the value of x rounded down, rounded up. *)
Definition rounds_down (x : spec_float) (z : Z) : Prop :=
  finite_float x /\ z * 2 ^ 1074 <= units x < (z + 1) * 2 ^ 1074.
Definition rounds_up (x : spec_float) (z : Z) : Prop :=
  finite_float x /\ (z - 1) * 2 ^ 1074 < units x <= z * 2 ^ 1074.
(** The columns and rows of the region's bounds. *)
Definition pixel_box (g : region) (l t r b : Z) : Prop :=
  exists bx, compute_bounds false g = Ok bx /\
    rounds_down (left bx) l /\ rounds_down (top bx) t /\ rounds_up (right bx) r /\ rounds_up (bottom bx) b.
(** Regions to compare: a rectangle with finite numbers, a polygon with points, all finite, or a mask with some pixel. *)
Definition proper (g : region) : Prop :=
  match g with
  | RRect x y w h => finite_float x /\ finite_float y /\ finite_float w /\ finite_float h
  | RPoly pts => pts <> [] /\ Forall point_finite pts
  | RMask x y w h data => mask_ok w h data /\ exact_span x w /\ exact_span y h /\ exists X Y, set_at x y w h data X Y
  | RSpecial _ => False
  end.
(** The number of corners drawing goes through. *)
Definition corners (g : region) : Z :=
  match g with RRect _ _ _ _ => 4 | RPoly pts => Z.of_nat (List.length pts) | _ => 0 end.
