(** Specification for C124: the overlap as a measure of similarity. *)
From Verif Require Import CBase Num NumSpec Region RegionSpec FloatOps RegionGeom GeomSpec.
Local Open Scope Z_scope.

(** A single-precision number or an infinity *)
Definition number (x : spec_float) : Prop := valid_binary 24 128 x = true /\ x <> S754_nan.
Definition number_bounds (b : bounds) : Prop := number (top b) /\ number (bottom b) /\ number (left b) /\ number (right b).
(** The coordinates are floats: any of them, infinities and NaN too.  Masks and special regions have none. *)
Definition single (x : spec_float) : Prop := valid_binary 24 128 x = true.
Definition single_region (r : region) : Prop :=
  match r with
  | RRect x y w h => single x /\ single y /\ single w /\ single h
  | RPoly pts => Forall (fun p => single (fst p) /\ single (snd p)) pts
  | _ => True
  end.
(** A number from 0 to 1 *)
Definition fraction (x : spec_float) : Prop := finite_float x /\ 0 <= units x <= 2 ^ 1074.
Definition swapped (o : overlap) : overlap := mkOverlap (o_overlap o) (o_only2 o) (o_only1 o).
(** All three are fractions, or no pixel was counted and the shares are 0 / 0 *)
Definition fractions (o : overlap) : Prop := fraction (o_overlap o) /\ fraction (o_only1 o) /\ fraction (o_only2 o).
Definition nothing_counted (o : overlap) : Prop := o_only1 o = S754_nan /\ o_only2 o = S754_nan /\ (o_overlap o = S754_nan \/ o_overlap o = fzero).
(** Complete agreement; none, with all shares 0 *)
Definition same_pixels (o : overlap) : Prop := is_int (o_overlap o) 1 /\ is_int (o_only1 o) 0 /\ is_int (o_only2 o) 0.
Definition no_comparison (o : overlap) : Prop := o = mkOverlap fzero fzero fzero.

(** Nothing of the interval from lo to hi is inside lo' to hi': one of them is turned around, or they lie apart *)
Definition outside (lo hi lo' hi' : spec_float) : Prop := flt hi lo = true \/ flt hi' lo = true \/ flt hi lo' = true \/ flt hi' lo' = true.
(** The box of the region has no extent or lies outside of the bounds *)
Definition no_box (legacy : bool) (r : region) (bnd : bounds) : Prop :=
  exists b, compute_bounds legacy r = Ok b /\ (outside (left b) (right b) (left bnd) (right bnd) \/ outside (top b) (bottom b) (top bnd) (bottom bnd)).
