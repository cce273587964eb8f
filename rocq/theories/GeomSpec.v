(** Specification vocabulary for region geometry. *)
From Verif Require Import CBase Num NumSpec Buffer Region RegionSpec RegionGeom.
Local Open Scope Z_scope.

(** A mask region as the library creates it: positive sides, one pixel value per position. *)
Definition mask_ok (w h : Z) (data : list N) : Prop :=
  0 < w /\ 0 < h /\ in_int (w * h) = true /\ Z.of_nat (List.length data) = w * h.

(** The value of a mask (at mx, my, with sides mw, mh) at image position (X, Y): zero outside. *)
Definition value_at (mx my mw mh : Z) (data : list N) (X Y : Z) : N :=
  if (mx <=? X) && (X <? mx + mw) && (my <=? Y) && (Y <? my + mh)
  then nth (Z.to_nat ((Y - my) * mw + (X - mx))) data 0%N
  else 0%N.
(** Whether the pixel is set. *)
Definition set_at (mx my mw mh : Z) (data : list N) (X Y : Z) : Prop := value_at mx my mw mh data X Y <> 0%N.

(** The byte at row i, column j of a buffer with rows of w bytes; None when it is not initialised or outside. *)
Definition cell (mem : block N) (w i j : Z) : option N :=
  match nth_error mem (Z.to_nat (i * w + j)) with Some (Some v) => Some v | _ => None end.

(** The interval of length n at a and the window of length w at x are within int, and so is their distance. *)
Definition spans_fit (a n x w : Z) : Prop :=
  in_int (a + n) = true /\ in_int (x + w) = true /\ Z.abs (a - x) <= INT_MAX.

(** A floating-point number with an integer value. *)
Definition is_int (x : spec_float) (z : Z) : Prop :=
  match x with S754_zero _ | S754_finite _ _ _ => True | _ => False end /\ units x = z * 2 ^ 1074.

(** The smallest box [l, r] x [t, b] around a set of pixels: it contains them and each side touches one. *)
Definition tight_box (S : Z -> Z -> Prop) (l t r b : Z) : Prop :=
  (forall X Y, S X Y -> l <= X <= r /\ t <= Y <= b) /\
  (exists Y, S l Y) /\ (exists Y, S r Y) /\ (exists X, S X t) /\ (exists X, S X b).

(** Positions that single precision represents exactly: the interval of length n at a lies within 2^24. *)
Definition exact_span (a n : Z) : Prop := Z.abs a <= 2 ^ 24 /\ Z.abs (a + n) <= 2 ^ 24 /\ n <= 2 ^ 24.

(** Bounds contain a point; comparison of values. *)
Definition bounds_contain (b : bounds) (p : spec_float * spec_float) : Prop :=
  units (left b) <= units (fst p) <= units (right b) /\ units (top b) <= units (snd p) <= units (bottom b).
(** Each side of the bounds passes through one of the points. *)
Definition bounds_attained (b : bounds) (pts : list (spec_float * spec_float)) : Prop :=
  In (left b) (map fst pts) /\ In (right b) (map fst pts) /\ In (top b) (map snd pts) /\ In (bottom b) (map snd pts).

(** A list that enumerates a finite set of pixels: each one once. *)
Definition enumerates (l : list (Z * Z)) (P : Z -> Z -> Prop) : Prop :=
  NoDup l /\ forall X Y, In (X, Y) l <-> P X Y.

(** A single-precision number is the quotient a / n, for 0 <= a <= n: at most 2^-25 off, between 0 and 1, exact for 0 and 1, and on the
    same side of every single-precision number. *)
Definition quotient (x : spec_float) (a n : Z) : Prop :=
  finite_float x /\
  Z.abs (units x * n - a * 2 ^ 1074) * 2 ^ 25 <= n * 2 ^ 1074 /\ 0 <= units x <= 2 ^ 1074 /\
  (a = 0 -> units x = 0) /\ (a = n -> units x = 2 ^ 1074) /\
  forall y, finite_float y -> (a * 2 ^ 1074 <= units y * n -> units x <= units y) /\ (units y * n <= a * 2 ^ 1074 -> units y <= units x).

(** The clipping bounds given to an overlap computation: sides with integer values (the "no bounds" constant is such). *)
Definition int_bounds (b : bounds) (l t r bo : Z) : Prop :=
  finite_float (left b) /\ finite_float (top b) /\ finite_float (right b) /\ finite_float (bottom b) /\
  is_int (left b) l /\ is_int (top b) t /\ is_int (right b) r /\ is_int (bottom b) bo.

(** Regions with pixels: a mask covers its set pixels, a rectangle with integer position and size covers those inside. *)
Definition covers (g : region) (S : Z -> Z -> Prop) : Prop :=
  match g with
  | RMask x y w h data =>
      mask_ok w h data /\ exact_span x w /\ exact_span y h /\ forall A B, S A B <-> set_at x y w h data A B
  | RRect x y w h =>
      exists X Y W H, finite_float x /\ finite_float y /\ finite_float w /\ finite_float h /\
        is_int x X /\ is_int y Y /\ is_int w W /\ is_int h H /\ 0 < W /\ 0 < H /\
        forall A B, S A B <-> X <= A < X + W /\ Y <= B < Y + H
  | _ => False
  end.

(** A coordinate lies in the pixel z: z is its floor. *)
Definition is_floor (x : spec_float) (z : Z) : Prop := z * 2 ^ 1074 <= units x < (z + 1) * 2 ^ 1074.

(** A coordinate of magnitude at most 2^23. *)
Definition near (x : spec_float) : Prop := finite_float x /\ Z.abs (units x) <= 2 ^ 23 * 2 ^ 1074.
(** How many bytes of a buffer are 1. *)
Definition ones (m : block N) : Z :=
  Z.of_nat (List.length (filter (fun c => match c with Some 1%N => true | _ => false end) m)).
