(** Specification of Python regions: the numbers that are given and the numbers that come back *)
From Verif Require Import CBase Num NumSpec Region PyRegions.
Local Open Scope Z_scope.

(** The exact value of a number, in multiples of 2^-1074 (the smallest positive double) *)
Definition value (n : number) : Z := match n with NInt z => z * 2 ^ 1074 | NFloat d => units d | NOther => 0 end.
(** Ints and finite floats of ordinary size *)
Definition ordinary (n : number) : Prop :=
  Z.abs (value n) <= 2 ^ 126 * 2 ^ 1074 /\
  match n with
  | NInt _ => True
  | NFloat (S754_zero _) => True
  | NFloat (S754_finite _ _ e) => -1074 <= e
  | _ => False
  end.
(** The numbers single precision can hold: ints up to 2^24, floats that have the value of a single precision number *)
Definition fits (n : number) : Prop :=
  match n with
  | NInt z => Z.abs z <= 2 ^ 24
  | NFloat d => exists x, finite_float x /\ units x = units d
  | NOther => False
  end.
(** The float [d] that comes back for the number [n]: the same value if it fits, otherwise a value that is very close
    (the error is at most 2^-23 of the number, or 2^-149) *)
Definition comes_back (n : number) (d : spec_float) : Prop :=
  match d with S754_zero _ | S754_finite _ _ _ => True | _ => False end /\
  (fits n -> units d = value n) /\
  2 ^ 23 * Z.abs (units d - value n) <= Z.max (Z.abs (value n)) (2 ^ (1074 - 126)).
(** A tuple with the coordinates of a point; more elements do no harm *)
Inductive given_point : point -> number -> number -> Prop :=
| given_tuple x y more : given_point (PTuple (x :: y :: more)) x y.
Inductive point_back : point -> spec_float * spec_float -> Prop :=
| point_back_intro p x y q : given_point p x y -> comes_back x (fst q) -> comes_back y (snd q) -> point_back p q.
(** Points that can be stored *)
Definition good_point (p : point) : Prop := exists x y, given_point p x y /\ ordinary x /\ ordinary y.
(** Points that make the call fail: too few elements, or one of the two is no number *)
Inductive bad_point : point -> Prop :=
| bad_none : bad_point (PTuple [])
| bad_one x : bad_point (PTuple [x])
| bad_x y more : bad_point (PTuple (NOther :: y :: more))
| bad_y x more : bad_point (PTuple (x :: NOther :: more)).
