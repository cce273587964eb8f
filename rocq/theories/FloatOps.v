(** Model of C floating-point arithmetic (IEEE 754, round to nearest even) on Coq.Floats.SpecFloat values.
    A float converted to double keeps its value; all operations depend on values only, so the conversion is the identity. *)
From Verif Require Import CBase Num.
Local Open Scope Z_scope.

(** The value of a finite number is fmant * 2^fexp. *)
Definition fmant (x : spec_float) : Z :=
  match x with S754_finite s m _ => if s then - Z.pos m else Z.pos m | _ => 0 end.
Definition fexp (x : spec_float) : Z := match x with S754_finite _ _ e => e | _ => 0 end.
Definition fsign (x : spec_float) : bool :=
  match x with S754_zero s | S754_infinity s | S754_finite s _ _ => s | S754_nan => false end.

(** m * 2^e rounded to the format; [zs] is the sign of a zero result. *)
Definition round_dyadic (p emax : Z) (zs : bool) (m e : Z) : spec_float :=
  if m =? 0 then S754_zero zs
  else round_ratio p emax (m <? 0) (Z.abs m * 2 ^ Z.max 0 e) (2 ^ Z.max 0 (- e)).

Definition fopp (x : spec_float) : spec_float :=
  match x with
  | S754_zero s => S754_zero (negb s)
  | S754_infinity s => S754_infinity (negb s)
  | S754_nan => S754_nan
  | S754_finite s m e => S754_finite (negb s) m e
  end.

Definition fadd (p emax : Z) (x y : spec_float) : spec_float :=
  match x, y with
  | S754_nan, _ | _, S754_nan => S754_nan
  | S754_infinity s, S754_infinity t => if Bool.eqb s t then x else S754_nan
  | S754_infinity _, _ => x
  | _, S754_infinity _ => y
  | _, _ =>
      let e := Z.min (fexp x) (fexp y) in
      round_dyadic p emax (fsign x && fsign y) (fmant x * 2 ^ (fexp x - e) + fmant y * 2 ^ (fexp y - e)) e
  end.
Definition fsub (p emax : Z) (x y : spec_float) : spec_float := fadd p emax x (fopp y).

Definition fmul (p emax : Z) (x y : spec_float) : spec_float :=
  let s := xorb (fsign x) (fsign y) in
  match x, y with
  | S754_nan, _ | _, S754_nan => S754_nan
  | S754_infinity _, S754_zero _ | S754_zero _, S754_infinity _ => S754_nan
  | S754_infinity _, _ | _, S754_infinity _ => S754_infinity s
  | _, _ => round_dyadic p emax s (fmant x * fmant y) (fexp x + fexp y)
  end.

Definition fdiv (p emax : Z) (x y : spec_float) : spec_float :=
  let s := xorb (fsign x) (fsign y) in
  match x, y with
  | S754_nan, _ | _, S754_nan => S754_nan
  | S754_infinity _, S754_infinity _ | S754_zero _, S754_zero _ => S754_nan
  | S754_infinity _, _ => S754_infinity s
  | _, S754_infinity _ => S754_zero s
  | S754_zero _, _ => S754_zero s
  | _, S754_zero _ => S754_infinity s
  | _, _ =>
      let e := fexp x - fexp y in
      round_ratio p emax s (Z.abs (fmant x) * 2 ^ Z.max 0 e) (Z.abs (fmant y) * 2 ^ Z.max 0 (- e))
  end.

(** Comparison; None when a NaN is involved. *)
Definition fcmp (x y : spec_float) : option comparison :=
  match x, y with
  | S754_nan, _ | _, S754_nan => None
  | S754_infinity s, S754_infinity t =>
      Some (match s, t with true, false => Lt | false, true => Gt | _, _ => Eq end)
  | S754_infinity s, _ => Some (if s then Lt else Gt)
  | _, S754_infinity t => Some (if t then Gt else Lt)
  | _, _ =>
      let e := Z.min (fexp x) (fexp y) in
      Some (fmant x * 2 ^ (fexp x - e) ?= fmant y * 2 ^ (fexp y - e))
  end.
Definition flt (x y : spec_float) : bool := match fcmp x y with Some Lt => true | _ => false end.
Definition fgt (x y : spec_float) : bool := match fcmp x y with Some Gt => true | _ => false end.
Definition fle (x y : spec_float) : bool := match fcmp x y with Some Lt | Some Eq => true | _ => false end.
Definition fge (x y : spec_float) : bool := match fcmp x y with Some Gt | Some Eq => true | _ => false end.
Definition feq (x y : spec_float) : bool := match fcmp x y with Some Eq => true | _ => false end.

(** The MIN and MAX macros, src/region.h:31-36 *)
Definition fMIN (a b : spec_float) : spec_float := if flt a b then a else b.
Definition fMAX (a b : spec_float) : spec_float := if fgt a b then a else b.

(** floor and ceil (an integral value that fits a float's precision when the argument is a float) *)
Definition floor_int (m e : Z) : Z := if 0 <=? e then m * 2 ^ e else m / 2 ^ (- e).
Definition ffloor (x : spec_float) : spec_float :=
  match x with
  | S754_finite s _ _ => round_dyadic 53 1024 s (floor_int (fmant x) (fexp x)) 0
  | _ => x
  end.
Definition fceil (x : spec_float) : spec_float :=
  match x with
  | S754_finite s _ _ => round_dyadic 53 1024 s (- floor_int (- fmant x) (fexp x)) 0
  | _ => x
  end.
(** round: to nearest, halves away from zero *)
Definition round_int (m e : Z) : Z := if 0 <=? e then m * 2 ^ e else (2 * m + 2 ^ (- e)) / 2 ^ (1 - e).
Definition fround (x : spec_float) : spec_float :=
  match x with
  | S754_finite s m e => round_dyadic 53 1024 s ((if s then -1 else 1) * round_int (Z.pos m) e) 0
  | _ => x
  end.

(** Single and double precision *)
Definition addf := fadd 24 128.
Definition subf := fsub 24 128.
Definition mulf := fmul 24 128.
Definition divf := fdiv 24 128.
Definition addd := fadd 53 1024.
Definition subd := fsub 53 1024.
Definition muld := fmul 53 1024.
Definition divd := fdiv 53 1024.
Definition FLT_MAX : spec_float := S754_finite false 16777215 104.
Definition FLT_MIN : spec_float := S754_finite false 8388608 (-149).
Definition float_one : spec_float := S754_finite false 8388608 (-23).
