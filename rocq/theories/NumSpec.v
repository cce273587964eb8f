(** What counts as the text of a number (C standard, strtod), written as a grammar, and the meaning of integer texts. *)
From Verif Require Import CBase.
From Coq Require Export Floats.SpecFloat.
Local Open Scope Z_scope.

Definition all (p : N -> bool) (l : list N) : Prop := forall c, In c l -> p c = true.
Definition white (c : N) : bool := ((c =? 32) || (9 <=? c) && (c <=? 13))%N.
Definition dec (c : N) : bool := ((48 <=? c) && (c <=? 57))%N.
Definition hex (c : N) : bool := (dec c || (65 <=? c) && (c <=? 70) || (97 <=? c) && (c <=? 102))%N.

(** [+|-] *)
Definition sign_text (l : list N) : Prop := l = [] \/ l = [43%N] \/ l = [45%N].
(** digits [. digits], at least one digit *)
Definition mantissa_text (digit : N -> bool) (l : list N) : Prop :=
  exists i f, all digit i /\ all digit f /\ i ++ f <> [] /\ (l = i ++ [46%N] ++ f \/ (f = [] /\ l = i)).
(** nothing, or (e|E) sign digits *)
Definition exponent_text (lower upper : N) (l : list N) : Prop :=
  l = [] \/ exists m s d, (m = lower \/ m = upper) /\ sign_text s /\ all dec d /\ d <> [] /\ l = [m] ++ s ++ d.
Definition decimal_text (l : list N) : Prop :=
  exists m e, mantissa_text dec m /\ exponent_text 101 69 e /\ l = m ++ e.
Definition hex_text (l : list N) : Prop :=
  exists x m e, (x = 120%N \/ x = 88%N) /\ mantissa_text hex m /\ exponent_text 112 80 e /\ l = [48%N; x] ++ m ++ e.
Definition word_text (l : list N) : Prop :=
  let w := map to_lower l in
  w = str "inf" \/ w = str "infinity" \/ w = str "nan" \/
  exists n, map to_lower (firstn 3 l) = str "nan" /\ skipn 3 l = [40%N] ++ n ++ [41%N].

Definition number_text (l : list N) : Prop :=
  exists w s b, all white w /\ sign_text s /\ (decimal_text b \/ hex_text b \/ word_text b) /\ l = w ++ s ++ b.

(** Integer texts and their value. *)
Definition dec_value (ds : list N) : Z := fold_left (fun a c => 10 * a + (Z.of_N c - 48)) ds 0.
Definition int_text (l : list N) (v : Z) : Prop :=
  exists w d, all white w /\ all dec d /\ d <> [] /\
    ((l = w ++ d /\ v = dec_value d) \/ (l = w ++ [43%N] ++ d /\ v = dec_value d) \/ (l = w ++ [45%N] ++ d /\ v = - dec_value d)).

(** The value of a finite floating-point number as a multiple of 2^-1074 (every float and double is one). *)
Definition units (x : spec_float) : Z :=
  match x with
  | S754_finite s m e => (if s then -1 else 1) * (Z.pos m * 2 ^ (e + 1074))
  | _ => 0
  end.
Definition finite_float (x : spec_float) : Prop :=
  valid_binary 24 128 x = true /\ match x with S754_zero _ | S754_finite _ _ _ => True | _ => False end.
(** |x - y| < 1/n *)
Definition closer_than (n : Z) (x y : spec_float) : Prop := n * Z.abs (units x - units y) < 2 ^ 1074.
(** |x| >= n *)
Definition at_least (n : Z) (x : spec_float) : Prop := n * 2 ^ 1074 <= Z.abs (units x).
