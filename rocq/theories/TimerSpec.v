(** Specification for the timer (C134). *)
From Verif Require Import CBase NumSpec Timer.
Local Open Scope Z_scope.

(** The time of a reading in nanoseconds; readings up to 200000 years after the start of the clock. *)
Definition nanos (c : reading) : Z := 1000000000 * tv_sec c + tv_nsec c.
Definition proper (c : reading) : Prop := 0 <= tv_sec c < 2 ^ 43 /\ 0 <= tv_nsec c < 1000000000.
(** A number of seconds that is a number of microseconds, up to the last of 53 binary digits; [j] bounds the number of seconds by 2^j. *)
Definition seconds_close (j micros : Z) (x : spec_float) : Prop :=
  match x with S754_zero s => s = false | S754_finite s _ _ => s = false | _ => False end /\
  2 * Z.abs (micros * 2 ^ 1074 - 1000000 * units x) * 2 ^ 53 <= 1000000 * 2 ^ j * 2 ^ 1074.
(** A text of digits, and its number. *)
Definition is_digits (l : list N) : Prop := Forall (fun c => (48 <= c <= 57)%N) l.
Definition number (l : list N) : Z := fold_left (fun a c => 10 * a + (Z.of_N c - 48)) l 0.
(** The text is a decimal number, maybe with a fraction, maybe with a negative exponent, and it is this number of millionths. *)
Definition millionths (t : list N) (n : Z) : Prop :=
  exists whole frac e, whole <> [] /\ is_digits whole /\ is_digits frac /\ 0 <= e <= 9 /\
    t = whole ++ match frac with [] => [] | _ => 46%N :: frac end ++ (if e =? 0 then [] else [101%N; 45%N; 48%N; (48 + Z.to_N e)%N]) /\
    n * 10 ^ Z.of_nat (List.length frac) * 10 ^ e = (number whole * 10 ^ Z.of_nat (List.length frac) + number frac) * 1000000.
(** A beginning and an end, less than a second apart. *)
Definition short_time (t : reading * reading) : Prop := proper (fst t) /\ proper (snd t) /\ nanos (fst t) <= nanos (snd t) /\ nanos (snd t) - nanos (fst t) < 999999000.
(** The text tells the time between them, up to less than a microsecond. *)
Definition tells (t : reading * reading) (text : list N) : Prop :=
  exists micros, millionths text micros /\ Z.abs (1000 * micros - (nanos (snd t) - nanos (fst t))) < 1000.
(** A beginning and an end, less than eleven days apart. *)
Definition long_time (t : reading * reading) : Prop := proper (fst t) /\ proper (snd t) /\ nanos (fst t) <= nanos (snd t) /\ nanos (snd t) - nanos (fst t) < 999998000000000.
(** The text tells the time between them in microseconds, up to one part in two hundred thousand. *)
Definition tells_about (t : reading * reading) (text : list N) : Prop :=
  exists micros told, millionths text told /\ 200000 * Z.abs (told - micros) <= micros /\ Z.abs (1000 * micros - (nanos (snd t) - nanos (fst t))) < 1000.
