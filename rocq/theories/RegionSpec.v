(** Specification vocabulary for regions. *)
From Verif Require Import CBase NumSpec Region.
Local Open Scope Z_scope.

(** A multiple of 1/16, as the integers and halves *)
Definition sixteenths (x : spec_float) : Prop := exists k, 16 * units x = k * 2 ^ 1074.
(** A coordinate read back from its text: within 1/10000; the same number from magnitude 1024 up and for multiples of 1/16. *)
Definition coord_close (y x : spec_float) : Prop :=
  finite_float x -> closer_than 10000 y x /\ (at_least 1024 x \/ sixteenths x -> y = x).
Definition point_close (q p : spec_float * spec_float) : Prop := coord_close (fst q) (fst p) /\ coord_close (snd q) (snd p).
Definition point_finite (p : spec_float * spec_float) : Prop := finite_float (fst p) /\ finite_float (snd p).

(** Mask pixels are zero (background) or not (foreground). *)
Definition foreground (data : list N) : list bool := map (fun d => negb (d =? 0)%N) data.
(** No more than [n] consecutive equal pixels (in row order). *)
Definition short_runs (n : Z) (l : list bool) : Prop :=
  forall a m b v, l = a ++ m ++ b -> (forall x, In x m -> x = v) -> Z.of_nat (List.length m) <= n.

(** The four integers that single precision represents exactly: magnitude at most 2^24. *)
Definition exact_int (z : Z) : Prop := Z.abs z <= 2 ^ 24.

(** Number of comma-separated fields. *)
Definition n_fields (t : list N) : nat := S (count_occ N.eq_dec t 44%N).

(** Sample coordinates for the examples: 0, 1 and -2.5. *)
Definition float_0 : spec_float := S754_zero false.
Definition float_1 : spec_float := S754_finite false 8388608 (-23).
Definition float_m2_5 : spec_float := S754_finite true 10485760 (-22).
