(** Model of the timer of the client support library (support/client/timer.cpp, on Linux) and of the file of timings
    (support/client/cli.cpp:336-350). *)
From Verif Require Import CBase Num FloatOps.
Local Open Scope Z_scope.

(** struct timespec: a reading of the system's monotonic clock *)
Record reading := mkReading { tv_sec : Z; tv_nsec : Z }.
(** support/client/timer.cpp:63-65 timer_clock; timer_state is a 64-bit unsigned number *)
Definition timer_clock (c : reading) : Z := (tv_sec c * 1000000 + tv_nsec c / 1000) mod 2 ^ 64.
(** The conversion of an unsigned number to double *)
Definition double_of_unsigned (n : Z) : spec_float := if n =? 0 then S754_zero false else round_ratio 53 1024 false n 1.
(** support/client/timer.cpp:31 the frequency before timer_init *)
Definition freq_unset : spec_float := S754_zero false.
(** support/client/timer.cpp:33-52 timer_init *)
Definition timer_init (freq : spec_float) : spec_float := if feq freq (S754_zero false) then double_of_unsigned 1000000 else freq.
(** support/client/timer.cpp:69-75 timer_elapsed; the difference wraps around *)
Definition timer_elapsed (freq : spec_float) (start : Z) (now : reading) : spec_float :=
  divd (double_of_unsigned ((timer_clock now - start) mod 2 ^ 64)) freq.

(** ---- A double on an output stream: as by printf("%g"), six significant digits ---- *)
(** num / den < 10^k *)
Definition below (num den k : Z) : bool := num * 10 ^ Z.max 0 (- k) <? den * 10 ^ Z.max 0 k.
(** The exponent of the first significant digit, from [k] on *)
Fixpoint decade (fuel : nat) (num den k : Z) : Z :=
  match fuel with O => k | S fuel' => if below num den (k + 1) then k else decade fuel' num den (k + 1) end.
(** Six digits, rounded to nearest, and the exponent of the first one; doubles are between 10^-330 and 10^330 *)
Definition six_digits (num den : Z) : Z * Z :=
  let k := decade 660 num den (-330) in
  let d := rne (num * 10 ^ Z.max 0 (5 - k)) (den * 10 ^ Z.max 0 (k - 5)) in
  if d =? 1000000 then (100000, k + 1) else (d, k).
(** [f] digits *)
Fixpoint digits (f : nat) (n : Z) : list N := match f with O => [] | S f' => digits f' (n / 10) ++ [(48 + Z.to_N (n mod 10))%N] end.
Fixpoint skip_zeros (l : list N) : list N := match l with c :: l' => if (c =? 48)%N then skip_zeros l' else l | [] => [] end.
(** d / 10^f without needless zeros *)
Definition decimal (f : nat) (d : Z) : list N :=
  let p := 10 ^ Z.of_nat f in
  print_N (Z.to_N (d / p)) ++ match rev (skip_zeros (rev (digits f (d mod p)))) with [] => [] | t => 46%N :: t end.
Definition exponent (k : Z) : list N :=
  101%N :: (if k <? 0 then 45%N else 43%N) :: (if Z.abs k <? 10 then [48%N] else []) ++ print_N (Z.abs_N k).
Definition positive_text (num den : Z) : list N :=
  let '(d, k) := six_digits num den in
  if (k <? -4) || (6 <=? k) then decimal 5 d ++ exponent k else decimal (Z.to_nat (5 - k)) d.
Definition put_double (x : spec_float) : list N :=
  match x with
  | S754_zero s => (if s then [45%N] else []) ++ [48%N]
  | S754_infinity s => (if s then [45%N] else []) ++ str "inf"
  | S754_nan => str "nan"
  | S754_finite s m e => (if s then [45%N] else []) ++ positive_text (Z.pos m * 2 ^ Z.max 0 e) (2 ^ Z.max 0 (- e))
  end.
(** support/client/cli.cpp:336-350 save_timings into a file that could be opened *)
Definition save_timings (timings : list spec_float) : list N := concat (map (fun x => put_double x ++ [10%N]) timings).
