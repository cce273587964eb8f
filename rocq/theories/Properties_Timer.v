(** Theorems about the timer (C134). *)
From Verif Require Import CBase Num Timer TimerSpec TimerProofs.
Local Open Scope Z_scope.

(** Once the timer is initialized, the time that it measures is the time between the two readings of the clock, up to less than a
    microsecond and the last binary digit of a double; it is never negative. *)
Theorem timer_elapsed_partial : forall a b j, proper a -> proper b -> nanos a <= nanos b -> 0 <= j <= 33 -> nanos b - nanos a < 1000000000 * 2 ^ j - 1000 ->
  exists micros, 0 <= micros /\ Z.abs (1000 * micros - (nanos b - nanos a)) < 1000 /\
    seconds_close j micros (timer_elapsed (timer_init freq_unset) (timer_clock a) b).
Proof. exact elapsed_seen. Qed.
Print Assumptions timer_elapsed_partial.
(** The file of timings has one line for each time, in order, and for times below a second the line is the time up to less than a microsecond. *)
Theorem timer_file_partial : forall l, Forall short_time l ->
  exists lines, save_timings (map (fun t => timer_elapsed (timer_init freq_unset) (timer_clock (fst t)) (snd t)) l) = concat (map (fun x => x ++ [10%N]) lines) /\
    Forall2 tells l lines.
Proof. exact timings_file. Qed.
Print Assumptions timer_file_partial.
(** For times up to eleven days the line is the time to five digits and a half. *)
Theorem timer_file_digits_partial : forall l, Forall long_time l ->
  exists lines, save_timings (map (fun t => timer_elapsed (timer_init freq_unset) (timer_clock (fst t)) (snd t)) l) = concat (map (fun x => x ++ [10%N]) lines) /\
    Forall2 tells_about l lines.
Proof. exact timings_long. Qed.
Print Assumptions timer_file_digits_partial.
(** A timer that was not initialized tells an infinite time. *)
Theorem timer_unset_refuted : forall a b, proper a -> proper b -> nanos a + 1000 <= nanos b ->
  timer_elapsed freq_unset (timer_clock a) b = S754_infinity false.
Proof. exact unset_infinite. Qed.
Print Assumptions timer_unset_refuted.
(** Above a second the file loses microseconds: times that are eight microseconds apart have the same text. *)
Theorem timer_file_refuted : exists a b c, proper a /\ proper b /\ proper c /\ nanos b + 8000 = nanos c /\
  save_timings [timer_elapsed (timer_init freq_unset) (timer_clock a) b] = save_timings [timer_elapsed (timer_init freq_unset) (timer_clock a) c].
Proof.
  exists (mkReading 0 0), (mkReading 1 234566000), (mkReading 1 234574000).
  split; [unfold proper; cbn; lia|]. split; [unfold proper; cbn; lia|]. split; [unfold proper; cbn; lia|]. split; [reflexivity|]. vm_compute. reflexivity.
Qed.
Print Assumptions timer_file_refuted.
Example timer_nonvacuous : short_time (mkReading 7 999999999, mkReading 8 1233999) /\
  timer_clock (mkReading 7 999999999) = 7999999 /\
  save_timings (map (fun t => timer_elapsed (timer_init freq_unset) (timer_clock (fst t)) (snd t)) [(mkReading 7 999999999, mkReading 8 1233999); (mkReading 7 5000, mkReading 7 20000)]) =
    str "0.001234" ++ [10%N] ++ str "1.5e-05" ++ [10%N] /\
  save_timings [timer_elapsed (timer_init freq_unset) 0 (mkReading 1 234566000)] = str "1.23457" ++ [10%N] /\
  timer_elapsed freq_unset 7 (mkReading 0 7000) = S754_nan.
Proof.
  split; [unfold short_time, proper, nanos; cbn [fst snd tv_sec tv_nsec]; change (2 ^ 43) with 8796093022208; lia|].
  split; [vm_compute; reflexivity|]. split; [vm_compute; reflexivity|]. split; vm_compute; reflexivity.
Qed.
Example timer_digits_nonvacuous : long_time (mkReading 7 0, mkReading 19 345678000) /\
  save_timings [timer_elapsed (timer_init freq_unset) (timer_clock (mkReading 7 0)) (mkReading 19 345678000)] = str "12.3457" ++ [10%N].
Proof. split; [unfold long_time, proper, nanos; cbn [fst snd tv_sec tv_nsec]; change (2 ^ 43) with 8796093022208; lia|vm_compute; reflexivity]. Qed.
