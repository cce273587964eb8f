From Verif Require Import CBase Props PropsSpec Message MessageSpec Formats Region Handle SessionSpec SendableProofs StaticSpec BadTracker BadTrackerSpec BadTrackerProofs.
Local Open Scope Z_scope.

(** C129 for times that are integers other than the smallest one: in every session with the failing tracker the client gets an answer with the
    object of the last initialization to each request, until the tracker has answered as many requests since that initialization as were asked
    for then (5 without a property, and at least one).  At that moment, not before, the tracker dies by the signal that was asked for, and from
    then on every wait of the client returns an error, whether or not it sends another frame and whatever becomes of what it writes.  If the
    client ends the session earlier, the tracker leaves its loop. *)
Theorem bad_tracker_partial : forall legacy slack time m cut sched_s sched_c qs, bad_metadata = Ok m -> cutter cut ->
  no_error sched_s -> no_error sched_c -> orders_ok slack qs ->
  exists c s c' t' f sns, connect m 0 cut sched_s sched_c = Ok (Some (c, s)) /\
    bad_rounds legacy slack c (bad_start s time) qs = Ok (c', t', f, sns) /\
    reports [] (firstn (List.length sns) qs) sns /\ (forall n sg, (n < List.length sns)%nat -> ~ due qs n sg) /\
    ((f = GoesOn /\ List.length sns = List.length qs /\ (forall sg, ~ due qs (List.length qs) sg) /\
       forall fuel reason cut', text_ok reason = true -> cutter cut' -> bad_ending slack (S fuel) c' t' reason cut' = Ok Leaves) \/
     exists sg, f = Killed sg /\ due qs (List.length sns) sg /\ lost_tracker c').
Proof. exact bad_session. Qed.
Print Assumptions bad_tracker_partial.

(** Eight requests; the third starts the tracker again, which dies after the seventh. *)
Example bad_tracker_nonvacuous : orders_ok 0 sample_orders /\ due sample_orders 7 SIGSEGV /\ List.length sample_orders = 8%nat.
Proof. split; [exact sample_orders_ok|]. split; [exact sample_due|reflexivity]. Qed.

(** C129 violated: the smallest integer as the time makes the countdown overflow ... *)
Theorem bad_tracker_smallest_refuted : exists c s, connect sample_bad 0 whole_cut [] [] = Ok (Some (c, s)) /\
  bad_round false 0 c (bad_start s 1) (order_with (sample_props (str "break_time") (str "-2147483648"))) = UB.
Proof. exact smallest_time. Qed.
Print Assumptions bad_tracker_smallest_refuted.
(** ... a time beyond the integers is converted to one, which is undefined ... *)
Theorem bad_tracker_large_refuted : exists c s, connect sample_bad 0 whole_cut [] [] = Ok (Some (c, s)) /\
  bad_round false 0 c (bad_start s 1) (order_with (sample_props (str "break_time") (str "3000000000"))) = UB.
Proof. exact large_time. Qed.
Print Assumptions bad_tracker_large_refuted.
(** ... and a time without a value is read from an uninitialised variable. *)
Theorem bad_tracker_empty_refuted : exists c s, connect sample_bad 0 whole_cut [] [] = Ok (Some (c, s)) /\
  bad_round false 0 c (bad_start s 1) (order_with (sample_props (str "break_time") [])) = UB.
Proof. exact empty_time. Qed.
Print Assumptions bad_tracker_empty_refuted.
