(** Property C115: the stationary tracker that serves as an example *)
From Verif Require Import CBase Props PropsSpec Message MessageSpec Formats Region Handle SessionSpec SendableProofs Static StaticSpec StaticProofs.
Local Open Scope Z_scope.

(** C115, apart from memory: in every session with the stationary tracker each wait of the client returns a state for every object that was
    given since the last initialization, in the order they were given, with the region and the properties the client gave (coordinates up to the
    fifth decimal); and when the client ends the session the tracker sees the quit message, leaves its loop and ends. *)
Theorem static_tracker_partial : forall legacy slack depth ir m cut sched_s sched_c qs, static_metadata depth ir = Ok m -> cutter cut ->
  no_error sched_s -> no_error sched_c -> asks_ok slack (md_channels m) [] qs ->
  exists c s c' t' sns, connect m 0 cut sched_s sched_c = Ok (Some (c, s)) /\ static_rounds legacy slack c (static_start s) qs = Ok (c', t', sns) /\
    reports [] qs sns /\
    forall fuel reason cut', text_ok reason = true -> cutter cut' ->
      static_ending slack (S fuel) c' t' reason cut' = Ok (TRAX_QUIT, true, List.length qs).
Proof. exact static_session. Qed.
Print Assumptions static_tracker_partial.

Example static_tracker_nonvacuous : static_metadata true false = Ok sample_static /\ md_channels sample_static = 3 /\ asks_ok 0 3 [] sample_asks.
Proof. split; [reflexivity|]. split; [reflexivity|]. exact sample_asks_ok. Qed.

(** C115 violated: one dictionary for each request is not released, as the count in the theorem above says: four in this session of four requests ... *)
Theorem static_tracker_leak_refuted : exists c s c' t' sns, connect sample_static 0 byte_cut [] [] = Ok (Some (c, s)) /\
  static_rounds false 0 c (static_start s) sample_asks = Ok (c', t', sns) /\
  static_ending 0 1 c' t' (str "bye") whole_cut = Ok (TRAX_QUIT, true, 4%nat).
Proof. exact static_leak. Qed.
Print Assumptions static_tracker_leak_refuted.
(** ... and a client that gives the property time_wait without a value makes the tracker read an uninitialised number. *)
Theorem static_tracker_time_refuted : exists c s, connect sample_static 0 whole_cut [] [] = Ok (Some (c, s)) /\
  static_round false 0 c (static_start s)
    (mkAsk true sample_images [(sample_mask, props_create)] (Some (sample_props (str "time_wait") [])) whole_cut whole_cut) = UB.
Proof. exact static_empty_time. Qed.
Print Assumptions static_tracker_time_refuted.
