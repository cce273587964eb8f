(** The stationary tracker written in Python (C126) *)
From Verif Require Import CBase Props Message MessageSpec Region Image Handle SessionSpec NoisySpec PyText PySession PySessionSpec PyStatic PyStaticSpec PyStaticProofs.
Local Open Scope Z_scope.

(** C126: the client is told that the tracker understands rectangles and paths; every answer of the tracker is the object of the latest initialization, for any number of requests, in pieces of any
    sizes and whatever complete lines the tracker prints; when the client quits the tracker ends without an error and without
    another message.  Missing: times to wait that are not numbers (refuted below), clients in other languages. *)
Theorem python_static_partial : forall legacy slack told cut sched_s sched_c qs reason cut',
  cutter cut -> no_error sched_s -> no_error sched_c -> pyasks_ok slack pystatic_config None qs -> reason_ok reason -> cutter cut' ->
  exists c s i c' t' l h, python_connect pystatic_config cut sched_s sched_c = ret (c, s, i) /\ told_rectangles i /\
    pystatic_rounds legacy slack told c (pystatic_start s) qs = Ok (Some (c', t', l)) /\ pyreports None qs l /\
    pystatic_ending slack told c' t' reason cut' = Ok (Left None (inl tt) h, []) /\ is_alive h = false.
Proof. exact pystatic_session. Qed.
Print Assumptions python_static_partial.

Example python_static_nonvacuous : pyasks_ok 0 pystatic_config None sample_pyasks /\ cutter byte_cut /\ reason_ok (Some (str "done")).
Proof. exact (conj sample_pyasks_ok (conj SendableProofs.byte_cutter eq_refl)). Qed.

(** C126 violated: a time with a character that no number has ends the tracker at any initialization; the client's call ends with
    a reason instead of an answer. *)
Theorem python_static_time_refuted : forall legacy slack told cut sched_s sched_c qs q v, cutter cut -> no_error sched_s -> no_error sched_c ->
  pyasks_ok slack pystatic_config None qs -> pyask_given slack pystatic_config (tracked_objects None qs) q -> pa_object q <> None ->
  In (str "time_wait", v) (pa_props q) -> foreign_text v ->
  exists c s i c' t' l, python_connect pystatic_config cut sched_s sched_c = ret (c, s, i) /\
    pystatic_rounds legacy slack told c (pystatic_start s) qs = Ok (Some (c', t', l)) /\
  exists c2 h reason, pystatic_round legacy slack told c' t' q = Ok (c2, Left (Some ValueError) (inl tt) h, Ended (Some reason)) /\
    is_alive c2 = false /\ is_alive h = false.
Proof. exact pystatic_word. Qed.
Print Assumptions python_static_time_refuted.

Example python_static_time_nonvacuous : pyasks_ok 0 pystatic_config None sample_pyasks /\
  pyask_given 0 pystatic_config (tracked_objects None sample_pyasks) sample_pyword /\ pa_object sample_pyword <> None /\
  In (str "time_wait", str "a 'short' while") (pa_props sample_pyword) /\ foreign_text (str "a 'short' while").
Proof. exact (conj sample_pyasks_ok sample_pyword_ok). Qed.
