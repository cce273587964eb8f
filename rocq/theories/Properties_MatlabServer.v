(** Properties C111 and C112: calls and sessions of a Matlab tracker *)
From Verif Require Import CBase Props PropsSpec Message MessageSpec Formats Region Image Handle SessionSpec HandleProofs SendableProofs Matlab MatlabSpec CppSession MatlabServer MatlabServerSpec
  MatlabServerProofs MatlabSessionProofs.
Local Open Scope Z_scope.

(** ---- C111 ---- *)

(** Without a connection wait and status are errors that change nothing, and quit does nothing. *)
Theorem matlab_closed_partial : forall fuel slack s c, ~ is_open s ->
  (asks c (str "wait") \/ asks c (str "status") -> refused fuel slack s c) /\
  (asks c (str "quit") -> exists outs, mex_server fuel slack s c = Ok (s, Some outs) /\ Forall (fun o => o = None) outs).
Proof. intros fuel slack s c H. exact (conj (closed_refuses fuel slack s c H) (closed_quits fuel slack s c H)). Qed.
Print Assumptions matlab_closed_partial.
Example matlab_closed_nonvacuous : ~ is_open mserver0 /\ asks (wait_call true) (str "wait").
Proof. split; [intros H; apply H; reflexivity|exact (wait_asks true)]. Qed.

(** An unknown operation is an error that changes nothing, with or without a connection. *)
Theorem matlab_unknown_partial : forall fuel slack s c, ~ asks c (str "setup") -> ~ asks c (str "wait") -> ~ asks c (str "status") -> ~ asks c (str "quit") -> refused fuel slack s c.
Proof. exact unknown_refused. Qed.
Print Assumptions matlab_unknown_partial.

(** quit sends one quit message, with the reason as its only property, and closes the connection. *)
Theorem matlab_quit_partial : forall fuel slack s c h reason, ms_server s = Some (Some h) -> h_terminated h = false -> no_error (o_sched (h_out h)) ->
  asks c (str "quit") -> List.tl (mc_prhs c) = [text_array reason] -> text_ok reason = true ->
  exists o p outs, mex_server fuel slack s c = Ok (mkMserver None (ms_lost s) (o :: ms_closed s), Some outs) /\
    o_bytes o = o_bytes (h_out h) ++ wire MQuit [] (props_enum p) /\ (forall k, value_of p k = if bytes_eqb k (str "trax.reason") then Some reason else None).
Proof. exact quit_sent. Qed.
Print Assumptions matlab_quit_partial.

(** When the client quits, the next wait returns empty arrays and closes the connection; nothing more is sent on it. *)
Theorem matlab_client_quit_partial : forall fuel slack s h c reason cut structured, ms_server s = Some (Some h) -> h_server h = true -> h_terminated h = false ->
  1 <= md_channels (h_meta h) <= 7 -> ready (h_in h) [] -> h_terminated c = false -> no_error (o_sched (h_out c)) -> text_ok reason = true -> cutter cut ->
  exists c', terminate c (Some reason) = Ok (TRAX_OK, c') /\ mex_server (S fuel) slack (fed cut (written c c') s) (wait_call structured) =
    Ok (mkMserver None (ms_lost s) (h_out h :: ms_closed s), Some (repeat (Some (MDouble 0 0 [])) 3)).
Proof. exact client_quit_closes. Qed.
Print Assumptions matlab_client_quit_partial.
Example matlab_quit_nonvacuous : exists s h, mex_server 0 0 mserver0 sample_setup = Ok (s, Some [Some (MU8 [1; 1] [1%N])]) /\ ms_server s = Some (Some h) /\ h_server h = true /\
  h_terminated h = false /\ 1 <= md_channels (h_meta h) <= 7 /\ ready (h_in h) [] /\ no_error (o_sched (h_out h)) /\ asks (quit_call (str "enough")) (str "quit").
Proof. exact sample_opened. Qed.

(** After a setup that failed to connect, wait and status are errors that change nothing. *)
Theorem matlab_dead_partial : forall fuel slack s c, ms_server s = Some None -> asks c (str "wait") \/ asks c (str "status") ->
  forall s' r, mex_server fuel slack s c = Ok (s', r) -> s' = s /\ r = None.
Proof. exact dead_refuses. Qed.
Print Assumptions matlab_dead_partial.
Example matlab_dead_nonvacuous : exists s, mex_server 0 0 mserver0 (mkMcall 1 (mc_prhs sample_setup) None) = Ok (s, None) /\ ms_server s = Some None.
Proof. eexists. split; [vm_compute; reflexivity|reflexivity]. Qed.

(** Whatever calls are made, no connection is lost (left open without a quit message), as long as setup is only called without a connection. *)
Theorem matlab_calls_partial : forall fuel slack cs s s' rs, apart fuel slack s cs -> mex_run fuel slack s cs = Ok (s', rs) -> ms_lost s' = ms_lost s.
Proof. exact run_lost. Qed.
Print Assumptions matlab_calls_partial.
Example matlab_calls_nonvacuous : apart 0 0 mserver0 [sample_setup; quit_call (str "enough")] /\
  exists s' rs, mex_run 0 0 mserver0 [sample_setup; quit_call (str "enough"); sample_setup] = Ok (s', rs) /\ is_open s' /\ List.length (ms_closed s') = 1%nat /\ ms_lost s' = [].
Proof. exact sample_apart. Qed.

(** C111 violated: a second setup loses the first connection, which stays open and is never told to quit. *)
Theorem matlab_second_setup_refuted : exists s rs h o, mex_run 0 0 mserver0 [sample_setup; sample_setup; quit_call (str "done")] = Ok (s, rs) /\ Forall (fun r => r <> None) rs /\
  ms_server s = None /\ ms_lost s = [Some h] /\ h_terminated h = false /\ ms_closed s = [o] /\ exists quit, o_bytes o = o_bytes (h_out h) ++ quit /\ quit <> [].
Proof. exact second_setup_loses. Qed.
Print Assumptions matlab_second_setup_refuted.

(** C111 violated: the operation 'state' of the documentation is refused in every state. *)
Theorem matlab_state_refuted : forall fuel slack s n rest net, refused fuel slack s (mkMcall n (text_array (str "state") :: rest) net).
Proof. exact state_is_refused. Qed.
Print Assumptions matlab_state_refuted.

(** ---- C112 ---- *)

(** A Matlab tracker that calls setup, and then wait and status in turn: the client is told the formats, names and properties given to setup; the tracker
    sees the images, region and properties of every request, and the client sees the region given to status; the properties given to status are missing. *)
Theorem matlab_session_partial : forall legacy fuel slack rr ii kvs regions images cut sched_s sched_c rs,
  described_ok kvs -> lists_codes region_table rr regions -> lists_codes image_table ii images ->
  cutter cut -> no_error sched_s -> no_error sched_c -> mrounds_ok slack regions images rs ->
  exists s h c c' s' sns m, mex_server fuel slack mserver0 (setup_call rr ii kvs (mkO sched_s [] [])) = Ok (s, Some [Some (MU8 [1; 1] [1%N])]) /\ handle_of s = Some h /\
    announced regions images kvs m /\ client_setup (mkStream [] (cut (o_bytes (h_out h)))) (mkO sched_c [] []) = Ok (Some c) /\ conveyed m 0 (h_meta c) /\
    mex_play legacy slack c s rs = Ok (c', s', sns) /\ Forall2 (mseen_ok slack images) rs sns /\ Forall (fun sn => same_props (mn_answer_props sn) props_create) sns.
Proof. exact matlab_delivers. Qed.
Print Assumptions matlab_session_partial.
Example matlab_session_nonvacuous : (lists_codes region_table (row_of_texts [str "Mask"; str "polygon"]) 12 /\ lists_codes image_table (text_array (str "path")) 1 /\ described_ok sample_kvs) /\
  mrounds_ok 0 12 1 sample_mrounds.
Proof. exact (conj sample_codes sample_mrounds_ok). Qed.

(** C112 violated: in a session where everything else arrives the properties given to status do not. *)
Theorem matlab_state_properties_refuted : exists s h c c' s' sns, mex_server 0 0 mserver0 sample_setup = Ok (s, Some [Some (MU8 [1; 1] [1%N])]) /\ handle_of s = Some h /\
  client_setup (mkStream [] (byte_cut (o_bytes (h_out h)))) (mkO [] [] []) = Ok (Some c) /\ mex_play false 0 c s sample_mrounds = Ok (c', s', sns) /\
  Forall2 (mseen_ok 0 1) sample_mrounds sns /\ ~ Forall2 state_props_seen sample_mrounds sns.
Proof. exact state_props_lost. Qed.
Print Assumptions matlab_state_properties_refuted.
