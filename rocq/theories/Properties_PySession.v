(** Sessions between a tracker and a client written in Python (C100, C101) *)
From Verif Require Import CBase Props Message MessageSpec Region Image Handle SessionSpec SendableProofs PyText PyTextSpec PySession PySessionSpec PySessionProofs.
Local Open Scope Z_scope.

(** C100: what a tracker announces is what a client says about it.  Missing: the special format, custom properties called
    multiobject, characters of more than 7 bits and trackers without a channel (refuted below). *)
Theorem python_handshake_partial : forall cfg cut sched_s sched_c, config_ok cfg -> cutter cut -> no_error sched_s -> no_error sched_c ->
  exists c s i, python_connect cfg cut sched_s sched_c = ret (c, s, i) /\ describes cfg i.
Proof. exact python_handshake_lemma. Qed.
Print Assumptions python_handshake_partial.

Example python_handshake_nonvacuous : config_ok sample_config /\ cutter byte_cut /\ tc_multiobject sample_config = true.
Proof. exact (conj sample_config_ok (conj byte_cutter eq_refl)). Qed.

(** C100: a tracker with a name of a format or a channel that does not exist is not started *)
Theorem python_unknown_names : forall cfg st o,
  ~ (incl (tc_regions cfg) all_regions /\ incl (tc_images cfg) all_images /\ incl (tc_channels cfg) all_channels) ->
  server_init cfg st o = raise IndexError.
Proof. exact unknown_lemma. Qed.
Print Assumptions python_unknown_names.

(** The list of the letters of a name, which is what a plain string is, has no names in it *)
Example python_unknown_names_nonvacuous : ~ incl (map (fun c => [c]) (str "polygon")) all_regions.
Proof. intros H. specialize (H [112%N] (or_introl eq_refl)). cbn in H. intuition discriminate. Qed.

(** C100 violated: a tracker that announces the special format is shown without it. *)
Theorem python_special_refuted : exists c s i, python_connect config_special byte_cut [] [] = ret (c, s, i) /\
  In (str "special") (tc_regions config_special) /\ ci_regions i = [str "rectangle"].
Proof. eexists. eexists. eexists. split; [vm_compute; reflexivity|]. split; [left; reflexivity|vm_compute; reflexivity]. Qed.
Print Assumptions python_special_refuted.

(** C100 violated: a custom property called multiobject is replaced. *)
Theorem python_multiobject_refuted : exists c s i, python_connect config_multiobject byte_cut [] [] = ret (c, s, i) /\
  tc_custom config_multiobject = Some [(str "multiobject", str "yes")] /\ client_get i (str "multiobject") = Some (inr false).
Proof. eexists. eexists. eexists. split; [vm_compute; reflexivity|]. split; [reflexivity|vm_compute; reflexivity]. Qed.
Print Assumptions python_multiobject_refuted.

(** C100 violated: a name with an accent makes the client use a character outside of the tables of the C library. *)
Theorem python_accent_refuted : tc_name config_accent = [83; 232; 109]%N /\ python_connect config_accent byte_cut [] [] = UB.
Proof. split; [reflexivity|vm_compute; reflexivity]. Qed.
Print Assumptions python_accent_refuted.

(** C100 violated: an empty list of channels ends the process of the tracker. *)
Theorem python_no_channel_refuted : tc_channels config_no_channel = [] /\ forall st o, server_init config_no_channel st o = Abort.
Proof. split; [reflexivity|]. intros st o. vm_compute. reflexivity. Qed.
Print Assumptions python_no_channel_refuted.

(** C100 violated: a client that is not to log cannot be made, whatever the tracker says. *)
Theorem python_no_log_refuted : forall st o, client_init false st o = raise ArgumentError.
Proof. reflexivity. Qed.
Print Assumptions python_no_log_refuted.

(** C101: images, objects and properties of the client's calls reach the tracker, states reach the client, for any number of
    rounds, in pieces of any sizes.  Missing: arguments outside of [pround_ok], of which the special and the empty regions are
    refuted for the C functions (Properties_Session). *)
Theorem python_session_partial : forall legacy slack cfg cut sched_s sched_c rs, config_ok cfg -> cutter cut -> no_error sched_s -> no_error sched_c ->
  prounds_ok slack cfg 0 rs ->
  exists c s i c' s' sns, python_connect cfg cut sched_s sched_c = ret (c, s, i) /\
    pplay legacy slack c s rs = Ok (Some (c', s', sns)) /\ all_pseen slack cfg 0 rs sns.
Proof. exact python_session_lemma. Qed.
Print Assumptions python_session_partial.

Example python_session_nonvacuous : prounds_ok 0 sample_config 0 sample_prounds /\ ptracked_all 0 sample_prounds = 3%nat.
Proof. exact (conj sample_prounds_ok eq_refl). Qed.

(** C101: a tracker that quits instead of answering a request: the client's call ends with the reason that was given. *)
Theorem python_server_quit : forall legacy slack cfg cut sched_s sched_c rs r reason,
  config_ok cfg -> cutter cut -> no_error sched_s -> no_error sched_c -> prounds_ok slack cfg 0 (rs ++ [r]) -> reason_ok reason ->
  exists c s i c' s' sns, python_connect cfg cut sched_s sched_c = ret (c, s, i) /\ pplay legacy slack c s rs = Ok (Some (c', s', sns)) /\
  exists c1 rq s1, client_send legacy (pr_init r) c' (pr_images r) (Some (given_objects (pr_objects r))) (DDict (pr_props r)) = Ok (inl tt, c1) /\
    server_wait (3 + List.length (pr_objects r)) slack (arrive (pr_cut1 r) (written c' c1) s') = Ok (inl rq, s1) /\
  exists s2 c2, session_quit false s1 reason = Ok (inl tt, true, s2) /\
    client_receive (arrive (pr_cut2 r) (written s1 s2) c1) = Ok (Ended reason, c2) /\ is_alive c2 = false /\ is_alive s2 = false.
Proof. exact server_quit_lemma. Qed.
Print Assumptions python_server_quit.

Example python_server_quit_nonvacuous : exists rs r, prounds_ok 0 sample_config 0 (rs ++ [r]) /\ List.length rs = 2%nat /\
  reason_ok (Some (str "out of ""memory""")).
Proof.
  exists (removelast sample_prounds), (last sample_prounds (mkPround true [] [] [] [] byte_cut byte_cut)).
  exact (conj sample_prounds_ok (conj eq_refl eq_refl)).
Qed.

(** C101: a client that quits: the tracker's wait gives a request to quit.  Missing: the reason (refuted below). *)
Theorem python_client_quit_partial : forall legacy slack cfg cut sched_s sched_c rs cut' fuel reason,
  config_ok cfg -> cutter cut -> no_error sched_s -> no_error sched_c -> prounds_ok slack cfg 0 rs -> cutter cut' -> reason_ok reason ->
  exists c s i c' s' sns, python_connect cfg cut sched_s sched_c = ret (c, s, i) /\ pplay legacy slack c s rs = Ok (Some (c', s', sns)) /\
  exists c2 rq s2, session_quit false c' reason = Ok (inl tt, false, c2) /\
    server_wait (S fuel) slack (arrive cut' (written c' c2) s') = Ok (inl rq, s2) /\
    rq_type rq = Some (str "quit") /\ rq_images rq = None /\ rq_objects rq = None /\ properties_dict (rq_properties rq) = [] /\ is_alive s2 = false.
Proof. exact client_quit_lemma. Qed.
Print Assumptions python_client_quit_partial.

Example python_client_quit_nonvacuous : prounds_ok 0 sample_config 0 sample_prounds /\ cutter whole_cut /\ reason_ok None.
Proof. exact (conj sample_prounds_ok (conj whole_cutter Logic.I)). Qed.

(** C101 violated: the reason of a client that quits is not among the properties of the request, though it was sent. *)
Theorem python_client_reason_refuted : exists c s i c2 rq s2, python_connect sample_config byte_cut [] [] = ret (c, s, i) /\
  session_quit false c (Some (str "done")) = Ok (inl tt, false, c2) /\
  server_wait 1 0 (arrive whole_cut (written c c2) s) = Ok (inl rq, s2) /\
  written c c2 = str "@@TRAX:quit ""trax.reason=done"" " ++ [10%N] /\ properties_get (rq_properties rq) (str "trax.reason") None = ret None.
Proof.
  eexists. eexists. eexists. eexists. eexists. eexists. split; [vm_compute; reflexivity|]. split; [vm_compute; reflexivity|].
  split; [vm_compute; reflexivity|]. split; vm_compute; reflexivity.
Qed.
Print Assumptions python_client_reason_refuted.

(** C101 violated: properties given to status are never sent. *)
Theorem python_status_properties_refuted : forall h objects d, sendable_dict d ->
  server_status h objects (DDict d) = server_status h objects DNone.
Proof. exact status_lost_lemma. Qed.
Print Assumptions python_status_properties_refuted.

Example python_status_properties_nonvacuous : sendable_dict [(str "time", str "0.1"); (str "k", str "v")].
Proof. apply small_dict; reflexivity. Qed.

(** C101 violated: frame with its default argument for objects, None, raises TypeError and sends nothing. *)
Theorem python_frame_default_refuted : forall legacy h images d, client_send legacy false h images None d = Ok (inr TypeError, h).
Proof. reflexivity. Qed.
Print Assumptions python_frame_default_refuted.
