(** Properties C37 to C40, C56 and C57: call histories, refused calls, failed sends, and the end of the input. *)
From Verif Require Import CBase Props PropsSpec Message MessageSpec Num PropsNum Region Image Formats Handle SessionSpec HistorySpec
  FormatsProofs HandleProofs SessionProofs SendableProofs HistoryProofs.
Local Open Scope Z_scope.

(** C37: whatever is called, with whatever arguments and input, the messages written contain at most one quit message; it is
    the last one, it is written by a handle that was alive and is not any more. *)
Theorem at_most_one_quit : forall legacy slack cs h codes h', no_error (o_sched (h_out h)) -> run_calls legacy slack h cs = Ok (codes, h') ->
  exists ms, spoke h h' ms /\
    (filter is_quit ms = [] \/
     exists ns q, ms = ns ++ [q] /\ filter is_quit ns = [] /\ is_quit q = true /\ is_alive h = true /\ is_alive h' = false).
Proof. exact quit_once. Qed.
Print Assumptions at_most_one_quit.

Example at_most_one_quit_nonvacuous : exists codes h', no_error (o_sched (h_out sample_client)) /\
  run_calls false 0 sample_client sample_history = Ok (codes, h') /\ codes = [0; 0; 0; -1; 0; -1] /\ is_alive sample_client = true.
Proof. eexists. eexists. split; [vm_compute; constructor|]. split; [vm_compute; reflexivity|]. split; vm_compute; reflexivity. Qed.

(** C37: terminating a living connection sends a quit message with the reason. *)
Theorem terminate_says_why : forall h reason, no_error (o_sched (h_out h)) -> is_alive h = true ->
  exists h' kvs, terminate h reason = Ok (TRAX_OK, h') /\ is_alive h' = false /\ spoke h h' [(MQuit, [], kvs)] /\
    match reason with Some t => kvs = [(str "trax.reason", t)] | None => kvs = [] end.
Proof. exact terminate_sends. Qed.
Print Assumptions terminate_says_why.
Example terminate_says_why_nonvacuous : no_error (o_sched (h_out sample_server)) /\ is_alive sample_server = true.
Proof. split; [vm_compute; constructor|vm_compute; reflexivity]. Qed.

(** C37: a call that reports a quit message of the other side leaves the connection dead. *)
Theorem quit_received_ends : forall legacy slack h c h', run_call legacy slack h c = Ok (TRAX_QUIT, h') -> is_alive h' = false.
Proof. exact quit_received. Qed.
Print Assumptions quit_received_ends.
Example quit_received_nonvacuous : exists h1 h2,
  terminate sample_client (Some (str "done")) = Ok (TRAX_OK, h1) /\
  run_call false 0 (arrive byte_cut (written sample_client h1) sample_server) (CWaitMot 5 None None) = Ok (TRAX_QUIT, h2).
Proof. eexists. eexists. split; [vm_compute; reflexivity|]. vm_compute. reflexivity. Qed.

(** C37, partial: on a terminated handle every further history (in the right role) runs, sends nothing, keeps the handle dead,
    and its communication calls report an error.  Missing: terminating again reports success (below). *)
Theorem termination_final_partial : forall legacy slack cs h, h_terminated h = true -> Forall (fun c => right_role h c = true) cs ->
  exists codes h', run_calls legacy slack h cs = Ok (codes, h') /\ o_bytes (h_out h') = o_bytes (h_out h) /\ is_alive h' = false /\
    Forall2 (fun c code => communicates c = true -> code = TRAX_ERROR) cs codes.
Proof. exact dead_history. Qed.
Print Assumptions termination_final_partial.
Example termination_final_nonvacuous : exists code h, terminate sample_client None = Ok (code, h) /\ h_terminated h = true /\
  Forall (fun c => right_role h c = true) sample_history.
Proof. eexists. eexists. split; [vm_compute; reflexivity|]. split; [reflexivity|]. repeat (apply Forall_cons; [reflexivity|]). apply Forall_nil. Qed.

(** C37 violated: terminating a terminated connection does not report an error. *)
Theorem terminate_again_refuted : forall h reason, h_terminated h = true -> exists h', terminate h reason = Ok (TRAX_OK, h') /\ TRAX_OK <> TRAX_ERROR.
Proof. exact (fun h reason Ht => ex_intro _ (clear_error h) (conj (terminate_dead h reason Ht) ok_not_error)). Qed.
Print Assumptions terminate_again_refuted.

(** C38 violated: a call in the wrong role ends the process. *)
Theorem wrong_role_refuted : forall legacy slack h c, right_role h c = false -> run_call legacy slack h c = Abort.
Proof. exact wrong_role_aborts. Qed.
Print Assumptions wrong_role_refuted.
Example wrong_role_nonvacuous : right_role sample_server (CFrame sample_images None None) = false /\ right_role sample_client (CReplyMot []) = false.
Proof. split; vm_compute; reflexivity. Qed.

(** C38, partial: a reply with a wrong number of states reports an error and sends nothing. *)
Theorem wrong_count_partial : forall h objects, h_server h = true -> md_flags (h_meta h) <> None -> Z.of_nat (List.length objects) <> h_objects h ->
  exists h', server_reply_mot h objects = Ok (TRAX_ERROR, h') /\ h_out h' = h_out h /\ h_error h' = true.
Proof. exact reply_count_refused. Qed.
Print Assumptions wrong_count_partial.
Example wrong_count_nonvacuous : h_server sample_server = true /\ md_flags (h_meta sample_server) <> None /\ h_objects sample_server = 0.
Proof. split; [vm_compute; reflexivity|]. split; [vm_compute; discriminate|vm_compute; reflexivity]. Qed.

(** C38: the calls for one object are refused in version 4; nothing is read or sent. *)
Theorem single_object_calls_refused : forall slack h images reg p r, h_server h = true -> 4 <= h_version h ->
  (exists h', server_wait_sot slack h images reg p = Ok (TRAX_ERROR, h', images, reg, p) /\ h_out h' = h_out h /\ h_in h' = h_in h /\ h_error h' = true) /\
  (exists h', server_reply_sot h r p = Ok (TRAX_ERROR, h') /\ h_out h' = h_out h /\ h_error h' = true).
Proof. exact sot_refused. Qed.
Print Assumptions single_object_calls_refused.
Example single_object_calls_nonvacuous : h_server sample_server = true /\ 4 <= h_version sample_server.
Proof. split; vm_compute; [reflexivity|discriminate]. Qed.

(** C38 violated: on a server below version 4 the multi-object flag is never set; a reply reads it uninitialised. *)
Theorem reply_flag_refuted : exists c s, connect sample_metadata3 3 whole_cut [] [] = Ok (Some (c, s)) /\ server_reply_mot s [sample_object] = UB.
Proof. eexists. eexists. split; [vm_compute; reflexivity|]. vm_compute. reflexivity. Qed.
Print Assumptions reply_flag_refuted.

(** C39, partial: if sending fails, nothing was sent, provided there is an image for each announced channel (or the protocol
    is older than version 4, or only a frame is sent). *)
Theorem failed_send_partial : forall legacy h init images objects p code h',
  h_version h < 4 \/ (init = false /\ objects = []) \/ List.length images = 3%nat /\ images_complete (md_channels (h_meta h)) images ->
  client_send legacy h init images objects p = Ok (code, h') -> code <> TRAX_OK -> o_bytes (h_out h') = o_bytes (h_out h).
Proof. exact failed_send_quiet. Qed.
Print Assumptions failed_send_partial.
Example failed_send_nonvacuous : exists h', client_send false sample_client false sample_missing [] None = Ok (TRAX_ERROR, h').
Proof. eexists. vm_compute. reflexivity. Qed.

(** C39 violated: without the depth image, initialize reports an error after sending the object. *)
Theorem failed_send_refuted : exists h' ms, client_send false sample_client true sample_missing [sample_object] None = Ok (TRAX_ERROR, h') /\
  spoke sample_client h' ms /\ map (fun m => fst (fst m)) ms = [MInitialize] /\ h_objects h' = 1.
Proof.
  eexists. exists [(MInitialize, [str "mask:5,6,2,2,0,1,2,1"], [])]. split; [vm_compute; reflexivity|]. split; [vm_compute; reflexivity|].
  split; vm_compute; reflexivity.
Qed.
Print Assumptions failed_send_refuted.

(** C40 violated: the client tries again with the depth image; the server then tracks two objects, the client one. *)
Theorem object_counts_refuted : exists h1 h2 s' images objects p,
  client_send false sample_client true sample_missing [sample_object] None = Ok (TRAX_ERROR, h1) /\
  client_send false h1 true sample_images [sample_object] None = Ok (TRAX_OK, h2) /\
  server_wait_mot 10 0 (arrive whole_cut (written sample_client h2) sample_server) None None = Ok (TRAX_INITIALIZE, s', images, objects, p) /\
  h_objects h2 = 1 /\ h_objects s' = 2.
Proof.
  eexists. eexists. eexists. eexists. eexists. eexists.
  split; [vm_compute; reflexivity|]. split; [vm_compute; reflexivity|]. split; [vm_compute; reflexivity|]. split; vm_compute; reflexivity.
Qed.
Print Assumptions object_counts_refuted.

(** C56 violated: a hello message without region formats, for which the protocol defines a default, breaks the client. *)
Theorem hello_defaults_refuted : forall p version, props_get_int p (str "trax.version") 1 = Ok version ->
  props_get p (str "trax.region") = Ok None -> hello_metadata p = UB.
Proof. exact hello_without. Qed.
Print Assumptions hello_defaults_refuted.
Example hello_defaults_nonvacuous :
  client_setup (mkStream [] [str "@@TRAX:hello ""trax.version=1"" ""trax.image=path;""" ++ [c_nl]]) (mkO [] [] []) = UB.
Proof. vm_compute. reflexivity. Qed.

(** C57 violated: when the client goes away after an initialize message, the waiting server never returns: whatever the
    number of messages it may read, it wants more. *)
Theorem wait_returns_refuted : forall fuel slack h images p, at_end h -> h_type h = Some MInitialize -> h_server h = true -> is_alive h = true ->
  0 <= md_channels (h_meta h) <= INT_MAX -> server_wait_mot fuel slack h images p = NoFuel.
Proof. exact wait_mot_hangs. Qed.
Print Assumptions wait_returns_refuted.
(** Reached from the failed call above: the server waits for ever once the client is gone. *)
Example wait_returns_reached : exists h1, client_send false sample_client true sample_missing [sample_object] None = Ok (TRAX_ERROR, h1) /\
  forall fuel, server_wait_mot fuel 0 (arrive whole_cut (written sample_client h1) sample_server) None None = NoFuel.
Proof. exact abandoned_server. Qed.

(** C57 violated on the client: a tracker that dies before its first reply seems to have answered with special regions. *)
Theorem client_wait_refuted : exists h1 h2 p, client_send false sample_client true sample_images [sample_object] None = Ok (TRAX_OK, h1) /\
  at_end h1 /\ client_wait h1 None = Ok (type_code (Some MHello), h2, Some [(RSpecial 0, props_create)], p).
Proof.
  eexists. eexists. eexists. split; [vm_compute; reflexivity|]. split; [split; vm_compute; reflexivity|]. vm_compute. reflexivity.
Qed.
Print Assumptions client_wait_refuted.

(** C57, partial: in the other states the end of the input is reported as an error. *)
Theorem server_wait_ends_partial : forall fuel slack h images p, at_end h -> h_type h = None \/ h_type h = Some MFrame ->
  h_server h = true -> is_alive h = true -> 1 <= md_channels (h_meta h) <= INT_MAX ->
  exists h', server_wait_mot (S fuel) slack h images p = Ok (TRAX_ERROR, h', None, None, p).
Proof. exact wait_mot_ends. Qed.
Print Assumptions server_wait_ends_partial.
Theorem single_wait_ends_partial : forall slack h images reg p, at_end h -> h_type h <> Some MQuit -> h_server h = true -> is_alive h = true ->
  h_version h < 4 -> 1 <= md_channels (h_meta h) <= INT_MAX ->
  exists h', server_wait_sot slack h images reg p = Ok (TRAX_ERROR, h', None, None, p).
Proof. exact wait_sot_ends. Qed.
Print Assumptions single_wait_ends_partial.
Theorem client_wait_ends_partial : forall h p, at_end h -> h_type h = None \/ h_type h = Some MState -> h_server h = false ->
  exists h' l, client_wait h p = Ok (TRAX_ERROR, h', l, p).
Proof. exact client_wait_ends. Qed.
Print Assumptions client_wait_ends_partial.
Example ends_nonvacuous : at_end sample_server /\ h_type sample_server = None /\ is_alive sample_server = true /\
  1 <= md_channels (h_meta sample_server) <= INT_MAX.
Proof. split; [split; vm_compute; reflexivity|]. split; [vm_compute; reflexivity|]. split; [vm_compute; reflexivity|]. vm_compute. split; discriminate. Qed.
