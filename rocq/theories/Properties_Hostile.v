(** Whatever the other side sends (C130) *)
From Verif Require Import CBase Num NumSpec Props PropsSpec Message MessageSpec Region RegionSpec RegionSafeSpec Image Formats Handle SessionSpec HistorySpec HostileSpec HostileProofs.
Local Open Scope Z_scope.

(** C130, partial: a client that waits for any number of objects, whatever bytes arrive in whatever pieces and wherever they end:
    the wait returns, unless a state message came in whose region text is harmful (C27) or a mask without pixels.  Missing: the
    wait returns in these cases too, refuted below. *)
Theorem hostile_client_partial : forall h p, h_server h = false -> usable p ->
  (exists result, client_wait h p = Ok result) \/ exists r, incoming h r /\ dangerous_object MState r.
Proof. exact client_any. Qed.
Print Assumptions hostile_client_partial.
Example hostile_client_nonvacuous : h_server (faced waiting_client (str "@@TRAX:state nonsense ")) = false /\ usable (Some props_create) /\
  exists h, client_wait (faced waiting_client (line (str "state") [str "1,2,3"])) (Some props_create) = Ok (TRAX_ERROR, h, None, Some props_create).
Proof. split; [vm_compute; reflexivity|]. split; [exact made_empty|]. eexists. vm_compute. reflexivity. Qed.

(** The same for a server with a single object, for its images (C55) and the region of an initialization *)
Theorem hostile_single_partial : forall slack h images region p, h_server h = true -> 1 <= md_channels (h_meta h) <= 7 -> usable p ->
  (exists result, server_wait_sot slack h images region p = Ok result) \/ exists r type, incoming h r /\ dangerous_request type r.
Proof. exact sot_any. Qed.
Print Assumptions hostile_single_partial.
Example hostile_single_nonvacuous : h_server (faced single_server (str "@@TRAX:frame ")) = true /\ 1 <= md_channels (h_meta (faced single_server (str "@@TRAX:frame "))) <= 7 /\
  is_version_4 single_server = false /\ exists h ims rg p, server_wait_sot 0 (faced single_server (line (str "frame") two_files)) None None (Some props_create) = Ok (TRAX_FRAME, h, Some ims, rg, p).
Proof. split; [vm_compute; reflexivity|]. split; [vm_compute; split; discriminate|]. split; [vm_compute; reflexivity|]. eexists _, _, _, _. vm_compute. reflexivity. Qed.

(** The same for a server with several objects, which may also wait for ever (C128) *)
Theorem hostile_multi_partial : forall fuel slack h images p, h_server h = true -> 1 <= md_channels (h_meta h) <= 7 -> usable p ->
  (exists result, server_wait_mot fuel slack h images p = Ok result) \/ server_wait_mot fuel slack h images p = NoFuel \/
  exists r, incoming h r /\ (dangerous_object MInitialize r \/ dangerous_request MFrame r).
Proof. exact mot_any. Qed.
Print Assumptions hostile_multi_partial.
Example hostile_multi_nonvacuous : h_server sample_server = true /\ 1 <= md_channels (h_meta sample_server) <= 7 /\
  exists h ims objs p, server_wait_mot 5 0 (faced sample_server (line (str "initialize") [str "1,2,3,4"] ++ line (str "frame") two_files)) None None = Ok (TRAX_INITIALIZE, h, Some ims, Some objs, p).
Proof. split; [vm_compute; reflexivity|]. split; [vm_compute; split; discriminate|]. eexists _, _, _, _. vm_compute. reflexivity. Qed.

(** However long it waits: it returns after finitely many messages, or such a message came in, or it waits for ever, all input read,
    which ends after a message that such a server passes over. *)
Theorem hostile_multi_returns_partial : forall slack h images p, h_server h = true -> 1 <= md_channels (h_meta h) <= 7 -> usable p ->
  (exists n result, forall fuel, (n <= fuel)%nat -> server_wait_mot fuel slack h images p = Ok result) \/
  (exists r, incoming h r /\ (dangerous_object MInitialize r \/ dangerous_request MFrame r)) \/
  ((forall fuel, server_wait_mot fuel slack h images p = NoFuel) /\ stuck h).
Proof. exact mot_finally. Qed.
Print Assumptions hostile_multi_returns_partial.
Example hostile_multi_returns_nonvacuous : h_server sample_server = true /\ 1 <= md_channels (h_meta sample_server) <= 7 /\ usable (Some props_create).
Proof. split; [vm_compute; reflexivity|]. split; [vm_compute; split; discriminate|exact made_empty]. Qed.

(** C130 violated: at the end of the input, after such a message, every server for several objects waits for ever. *)
Theorem hostile_forever_refuted : forall fuel slack h images p, h_server h = true -> alive h = true -> 1 <= md_channels (h_meta h) <= 7 ->
  stream_bytes (h_in h) = [] -> delivers (h_in h) -> passed_over (h_type h) -> server_wait_mot fuel slack h images p = NoFuel.
Proof. exact stuck_server. Qed.
Print Assumptions hostile_forever_refuted.
Example hostile_forever_refuted_case : forall fuel, server_wait_mot fuel 0 (faced sample_server (line (str "state") [str "1"])) None None = NoFuel.
Proof. exact example_forever. Qed.

(** The same for a client that connects, unless the introduction of the server leaves out its region formats, image formats or
    (since version 2) channels, or has an empty or unrepresentable number for its version or (since version 4) for several objects *)
Theorem hostile_setup_partial : forall input output,
  (exists result, client_setup input output = Ok result) \/ exists r, read_message None input props_create = Ok r /\ dangerous_hello r.
Proof. exact setup_any. Qed.
Print Assumptions hostile_setup_partial.
Example hostile_setup_nonvacuous : exists c, client_setup (mkStream [] [line (str "hello") sample_hello]) (mkO [] [] []) = Ok (Some c).
Proof. eexists. vm_compute. reflexivity. Qed.

(** C130 violated: no harmful region text and no mask without pixels lets a client that waits for objects return; every one ends it. *)
Theorem hostile_state_refuted : forall h p r, h_server h = false -> alive h = true -> 0 < h_objects h ->
  read_message (h_type h) (h_in h) props_create = Ok r -> dangerous_object MState r -> forall result, client_wait h p <> Ok result.
Proof. exact harmful_state. Qed.
Print Assumptions hostile_state_refuted.
Example hostile_state_refuted_nonvacuous : let h := faced waiting_client (line (str "state") [str "x:1,2"]) in
  h_server h = false /\ alive h = true /\ 0 < h_objects h /\ ~ harmless (str "x:1,2") /\ client_wait h None = Abort.
Proof. exact example_state. Qed.

(** C130 violated: masks without pixels end clients and servers by an assertion, although their texts can be read. *)
Theorem hostile_mask_refuted : flat_mask (str "mask:0,0,0,5,1") /\ harmless (str "mask:0,0,0,5,1") /\
  client_wait (faced waiting_client (line (str "state") [str "mask:0,0,0,5,1"])) None = Abort /\
  server_wait_mot 5 0 (faced sample_server (line (str "initialize") [str "mask:0,0,0,5,1"] ++ line (str "frame") two_files)) None None = Abort.
Proof. exact example_mask. Qed.
Print Assumptions hostile_mask_refuted.

(** C130 violated: images with too little data, for both kinds of servers *)
Theorem hostile_image_refuted : forall t, In t [str "image:2;1;rgb;"; str "data:image/png;"] -> dangerous_image t /\
  server_wait_sot 0 (faced single_server (line (str "frame") [str "file:///a"; t])) None None None = UB /\
  server_wait_mot 5 0 (faced sample_server (line (str "initialize") [str "1,2,3,4"] ++ line (str "frame") [str "file:///a"; t])) None None = UB.
Proof. exact example_images. Qed.
Print Assumptions hostile_image_refuted.

(** C130 violated: none of these introductions lets the client return; with [hostile_setup_partial] they are exactly those. *)
Theorem hostile_hello_refuted : forall input output r, read_message None input props_create = Ok r -> dangerous_hello r ->
  forall result, client_setup input output <> Ok result.
Proof. exact harmful_hello. Qed.
Print Assumptions hostile_hello_refuted.
Example hostile_hello_refuted_nonvacuous : exists r, read_message None (mkStream [] [line (str "hello") [str "trax.version=4"]]) props_create = Ok r /\
  rr_type r = Some MHello /\ rr_args r = [] /\ props_get (rr_props r) (str "trax.region") = Ok None /\
  client_setup (mkStream [] [line (str "hello") [str "trax.version=4"]]) (mkO [] [] []) = UB.
Proof. exact example_hello. Qed.
