(** C116: a tracker may print on the output that carries the protocol.  Each theorem is followed by its assumptions. *)
From Verif Require Import CBase Props PropsSpec Message MessageSpec Num Region Image Formats Handle SessionSpec SessionProofs SendableProofs HistorySpec NoisySpec NoisyProofs.
Local Open Scope Z_scope.

(** C116, partial: whatever an application does with a client, from the setup on and for any number of calls, it gets the
    same return codes, metadata, objects and properties, and sends the same bytes, whether or not the tracker prints lines
    of its own before, between and after its messages, and however the output is cut into pieces. *)
Theorem chatter_unnoticed_partial : forall legacy ms first first' sched quiet loud, noisy ms first first' -> Forall2 noisy_step quiet loud ->
  life legacy first' sched loud = life legacy first sched quiet.
Proof. exact life_alike. Qed.
Print Assumptions chatter_unnoticed_partial.
Example chatter_nonvacuous :
  noisy [sample_hello] (whole_cut (message_bytes sample_hello)) (byte_cut (sample_talk (message_bytes sample_hello))) /\
  Forall2 noisy_step (sample_life silent) (sample_life sample_talk) /\
  exists v m rs b, life false (whole_cut (message_bytes sample_hello)) [] (sample_life silent) = Ok (Some (v, m, rs, b)) /\ v = 4 /\
    map (fun r : result => fst (fst r)) rs = [TRAX_OK; TRAX_STATE; TRAX_QUIT].
Proof. exact sample_life_ok. Qed.

(** C116, partial: a session of any length with a server that prints lines of its own delivers everything, as in C35 and C36:
    version 4, then versions 1 to 3. *)
Theorem loud_session_partial : forall legacy slack m version talk cut sched_s sched_c rs, metadata_ok m version -> spoken version = 4 -> talker talk -> cutter cut ->
  no_error sched_s -> no_error sched_c -> Forall talker (map fst rs) -> rounds_ok slack m (multi_object m version) 0 (map snd rs) ->
  exists c s c' s' sns, loud_connect m version talk cut sched_s sched_c = Ok (Some (c, s)) /\ conveyed m version (h_meta c) /\
    loud_play legacy slack c s rs = Ok (c', s', sns) /\ all_seen slack m 0 (map snd rs) sns.
Proof. exact loud_session. Qed.
Print Assumptions loud_session_partial.
Example loud_session_nonvacuous : metadata_ok sample_metadata 0 /\ talker sample_talk /\ talker silent /\
  Forall talker (map fst (map (pair sample_talk) sample_rounds)) /\
  rounds_ok 0 sample_metadata (multi_object sample_metadata 0) 0 (map snd (map (pair sample_talk) sample_rounds)).
Proof. exact sample_loud_ok. Qed.

Theorem loud_single_session_partial : forall legacy slack m version talk cut sched_s sched_c rs, metadata_ok m version -> spoken version <> 4 ->
  (spoken version = 1 -> md_channels m = TRAX_CHANNEL_COLOR) -> talker talk -> cutter cut ->
  no_error sched_s -> no_error sched_c -> Forall talker (map fst rs) -> srounds_ok slack m (map snd rs) ->
  exists c s c' s' sns, loud_connect m version talk cut sched_s sched_c = Ok (Some (c, s)) /\ conveyed m version (h_meta c) /\
    loud_splay legacy slack c s rs = Ok (c', s', sns) /\ Forall2 (sseen_ok slack m) (map snd rs) sns.
Proof. exact loud_ssession. Qed.
Print Assumptions loud_single_session_partial.
Example loud_single_session_nonvacuous : metadata_ok sample_metadata3 3 /\ talker sample_talk /\
  Forall talker (map fst (map (pair sample_talk) sample_srounds)) /\ srounds_ok 0 sample_metadata3 (map snd (map (pair sample_talk) sample_srounds)).
Proof. exact sample_loud3_ok. Qed.

(** C116 violated: a message does not begin a new line.  After text without an end of line (a progress display, a prompt) the
    server reports that the reply was sent, but the client never finds it; a hello message is lost in the same way. *)
Theorem unfinished_line_refuted : exists c s c' s' sn, connect sample_metadata 0 whole_cut [] [] = Ok (Some (c, s)) /\
  loud_round false 0 unfinished_talk c s (nth 0 sample_rounds sample_empty_mask_round) = Ok (c', s', sn) /\
  sn_replied sn = TRAX_OK /\ sn_state sn = TRAX_ERROR /\ sn_result sn = None /\
  loud_connect sample_metadata 0 unfinished_talk whole_cut [] [] = Ok None.
Proof. exact unfinished_lost. Qed.
Print Assumptions unfinished_line_refuted.

(** C116 violated: a byte above 127 in a line of the tracker's own counts as the end of the stream.  The wait for the states
    returns 1, the code TRAX_HELLO, and two invented regions; a connection is refused. *)
Theorem foreign_letter_refuted : exists c s c' s' sn, connect sample_metadata 0 whole_cut [] [] = Ok (Some (c, s)) /\
  loud_round false 0 foreign_talk c s (nth 0 sample_rounds sample_empty_mask_round) = Ok (c', s', sn) /\
  sn_replied sn = TRAX_OK /\ sn_state sn = 1 /\ option_map (map fst) (sn_result sn) = Some [RSpecial 0; RSpecial 0] /\
  loud_connect sample_metadata 0 foreign_talk whole_cut [] [] = Ok None.
Proof. exact foreign_breaks. Qed.
Print Assumptions foreign_letter_refuted.
