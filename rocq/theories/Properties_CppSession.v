(** Property C110: sessions with the C++ classes *)
From Verif Require Import CBase Props PropsSpec Message MessageSpec Formats Region Handle SessionSpec SendableProofs CppSession CppSessionSpec CppSessionProofs.
Local Open Scope Z_scope.

(** C110, apart from the properties of replies: whatever a C++ client gives to initialize and frame (images, region, properties) is what the wait of the
    C++ server returns, and the region the server replies with is what the wait of the client returns, round after round, however the bytes are cut. *)
Theorem cpp_session_partial : forall legacy slack m version cut sched_s sched_c rs, metadata_ok m version -> spoken version = 4 -> cutter cut ->
  no_error sched_s -> no_error sched_c -> crounds_ok slack m rs ->
  exists c s c' s' sns, connect m version cut sched_s sched_c = Ok (Some (c, s)) /\ cpp_play false legacy slack c s rs = Ok (c', s', sns) /\
    Forall2 (cseen_ok slack m) rs sns.
Proof.
  intros legacy slack m version cut a b rs Hm Hv Hc Ha Hb Hr. destruct (cpp_delivers legacy slack m version cut a b rs Hm Hv Hc Ha Hb Hr) as (c & s & c' & s' & sns & E & P & F & _).
  exact (ex_intro _ c (ex_intro _ s (ex_intro _ c' (ex_intro _ s' (ex_intro _ sns (conj E (conj P F))))))).
Qed.
Print Assumptions cpp_session_partial.

Example cpp_session_nonvacuous : metadata_ok sample_metadata 0 /\ spoken 0 = 4 /\ crounds_ok 0 sample_metadata sample_crounds.
Proof. exact (conj sample_metadata_ok (conj eq_refl (sample_crounds_ok sample_metadata eq_refl eq_refl eq_refl))). Qed.

(** C110 with the class for one object (ServerSOT, versions 1 to 3): also the properties of replies arrive. *)
Theorem cpp_single_session_partial : forall legacy slack m version cut sched_s sched_c rs, metadata_ok m version -> spoken version <> 4 ->
  (spoken version = 1 -> md_channels m = TRAX_CHANNEL_COLOR) -> cutter cut -> no_error sched_s -> no_error sched_c -> crounds_ok slack m rs ->
  exists c s c' s' sns, connect m version cut sched_s sched_c = Ok (Some (c, s)) /\ cpp_play true legacy slack c s rs = Ok (c', s', sns) /\
    Forall2 (fun r sn => cseen_ok slack m r sn /\ answered_props r sn) rs sns.
Proof. exact cpp_sot_delivers. Qed.
Print Assumptions cpp_single_session_partial.

Example cpp_single_session_nonvacuous : metadata_ok sample_metadata3 3 /\ spoken 3 <> 4 /\ crounds_ok 0 sample_metadata3 sample_crounds.
Proof. split; [exact sample_metadata3_ok|]. split; [discriminate|]. exact (sample_crounds_ok sample_metadata3 eq_refl eq_refl eq_refl). Qed.

(** C110 violated: the properties given to the reply of ServerMOT, the class named Server, are never sent: the reply is the one without properties ... *)
Theorem cpp_reply_properties_dropped : forall h r p, cpp_reply h r p = obind (cpp_reply h r props_create) (fun x => Ok (fst x, p)).
Proof. exact reply_drops. Qed.
Print Assumptions cpp_reply_properties_dropped.
(** ... so in a session where everything else arrives they do not. *)
Theorem cpp_reply_properties_refuted : exists c s c' s' sns, connect sample_metadata 0 byte_cut [] [] = Ok (Some (c, s)) /\
  cpp_play false false 0 c s sample_crounds = Ok (c', s', sns) /\ Forall2 (cseen_ok 0 sample_metadata) sample_crounds sns /\ ~ Forall2 answered_props sample_crounds sns.
Proof. exact reply_props_lost. Qed.
Print Assumptions cpp_reply_properties_refuted.
