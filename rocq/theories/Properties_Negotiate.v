(** Property C121: a tracker gets regions in a format it announced, and at the place the client meant. *)
From Verif Require Import CBase Props PropsSpec Message MessageSpec Num NumSpec Region RegionSpec RegionGeom GeomSpec Image Formats Handle SessionSpec
  HandleProofs SendableProofs NegotiateSpec NegotiateProofs.
Local Open Scope Z_scope.

(** C121, version 4, partial: in a session of any length, whatever formats the tracker announced and whatever formats the
    client's regions are in, every object arrives in an announced format: in its own if that was announced, else as a mask, a
    polygon or a rectangle, in this order, marking the same place.
    Missing: what [presentable] excludes (false, below), and regions with fractional coordinates that have to be converted. *)
Theorem negotiated_session_partial : forall legacy slack m version cut sched_s sched_c rs, metadata_ok m version -> spoken version = 4 -> cutter cut ->
  no_error sched_s -> no_error sched_c -> any_rounds slack m (multi_object m version) 0 rs ->
  exists c s c' s' sns, connect m version cut sched_s sched_c = Ok (Some (c, s)) /\ play legacy slack c s rs = Ok (c', s', sns) /\
    all_any_seen legacy slack m 0 rs sns.
Proof. exact any_session_delivers. Qed.
Print Assumptions negotiated_session_partial.
(** A session of a client with masks and rectangles, for trackers that announced any set of formats. *)
Example negotiated_session_nonvacuous : forall z, (exists f, announces z f = true) ->
  metadata_ok (tracker_for z) 4 /\ multi_object (tracker_for z) 4 = true /\ any_rounds 0 (tracker_for z) true 0 sample_any.
Proof. intros z Hz. split; [apply tracker_for_ok; lia|]. split; [reflexivity|now apply sample_any_ok]. Qed.

(** C121, versions 1 to 3, partial in the same way *)
Theorem negotiated_single_session_partial : forall legacy slack m version cut sched_s sched_c rs, metadata_ok m version -> spoken version <> 4 ->
  (spoken version = 1 -> md_channels m = TRAX_CHANNEL_COLOR) -> cutter cut ->
  no_error sched_s -> no_error sched_c -> any_srounds slack m rs ->
  exists c s c' s' sns, connect m version cut sched_s sched_c = Ok (Some (c, s)) /\ splay legacy slack c s rs = Ok (c', s', sns) /\
    Forall2 (any_sseen legacy slack m) rs sns.
Proof. exact any_ssession_delivers. Qed.
Print Assumptions negotiated_single_session_partial.
(** The tracker for rectangles is given a mask and a polygon. *)
Example negotiated_single_session_nonvacuous : metadata_ok (tracker_for 2) 3 /\ any_srounds 0 (tracker_for 2) sample_any_single.
Proof. split; [apply tracker_for_ok; lia|exact sample_any_single_ok]. Qed.

(** C121 violated for polygons and trackers that announced masks: the square with the corners (0, 0) and (4, 4) arrives as a
    mask whose only set pixels are in row 4. *)
Theorem polygon_to_mask_refuted : exists c s c' s' sn data p, connect (tracker_for 8) 4 whole_cut [] [] = Ok (Some (c, s)) /\
  play_round false 0 c s (present [square]) = Ok (c', s', sn) /\ sn_sent sn = TRAX_OK /\ sn_objects sn = Some [(RMask 0 4 4 4 data, p)] /\
  data = [1; 1; 1; 1; 0; 0; 0; 0; 0; 0; 0; 0; 0; 0; 0; 0]%N.
Proof. do 7 eexists. split; [vm_compute; reflexivity|]. split; [vm_compute; reflexivity|]. split; [reflexivity|]. split; [reflexivity|]. reflexivity. Qed.
Print Assumptions polygon_to_mask_refuted.
(** The square further right, from (5, 0) to (9, 4): the client's call succeeds, and the tracker aborts. *)
Theorem polygon_to_mask_abort_refuted : exists c s c1, connect (tracker_for 8) 4 whole_cut [] [] = Ok (Some (c, s)) /\
  client_initialize false c one_picture [(distant_square, props_create)] None = Ok (TRAX_OK, c1) /\
  server_wait_mot 4 0 (arrive whole_cut (written c c1) s) None (Some props_create) = Abort.
Proof. do 3 eexists. split; [vm_compute; reflexivity|]. split; [vm_compute; reflexivity|]. vm_compute. reflexivity. Qed.
Print Assumptions polygon_to_mask_abort_refuted.
(** C121 violated for polygons left of and above the origin: the triangle whose points are between (-5, -5) and (-3, -2)
    arrives as a rectangle at (-5, -5) with sides of length 5. *)
Theorem polygon_to_rectangle_refuted : exists c s c' s' sn p, connect (tracker_for 2) 4 whole_cut [] [] = Ok (Some (c, s)) /\
  play_round false 0 c s (present [negative_triangle]) = Ok (c', s', sn) /\ sn_sent sn = TRAX_OK /\
  sn_objects sn = Some [(whole_rect (-5) (-5) 5 5, p)].
Proof. do 6 eexists. split; [vm_compute; reflexivity|]. split; [vm_compute; reflexivity|]. split; [reflexivity|]. vm_compute. reflexivity. Qed.
Print Assumptions polygon_to_rectangle_refuted.
(** C121 violated for polygons with two points: a tracker that announced only polygons gets a rectangle. *)
Theorem announced_format_refuted : exists c s c' s' sn r p, connect (tracker_for 4) 4 whole_cut [] [] = Ok (Some (c, s)) /\
  play_round false 0 c s (present [segment]) = Ok (c', s', sn) /\ sn_sent sn = TRAX_OK /\ sn_objects sn = Some [(r, p)] /\ ~ acceptable 4 r.
Proof.
  do 7 eexists. split; [vm_compute; reflexivity|]. split; [vm_compute; reflexivity|]. split; [reflexivity|]. split; [reflexivity|].
  intros ([| |] & A & B); vm_compute in A, B; first [discriminate A|contradiction B].
Qed.
Print Assumptions announced_format_refuted.
(** C121 violated: a client aborts when it is given an object without a place, or when the tracker announced no format. *)
Theorem no_format_refuted : exists c s c0 s0, connect (tracker_for 14) 4 whole_cut [] [] = Ok (Some (c, s)) /\
  client_initialize false c one_picture [(RSpecial 1, props_create)] None = Abort /\
  connect (tracker_for 0) 4 whole_cut [] [] = Ok (Some (c0, s0)) /\
  client_initialize false c0 one_picture [(square, props_create)] None = Abort.
Proof. do 4 eexists. split; [vm_compute; reflexivity|]. split; [vm_compute; reflexivity|]. split; [vm_compute; reflexivity|]. vm_compute. reflexivity. Qed.
Print Assumptions no_format_refuted.
