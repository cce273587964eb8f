(** Properties C35, C36 and C40: the handshake and whole sessions. *)
From Verif Require Import CBase Props PropsSpec Message MessageSpec NumSpec Region RegionSpec Image Formats Handle SessionSpec
  HandleProofs SessionProofs HandshakeProofs SendableProofs.
Local Open Scope Z_scope.

(** C35, partial: version, formats, channels, texts and custom properties reach the client, however the bytes are cut up.
    Missing: custom properties with the reserved prefix, and other channels in version 1 (false, below). *)
Theorem handshake_partial : forall m version cut sched_s sched_c, metadata_ok m version -> cutter cut -> no_error sched_s -> no_error sched_c ->
  exists c s, connect m version cut sched_s sched_c = Ok (Some (c, s)) /\
    h_version c = spoken version /\ h_version s = spoken version /\ conveyed m version (h_meta c).
Proof. exact handshake_conveys. Qed.
Print Assumptions handshake_partial.

Example handshake_nonvacuous : metadata_ok sample_metadata 0 /\ cutter byte_cut /\ spoken 0 = 4 /\ multi_object sample_metadata 0 = true.
Proof. exact (conj sample_metadata_ok (conj byte_cutter (conj eq_refl eq_refl))). Qed.

(** C35 violated: in version 1 the client does not learn of the second channel although it is announced, and a custom
    property trax.description turns up as the description of a tracker that has none. *)
Theorem handshake_refuted : exists c s, connect sample_metadata1 1 whole_cut [] [] = Ok (Some (c, s)) /\
  md_channels sample_metadata1 = 3 /\ md_channels (h_meta s) = 3 /\ md_channels (h_meta c) = 1 /\
  md_description sample_metadata1 = None /\ md_description (h_meta c) = Some (str "x").
Proof. eexists. eexists. split; [vm_compute; reflexivity|]. repeat match goal with |- _ /\ _ => split end; reflexivity. Qed.
Print Assumptions handshake_refuted.

(** C36 and C40, version 4, partial: from the hello message on, every round of a session of any length delivers the images,
    objects and properties of the client and the states of the server; both sides then agree on the number of objects.
    Missing: regions and images outside [region_arrives] and [image_arrives] (false, below). *)
Theorem session_partial : forall legacy slack m version cut sched_s sched_c rs, metadata_ok m version -> spoken version = 4 -> cutter cut ->
  no_error sched_s -> no_error sched_c -> rounds_ok slack m (multi_object m version) 0 rs ->
  exists c s c' s' sns, connect m version cut sched_s sched_c = Ok (Some (c, s)) /\ play legacy slack c s rs = Ok (c', s', sns) /\
    all_seen slack m 0 rs sns /\ h_objects c' = Z.of_nat (tracked_all 0 rs) /\ h_objects s' = Z.of_nat (tracked_all 0 rs).
Proof. exact session_delivers. Qed.
Print Assumptions session_partial.

Example session_nonvacuous : metadata_ok sample_metadata 0 /\ rounds_ok 0 sample_metadata (multi_object sample_metadata 0) 0 sample_rounds /\
  tracked_all 0 sample_rounds = 3%nat.
Proof. exact (conj sample_metadata_ok (conj sample_rounds_ok eq_refl)). Qed.

(** C36, versions 1 to 3 *)
Theorem single_object_session_partial : forall legacy slack m version cut sched_s sched_c rs, metadata_ok m version -> spoken version <> 4 ->
  (spoken version = 1 -> md_channels m = TRAX_CHANNEL_COLOR) -> cutter cut ->
  no_error sched_s -> no_error sched_c -> srounds_ok slack m rs ->
  exists c s c' s' sns, connect m version cut sched_s sched_c = Ok (Some (c, s)) /\ splay legacy slack c s rs = Ok (c', s', sns) /\
    Forall2 (sseen_ok slack m) rs sns.
Proof. exact ssession_delivers. Qed.
Print Assumptions single_object_session_partial.

Example single_object_session_nonvacuous : metadata_ok sample_metadata3 3 /\ srounds_ok 0 sample_metadata3 sample_srounds.
Proof. exact (conj sample_metadata3_ok sample_srounds_ok). Qed.

(** C36: what may be sent includes every finite rectangle and polygon, every mask of moderate size with a foreground pixel,
    small special codes and every path. *)
Theorem rectangles_arrive : forall x y w h, finite_float x -> finite_float y -> finite_float w -> finite_float h ->
  exists x' y' w' h', region_arrives (RRect x y w h) (RRect x' y' w' h') /\ coord_close x' x /\ coord_close y' y /\ coord_close w' w /\ coord_close h' h.
Proof. exact rect_arrives. Qed.
Print Assumptions rectangles_arrive.
Theorem polygons_arrive : forall pts, (3 <= List.length pts)%nat -> Forall point_finite pts ->
  exists pts', region_arrives (RPoly pts) (RPoly pts') /\ Forall2 point_close pts' pts.
Proof. exact poly_arrives. Qed.
Print Assumptions polygons_arrive.
Theorem masks_arrive : forall x y w h data, exact_int x -> exact_int y -> exact_int w -> exact_int h -> 0 < w -> 0 < h ->
  in_int (w * h) = true -> Z.of_nat (List.length data) = w * h ->
  (exists d, In d data /\ d <> 0%N) -> short_runs (2 ^ 24) (foreground data) ->
  exists data', region_arrives (RMask x y w h data) (RMask x y w h data') /\ foreground data' = foreground data.
Proof. exact mask_arrives. Qed.
Print Assumptions masks_arrive.
Theorem specials_arrive : forall c, exact_int c -> region_arrives (RSpecial c) (RSpecial c).
Proof. exact special_arrives. Qed.
Print Assumptions specials_arrive.
Theorem paths_arrive : forall slack p img, text_ok p = true -> image_create_path p = Ok img ->
  exists img', image_arrives slack img img' /\ i_type img' = TRAX_IMAGE_PATH /\ image_get_path img' = Ok p.
Proof. exact path_arrives. Qed.
Print Assumptions paths_arrive.

(** C36 violated: a mask without a foreground pixel, in a session of a tracker for masks, makes the server's process abort. *)
Theorem session_refuted : exists c s, connect sample_mask_metadata 4 whole_cut [] [] = Ok (Some (c, s)) /\
  play_round false 0 c s sample_empty_mask_round = Abort.
Proof. eexists. eexists. split; [vm_compute; reflexivity|]. vm_compute. reflexivity. Qed.
Print Assumptions session_refuted.
