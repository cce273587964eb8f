(** Properties C48 and C58 to C62: the evaluation done by the command-line client, trajectory files, image lists, images of a frame,
    image sizes. *)
From Verif Require Import CBase Num Region RegionSpec Image Formats Handle SessionSpec Cli CliSpec CliProofs TrajectoryProofs ImageSize ImageSizeSpec ImageSizeProofs.
Local Open Scope Z_scope.

(** C48, partial: the run ends, and when the tracker gives a state for every frame the trajectory has one entry for every frame, the
    one that the frame's phase asks for.
    Missing: trackers that quit or fail, and initialization files that are too short (false, below). *)
Theorem evaluation_partial : forall frames initialization fails tracker reinitialize, (frames <= List.length initialization)%nat ->
  (forall f, (f < frames)%nat -> exists r, tracker f = State r) ->
  exists out t, run_client frames initialization fails tracker reinitialize = Ok (Saved out t) /\ List.length out = frames /\
    out = map fst (expected (init_of initialization) fails (state_of tracker) reinitialize frames 0 Start).
Proof.
  intros frames initialization fails tracker reinitialize L T. destruct (client_ok frames initialization fails tracker reinitialize L) as (v & E & V). destruct v as [out t|].
  - destruct V as (-> & ->). eexists _, _. split; [exact E|]. split; [|reflexivity]. rewrite map_length. apply expected_length.
  - destruct V as (f & F & N). destruct (T f F) as (r & R). now apply N in R.
Qed.
Print Assumptions evaluation_partial.
(** Whatever the tracker does, the run ends, and without a trajectory only if the tracker gave no state for some frame. *)
Theorem evaluation_ends_partial : forall frames initialization fails tracker reinitialize, (frames <= List.length initialization)%nat ->
  exists v, run_client frames initialization fails tracker reinitialize = Ok v /\
    match v with Saved out _ => List.length out = frames | Threw => exists f, (f < frames)%nat /\ forall r, tracker f <> State r end.
Proof.
  intros frames initialization fails tracker reinitialize L. destruct (client_ok frames initialization fails tracker reinitialize L) as (v & E & V). exists v. split; [exact E|].
  destruct v as [out t|]; [|exact V]. destruct V as (-> & _). rewrite map_length. apply expected_length.
Qed.
Print Assumptions evaluation_ends_partial.
Definition spot (z : Z) : region := RRect (float_of_int z) (float_of_int z) (float_of_int 2) (float_of_int 2).
Definition eight_frames : list (option region) := None :: repeat (Some (spot 1)) 7.
(** frame 3 fails, two frames rest *)
Example evaluation_nonvacuous :
  run_client 8 eight_frames (fun f _ => Nat.eqb f 3) (fun f => State (spot (Z.of_nat f))) 3 =
    Ok (Saved [special 0; special 1; Some (spot 2); special 2; special 0; special 0; special 1; Some (spot 7)] 7).
Proof. vm_compute. reflexivity. Qed.
(** the tracker is not started again *)
Example evaluation_nonvacuous_2 :
  run_client 5 eight_frames (fun f _ => Nat.eqb f 3) (fun f => State (spot (Z.of_nat f))) 0 = Ok (Saved [special 0; special 1; Some (spot 2); special 2; special 0] 4).
Proof. vm_compute. reflexivity. Qed.
(** C48 violated: when the tracker quits, even for the last frame, nothing is saved. *)
Theorem evaluation_quit_refuted :
  run_client 8 eight_frames (fun _ _ => false) (fun f => if Nat.eqb f 7 then Quits else State (spot 1)) 0 = Ok Threw.
Proof. vm_compute. reflexivity. Qed.
Print Assumptions evaluation_quit_refuted.
(** C48 violated: an initialization file with fewer lines than the sequence has frames is read outside of its bounds. *)
Theorem evaluation_init_refuted :
  client_main (repeat [str "a.jpg"; []; []] 3) (repeat (Some (spot 1)) 3) (Some [None]) (fun _ _ => false) (fun _ => State (spot 1)) 0 = UB.
Proof. vm_compute. reflexivity. Qed.
Print Assumptions evaluation_init_refuted.
(** With the ground truth as initialization this does not happen. *)
Theorem evaluation_groundtruth_partial : forall images groundtruth fails tracker reinitialize,
  exists v, client_main images groundtruth None fails tracker reinitialize = Ok v /\
    match v with Saved out _ => List.length out = Nat.min (List.length images) (List.length groundtruth) | Threw => exists f r, nth_error groundtruth f = Some r /\ forall s, tracker f <> State s end.
Proof.
  intros images groundtruth fails tracker reinitialize. unfold client_main. set (n := Nat.min _ _). cbv zeta.
  destruct (evaluation_ends_partial n (firstn n groundtruth) fails tracker reinitialize) as (v & E & V); [rewrite firstn_length; unfold n; lia|].
  exists v. split; [exact E|]. destruct v; [exact V|]. destruct V as (f & F & N). destruct (nth_error groundtruth f) as [r|] eqn:G; [now exists f, r|].
  apply nth_error_None in G. unfold n in F. lia.
Qed.
Print Assumptions evaluation_groundtruth_partial.
Example evaluation_groundtruth_nonvacuous :
  client_main (repeat [str "a.jpg"; []; []] 4) eight_frames None (fun _ _ => false) (fun _ => State (spot 1)) 0 = Ok (Saved [special 0; special 1; Some (spot 1); Some (spot 1)] 3).
Proof. vm_compute. reflexivity. Qed.

(** C60, partial: one timing is recorded for each entry that is not skipped for want of an initialization.
    Missing: the skipped frames (false, below). *)
Theorem timings_partial : forall frames initialization fails tracker reinitialize out t, (frames <= List.length initialization)%nat ->
  run_client frames initialization fails tracker reinitialize = Ok (Saved out t) ->
  t = count_true (map snd (expected (init_of initialization) fails (state_of tracker) reinitialize frames 0 Start)).
Proof.
  intros frames initialization fails tracker reinitialize out t L E. destruct (client_ok frames initialization fails tracker reinitialize L) as (v & E' & V). rewrite E in E'. injection E' as <-. apply V.
Qed.
Print Assumptions timings_partial.
(** C60, partial: a timing for every frame when each frame has an initialization. *)
Theorem timings_complete_partial : forall frames initialization fails tracker reinitialize out t, (frames <= List.length initialization)%nat ->
  (forall f, (f < frames)%nat -> exists r, nth_error initialization f = Some (Some r)) ->
  run_client frames initialization fails tracker reinitialize = Ok (Saved out t) -> t = frames.
Proof. exact timings_complete. Qed.
Print Assumptions timings_complete_partial.
Example timings_nonvacuous : run_client 4 (repeat (Some (spot 1)) 4) (fun f _ => Nat.eqb f 1) (fun _ => State (spot 1)) 1 = Ok (Saved [special 1; special 2; special 1; Some (spot 1)] 4).
Proof. vm_compute. reflexivity. Qed.
(** C60 violated: eight entries, seven timings. *)
Theorem timings_refuted : exists out, run_client 8 eight_frames (fun _ _ => false) (fun _ => State (spot 1)) 0 = Ok (Saved out 7) /\ List.length out = 8%nat.
Proof. eexists. split; [vm_compute; reflexivity|]. vm_compute. reflexivity. Qed.
Print Assumptions timings_refuted.

(** C58: a saved trajectory is read back: as many entries, each of them what its text stands for (C24 to C26), empty ones empty. *)
Theorem trajectory_saved : forall rs, Forall (fun r => match r with Some r => exists r', region_arrives r r' | None => True end) rs ->
  exists file rs', save_trajectory rs = Ok file /\ load_trajectory file = Ok rs' /\ Forall2 entry_arrives rs rs'.
Proof. exact trajectory_round_trip. Qed.
Print Assumptions trajectory_saved.
Example trajectory_saved_nonvacuous : exists file, save_trajectory [special 1; None; Some (spot 3)] = Ok file /\ load_trajectory file = Ok [special 1; None; Some (spot 3)].
Proof. eexists. split; [vm_compute; reflexivity|]. vm_compute. reflexivity. Qed.
(** C58: a file is read line by line, with either kind of line end and with or without one after the last line. *)
Theorem trajectory_lines : forall ls rs last, Forall2 (fun l r => line_reads (fst l) r) ls rs -> one_line last -> (last <> [] -> exists r, line_reads last r) ->
  exists tail, load_trajectory (concat (map (fun l => fst l ++ line_end (snd l)) ls) ++ last) = Ok (rs ++ tail) /\
    match last with [] => tail = [] | _ => exists r, tail = [r] /\ line_reads last r end.
Proof. exact load_file. Qed.
Print Assumptions trajectory_lines.
Example trajectory_lines_nonvacuous : load_trajectory (str "1,1,2,2" ++ [13; 10]%N ++ [10]%N ++ str "2,2,2,2") = Ok [Some (spot 1); None; Some (spot 2)].
Proof. vm_compute. reflexivity. Qed.
(** C58: saving what was read gives the same file, if each region has the same text again. *)
Theorem trajectory_saved_again : forall rs rs' file,
  Forall2 (fun a b => entry_arrives a b /\ match a, b with Some r, Some r' => region_string r' = region_string r | _, _ => True end) rs rs' ->
  save_trajectory rs = Ok file -> save_trajectory rs' = Ok file.
Proof. exact saved_again. Qed.
Print Assumptions trajectory_saved_again.
Example trajectory_saved_again_nonvacuous : region_arrives (spot 3) (spot 3).
Proof. eexists. split; [vm_compute; reflexivity|]. split; [vm_compute; reflexivity|exact I]. Qed.

(** C59, partial: a frame carries one image for every announced channel, from the path of the channel and in an announced format,
    if the numbers of the two announced sets agree in their last three bits and color is announced.
    Missing: all other combinations (false, below): the call passes the two sets in the wrong order. *)
Theorem frame_channels_partial : forall paths channels formats, (3 <= List.length paths)%nat -> Z.land formats 7 = channels -> Z.odd channels = true ->
  exists l, frame_images paths channels formats = Ok (Some l) /\ right_images paths channels formats l.
Proof. exact frame_images_right. Qed.
Print Assumptions frame_channels_partial.
Example frame_channels_nonvacuous : frame_images [str "c"; str "d"; str "i"] TRAX_CHANNEL_COLOR TRAX_IMAGE_PATH = Ok (Some [mkLoaded TRAX_CHANNEL_COLOR TRAX_IMAGE_PATH (str "c")]).
Proof. vm_compute. reflexivity. Qed.
(** C59, partial: the function itself is right, whatever is announced, if its arguments are given in the order it expects. *)
Theorem load_channels_partial : forall paths channels formats f, (3 <= List.length paths)%nat -> load_format formats = Some f ->
  exists l, load_images paths channels formats = Ok (Some l) /\ right_images paths channels formats l.
Proof. exact load_images_right. Qed.
Print Assumptions load_channels_partial.
Example load_channels_nonvacuous : option_map (map l_path) (match load_images [str "c"; str "d"; str "i"] 5 TRAX_IMAGE_BUFFER with Ok l => l | _ => None end) = Some [str "c"; str "i"].
Proof. vm_compute. reflexivity. Qed.
(** C59 violated: the depth image of a tracker that wants color and depth by path is never sent. *)
Theorem frame_depth_refuted : forall c d i, frame_images [c; d; i] (TRAX_CHANNEL_COLOR + TRAX_CHANNEL_DEPTH) TRAX_IMAGE_PATH = Ok (Some [mkLoaded TRAX_CHANNEL_COLOR TRAX_IMAGE_PATH c]).
Proof. reflexivity. Qed.
Print Assumptions frame_depth_refuted.
(** C59 violated: no image is sent to a tracker that wants color images as buffers. *)
Theorem frame_buffer_refuted : forall c d i, frame_images [c; d; i] TRAX_CHANNEL_COLOR TRAX_IMAGE_BUFFER = Ok (Some []).
Proof. reflexivity. Qed.
Print Assumptions frame_buffer_refuted.
(** C59 violated: the run fails for a tracker that wants only depth images, by path. *)
Theorem frame_depth_only_refuted : forall c d i, frame_images [c; d; i] TRAX_CHANNEL_DEPTH TRAX_IMAGE_PATH = Ok None.
Proof. reflexivity. Qed.
Print Assumptions frame_depth_only_refuted.

(** C61, partial: the size in the header of a PNG file, a GIF file or a JFIF file is found, whatever segments come before the frame
    header of the latter.
    Missing: other JPEG files, JPEG data in buffers, short buffers, URLs (false, below). *)
Theorem png_size_partial : forall w h rest, 0 <= w <= INT_MAX -> 0 <= h <= INT_MAX ->
  image_get_size (PPath (Some (png_file w h rest))) = Ok (w, h) /\ image_get_size (PBuffer (png_file w h rest)) = Ok (w, h).
Proof. exact png_size. Qed.
Print Assumptions png_size_partial.
Example png_size_nonvacuous : image_get_size (PPath (Some (png_file 640 480 []))) = Ok (640, 480).
Proof. vm_compute. reflexivity. Qed.
Theorem gif_size_partial : forall version w h rest, List.length version = 3%nat -> 0 <= w < 65536 -> 0 <= h < 65536 -> (14 <= List.length rest)%nat ->
  image_get_size (PPath (Some (gif_file version w h rest))) = Ok (w, h) /\ image_get_size (PBuffer (gif_file version w h rest)) = Ok (w, h).
Proof. exact gif_size. Qed.
Print Assumptions gif_size_partial.
Example gif_size_nonvacuous : image_get_size (PBuffer (gif_file (str "89a") 640 480 (repeat 0%N 14))) = Ok (640, 480).
Proof. vm_compute. reflexivity. Qed.
Theorem jpeg_size_partial : forall jfif segments marker len precision w h rest, (2 <= List.length jfif)%nat -> Z.of_nat (List.length jfif) < 65530 -> Forall segment_ok segments ->
  In marker frame_markers -> (3 <= List.length rest)%nat -> 0 <= w < 65536 -> 0 <= h < 65536 ->
  image_get_size (PPath (Some (jpeg_file jfif segments marker len precision w h rest))) = Ok (w, h).
Proof. exact jpeg_size. Qed.
Print Assumptions jpeg_size_partial.
Definition sample_jpeg : list N := jpeg_file (0 :: repeat 1 9)%N [(219, repeat 7%N 65); (254, str "comment")] 192 17 8 640 480 (repeat 3%N 30).
Example jpeg_size_nonvacuous : image_get_size (PPath (Some sample_jpeg)) = Ok (640, 480).
Proof. vm_compute. reflexivity. Qed.
(** C61 violated: a frame header with marker 197 (differential coding) is passed over, and no size found. *)
Theorem jpeg_frame_refuted : image_get_size (PPath (Some (jpeg_file (0 :: repeat 1 9)%N [] 197 17 8 640 480 (repeat 3%N 30)))) = Ok (-1, -1).
Proof. vm_compute. reflexivity. Qed.
Print Assumptions jpeg_frame_refuted.
(** C61 violated: the same image as a buffer. *)
Theorem jpeg_buffer_refuted : image_get_size (PBuffer sample_jpeg) = Ok (17920, 17993).
Proof. vm_compute. reflexivity. Qed.
Print Assumptions jpeg_buffer_refuted.
(** C61 violated: a JPEG file that begins with an Exif segment. *)
Theorem jpeg_exif_refuted : forall rest, image_get_size (PPath (Some ([255; 216]%N ++ segment 225 (str "Exif" ++ repeat 0%N 20) ++ rest))) = Ok (26112, 30825).
Proof. exact exif_size. Qed.
Print Assumptions jpeg_exif_refuted.
(** C61 violated: for short buffers and for URLs the result is not set at all. *)
Theorem size_unset_refuted : (forall data, (List.length data < 24)%nat -> image_get_size (PBuffer data) = UB) /\ image_get_size PUrl = UB.
Proof. split; [|reflexivity]. intros data H. cbn [image_get_size]. apply Nat.ltb_lt in H. now rewrite H. Qed.
Print Assumptions size_unset_refuted.

(** C62, partial: each line of an image list gives the paths of the channels.
    Missing: a last line without line end and files with two-byte line ends (false, below). *)
Theorem image_list_partial : forall ls, Forall (fun l => l <> [] /\ Forall path_ok l) ls ->
  read_images (concat (map (fun l => join_paths l ++ [10%N]) ls)) = map channels_of ls.
Proof. intros ls H. rewrite <- (images_read ls [] H) by (intros []). now rewrite app_nil_r. Qed.
Print Assumptions image_list_partial.
Example image_list_nonvacuous :
  read_images (str "a.jpg;a.png" ++ [10%N] ++ str "b.jpg" ++ [10%N]) = [[str "a.jpg"; str "a.png"; []]; [str "b.jpg"; []; []]].
Proof. vm_compute. reflexivity. Qed.
(** C62 violated: a last line without a line end is dropped. *)
Theorem image_list_last_refuted : forall ls last, Forall (fun l => l <> [] /\ Forall path_ok l) ls -> ~ In 10%N last ->
  read_images (concat (map (fun l => join_paths l ++ [10%N]) ls) ++ last) = map channels_of ls.
Proof. exact images_read. Qed.
Print Assumptions image_list_last_refuted.
(** C62 violated: a carriage return stays in the path. *)
Theorem image_list_crlf_refuted : read_images (str "a.jpg" ++ [13; 10]%N) = [[str "a.jpg" ++ [13%N]; []; []]].
Proof. vm_compute. reflexivity. Qed.
Print Assumptions image_list_crlf_refuted.
