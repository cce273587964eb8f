(** C122: a frame counts as a failure exactly when the overlap is at most the threshold. *)
From Verif Require Import CBase Num NumSpec Region RegionSpec RegionGeom GeomSpec ImageSize ImageSizeSpec Cli CliSpec Criterion CriterionSpec CriterionProofs.
Local Open Scope Z_scope.

(** C122, the option -f: a number from 0 to 1 is taken as it is, others become 0 or 1; "nan" means no threshold. *)
Theorem threshold_partial : forall text, let v := float_of_double (atof text) in let t := threshold_option text in
  proper t /\ (v = S754_nan -> t = S754_nan) /\ (v <> S754_nan -> finite_float t /\ 0 <= units t <= 2 ^ 1074) /\ (finite_float v -> 0 <= units v <= 2 ^ 1074 -> t = v).
Proof. exact threshold_ok. Qed.
Print Assumptions threshold_partial.
Example threshold_nonvacuous : threshold_option (str "0.5") = S754_finite false 8388608 (-24) /\ threshold_option (str "-3") = float_0 /\
  threshold_option (str "7") = S754_finite false 8388608 (-23) /\ threshold_option (str "nan") = S754_nan.
Proof. vm_compute. repeat split. Qed.

(** C122, one frame: for masks and integer rectangles with visible boxes at least two pixels wide and high, with default rasterisation.  The frame fails when the index is at most
    the threshold, and when it fails the index is at most the threshold and 2^-25.  Visible are, with bounds, pixels up to column width and row height. *)
Theorem judge_partial : forall f bounded image v g r S1 S2, let s := read_settings f bounded None in visible (s_bounded s) image v -> comparable v g r S1 S2 ->
  exists failed a n, judge s image (Some g) r = Ok failed /\ jaccard v S1 S2 a n /\ 0 < n /\ (at_most (s_threshold s) a n -> failed = true) /\ (failed = true -> near_most (s_threshold s) a n).
Proof. intros f bounded image v g r S1 S2 s. exact (judge_regions s image v g r S1 S2 eq_refl (settings_proper f bounded None)). Qed.
Print Assumptions judge_partial.
Example judge_nonvacuous : visible true (PMemory 10 10) (mkBox 0 0 10 10) /\
  comparable (mkBox 0 0 10 10) (block_at 0 0 8 10) (block_at 5 0 5 10) (block_pixels 0 0 8 10) (block_pixels 5 0 5 10) /\
  jaccard (mkBox 0 0 10 10) (block_pixels 0 0 8 10) (block_pixels 5 0 5 10) 30 100 /\ judge (with_bounds (str "0.28")) (PMemory 10 10) (Some (block_at 0 0 8 10)) (block_at 5 0 5 10) = Ok false /\
  judge (with_bounds (str "0.3")) (PMemory 10 10) (Some (block_at 0 0 8 10)) (block_at 5 0 5 10) = Ok true.
Proof. exact judge_example. Qed.

(** C122, a threshold p / 2^k, as 0, 1/2 or 1/4, decides exactly as long as the regions have fewer than 2^(25-k) pixels. *)
Theorem judge_exact_partial : forall f bounded image v g r S1 S2 a n p k, let s := read_settings f bounded None in visible (s_bounded s) image v -> comparable v g r S1 S2 -> jaccard v S1 S2 a n ->
  is_fraction (s_threshold s) p k -> 0 <= p -> n * 2 ^ k < 2 ^ 25 -> judge s image (Some g) r = Ok (a * 2 ^ k <=? p * n).
Proof. intros f bounded image v g r S1 S2 a n p k s. exact (judge_exact s image v g r S1 S2 a n p k eq_refl (settings_proper f bounded None)). Qed.
Print Assumptions judge_exact_partial.
Example judge_exact_nonvacuous : is_fraction (s_threshold (with_bounds (str "0.25"))) 1 2 /\ is_fraction (s_threshold (with_bounds (str "0"))) 0 0.
Proof. split; (split; [split; [vm_compute; reflexivity|exact Logic.I]|]); (split; [lia|]); vm_compute; reflexivity. Qed.

(** C122, without the option -f no frame fails (judge_nonvacuous meets the hypotheses with bounds "TRUE"). *)
Theorem no_threshold_partial : forall bounded image v g r S1 S2, visible (s_bounded (read_settings None bounded None)) image v -> comparable v g r S1 S2 ->
  judge (read_settings None bounded None) image (Some g) r = Ok false.
Proof. exact judge_without. Qed.
Print Assumptions no_threshold_partial.

(** C122, evaluation: when the tracker answers for every frame and its states can be compared with the ground truth, the trajectory has a 2 for each frame at which the
    running tracker failed, the states where it did not, a 1 where it was started and a 0 where it was not running. *)
Theorem evaluation_judged_partial : forall f bounded frames initialization groundtruth image tracker reinitialize, let s := read_settings f bounded None in
  (frames <= List.length initialization)%nat -> (frames <= List.length groundtruth)%nat -> (forall i, (i < frames)%nat -> exists r, tracker i = State r) ->
  (forall start i, (start <= i < frames)%nat -> assessable s (image start) (init_of groundtruth i) (state_of tracker i)) ->
  exists out t, run_judged s frames initialization groundtruth image tracker reinitialize = Ok (Saved out t) /\ List.length out = frames /\
    judged_run (init_of initialization) (fun _ i r => r = state_of tracker i) (fun start i => lost s (image start) (init_of groundtruth i) (state_of tracker i))
      (fun start i => kept s (image start) (init_of groundtruth i) (state_of tracker i)) reinitialize frames 0 Fresh out.
Proof. exact evaluation_judged. Qed.
Print Assumptions evaluation_judged_partial.
Example evaluation_judged_nonvacuous : (forall start i, (start <= i < 5)%nat -> assessable (with_threshold (str "0.5")) PUrl (init_of drift_truth i) (state_of drift_tracker i)) /\
  run_judged (with_threshold (str "0.5")) 5 drift_truth drift_truth (fun _ => PUrl) drift_tracker 1 =
    Ok (Saved [special 1; Some (block_at 2 0 8 8); special 2; special 0; special 1] 4).
Proof. split; [exact drift_assessable|vm_compute; reflexivity]. Qed.

(** C122 violated: the bounds include one column right of the image and one row below it, so a state that reaches over the edge fails although its index within the image is 0.3. *)
Theorem judge_outside_refuted : jaccard (mkBox 0 0 9 9) (block_pixels 0 0 8 10) (block_pixels 5 0 6 10) 30 100 /\ ~ near_most (s_threshold (with_bounds (str "0.28"))) 30 100 /\
  judge (with_bounds (str "0.28")) (PMemory 10 10) (Some (block_at 0 0 8 10)) (block_at 5 0 6 10) = Ok true.
Proof. exact outside_pixels. Qed.
Print Assumptions judge_outside_refuted.
(** C122 violated: the bounds are those of the image at which the tracker was started.  The tracker reports the reference region in each frame, but fails where it lies outside of the first image. *)
Theorem judge_first_image_refuted : let truth := [Some (block_at 0 0 5 5); Some (block_at 12 12 5 5)] in
  run_judged (with_bounds (str "0.5")) 2 truth truth (fun i => PMemory (10 + 10 * Z.of_nat i) (10 + 10 * Z.of_nat i)) (fun i => State (nth i [block_at 0 0 5 5; block_at 12 12 5 5] (RSpecial 0))) 1 =
    Ok (Saved [special 1; special 2] 2).
Proof. vm_compute. reflexivity. Qed.
Print Assumptions judge_first_image_refuted.
(** C122 violated: with bounds and an image of another format, the reference region itself fails. *)
Theorem judge_unknown_image_refuted : judge (with_bounds (str "0.5")) (PPath (Some (repeat 0%N 100))) (Some (block_at 2 2 5 5)) (block_at 2 2 5 5) = Ok true.
Proof. vm_compute. reflexivity. Qed.
Print Assumptions judge_unknown_image_refuted.
(** C122 violated: regions of one row have overlap 0 with taller regions. *)
Theorem judge_thin_refuted : jaccard (mkBox (- 2 ^ 21) (- 2 ^ 21) (2 ^ 21) (2 ^ 21)) (block_pixels 0 0 10 1) (block_pixels 0 0 10 2) 10 20 /\ ~ near_most (s_threshold (with_threshold (str "0.1"))) 10 20 /\
  judge (with_threshold (str "0.1")) PUrl (Some (block_at 0 0 10 1)) (block_at 0 0 10 2) = Ok true.
Proof. exact thin_pixels. Qed.
Print Assumptions judge_thin_refuted.
(** C122 violated: a tracker that reports by a code that it sees no object, a reference that says so, and masks that are both without pixels give undefined behaviour, even without a threshold. *)
Theorem judge_absent_refuted : let s := read_settings None None None in judge s PUrl (Some (block_at 0 0 5 5)) (RSpecial 0) = UB /\ judge s PUrl (Some (RSpecial 0)) (block_at 0 0 5 5) = UB /\
  judge s PUrl (Some (RMask 0 0 2 2 [0; 0; 0; 0]%N)) (RMask 0 0 2 2 [0; 0; 0; 0]%N) = UB.
Proof. vm_compute. repeat split. Qed.
Print Assumptions judge_absent_refuted.
