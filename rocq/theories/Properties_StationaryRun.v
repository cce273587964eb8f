(** C123: under the failure criterion, the stationary tracker fails exactly where the object has left the region at which it was started. *)
From Verif Require Import CBase Props PropsSpec Message MessageSpec Num NumSpec Region RegionSpec RegionGeom GeomSpec Image ImageSize Formats Handle SessionSpec SendableProofs Static StaticSpec Cli CliSpec Evaluate EvaluateSpec EvaluateProofs
  Criterion CriterionSpec CriterionProofs StationaryRunSpec StationaryRunProofs.
Local Open Scope Z_scope.

(** C123, partial: from the texts of the two input files and of the option -f to the text of the trajectory file, however the bytes between client and tracker are cut.  The criterion is
    defined for all states that occur.  In the file, a frame is 1 where the tracker was started; 2 where the overlap of its ground truth with that of the frame at which the running
    tracker was started is at most the threshold (left_start: at most the threshold and 2^-25; near_start: more than the threshold); 0 where no tracker runs; and else the
    region of the starting frame, exactly.
    Missing: ground truth that is not a mask or a rectangle with integer sides, or that is flat (false, below); bounds of the images; legacy rasterisation. *)
Theorem stationary_judged_partial : forall legacy slack depth ir net f_option k properties lines texts rs fails, let s := read_settings f_option None None in let n := Nat.min (List.length lines) (List.length rs) in
  (forall f, network_ok (net f)) -> Forall (line_ok depth ir) lines ->
  Forall2 (fun l r => line_reads (fst l) r) texts rs -> lines <> [] -> rs <> [] -> Forall (fun r => match r with Some r => steady r | None => True end) rs ->
  clean properties -> props_get properties (str "time_wait") <> Ok (Some []) -> criterion_of s rs n fails -> comparable_truth s rs n ->
  exists file out, traxclient legacy slack depth ir net fails k properties (concat (map (fun l => join_paths l ++ [10%N]) lines)) (concat (map (fun l => fst l ++ line_end (snd l)) texts)) = Ok (Some file) /\
    load_trajectory file = Ok out /\ List.length out = n /\
    (forall start i g r, (start <= i < n)%nat -> init_of rs start = Some g -> same_region g r -> exists b, judge s PUrl (init_of rs i) r = Ok b) /\
    judged_run (init_of rs) (fun start _ r => start_region rs start r) (left_start s rs) (near_start s rs) k n 0 Fresh out.
Proof. exact stationary_judged. Qed.
Print Assumptions stationary_judged_partial.
Example stationary_judged_nonvacuous : Forall2 (fun l r => line_reads (fst l) r) moving_texts moving_truth /\ Forall (fun r => match r with Some r => steady r | None => True end) moving_truth /\
  (let s := with_threshold (str "0.5") in criterion_of s moving_truth 4 (real_criterion s moving_truth) /\ comparable_truth s moving_truth 4) /\
  (forall f, network_ok (sample_net f)) /\ Forall (line_ok true false) sample_lines.
Proof.
  split; [exact moving_reads|]. split; [exact moving_steady|]. split; [split; [exact (real_criterion_ok _ _ _)|exact moving_comparable]|]. split; [exact sample_net_ok|exact sample_lines_ok].
Qed.
(** the object is still there in the second frame and gone in the third; the tracker is started again in the fourth *)
Example stationary_judged_nonvacuous_2 : traxclient false 0 true false sample_net (real_criterion (with_threshold (str "0.5")) moving_truth) 1 props_create
    (concat (map (fun l => join_paths l ++ [10%N]) sample_lines)) (concat (map (fun l => fst l ++ line_end (snd l)) moving_texts)) =
  Ok (Some (concat (map (fun t => t ++ [10%N]) [str "1"; str "0.0000,0.0000,8.0000,8.0000"; str "2"; str "1"]))).
Proof. vm_compute. reflexivity. Qed.

(** C123 violated for flat objects: half of the pixels are the same and the threshold is 0.1, but the second frame counts as a failure. *)
Theorem stationary_flat_refuted : traxclient false 0 true false sample_net (real_criterion (with_threshold (str "0.1")) flat_truth) 1 props_create
    (concat (map (fun l => join_paths l ++ [10%N]) sample_lines)) (concat (map (fun l => fst l ++ line_end (snd l)) flat_texts)) =
    Ok (Some (concat (map (fun t => t ++ [10%N]) [str "1"; str "2"]))) /\
  jaccard (mkBox (- 2 ^ 21) (- 2 ^ 21) (2 ^ 21) (2 ^ 21)) (block_pixels 0 0 10 1) (block_pixels 0 0 10 2) 10 20 /\ ~ near_most (s_threshold (with_threshold (str "0.1"))) 10 20.
Proof. split; [vm_compute; reflexivity|]. exact (conj (proj1 thin_pixels) (proj1 (proj2 thin_pixels))). Qed.
Print Assumptions stationary_flat_refuted.
