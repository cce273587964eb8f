(** Property C119: the command-line client evaluating the stationary tracker *)
From Verif Require Import CBase Props PropsSpec Message MessageSpec Num Region RegionSpec Image Formats Handle SessionSpec SendableProofs Static StaticSpec Cli CliSpec Evaluate EvaluateSpec EvaluateProofs.
Local Open Scope Z_scope.

(** C119, partial: for every list of images, every ground truth, every failure criterion and every reinitialization offset, and however the bytes
    between the two programs are cut, the run writes a trajectory file with one line per frame: 1 where the tracker was launched, then the region it was
    launched with (up to the fifth decimal of coordinates) until the criterion says failure, 2 there, 0 where nothing was tracked.
    Missing: ground truth with special regions or coordinates that are not finite (false, below); images that the tracker wants and the list does not have. *)
Theorem stationary_evaluation_partial : forall legacy slack depth ir net fails k properties lines texts rs, (forall f, network_ok (net f)) -> Forall (line_ok depth ir) lines ->
  Forall2 (fun l r => line_reads (fst l) r) texts rs -> lines <> [] -> rs <> [] -> Forall (fun r => match r with Some r => steady r | None => True end) rs ->
  clean properties -> props_get properties (str "time_wait") <> Ok (Some []) ->
  exists file out, traxclient legacy slack depth ir net fails k properties (concat (map (fun l => join_paths l ++ [10%N]) lines)) (concat (map (fun l => fst l ++ line_end (snd l)) texts)) = Ok (Some file) /\
    load_trajectory file = Ok out /\ let n := Nat.min (List.length lines) (List.length rs) in List.length out = n /\ stationary (init_of (firstn n rs)) fails k n 0 Launch out.
Proof. exact whole_run. Qed.
Print Assumptions stationary_evaluation_partial.
Example stationary_evaluation_nonvacuous : (forall f, network_ok (sample_net f)) /\ Forall (line_ok true false) sample_lines /\
  exists rs, Forall2 (fun l r => line_reads (fst l) r) sample_texts rs /\ List.length rs = 4%nat /\ Forall (fun r => match r with Some r => steady r | None => True end) rs.
Proof. split; [exact sample_net_ok|]. split; [exact sample_lines_ok|]. exact sample_regions. Qed.
(** the third frame fails and the tracker is launched again for the fourth *)
Example stationary_evaluation_nonvacuous_2 : traxclient false 0 true false sample_net (fun f _ => Nat.eqb f 2) 1 props_create
    (concat (map (fun l => join_paths l ++ [10%N]) sample_lines)) (concat (map (fun l => fst l ++ line_end (snd l)) sample_texts)) =
  Ok (Some (concat (map (fun t => t ++ [10%N]) [str "0"; str "1"; str "2"; str "1"]))).
Proof. vm_compute. reflexivity. Qed.

(** C119 with a criterion that never says failure: zeros for the frames before the first region, 1, and then the same region in all lines. *)
Theorem stationary_unfailing_partial : forall start k n l, stationary start (fun _ _ => false) k n 0 Launch l ->
  exists a, (a <= n)%nat /\ (forall i, (i < a)%nat -> start i = None) /\
    (a = n /\ l = repeat (special 0) n \/
     exists r r'', (a < n)%nat /\ start a = Some r /\ stays r r'' /\ l = repeat (special 0) a ++ special 1 :: repeat (Some r'') (n - S a)).
Proof. intros start k n l H. exact (never_failing start k n 0 l H). Qed.
Print Assumptions stationary_unfailing_partial.
Example stationary_unfailing_nonvacuous : traxclient false 0 true false sample_net (fun _ _ => false) 0 props_create
    (concat (map (fun l => join_paths l ++ [10%N]) sample_lines)) (concat (map (fun l => fst l ++ line_end (snd l)) sample_texts)) =
  Ok (Some (concat (map (fun t => t ++ [10%N]) [str "0"; str "1"; str "1.5000,2.0000,3.0000,4.0000"; str "1.5000,2.0000,3.0000,4.0000"]))).
Proof. vm_compute. reflexivity. Qed.

(** C119 violated: a ground truth that says by a code or by coordinates "nan" that there is no object makes the client abort when it launches the tracker. *)
Theorem stationary_absent_refuted :
  traxclient false 0 true false sample_net (fun _ _ => false) 0 props_create (concat (map (fun l => join_paths l ++ [10%N]) sample_lines)) (str "0" ++ [10%N]) = Abort /\
  traxclient false 0 true false sample_net (fun _ _ => false) 0 props_create (concat (map (fun l => join_paths l ++ [10%N]) sample_lines)) (str "nan,nan,nan,nan" ++ [10%N]) = Abort.
Proof. split; vm_compute; reflexivity. Qed.
Print Assumptions stationary_absent_refuted.
(** A frame without an image the tracker wants ends the run without any trajectory. *)
Theorem stationary_image_refuted :
  traxclient false 0 true false sample_net (fun _ _ => false) 0 props_create (concat (map (fun l => join_paths l ++ [10%N]) (sample_lines ++ [[str "e.jpg"]])))
    (concat (map (fun l => fst l ++ line_end (snd l)) (sample_texts ++ [(str "1,1,1,1", false)]))) = Ok None.
Proof. vm_compute. reflexivity. Qed.
Print Assumptions stationary_image_refuted.
