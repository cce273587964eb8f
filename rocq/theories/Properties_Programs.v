(** Properties C104 - C106: the command line programs *)
From Verif Require Import CBase Image Num FloatOps Sockets Programs ProgramsSpec ProgramsProofs.
Local Open Scope Z_scope.

(** C104: the options of traxclient do what its help text says, in every way they can be written *)
Theorem client_options_spec prog ps tail words : Forall piece_ok ps -> Forall opt_ok (all_opts ps) -> forallb client_has (all_opts ps) = true -> command_follows tail words ->
  traxclient (prog :: concat (map piece_words ps) ++ tail) = Ok (expected (all_opts ps) words).
Proof. exact (ProgramsProofs.client_options_spec prog ps tail words). Qed.
Print Assumptions client_options_spec.
(** No command line makes it read outside of its words, use a missing argument or run forever *)
Theorem client_options_safe argv : Forall plain argv -> exists r, traxclient argv = Ok r.
Proof. exact (client_total argv). Qed.
Print Assumptions client_options_safe.
(** Without options that do not work the same holds for the other two *)
Theorem test_options_partial prog ps tail words : Forall piece_ok ps -> Forall opt_ok (all_opts ps) -> forallb test_has (all_opts ps) = true -> existsb is_rounds (all_opts ps) = false ->
  command_follows tail words -> traxtest (prog :: concat (map piece_words ps) ++ tail) = Ok (expected (all_opts ps) words).
Proof. exact (ProgramsProofs.test_options_spec prog ps tail words). Qed.
Print Assumptions test_options_partial.
Theorem test_options_safe_partial argv : Forall plain argv -> ~ In (letter "I") (concat argv) -> exists r, traxtest argv = Ok r.
Proof. exact (test_total argv). Qed.
Print Assumptions test_options_safe_partial.
Theorem player_options_partial prog ps tail words : Forall piece_ok ps -> Forall opt_ok (all_opts ps) -> forallb player_has (all_opts ps) = true -> existsb is_window (all_opts ps) = false ->
  command_follows tail words -> traxplayer (prog :: concat (map piece_words ps) ++ tail) = Ok (expected (all_opts ps) words).
Proof. exact (ProgramsProofs.player_options_spec prog ps tail words). Qed.
Print Assumptions player_options_partial.
Theorem player_options_safe argv : Forall plain argv -> exists r, traxplayer argv = Ok r.
Proof. exact (player_total argv). Qed.
Print Assumptions player_options_safe.
(** Variables: the last value of each *)
Theorem environment_map k v l k' : lookup k' (put k v l) = if list_eq_dec N.eq_dec k k' then Some v else lookup k' l.
Proof. exact (put_lookup k v l k'). Qed.
Print Assumptions environment_map.
(** The number of rounds for the test utility, and the window switch of the player, as their help texts give them *)
Theorem test_rounds_refuted : exists ps words, Forall piece_ok ps /\ forallb test_has (all_opts ps) = true /\ command_follows words words /\
  traxtest (str "traxtest" :: concat (map piece_words ps) ++ words) = UB.
Proof.
  exists [Valued [] (ORounds 3) false], [str "tracker"]. split; [apply Forall_cons; [split; [apply Forall_nil|split; discriminate]|apply Forall_nil]|].
  split; [reflexivity|]. split; [split; [discriminate|right; split; [reflexivity|vm_compute; discriminate]]|]. vm_compute. reflexivity.
Qed.
Print Assumptions test_rounds_refuted.
Theorem player_window_refuted : exists ps words, Forall piece_ok ps /\ forallb player_has (all_opts ps) = true /\ command_follows words words /\
  traxplayer (str "traxplayer" :: concat (map piece_words ps) ++ words) = Ok (Exit (-1)).
Proof.
  exists [Letters OWindow []], [str "tracker"]. split; [apply Forall_cons; [apply Forall_cons; [reflexivity|apply Forall_nil]|apply Forall_nil]|].
  split; [reflexivity|]. split; [split; [discriminate|right; split; [reflexivity|vm_compute; discriminate]]|]. vm_compute. reflexivity.
Qed.
Print Assumptions player_window_refuted.
(** The command line of docs/support.rst:13 *)
Theorem client_manual_refuted :
  traxclient [str "traxclient"; str "-g"; str "groundtruth.txt"; str "-I"; str "images.txt"; str "-o"; str "result.txt"; str "--"; str "static"] = Ok (Exit (-1)).
Proof. vm_compute. reflexivity. Qed.
Print Assumptions client_manual_refuted.
Example client_options_ex : Forall piece_ok sample_pieces /\ Forall opt_ok (all_opts sample_pieces) /\ forallb client_has (all_opts sample_pieces) = true /\
  command_follows [str "--"; str "-x"] [str "-x"] /\ existsb is_help (all_opts sample_pieces) = false /\
  forallb (fun o => test_has o && negb (is_rounds o) && player_has o && negb (is_window o)) (all_opts sample_test_pieces) = true.
Proof. exact sample_options_ok. Qed.

(** C105: the test utility succeeds exactly for trackers that answer everything *)
Theorem test_verdict_partial rounds k : connected k -> (snd (run_test rounds k) = 0 <-> works rounds k).
Proof. exact (test_verdict rounds k). Qed.
Print Assumptions test_verdict_partial.
Theorem test_sends_partial rounds k : connected k -> (exists rest, script rounds (k_multi k) = fst (run_test rounds k) ++ rest) /\
  (works rounds k -> fst (run_test rounds k) = script rounds (k_multi k)) /\ (snd (run_test rounds k) = 0 \/ snd (run_test rounds k) = 1).
Proof. exact (test_sends rounds k). Qed.
Print Assumptions test_sends_partial.
(** The picture of the test is sent only in part to trackers that take images in memory: the bytes from the 81st row on are not set *)
Theorem test_picture_refuted resource i : 320 * 80 * 3 <= i < 320 * 240 * 3 -> raw_byte resource i = None.
Proof. exact (unset_bytes resource i). Qed.
Print Assumptions test_picture_refuted.
Example test_verdict_ex : connected (sample_tracker true) /\ works 2 (sample_tracker true) /\ connected silent_tracker /\ ~ works 1 silent_tracker /\
  fst (run_test 1 silent_tracker) = [Initialized 3; Framed 0; Framed 0; Framed 0; Framed 1; Framed 0; Framed 0; Framed 0].
Proof. exact sample_tests_ok. Qed.

(** C106: the region that the user drags and confirms is the one that is used; Q cancels *)
Theorem player_selection_partial before x y x' y' rest c : undecided before ->
  interactive (before ++ Press x y :: Release x' y' :: KeySpace :: rest) c = Some (Some (x, y, x' - x, y' - y), rest) /\
  interactive (before ++ KeyQ :: KeySpace :: rest) c = Some (None, rest).
Proof. exact (fun N => conj (selection before x y x' y' rest c N) (cancelled before rest c N)). Qed.
Print Assumptions player_selection_partial.
(** The tracker is never started and never gets any region *)
Theorem player_refuted frames us r : run_player frames us <> Plays r.
Proof. exact (never_plays frames us r). Qed.
Print Assumptions player_refuted.
(** Q by itself does not end the selection *)
Theorem player_cancel_refuted us c : undecided us -> interactive (us ++ [KeyQ]) c = None.
Proof. exact (q_goes_on us c). Qed.
Print Assumptions player_cancel_refuted.
(** A rectangle dragged to the left or upwards gets a negative size *)
Theorem player_direction_refuted : exists us r rest, interactive us (mkCapture false (0, 0) None) = Some (Some r, rest) /\ let '(_, _, w, h) := r in w < 0 /\ h < 0.
Proof. exact left_up. Qed.
Print Assumptions player_direction_refuted.
Example player_ex : undecided [Press 3 4; KeyQ; Release 10 20] /\ run_player 5 [Press 3 4; Release 10 20; KeySpace] = Complains.
Proof. exact sample_player_ok. Qed.
