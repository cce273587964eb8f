(** Property C125: the example trackers of the OpenCV support *)
From Verif Require Import CBase Props PropsSpec Message MessageSpec Num Region RegionGeom Image Formats Handle SessionSpec SendableProofs CppSession
  Interactive InteractiveSpec InteractiveProofs.
Local Open Scope Z_scope.

(** C125, the loop of the interactive tracker, partial: set up with rectangles and files among its formats, it answers every request of a session with
    one state, the rectangle its user marked: of the size the client gave last, with its middle where the user clicked, or where it was if the user
    pressed a key.
    Missing: the configuration the program really has (below), images in memory or buffers, and rectangles with fractional or larger numbers. *)
Theorem interactive_loop_partial : forall f legacy slack rf imf m cut sched_s sched_c qs, configuration rf imf = Ok m ->
  Z.testbit rf 1 = true -> Z.testbit imf 0 = true -> cutter cut -> no_error sched_s -> no_error sched_c -> turns_ok f qs ->
  exists c s sns, connect m 0 cut sched_s sched_c = Ok (Some (c, s)) /\
    interactive_turns f legacy slack c (interactive_start s) qs = Ok sns /\ shows_all (0, 0, 0, 0) qs sns.
Proof. exact interactive_session. Qed.
Print Assumptions interactive_loop_partial.
(** The formats the program means, and a session that starts twice and ends with a key. *)
Example interactive_loop_nonvacuous : configuration 2 13 = Ok meant /\ Z.testbit 2 1 = true /\ Z.testbit 13 0 = true /\ turns_ok any_file sample_turns.
Proof. exact (conj eq_refl (conj eq_refl (conj eq_refl sample_turns_ok))). Qed.

(** C125 violated: the program gives the formats of images where those of regions belong and the other way round.  Whatever a client sends, images in
    whatever formats or any other bytes, the program ends in the first pass of its loop and has not written anything. *)
Theorem interactive_never_replies_refuted : forall m cut sched_s sched_c c s, example_configuration = Ok m -> cutter cut -> no_error sched_s -> no_error sched_c ->
  connect m 0 cut sched_s sched_c = Ok (Some (c, s)) ->
  forall f legacy fuel slack bytes cut' a x,
    interactive_pass f legacy fuel slack (interactive_start (arrive cut' bytes s)) a = Ok x -> silent s x.
Proof. exact interactive_silent. Qed.
Print Assumptions interactive_never_replies_refuted.
(** For example, a client that gives it a file is told that the session is over. *)
Theorem interactive_file_refuted : exists m c s c' x, example_configuration = Ok m /\ connect m 0 whole_cut [] [] = Ok (Some (c, s)) /\
  interactive_turn any_file false 0 c (interactive_start s) (mkTurn (Some (0, 0, 4, 4)) (str "/a.jpg") props_create (Click 1 1) whole_cut whole_cut) =
    Ok (c', x, (TRAX_QUIT, None)).
Proof. do 5 eexists. split; [vm_compute; reflexivity|]. split; [vm_compute; reflexivity|]. vm_compute. reflexivity. Qed.
Print Assumptions interactive_file_refuted.

(** C125 violated by camshift, even with the formats it means: it answers the request to initialize twice, with the client's rectangle and with what it
    found.  From then on the client gets every answer one request too late: here that for the first picture, (1, 1), instead of that for the second,
    (5, 5). *)
Theorem camshift_late_refuted : exists c s c1 v1 c2 v2, connect meant 0 whole_cut [] [] = Ok (Some (c, s)) /\
  camshift_turn any_file 0 c (mkCamshift s None 0 (10, 256, 30)) (Some (plain_rect (0, 0, 4, 4))) (color_image (str "/a.jpg")) (Some (1, 1, 4, 4)) =
    Ok (c1, v1, (TRAX_STATE, Some (plain_rect (0, 0, 4, 4)))) /\
  camshift_turn any_file 0 c1 v1 None (color_image (str "/b.jpg")) (Some (5, 5, 4, 4)) = Ok (c2, v2, (TRAX_STATE, Some (plain_rect (1, 1, 4, 4)))).
Proof. do 6 eexists. split; [vm_compute; reflexivity|]. split; [vm_compute; reflexivity|]. vm_compute. reflexivity. Qed.
Print Assumptions camshift_late_refuted.
