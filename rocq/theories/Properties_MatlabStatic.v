(** Property C127: what the stationary tracker written in Matlab reports *)
From Verif Require Import CBase Props Message MessageSpec Region Image Formats Handle SessionSpec Matlab MatlabServer MatlabServerSpec MatlabStatic MatlabStaticSpec MatlabStaticProofs.
Local Open Scope Z_scope.

(** A client connects and is told that polygons, and images as paths, pixels or files are understood.  Whatever it asks for in these formats, every answer is
    the polygon it gave last, up to the fifth decimal.  When it quits, the tracker leaves its loop, having sent nothing more, with its connection closed. *)
Theorem matlab_static_partial : forall legacy fuel slack cut sched_s sched_c qs, cutter cut -> no_error sched_s -> no_error sched_c -> tasks_ok slack None qs ->
  exists s t h c c' t' l, matlab_static_start fuel slack (Some (mkStream [] [], mkO sched_s [] [])) = Ok (s, Some t) /\ handle_of s = Some h /\
    client_setup (mkStream [] (cut (o_bytes (h_out h)))) (mkO sched_c [] []) = Ok (Some c) /\ md_region (h_meta c) = 4 /\ md_image (h_meta c) = 13 /\
    task_rounds legacy slack c t qs = Ok (Some (c', t', l)) /\ task_reports None qs l /\
    forall fuel' reason cut', text_ok reason = true -> cutter cut' -> exists h' memory,
      handle_of (mt_server t') = Some h' /\ task_ending (S fuel') slack c' t' reason cut' = Ok (Broke (mkMstatic (mkMserver None [] [h_out h']) memory)).
Proof. exact matlab_static_reports. Qed.
Print Assumptions matlab_static_partial.
Example matlab_static_nonvacuous : tasks_ok 0 None sample_tasks.
Proof. exact sample_tasks_ok. Qed.
