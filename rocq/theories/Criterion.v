(** Model of the failure criterion of the evaluation client, support/client/cli.cpp, and of the evaluation loop with this criterion. *)
From Verif Require Import CBase Num Region FloatOps RegionGeom ImageSize Cli.
Local Open Scope Z_scope.

(** support/client/cli.cpp:442: the threshold without the option -f *)
Definition threshold_default : spec_float := float_of_int (-1).
(** support/client/cli.cpp:492-494, with the macros of 92-98: (float) MIN(1, MAX(0, (float)atof(optarg))) *)
Definition threshold_option (optarg : list N) : spec_float :=
  let v := float_of_double (atof optarg) in
  let low := if fgt fzero v then fzero else v in
  if flt float_one low then float_one else low.
(** support/client/cli.cpp:540-551: a switch given by the environment, strcmpi(getenv(name), "true") == 0 *)
Definition env_switch (value : option (list N)) : bool := match value with Some v => strcasecmp_eq v (str "true") | None => false end.

(** The settings: 439-442, 492-494 and 540-551 *)
Record settings := mkSettings { s_threshold : spec_float; s_bounded : bool; s_legacy : bool }.
Definition read_settings (f_option bounded_overlap region_legacy : option (list N)) : settings :=
  mkSettings (match f_option with Some t => threshold_option t | None => threshold_default end) (env_switch bounded_overlap) (env_switch region_legacy).

(** support/client/cli.cpp:670-676: no bounds (src/traxpp.cpp:26-33), or those of the image, Bounds(0, 0, is.width, is.height) (src/traxpp.cpp:44-51,
    where int becomes float) *)
Definition judge_bounds (bounded : bool) (image : picture) : outcome bounds :=
  if bounded then
    size <- image_get_size image ;;
    let '(w, h) := size in Ok (mkBounds fzero (float_of_int h) fzero (float_of_int w))
  else Ok no_bounds.
(** src/traxpp.cpp:936-941 Region::overlap and src/trax.c:1753-1766 trax_region_overlap; None is an empty Region *)
Definition region_overlap (legacy : bool) (a b : option region) (bnd : bounds) : outcome spec_float :=
  match a, b with
  | Some ra, Some rb => o <- compute_overlap legacy ra rb bnd ;; Ok (o_overlap o)
  | _, _ => Ok fzero
  end.
(** support/client/cli.cpp:669-686: whether the tracker has failed at a frame with this reference.  [image] is the first image of the image list
    of the frame at which the tracker was initialized (643, the declaration at 713 is local to its block) *)
Definition judge (s : settings) (image : picture) (reference : option region) (status : region) : outcome bool :=
  bnd <- judge_bounds (s_bounded s) image ;;
  overlap <- region_overlap (s_legacy s) reference (Some status) bnd ;;
  Ok (fge (s_threshold s) fzero && fle overlap (s_threshold s)).

(** The loop of Cli.v (support/client/cli.cpp:621-757) where the criterion is computed. *)
Section Loop.
  (** number of frames, initialization and reference regions, first image of each frame, answers, reinitialization offset *)
  Variables (s : settings) (frames : nat) (initialization groundtruth : list (option region)) (image : nat -> picture) (tracker : nat -> answer) (reinitialize : nat).

  (** support/client/cli.cpp:655-725; [start] is the frame at which the tracker was initialized *)
  Fixpoint track_judged (fuel : nat) (start : nat) (e : evaluation) (initialized : bool) : outcome (evaluation * ending) :=
    match fuel with
    | O => NoFuel
    | S fuel' =>
        match tracker (ev_frame e) with
        | Quits | Fails => Ok (e, Exception)
        | State r =>
            match nth_error groundtruth (ev_frame e) with
            | None => UB
            | Some reference =>
                failed <- judge s (image start) reference r ;;
                if failed : bool then Ok (e, Failure)
                else
                  let e1 := next (timed (push e (if initialized then special 1 else Some r))) in
                  if (frames <=? ev_frame e1)%nat then Ok (e1, Sequence_end) else track_judged fuel' start e1 false
            end
        end
    end.
  (** support/client/cli.cpp:623-757 *)
  Fixpoint evaluate_judged (fuel : nat) (e : evaluation) : outcome verdict :=
    if (ev_frame e <? frames)%nat then
      match fuel with
      | O => NoFuel
      | S fuel' =>
          e1 <- skip_frames frames initialization (S frames) e ;;
          if (ev_frame e1 =? frames)%nat then Ok (Saved (ev_output e1) (ev_timings e1))
          else
            x <- track_judged (S frames) (ev_frame e1) e1 true ;;
            let '(e2, how) := x in
            match how with
            | Exception => Ok Threw
            | _ =>
                if (ev_frame e2 <? frames)%nat then
                  let e3 := timed (push e2 (special 2)) in
                  if (0 <? reinitialize)%nat then
                    let j := Nat.max (S (ev_frame e2)) (Nat.min (ev_frame e2 + reinitialize) frames) in
                    let e4 := fill (j - S (ev_frame e2)) e3 in
                    evaluate_judged fuel' (mkEval j (ev_output e4) (ev_timings e4))
                  else
                    let e4 := fill (frames - S (ev_frame e2)) e3 in
                    Ok (Saved (ev_output e4) (ev_timings e4))
                else evaluate_judged fuel' e2
            end
      end
    else Ok (Saved (ev_output e) (ev_timings e)).
  (** The whole evaluation; the simplifications of Cli.v apply *)
  Definition run_judged : outcome verdict := evaluate_judged (S frames) (mkEval 0 [] 0).
End Loop.
