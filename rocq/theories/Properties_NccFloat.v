(** Theorems about the floats of the tutorial tracker (C132). *)
From Verif Require Import CBase Num Region Ncc NccFloat NccSpec NccFloatProofs.
Local Open Scope Z_scope.

(** In floats too, the first picture is refused exactly when the object is not in it, and the template is always a part of the picture. *)
Theorem ncc_float_init_partial : forall cols rows r, size_ok cols rows -> moderate_rect r ->
  (finit cols rows r = Ok None <-> cols - 1 < r_x r \/ rows - 1 < r_y r \/ r_x r + r_w r < 0 \/ r_y r + r_h r < 0) /\
  (forall t part, finit cols rows r = Ok (Some (t, part)) -> inside cols rows part) /\
  (exists q, finit cols rows r = Ok q).
Proof. exact float_none. Qed.
Print Assumptions ncc_float_init_partial.
(** The tracker in floats searches parts of the pictures only, around the last place of the object, and every answer has the size of the
    object and lies in the picture or is the one before; no conversion to int is undefined. *)
Theorem ncc_float_track_partial : forall cols rows r l, size_ok cols rows -> moderate_rect r -> inside (cols - 1) (rows - 1) r -> Forall (proper_view (r_w r) (r_h r)) l ->
  exists t answers, finit cols rows r = Ok (Some (t, r)) /\ ftrack t l = Ok (Some answers) /\ answers_ok (r_w r) (r_h r) r l answers.
Proof. exact float_run. Qed.
Print Assumptions ncc_float_track_partial.
(** Wherever the object is, the tracker in floats answers what the tracker that counts halves answers. *)
Theorem ncc_float_exact_partial : forall cols rows r l f part, size_ok cols rows -> moderate_rect r -> finit cols rows r = Ok (Some (f, part)) ->
  Forall (proper_view (r_w part) (r_h part)) l -> exists t, init cols rows r = Ok (Some (t, part)) /\ ftrack f l = Ok (track t l).
Proof. exact float_every. Qed.
Print Assumptions ncc_float_exact_partial.
(** Without the bound on coordinates floats lose pixels: an object is reported two pixels beside its place, in a picture that was not searched. *)
Theorem ncc_float_range_refuted : exists cols r, inside (cols - 1) 99 r /\ forall best, exists t,
  finit cols 100 r = Ok (Some (t, r)) /\ ftrack t [mkView 1 1 best] = Ok (Some [(mkRect (r_x r - 2) (r_y r) (r_w r) (r_h r), None)]).
Proof.
  exists 20000000, (mkRect 16777217 10 10 10). split; [unfold inside; cbn [r_x r_y r_w r_h]; lia|]. intros best. eexists. split; [vm_compute; reflexivity|]. vm_compute. reflexivity.
Qed.
Print Assumptions ncc_float_range_refuted.
Example ncc_float_nonvacuous : exists t, finit 100 80 (mkRect 40 30 11 20) = Ok (Some (t, mkRect 40 30 11 20)) /\
  ftrack t [top_left 100 80; top_left 50 15; top_left 100 80] =
    Ok (Some [(mkRect 26 20 11 20, Some (mkRect 26 20 40 40)); (mkRect 26 20 11 20, None); (mkRect 12 10 11 20, Some (mkRect 12 10 40 40))]).
Proof. eexists. split; [vm_compute; reflexivity|vm_compute; reflexivity]. Qed.
Example ncc_float_clipped_nonvacuous : exists t, finit 100 80 (mkRect (-5) 30 21 20) = Ok (Some (t, mkRect 0 30 16 20)) /\ proper_view 16 20 (top_left 100 80) /\
  ftrack t [top_left 100 80] = Ok (Some [(mkRect 0 19 21 20, Some (mkRect 0 19 27 42))]).
Proof.
  eexists. split; [vm_compute; reflexivity|]. split; [|vm_compute; reflexivity].
  split; [unfold size_ok; cbn [top_left v_cols v_rows]; lia|intros part _ W H; cbn [top_left v_best fst snd]; lia].
Qed.
