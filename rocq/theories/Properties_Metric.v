(** C124: the overlap is a measure of similarity. *)
From Verif Require Import CBase Num NumSpec FloatOps Region RegionSpec RegionGeom GeomSpec MetricSpec MetricProofs.
Local Open Scope Z_scope.

(** Exchanging the two regions gives the same overlap and exchanges the two shares outside of it. *)
Theorem overlap_symmetric legacy ra rb bnd o : single_region ra -> single_region rb -> number_bounds bnd ->
  compute_overlap legacy ra rb bnd = Ok o -> compute_overlap legacy rb ra bnd = Ok (swapped o).
Proof. exact (MetricProofs.overlap_symmetric legacy ra rb bnd o). Qed.
Print Assumptions overlap_symmetric.

(** The overlap and the two shares are numbers from 0 to 1 as long as a pixel is counted. *)
Theorem overlap_range_partial legacy ra rb bnd o : compute_overlap legacy ra rb bnd = Ok o -> fractions o \/ nothing_counted o.
Proof. exact (MetricProofs.overlap_range legacy ra rb bnd o). Qed.
Print Assumptions overlap_range_partial.

(** A region overlaps itself completely as long as a pixel is counted and its box has an extent inside the bounds. *)
Theorem overlap_self_partial legacy r bnd o : single_region r -> number_bounds bnd -> compute_overlap legacy r r bnd = Ok o ->
  same_pixels o \/ nothing_counted o \/ (no_comparison o /\ no_box legacy r bnd).
Proof. exact (MetricProofs.overlap_self legacy r bnd o). Qed.
Print Assumptions overlap_self_partial.

(** ---- The hypotheses are met ---- *)
Definition metric_a : region := RRect (float_of_int 10) (float_of_int 4) (float_of_int 7) (float_of_int 3).
Definition metric_b : region := RPoly [(float_of_int 3, float_of_int 0); (float_of_int 23, float_of_int 5); (float_of_int 8, float_of_int 30)].
Definition metric_bounds : bounds := mkBounds fzero (float_of_int 20) fzero (float_of_int 20).
Example metric_symmetric : exists o, single_region metric_a /\ single_region metric_b /\ number_bounds metric_bounds /\
  compute_overlap false metric_a metric_b metric_bounds = Ok o /\ flt fzero (o_overlap o) = true /\ flt (o_overlap o) float_one = true /\
  flt (o_only1 o) (o_only2 o) = true.
Proof.
  eexists. split; [vm_compute; repeat split|]. split; [repeat constructor|]. split; [repeat split; (vm_compute; reflexivity) || discriminate|].
  split; [vm_compute; reflexivity|]. vm_compute. repeat split.
Qed.
Example metric_self : exists o, single_region metric_b /\ compute_overlap false metric_b metric_b metric_bounds = Ok o /\ same_pixels o.
Proof.
  eexists. split; [repeat constructor|]. split; [vm_compute; reflexivity|]. vm_compute. repeat split.
Qed.

(** ---- Violations ---- *)
(** A region whose box reaches into the bounds while none of its pixels does: the overlap is 0 / 0, not a number. *)
Definition metric_triangle : region := RPoly [(fzero, fzero); (float_of_int 20, fzero); (fzero, float_of_int 20)].
Definition metric_corner : bounds := mkBounds (float_of_int 15) (float_of_int 20) (float_of_int 15) (float_of_int 20).
Theorem overlap_number_refuted : exists r bnd o, single_region r /\ number_bounds bnd /\ compute_overlap false r r bnd = Ok o /\ o_overlap o = S754_nan.
Proof.
  exists metric_triangle, metric_corner. eexists. split; [repeat constructor|]. split; [repeat split; (vm_compute; reflexivity) || discriminate|].
  split; [vm_compute; reflexivity|]. reflexivity.
Qed.
Print Assumptions overlap_number_refuted.
(** A rectangle of negative width: its overlap with itself is 0. *)
Definition metric_turned : region := RRect (float_of_int 3) (float_of_int 4) (float_of_int (-5)) (float_of_int 7).
Theorem overlap_self_refuted : exists r, single_region r /\ compute_overlap false r r no_bounds = Ok (mkOverlap fzero fzero fzero).
Proof. exists metric_turned. split; [vm_compute; repeat split|]. vm_compute. reflexivity. Qed.
Print Assumptions overlap_self_refuted.
