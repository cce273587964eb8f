(** Theorems about the pixels of convex polygons (C66). *)
From Verif Require Import CBase Num NumSpec Buffer Region RegionSpec FloatOps RegionGeom GeomSpec PolygonSpec PolygonProofs ConvexRasterProofs.
Local Open Scope Z_scope.

Definition float_vertex (z : point) : spec_float * spec_float := (float_of_int (fst z), float_of_int (snd z)).
Definition hexagon : list point := [(-3, 1); (2, -4); (9, -4); (12, 2); (7, 8); (0, 6)].

(** C66, default rasterisation, vertices with integer coordinates up to 2^21: every pixel of the window is 0 or 1; pixels strictly
    inside and the vertices are 1; a pixel that is 1 is at most one pixel left or right of the polygon. *)
Theorem convex_window_partial : forall s pts zs wx wy ww wh, s = 1 \/ s = -1 -> convex s zs -> Forall2 int_point pts zs ->
  Forall (fun z => Z.abs (fst z) <= 2 ^ 21 /\ Z.abs (snd z) <= 2 ^ 21) zs ->
  0 < ww -> 0 < wh -> wh * (ww + Z.of_nat (List.length pts)) <= INT_MAX ->
  - 2 ^ 21 <= wx -> wx + ww - 1 <= 2 ^ 21 -> - 2 ^ 21 <= wy -> wy + wh - 1 <= 2 ^ 21 ->
  exists mask, get_mask_offset false (RPoly pts) (blk_new (Z.to_nat (ww * wh))) wx wy ww wh = Ok mask /\
    Z.of_nat (List.length mask) = ww * wh /\
    forall i j, 0 <= i < wh -> 0 <= j < ww -> exists v, cell mask ww i j = Some v /\ (v = 0%N \/ v = 1%N) /\
      (inside s zs (wx + j, wy + i) -> v = 1%N) /\ (In (wx + j, wy + i) zs -> v = 1%N) /\ (v = 1%N -> next_to s zs (wx + j) (wy + i)).
Proof. exact polygon_window. Qed.
Print Assumptions convex_window_partial.
Example convex_window_nonvacuous : convex 1 hexagon /\ Forall2 int_point (map float_vertex hexagon) hexagon /\
  inside 1 hexagon (3, 0) /\ In (12, 2) hexagon /\ ~ inside 1 hexagon (-3, 3) /\
  exists m, get_mask_offset false (RPoly (map float_vertex hexagon)) (blk_new (Z.to_nat (20 * 15))) (-5) (-5) 20 15 = Ok m /\
    cell m 20 5 8 = Some 1%N /\ cell m 20 7 17 = Some 1%N /\ cell m 20 7 18 = Some 0%N.
Proof.
  split; [|split; [|split; [|split; [|split]]]].
  - split; [|split].
    + unfold hexagon. repeat (apply NoDup_cons; [cbn; intros H; repeat (destruct H as [H|H]; [discriminate H|]); destruct H|]). apply NoDup_nil.
    + cbn. lia.
    + intros a b v H Hv. vm_compute in H. repeat (destruct H as [H|H]; [injection H as <- <-|]); [..|destruct H];
        (vm_compute in Hv; repeat (destruct Hv as [<-|Hv]; [intros N1 N2; try (now destruct N1); try (now destruct N2); vm_compute; reflexivity|]); destruct Hv).
  - unfold hexagon. cbn [map]. repeat (apply Forall2_cons; [unfold int_point, is_int; repeat split; vm_compute; reflexivity|]). apply Forall2_nil.
  - intros a b H. vm_compute in H. repeat (destruct H as [H|H]; [injection H as <- <-; vm_compute; reflexivity|]). destruct H.
  - vm_compute. auto 10.
  - intros H. specialize (H (0, 6) (-3, 1) ltac:(vm_compute; auto 10)). vm_compute in H. discriminate H.
  - eexists. split; [vm_compute; reflexivity|]. vm_compute. auto.
Qed.

(** The bounds are sharp.  A pixel on a side can be missing: the side from (0, 0) to (49, 49) passes through (1, 1) and (2, 2), which
    are left out. *)
Theorem convex_side_refuted : let tri := [(0, 0); (0, 49); (49, 49)] in
  turn (0, 0) (49, 49) (1, 1) = 0 /\ turn (0, 0) (49, 49) (2, 2) = 0 /\
  get_mask_offset false (RPoly (map float_vertex tri)) (blk_new 9) 0 0 3 3 = Ok (map Some [1; 0; 0; 1; 0; 0; 1; 1; 0]%N).
Proof. cbv zeta. split; [reflexivity|]. split; [reflexivity|]. vm_compute. reflexivity. Qed.
Print Assumptions convex_side_refuted.
(** A pixel outside can be set: (0, 1) is left of the side from (0, 0) to (1, 2). *)
Theorem convex_outside_refuted : let tri := [(0, 0); (1, 2); (2, 0)] in
  0 < turn (0, 0) (1, 2) (0, 1) /\ turn (0, 0) (1, 2) (2, 0) < 0 /\
  get_mask_offset false (RPoly (map float_vertex tri)) (blk_new 9) 0 0 3 3 = Ok (map Some [1; 1; 1; 1; 1; 0; 0; 1; 0]%N).
Proof. cbv zeta. split; [reflexivity|]. split; [reflexivity|]. vm_compute. reflexivity. Qed.
Print Assumptions convex_outside_refuted.
(** C66 violated when a vertex lies in the middle of a horizontal side: of the eleven pixels of that side, four are missing. *)
Theorem flat_side_refuted :
  get_mask_offset false (RPoly (map float_vertex [(0, 0); (5, 0); (10, 0); (10, 2); (0, 2)])) (blk_new 33) 0 0 11 3
  = Ok (map Some [1; 1; 1; 1; 1; 1; 0; 0; 0; 0; 1; 1; 1; 1; 1; 1; 1; 1; 1; 1; 1; 1; 1; 1; 1; 1; 1; 1; 1; 1; 1; 1; 1]%N).
Proof. vm_compute. reflexivity. Qed.
Print Assumptions flat_side_refuted.
