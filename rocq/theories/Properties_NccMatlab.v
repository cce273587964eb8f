(** Theorems about the Matlab tutorial tracker (C135). *)
From Verif Require Import CBase Ncc NccMatlab NccMatlabSpec NccMatlabProofs.
Local Open Scope Z_scope.

(** The object of a rectangle that keeps a pixel away from the border is this rectangle, with its ends rounded. *)
Theorem matlab_rectangle_partial : forall width height x y w h, well_in width x (x + w) -> well_in height y (y + h) ->
  exists t r, minit width height [x; y; w; h] = Some (t, r) /\ near_box x y (x + w) (y + h) r /\ inner width height r /\ 1 <= r_w r /\ 1 <= r_h r.
Proof. exact init_rectangle. Qed.
Print Assumptions matlab_rectangle_partial.
(** The object of a polygon is the box around its points. *)
Theorem matlab_polygon_partial : forall width height l x1 x2 y1 y2, (3 <= List.length l)%nat -> extremes (map fst l) x1 x2 -> extremes (map snd l) y1 y2 -> well_in width x1 x2 -> well_in height y1 y2 ->
  exists t r, minit width height (flat l) = Some (t, r) /\ near_box x1 y1 x2 y2 r /\ inner width height r /\ 1 <= r_w r /\ 1 <= r_h r.
Proof. exact init_polygon. Qed.
Print Assumptions matlab_polygon_partial.
(** If the object is more than one pixel and smaller than the picture without its outermost pixels, then every picture of this size is
    searched around the last place of the object, and every answer is the best match, has the size of the object and lies in the picture; a picture too small for the object
    is answered with the last place. *)
Theorem matlab_track_partial : forall width height region t r l, minit width height region = Some (t, r) -> 1 <= r_w r < width - 2 -> 1 <= r_h r < height - 2 -> 2 <= Z.max (r_w r) (r_h r) ->
  Forall (fun v => proper_picture width height v \/ too_small (r_w r) (r_h r) v) l -> exists answers, mtrack t l = Some answers /\ places_ok width height (r_w r) (r_h r) r l answers.
Proof. exact run_matlab. Qed.
Print Assumptions matlab_track_partial.
(** An object as wide as the picture makes the tracker fail at the next picture: the response is empty. *)
Theorem matlab_wide_refuted : forall width height region t r v l, minit width height region = Some (t, r) -> 3 <= width -> r_w r = width - 2 -> 1 <= r_h r -> v_cols v = width -> v_rows v = height ->
  mtrack t (v :: l) = None.
Proof. exact wide_fails. Qed.
Print Assumptions matlab_wide_refuted.
(** So does an object as high as the picture. *)
Theorem matlab_tall_refuted : forall width height region t r v l, minit width height region = Some (t, r) -> 3 <= height -> r_h r = height - 2 -> 1 <= r_w r -> v_cols v = width -> v_rows v = height ->
  mtrack t (v :: l) = None.
Proof. exact tall_fails. Qed.
Print Assumptions matlab_tall_refuted.
(** The last place of the searched part is left out: an object at the right end is found further left, whatever the picture is. *)
Theorem matlab_edge_refuted : forall width height region t r v, minit width height region = Some (t, r) -> 1 <= r_w r < width - 2 -> 1 <= r_h r < height - 2 -> 2 <= Z.max (r_w r) (r_h r) -> r_x r + r_w r = width - 1 ->
  proper_picture width height v -> exists p s, mtrack t [v] = Some [(p, s)] /\ l_x2 p < 2 * r_x r.
Proof. exact edge_lost. Qed.
Print Assumptions matlab_edge_refuted.
(** An object at the left border loses its first column. *)
Theorem matlab_border_refuted : forall width height y w h, 1 <= y -> 1 <= w <= width - 1 -> 1 <= h -> y + h <= height - 1 ->
  exists t, minit width height [0; y * 1048576; w * 1048576; h * 1048576] = Some (t, mkRect 1 y (w - 1) h).
Proof. exact left_border. Qed.
Print Assumptions matlab_border_refuted.
(** An object outside of the picture is not refused: its width is negative. *)
Theorem matlab_outside_refuted : forall width height x y w h, 1 <= width -> width * 1048576 <= x -> exists t r, minit width height [x; y; w; h] = Some (t, r) /\ r_w r < 0.
Proof. exact outside_taken. Qed.
Print Assumptions matlab_outside_refuted.
Definition corner (width height : Z) : view := mkView width height (fun _ => (0, 0)).
Example matlab_track_nonvacuous : well_in 100 (40 * 1048576 + 524288) (40 * 1048576 + 524288 + 11 * 1048576) /\
  Forall (proper_picture 100 80) [corner 100 80; corner 100 80] /\ too_small 11 20 (corner 12 80) /\
  exists t, minit 100 80 [40 * 1048576 + 524288; 30 * 1048576; 11 * 1048576; 20 * 1048576] = Some (t, mkRect 41 30 11 20) /\
    mtrack t [corner 100 80; corner 12 80; corner 100 80] = Some [(mkPlace 54 40 11 20, Some (mkRect 27 20 41 41)); (mkPlace 54 40 11 20, None); (mkPlace 26 20 11 20, Some (mkRect 13 10 41 41))].
Proof.
  split; [unfold well_in; lia|]. split.
  - repeat (apply Forall_cons; [split; [reflexivity|]; split; [reflexivity|]; intros places W H; cbn [corner v_best fst snd]; lia|]). apply Forall_nil.
  - split; [left; reflexivity|]. eexists. split; [vm_compute; reflexivity|vm_compute; reflexivity].
Qed.
Example matlab_polygon_nonvacuous : extremes (map fst [(20971520, 10485760); (31457280, 20971520); (10485760, 15728640)]) 10485760 31457280 /\ well_in 100 10485760 31457280 /\
  (exists t, minit 100 80 (flat [(20971520, 10485760); (31457280, 20971520); (10485760, 15728640)]) = Some (t, mkRect 10 10 20 10)) /\
  (exists t, minit 100 80 [1048576; 10485760; 98 * 1048576; 10485760] = Some (t, mkRect 1 10 98 10) /\ mtrack t [corner 100 80] = None) /\
  (exists t, minit 100 80 [10485760; 1048576; 10485760; 78 * 1048576] = Some (t, mkRect 10 1 10 78) /\ mtrack t [corner 100 80] = None) /\
  (exists t, minit 100 80 [89 * 1048576; 10485760; 10485760; 10485760] = Some (t, mkRect 89 10 10 10) /\ mtrack t [mkView 100 80 (fun places => (r_w places - 1, 0))] = Some [(mkPlace 176 10 10 10, Some (mkRect 84 5 15 21))]).
Proof.
  split; [split; [right; right; left; reflexivity|]; split; [right; left; reflexivity|]; repeat (apply Forall_cons; [cbn [fst]; lia|]); apply Forall_nil|]. split; [unfold well_in; lia|].
  split; [eexists; vm_compute; reflexivity|]. split; [|split]; eexists; (split; [vm_compute; reflexivity|vm_compute; reflexivity]).
Qed.
