(** Theorems about legacy rasterisation (C32, C51). *)
From Verif Require Import CBase Num NumSpec Buffer Region RegionSpec FloatOps RegionGeom GeomSpec PolygonSpec RasterProofs LegacyRasterProofs.
Local Open Scope Z_scope.

(** C32, legacy rasterisation of polygons with coordinates up to 2^23: nothing out of bounds is touched (Ok) and the
    returned sum is exactly the number of pixels set.  Each row has one node per side with one end above the row and the
    other on or below it, and a pixel is set when an odd number of nodes lie at or left of it; in the last column only if
    there is also a node at the right border of the mask. *)
Theorem rasterize_legacy_partial : forall pts mask width height, Forall (fun p => near (fst p) /\ near (snd p)) pts ->
  0 <= width -> 0 <= height <= 2 ^ 23 -> in_int (width * height) = true -> Z.of_nat (List.length mask) = width * height ->
  exists mask' nodes, rasterize true pts (Some mask) width height = Ok (Some mask', ones mask') /\
    List.length mask' = List.length mask /\
    (forall i, 0 <= i < height -> List.length (nodes i) =
      List.length (filter (fun s => xorb (units (snd (fst s)) <? i * 2 ^ 1074) (units (snd (snd s)) <? i * 2 ^ 1074)) (sides pts))) /\
    (forall i j, 0 <= i < height -> 0 <= j < width ->
      cell mask' width i j = Some (if Nat.odd (List.length (filter (fun n => n <=? j) (nodes i))) && ((j <? width - 1) || existsb (Z.eqb width) (nodes i))
                                   then 1%N else 0%N)).
Proof. exact rasterize_legacy_safe. Qed.
Print Assumptions rasterize_legacy_partial.
(** The bow tie for which the default rasterisation returns a wrong sum. *)
Example rasterize_legacy_nonvacuous :
  let pts := [(float_of_int 0, float_of_int 0); (float_of_int 4, float_of_int 4); (float_of_int 4, float_of_int 0); (float_of_int 0, float_of_int 4)] in
  Forall (fun p => near (fst p) /\ near (snd p)) pts /\
  rasterize true pts (Some (blk_new 25)) 5 5
  = Ok (Some (map Some [0; 0; 0; 0; 0; 1; 0; 0; 1; 0; 1; 1; 1; 1; 0; 1; 0; 0; 1; 0; 0; 0; 0; 0; 0]%N), 8).
Proof. cbv zeta. split; [repeat (apply Forall_cons; [vm_compute; repeat split; discriminate|]); apply Forall_nil|now vm_compute]. Qed.

(** C51, legacy rasterisation: in any window, the pixels of a rectangle with integer position and size are those of the
    rectangle one row lower; the last column of the window stays empty unless the rectangle ends there. *)
Theorem legacy_rectangle_partial : forall x y w h X Y W H wx wy ww wh,
  finite_float x -> finite_float y -> finite_float w -> finite_float h ->
  is_int x X -> is_int y Y -> is_int w W -> is_int h H -> 0 < W -> 0 < H -> 0 < ww -> 0 < wh -> in_int (ww * wh) = true ->
  - 2 ^ 21 <= X -> X + W <= 2 ^ 21 -> - 2 ^ 21 <= Y -> Y + H <= 2 ^ 21 ->
  - 2 ^ 21 <= wx -> wx + ww <= 2 ^ 21 -> - 2 ^ 21 <= wy -> wy + wh <= 2 ^ 21 ->
  exists mask, get_mask_offset true (RRect x y w h) (blk_new (Z.to_nat (ww * wh))) wx wy ww wh = Ok mask /\
    Z.of_nat (List.length mask) = ww * wh /\
    forall i j, 0 <= i < wh -> 0 <= j < ww ->
      cell mask ww i j = Some (if (X <=? wx + j) && (wx + j <? X + W) && (Y <? wy + i) && (wy + i <=? Y + H) &&
                                  ((j <? ww - 1) || (wx + ww =? X + W)) then 1%N else 0%N).
Proof. exact legacy_rect_window. Qed.
Print Assumptions legacy_rectangle_partial.
Example legacy_rectangle_nonvacuous : finite_float (float_of_int 1) /\ is_int (float_of_int 1) 1 /\
  get_mask_offset true (RRect (float_of_int 1) (float_of_int 0) (float_of_int 3) (float_of_int 1)) (blk_new 8) 0 0 4 2
  = Ok (map Some [0; 0; 0; 0; 0; 1; 1; 1]%N).
Proof. vm_compute. repeat split. Qed.
(** C51 violated in one more way: of a rectangle that continues to the right of the window, the last column is lost. *)
Theorem legacy_column_refuted :
  get_mask_offset true (RRect (float_of_int 1) (float_of_int 0) (float_of_int 5) (float_of_int 1)) (blk_new 8) 0 0 4 2
  = Ok (map Some [0; 0; 0; 0; 0; 1; 1; 0]%N).
Proof. now vm_compute. Qed.
Print Assumptions legacy_column_refuted.
