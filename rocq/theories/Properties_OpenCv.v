(** Theorems about the conversions to and from OpenCV (C82 to C84). *)
From Coq Require Import Floats.SpecFloat.
From Verif Require Import CBase Buffer Num NumSpec Region RegionGeom GeomSpec Image OpenCv OpenCvSpec OpenCvProofs.
Local Open Scope Z_scope.

(** ---- C82: images ---- *)
(** A colour matrix, whatever its rows are part of, becomes an image of the same size with the channels in the order of TraX (red first), and
    converting that back gives the same pixels. *)
Theorem opencv_image_partial : forall m, mat_ok m -> m_kind m = U8C3 -> in_int (m_rows m * m_cols m * 3) = true ->
  exists im m', mat_to_image m = Ok (Some im) /\ image_get_memory_header im = Ok (m_cols m, m_rows m, TRAX_IMAGE_MEMORY_RGB) /\
    (forall r c k, inside m r c -> 0 <= k < 3 -> image_channel (i_data im) (m_cols m) r c k = byte_at m r c (2 - k)) /\
    image_to_mat im = Ok (Some m') /\ same_size m' m /\ forall r c k, inside m r c -> 0 <= k < 3 -> byte_at m' r c k = byte_at m r c k.
Proof. exact image_round_trip. Qed.
Print Assumptions opencv_image_partial.
(** Two rows of one pixel, cut out of a matrix with two columns *)
Definition some_mat : mat := mkMat 2 1 U8C3 (map Some [1; 2; 3; 4; 5; 6; 7; 8; 9; 10; 11; 12]%N) 3 6.
Example opencv_image_case : mat_ok some_mat /\
  exists im, mat_to_image some_mat = Ok (Some im) /\ i_data im = map Some [6; 5; 4; 12; 11; 10]%N.
Proof.
  split.
  - split; [reflexivity|]. split; [reflexivity|]. intros r c [Hr Hc]. cbn [m_rows m_cols m_start m_step m_kind m_block channels some_mat map List.length] in *. lia.
  - eexists. split; [vm_compute; reflexivity|]. vm_compute. reflexivity.
Qed.
(** A gray matrix of any size cannot be converted: the conversion of the channels throws. *)
Theorem opencv_gray_refuted : forall m, mat_ok m -> m_kind m = U8C1 \/ m_kind m = U16C1 -> in_int (m_rows m * m_cols m * 2) = true ->
  mat_to_image m = Ok None.
Proof. exact gray_never_converts. Qed.
Print Assumptions opencv_gray_refuted.
Example opencv_gray_case : mat_ok (mkMat 1 2 U8C1 (map Some [7; 8]%N) 0 2).
Proof. split; [reflexivity|]. split; [reflexivity|]. intros r c [Hr Hc]. cbn [m_rows m_cols m_start m_step m_kind m_block channels map List.length] in *. lia. Qed.
(** The other way as well *)
Theorem opencv_gray_image_refuted : exists im, image_create_memory 1 1 TRAX_IMAGE_MEMORY_GRAY8 = Ok im /\ image_to_mat im = Ok None.
Proof. eexists. split; [vm_compute; reflexivity|]. vm_compute. reflexivity. Qed.
Print Assumptions opencv_gray_image_refuted.

(** ---- C83: masks ---- *)
(** A mask at the left edge becomes a matrix with its pixels at their places.  Missing: what lies above the mask is not set. *)
Theorem opencv_mask_partial : forall y w h data, 0 < w -> 0 < h -> List.length data = Z.to_nat (w * h) -> 0 <= y -> in_int (w * (h + y)) = true ->
  exists m, region_to_mat (RMask 0 y w h data) = Ok (Some m) /\ m_rows m = h + y /\ m_cols m = w /\ m_kind m = U8C1 /\ mat_ok m /\ continuous m /\
    forall r c, inside m r c ->
      byte_at m r c 0 = if y <=? r then Some (nth (Z.to_nat ((r - y) * w + c)) data 0%N) else None.
Proof. exact mask_to_mat_ok. Qed.
Print Assumptions opencv_mask_partial.
(** A matrix of bytes whose rows follow each other becomes the mask with its values, and the way back gives the same values. *)
Theorem opencv_mask_round_trip_partial : forall m, mat_ok m -> continuous m -> m_kind m = U8C1 -> in_int (m_cols m * m_rows m) = true ->
  (forall r c, inside m r c -> byte_at m r c 0 <> None) ->
  exists data m', mat_to_region m = Ok (Some (m_cols m, m_rows m, map Some data)) /\
    region_to_mat (RMask 0 0 (m_cols m) (m_rows m) data) = Ok (Some m') /\ same_size m' m /\
    forall r c, inside m r c -> byte_at m' r c 0 = byte_at m r c 0.
Proof. exact mask_round_trip. Qed.
Print Assumptions opencv_mask_round_trip_partial.
Example opencv_mask_case :
  (let m := mkMat 2 2 U8C1 (map Some [9; 1; 0; 0; 1]%N) 1 2 in
   mat_ok m /\ continuous m /\ (forall r c, inside m r c -> byte_at m r c 0 <> None) /\ mat_to_region m = Ok (Some (2, 2, map Some [1; 0; 0; 1]%N))) /\
  exists m, region_to_mat (RMask 0 1 2 1 [1; 2]%N) = Ok (Some m) /\ m_block m = [None; None; Some 1%N; Some 2%N].
Proof.
  split.
  - cbv zeta. split; [split; [reflexivity|split; [reflexivity|]]|].
    { intros r c [Hr Hc]. cbn [m_rows m_cols m_start m_step m_kind m_block channels map List.length] in *. lia. }
    split; [right; reflexivity|]. split; [|vm_compute; reflexivity].
    intros r c [Hr Hc]. cbn [m_rows m_cols] in Hr, Hc.
    assert (D : r = 0 \/ r = 1) by lia. assert (D2 : c = 0 \/ c = 1) by lia. destruct D as [-> | ->], D2 as [-> | ->]; vm_compute; discriminate.
  - eexists. split; [vm_compute; reflexivity|]. vm_compute. reflexivity.
Qed.
(** A mask with two rows one column from the edge: its pixel in the second row and third column of the matrix is not set, while the first column,
    where it has no pixels, is. *)
Theorem opencv_mask_refuted : exists m, region_to_mat (RMask 1 0 2 2 [1; 1; 1; 1]%N) = Ok (Some m) /\
  inside m 1 2 /\ value_at 1 0 2 2 [1; 1; 1; 1]%N 2 1 = 1%N /\ byte_at m 1 2 0 = None /\
  inside m 1 0 /\ value_at 1 0 2 2 [1; 1; 1; 1]%N 0 1 = 0%N /\ byte_at m 1 0 0 = Some 1%N.
Proof.
  eexists. split; [vm_compute; reflexivity|]. split; [split; cbn; lia|]. split; [vm_compute; reflexivity|]. split; [vm_compute; reflexivity|].
  split; [split; cbn; lia|]. split; vm_compute; reflexivity.
Qed.
Print Assumptions opencv_mask_refuted.
(** Every mask that begins left of the image, or above it, is written outside of the memory of the matrix. *)
Theorem opencv_mask_outside_refuted : forall x y w h data, 0 < w -> 0 < h -> List.length data = Z.to_nat (w * h) ->
  y * w + x < 0 -> 0 <= w + x -> 0 <= h + y -> in_int x = true -> in_int y = true -> region_to_mat (RMask x y w h data) = UB.
Proof. exact mask_left_above. Qed.
Print Assumptions opencv_mask_outside_refuted.
Example opencv_mask_outside_case : region_to_mat (RMask (-1) 0 3 2 [1; 1; 1; 1; 1; 1]%N) = UB.
Proof. apply opencv_mask_outside_refuted; vm_compute; try reflexivity; discriminate. Qed.
(** A column cut out of a matrix: the mask gets pixels of the neighbouring column. *)
Theorem opencv_submatrix_refuted : exists m d, mat_ok m /\ m_kind m = U8C1 /\ mat_to_region m = Ok (Some (1, 2, d)) /\
  inside m 1 0 /\ byte_at m 1 0 0 = Some 3%N /\ nth 1 d None = Some 2%N.
Proof.
  exists (mkMat 2 1 U8C1 (map Some [1; 2; 3; 4]%N) 0 2). eexists.
  split; [split; [reflexivity|split; [reflexivity|intros r c [Hr Hc]; cbn [m_rows m_cols m_start m_step m_kind m_block channels map List.length] in *; lia]]|].
  split; [reflexivity|]. split; [vm_compute; reflexivity|]. split; [split; cbn; lia|]. split; vm_compute; reflexivity.
Qed.
Print Assumptions opencv_submatrix_refuted.

(** ---- C84: rectangles and points ---- *)
(** Rectangles of OpenCV keep their numbers up to 2^24. *)
Theorem opencv_rect_partial : forall legacy x y w h, (forall v, In v [x; y; w; h] -> Z.abs v <= 2 ^ 24) ->
  region_to_rect legacy (rect_to_region x y w h) = Ok (x, y, w, h).
Proof. exact rect_round_trip. Qed.
Print Assumptions opencv_rect_partial.
Example opencv_rect_case : region_to_rect false (rect_to_region (-5) 16777216 12 0) = Ok (-5, 16777216, 12, 0).
Proof. apply opencv_rect_partial. intros v [<-|[<-|[<-|[<-|[]]]]]; lia. Qed.
(** The numbers of a rectangle of OpenCV are the integers nearest to those of the rectangle region, if these fit an int. *)
Theorem opencv_rounding_partial : forall legacy x y w h,
  (forall v, In v [x; y; w; h] -> finite_float v /\ Z.abs (units v) <= INT_MAX * 2 ^ 1074) ->
  exists a b c d, region_to_rect legacy (RRect x y w h) = Ok (a, b, c, d) /\ nearest a x /\ nearest b y /\ nearest c w /\ nearest d h.
Proof. exact rectangle_rounds. Qed.
Print Assumptions opencv_rounding_partial.
(** 2.5, -0.75, 3, 3 *)
Example opencv_rounding_case :
  region_to_rect false (RRect (S754_finite false 10485760 (-22)) (S754_finite true 12582912 (-24)) (float_of_int 3) (float_of_int 3)) = Ok (3, -1, 3, 3).
Proof. vm_compute. reflexivity. Qed.
(** Lists of at least three points are returned as they were. *)
Theorem opencv_points_partial : forall legacy points, (2 < List.length points)%nat ->
  exists r, points_to_region points = Ok r /\ region_to_points legacy r = Ok points.
Proof. exact points_round_trip. Qed.
Print Assumptions opencv_points_partial.
Example opencv_points_case : exists r, points_to_region [(float_of_int 1, float_of_int 2); (float_of_int 3, float_of_int 4); (float_of_int 0, float_of_int 5)] = Ok r.
Proof. eexists. vm_compute. reflexivity. Qed.
(** Larger numbers change; a region without a rectangle gives uninitialised numbers; two points end the program. *)
Theorem opencv_rect_refuted : region_to_rect false (rect_to_region 16777217 0 1 1) = Ok (16777216, 0, 1, 1) /\
  region_to_rect false (RSpecial 0) = UB /\ points_to_region [(float_of_int 1, float_of_int 2); (float_of_int 3, float_of_int 4)] = Abort.
Proof. split; [vm_compute; reflexivity|]. split; vm_compute; reflexivity. Qed.
Print Assumptions opencv_rect_refuted.
