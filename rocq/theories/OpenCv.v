(** Model of support/opencv/opencv.cpp: conversions between TraX objects and OpenCV matrices.
    OpenCV itself is modelled as far as these functions use it: matrices are headers over memory, cvtColor(BGR2RGB) wants three channels and
    throws otherwise, a matrix of negative size cannot be created.  The result None means that an exception was thrown.
    Simplification: matrices with four channels are not represented (mat_to_image refuses them); references and releases are left out. *)
From Coq Require Import Floats.SpecFloat.
From Verif Require Import CBase Buffer Num FloatOps Region RegionGeom Image.
Local Open Scope Z_scope.

(** cv::Mat: rows, columns, element type, memory, index of the first byte of data, distance of rows in bytes *)
Inductive kind := U8C1 | U16C1 | U8C3 | OtherKind.
Record mat := mkMat { m_rows : Z; m_cols : Z; m_kind : kind; m_block : block N; m_start : Z; m_step : Z }.
Definition element_size (k : kind) : Z := match k with U8C1 => 1 | U16C1 => 2 | U8C3 => 3 | OtherKind => 4 end.

(** Memory accesses of copies: bytes that were never set may be copied *)
Definition load (b : block N) (i : Z) : outcome (option N) :=
  if 0 <=? i then match nth_error b (Z.to_nat i) with Some v => Ok v | None => UB end else UB.
Fixpoint gather {A} (n : nat) (i : Z) (f : Z -> outcome (list A)) : outcome (list A) :=
  match n with
  | O => Ok []
  | S n' => x <- f i ;; y <- gather n' (i + 1) f ;; Ok (x ++ y)
  end.
(** memcpy: [n] bytes from index [i] on *)
Definition load_bytes (b : block N) (i : Z) (n : nat) : outcome (block N) := gather n i (fun j => v <- load b j ;; Ok [v]).
(** memcpy: store the bytes [l] from index [i] on; a copy of no bytes touches nothing *)
Definition store_bytes (b : block N) (i : Z) (l : block N) : outcome (block N) :=
  if (0 <=? i) && (i + Z.of_nat (List.length l) <=? Z.of_nat (List.length b))
  then Ok (firstn (Z.to_nat i) b ++ l ++ skipn (Z.to_nat i + List.length l) b)
  else UB.

(** cv::Mat(rows, cols, type): new memory, not initialised; None: exception (negative size) *)
Definition new_mat (rows cols : Z) (k : kind) : option mat :=
  if (rows <? 0) || (cols <? 0) then None
  else Some (mkMat rows cols k (blk_new (Z.to_nat (rows * cols * element_size k))) 0 (cols * element_size k)).
(** cv::cvtColor(src, dst, COLOR_BGR2RGB): the bytes of the result, row after row; None: exception *)
Definition swapped (m : mat) (r c : Z) : outcome (block N) :=
  let i := m_start m + r * m_step m + c * 3 in
  a0 <- load (m_block m) i ;; a1 <- load (m_block m) (i + 1) ;; a2 <- load (m_block m) (i + 2) ;; Ok [a2; a1; a0].
Definition bgr_to_rgb (m : mat) : outcome (option (block N)) :=
  match m_kind m with
  | U8C3 =>
      l <- gather (Z.to_nat (m_rows m)) 0 (fun r => gather (Z.to_nat (m_cols m)) 0 (fun c => swapped m r c)) ;;
      Ok (Some l)
  | _ => Ok None
  end.

(** support/opencv/opencv.cpp:87-110 *)
Definition mat_to_image (m : mat) : outcome (option image) :=
  match (match m_kind m with
         | U8C1 => Some TRAX_IMAGE_MEMORY_GRAY8 | U16C1 => Some TRAX_IMAGE_MEMORY_GRAY16 | U8C3 => Some TRAX_IMAGE_MEMORY_RGB
         | OtherKind => None
         end) with
  | None => Ok None
  | Some format =>
      im <- image_create_memory (m_cols m) (m_rows m) format ;;
      off <- image_memory_row im 0 ;;
      r <- bgr_to_rgb m ;;
      match r with
      | None => Ok None
      | Some l =>
          d <- store_bytes (i_data im) off l ;;
          Ok (Some (mkImage (i_type im) (i_width im) (i_height im) (i_format im) d))
      end
  end.
(** support/opencv/opencv.cpp:19-32: the memory case of image_to_mat *)
Definition image_to_mat (im : image) : outcome (option mat) :=
  h <- image_get_memory_header im ;;
  let '(width, height, format) := h in
  off <- image_memory_row im 0 ;;
  let k := if format =? TRAX_IMAGE_MEMORY_RGB then U8C3 else if format =? TRAX_IMAGE_MEMORY_GRAY8 then U8C1 else U16C1 in
  r <- bgr_to_rgb (mkMat height width k (i_data im) off (width * element_size k)) ;;
  match r with
  | None => Ok None
  | Some l => Ok (Some (mkMat height width k l 0 (width * element_size k)))
  end.

(** support/opencv/opencv.cpp:132-146 *)
Definition copy_mask_row (x y width : Z) (data : list N) (i : Z) (b : block N) : outcome (block N) :=
  row <- int_result (width * i) ;;
  l <- load_bytes (map Some data) row (Z.to_nat width) ;;
  a <- int_result (i + y) ;; p <- int_result (a * width) ;; q <- int_result (p + x) ;;
  store_bytes b q l.
Definition region_to_mat (r : region) : outcome (option mat) :=
  match r with
  | RMask x y width height data =>
      rows <- int_result (height + y) ;; cols <- int_result (width + x) ;;
      match new_mat rows cols U8C1 with
      | None => Ok None
      | Some m =>
          b <- for_range (Z.to_nat height) 0 (fun i b => copy_mask_row x y width data i b) (m_block m) ;;
          Ok (Some (mkMat rows cols U8C1 b 0 cols))
      end
  | _ => Abort
  end.
(** support/opencv/opencv.cpp:148-157: the region is returned with its memory, as bytes never set are copied too *)
Definition mat_to_region (m : mat) : outcome (option (Z * Z * block N)) :=
  match m_kind m with
  | U8C1 =>
      b <- create_mask (m_cols m) (m_rows m) ;;
      n <- int_result (m_cols m * m_rows m) ;;
      l <- load_bytes (m_block m) (m_start m) (Z.to_nat n) ;;
      d <- store_bytes b 0 l ;;
      Ok (Some (m_cols m, m_rows m, d))
  | _ => Ok None
  end.

(** support/opencv/opencv.cpp:48-66: round gives a double, which is converted to int; the coordinates are not initialised if the region has
    no rectangle *)
Definition round_to_int (x : spec_float) : outcome Z := int_of_float (fround x).
Definition region_to_rect (legacy : bool) (r : region) : outcome (Z * Z * Z * Z) :=
  c <- convert legacy r RECTANGLE ;;
  match c with
  | Some (RRect x y w h) =>
      a <- round_to_int x ;; b <- round_to_int y ;; c <- round_to_int w ;; d <- round_to_int h ;; Ok (a, b, c, d)
  | _ => UB
  end.
(** support/opencv/opencv.cpp:112-116 *)
Definition rect_to_region (x y w h : Z) : region := RRect (float_of_int x) (float_of_int y) (float_of_int w) (float_of_int h).
(** support/opencv/opencv.cpp:68-85: one point after the other *)
Definition region_to_points (legacy : bool) (r : region) : outcome (list (spec_float * spec_float)) :=
  c <- convert legacy r POLYGON ;;
  match c with
  | Some (RPoly points) =>
      gather (List.length points) 0
        (fun i => match nth_error points (Z.to_nat i) with Some p => Ok [p] | None => UB end)
  | _ => Ok []
  end.
(** support/opencv/opencv.cpp:118-130, src/region.c:764-779: the points of the new polygon are set one after the other; the polygon wants
    at least three.  Simplification: fewer than 2^31 points. *)
Definition points_to_region (points : list (spec_float * spec_float)) : outcome region :=
  if (2 <? List.length points)%nat then
    b <- blk_write_list (blk_new (List.length points)) 0 points ;;
    l <- blk_read b (List.length points) ;;
    Ok (RPoly l)
  else Abort.
