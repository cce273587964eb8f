(** Model of the images and masks of the Python bindings: support/python/trax/image.py and the class Mask of
    support/python/trax/region.py, with the NumPy arrays they exchange.
    NumPy is modelled as far as it is used: an array is a view into memory given by a start, a shape and strides; ascontiguousarray
    gives an array with the same elements, stored one after the other, the last index running fastest; ones and empty give arrays
    stored in this way; pad with the mode constant puts zeros before the rows and columns and refuses negative widths.
    Simplifications: ctypes turns Python integers into C ints modulo 2^32; sizes beyond int are UB (as in the models of the C functions). *)
From Verif Require Import CBase Buffer Num Region RegionGeom Image PyText.
Local Open Scope Z_scope.

(** ---- Arrays ---- *)

(** The type of elements: the kind and the number of bytes *)
Inductive kind := KUInt | KInt | KBool | KFloat.
Record ndarray := mkArray {
  a_kind : kind; a_item : Z; a_shape : list Z; a_strides : list Z;
  a_start : Z;            (* offset of the first element (array.ctypes.data) *)
  a_memory : list N       (* the memory the array looks into *)
}.
(** Reading [n] bytes of memory from an offset on *)
Definition load (memory : list N) (off n : Z) : outcome (list N) :=
  if (0 <=? off) && (0 <=? n) && (off + n <=? Z.of_nat (List.length memory))
  then Ok (firstn (Z.to_nat n) (skipn (Z.to_nat off) memory)) else UB.
Definition size (shape : list Z) : Z := fold_right Z.mul 1 shape.
Definition nbytes (a : ndarray) : Z := a_item a * size (a_shape a).
(** Strides of arrays whose last index runs fastest *)
Fixpoint contiguous_strides (item : Z) (shape : list Z) : list Z :=
  match shape with
  | [] => []
  | _ :: shape' => item * size shape' :: contiguous_strides item shape'
  end.
(** The bytes of all elements, the last index running fastest *)
Fixpoint count_from (n : nat) (i : Z) : list Z := match n with O => [] | S n' => i :: count_from n' (i + 1) end.
Fixpoint collect (l : list Z) (f : Z -> outcome (list N)) : outcome (list N) :=
  match l with
  | [] => Ok []
  | i :: l' => a <- f i ;; b <- collect l' f ;; Ok (a ++ b)
  end.
Fixpoint elements (memory : list N) (item : Z) (shape strides : list Z) (start : Z) : outcome (list N) :=
  match shape, strides with
  | n :: shape', s :: strides' => collect (count_from (Z.to_nat n) 0) (fun i => elements memory item shape' strides' (start + i * s))
  | _, _ => load memory start item
  end.
(** A new array that is stored contiguously *)
Definition new_array (k : kind) (item : Z) (shape : list Z) (bytes : list N) : ndarray :=
  mkArray k item shape (contiguous_strides item shape) 0 bytes.
Definition ascontiguousarray (a : ndarray) : outcome ndarray :=
  b <- elements (a_memory a) (a_item a) (a_shape a) (a_strides a) (a_start a) ;; Ok (new_array (a_kind a) (a_item a) (a_shape a) b).
(** The conversion of a Python integer to a C int *)
Definition c_int (z : Z) : Z := int_of_long z.

(** ---- Images in memory ---- *)

(** image.py:231-233 *)
Definition IMAGE_MEMORY_GRAY8 : Z := 1.
Definition IMAGE_MEMORY_GRAY16 : Z := 2.
Definition IMAGE_MEMORY_RGB : Z := 3.
(** image.py:264-275: the format, 0 if there is none *)
Definition array_format (shape : list Z) (item : Z) : Z :=
  match shape with
  | [_; _; 3] => if item =? 1 then IMAGE_MEMORY_RGB else 0
  | [_; _] | _ :: _ :: 1 :: _ => if item =? 1 then IMAGE_MEMORY_GRAY8 else if item =? 2 then IMAGE_MEMORY_GRAY16 else 0
  | _ => 0
  end.
(** image.py:241-282, MemoryImage.create *)
Definition memory_image_create (image : ndarray) : py Image.image :=
  image <~ lift (ascontiguousarray image) ;;
  match a_shape image with
  | height :: width :: _ =>
      let format := array_format (a_shape image) (a_item image) in
      if format =? 0 then raise TraxException
      else
        lift (timage <- image_create_memory (c_int width) (c_int height) format ;;
              off <- image_memory_row timage 0 ;;
              bytes <- load (a_memory image) (a_start image) (nbytes image) ;;
              d <- blk_write_list (i_data timage) (Z.to_nat off) bytes ;;
              Ok (mkImage (i_type timage) (i_width timage) (i_height timage) (i_format timage) d))
  | _ => raise IndexError
  end.
(** image.py:236 and 299; None: a KeyError (no format that the header can show) *)
Definition format_type (format : Z) : option (Z * Z) :=
  if format =? IMAGE_MEMORY_RGB then Some (3, 1)
  else if format =? IMAGE_MEMORY_GRAY8 then Some (1, 1)
  else if format =? IMAGE_MEMORY_GRAY16 then Some (1, 2) else None.
(** image.py:296-314, array *)
Definition memory_image_array (im : Image.image) : py ndarray :=
  h <~ lift (image_get_memory_header im) ;;
  let '(width, height, format) := h in
  match format_type format with
  | None => raise IndexError
  | Some (channels, item) =>
      let shape := [height; width; channels] in
      lift (off <- image_memory_row im 0 ;;
            bytes <- blk_read (skipn (Z.to_nat off) (i_data im)) (Z.to_nat (item * size shape)) ;;
            Ok (new_array KUInt item shape bytes))
  end.

(** ---- Other images ---- *)

(** image.py:179-181 and 190-191, FileImage, image.py:197-204 and 222-228, URLImage *)
Definition file_image_create (path : text) : py Image.image := p <~ encode path ;; lift (image_create_path (c_string p)).
Definition file_image_path (im : Image.image) : py text := p <~ lift (image_get_path im) ;; decode p.
Definition url_image_create (url : text) : py Image.image := u <~ encode url ;; lift (image_create_url (c_string u)).
Definition url_image_url (im : Image.image) : py text := u <~ lift (image_get_url im) ;; decode u.
(** image.py:324-332, BufferImage.create; a bytes object is followed by a NUL *)
Definition buffer_image_create (data : list N) : py Image.image :=
  lift (image_create_buffer (c_int (Z.of_nat (List.length data))) (data ++ [0%N])).
(** image.py:345-354, buffer *)
Definition buffer_image_buffer (im : Image.image) : py (list N) := r <~ lift (image_get_buffer im) ;; ret (snd r).
(** image.py:317-320 and 334-339: the name of the format in the description (str) *)
Definition IMAGE_BUFFER_JPEG : Z := 1.
Definition IMAGE_BUFFER_PNG : Z := 2.
Definition buffer_image_format (im : Image.image) : py (list N) :=
  r <~ lift (image_get_buffer im) ;;
  let '(length, format, bytes) := r in
  if format =? IMAGE_BUFFER_JPEG then ret (str "jpeg") else if format =? IMAGE_BUFFER_PNG then ret (str "png") else raise IndexError.

(** ---- Masks ---- *)

(** region.py:333-352, Mask.create: the bytes are taken from the start of the array on, whatever its strides are *)
Definition mask_create (source : ndarray) (x y : Z) : py region :=
  match a_shape source, a_kind source, a_item source with
  | [rows; cols], KUInt, 1 =>
      let width := c_int cols in let height := c_int rows in
      lift (b <- create_mask width height ;;
            bytes <- load (a_memory source) (a_start source) (nbytes source) ;;
            b <- blk_write_list b 0 bytes ;;
            l <- blk_read b (List.length b) ;;
            Ok (RMask (c_int x) (c_int y) width height l))
  | _, _, _ => raise AssertionError
  end.
(** region.py:375-384 (size) and 386-395 (offset) *)
Definition mask_size (r : region) : py (Z * Z) := match r with RMask _ _ w h _ => ret (w, h) | _ => lift Abort end.
Definition mask_offset (r : region) : py (Z * Z) := match r with RMask x y _ _ _ => ret (x, y) | _ => lift Abort end.
(** region.py:397-408, get: an int is compared with a tuple *)
Definition mask_get (r : region) (i : Z) : py (Z * Z) :=
  if i <? 0 then raise IndexError else s <~ mask_size r ;; raise TypeError.
(** numpy.pad: zeros before every row, rows of zeros before the rows *)
Fixpoint pad_rows (h w x : nat) (data : list N) : list N :=
  match h with
  | O => []
  | S h' => repeat 0%N x ++ firstn w data ++ pad_rows h' w x (skipn w data)
  end.
Definition pad (a : ndarray) (x y : Z) : py ndarray :=
  match a_shape a with
  | [h; w] =>
      if (x <? 0) || (y <? 0) then raise ValueError
      else ret (new_array (a_kind a) (a_item a) [h + y; w + x]
                  (repeat 0%N (Z.to_nat (y * (w + x))) ++ pad_rows (Z.to_nat h) (Z.to_nat w) (Z.to_nat x) (a_memory a)))
  | _ => raise ValueError
  end.
(** region.py:410-432, array *)
Definition mask_array (r : region) (normalize : bool) : py ndarray :=
  match r with
  | RMask x y width height data =>
      mat <~ lift (bytes <- load data 0 (width * height) ;; Ok (new_array KUInt 1 [height; width] bytes)) ;;
      if normalize then pad mat x y else ret mat
  | _ => lift Abort
  end.
