(** Properties C98 and C99: images and masks of the Python bindings *)
From Coq Require Import Lia.
From Verif Require Import CBase Num Region Image ImageSpec PyText PyTextSpec PyArrays PyArraysSpec PyArraysProofs.
Local Open Scope Z_scope.

(** C98, images in memory, for arrays of unsigned integers in one of the three formats, whatever their strides: the image has the size of the
    array, its pixels lie row by row in the C library, and array() gives them back with a third index. *)
Theorem python_memory_image_partial : forall a h w ch item f ix, picture a h w ch item f ix -> valid a -> 1 <= h -> 1 <= w ->
  h * w * (ch * item) <= INT_MAX ->
  exists im b, memory_image_create a = ret im /\ image_get_memory_header im = Ok (w, h, f) /\ memory_image_array im = ret b /\
    a_kind b = KUInt /\ a_item b = item /\ a_shape b = [h; w; ch] /\
    forall y x c k, 0 <= y < h -> 0 <= x < w -> 0 <= c < ch -> 0 <= k < item ->
      pixel_byte im (((y * w + x) * ch + c) * item + k) = byte a (ix y x c) k /\ byte b [y; x; c] k = byte a (ix y x c) k.
Proof. exact memory_lemma. Qed.
Print Assumptions python_memory_image_partial.
(** Every second column of a picture of 2 x 4 pixels, transposed *)
Example python_memory_image_case :
  let a := mkArray KUInt 1 [2; 2] [2; 4] 0 [1; 2; 3; 4; 5; 6; 7; 8]%N in
  picture a 2 2 1 1 TRAX_IMAGE_MEMORY_GRAY8 (fun y x c => [y; x]) /\ valid a /\
  exists im, memory_image_create a = ret im /\ memory_image_array im = ret (new_array KUInt 1 [2; 2; 1] [1; 5; 3; 7]%N).
Proof.
  split; [constructor; reflexivity|]. split.
  - split; [reflexivity|]. split; [reflexivity|]. intros idx I. cbn [a_shape a_strides a_start a_item a_memory] in *.
    inversion I as [|? i ? idx' Hi I']; subst. inversion I' as [|? j ? idx2 Hj I2]; subst. inversion I2; subst. cbn [address List.length]. lia.
  - eexists. split; [vm_compute; reflexivity|]. vm_compute. reflexivity.
Qed.
(** Arrays of two or three dimensions in no format are refused: elements of other sizes than 1 and 2, colours of 16 bit, or other numbers
    of channels than 1 and 3 *)
Theorem python_image_refused : forall a h w, valid a -> positive (a_shape a) ->
  (a_shape a = [h; w] /\ a_item a <> 1 /\ a_item a <> 2) \/ (a_shape a = [h; w; 3] /\ a_item a <> 1) \/
  (exists c, a_shape a = [h; w; c] /\ c <> 3 /\ (c = 1 -> a_item a <> 1 /\ a_item a <> 2)) ->
  memory_image_create a = raise TraxException.
Proof. exact image_refused_lemma. Qed.
Print Assumptions python_image_refused.
Example python_image_refused_case :
  let a := mkArray KUInt 2 [1; 1; 3] [6; 6; 2] 0 [1; 2; 3; 4; 5; 6]%N in valid a /\ positive (a_shape a) /\ a_item a <> 1.
Proof.
  split; [|split; [repeat (constructor; [lia|]); constructor|discriminate]].
  split; [reflexivity|]. split; [reflexivity|]. intros idx I. cbn [a_shape a_strides a_start a_item a_memory] in *.
  inversion I as [|? i ? idx' Hi I']; subst. inversion I' as [|? j ? idx2 Hj I2]; subst. inversion I2 as [|? k ? idx3 Hk I3]; subst. inversion I3; subst.
  cbn [address List.length]. lia.
Qed.
(** Image files in memory *)
Theorem python_buffer_image_partial : forall f name sig d, file_format f name sig -> d <> [] -> Z.of_nat (List.length (sig ++ d)) <= INT_MAX ->
  exists im, buffer_image_create (sig ++ d) = ret im /\ buffer_image_buffer im = ret (sig ++ d).
Proof. exact buffer_lemma. Qed.
Print Assumptions python_buffer_image_partial.
Example python_buffer_image_case : exists im,
  buffer_image_create [137; 80; 78; 71; 0; 1]%N = ret im /\ buffer_image_buffer im = ret [137; 80; 78; 71; 0; 1]%N.
Proof. eexists. split; [vm_compute; reflexivity|]. vm_compute. reflexivity. Qed.
(** Paths and addresses that are texts without NUL and lone surrogates *)
Theorem python_path_partial : forall p, plain p -> exists im, file_image_create p = ret im /\ file_image_path im = ret p.
Proof. exact path_lemma. Qed.
Print Assumptions python_path_partial.
Theorem python_url_partial : forall u, plain u -> exists im, url_image_create u = ret im /\ url_image_url im = ret u.
Proof. exact url_lemma. Qed.
Print Assumptions python_url_partial.
Example python_path_case : exists im, file_image_create [252; 47; 12450]%N = ret im /\ file_image_path im = ret [252; 47; 12450]%N.
Proof. eexists. split; [vm_compute; reflexivity|]. vm_compute. reflexivity. Qed.
(** C98 is violated: an array with a fourth dimension is accepted and written beyond the memory of the image, ... *)
Theorem four_dimensions_refuted : forall a h w k, valid a -> a_shape a = [h; w; 1; k] -> a_item a = 1 -> 1 <= h -> 1 <= w -> 2 <= k -> h * w <= INT_MAX ->
  memory_image_create a = UB.
Proof. exact four_dims_lemma. Qed.
Print Assumptions four_dimensions_refuted.
Example four_dimensions_case : memory_image_create (new_array KUInt 1 [1; 2; 1; 3] [1; 2; 3; 4; 5; 6]%N) = UB.
Proof. vm_compute. reflexivity. Qed.
(** ... an array without rows ends the process, ... *)
Theorem no_rows_refuted : forall a w, a_shape a = [0; w] -> a_item a = 1 -> List.length (a_strides a) = 2%nat -> 1 <= w <= INT_MAX ->
  memory_image_create a = Abort.
Proof. exact no_rows_lemma. Qed.
Print Assumptions no_rows_refuted.
Example no_rows_case : memory_image_create (new_array KUInt 1 [0; 3] []) = Abort.
Proof. vm_compute. reflexivity. Qed.
(** ... the bytes of half precision numbers and of signed numbers are taken for unsigned integers, ... *)
Theorem other_elements_refuted : exists im im',
  memory_image_create (new_array KFloat 2 [1; 1] [0; 60]%N) = ret im /\ memory_image_array im = ret (new_array KUInt 2 [1; 1; 1] [0; 60]%N) /\
  memory_image_create (new_array KInt 1 [1; 1] [255]%N) = ret im' /\ memory_image_array im' = ret (new_array KUInt 1 [1; 1; 1] [255]%N).
Proof.
  eexists _, _. split; [vm_compute; reflexivity|]. split; [vm_compute; reflexivity|]. split; [vm_compute; reflexivity|]. vm_compute. reflexivity.
Qed.
Print Assumptions other_elements_refuted.
(** ... data that is no JPEG (JFIF) or PNG file ends the process, ... *)
Theorem other_data_refuted : forall data, Z.of_nat (List.length data) <= INT_MAX ->
  (forall f name sig d, file_format f name sig -> d <> [] -> data <> sig ++ d) -> buffer_image_create data = Abort.
Proof. exact other_data_lemma. Qed.
Print Assumptions other_data_refuted.
Example other_data_case : buffer_image_create (str "GIF89a") = Abort.
Proof. vm_compute. reflexivity. Qed.
(** ... and the description of a PNG file calls it a JPEG file, and the other way round. *)
Theorem buffer_description_refuted : forall f name sig d im, file_format f name sig -> d <> [] -> Z.of_nat (List.length (sig ++ d)) <= INT_MAX ->
  buffer_image_create (sig ++ d) = ret im ->
  buffer_image_format im = ret (if f =? TRAX_IMAGE_BUFFER_PNG then str "jpeg" else str "png").
Proof. exact jpeg_png_named. Qed.
Print Assumptions buffer_description_refuted.
Example buffer_description_case : exists im, buffer_image_create [137; 80; 78; 71; 0; 1]%N = ret im /\ buffer_image_format im = ret (str "jpeg").
Proof. eexists. split; [vm_compute; reflexivity|]. vm_compute. reflexivity. Qed.

(** C99, for masks that are stored row by row without gaps: the region has the given position and the pixels of the array, array() gives
    them back, and with normalize the array starts at the origin of the image. *)
Theorem python_mask_partial : forall a h w x y, packed_mask a h w -> 1 <= h -> 1 <= w -> h * w <= INT_MAX ->
  INT_MIN <= x <= INT_MAX -> INT_MIN <= y <= INT_MAX ->
  exists data b, mask_create a x y = ret (RMask x y w h data) /\
    (forall r c, 0 <= r < h -> 0 <= c < w -> nth_error data (Z.to_nat (r * w + c)) = byte a [r; c] 0) /\
    mask_array (RMask x y w h data) false = ret b /\ a_kind b = KUInt /\ a_item b = 1 /\ a_shape b = [h; w] /\
    (forall r c, 0 <= r < h -> 0 <= c < w -> byte b [r; c] 0 = byte a [r; c] 0) /\
    (0 <= x -> 0 <= y -> exists n, mask_array (RMask x y w h data) true = ret n /\ a_kind n = KUInt /\ a_item n = 1 /\ a_shape n = [h + y; w + x] /\
      forall r c, 0 <= r < h + y -> 0 <= c < w + x -> byte n [r; c] 0 = if (y <=? r) && (x <=? c) then byte a [r - y; c - x] 0 else Some 0%N).
Proof. exact mask_lemma. Qed.
Print Assumptions python_mask_partial.
Example python_mask_case :
  let a := mkArray KUInt 1 [2; 2] [2; 1] 1 [9; 1; 0; 1; 1]%N in
  packed_mask a 2 2 /\ exists r, mask_create a 1 1 = ret r /\ mask_array r true = ret (new_array KUInt 1 [3; 3] [0; 0; 0; 0; 1; 0; 0; 1; 1]%N) /\
    mask_size r = ret (2, 2) /\ mask_offset r = ret (1, 1).
Proof.
  split.
  - split; [|split; [reflexivity|split; [reflexivity|split; reflexivity]]].
    split; [reflexivity|]. split; [reflexivity|]. intros idx I. cbn [a_shape a_strides a_start a_item a_memory] in *.
    inversion I as [|? i ? idx' Hi I']; subst. inversion I' as [|? j ? idx2 Hj I2]; subst. inversion I2; subst. cbn [address List.length]. lia.
  - eexists. split; [vm_compute; reflexivity|]. vm_compute. repeat split.
Qed.
(** Arrays of other types or with other dimensions are refused. *)
Theorem python_mask_type : forall a x y, (forall h w, a_shape a <> [h; w]) \/ a_kind a <> KUInt \/ a_item a <> 1 ->
  mask_create a x y = raise AssertionError.
Proof. exact wrong_type_lemma. Qed.
Print Assumptions python_mask_type.
Example python_mask_type_case : a_kind (new_array KBool 1 [1; 1] [1]%N) <> KUInt.
Proof. discriminate. Qed.
(** C99 is violated: a transposed array gives the pixels in the order of the array it was made of, ... *)
Theorem transposed_mask_refuted :
  let a := mkArray KUInt 1 [2; 3] [1; 2] 0 [1; 1; 0; 0; 0; 0]%N in
  valid a /\ byte a [0; 1] 0 = Some 0%N /\ byte a [1; 0] 0 = Some 1%N /\
  exists r b, mask_create a 0 0 = ret r /\ mask_array r false = ret b /\ byte b [0; 1] 0 = Some 1%N /\ byte b [1; 0] 0 = Some 0%N.
Proof.
  split.
  - split; [reflexivity|]. split; [reflexivity|]. intros idx I. cbn [a_shape a_strides a_start a_item a_memory] in *.
    inversion I as [|? i ? idx' Hi I']; subst. inversion I' as [|? j ? idx2 Hj I2]; subst. inversion I2; subst. cbn [address List.length]. lia.
  - split; [vm_compute; reflexivity|]. split; [vm_compute; reflexivity|].
    eexists _, _. split; [vm_compute; reflexivity|]. split; [vm_compute; reflexivity|]. vm_compute. split; reflexivity.
Qed.
Print Assumptions transposed_mask_refuted.
(** ... memory outside of the array is read if its rows are in the reverse order, ... *)
Theorem flipped_mask_refuted : forall memory h w x y, 2 <= h -> 1 <= w -> h * w <= INT_MAX -> Z.of_nat (List.length memory) = h * w ->
  let a := mkArray KUInt 1 [h; w] [- w; 1] ((h - 1) * w) memory in valid a /\ mask_create a x y = UB.
Proof. exact flipped_lemma. Qed.
Print Assumptions flipped_mask_refuted.
Example flipped_mask_case : mask_create (mkArray KUInt 1 [2; 2] [-2; 1] 2 [1; 0; 1; 1]%N) 0 0 = UB.
Proof. vm_compute. reflexivity. Qed.
(** ... an empty array ends the process, ... *)
Theorem empty_mask_refuted : forall a h w x y, a_kind a = KUInt -> a_item a = 1 -> a_shape a = [h; w] ->
  0 <= h <= INT_MAX -> 0 <= w <= INT_MAX -> h = 0 \/ w = 0 -> mask_create a x y = Abort.
Proof. exact empty_mask_lemma. Qed.
Print Assumptions empty_mask_refuted.
Example empty_mask_case : mask_create (new_array KUInt 1 [0; 2] []) 3 4 = Abort.
Proof. vm_compute. reflexivity. Qed.
(** ... a mask left of or above the image cannot be normalized, ... *)
Theorem negative_offset_refuted : forall x y w h data, 0 <= w -> 0 <= h -> Z.of_nat (List.length data) = h * w -> x < 0 \/ y < 0 ->
  mask_array (RMask x y w h data) true = raise ValueError.
Proof. exact negative_offset_lemma. Qed.
Print Assumptions negative_offset_refuted.
Example negative_offset_case : mask_array (RMask (-1) 0 2 1 [1; 1]%N) true = raise ValueError.
Proof. vm_compute. reflexivity. Qed.
(** ... and get fails for every index. *)
Theorem mask_get_refuted : forall x y w h data i, exists e, mask_get (RMask x y w h data) i = raise e.
Proof. exact mask_get_lemma. Qed.
Print Assumptions mask_get_refuted.
