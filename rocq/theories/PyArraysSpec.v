(** Specification of NumPy arrays as functions from indices to bytes *)
From Verif Require Import CBase PyArrays Image ImageSpec.
Local Open Scope Z_scope.

(** The address of an element *)
Fixpoint address (start : Z) (strides idx : list Z) : Z :=
  match strides, idx with
  | s :: strides', i :: idx' => address (start + i * s) strides' idx'
  | _, _ => start
  end.
(** Byte [k] of the element with an index; None: outside of the memory *)
Definition byte (a : ndarray) (idx : list Z) (k : Z) : option N :=
  let p := address (a_start a) (a_strides a) idx + k in
  if p <? 0 then None else nth_error (a_memory a) (Z.to_nat p).
Definition inside (shape idx : list Z) : Prop := Forall2 (fun n i => 0 <= i < n) shape idx.
(** Every element lies in the memory. *)
Definition valid (a : ndarray) : Prop :=
  List.length (a_strides a) = List.length (a_shape a) /\ 0 < a_item a /\
  forall idx, inside (a_shape a) idx ->
    0 <= address (a_start a) (a_strides a) idx /\
    address (a_start a) (a_strides a) idx + a_item a <= Z.of_nat (List.length (a_memory a)).

(** The arrays that are images of unsigned integers: height, width, number and size of channels, pixel format, the index of channel c of the
    pixel in row y and column x *)
Inductive picture : ndarray -> Z -> Z -> Z -> Z -> Z -> (Z -> Z -> Z -> list Z) -> Prop :=
| picture_gray8 a h w : a_kind a = KUInt -> a_item a = 1 -> a_shape a = [h; w] ->
    picture a h w 1 1 TRAX_IMAGE_MEMORY_GRAY8 (fun y x c => [y; x])
| picture_gray16 a h w : a_kind a = KUInt -> a_item a = 2 -> a_shape a = [h; w] ->
    picture a h w 1 2 TRAX_IMAGE_MEMORY_GRAY16 (fun y x c => [y; x])
| picture_gray8_1 a h w : a_kind a = KUInt -> a_item a = 1 -> a_shape a = [h; w; 1] ->
    picture a h w 1 1 TRAX_IMAGE_MEMORY_GRAY8 (fun y x c => [y; x; c])
| picture_gray16_1 a h w : a_kind a = KUInt -> a_item a = 2 -> a_shape a = [h; w; 1] ->
    picture a h w 1 2 TRAX_IMAGE_MEMORY_GRAY16 (fun y x c => [y; x; c])
| picture_rgb a h w : a_kind a = KUInt -> a_item a = 1 -> a_shape a = [h; w; 3] ->
    picture a h w 3 1 TRAX_IMAGE_MEMORY_RGB (fun y x c => [y; x; c]).
(** The byte of the image in the C library *)
Definition pixel_byte (im : image) (pos : Z) : option N :=
  match nth_error (i_data im) (Z.to_nat pos) with Some v => v | None => None end.
(** A mask that is stored row by row without gaps *)
Definition packed_mask (a : ndarray) (h w : Z) : Prop :=
  valid a /\ a_kind a = KUInt /\ a_item a = 1 /\ a_shape a = [h; w] /\ a_strides a = [w; 1].
