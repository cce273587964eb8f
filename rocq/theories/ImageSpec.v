(** Vocabulary for the image properties: pixel formats, file signatures, the texts documented in docs/protocol.rst. *)
From Verif Require Import CBase Image NumSpec Base64Spec.
Local Open Scope Z_scope.

(** Pixel formats: name in the protocol and bytes per pixel (8-bit gray, 16-bit gray, 3 x 8-bit RGB) *)
Inductive pixel_format : Z -> list N -> Z -> Prop :=
| fmt_gray8 : pixel_format TRAX_IMAGE_MEMORY_GRAY8 (str "gray8") 1
| fmt_gray16 : pixel_format TRAX_IMAGE_MEMORY_GRAY16 (str "gray16") 2
| fmt_rgb : pixel_format TRAX_IMAGE_MEMORY_RGB (str "rgb") 3.

(** The caller creates a raw image and stores its pixels behind the address of the first row. *)
Definition memory_image (w h f : Z) (pixels : list N) (img : image) : Prop :=
  exists img0, image_create_memory w h f = Ok img0 /\ image_write_row img0 0 pixels = Ok img.

(** What a program sees of a raw image: header and pixels *)
Definition shows_pixels (img : image) (w h f : Z) (pixels : list N) : Prop :=
  image_get_memory_header img = Ok (w, h, f) /\ image_read_row img 0 (List.length pixels) = Ok pixels.

(** Signatures of image files the library recognises, and their media types *)
Inductive file_format : Z -> list N -> list N -> Prop :=
| fmt_jpeg : file_format TRAX_IMAGE_BUFFER_JPEG (str "image/jpeg") [255; 216; 255; 224]%N
| fmt_png : file_format TRAX_IMAGE_BUFFER_PNG (str "image/png") [137; 80; 78; 71]%N.

(** scheme ":" rest, with a scheme the protocol can carry *)
Definition uri (s r u : list N) : Prop :=
  u = s ++ [58%N] ++ r /\ (List.length s < 16)%nat /\
  forall c, In c s -> ((97 <= c <= 122) \/ c = 43 \/ c = 46 \/ c = 45)%N.

Definition no_nul (s : list N) : Prop := ~ In 0%N s.

(** Sizes whose text form has a length that fits in an int *)
Definition moderate (n : Z) : Prop := n <= 1600000000.

(** The bytes of a row in a raw image *)
Definition in_row (off len i : Z) : Prop := off <= i < off + len.
