(** Model of image_get_size, support/client/cli.cpp:184-277, which reads the size of an image from its header. *)
From Verif Require Import CBase Num Region.
Local Open Scope Z_scope.

(** What the function looks at: the file behind a path image (None: it cannot be opened), the data of a buffer image, the size of a
    memory image, or a URL.  File contents and data are bytes. *)
Inductive picture := PPath (file : option (list N)) | PBuffer (data : list N) | PMemory (width height : Z) | PUrl.
(** The bytes buf[0] to buf[23] *)
Definition byte (buf : list N) (i : nat) : Z := Z.of_N (nth i buf 0%N).
Definition has (buf : list N) (i : nat) (v : Z) : bool := byte buf i =? v.
(** 236: the markers of a JPEG frame header that are known *)
Definition frame_marker (m : Z) : bool := (m =? 192) || (m =? 193) || (m =? 194) || (m =? 195) || (m =? 201) || (m =? 202) || (m =? 203).
(** 230-243: from chunk to chunk; the twelve bytes at [pos] are read to buf[2] and the following places *)
Fixpoint jpeg_scan (fuel : nat) (file buf : list N) (pos : Z) : outcome (list N) :=
  match fuel with
  | O => NoFuel
  | S fuel' =>
      if has buf 2 255 then
        if frame_marker (byte buf 3) then Ok buf
        else
          let pos' := pos + 2 + 256 * byte buf 4 + byte buf 5 in
          if Z.of_nat (List.length file) <? pos' + 12 then Ok buf
          else jpeg_scan fuel' file (firstn 2 buf ++ firstn 12 (skipn (Z.to_nat pos') file) ++ skipn 14 buf) pos'
      else Ok buf
  end.
(** 229: a JFIF file *)
Definition is_jfif (buf : list N) : bool :=
  has buf 0 255 && has buf 1 216 && has buf 2 255 && has buf 3 224 && has buf 6 74 && has buf 7 70 && has buf 8 73 && has buf 9 70.
(** 256-277: the last format that matches decides; [result] is the size if none does, None if it was never set *)
Definition jpeg_header (buf : list N) : bool := has buf 0 255 && has buf 1 216 && has buf 2 255.
Definition gif_header (buf : list N) : bool := has buf 0 71 && has buf 1 73 && has buf 2 70.
Definition png_header (buf : list N) : bool :=
  has buf 0 137 && has buf 1 80 && has buf 2 78 && has buf 3 71 && has buf 4 13 && has buf 5 10 && has buf 6 26 && has buf 7 10 &&
  has buf 12 73 && has buf 13 72 && has buf 14 68 && has buf 15 82.
(** A shift into the sign bit is undefined *)
Definition big_endian (buf : list N) (i : nat) : outcome Z :=
  int_result (16777216 * byte buf i + 65536 * byte buf (i + 1) + 256 * byte buf (i + 2) + byte buf (i + 3)).
Definition header_size (buf : list N) (result : option (Z * Z)) : outcome (Z * Z) :=
  if png_header buf then w <- big_endian buf 16 ;; h <- big_endian buf 20 ;; Ok (w, h)
  else if gif_header buf then Ok (byte buf 6 + 256 * byte buf 7, byte buf 8 + 256 * byte buf 9)
  else if jpeg_header buf then Ok (256 * byte buf 9 + byte buf 10, 256 * byte buf 7 + byte buf 8)
  else match result with Some r => Ok r | None => UB end.
(** The whole function.  A size that was never set, and contents of buf that were never set, are undefined.  Simplification: reading
    a file does not fail, and it is shorter than 2^31 bytes. *)
Definition image_get_size (p : picture) : outcome (Z * Z) :=
  match p with
  | PMemory w h => Ok (w, h)
  | PPath None => Ok (-1, -1)
  | PPath (Some file) =>
      if (List.length file <? 24)%nat then Ok (-1, -1)
      else
        let buf := firstn 24 file in
        buf' <- (if is_jfif buf then jpeg_scan (S (List.length file)) file buf 2 else Ok buf) ;;
        header_size buf' (Some (-1, -1))
  | PBuffer data => if (List.length data <? 24)%nat then UB else header_size (firstn 24 data) None
  | PUrl => UB
  end.
