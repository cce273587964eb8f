(** Properties C19 to C23, C54 and C55: images. *)
From Verif Require Import CBase Base64Spec NumSpec Image ImageSpec ImageProofs.
Local Open Scope Z_scope.

(** C19.  A path image sent and decoded is a path image with the same path, whatever the allocator does. *)
Theorem path_image_round_trip : forall path img, no_nul path -> image_create_path path = Ok img ->
  exists text, image_encode img = Ok (Some text) /\ text = str "file://" ++ path /\
    forall slack, exists img', image_decode slack text = Ok (Some img') /\ image_get_path img' = Ok path.
Proof. exact path_round_trip. Qed.
Print Assumptions path_image_round_trip.

Example path_image_nonvacuous : no_nul (str "/data/a:b/000 1.jpg") /\
  exists img, image_create_path (str "/data/a:b/000 1.jpg") = Ok img.
Proof. split; [apply forallb_no_nul; reflexivity|eexists; reflexivity]. Qed.

(** C19, texts from old clients: a bare path (no scheme in front) is a path image. *)
Theorem bare_path_is_path : forall path slack, no_nul path -> (forall s r, ~ uri s r path) ->
  exists img, image_decode slack path = Ok (Some img) /\ image_get_path img = Ok path.
Proof. exact legacy_path. Qed.
Print Assumptions bare_path_is_path.

Example bare_path_nonvacuous : no_nul (str "/data/0001.jpg") /\ forall s r, ~ uri s r (str "/data/0001.jpg").
Proof.
  split; [apply forallb_no_nul; reflexivity|]. intros s r H. apply parse_uri_spec in H. discriminate H.
Qed.

(** C20 is violated for every URL: what the receiver obtains is never the URL that was sent. *)
Theorem url_image_round_trip_refuted : forall url img, no_nul url -> image_create_url url = Ok img ->
  exists text, image_encode img = Ok (Some text) /\
    forall slack img', image_decode slack text = Ok (Some img') -> image_get_url img' <> Ok url.
Proof. exact (fun u img Hn E => ex_intro _ u (conj (encode_url u img Hn E) (fun slack img' => url_lost u slack img' Hn))). Qed.
Print Assumptions url_image_round_trip_refuted.

(** C20, partial: a URL is sent as it is and the receiver obtains a URL image, which holds the scheme of the URL.
    Missing: the rest of the URL, which is lost (above). *)
Theorem url_image_partial : forall url img s r slack, no_nul url -> image_create_url url = Ok img ->
  uri s r url -> s <> str "file" -> s <> str "image" -> s <> str "data" ->
  image_encode img = Ok (Some url) /\
  exists img', image_decode slack url = Ok (Some img') /\ image_get_type (Some img') = TRAX_IMAGE_URL /\ image_get_url img' = Ok s.
Proof.
  exact (fun u img s r slack Hn E Hu H1 H2 H3 => conj (encode_url u img Hn E)
    (ex_intro _ _ (conj (decode_url slack s r u Hu Hn H1 H2 H3) (conj eq_refl
      (blk_string_copy s (proj1 (no_nul_app_inv s _ (eq_rect _ no_nul Hn _ (proj1 Hu))))))))).
Qed.
Print Assumptions url_image_partial.

Example url_image_nonvacuous : uri (str "http") (str "//example.com/0001.jpg") (str "http://example.com/0001.jpg") /\
  no_nul (str "http://example.com/0001.jpg") /\
  (i <- image_create_url (str "http://example.com/0001.jpg") ;; t <- image_encode i ;;
   match t with Some t => d <- image_decode 0 t ;; match d with Some d => image_get_url d | None => Abort end | None => Abort end)
  = Ok (str "http").
Proof.
  split; [apply parse_uri_spec; reflexivity|]. split; [apply forallb_no_nul; reflexivity|reflexivity].
Qed.

(** C21, partial: header and pixels of a raw image arrive unchanged provided the allocator gives at least one byte more
    than asked for.  Missing: the decoder staying within what it asked for (false, below); images whose text would be
    longer than an int can say. *)
Theorem memory_image_round_trip_partial : forall slack w h f name bpp pixels img, pixel_format f name bpp -> 1 <= w -> 1 <= h ->
  bytes_ok pixels -> Z.of_nat (List.length pixels) = w * h * bpp -> moderate (w * h * bpp) -> memory_image w h f pixels img ->
  exists text img', image_encode img = Ok (Some text) /\ image_decode (S slack) text = Ok (Some img') /\
    shows_pixels img' w h f pixels.
Proof.
  exact (fun slack w h f name bpp px img F Hw Hh Hb Hl Hm Hi =>
    match memory_round_trip slack w h f name bpp px img F Hw Hh Hb Hl Hm Hi with
    | ex_intro _ text (conj E (conj (ex_intro _ img' H) _)) => ex_intro _ text (ex_intro _ img' (conj E H))
    end).
Qed.
Print Assumptions memory_image_round_trip_partial.

Example memory_image_nonvacuous : exists img, memory_image 2 1 TRAX_IMAGE_MEMORY_RGB [1; 2; 3; 250; 251; 252]%N img /\
  pixel_format TRAX_IMAGE_MEMORY_RGB (str "rgb") 3 /\ image_encode img = Ok (Some (str "image:2;1;rgb;AQID+vv8")).
Proof.
  eexists. split; [eexists; split; reflexivity|]. split; [constructor|reflexivity].
Qed.

(** C21 is violated for every raw image: with exactly the memory asked for, decoding writes behind it. *)
Theorem memory_image_bounds_refuted : forall w h f name bpp pixels img, pixel_format f name bpp -> 1 <= w -> 1 <= h ->
  bytes_ok pixels -> Z.of_nat (List.length pixels) = w * h * bpp -> moderate (w * h * bpp) -> memory_image w h f pixels img ->
  exists text, image_encode img = Ok (Some text) /\ image_decode 0 text = UB.
Proof.
  exact (fun w h f name bpp px img F Hw Hh Hb Hl Hm Hi =>
    match memory_round_trip 0 w h f name bpp px img F Hw Hh Hb Hl Hm Hi with
    | ex_intro _ text (conj E (conj _ H)) => ex_intro _ text (conj E H)
    end).
Qed.
Print Assumptions memory_image_bounds_refuted.

(** ... and no text at all decodes to a raw image within the memory asked for. *)
Theorem memory_decode_always_overruns_refuted : forall rest img, image_decode 0 (str "image:" ++ rest) <> Ok (Some img).
Proof. exact memory_text_fails. Qed.
Print Assumptions memory_decode_always_overruns_refuted.

(** C22, partial: the format and the bytes of an image file arrive unchanged.  Missing: the length. *)
Theorem buffer_image_round_trip_partial : forall slack f name sig d img, file_format f name sig -> bytes_ok (sig ++ d) -> d <> [] ->
  moderate (Z.of_nat (List.length (sig ++ d))) ->
  image_create_buffer (Z.of_nat (List.length (sig ++ d))) (sig ++ d) = Ok img ->
  exists text img' len bytes, image_encode img = Ok (Some text) /\ image_decode slack text = Ok (Some img') /\
    image_get_buffer img' = Ok (len, f, bytes) /\ firstn (List.length (sig ++ d)) bytes = sig ++ d.
Proof.
  exact (fun slack f name sig d img F Hb Hd Hm E =>
    match buffer_round_trip slack f name sig d img F Hb Hd Hm E with
    | ex_intro _ text (ex_intro _ img' (conj E1 (conj E2 (conj _ E3)))) =>
        ex_intro _ text (ex_intro _ img' (ex_intro _ _ (ex_intro _ _ (conj E1 (conj E2 (conj E3
          (eq_trans (firstn_app (List.length (sig ++ d)) (sig ++ d) [0%N])
            (eq_trans (f_equal2 (@app N) (firstn_all (sig ++ d)) (f_equal (fun n => firstn n [0%N]) (Nat.sub_diag _)))
               (app_nil_r (sig ++ d))))))))))
    end).
Qed.
Print Assumptions buffer_image_round_trip_partial.

(** C22 is violated for every image file: the received length is one more than the sent one. *)
Theorem buffer_image_length_refuted : forall slack f name sig d img, file_format f name sig -> bytes_ok (sig ++ d) -> d <> [] ->
  moderate (Z.of_nat (List.length (sig ++ d))) ->
  image_create_buffer (Z.of_nat (List.length (sig ++ d))) (sig ++ d) = Ok img ->
  exists text img' bytes, image_encode img = Ok (Some text) /\ image_decode slack text = Ok (Some img') /\
    image_get_buffer img' = Ok (Z.of_nat (List.length (sig ++ d)) + 1, f, bytes).
Proof.
  exact (fun slack f name sig d img F Hb Hd Hm E =>
    match buffer_round_trip slack f name sig d img F Hb Hd Hm E with
    | ex_intro _ text (ex_intro _ img' (conj E1 (conj E2 (conj _ E3)))) =>
        ex_intro _ text (ex_intro _ img' (ex_intro _ _ (conj E1 (conj E2 E3))))
    end).
Qed.
Print Assumptions buffer_image_length_refuted.

Example buffer_image_nonvacuous :
  file_format TRAX_IMAGE_BUFFER_PNG (str "image/png") [137; 80; 78; 71]%N /\
  (i <- image_create_buffer 6 [137; 80; 78; 71; 13; 10]%N ;; image_encode i) = Ok (Some (str "data:image/png;iVBORw0K")).
Proof. split; [constructor|reflexivity]. Qed.

(** C22 is violated at creation too: a JPEG file with an Exif header (FF D8 FF E1) makes the program abort. *)
Theorem exif_jpeg_refuted : forall d, image_create_buffer (Z.of_nat (List.length ([255; 216; 255; 225]%N ++ d))) ([255; 216; 255; 225]%N ++ d) = Abort.
Proof. exact exif_aborts. Qed.
Print Assumptions exif_jpeg_refuted.

(** C23, partial: the bytes behind every row address that belong to the row are inside of the pixel memory, and in images
    one pixel wide rows are disjoint and the last one ends at the end of the memory.  Missing: wider images (below). *)
Theorem rows_inside_partial : forall w h f name bpp img row, pixel_format f name bpp -> 1 <= w -> 0 <= row < h ->
  w * h * bpp <= INT_MAX -> image_create_memory w h f = Ok img ->
  exists off, image_memory_row img row = Ok off /\ 0 <= off /\ off + w * bpp <= w * h * bpp.
Proof.
  exact (fun w h f name bpp img row F Hw Hr Hs E =>
    match row_in_memory w h f name bpp img row F Hw Hr Hs E with
    | ex_intro _ off (conj A (conj B (conj C _))) => ex_intro _ off (conj A (conj B C))
    end).
Qed.
Print Assumptions rows_inside_partial.

Theorem rows_disjoint_partial : forall h f name bpp img r1 r2, pixel_format f name bpp -> 0 <= r1 < h -> 0 <= r2 < h -> r1 < r2 ->
  1 * h * bpp <= INT_MAX -> image_create_memory 1 h f = Ok img ->
  exists o1 o2, image_memory_row img r1 = Ok o1 /\ image_memory_row img r2 = Ok o2 /\ o1 + 1 * bpp <= o2 /\
    (r2 = h - 1 -> o2 + 1 * bpp = 1 * h * bpp).
Proof. exact rows_width1. Qed.
Print Assumptions rows_disjoint_partial.

(** C23 is violated: in every image at least two pixels wide, neighbouring rows share bytes. *)
Theorem rows_disjoint_refuted : forall w h f name bpp img row, pixel_format f name bpp -> 2 <= w -> 0 <= row -> row + 1 < h ->
  w * h * bpp <= INT_MAX -> image_create_memory w h f = Ok img ->
  exists o1 o2 i, image_memory_row img row = Ok o1 /\ image_memory_row img (row + 1) = Ok o2 /\
    in_row o1 (w * bpp) i /\ in_row o2 (w * bpp) i.
Proof. exact rows_overlap. Qed.
Print Assumptions rows_disjoint_refuted.

Example rows_nonvacuous : exists img, image_create_memory 320 240 TRAX_IMAGE_MEMORY_RGB = Ok img /\
  image_memory_row img 1 = Ok 3 /\ image_memory_row img 239 = Ok 717 /\ image_memory_row img 240 = Abort.
Proof.
  eexists. split; [apply (create_memory_ok _ _ _ _ _ fmt_rgb); lia|]. repeat split.
Qed.

(** C54, partial: the texts of path images, raw images and URL images are the documented ones.  Missing: image files, whose text
    lacks the documented "base64" marker (below). *)
Theorem memory_text_documented_partial : forall w h f name bpp pixels img, pixel_format f name bpp -> 1 <= w -> 1 <= h ->
  bytes_ok pixels -> Z.of_nat (List.length pixels) = w * h * bpp -> moderate (w * h * bpp) -> memory_image w h f pixels img ->
  exists tw th, int_text tw w /\ int_text th h /\
    image_encode img = Ok (Some (str "image:" ++ tw ++ str ";" ++ th ++ str ";" ++ name ++ str ";" ++ rfc_encode pixels)).
Proof. exact memory_documented. Qed.
Print Assumptions memory_text_documented_partial.

(** C54 is violated: the text of an image file is never of the documented form. *)
Theorem data_text_documented_refuted : exists img, image_create_buffer 6 [137; 80; 78; 71; 13; 10]%N = Ok img /\
  forall body, image_encode img <> Ok (Some (str "data:image/png;base64;" ++ body)).
Proof. exact data_text_no_marker. Qed.
Print Assumptions data_text_documented_refuted.

(** ... and a text of the documented form is decoded to six characters' worth of nonsense ("base64" taken as data). *)
Theorem documented_data_text_refuted :
  (i <- image_decode 0 (str "data:image/png;base64;iVBORw0K") ;;
   match i with Some i => Ok (firstn 4 (i_data i)) | None => Abort end) = Ok [Some 109; Some 171; Some 30; Some 235]%N.
Proof. exact eq_refl. Qed.
Print Assumptions documented_data_text_refuted.

(** C55, partial: decoding a received image text ends normally unless the text starts with "image:", or starts with "data:"
    with a base64 part that is empty or whose length is no multiple of four.  Missing: the other texts (false, below). *)
Theorem image_decode_safe_partial : forall slack text, no_nul text ->
  (forall r, text <> str "image:" ++ r) ->
  (forall t b, text = str "data:" ++ t ++ str ";" ++ b -> (List.length b mod 4 = 0)%nat /\ b <> []) ->
  exists r, image_decode slack text = Ok r.
Proof. exact decode_safe. Qed.
Print Assumptions image_decode_safe_partial.

Example image_decode_safe_nonvacuous : no_nul (str "ftp://x") /\ (forall r, str "ftp://x" <> str "image:" ++ r) /\
  (forall t b, str "ftp://x" = str "data:" ++ t ++ str ";" ++ b -> (List.length b mod 4 = 0)%nat /\ b <> []).
Proof. split; [apply forallb_no_nul; reflexivity|]. split; intros; discriminate. Qed.

(** C55 is violated: texts that read outside of the text, abort, overflow an int and write outside of the memory. *)
Theorem image_decode_safe_refuted : forall slack,
  image_decode slack (str "image:1;1;rgb;") = UB /\
  image_decode (S slack) (str "image:1;1;rgb;AA@A") = Abort /\
  image_decode slack (str "image:65536;65536;rgb;AAAA") = UB /\
  image_decode slack (str "data:image/png;") = UB /\
  image_decode 0 (str "data:image/png;AAAA=") = UB.
Proof. exact (fun slack => conj eq_refl (conj eq_refl (conj eq_refl (conj eq_refl eq_refl)))). Qed.
Print Assumptions image_decode_safe_refuted.
