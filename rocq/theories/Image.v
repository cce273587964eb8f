(** Model of images: src/trax.c:114-219, 244-372 (text form) and 1531-1691 (the image functions of the API). *)
From Verif Require Import CBase Num Buffer Base64 Region.
Local Open Scope Z_scope.

(** include/trax.h:52-67 *)
Definition TRAX_IMAGE_EMPTY : Z := 0.
Definition TRAX_IMAGE_PATH : Z := 1.
Definition TRAX_IMAGE_URL : Z := 2.
Definition TRAX_IMAGE_MEMORY : Z := 4.
Definition TRAX_IMAGE_BUFFER : Z := 8.
Definition TRAX_IMAGE_BUFFER_ILLEGAL : Z := 0.
Definition TRAX_IMAGE_BUFFER_PNG : Z := 1.
Definition TRAX_IMAGE_BUFFER_JPEG : Z := 2.
Definition TRAX_IMAGE_MEMORY_ILLEGAL : Z := 0.
Definition TRAX_IMAGE_MEMORY_GRAY8 : Z := 1.
Definition TRAX_IMAGE_MEMORY_GRAY16 : Z := 2.
Definition TRAX_IMAGE_MEMORY_RGB : Z := 3.

(** include/trax.h:129-135 struct trax_image.  Simplification: for path and URL images the C code leaves [format]
    uninitialised and never reads it; it is 0 here. *)
Record image := mkImage { i_type : Z; i_width : Z; i_height : Z; i_format : Z; i_data : block N }.

(** malloc, then strcpy or memcpy of a C string into it *)
Definition copy_string (s : list N) : outcome (block N) := blk_write_list (blk_new (List.length s + 1)) 0 (s ++ [0%N]).

(** src/trax.c:1544-1555 *)
Definition image_create_path (path : list N) : outcome image :=
  d <- copy_string path ;; Ok (mkImage TRAX_IMAGE_PATH 0 0 0 d).

(** src/trax.c:1557-1569 *)
Definition image_create_url (url : list N) : outcome image :=
  d <- copy_string url ;; Ok (mkImage TRAX_IMAGE_URL 0 0 0 d).

(** src/trax.c:267-270, 326-329, 1579-1582, 1648-1652 (MEMORY_DEPTH, MEMORY_CHANNELS) *)
Definition memory_depth (format : Z) : Z :=
  if format =? TRAX_IMAGE_MEMORY_RGB then 1
  else if format =? TRAX_IMAGE_MEMORY_GRAY8 then 1
  else if format =? TRAX_IMAGE_MEMORY_GRAY16 then 2 else 0.
Definition memory_channels (format : Z) : Z := if format =? TRAX_IMAGE_MEMORY_RGB then 3 else 1.

(** The int expression width * height * depth * channels of lines 271, 330 and 1590 *)
Definition memory_size (width height format : Z) : outcome Z :=
  a <- int_result (width * height) ;;
  b <- int_result (a * memory_depth format) ;;
  int_result (b * memory_channels format).

(** src/trax.c:1571-1594.  Simplification: a negative size is UB (malloc of a huge size). *)
Definition image_create_memory (width height format : Z) : outcome image :=
  if (format =? TRAX_IMAGE_MEMORY_GRAY8) || (format =? TRAX_IMAGE_MEMORY_GRAY16) || (format =? TRAX_IMAGE_MEMORY_RGB) then
    n <- memory_size width height format ;;
    if n <? 0 then UB else Ok (mkImage TRAX_IMAGE_MEMORY width height format (blk_new (Z.to_nat n)))
  else Abort.

(** src/trax.c:132-157 verify_image_format; the buffer has at least four bytes, an overrun is UB *)
Definition verify_image_format (buffer : list N) : outcome Z :=
  match buffer with
  | a :: b :: c :: d :: _ =>
      if ((a =? 255) && (b =? 216) && (c =? 255) && (d =? 224))%N then Ok TRAX_IMAGE_BUFFER_JPEG
      else if ((a =? 137) && (b =? 80) && (c =? 78) && (d =? 71))%N then Ok TRAX_IMAGE_BUFFER_PNG
      else Ok TRAX_IMAGE_BUFFER_ILLEGAL
  | _ => UB
  end.

(** src/trax.c:1596-1617; [data] is the caller's memory *)
Definition image_create_buffer (length : Z) (data : list N) : outcome image :=
  if 4 <? length then
    format <- verify_image_format data ;;
    if format =? TRAX_IMAGE_BUFFER_ILLEGAL then Abort
    else
      src <- blk_read (map Some data) (Z.to_nat length) ;;
      d <- blk_write_list (blk_new (Z.to_nat length)) 0 src ;;
      Ok (mkImage TRAX_IMAGE_BUFFER length 1 format d)
  else Abort.

(** src/trax.c:1619-1625; None is NULL *)
Definition image_get_type (image : option image) : Z :=
  match image with None => TRAX_IMAGE_EMPTY | Some i => i_type i end.

(** src/trax.c:1627-1640: the returned pointer, read as a C string *)
Definition image_get_path (image : image) : outcome (list N) :=
  if i_type image =? TRAX_IMAGE_PATH then blk_string (i_data image) else Abort.
Definition image_get_url (image : image) : outcome (list N) :=
  if i_type image =? TRAX_IMAGE_URL then blk_string (i_data image) else Abort.

(** src/trax.c:1642-1650 *)
Definition image_get_memory_header (image : image) : outcome (Z * Z * Z) :=
  if i_type image =? TRAX_IMAGE_MEMORY then Ok (i_width image, i_height image, i_format image) else Abort.

(** src/trax.c:1658-1669 and 1671-1682, trax_image_write_memory_row and trax_image_get_memory_row (the same text twice):
    the offset of the returned pointer from the start of the pixel memory *)
Definition image_memory_row (image : image) (row : Z) : outcome Z :=
  if i_type image =? TRAX_IMAGE_MEMORY then
    if (0 <=? row) && (row <? i_height image) then
      a <- int_result (memory_depth (i_format image) * memory_channels (i_format image)) ;;
      int_result (a * row)
    else Abort
  else Abort.

(** A caller's use of the pointers: storing bytes at, and loading bytes from, the start of a row *)
Definition image_write_row (image : image) (row : Z) (bytes : list N) : outcome Image.image :=
  off <- image_memory_row image row ;;
  d <- blk_write_list (i_data image) (Z.to_nat off) bytes ;;
  Ok (mkImage (i_type image) (i_width image) (i_height image) (i_format image) d).
Definition image_read_row (image : image) (row : Z) (n : nat) : outcome (list N) :=
  off <- image_memory_row image row ;; blk_read (skipn (Z.to_nat off) (i_data image)) n.

(** src/trax.c:1684-1693: length, format and the bytes at the returned pointer, all [length] of them *)
Definition image_get_buffer (image : image) : outcome (Z * Z * list N) :=
  if i_type image =? TRAX_IMAGE_BUFFER then
    b <- blk_read (i_data image) (Z.to_nat (i_width image)) ;; Ok (i_width image, i_format image, b)
  else Abort.

(** ---- Text form ---- *)

(** src/trax.c:114-130 parse_uri: the scheme (what the buffer holds as a C string after the colon has been overwritten)
    and the text behind the colon; None is NULL *)
Fixpoint scan_uri (i : nat) (l : list N) : option (list N * list N) :=
  match i with
  | O => None
  | S i' =>
      match l with
      | [] => None
      | c :: l' =>
          if scheme_char c then
            match scan_uri i' l' with Some (s, r) => Some (c :: s, r) | None => None end
          else if (c =? 58)%N then Some ([], l')
          else None
      end
  end.
Definition parse_uri (buffer : list N) : option (list N * list N) := scan_uri MAX_URI_SCHEME buffer.

(** src/trax.c:159-170 *)
Definition decode_buffer_format (name : list N) : Z :=
  if strcasecmp_eq name (str "image/jpeg") then TRAX_IMAGE_BUFFER_JPEG
  else if strcasecmp_eq name (str "image/png") then TRAX_IMAGE_BUFFER_PNG
  else TRAX_IMAGE_BUFFER_ILLEGAL.

(** src/trax.c:173-186 *)
Definition decode_memory_format (name : list N) : Z :=
  if strcasecmp_eq name (str "rgb") then TRAX_IMAGE_MEMORY_RGB
  else if strcasecmp_eq name (str "gray8") then TRAX_IMAGE_MEMORY_GRAY8
  else if strcasecmp_eq name (str "gray16") then TRAX_IMAGE_MEMORY_GRAY16
  else TRAX_IMAGE_MEMORY_ILLEGAL.

(** src/trax.c:202-219 strntok: the token cut off and the text behind the separator; None is NULL *)
Fixpoint strntok (s : list N) (query : N) (limit : nat) : option (list N * list N) :=
  match limit with
  | O => None
  | S l =>
      match s with
      | [] => None
      | c :: s' =>
          if (c =? query)%N then Some ([], s')
          else match strntok s' query l with Some (a, b) => Some (c :: a, b) | None => None end
      end
  end.

(** strtol in base 10 (C11 7.22.1.4): value and unread rest; the value saturates at the ends of long *)
Definition LONG_MAX : Z := 9223372036854775807.
Definition LONG_MIN : Z := -9223372036854775808.
Definition strtol (l : list N) : Z * list N :=
  let '(s, l1) := read_sign (snd (span is_space l)) in
  let '(ds, r) := span is_digit l1 in
  match ds with
  | [] => (0, l)
  | _ => let v := Z.of_N (digits_val ds) in
         (Z.max LONG_MIN (Z.min LONG_MAX (if s then - v else v)), r)
  end.
(** Conversion from long to int (modulo 2^32, as all compilers used do) *)
Definition int_of_long (z : Z) : Z := (z + 2147483648) mod 4294967296 - 2147483648.

(** The header texts of lines 273 and 286 *)
Definition memory_format_name (format : Z) : option (list N) :=
  if format =? TRAX_IMAGE_MEMORY_RGB then Some (str "rgb")
  else if format =? TRAX_IMAGE_MEMORY_GRAY8 then Some (str "gray8")
  else if format =? TRAX_IMAGE_MEMORY_GRAY16 then Some (str "gray16") else None.
Definition buffer_format_name (format : Z) : option (list N) :=
  if format =? TRAX_IMAGE_BUFFER_JPEG then Some (str "image/jpeg")
  else if format =? TRAX_IMAGE_BUFFER_PNG then Some (str "image/png") else None.

(** A header printed into a new block and base64 text appended behind it (lines 272-277 and 285-292).
    Simplifications: a negative length is UB; base64encodelen is computed in int. *)
Definition encode_with_header (header : list N) (data : block N) (length : Z) : outcome (list N) :=
  if length <? 0 then UB
  else
    encoded <- int_result (Z.of_nat (base64encodelen (Z.to_nat length))) ;;
    size <- int_result (encoded + Z.of_nat (List.length header) + 1) ;;
    b0 <- blk_write_list (blk_new (Z.to_nat size)) 0 (header ++ [0%N]) ;;
    src <- blk_read data (Z.to_nat length) ;;
    b1 <- blk_write_list b0 (List.length header) (base64encode src ++ [0%N]) ;;
    blk_string b1.

(** src/trax.c:244-298 image_encode: the C string in the returned block; None is NULL.  When the format has no name the
    snprintf of line 273 or 286 prints a null string (glibc prints "(null)") and the next line aborts. *)
Definition image_encode (image : image) : outcome (option (list N)) :=
  if i_type image =? TRAX_IMAGE_PATH then
    s <- blk_string (i_data image) ;;
    b0 <- blk_write_list (blk_new (List.length s + 1 + 7)) 0 (str "file://" ++ [0%N]) ;;
    b1 <- blk_write_list b0 7 (s ++ [0%N]) ;;
    r <- blk_string b1 ;; Ok (Some r)
  else if i_type image =? TRAX_IMAGE_URL then
    s <- blk_string (i_data image) ;;
    b <- copy_string s ;;
    r <- blk_string b ;; Ok (Some r)
  else if i_type image =? TRAX_IMAGE_MEMORY then
    length <- memory_size (i_width image) (i_height image) (i_format image) ;;
    match memory_format_name (i_format image) with
    | None => Abort
    | Some name =>
        r <- encode_with_header
               (str "image:" ++ print_Z (i_width image) ++ [59%N] ++ print_Z (i_height image) ++ [59%N] ++ name ++ [59%N])
               (i_data image) length ;;
        Ok (Some r)
    end
  else if i_type image =? TRAX_IMAGE_BUFFER then
    match buffer_format_name (i_format image) with
    | None => Abort
    | Some name => r <- encode_with_header (str "data:" ++ name ++ [59%N]) (i_data image) (i_width image) ;; Ok (Some r)
    end
  else Ok None.

(** src/trax.c:311-345, the branch for "image".  [slack] is the number of bytes the allocator happens to provide behind
    the requested ones: 0 is what the C standard promises. *)
Definition decode_memory (slack : nat) (resource : list N) : outcome (option image) :=
  let '(w, r1) := strtol resource in
  let width := int_of_long w in
  match r1 with
  | c1 :: r1' =>
      if (c1 =? 59)%N then
        let '(h, r2) := strtol r1' in
        let height := int_of_long h in
        match r2 with
        | c2 :: r2' =>
            if (c2 =? 59)%N then
              match strntok r2' 59 32 with
              | None => Ok None
              | Some (token, text) =>
                  let format := decode_memory_format token in
                  dl <- base64decodelen text ;;
                  let outlen := dl - 1 in
                  allocated <- memory_size width height format ;;
                  if (width <? 1) || (height <? 1) || negb (outlen =? allocated) then Ok None
                  else
                    let '(bytes, verify) := base64decode text in
                    d <- blk_write_list (blk_new (Z.to_nat allocated + slack)) 0 bytes ;;
                    if verify =? allocated then Ok (Some (mkImage TRAX_IMAGE_MEMORY width height format d)) else Abort
              end
            else Ok None
        | [] => Ok None
        end
      else Ok None
  | [] => Ok None
  end.

(** src/trax.c:347-364, the branch for "data" *)
Definition decode_buffer (slack : nat) (resource : list N) : outcome (option image) :=
  match strntok resource 59 32 with
  | None => Ok None
  | Some (token, text) =>
      let format := decode_buffer_format token in
      outlen <- base64decodelen text ;;
      d <- blk_write_list (blk_new (Z.to_nat outlen + slack)) 0 (fst (base64decode text)) ;;
      Ok (Some (mkImage TRAX_IMAGE_BUFFER outlen 1 format d))
  end.

(** src/trax.c:300-372 image_decode.  In the last branch [resource] points behind the colon that parse_uri overwrote with
    a NUL; the colon is written there, not over the NUL. *)
Definition image_decode (slack : nat) (buffer : list N) : outcome (option image) :=
  match parse_uri buffer with
  | None => i <- image_create_path buffer ;; Ok (Some i)
  | Some (scheme, resource) =>
      if bytes_eqb scheme (str "file") then
        i <- image_create_path (if starts_with (str "//") resource then skipn 2 resource else resource) ;; Ok (Some i)
      else if bytes_eqb scheme (str "image") then decode_memory slack resource
      else if bytes_eqb scheme (str "data") then decode_buffer slack resource
      else
        b <- blk_write (map Some (scheme ++ [0%N] ++ resource ++ [0%N])) (List.length scheme + 1) 58%N ;;
        url <- blk_string b ;;
        i <- image_create_url url ;; Ok (Some i)
  end.
