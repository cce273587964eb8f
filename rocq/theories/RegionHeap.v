(** Model of the remaining region functions of the API with the memory they use: conversion, bounds, overlap, point queries,
    texts (src/trax.c:1723-1778, 1892-1907, src/region.c:326-526, 539-713, 872-998, 1101-1271).
    The store is the one of RegionApi; what is computed from the numbers is taken from Region and RegionGeom.
    Simplifications: allocations succeed; a function that looks at a region reads all of its points or pixels, so that one
    which is not initialised makes the call undefined; the int array of the rasterisation is kept among the char arrays,
    without its contents; the text of a region is handed to the caller as a value. *)
From Verif Require Import CBase Num Buffer Region FloatOps RegionGeom RegionApi.
Local Open Scope Z_scope.

(** malloc(sizeof(region_container)): before it is filled in, nothing looks at the content *)
Definition bare_region (m : heap) : nat * heap := new_region m (CSpecial 0).
(** The points of two coordinate arrays *)
Definition load_points (m : heap) (count : Z) (xs ys : nat) : outcome (list (spec_float * spec_float)) :=
  ax <- the (floats m) xs ;; lx <- blk_read ax (Z.to_nat count) ;;
  ay <- the (floats m) ys ;; ly <- blk_read ay (Z.to_nat count) ;; Ok (combine lx ly).
(** What a function sees of a region *)
Definition load (m : heap) (h : nat) : outcome region :=
  c <- the (regions m) h ;;
  match c with
  | CSpecial code => Ok (RSpecial code)
  | CRect x y w h => Ok (RRect x y w h)
  | CPoly count xs ys => l <- load_points m count xs ys ;; Ok (RPoly l)
  | CMask x y w h d => a <- the (chars m) d ;; n <- int_result (w * h) ;; l <- blk_read a (Z.to_nat n) ;; Ok (RMask x y w h l)
  end.

(** Two coordinate arrays with the given points: src/region.c:600-632, 637-649, 402-408 *)
Definition new_points (m : heap) (points : list (spec_float * spec_float)) : nat * nat * heap :=
  let '(xs, m) := new_floats m (map (fun p => Some (fst p)) points) in
  let '(ys, m) := new_floats m (map (fun p => Some (snd p)) points) in
  (xs, ys, m).
(** src/region.c:64-74 free_polygon *)
Definition free_points (m : heap) (xs ys : nat) : outcome heap := m <- set_floats m xs None ;; set_floats m ys None.

(** src/region.c:102-126 offset_polygon and round_polygon: a copy whose coordinates are changed in place *)
Definition mapped_points (m : heap) (f g : spec_float -> spec_float) (count : Z) (xs ys : nat) : outcome (nat * nat * heap) :=
  r <- clone_points m count xs ys ;; let '(xs', ys', m) := r in
  ax <- the (floats m) xs' ;; lx <- blk_read ax (Z.to_nat count) ;; m <- set_floats m xs' (Some (map (fun x => Some (f x)) lx)) ;;
  ay <- the (floats m) ys' ;; ly <- blk_read ay (Z.to_nat count) ;; m <- set_floats m ys' (Some (map (fun y => Some (g y)) ly)) ;;
  Ok (xs', ys', m).
Definition offset_points (m : heap) (count : Z) (xs ys : nat) (x y : spec_float) : outcome (nat * nat * heap) :=
  mapped_points m (fun a => addf a x) (fun a => addf a y) count xs ys.
Definition round_points (m : heap) (count : Z) (xs ys : nat) : outcome (nat * nat * heap) :=
  mapped_points m (fun a => float_of_double (fround a)) (fun a => float_of_double (fround a)) count xs ys.

(** The rows of src/region.c:884-928 and 933-989, written to the pixels [d] *)
Definition raster_rows (legacy : bool) (m : heap) (count : Z) (xs ys d : nat) (width height : Z) : outcome heap :=
  points <- load_points m count xs ys ;;
  b <- the (chars m) d ;;
  s <- for_range (Z.to_nat height) 0 (raster_row legacy points width) (Some b, 0) ;;
  match fst s with Some b' => set_chars m d (Some b') | None => UB end.
(** src/region.c:872-998 rasterize_polygon: nodeX (878, 995), the pixels cleared (880), a rounded copy of the polygon unless the
    old way is asked for (927, 991) *)
Definition rasterize_region (legacy : bool) (m : heap) (count : Z) (xs ys d : nat) (width height : Z) : outcome heap :=
  let '(node, m) := new_chars m (repeat None (Z.to_nat count)) in
  size <- int_result (width * height) ;;
  b <- the (chars m) d ;; b' <- mem_set b 0%N size ;; m <- set_chars m d (Some b') ;;
  m <- (if legacy then raster_rows legacy m count xs ys d width height
        else
          r <- round_points m count xs ys ;; let '(rx, ry, m) := r in
          m <- raster_rows legacy m count rx ry d width height ;;
          free_points m rx ry) ;;
  set_chars m node None.

(** src/region.c:589-640: a rectangle as a polygon *)
Definition rectangle_polygon (legacy : bool) (m : heap) (x y w h : spec_float) : outcome (nat * heap) :=
  let '(r, m) := bare_region m in
  let '(xs, ys, m) := new_points m (rect_points legacy x y w h) in
  m <- set_region m r (Some (CPoly 4 xs ys)) ;; Ok (r, m).
(** The arrays of a polygon region *)
Definition polygon_arrays (m : heap) (h : nat) : outcome (Z * nat * nat) :=
  c <- the (regions m) h ;; match c with CPoly count xs ys => Ok (count, xs, ys) | _ => UB end.
(** src/region.c:1228-1271 region_get_mask_offset, writing to the pixels [d] *)
Definition mask_offset (legacy : bool) (m : heap) (h d : nat) (x y width height : Z) : outcome heap :=
  c <- the (regions m) h ;;
  match c with
  | CMask _ _ _ _ _ =>
      v <- load m h ;; b <- the (chars m) d ;; b' <- get_mask_offset legacy v b x y width height ;; set_chars m d (Some b')
  | CSpecial _ => UB
  | CRect rx ry rw rh =>
      r <- rectangle_polygon legacy m rx ry rw rh ;; let '(t, m) := r in
      a <- polygon_arrays m t ;; let '(count, xs, ys) := a in
      nx <- int_result (- x) ;; ny <- int_result (- y) ;;
      r <- offset_points m count xs ys (float_of_int nx) (float_of_int ny) ;; let '(px, py, m) := r in
      m <- release m t ;;
      m <- rasterize_region legacy m count px py d width height ;;
      free_points m px py
  | CPoly count xs ys =>
      nx <- int_result (- x) ;; ny <- int_result (- y) ;;
      r <- offset_points m count xs ys (float_of_int nx) (float_of_int ny) ;; let '(px, py, m) := r in
      m <- rasterize_region legacy m count px py d width height ;;
      free_points m px py
  end.
(** The pixels of a mask region *)
Definition mask_pixels (m : heap) (h : nat) : outcome nat :=
  c <- the (regions m) h ;; match c with CMask _ _ _ _ d => Ok d | _ => UB end.

(** src/region.c:543-587: to a rectangle *)
Definition to_rectangle (m : heap) (v : region) : outcome (option nat * heap) :=
  let '(r, m) := bare_region m in
  match v with
  | RRect x y w h => m <- set_region m r (Some (CRect x y w h)) ;; Ok (Some r, m)
  | RPoly points =>
      let b := convert_bounds_polygon points in
      m <- set_region m r (Some (CRect (left b) (top b) (subf (right b) (left b)) (subf (bottom b) (top b)))) ;; Ok (Some r, m)
  | RMask x y w h data =>
      b <- bounds_mask x y w h data ;;
      m <- set_region m r (Some (CRect (left b) (top b) (addf (subf (right b) (left b)) float_one) (addf (subf (bottom b) (top b)) float_one))) ;;
      Ok (Some r, m)
  | RSpecial _ => m <- set_region m r None ;; Ok (None, m)
  end.
(** src/region.c:589-659: to a polygon *)
Definition to_polygon (legacy : bool) (m : heap) (h : nat) (v : region) : outcome (option nat * heap) :=
  match v with
  | RRect x y w hh => r <- rectangle_polygon legacy m x y w hh ;; let '(r, m) := r in Ok (Some r, m)
  | RPoly _ =>
      let '(r, m) := bare_region m in
      a <- polygon_arrays m h ;; let '(count, xs, ys) := a in
      p <- clone_points m count xs ys ;; let '(xs', ys', m) := p in
      m <- set_region m r (Some (CPoly count xs' ys')) ;; Ok (Some r, m)
  | RMask x y w hh data =>
      let '(r, m) := bare_region m in
      b <- bounds_mask x y w hh data ;;
      let '(xs, ys, m) := new_points m [(left b, top b); (right b, top b); (right b, bottom b); (left b, bottom b)] in
      m <- set_region m r (Some (CPoly 4 xs ys)) ;; Ok (Some r, m)
  | RSpecial _ => let '(r, m) := bare_region m in m <- set_region m r None ;; Ok (None, m)
  end.
(** src/region.c:661-698: to a mask.  For a polygon the container allocated first (673) is forgotten when the mask is created
    (678). *)
Definition to_mask (legacy : bool) (m : heap) (h : nat) (v : region) : outcome (option nat * heap) :=
  match v with
  | RRect x y w hh =>
      xi <- int_of_float x ;; yi <- int_of_float y ;; wi <- int_of_float w ;; hi <- int_of_float hh ;;
      r <- create_mask_region m xi yi wi hi ;; let '(r, m) := r in
      d <- mask_pixels m r ;; n <- int_result (wi * hi) ;;
      b <- the (chars m) d ;; b' <- mem_set b 255%N n ;; m <- set_chars m d (Some b') ;; Ok (Some r, m)
  | RPoly points =>
      let '(_, m) := bare_region m in
      let b := bounds_polygon points in
      xi <- int_of_float (left b) ;; yi <- int_of_float (right b) ;;
      wi <- int_of_float (subf (right b) (left b)) ;; hi <- int_of_float (subf (bottom b) (top b)) ;;
      r <- create_mask_region m xi yi wi hi ;; let '(r, m) := r in
      d <- mask_pixels m r ;; m <- mask_offset legacy m h d xi yi wi hi ;; Ok (Some r, m)
  | RMask _ _ _ _ _ => r <- clone m h ;; let '(r, m) := r in Ok (Some r, m)
  | RSpecial _ => Ok (None, m)
  end.
(** src/trax.c:1745-1751 trax_region_convert, src/region.c:539-713 region_convert: None is NULL *)
Definition convert_region (legacy : bool) (m : heap) (h : nat) (type : region_type) : outcome (option nat * heap) :=
  match type with
  | RECTANGLE => v <- load m h ;; to_rectangle m v
  | POLYGON => v <- load m h ;; to_polygon legacy m h v
  | MASK => v <- load m h ;; to_mask legacy m h v
  | SPECIAL =>
      c <- the (regions m) h ;;
      let '(r, m) := create_special m (match c with CSpecial code => code | _ => TRAX_DEFAULT_CODE end) in Ok (Some r, m)
  | EMPTY => Ok (None, m)
  end.

(** src/trax.c:1723-1735 trax_region_bounds *)
Definition region_bounds (legacy : bool) (m : heap) (h : nat) : outcome bounds := v <- load m h ;; compute_bounds legacy v.
(** src/trax.c:1768-1772 trax_region_get_bounds *)
Definition region_get_bounds (m : heap) (h : nat) : outcome (option nat * heap) := v <- load m h ;; to_rectangle m v.
(** src/trax.c:1774-1778 trax_region_contains *)
Definition region_contains (m : heap) (h : nat) (x y : spec_float) : outcome bool := v <- load m h ;; contains_point v x y.
(** src/trax.c:1892-1896 trax_region_encode *)
Definition region_encode (m : heap) (h : nat) : outcome (option (list N)) := v <- load m h ;; region_string v.

(** The arguments of src/region.c:1142-1146 *)
Definition box_arguments (b : bounds) : outcome (Z * Z * Z * Z) :=
  x <- int_of_float (left b) ;; y <- int_of_float (top b) ;;
  w <- int_of_float (side (left b) (right b)) ;; h <- int_of_float (side (top b) (bottom b)) ;; Ok (x, y, w, h).
(** src/region.c:1142-1158: the boxes do not overlap; the two masks are released at 1195-1196 *)
Definition disjoint_regions (legacy : bool) (m : heap) (ha hb : nat) (b1 b2 : bounds) : outcome (overlap * heap) :=
  a <- box_arguments b1 ;; let '(x1, y1, w1, h1) := a in
  r <- create_mask_region m x1 y1 w1 h1 ;; let '(ta, m) := r in
  a <- box_arguments b2 ;; let '(x2, y2, w2, h2) := a in
  r <- create_mask_region m x2 y2 w2 h2 ;; let '(tb, m) := r in
  da <- mask_pixels m ta ;; db <- mask_pixels m tb ;;
  m <- mask_offset legacy m ha da x1 y1 w1 h1 ;;
  m <- mask_offset legacy m hb db x2 y2 w2 h2 ;;
  l1 <- the (chars m) da ;; vol1 <- count_while l1 0 (mulf (side (left b1) (right b1)) (side (top b1) (bottom b1))) ;;
  l2 <- the (chars m) db ;; vol2 <- count_while l2 0 (mulf (side (left b2) (right b2)) (side (top b2) (bottom b2))) ;;
  total <- int_result (vol1 + vol2) ;;
  m <- release m ta ;; m <- release m tb ;;
  Ok (mkOverlap fzero (divf (float_of_int vol1) (float_of_int total)) (divf (float_of_int vol2) (float_of_int total)), m).
(** src/region.c:1160-1196: the boxes overlap *)
Definition window_regions (legacy : bool) (m : heap) (ha hb : nat) (x y width height : Z) : outcome (overlap * heap) :=
  r <- create_mask_region m x y width height ;; let '(ta, m) := r in
  r <- create_mask_region m x y width height ;; let '(tb, m) := r in
  da <- mask_pixels m ta ;; db <- mask_pixels m tb ;;
  m <- mask_offset legacy m ha da x y width height ;;
  m <- mask_offset legacy m hb db x y width height ;;
  m1 <- the (chars m) da ;; m2 <- the (chars m) db ;;
  l1 <- blk_read m1 (Z.to_nat (width * height)) ;; l2 <- blk_read m2 (Z.to_nat (width * height)) ;;
  let '(only1, only2, both) := count_pairs l1 l2 in
  total <- int_result (only1 + only2 + both) ;;
  m <- release m ta ;; m <- release m tb ;;
  Ok (mkOverlap (divf (float_of_int both) (float_of_int total))
                (divf (float_of_int only1) (float_of_int total)) (divf (float_of_int only2) (float_of_int total)), m).
(** src/trax.c:1753-1766 trax_region_overlap, src/region.c:1101-1201 region_compute_overlap (the whole result) *)
Definition overlap_regions (legacy : bool) (m : heap) (ha hb : nat) (bnd : bounds) : outcome (overlap * heap) :=
  ra <- load m ha ;; rb <- load m hb ;;
  b1 <- clipped_box legacy ra bnd ;; b2 <- clipped_box legacy rb bnd ;;
  x <- int_of_float (fMIN (left b1) (left b2)) ;;
  y <- int_of_float (fMIN (top b1) (top b2)) ;;
  w <- int_of_float (subf (fMAX (right b1) (right b2)) (float_of_int x)) ;; width <- int_result (w + 1) ;;
  h <- int_of_float (subf (fMAX (bottom b1) (bottom b2)) (float_of_int y)) ;; height <- int_result (h + 1) ;;
  if flt (divd (bounds_area b1) (bounds_area b2)) ratio_limit || flt (divd (bounds_area b2) (bounds_area b1)) ratio_limit ||
     (width <? 1) || (height <? 1)
  then Ok (mkOverlap fzero fzero fzero, m)
  else if feq (bounds_overlap b1 b2) fzero then disjoint_regions legacy m ha hb b1 b2
  else window_regions legacy m ha hb x y width height.

(** src/region.c:346-357: some number is not a number *)
Definition parse_invalid (m : heap) (data : list spec_float) : outcome (nat * heap) :=
  match data with
  | [_; _; _; d3] =>
      if is_nan d3 then Ok (create_special m TRAX_DEFAULT_CODE)
      else c <- int_of_float d3 ;; r <- int_result (- c) ;; Ok (create_special m r)
  | _ => Ok (create_special m TRAX_DEFAULT_CODE)
  end.
(** src/region.c:360-367: the type of a text without prefix *)
Definition guess_type (t : region_type) (num : nat) : region_type :=
  match t with
  | EMPTY => if Nat.eqb num 1 then SPECIAL
             else if Nat.eqb num 4 then RECTANGLE
             else if Nat.leb 6 num && Nat.eqb (num mod 2) 0 then POLYGON
             else EMPTY
  | t => t
  end.
(** src/region.c:369-455: the region of the given type *)
Definition parse_typed (m : heap) (t : region_type) (data : list spec_float) : outcome (option nat * heap) :=
  match t with
  | SPECIAL =>
      match data with
      | [d0] => let '(r, m) := bare_region m in c <- int_of_float d0 ;; m <- set_region m r (Some (CSpecial c)) ;; Ok (Some r, m)
      | _ => Abort
      end
  | RECTANGLE =>
      match data with
      | [d0; d1; d2; d3] => let '(r, m) := bare_region m in m <- set_region m r (Some (CRect d0 d1 d2 d3)) ;; Ok (Some r, m)
      | _ => Abort
      end
  | POLYGON =>
      if Nat.leb 6 (List.length data) && Nat.eqb (List.length data mod 2) 0 then
        let '(r, m) := bare_region m in
        let '(xs, ys, m) := new_points m (pair_points data) in
        m <- set_region m r (Some (CPoly (Z.of_nat (List.length data / 2)) xs ys)) ;; Ok (Some r, m)
      else Abort
  | MASK =>
      match data with
      | d0 :: d1 :: d2 :: d3 :: _ :: _ =>
          let '(r, m) := bare_region m in
          x <- int_of_float d0 ;; y <- int_of_float d1 ;; w <- int_of_float d2 ;; h <- int_of_float d3 ;;
          length <- int_result (w * h) ;;
          let '(d, m) := new_chars m (repeat None (Z.to_nat length)) in
          m <- set_region m r (Some (CMask x y w h d)) ;;
          pixels <- rle_decode (Z.to_nat length) (skipn 4 data) 0%N ;;
          m <- set_chars m d (Some (map Some pixels)) ;; Ok (Some r, m)
      | _ => Abort
      end
  | EMPTY => Ok (None, m)
  end.
(** src/trax.c:1898-1907 trax_region_decode, src/region.c:326-460 region_parse and 288-324 _parse_sequence: the scratch array is
    freed there, the array of numbers on every way out (356, 375, 389, 410, 452, 457).  None is NULL. *)
Definition decode_region (m : heap) (buffer : list N) : outcome (option nat * heap) :=
  match buffer with
  | [] => Ok (None, m)
  | _ =>
      let '(ptype, strdata) := parse_uri_prefix buffer in
      let '(numbers, m) := new_floats m (repeat None (List.length strdata)) in
      l <- parse_sequence strdata ;;
      let '(data, m) := new_floats m (map Some l) in
      m <- set_floats m numbers None ;;
      p <- (if negb (is_valid_sequence l) || Nat.eqb (List.length l) 0
            then r <- parse_invalid m l ;; let '(r, m) := r in Ok (Some r, m)
            else parse_typed m (guess_type ptype (List.length l)) l) ;;
      let '(r, m) := p in
      m <- set_floats m data None ;; Ok (r, m)
  end.
