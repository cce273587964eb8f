(** Model of region geometry, src/region.c: bounds, conversion, pixel windows, rasterisation, overlap.
    [legacy] is the flag REGION_LEGACY_RASTERIZATION in __flags (src/region.c:36-52).
    Float arithmetic follows the types of the C expressions; converting a float out of the int range to int is UB.
    Simplifications: allocations succeed, freeing memory is not modelled. *)
From Verif Require Import CBase Num Buffer Region FloatOps.
Local Open Scope Z_scope.

(** Memory of chars at an index of C type int or size_t *)
Definition put (b : block N) (i : Z) (v : N) : outcome (block N) := if 0 <=? i then blk_write b (Z.to_nat i) v else UB.
Definition get (b : block N) (i : Z) : outcome N :=
  if 0 <=? i then match nth_error b (Z.to_nat i) with Some (Some v) => Ok v | _ => UB end else UB.
(** memset(b, v, n): a negative n is a huge size_t *)
Definition mem_set (b : block N) (v : N) (n : Z) : outcome (block N) :=
  if (0 <=? n) && (Z.to_nat n <=? List.length b)%nat then Ok (repeat (Some v) (Z.to_nat n) ++ skipn (Z.to_nat n) b) else UB.

(** [n] iterations of a counting loop starting with counter value [i] *)
Fixpoint for_range {A} (n : nat) (i : Z) (body : Z -> A -> outcome A) (s : A) : outcome A :=
  match n with
  | O => Ok s
  | S n' => s' <- body i s ;; for_range n' (i + 1) body s'
  end.

(** src/region.h:48-55 *)
Record bounds := mkBounds { top : spec_float; bottom : spec_float; left : spec_float; right : spec_float }.
(** src/region.c:34 *)
Definition no_bounds : bounds := mkBounds (fopp FLT_MAX) FLT_MAX (fopp FLT_MAX) FLT_MAX.
(** src/region.c:131-135, :151-156 *)
Definition start_bounds : bounds := mkBounds FLT_MAX (fopp FLT_MAX) FLT_MAX (fopp FLT_MAX).
(** src/region.c:138-141, :161-164: a point (x, y) is included *)
Definition include (b : bounds) (x y : spec_float) : bounds :=
  mkBounds (fMIN (top b) y) (fMAX (bottom b) y) (fMIN (left b) x) (fMAX (right b) x).

(** src/region.c:128-147 *)
Definition bounds_polygon (points : list (spec_float * spec_float)) : bounds :=
  fold_left (fun b p => include b (fst p) (snd p)) points start_bounds.

(** Reading pixel j + i * width of a mask region's data *)
Definition pixel (data : list N) (w i j : Z) : outcome N :=
  a <- int_result (i * w) ;; k <- int_result (j + a) ;;
  if 0 <=? k then match nth_error data (Z.to_nat k) with Some v => Ok v | None => UB end else UB.

(** src/region.c:158-168: the pixels of one row, the rows *)
Definition mask_pixel_step (data : list N) (w i j : Z) (b : bounds) : outcome bounds :=
  v <- pixel data w i j ;;
  Ok (if (v =? 0)%N then b else include b (float_of_int j) (float_of_int i)).
Definition mask_row_step (data : list N) (w i : Z) (b : bounds) : outcome bounds :=
  for_range (Z.to_nat w) 0 (mask_pixel_step data w i) b.
(** src/region.c:170-173 *)
Definition shift_bounds (b : bounds) (x y : spec_float) : bounds :=
  mkBounds (addf (top b) y) (addf (bottom b) y) (addf (left b) x) (addf (right b) x).
(** src/region.c:149-178 *)
Definition bounds_mask (x y w h : Z) (data : list N) : outcome bounds :=
  b <- for_range (Z.to_nat h) 0 (mask_row_step data w) start_bounds ;;
  Ok (shift_bounds b (float_of_int x) (float_of_int y)).

(** src/region.c:181-190; the double results of floor and ceil are stored as float *)
Definition bounds_round (b : bounds) : bounds :=
  mkBounds (float_of_double (ffloor (top b))) (float_of_double (fceil (bottom b)))
           (float_of_double (ffloor (left b))) (float_of_double (fceil (right b))).
(** src/region.c:192-203 *)
Definition bounds_intersection (a b : bounds) : bounds :=
  mkBounds (fMAX (top a) (top b)) (fMIN (bottom a) (bottom b)) (fMAX (left a) (left b)) (fMIN (right a) (right b)).
(** (right - left) * (bottom - top), src/region.c:221-223, :1139 *)
Definition bounds_area (b : bounds) : spec_float := mulf (subf (right b) (left b)) (subf (bottom b) (top b)).
(** src/region.c:218-225 *)
Definition bounds_overlap (a b : bounds) : spec_float :=
  let inter := bounds_area (bounds_intersection a b) in
  fMAX (S754_zero false) (divf inter (subf (addf (bounds_area a) (bounds_area b)) inter)).

(** src/region.c:837-870 region_compute_bounds *)
Definition bounds_rectangle (legacy : bool) (x y w h : spec_float) : bounds :=
  if legacy then mkBounds y (addf y h) x (addf x w)
  else mkBounds y (subf (addf y h) float_one) x (subf (addf x w) float_one).
Definition compute_bounds (legacy : bool) (r : region) : outcome bounds :=
  match r with
  | RRect x y w h => Ok (bounds_rectangle legacy x y w h)
  | RPoly points => Ok (bounds_polygon points)
  | RMask x y w h data => bounds_mask x y w h data
  | RSpecial _ => Ok no_bounds
  end.

(** src/region.c:102-113 offset_polygon, :115-126 round_polygon *)
Definition offset_polygon (points : list (spec_float * spec_float)) (x y : spec_float) : list (spec_float * spec_float) :=
  map (fun p => (addf (fst p) x, addf (snd p) y)) points.
Definition round_polygon (points : list (spec_float * spec_float)) : list (spec_float * spec_float) :=
  map (fun p => (float_of_double (fround (fst p)), float_of_double (fround (snd p)))) points.

(** The bubble sort of src/region.c:901-911 and :954-964.  The array is [rev before ++ after]; i is the length of
    [before].  Every step either swaps or moves i; [fuel] bounds the steps. *)
Fixpoint bubble (fuel : nat) (before after : list Z) : outcome (list Z) :=
  match fuel with
  | O => NoFuel
  | S f =>
      match after with
      | a :: b :: rest =>
          if b <? a then
            match before with
            | [] => bubble f [] (b :: a :: rest)
            | p :: before' => bubble f before' (p :: b :: a :: rest)
            end
          else bubble f (a :: before) (b :: rest)
      | _ => Ok (rev before ++ after)
      end
  end.
Definition bubble_sort (l : list Z) : outcome (list Z) := bubble (S (List.length l * List.length l)) [] l.

(** A pixel buffer, or NULL, and the number of pixels set *)
Definition raster : Type := option (block N) * Z.
(** src/region.c:981-984, :921-924 *)
Definition set_pixel (width row j : Z) (s : raster) : outcome raster :=
  m <- match fst s with
       | None => Ok None
       | Some b => a <- int_result (row * width) ;; k <- int_result (a + j) ;; b' <- put b k 1%N ;; Ok (Some b')
       end ;;
  sum <- int_result (snd s + 1) ;;
  Ok (m, sum).

(** src/region.c:966-989: the pairs of nodes of a row.  nodeX[i] .. is the list; a clamped node is not looked at again. *)
Fixpoint fill_pairs (width row : Z) (nodes : list Z) (s : raster) : outcome raster :=
  match nodes with
  | a :: ((b :: rest) as nodes') =>
      if width <=? a then Ok s
      else if (a =? b) && negb (match rest with [] => true | _ => false end) then fill_pairs width row nodes' s
      else
        s' <- (if 0 <=? b
               then let a' := if a <? 0 then 0 else a in
                    let b' := if width <=? b then width - 1 else b in
                    for_range (Z.to_nat (b' - a' + 1)) a' (set_pixel width row) s
               else Ok s) ;;
        fill_pairs width row rest s'
  | _ => Ok s
  end.
(** src/region.c:913-927: the same with legacy rasterisation; a missing partner node is an uninitialised or foreign int *)
Fixpoint fill_pairs_legacy (width row : Z) (nodes : list Z) (s : raster) : outcome raster :=
  match nodes with
  | [] => Ok s
  | a :: nodes' =>
      if width <=? a then Ok s
      else
        match nodes' with
        | [] => UB
        | b :: rest =>
            s' <- (if 0 <? b
                   then let a' := if a <? 0 then 0 else a in
                        let b' := if width <? b then width - 1 else b in
                        for_range (Z.to_nat (b' - a')) a' (set_pixel width row) s
                   else Ok s) ;;
            fill_pairs_legacy width row rest s'
        end
  end.

(** src/region.c:936-951: the edge from point (xj, yj) to (xi, yi) gives at most one node on a row *)
Definition edge_node (row : Z) (pj pi : spec_float * spec_float) : outcome (list Z) :=
  let '(xj, yj) := pj in
  let '(xi, yi) := pi in
  i <- int_of_float yi ;; j <- int_of_float yj ;;
  if ((i <=? row) && (row <? j)) || ((j <=? row) && (row <? i)) || ((i <? row) && (row <=? j)) ||
     ((j <? row) && (row <=? i)) || ((i =? j) && (i =? row))
  then
    let r := subf yj yi in
    let k := subf xj xi in
    n <- int_of_float
           (if feq r (S754_zero false) then xi
            else addd xi (muld (divd (subf (float_of_int row) yi) r) k)) ;;
    Ok [n]
  else Ok [].
(** src/region.c:890-897.  Float and double operands follow C's usual conversions: pixelY is converted to float. *)
Definition edge_node_legacy (row : Z) (pj pi : spec_float * spec_float) : outcome (list Z) :=
  let '(xj, yj) := pj in
  let '(xi, yi) := pi in
  let p := to_double (row <? 0) (Z.abs row) 1 in
  let p := if row =? 0 then S754_zero false else p in
  if (flt yi p && fge yj p) || (flt yj p && fge yi p)
  then
    n <- int_of_float (addf xi (mulf (divf (subf (float_of_int row) yi) (subf yj yi)) (subf xj xi))) ;;
    Ok [n]
  else Ok [].

(** src/region.c:930-952: the nodes of a row; [pj] is the previous point *)
Fixpoint row_nodes (edge : Z -> spec_float * spec_float -> spec_float * spec_float -> outcome (list Z))
                   (row : Z) (pj : spec_float * spec_float) (points : list (spec_float * spec_float)) : outcome (list Z) :=
  match points with
  | [] => Ok []
  | pi :: points' =>
      n <- edge row pj pi ;; ns <- row_nodes edge row pi points' ;; Ok (n ++ ns)
  end.
Definition origin : spec_float * spec_float := (S754_zero false, S754_zero false).

(** src/region.c:933-989, one row *)
Definition raster_row (legacy : bool) (points : list (spec_float * spec_float)) (width row : Z) (s : raster) : outcome raster :=
  nodes <- row_nodes (if legacy then edge_node_legacy else edge_node) row (last points origin) points ;;
  sorted <- bubble_sort nodes ;;
  (if legacy then fill_pairs_legacy else fill_pairs) width row sorted s.

(** src/region.c:872-998 rasterize_polygon: the pixels and the returned sum *)
Definition rasterize (legacy : bool) (points : list (spec_float * spec_float)) (mask : option (block N)) (width height : Z)
  : outcome raster :=
  m <- match mask with
       | None => Ok None
       | Some b => size <- int_result (width * height) ;; b' <- mem_set b 0%N size ;; Ok (Some b')
       end ;;
  let points := if legacy then points else round_polygon points in
  for_range (Z.to_nat height) 0 (raster_row legacy points width) (m, 0).

(** src/region.c:602-632, the corner points of a rectangle *)
Definition rect_points (legacy : bool) (x y w h : spec_float) : list (spec_float * spec_float) :=
  let x1 := if legacy then addf x w else subf (addf x w) float_one in
  let y1 := if legacy then addf y h else subf (addf y h) float_one in
  [(x, y); (x1, y); (x1, y1); (x, y1)].

(** src/region.c:1251-1255: copying one pixel, one row *)
Definition copy_pixel (data : list N) (mw ox oy gx gy width i j : Z) (b : block N) : outcome (block N) :=
  gi <- int_result (i + gy) ;; gj <- int_result (j + gx) ;;
  v <- pixel data mw gi gj ;;
  oi <- int_result (i + oy) ;; oj <- int_result (j + ox) ;;
  a <- int_result (oi * width) ;; k <- int_result (oj + a) ;;
  put b k v.
Definition copy_row (data : list N) (mw ox oy gx gy width tw i : Z) (b : block N) : outcome (block N) :=
  for_range (Z.to_nat tw) 0 (copy_pixel data mw ox oy gx gy width i) b.

(** src/region.c:1228-1271 region_get_mask_offset: the new contents of the buffer.  A special region has no points:
    the other member of the union is read. *)
Definition get_mask_offset (legacy : bool) (r : region) (mask : block N) (x y width height : Z) : outcome (block N) :=
  match r with
  | RMask mx my mw mh data =>
      let tx := Z.max mx x in
      let ty := Z.max my y in
      ox <- int_result (tx - x) ;; oy <- int_result (ty - y) ;;
      gx <- int_result (tx - mx) ;; gy <- int_result (ty - my) ;;
      xe <- int_result (x + width) ;; mxe <- int_result (mx + mw) ;; tw <- int_result (Z.min xe mxe - tx) ;;
      ye <- int_result (y + height) ;; mye <- int_result (my + mh) ;; th <- int_result (Z.min ye mye - ty) ;;
      size <- int_result (width * height) ;;
      b <- mem_set mask 0%N size ;;
      for_range (Z.to_nat th) 0 (copy_row data mw ox oy gx gy width tw) b
  | RSpecial _ => UB
  | RRect _ _ _ _ | RPoly _ =>
      nx <- int_result (- x) ;; ny <- int_result (- y) ;;
      let points := match r with RRect rx ry rw rh => rect_points legacy rx ry rw rh | RPoly l => l | _ => [] end in
      s <- rasterize legacy (offset_polygon points (float_of_int nx) (float_of_int ny)) (Some mask) width height ;;
      match fst s with Some b => Ok b | None => UB end
  end.
(** src/region.c:1222-1226 region_get_mask *)
Definition get_mask (legacy : bool) (r : region) (mask : block N) (width height : Z) : outcome (block N) :=
  get_mask_offset legacy r mask 0 0 width height.

(** src/region.c:780-799 region_create_mask: the uninitialised pixels.  assert is compiled in.
    Simplification: sizes beyond int are refused here (UB). *)
Definition create_mask (width height : Z) : outcome (block N) :=
  if (0 <? width) && (0 <? height)
  then n <- int_result (width * height) ;; Ok (blk_new (Z.to_nat n))
  else Abort.

(** src/region.c:549-571: the float loop of the conversion of a polygon to a rectangle *)
Definition convert_bounds_polygon (points : list (spec_float * spec_float)) : bounds :=
  fold_left (fun b p => include b (fst p) (snd p)) points (mkBounds FLT_MAX FLT_MIN FLT_MAX FLT_MIN).

(** src/region.c:539-713 region_convert: None is NULL *)
Definition convert (legacy : bool) (r : region) (type : region_type) : outcome (option region) :=
  match type with
  | RECTANGLE =>
      match r with
      | RRect _ _ _ _ => Ok (Some r)
      | RPoly points =>
          let b := convert_bounds_polygon points in
          Ok (Some (RRect (left b) (top b) (subf (right b) (left b)) (subf (bottom b) (top b))))
      | RMask x y w h data =>
          b <- bounds_mask x y w h data ;;
          Ok (Some (RRect (left b) (top b) (addf (subf (right b) (left b)) float_one) (addf (subf (bottom b) (top b)) float_one)))
      | RSpecial _ => Ok None
      end
  | POLYGON =>
      match r with
      | RRect x y w h => Ok (Some (RPoly (rect_points legacy x y w h)))
      | RPoly points => Ok (Some (RPoly points))
      | RMask x y w h data =>
          b <- bounds_mask x y w h data ;;
          Ok (Some (RPoly [(left b, top b); (right b, top b); (right b, bottom b); (left b, bottom b)]))
      | RSpecial _ => Ok None
      end
  | MASK =>
      match r with
      | RRect x y w h =>
          xi <- int_of_float x ;; yi <- int_of_float y ;; wi <- int_of_float w ;; hi <- int_of_float h ;;
          b <- create_mask wi hi ;;
          n <- int_result (wi * hi) ;;
          b' <- mem_set b 255%N n ;;
          l <- blk_read b' (Z.to_nat n) ;;
          Ok (Some (RMask xi yi wi hi l))
      | RPoly points =>
          let b := bounds_polygon points in
          xi <- int_of_float (left b) ;; yi <- int_of_float (right b) ;;
          wi <- int_of_float (subf (right b) (left b)) ;; hi <- int_of_float (subf (bottom b) (top b)) ;;
          m <- create_mask wi hi ;;
          m' <- get_mask_offset legacy r m xi yi wi hi ;;
          l <- blk_read m' (Z.to_nat (wi * hi)) ;;
          Ok (Some (RMask xi yi wi hi l))
      | RMask x y w h data =>
          m <- create_mask w h ;;
          n <- int_result (w * h) ;;
          if (Z.to_nat n <=? List.length data)%nat then Ok (Some (RMask x y w h (firstn (Z.to_nat n) data))) else UB
      | RSpecial _ => Ok None
      end
  | SPECIAL => Ok (Some (match r with RSpecial c => RSpecial c | _ => RSpecial TRAX_DEFAULT_CODE end))
  | EMPTY => Ok None
  end.

(** src/region.c:805-813 point_in_polygon *)
Fixpoint crossings (x y : spec_float) (pj : spec_float * spec_float) (points : list (spec_float * spec_float)) (c : bool) : bool :=
  match points with
  | [] => c
  | pi :: points' =>
      let '(xj, yj) := pj in
      let '(xi, yi) := pi in
      let c' :=
        if xorb (fgt yi y) (fgt yj y) &&
           flt x (addf (divf (mulf (subf xj xi) (subf y yi)) (subf yj yi)) xi)
        then negb c else c in
      crossings x y pi points' c'
  end.
(** src/region.c:815-821 point_in_mask *)
Definition point_in_mask (mx my mw mh : Z) (data : list N) (x y : spec_float) : outcome bool :=
  if flt x (float_of_int mx) || flt y (float_of_int my) then Ok false
  else
    xe <- int_result (mx + mw) ;;
    if fge x (float_of_int xe) then Ok false
    else
      ye <- int_result (my + mh) ;;
      if fge y (float_of_int ye) then Ok false
      else
        xi <- int_of_float x ;; yi <- int_of_float y ;;
        j <- int_result (xi - mx) ;; i <- int_result (yi - my) ;;
        v <- pixel data mw i j ;;
        Ok (negb (v =? 0)%N).
(** src/region.c:1203-1220 region_contains_point *)
Definition contains_point (r : region) (x y : spec_float) : outcome bool :=
  match r with
  | RRect rx ry rw rh => Ok (fge x rx && fle x (addf rw rx) && fge y ry && fle y (addf rh ry))
  | RPoly points => Ok (crossings x y (last points origin) points false)
  | RMask mx my mw mh data => point_in_mask mx my mw mh data x y
  | RSpecial _ => Ok false
  end.

(** src/region.c:1172-1178: the counters mask_1, mask_2, mask_intersect.  Simplification: the counters do not overflow
    (they are at most width * height, an int). *)
Fixpoint count_pairs (m1 m2 : list N) : Z * Z * Z :=
  match m1, m2 with
  | a :: m1', b :: m2' =>
      let '(only1, only2, both) := count_pairs m1' m2' in
      if negb (a =? 0)%N && negb (b =? 0)%N then (only1, only2, both + 1)
      else if negb (a =? 0)%N then (only1 + 1, only2, both)
      else if negb (b =? 0)%N then (only1, only2 + 1, both)
      else (only1, only2, both)
  | _, _ => (0, 0, 0)
  end.
(** src/region.c:1148-1154: counts while i < bound, a comparison in float *)
Fixpoint count_while (m : block N) (i : Z) (bound : spec_float) : outcome Z :=
  if flt (float_of_int i) bound then
    match m with
    | Some v :: m' => n <- count_while m' (i + 1) bound ;; Ok (if (v =? 0)%N then n else n + 1)
    | _ => UB
    end
  else Ok 0.

(** src/region.h:97-103 *)
Record overlap := mkOverlap { o_overlap : spec_float; o_only1 : spec_float; o_only2 : spec_float }.
Definition fzero : spec_float := S754_zero false.
(** src/region.c:1140: the constant 1e-10 *)
Definition ratio_limit : spec_float := scaled_double false 10 1 (-10).

(** Extent in pixels of a side: hi - lo + 1 in float, converted to int (arguments in src/region.c:1142-1146) *)
Definition side (lo hi : spec_float) : spec_float := addf (subf hi lo) float_one.
(** src/region.c:1142-1158: regions whose boxes do not overlap *)
Definition box_volume (legacy : bool) (r : region) (b : bounds) : outcome Z :=
  x <- int_of_float (left b) ;; y <- int_of_float (top b) ;;
  w <- int_of_float (side (left b) (right b)) ;; h <- int_of_float (side (top b) (bottom b)) ;;
  m <- create_mask w h ;;
  m' <- get_mask_offset legacy r m x y w h ;;
  count_while m' 0 (mulf (side (left b) (right b)) (side (top b) (bottom b))).
Definition overlap_disjoint (legacy : bool) (ra rb : region) (b1 b2 : bounds) : outcome overlap :=
  vol1 <- box_volume legacy ra b1 ;; vol2 <- box_volume legacy rb b2 ;;
  total <- int_result (vol1 + vol2) ;;
  Ok (mkOverlap fzero (divf (float_of_int vol1) (float_of_int total)) (divf (float_of_int vol2) (float_of_int total))).
(** src/region.c:1160-1187: regions whose boxes overlap *)
Definition overlap_window (legacy : bool) (ra rb : region) (x y width height : Z) : outcome overlap :=
  m1 <- create_mask width height ;; m2 <- create_mask width height ;;
  m1' <- get_mask_offset legacy ra m1 x y width height ;;
  m2' <- get_mask_offset legacy rb m2 x y width height ;;
  l1 <- blk_read m1' (Z.to_nat (width * height)) ;; l2 <- blk_read m2' (Z.to_nat (width * height)) ;;
  let '(only1, only2, both) := count_pairs l1 l2 in
  total <- int_result (only1 + only2 + both) ;;
  Ok (mkOverlap (divf (float_of_int both) (float_of_int total))
                (divf (float_of_int only1) (float_of_int total)) (divf (float_of_int only2) (float_of_int total))).

(** src/region.c:1119-1126: the box of a region inside the given bounds *)
Definition clipped_box (legacy : bool) (r : region) (bnd : bounds) : outcome bounds :=
  b <- compute_bounds legacy r ;;
  Ok (bounds_intersection (if legacy then b else bounds_round b) bnd).

(** src/region.c:1101-1201 region_compute_overlap *)
Definition compute_overlap (legacy : bool) (ra rb : region) (bnd : bounds) : outcome overlap :=
  b1 <- clipped_box legacy ra bnd ;;
  b2 <- clipped_box legacy rb bnd ;;
  x <- int_of_float (fMIN (left b1) (left b2)) ;;
  y <- int_of_float (fMIN (top b1) (top b2)) ;;
  w <- int_of_float (subf (fMAX (right b1) (right b2)) (float_of_int x)) ;; width <- int_result (w + 1) ;;
  h <- int_of_float (subf (fMAX (bottom b1) (bottom b2)) (float_of_int y)) ;; height <- int_result (h + 1) ;;
  let a1 := bounds_area b1 in
  let a2 := bounds_area b2 in
  if flt (divd a1 a2) ratio_limit || flt (divd a2 a1) ratio_limit || (width <? 1) || (height <? 1)
  then Ok (mkOverlap fzero fzero fzero)
  else if feq (bounds_overlap b1 b2) fzero
  then overlap_disjoint legacy ra rb b1 b2
  else overlap_window legacy ra rb x y width height.
