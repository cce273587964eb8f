(** Model of the region functions of the API, src/trax.c:1693-1890, with the memory behind the regions.
    Regions, coordinate arrays and pixel arrays live in a store and are named by their position, so that sharing, use after
    release and leaks can be told.  Asserts are compiled in.  Simplification: allocations succeed. *)
From Verif Require Import CBase Num Buffer Region RegionGeom Formats Handle Lists.
Local Open Scope Z_scope.

(** src/region.h:57-105 region_container; the arrays of a polygon and the data of a mask are pointers *)
Inductive container :=
| CSpecial (code : Z)
| CRect (x y width height : spec_float)
| CPoly (count : Z) (xs ys : nat)
| CMask (x y width height : Z) (data : nat).
(** A cell None of an array is not initialised; an array or region None has been freed. *)
Record heap := mkHeap {
  floats : list (option (list (option spec_float)));
  chars : list (option (list (option N)));
  regions : list (option container)
}.

(** malloc and free *)
Definition new_floats (m : heap) (a : list (option spec_float)) : nat * heap :=
  (List.length (floats m), mkHeap (floats m ++ [Some a]) (chars m) (regions m)).
Definition new_chars (m : heap) (a : list (option N)) : nat * heap :=
  (List.length (chars m), mkHeap (floats m) (chars m ++ [Some a]) (regions m)).
Definition new_region (m : heap) (c : container) : nat * heap :=
  (List.length (regions m), mkHeap (floats m) (chars m) (regions m ++ [Some c])).
Definition the {A} (l : list (option A)) (p : nat) : outcome A := match nth p l None with Some a => Ok a | None => UB end.
Definition set_floats (m : heap) (p : nat) (a : option (list (option spec_float))) : outcome heap :=
  _ <- the (floats m) p ;; l <- set_cell (floats m) p a ;; Ok (mkHeap l (chars m) (regions m)).
Definition set_chars (m : heap) (p : nat) (a : option (list (option N))) : outcome heap :=
  _ <- the (chars m) p ;; l <- set_cell (chars m) p a ;; Ok (mkHeap (floats m) l (regions m)).
Definition set_region (m : heap) (h : nat) (c : option container) : outcome heap :=
  _ <- the (regions m) h ;; l <- set_cell (regions m) h c ;; Ok (mkHeap (floats m) (chars m) l).

(** src/trax.c:1703-1707, src/region.c:741-749 *)
Definition create_special (m : heap) (code : Z) : nat * heap := new_region m (CSpecial code).
(** src/trax.c:1717-1721, src/region.c:751-762 *)
Definition create_rectangle (m : heap) (x y w h : spec_float) : nat * heap := new_region m (CRect x y w h).
(** src/trax.c:1709-1715, src/region.c:764-779 *)
Definition create_polygon (m : heap) (size : Z) : outcome (nat * heap) :=
  if 2 <? size then
    let '(xs, m) := new_floats m (repeat None (Z.to_nat size)) in
    let '(ys, m) := new_floats m (repeat None (Z.to_nat size)) in
    Ok (new_region m (CPoly size xs ys))
  else Abort.
(** src/trax.c:1855-1859, src/region.c:781-799; the size is computed in size_t *)
Definition create_mask_region (m : heap) (x y w h : Z) : outcome (nat * heap) :=
  if (0 <? w) && (0 <? h) then
    let '(d, m) := new_chars m (repeat None (Z.to_nat (w * h))) in
    Ok (new_region m (CMask x y w h d))
  else Abort.

(** memcpy of the first [n] cells of [src] into [dst] *)
Definition copy_cells {A} (dst src : list (option A)) (n : nat) : outcome (list (option A)) :=
  if ((n <=? List.length src) && (n <=? List.length dst))%nat then Ok (firstn n src ++ skipn n dst) else UB.
(** src/region.c:76-99 allocate_polygon, clone_polygon *)
Definition clone_points (m : heap) (count : Z) (xs ys : nat) : outcome (nat * nat * heap) :=
  let '(xs', m) := new_floats m (repeat (Some (S754_zero false)) (Z.to_nat count)) in
  let '(ys', m) := new_floats m (repeat (Some (S754_zero false)) (Z.to_nat count)) in
  sx <- the (floats m) xs ;; dx <- the (floats m) xs' ;; ax <- copy_cells dx sx (Z.to_nat count) ;;
  m <- set_floats m xs' (Some ax) ;;
  sy <- the (floats m) ys ;; dy <- the (floats m) ys' ;; ay <- copy_cells dy sy (Z.to_nat count) ;;
  m <- set_floats m ys' (Some ay) ;;
  Ok (xs', ys', m).
(** src/trax.c:1737-1743 trax_region_clone, with the cases of src/region.c:539-712 region_convert where the types agree:
    548-553 (rectangle), 646-650 (polygon), 685-690 (mask), 700-702 (special) *)
Definition clone (m : heap) (h : nat) : outcome (nat * heap) :=
  c <- the (regions m) h ;;
  match c with
  | CSpecial code => Ok (create_special m code)
  | CRect x y w h => Ok (new_region m (CRect x y w h))
  | CPoly count xs ys => r <- clone_points m count xs ys ;; let '(xs', ys', m) := r in Ok (new_region m (CPoly count xs' ys'))
  | CMask x y w h data =>
      r <- create_mask_region m x y w h ;;
      let '(h', m) := r in
      c' <- the (regions m) h' ;;
      match c' with
      | CMask _ _ _ _ data' =>
          n <- int_result (w * h) ;;
          s <- the (chars m) data ;; d <- the (chars m) data' ;; a <- copy_cells d s (Z.to_nat n) ;;
          m <- set_chars m data' (Some a) ;; Ok (h', m)
      | _ => UB
      end
  end.
(** src/trax.c:1693-1701, src/region.c:715-739 region_release *)
Definition release (m : heap) (h : nat) : outcome heap :=
  c <- the (regions m) h ;;
  m <- match c with
       | CSpecial _ | CRect _ _ _ _ => Ok m
       | CPoly _ xs ys => m <- set_floats m xs None ;; set_floats m ys None
       | CMask _ _ _ _ data => set_chars m data None
       end ;;
  set_region m h None.

(** src/trax.c:1780-1786 trax_region_get_type; None is NULL *)
Definition get_type (m : heap) (h : option nat) : outcome Z :=
  match h with
  | None => Ok 0
  | Some h =>
      c <- the (regions m) h ;;
      Ok (match c with
          | CSpecial _ => TRAX_REGION_SPECIAL | CRect _ _ _ _ => TRAX_REGION_RECTANGLE
          | CPoly _ _ _ => TRAX_REGION_POLYGON | CMask _ _ _ _ _ => TRAX_REGION_MASK
          end)
  end.
(** src/trax.c:1788-1794 and 1797-1803 *)
Definition set_special (m : heap) (h : nat) (code : Z) : outcome heap :=
  c <- the (regions m) h ;; match c with CSpecial _ => set_region m h (Some (CSpecial code)) | _ => Abort end.
Definition get_special (m : heap) (h : nat) : outcome Z :=
  c <- the (regions m) h ;; match c with CSpecial code => Ok code | _ => Abort end.
(** src/trax.c:1805-1814 and 1816-1825 *)
Definition set_rectangle (m : heap) (h : nat) (x y width height : spec_float) : outcome heap :=
  c <- the (regions m) h ;; match c with CRect _ _ _ _ => set_region m h (Some (CRect x y width height)) | _ => Abort end.
Definition get_rectangle (m : heap) (h : nat) : outcome (spec_float * spec_float * spec_float * spec_float) :=
  c <- the (regions m) h ;; match c with CRect x y width height => Ok (x, y, width, height) | _ => Abort end.
(** src/trax.c:1827-1835: the assertion as it is written *)
Definition set_point (m : heap) (h : nat) (index : Z) (x y : spec_float) : outcome heap :=
  c <- the (regions m) h ;;
  match c with
  | CPoly count xs ys =>
      if (0 <=? index) || (index <? count) then
        ax <- the (floats m) xs ;; ax' <- put_cell ax index (Some x) ;; m <- set_floats m xs (Some ax') ;;
        ay <- the (floats m) ys ;; ay' <- put_cell ay index (Some y) ;; set_floats m ys (Some ay')
      else Abort
  | _ => Abort
  end.
(** src/trax.c:1837-1845, both coordinates asked for *)
Definition get_point (m : heap) (h : nat) (index : Z) : outcome (spec_float * spec_float) :=
  c <- the (regions m) h ;;
  match c with
  | CPoly count xs ys =>
      if (0 <=? index) || (index <? count) then
        ax <- the (floats m) xs ;; x <- get_cell ax index ;; ay <- the (floats m) ys ;; y <- get_cell ay index ;; Ok (x, y)
      else Abort
  | _ => Abort
  end.
(** src/trax.c:1847-1853 *)
Definition get_count (m : heap) (h : nat) : outcome Z :=
  c <- the (regions m) h ;; match c with CPoly count _ _ => Ok count | _ => Abort end.
(** src/trax.c:1861-1870 *)
Definition get_header (m : heap) (h : nat) : outcome (Z * Z * Z * Z) :=
  c <- the (regions m) h ;; match c with CMask x y width height _ => Ok (x, y, width, height) | _ => Abort end.
(** src/trax.c:1872-1880 and 1882-1890, trax_region_write_mask_row and trax_region_get_mask_row (the same text twice): the
    array and the position of the row in it *)
Definition mask_row (m : heap) (h : nat) (row : Z) : outcome (nat * Z) :=
  c <- the (regions m) h ;;
  match c with
  | CMask _ _ width height data =>
      if (0 <=? row) && (row <? height) then o <- int_result (width * row) ;; Ok (data, o) else Abort
  | _ => Abort
  end.
(** The caller's access to a byte of the row *)
Definition write_pixel (m : heap) (h : nat) (row column : Z) (v : N) : outcome heap :=
  r <- mask_row m h row ;; let '(d, o) := r in
  a <- the (chars m) d ;; a' <- put_cell a (o + column) (Some v) ;; set_chars m d (Some a').
Definition read_pixel (m : heap) (h : nat) (row column : Z) : outcome N :=
  r <- mask_row m h row ;; let '(d, o) := r in a <- the (chars m) d ;; get_cell a (o + column).
