(** Model of the regions of the Python bindings except masks: the classes Region, Special, Rectangle and Polygon of
    support/python/trax/region.py with the C functions they call (src/trax.c:1703-1853).
    The parts of Python and ctypes that they use are modelled: a parameter declared as c_float takes a Python int or float, converts it
    to a double and this to a float; one declared as c_int takes an int modulo 2^32; other arguments are an ArgumentError.
    Simplifications: the two coordinate arrays of a polygon are one block of points; asserts of the C library are switched on. *)
From Verif Require Import CBase Buffer Num FloatOps Region Lists Matlab PyText PyArrays PySession.
Local Open Scope Z_scope.

(** A Python value given as a number; bool counts as int *)
Inductive number := NInt (z : Z) | NFloat (d : spec_float) | NOther.
(** The conversion of an argument to a C float (ctypes: PyFloat_AsDouble, then a cast); an int that is no double is an error *)
Definition as_float (n : number) : py spec_float :=
  match n with
  | NInt z => match double_of_int z with S754_infinity _ => raise ArgumentError | d => ret (float_of_double d) end
  | NFloat d => ret (float_of_double d)
  | NOther => raise ArgumentError
  end.
(** ... and to a C int *)
Definition as_int (n : number) : py Z := match n with NInt z => ret (c_int z) | _ => raise ArgumentError end.

(** ---- Objects ---- *)

(** A Python object of one of the four classes with the native region it refers to (region.py:20-40) *)
Inductive class := CSpecial | CRectangle | CPolygon | CMask.
Record robject := mkObject { o_class : class; o_region : region }.
(** The properties type: region.py:137, 182, 278, 368 *)
Definition type_name (c : class) : text :=
  match c with CSpecial => str "special" | CRectangle => str "rectangle" | CPolygon => str "polygon" | CMask => str "mask" end.
(** trax_region_get_type (src/trax.c:1780-1786; the codes of include/trax.h) *)
Definition native_type (r : option region) : Z :=
  match r with None => 0 | Some (RSpecial _) => 1 | Some (RRect _ _ _ _) => 2 | Some (RPoly _) => 4 | Some (RMask _ _ _ _ _) => 8 end.
(** region.py:43-54 Region.wrap; None for any other type *)
Definition wrap (r : option region) : option robject :=
  let t := native_type r in
  match r with
  | None => None
  | Some r =>
      if t =? 1 then Some (mkObject CSpecial r) else if t =? 2 then Some (mkObject CRectangle r)
      else if t =? 4 then Some (mkObject CPolygon r) else if t =? 8 then Some (mkObject CMask r) else None
  end.

(** ---- Special regions ---- *)

(** region.py:119-126 Special.create, src/trax.c:1703-1707 *)
Definition special_create (code : number) : py robject := c <~ as_int code ;; ret (mkObject CSpecial (RSpecial c)).
(** region.py:145-147 code, src/trax.c:1797-1803 *)
Definition special_code (o : robject) : py Z := match o_region o with RSpecial c => ret c | _ => lift Abort end.

(** ---- Rectangles ---- *)

(** region.py:153-166 Rectangle.create, src/trax.c:1717-1721 *)
Definition rectangle_create (x y width height : number) : py robject :=
  x <~ as_float x ;; y <~ as_float y ;; w <~ as_float width ;; h <~ as_float height ;; ret (mkObject CRectangle (RRect x y w h)).
(** region.py:190-201 bounds, src/trax.c:1816-1825; the value of a c_float is a Python float *)
Definition rectangle_bounds (o : robject) : py (spec_float * spec_float * spec_float * spec_float) :=
  match o_region o with
  | RRect x y w h => ret (double_of_float x, double_of_float y, double_of_float w, double_of_float h)
  | _ => lift Abort
  end.

(** ---- Polygons ---- *)

(** An element of the list of points, and the argument *)
Inductive point := PTuple (l : list number) | PNoTuple.
Inductive points_arg := PList (l : list point) | PNoList.
(** The native polygon under construction *)
Definition native_points := block (spec_float * spec_float).
(** src/trax.c:1827-1835 trax_region_set_polygon_point: the assert holds for every index that is not negative *)
Definition set_polygon_point (b : native_points) (index : Z) (x y : spec_float) : outcome native_points :=
  if (index <? 0) && (Z.of_nat (List.length b) <=? index) then Abort
  else if (0 <=? index) && (index <? Z.of_nat (List.length b)) then blk_write b (Z.to_nat index) (x, y) else UB.
(** region.py:264-265: one step of the loop; the two elements are taken before the conversion of the arguments *)
Definition set_point (b : native_points) (i : Z) (p : point) : py native_points :=
  match p with
  | PTuple (x :: y :: _) => x <~ as_float x ;; y <~ as_float y ;; lift (set_polygon_point b (c_int i) x y)
  | PTuple _ => raise IndexError
  | PNoTuple => raise TypeError
  end.
Fixpoint set_points (b : native_points) (i : Z) (l : list point) : py native_points :=
  match l with
  | [] => ret b
  | p :: l' => b <~ set_point b i p ;; set_points b (i + 1) l'
  end.
(** src/trax.c:1709-1715 trax_region_create_polygon *)
Definition create_polygon (size : Z) : outcome native_points := if 2 <? size then Ok (blk_new (Z.to_nat size)) else Abort.
Definition is_tuple (p : point) : bool := match p with PTuple _ => true | PNoTuple => false end.
(** region.py:250-267 Polygon.create; the second result is the number of native regions nobody will release *)
Definition polygon_create (points : points_arg) : outcome ((robject + exn) * nat) :=
  match points with
  | PNoList => Ok (inr AssertionError, 0%nat)
  | PList l =>
      if negb (2 <? Z.of_nat (List.length l)) then Ok (inr AssertionError, 0%nat)
      else if negb (forallb is_tuple l) then Ok (inr AssertionError, 0%nat)
      else
        poly <- create_polygon (c_int (Z.of_nat (List.length l))) ;;
        r <- set_points poly 0 l ;;
        match r with
        | inl b => pts <- blk_read b (List.length b) ;; Ok (inl (mkObject CPolygon (RPoly pts)), 0%nat)
        | inr e => Ok (inr e, 1%nat)
        end
  end.
(** region.py:286-292 size, src/trax.c:1847-1853 *)
Definition polygon_size (o : robject) : py Z := match o_region o with RPoly pts => ret (Z.of_nat (List.length pts)) | _ => lift Abort end.
(** src/trax.c:1837-1845 *)
Definition get_polygon_point (r : region) (index : Z) : outcome (spec_float * spec_float) :=
  match r with
  | RPoly pts =>
      if (index <? 0) && (Z.of_nat (List.length pts) <=? index) then Abort
      else if index <? 0 then UB else match nth_error pts (Z.to_nat index) with Some p => Ok p | None => UB end
  | _ => Abort
  end.
(** region.py:305-320 get (and 294-303 __getitem__) *)
Definition polygon_get (o : robject) (i : Z) : py (spec_float * spec_float) :=
  size <~ polygon_size o ;;
  if (i <? 0) || (size <=? i) then raise IndexError
  else p <~ lift (get_polygon_point (o_region o) (c_int i)) ;; ret (double_of_float (fst p), double_of_float (snd p)).

(** ---- Iteration ---- *)

(** region.py:204-227 PolygonIterator *)
Record iterator := mkIterator { it_polygon : robject; it_position : Z; it_size : Z }.
(** region.py:322-328 __iter__ and 207-215 *)
Definition polygon_iter (o : robject) : py iterator := size <~ polygon_size o ;; ret (mkIterator o 0 size).
(** region.py:217-227 __next__; None: StopIteration *)
Definition iterator_next (it : iterator) : py (option ((spec_float * spec_float) * iterator)) :=
  if it_position it =? it_size it then ret None
  else p <~ polygon_get (it_polygon it) (it_position it) ;; ret (Some (p, mkIterator (it_polygon it) (it_position it + 1) (it_size it))).
(** A loop over an iterator collects its elements *)
Fixpoint drain (fuel : nat) (it : iterator) : py (list (spec_float * spec_float)) :=
  match fuel with
  | O => lift NoFuel
  | S fuel' =>
      r <~ iterator_next it ;;
      match r with
      | None => ret []
      | Some (p, it') => l <~ drain fuel' it' ;; ret (p :: l)
      end
  end.
(** Python's iter on these objects: it needs a method __iter__ (or __getitem__); PolygonIterator has only __next__ *)
Inductive iterable := IPolygon (o : robject) | IIterator (it : iterator).
Definition python_iter (x : iterable) : py iterator :=
  match x with IPolygon o => polygon_iter o | IIterator _ => raise TypeError end.
(** for p in x: ... *)
Definition for_in (fuel : nat) (x : iterable) : py (list (spec_float * spec_float)) := it <~ python_iter x ;; drain fuel it.
