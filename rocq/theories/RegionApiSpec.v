(** Specification of the region functions: regions are independent values. *)
From Verif Require Import CBase Num Buffer Region RegionGeom Handle ListsSpec RegionApi.
Local Open Scope Z_scope.

(** What an application does with regions; they are named by the order of their creation. *)
Inductive call :=
| CreateSpecial (code : Z)
| CreateRectangle (x y w h : spec_float)
| CreatePolygon (size : Z)
| CreateMask (x y w h : Z)
| Clone (r : nat)
| Release (r : nat)
| GetType (r : nat)
| SetSpecial (r : nat) (code : Z)
| GetSpecial (r : nat)
| SetRectangle (r : nat) (x y w h : spec_float)
| GetRectangle (r : nat)
| SetPoint (r : nat) (index : Z) (x y : spec_float)
| GetPoint (r : nat) (index : Z)
| GetCount (r : nat)
| GetHeader (r : nat)
| WritePixel (r : nat) (row column : Z) (v : N)
| ReadPixel (r : nat) (row column : Z).
Inductive result :=
| Done
| Region_named (r : nat)
| Number (z : Z)
| Rectangle_is (x y w h : spec_float)
| Point_is (x y : spec_float)
| Header_is (x y w h : Z)
| Pixel_is (v : N).
Definition run_call (m : heap) (c : call) : outcome (heap * result) :=
  match c with
  | CreateSpecial code => let '(r, m) := create_special m code in Ok (m, Region_named r)
  | CreateRectangle x y w h => let '(r, m) := create_rectangle m x y w h in Ok (m, Region_named r)
  | CreatePolygon n => p <- create_polygon m n ;; let '(r, m) := p in Ok (m, Region_named r)
  | CreateMask x y w h => p <- create_mask_region m x y w h ;; let '(r, m) := p in Ok (m, Region_named r)
  | Clone r => p <- clone m r ;; let '(r', m) := p in Ok (m, Region_named r')
  | Release r => m <- release m r ;; Ok (m, Done)
  | GetType r => t <- get_type m (Some r) ;; Ok (m, Number t)
  | SetSpecial r code => m <- set_special m r code ;; Ok (m, Done)
  | GetSpecial r => z <- get_special m r ;; Ok (m, Number z)
  | SetRectangle r x y w h => m <- set_rectangle m r x y w h ;; Ok (m, Done)
  | GetRectangle r => p <- get_rectangle m r ;; let '(x, y, w, h) := p in Ok (m, Rectangle_is x y w h)
  | SetPoint r i x y => m <- set_point m r i x y ;; Ok (m, Done)
  | GetPoint r i => p <- get_point m r i ;; let '(x, y) := p in Ok (m, Point_is x y)
  | GetCount r => z <- get_count m r ;; Ok (m, Number z)
  | GetHeader r => p <- get_header m r ;; let '(x, y, w, h) := p in Ok (m, Header_is x y w h)
  | WritePixel r i j v => m <- write_pixel m r i j v ;; Ok (m, Done)
  | ReadPixel r i j => v <- read_pixel m r i j ;; Ok (m, Pixel_is v)
  end.
Fixpoint run_calls (m : heap) (l : list call) : outcome (heap * list result) :=
  match l with
  | [] => Ok (m, [])
  | c :: l' => p <- run_call m c ;; let '(m, r) := p in q <- run_calls m l' ;; let '(m, rs) := q in Ok (m, r :: rs)
  end.
Definition no_heap : heap := mkHeap [] [] [].

(** Values: a point or pixel None has not been written yet. *)
Inductive content :=
| Special_of (code : Z)
| Rectangle_of (x y w h : spec_float)
| Polygon_of (points : list (option (spec_float * spec_float)))
| Mask_of (x y w h : Z) (pixels : list (option N)).
Definition contents := list (option content).
Definition content_of (s : contents) (r : nat) : content := match nth r s None with Some c => c | None => Special_of 0 end.
Definition live (s : contents) (r : nat) : Prop := exists c, nth r s None = Some c.
Definition type_number (c : content) : Z :=
  match c with Special_of _ => 1 | Rectangle_of _ _ _ _ => 2 | Polygon_of _ => 4 | Mask_of _ _ _ _ _ => 8 end.

(** What each call means. *)
Definition step_value (s : contents) (c : call) : contents * result :=
  let create v := (s ++ [Some v], Region_named (List.length s)) in
  match c with
  | CreateSpecial code => create (Special_of code)
  | CreateRectangle x y w h => create (Rectangle_of x y w h)
  | CreatePolygon n => create (Polygon_of (repeat None (Z.to_nat n)))
  | CreateMask x y w h => create (Mask_of x y w h (repeat None (Z.to_nat (w * h))))
  | Clone r => create (content_of s r)
  | Release r => (update s r None, Done)
  | GetType r => (s, Number (type_number (content_of s r)))
  | SetSpecial r code => (update s r (Some (Special_of code)), Done)
  | GetSpecial r => (s, match content_of s r with Special_of code => Number code | _ => Done end)
  | SetRectangle r x y w h => (update s r (Some (Rectangle_of x y w h)), Done)
  | GetRectangle r => (s, match content_of s r with Rectangle_of x y w h => Rectangle_is x y w h | _ => Done end)
  | SetPoint r i x y =>
      (match content_of s r with Polygon_of l => update s r (Some (Polygon_of (update l (Z.to_nat i) (Some (x, y))))) | _ => s end, Done)
  | GetPoint r i =>
      (s, match content_of s r with
          | Polygon_of l => match nth (Z.to_nat i) l None with Some (x, y) => Point_is x y | None => Done end
          | _ => Done
          end)
  | GetCount r => (s, match content_of s r with Polygon_of l => Number (Z.of_nat (List.length l)) | _ => Done end)
  | GetHeader r => (s, match content_of s r with Mask_of x y w h _ => Header_is x y w h | _ => Done end)
  | WritePixel r i j v =>
      (match content_of s r with
       | Mask_of x y w h l => update s r (Some (Mask_of x y w h (update l (Z.to_nat (i * w + j)) (Some v))))
       | _ => s
       end, Done)
  | ReadPixel r i j =>
      (s, match content_of s r with
          | Mask_of _ _ w _ l => match nth (Z.to_nat (i * w + j)) l None with Some v => Pixel_is v | None => Done end
          | _ => Done
          end)
  end.
Fixpoint run_values (s : contents) (l : list call) : contents * list result :=
  match l with
  | [] => (s, [])
  | c :: l' => let '(s1, r) := step_value s c in let '(s2, rs) := run_values s1 l' in (s2, r :: rs)
  end.

(** Proper use: regions that exist, of the type asked for, positions inside, values read that have been written, and masks
    with at most 2^31 - 1 pixels. *)
Definition proper_call (s : contents) (c : call) : Prop :=
  match c with
  | CreateSpecial _ | CreateRectangle _ _ _ _ => True
  | CreatePolygon n => 2 < n
  | CreateMask _ _ w h => 0 < w /\ 0 < h /\ w * h <= INT_MAX
  | Clone r | Release r | GetType r => live s r
  | SetSpecial r _ | GetSpecial r => exists code, nth r s None = Some (Special_of code)
  | SetRectangle r _ _ _ _ | GetRectangle r => exists x y w h, nth r s None = Some (Rectangle_of x y w h)
  | SetPoint r i _ _ => exists l, nth r s None = Some (Polygon_of l) /\ 0 <= i < Z.of_nat (List.length l)
  | GetPoint r i => exists l p, nth r s None = Some (Polygon_of l) /\ 0 <= i /\ nth_error l (Z.to_nat i) = Some (Some p)
  | GetCount r => exists l, nth r s None = Some (Polygon_of l)
  | GetHeader r => exists x y w h l, nth r s None = Some (Mask_of x y w h l)
  | WritePixel r i j _ => exists x y w h l, nth r s None = Some (Mask_of x y w h l) /\ 0 <= i < h /\ 0 <= j < w
  | ReadPixel r i j => exists x y w h l v, nth r s None = Some (Mask_of x y w h l) /\ 0 <= i < h /\ 0 <= j < w /\
      nth_error l (Z.to_nat (i * w + j)) = Some (Some v)
  end.
Fixpoint proper_calls (s : contents) (l : list call) : Prop :=
  match l with [] => True | c :: l' => proper_call s c /\ proper_calls (fst (step_value s c)) l' end.

(** Calls that change region [r]; its point [i]; its pixel *)
Definition changes (r : nat) (c : call) : bool :=
  match c with
  | Release r' | SetSpecial r' _ | SetRectangle r' _ _ _ _ | SetPoint r' _ _ _ | WritePixel r' _ _ _ => Nat.eqb r' r
  | _ => false
  end.
Definition changes_point (r : nat) (i : Z) (c : call) : bool :=
  match c with Release r' => Nat.eqb r' r | SetPoint r' i' _ _ => Nat.eqb r' r && (i' =? i) | _ => false end.
Definition changes_pixel (r : nat) (row column : Z) (c : call) : bool :=
  match c with
  | Release r' => Nat.eqb r' r
  | WritePixel r' i j _ => Nat.eqb r' r && (i =? row) && (j =? column)
  | _ => false
  end.
(** Calls that read region [r] *)
Definition reads (r : nat) (c : call) : bool :=
  match c with
  | GetType r' | GetSpecial r' | GetRectangle r' | GetPoint r' _ | GetCount r' | GetHeader r' | ReadPixel r' _ _ => Nat.eqb r' r
  | _ => false
  end.
Definition released (s : contents) : Prop := forall r, nth r s None = None.
Definition nothing_left (m : heap) : Prop :=
  (forall p, nth p (floats m) None = None) /\ (forall p, nth p (chars m) None = None) /\ (forall p, nth p (regions m) None = None).
(** The region a call is about and the type of region it is for *)
Definition asks (c : call) : option (nat * Z) :=
  match c with
  | SetSpecial r _ | GetSpecial r => Some (r, 1)
  | SetRectangle r _ _ _ _ | GetRectangle r => Some (r, 2)
  | SetPoint r _ _ _ | GetPoint r _ | GetCount r => Some (r, 4)
  | GetHeader r | WritePixel r _ _ _ | ReadPixel r _ _ => Some (r, 8)
  | _ => None
  end.
