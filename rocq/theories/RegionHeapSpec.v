(** Specification of all region functions together: regions are independent values; every function gives what its mathematical
    description gives for the value. *)
From Verif Require Import CBase Num Buffer Region FloatOps RegionGeom RegionApi RegionApiSpec RegionHeap.
Local Open Scope Z_scope.

(** What an application does with regions; they are named by the order of the calls that give one (NULL included). *)
Inductive api :=
| Basic (c : call)
| Convert (r : nat) (t : region_type)
| GetBounds (r : nat)
| Bounds (r : nat)
| Overlap (a b : nat) (bnd : bounds)
| Contains (r : nat) (x y : spec_float)
| Encode (r : nat)
| Decode (text : list N).
Inductive reply :=
| Plainly (r : result)
| No_region
| Bounds_are (b : bounds)
| Overlap_is (o : overlap)
| Inside (b : bool)
| Text_is (t : option (list N)).

(** The program: its memory, and the pointers it was given. *)
Definition application : Type := heap * list (option nat).
Definition pointer (names : list (option nat)) (r : nat) : outcome nat := match nth r names None with Some p => Ok p | None => UB end.
Definition aimed (names : list (option nat)) (c : call) : outcome call :=
  match c with
  | CreateSpecial _ | CreateRectangle _ _ _ _ | CreatePolygon _ | CreateMask _ _ _ _ => Ok c
  | Clone r => p <- pointer names r ;; Ok (Clone p)
  | Release r => p <- pointer names r ;; Ok (Release p)
  | GetType r => p <- pointer names r ;; Ok (GetType p)
  | SetSpecial r code => p <- pointer names r ;; Ok (SetSpecial p code)
  | GetSpecial r => p <- pointer names r ;; Ok (GetSpecial p)
  | SetRectangle r x y w h => p <- pointer names r ;; Ok (SetRectangle p x y w h)
  | GetRectangle r => p <- pointer names r ;; Ok (GetRectangle p)
  | SetPoint r i x y => p <- pointer names r ;; Ok (SetPoint p i x y)
  | GetPoint r i => p <- pointer names r ;; Ok (GetPoint p i)
  | GetCount r => p <- pointer names r ;; Ok (GetCount p)
  | GetHeader r => p <- pointer names r ;; Ok (GetHeader p)
  | WritePixel r i j v => p <- pointer names r ;; Ok (WritePixel p i j v)
  | ReadPixel r i j => p <- pointer names r ;; Ok (ReadPixel p i j)
  end.
Definition given (names : list (option nat)) (r : option nat) (m : heap) : application * reply :=
  ((m, names ++ [r]), match r with Some _ => Plainly (Region_named (List.length names)) | None => No_region end).
Definition run_api (legacy : bool) (s : application) (c : api) : outcome (application * reply) :=
  let '(m, names) := s in
  match c with
  | Basic c =>
      c <- aimed names c ;; p <- run_call m c ;; let '(m, r) := p in
      Ok (match r with Region_named p => given names (Some p) m | _ => ((m, names), Plainly r) end)
  | Convert r t => p <- pointer names r ;; q <- convert_region legacy m p t ;; let '(r, m) := q in Ok (given names r m)
  | GetBounds r => p <- pointer names r ;; q <- region_get_bounds m p ;; let '(r, m) := q in Ok (given names r m)
  | Bounds r => p <- pointer names r ;; b <- region_bounds legacy m p ;; Ok (s, Bounds_are b)
  | Overlap a b bnd =>
      p <- pointer names a ;; q <- pointer names b ;; r <- overlap_regions legacy m p q bnd ;; let '(o, m) := r in Ok ((m, names), Overlap_is o)
  | Contains r x y => p <- pointer names r ;; b <- region_contains m p x y ;; Ok (s, Inside b)
  | Encode r => p <- pointer names r ;; t <- region_encode m p ;; Ok (s, Text_is t)
  | Decode text => q <- decode_region m text ;; let '(r, m) := q in Ok (given names r m)
  end.
Fixpoint run_apis (legacy : bool) (s : application) (l : list api) : outcome (application * list reply) :=
  match l with
  | [] => Ok (s, [])
  | c :: l' => p <- run_api legacy s c ;; let '(s, r) := p in q <- run_apis legacy s l' ;; let '(s, rs) := q in Ok (s, r :: rs)
  end.
Definition fresh : application := (no_heap, []).

(** The value of a region all of whose points or pixels have been written, and back. *)
Fixpoint all_written {A} (l : list (option A)) : option (list A) :=
  match l with
  | [] => Some []
  | Some x :: l' => match all_written l' with Some r => Some (x :: r) | None => None end
  | None :: _ => None
  end.
Definition seen (c : content) : option region :=
  match c with
  | Special_of code => Some (RSpecial code)
  | Rectangle_of x y w h => Some (RRect x y w h)
  | Polygon_of l => match all_written l with Some l => Some (RPoly l) | None => None end
  | Mask_of x y w h l => match all_written l with Some l => Some (RMask x y w h l) | None => None end
  end.
Definition shown (r : region) : content :=
  match r with
  | RSpecial code => Special_of code
  | RRect x y w h => Rectangle_of x y w h
  | RPoly l => Polygon_of (map Some l)
  | RMask x y w h l => Mask_of x y w h (map Some l)
  end.
Definition sees (s : contents) (r : nat) (v : region) : Prop := exists c, nth r s None = Some c /\ seen c = Some v.
Definition answered (s : contents) (o : option region) : reply :=
  match o with Some _ => Plainly (Region_named (List.length s)) | None => No_region end.
(** A mask has at least one pixel. *)
Definition solid (o : option region) : Prop := match o with Some (RMask _ _ w h _) => 0 < w /\ 0 < h | _ => True end.
(** The conversion that forgets memory *)
Definition forgets (v : region) (t : region_type) : nat := match v, t with RPoly _, MASK => 1 | _, _ => 0 end.

(** [means legacy s l s' rs n]: on the values [s] the calls [l] are proper, give the replies [rs] and leave the values [s']; [n] of
    them convert a polygon to a mask. *)
Inductive means (legacy : bool) : contents -> list api -> contents -> list reply -> nat -> Prop :=
| means_nil s : means legacy s [] s [] 0
| means_basic s c l s' rs n : proper_call s c -> means legacy (fst (step_value s c)) l s' rs n ->
    means legacy s (Basic c :: l) s' (Plainly (snd (step_value s c)) :: rs) n
| means_convert s r t v o l s' rs n : sees s r v -> convert legacy v t = Ok o -> means legacy (s ++ [option_map shown o]) l s' rs n ->
    means legacy s (Convert r t :: l) s' (answered s o :: rs) (forgets v t + n)
| means_get_bounds s r v o l s' rs n : sees s r v -> convert legacy v RECTANGLE = Ok o -> means legacy (s ++ [option_map shown o]) l s' rs n ->
    means legacy s (GetBounds r :: l) s' (answered s o :: rs) n
| means_bounds s r v b l s' rs n : sees s r v -> compute_bounds legacy v = Ok b -> means legacy s l s' rs n ->
    means legacy s (Bounds r :: l) s' (Bounds_are b :: rs) n
| means_overlap s a b va vb bnd o l s' rs n : sees s a va -> sees s b vb -> compute_overlap legacy va vb bnd = Ok o -> means legacy s l s' rs n ->
    means legacy s (Overlap a b bnd :: l) s' (Overlap_is o :: rs) n
| means_contains s r v x y b l s' rs n : sees s r v -> contains_point v x y = Ok b -> means legacy s l s' rs n ->
    means legacy s (Contains r x y :: l) s' (Inside b :: rs) n
| means_encode s r v t l s' rs n : sees s r v -> region_string v = Ok t -> means legacy s l s' rs n ->
    means legacy s (Encode r :: l) s' (Text_is t :: rs) n
| means_decode s text flag o l s' rs n : region_parse text = Ok (flag, o) -> solid o -> means legacy (s ++ [option_map shown o]) l s' rs n ->
    means legacy s (Decode text :: l) s' (answered s o :: rs) n.

(** How many regions there are, among values and in memory *)
Fixpoint present {A} (l : list (option A)) : nat :=
  match l with [] => 0 | Some _ :: l' => S (present l') | None :: l' => present l' end.
Definition no_arrays (m : heap) : Prop := (forall p, nth p (floats m) None = None) /\ (forall p, nth p (chars m) None = None).
