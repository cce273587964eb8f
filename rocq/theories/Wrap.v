(** Model of the reference counting of the C++ classes, src/traxpp.cpp and include/trax.h:686-1400.
    The variables of a program are the C++ objects; counters and the wrapped C objects ("resources") live in a heap and are
    named by the position at which they were allocated.  A freed cell is None; using it is undefined behaviour.
    Simplifications: allocations succeed; counters do not overflow; a variable that the program has not constructed
    yields UB as well. *)
From Verif Require Import CBase StrMap Props Num PropsNum Region RegionGeom Formats Handle Lists.
Local Open Scope Z_scope.

(** The classes derived from Wrapper, include/trax.h:732-1400 *)
Inductive class := KMetadata | KHandle | KImage | KImageList | KObjectList | KRegion | KProperties.

(** A pointer member: null, to a resource, or not initialised *)
Inductive ptr := PNull | PTo (r : nat) | PJunk.
(** An object: the counter Wrapper::pn (include/trax.h:723) and the pointer of the derived class *)
Record obj := mkObj { o_pn : option nat; o_ptr : ptr }.

Record world (V : Type) := mkWorld {
  counts : list (option Z);
  resources : list (option V);
  released : list nat;          (* resources released so far, latest first *)
  vars : list (option obj)
}.
Arguments mkWorld {V}. Arguments counts {V}. Arguments resources {V}. Arguments released {V}. Arguments vars {V}.

Section Generic.
Context {V : Type}.
Implicit Types w : world V.

Definition var w (x : nat) : outcome obj := match nth x (vars w) None with Some o => Ok o | None => UB end.
Definition set_slot w (x : nat) (o : option obj) : outcome (world V) :=
  v <- set_cell (vars w) x o ;; Ok (mkWorld (counts w) (resources w) (released w) v).
Definition put_var w (x : nat) (o : obj) : outcome (world V) := set_slot w x (Some o).
(** The storage of a new variable *)
Definition unborn w (x : nat) : outcome unit :=
  match nth_error (vars w) x with Some None => Ok tt | _ => UB end.
Definition set_pn w x (pn : option nat) : outcome (world V) := o <- var w x ;; put_var w x (mkObj pn (o_ptr o)).
Definition set_ptr w x (p : ptr) : outcome (world V) := o <- var w x ;; put_var w x (mkObj (o_pn o) p).
Definition counter w (c : nat) : outcome Z := match nth c (counts w) None with Some n => Ok n | None => UB end.
Definition set_counter w (c : nat) (n : option Z) : outcome (world V) :=
  l <- set_cell (counts w) c n ;; Ok (mkWorld l (resources w) (released w) (vars w)).
Definition resource w (r : nat) : outcome V := match nth r (resources w) None with Some v => Ok v | None => UB end.
Definition set_resource w (r : nat) (v : option V) : outcome (world V) :=
  l <- set_cell (resources w) r v ;; Ok (mkWorld (counts w) l (released w) (vars w)).
(** A C function creates an object *)
Definition create w (v : V) : world V * nat :=
  (mkWorld (counts w) (resources w ++ [Some v]) (released w) (vars w), List.length (resources w)).
(** ... and releases one *)
Definition free w (r : nat) : outcome (world V) :=
  _ <- resource w r ;; w <- set_resource w r None ;; Ok (mkWorld (counts w) (resources w) (r :: released w) (vars w)).

(** src/traxpp.cpp:93-98 Wrapper::acquire() *)
Definition acquire w x : outcome (world V) :=
  o <- var w x ;;
  match o_pn o with
  | None => set_pn (mkWorld (counts w ++ [Some 1]) (resources w) (released w) (vars w)) x (Some (List.length (counts w)))
  | Some c => n <- counter w c ;; set_counter w c (Some (n + 1))
  end.

(** The cleanup members: Metadata 181-185, Handle 240-242, Image 596-599, ObjectList 672-681, ImageList 765-769,
    Region 931-934, Properties 1120-1123, and the C functions they call, src/trax.c:735-749, 1478-1496, 1531-1541, 1693-1701,
    1909-1917, 2159-2168.  Each leaves a null pointer alone and, but for ObjectList, sets the pointer to null.
    Simplification: the vectors of regions, properties or images inside the two list classes are left out (their elements
    are objects of their own). *)
Definition cleanup_member (k : class) w x : outcome (world V) :=
  o <- var w x ;;
  match o_ptr o with
  | PNull => Ok w
  | PJunk => UB
  | PTo r => w <- free w r ;; match k with KObjectList => Ok w | _ => set_ptr w x PNull end
  end.

(** src/traxpp.cpp:100-109 Wrapper::release *)
Definition release (k : class) w x : outcome (world V) :=
  o <- var w x ;;
  match o_pn o with
  | None => Ok w
  | Some c =>
      n <- counter w c ;;
      w <- set_counter w c (Some (n - 1)) ;;
      w <- (if n - 1 =? 0 then w <- cleanup_member k w x ;; set_counter w c None else Ok w) ;;
      set_pn w x None
  end.

(** src/traxpp.cpp:84-91 Wrapper::claims *)
Definition claims w x : outcome Z :=
  o <- var w x ;; match o_pn o with None => Ok 0 | Some c => counter w c end.

(** The wrap members: Metadata 187-192, Handle 252-257, Image 601-606, ObjectList 683-696, ImageList 771-781, Region 943-948,
    Properties 1125-1130; [v] is the C object passed, None for NULL.  (The model allocates its cell after the old object has
    been released; in the code the object exists before the call.) *)
Definition wrap (k : class) w x (v : option V) : outcome (world V) :=
  match v with
  | None => Ok w
  | Some v =>
      w <- release k w x ;;
      let '(w, r) := create w v in
      w <- acquire w x ;; set_ptr w x (PTo r)
  end.

(** The default constructors: Metadata 111-113 wraps a fresh object [v], the others set the pointer to NULL.  For ImageList see
    [construct_list]. *)
Definition construct (k : class) w x (v : V) : outcome (world V) :=
  _ <- unborn w x ;;
  match k with
  | KMetadata => w <- put_var w x (mkObj None PJunk) ;; wrap k w x (Some v)
  | _ => put_var w x (mkObj None PNull)
  end.
(** src/traxpp.cpp:612-616 ObjectList(int) and 699-702 ImageList(): the list is created, the counter is not *)
Definition construct_list w x (v : V) : outcome (world V) :=
  _ <- unborn w x ;; let '(w, r) := create w v in put_var w x (mkObj None (PTo r)).

(** The copy constructors: Wrapper 61-63, then the pointer *)
Definition copy_construct w x y : outcome (world V) :=
  _ <- unborn w x ;; o <- var w y ;;
  w <- put_var w x (mkObj (o_pn o) PJunk) ;;
  w <- acquire w x ;; set_ptr w x (o_ptr o).
(** The move constructors: Wrapper 66-68.  Metadata 115-117 and Image 520-522 leave the pointer in the original; ObjectList
    624-628, ImageList 709-712, Region 792-794 and Properties 1038-1040 exchange it with their own, not yet initialised,
    pointer; Handle 232-234 passes an lvalue and so copies. *)
Definition move_construct (k : class) w x y : outcome (world V) :=
  match k with
  | KHandle => copy_construct w x y
  | _ =>
      _ <- unborn w x ;; o <- var w y ;;
      w <- put_var w x (mkObj (o_pn o) PJunk) ;;
      w <- set_pn w y None ;;
      w <- set_ptr w x (o_ptr o) ;;
      match k with KMetadata | KImage => Ok w | _ => set_ptr w y PJunk end
  end.
(** The assignment operators: Metadata 194-198, Image 524-528, ObjectList 631-637, ImageList 714-719, Region 796-800,
    Properties 1042-1046, and Wrapper::acquire(const Wrapper&) 74-78 *)
Definition copy_assign (k : class) w x y : outcome (world V) :=
  w <- release k w x ;;
  o <- var w y ;;
  w <- set_pn w x (o_pn o) ;;
  w <- acquire w x ;;
  o <- var w y ;;
  set_ptr w x (o_ptr o).
(** Metadata 200-204, Image 530-534, ObjectList 639-645, ImageList 721-726, Region 802-806, Wrapper::swap 80-82: both members are exchanged.
    (Properties declares this operator, include/trax.h:1382, but does not define it.) *)
Definition move_assign w x y : outcome (world V) :=
  a <- var w x ;; b <- var w y ;; w <- put_var w x b ;; put_var w y a.
(** The destructors: Metadata 142-144, Handle 236-238, Image 560-562, ObjectList 647-649, ImageList 728-730, Region 840-842,
    Properties 1048-1050 *)
Definition destroy (k : class) w x : outcome (world V) :=
  w <- release k w x ;; set_slot w x None.

(** The C object an object refers to, for the members that use it *)
Definition target w x : outcome (option V) :=
  o <- var w x ;;
  match o_ptr o with PNull => Ok None | PJunk => UB | PTo r => v <- resource w r ;; Ok (Some v) end.
(** A C function changes the object behind the pointer *)
Definition change w x (f : V -> outcome V) : outcome (world V) :=
  o <- var w x ;;
  match o_ptr o with PTo r => v <- resource w r ;; v' <- f v ;; set_resource w r (Some v') | _ => UB end.

End Generic.

(** ---- Properties ---- *)

(** src/traxpp.cpp:1156-1166 Properties::ensure_unique and its enumerator 1132-1136 *)
Definition ensure_unique (w : world props) x : outcome (world props) :=
  t <- target w x ;;
  match t with
  | None => wrap KProperties w x (Some props_create)
  | Some _ =>
      n <- claims w x ;;
      if 1 <? n then
        o <- var w x ;;
        w <- wrap KProperties w x (Some props_create) ;;
        match o_ptr o with
        | PTo original =>
            v <- resource w original ;;
            change w x (fun p => enum_into props_set (props_enum v) p)
        | _ => UB
        end
      else Ok w
  end.
(** src/traxpp.cpp:1065-1068 Properties::set *)
Definition properties_set (w : world props) x (key value : list N) : outcome (world props) :=
  w <- ensure_unique w x ;; change w x (fun p => props_set p key value).
(** src/traxpp.cpp:1070-1078: the two numeric variants *)
Definition properties_set_int (w : world props) x (key : list N) (value : Z) : outcome (world props) :=
  w <- ensure_unique w x ;; change w x (fun p => props_set_int p key value).
Definition properties_set_float (w : world props) x (key : list N) (value : spec_float) : outcome (world props) :=
  w <- ensure_unique w x ;; change w x (fun p => props_set_float p key value).
(** src/traxpp.cpp:1057-1063 Properties::clear *)
Definition properties_clear (w : world props) x : outcome (world props) :=
  t <- target w x ;;
  match t with
  | None => Ok w
  | Some _ =>
      n <- claims w x ;;
      if 1 <? n then release KProperties w x
      else change w x (fun p => Ok (props_clear p))
  end.
(** src/traxpp.cpp:1084-1094 Properties::get; None: the default *)
Definition properties_get (w : world props) x (key : list N) : outcome (option (list N)) :=
  t <- target w x ;; match t with None => Ok None | Some p => props_get p key end.
(** src/traxpp.cpp:1052-1055 Properties::size *)
Definition properties_size (w : world props) x : outcome nat :=
  t <- target w x ;; match t with None => Ok O | Some p => Ok (props_count p) end.

(** ---- Region ---- *)

(** src/traxpp.cpp:852-857 Region::set(int); src/trax.c:1788-1794 *)
Definition region_set_code (w : world region) x (code : Z) : outcome (world region) :=
  t <- target w x ;;
  n <- claims w x ;;
  match t with
  | Some (RSpecial _) => if 1 <? n then wrap KRegion w x (Some (RSpecial code)) else change w x (fun _ => Ok (RSpecial code))
  | _ => wrap KRegion w x (Some (RSpecial code))
  end.
(** src/traxpp.cpp:863-868 Region::set(float, float, float, float); src/trax.c:1805-1814 *)
Definition region_set_rectangle (w : world region) x (a b c d : spec_float) : outcome (world region) :=
  t <- target w x ;;
  n <- claims w x ;;
  match t with
  | Some (RRect _ _ _ _) => if 1 <? n then wrap KRegion w x (Some (RRect a b c d)) else change w x (fun _ => Ok (RRect a b c d))
  | _ => wrap KRegion w x (Some (RRect a b c d))
  end.
(** src/trax.c:1827-1835 trax_region_set_polygon_point.  The assertion on the index holds for every index that is not
    negative; an index past the end writes out of bounds. *)
Definition polygon_point (index : Z) (px py : spec_float) (r : region) : outcome region :=
  match r with
  | RPoly points =>
      if negb ((0 <=? index) || (index <? Z.of_nat (List.length points))) then Abort
      else l <- put_cell points index (px, py) ;; Ok (RPoly l)
  | _ => Abort
  end.
(** src/traxpp.cpp:876-882 Region::set_polygon_point; [legacy] as in [convert] *)
Definition region_set_point (legacy : bool) (w : world region) x (index : Z) (px py : spec_float) : outcome (world region) :=
  n <- claims w x ;;
  w <- (if 1 <? n then
          t <- target w x ;;
          match t with
          | None => Ok w
          | Some r => c <- convert legacy r POLYGON ;; wrap KRegion w x c
          end
        else Ok w) ;;
  change w x (polygon_point index px py).
(** src/trax.c:1872-1880 trax_region_write_mask_row, and writing [value] to column [column] of that row *)
Definition mask_cell (row column : Z) (value : N) (r : region) : outcome region :=
  match r with
  | RMask mx my mw mh data =>
      if negb ((0 <=? row) && (row <? mh)) then Abort
      else if negb ((0 <=? column) && (column <? mw)) then UB
      else d <- put_cell data (mw * row + column) value ;; Ok (RMask mx my mw mh d)
  | _ => Abort
  end.
(** src/traxpp.cpp:898-902 Region::write_mask_row *)
Definition region_write_pixel (w : world region) x (row column : Z) (value : N) : outcome (world region) :=
  change w x (mask_cell row column value).
