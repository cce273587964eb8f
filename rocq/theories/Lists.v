(** Model of the object lists and image lists of src/trax.c:2049-2183.
    Lists and images live in a store and are named by their position, so that two arguments may be the same list.
    Simplification: allocations succeed. *)
From Verif Require Import CBase StrMap Props Num Region RegionGeom Image Formats Handle.
Local Open Scope Z_scope.

(** include/trax.h:153-157 trax_object_list: a cell None is a pointer without an object behind it *)
Record objects := mkObjects {
  ol_size : Z;
  ol_regions : list (option region);
  ol_props : list (option props)
}.
(** The lists of a program; None: released *)
Definition lists := list (option objects).
Definition the_list (s : lists) (l : nat) : outcome objects := match nth l s None with Some o => Ok o | None => UB end.

(** Access to an array, checked *)
Definition get_cell {A} (a : list (option A)) (i : Z) : outcome A :=
  if i <? 0 then UB else match nth (Z.to_nat i) a None with Some x => Ok x | None => UB end.
Fixpoint set_cell {A} (a : list A) (i : nat) (x : A) : outcome (list A) :=
  match a, i with
  | [], _ => UB
  | _ :: a', O => Ok (x :: a')
  | y :: a', S i' => a'' <- set_cell a' i' x ;; Ok (y :: a'')
  end.
Definition put_cell {A} (a : list A) (i : Z) (x : A) : outcome (list A) := if i <? 0 then UB else set_cell a (Z.to_nat i) x.
(** realloc to [n] cells *)
Definition resize {A} (a : list (option A)) (n : Z) : list (option A) :=
  firstn (Z.to_nat n) (a ++ repeat None (Z.to_nat n)).
Definition set_list (s : lists) (l : nat) (o : option objects) : outcome lists := set_cell s l o.

(** src/trax.c:2060-2063: [n] iterations left *)
Fixpoint create_loop (n : nat) (i : Z) (o : objects) : outcome objects :=
  match n with
  | O => Ok o
  | S n' =>
      rs <- put_cell (ol_regions o) i (Some (RSpecial 0)) ;;
      ps <- put_cell (ol_props o) i (Some props_create) ;;
      create_loop n' (i + 1) (mkObjects (ol_size o) rs ps)
  end.
(** src/trax.c:2049-2066 trax_object_list_create.  (A negative count makes an enormous allocation fail; the arrays are never used.) *)
Definition object_list_create (count : Z) : outcome objects :=
  create_loop (Z.to_nat count) 0 (mkObjects count (resize [] count) (resize [] count)).

(** src/trax.c:2073-2076: [n] iterations left *)
Fixpoint release_loop (n : nat) (i : Z) (o : objects) : outcome unit :=
  match n with
  | O => Ok tt
  | S n' => _ <- get_cell (ol_regions o) i ;; _ <- get_cell (ol_props o) i ;; release_loop n' (i + 1) o
  end.
(** src/trax.c:2069-2082 trax_object_list_release *)
Definition object_list_release (s : lists) (l : nat) : outcome lists :=
  o <- the_list s l ;; _ <- release_loop (Z.to_nat (ol_size o)) 0 o ;; set_list s l None.

(** A region argument: one of the caller, or a pointer that trax_object_list_get has returned *)
Inductive region_ref := RefOwn (r : region) | RefEntry (l : nat) (i : Z).
Definition deref (s : lists) (r : region_ref) : outcome region :=
  match r with RefOwn r => Ok r | RefEntry l i => o <- the_list s l ;; get_cell (ol_regions o) i end.

(** src/trax.c:2085-2093 trax_object_list_set: the old region is released before the new one is copied *)
Definition object_list_set (s : lists) (l : nat) (index : Z) (r : region_ref) : outcome lists :=
  o <- the_list s l ;;
  if (index <? 0) || (ol_size o <=? index) then Ok s
  else
    _ <- get_cell (ol_regions o) index ;;
    rs <- put_cell (ol_regions o) index None ;;
    s1 <- set_list s l (Some (mkObjects (ol_size o) rs (ol_props o))) ;;
    v <- deref s1 r ;;
    c <- region_clone v ;;
    rs' <- put_cell rs index (Some c) ;;
    set_list s l (Some (mkObjects (ol_size o) rs' (ol_props o))).

(** src/trax.c:2096-2101 trax_object_list_get and 2103-2106 trax_object_list_properties: None is NULL *)
Definition object_list_get (s : lists) (l : nat) (index : Z) : outcome (option region) :=
  o <- the_list s l ;;
  if (index <? 0) || (ol_size o <=? index) then Ok None else r <- get_cell (ol_regions o) index ;; Ok (Some r).
Definition object_list_properties (s : lists) (l : nat) (index : Z) : outcome (option props) :=
  o <- the_list s l ;;
  if (index <? 0) || (ol_size o <=? index) then Ok None else p <- get_cell (ol_props o) index ;; Ok (Some p).
(** trax_properties_set on the result of trax_object_list_properties; NULL is dereferenced (src/trax.c:1957-1961) *)
Definition object_property_set (s : lists) (l : nat) (index : Z) (key value : list N) : outcome lists :=
  o <- the_list s l ;;
  p <- object_list_properties s l index ;;
  match p with
  | None => UB
  | Some p =>
      p' <- props_set p key value ;;
      ps <- put_cell (ol_props o) index (Some p') ;;
      set_list s l (Some (mkObjects (ol_size o) (ol_regions o) ps))
  end.
(** src/trax.c:2108-2110 trax_object_list_count *)
Definition object_list_count (s : lists) (l : nat) : outcome Z := o <- the_list s l ;; Ok (ol_size o).

(** src/trax.c:2124-2128: the loop, [n] iterations left; the source is read from the store each time *)
Fixpoint append_loop (n : nat) (s : lists) (dst src : nat) (i o : Z) : outcome lists :=
  match n with
  | O => Ok s
  | S n' =>
      from <- the_list s src ;;
      r <- get_cell (ol_regions from) i ;;
      c <- region_clone r ;;
      to <- the_list s dst ;;
      rs <- put_cell (ol_regions to) (i + o) (Some c) ;;
      s1 <- set_list s dst (Some (mkObjects (ol_size to) rs (ol_props to))) ;;
      from1 <- the_list s1 src ;;
      p <- get_cell (ol_props from1) i ;;
      d <- copy_properties p props_create ALL_OVERWRITE ;;
      to1 <- the_list s1 dst ;;
      ps <- put_cell (ol_props to1) (i + o) (Some d) ;;
      s2 <- set_list s1 dst (Some (mkObjects (ol_size to1) (ol_regions to1) ps)) ;;
      append_loop n' s2 dst src (i + 1) o
  end.
(** src/trax.c:2112-2132 trax_object_list_append: the size is updated first, also that of the source if it is the same list *)
Definition object_list_append (s : lists) (dst src : nat) : outcome (Z * lists) :=
  to <- the_list s dst ;;
  from <- the_list s src ;;
  size <- int_result (ol_size to + ol_size from) ;;
  s1 <- set_list s dst (Some (mkObjects size (resize (ol_regions to) size) (resize (ol_props to) size))) ;;
  from1 <- the_list s1 src ;;
  s2 <- append_loop (Z.to_nat (ol_size from1)) s1 dst src 0 (ol_size to) ;;
  Ok (size, s2).

(** ---- image lists: pointers to images; [live] are the images not yet released ---- *)
Definition pointers := list (option nat).
(** include/trax.h:93-96 TRAX_CHANNEL_INDEX *)
Definition channel_index (channel : Z) : Z :=
  if channel =? TRAX_CHANNEL_COLOR then 0 else if channel =? TRAX_CHANNEL_DEPTH then 1 else if channel =? TRAX_CHANNEL_IR then 2 else -1.
(** src/trax.c:2134-2144 trax_image_list_create *)
Definition image_list_create : pointers := repeat None 3.
(** src/trax.c:2171-2176 trax_image_list_get; the test lets the index TRAX_CHANNELS pass *)
Definition image_list_get (l : pointers) (channel : Z) : outcome (option nat) :=
  let i := channel_index channel in
  if (i <? 0) || (3 <? i) then Ok None
  else match nth_error l (Z.to_nat i) with Some p => Ok p | None => UB end.
(** src/trax.c:2178-2183 trax_image_list_set *)
Definition image_list_set (l : pointers) (image : option nat) (channel : Z) : outcome pointers :=
  let i := channel_index channel in
  if (i <? 0) || (3 <? i) then Ok l else put_cell l i image.
(** src/trax.c:1531-1541 trax_image_release *)
Definition image_release (live : list nat) (image : nat) : outcome (list nat) :=
  if existsb (Nat.eqb image) live then Ok (filter (fun j => negb (Nat.eqb image j)) live) else UB.
(** src/trax.c:2146-2157 trax_image_list_clear *)
Fixpoint image_list_clear (live : list nat) (l : pointers) : outcome (list nat * pointers) :=
  match l with
  | [] => Ok (live, [])
  | None :: l' => r <- image_list_clear live l' ;; Ok (fst r, None :: snd r)
  | Some i :: l' => live' <- image_release live i ;; r <- image_list_clear live' l' ;; Ok (fst r, None :: snd r)
  end.
