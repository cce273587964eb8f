(** Model of what the C++ list classes contain, src/traxpp.cpp:608-781 and include/trax.h:1049-1175.  An ObjectList or ImageList
    keeps two representations: a vector of C++ elements ("what it shows") and a C structure with pointers to the elements
    ("what it sends").  Copies share the structure and have vectors of their own.
    Elements (regions, images) are numbered in the order in which they come into existence.  An element lives while some
    element variable or some vector refers to it (that is C42 for the classes Region and Image).
    Simplifications: elements do not change; the properties of the objects are left out; the regions that
    trax_object_list_create makes are not elements: nobody ever releases them. *)
From Verif Require Import CBase StrMap Props Num PropsNum Region RegionGeom Formats Handle Lists Wrap.
Local Open Scope Z_scope.

(** A pointer in the C structure: NULL, the region made by trax_object_list_create (src/trax.c:2060-2063), or an element *)
Inductive entry := Nothing | Default | Element (e : nat).

Record lworld := mkLWorld {
  structs : world (list entry);          (* the C structures and the pointers of the list variables *)
  vectors : list (list (option nat));    (* the vector of each list variable; None: an empty Region or Image *)
  elems : list (option nat);             (* the Region or Image variables *)
  made : nat                             (* elements so far *)
}.

(** include/trax.h:88 TRAX_CHANNELS *)
Definition CHANNELS : nat := 3.

Definition vector (s : lworld) (x : nat) : list (option nat) := nth x (vectors s) [].
Definition put_vector (s : lworld) (x : nat) (l : list (option nat)) : outcome lworld :=
  v <- set_cell (vectors s) x l ;; Ok (mkLWorld (structs s) v (elems s) (made s)).
Definition put_elem (s : lworld) (v : nat) (e : option nat) : outcome lworld :=
  l <- set_cell (elems s) v e ;; Ok (mkLWorld (structs s) (vectors s) l (made s)).
Definition with_structs (s : lworld) (m : outcome (world (list entry))) : outcome lworld :=
  w <- m ;; Ok (mkLWorld w (vectors s) (elems s) (made s)).
Definition fetch (l : list (option nat)) (i : nat) : outcome (option nat) :=
  match nth_error l i with Some e => Ok e | None => UB end.
Definition pointer (e : option nat) : entry := match e with Some e => Element e | None => Nothing end.

(** src/traxpp.cpp:608-610, 612-616 ObjectList() and ObjectList(int), 699-702 ImageList() *)
Definition list_new (k : class) (s : lworld) (x : nat) : outcome lworld :=
  match k with
  | KImageList =>
      s <- with_structs s (construct_list (structs s) x (repeat Nothing CHANNELS)) ;; put_vector s x (repeat None CHANNELS)
  | _ => s <- with_structs s (construct k (structs s) x []) ;; put_vector s x []
  end.
Definition list_sized (s : lworld) (x n : nat) : outcome lworld :=
  s <- with_structs s (construct_list (structs s) x (repeat Default n)) ;; put_vector s x (repeat None n).
(** 618-622, 704-707: the copy constructors *)
Definition list_copy (s : lworld) (x y : nat) : outcome lworld :=
  s <- with_structs s (copy_construct (structs s) x y) ;; put_vector s x (vector s y).
(** 624-628, 709-712: the move constructors exchange the vector with a new, empty one *)
Definition list_move (k : class) (s : lworld) (x y : nat) : outcome lworld :=
  s <- with_structs s (move_construct k (structs s) x y) ;;
  let l := vector s y in
  s <- put_vector s y [] ;; put_vector s x l.
(** Wrapper::release (100-109) runs the member cleanup with a list; only ObjectList::cleanup (672-681) clears its vector *)
Definition cleans (k : class) (w : world (list entry)) (x : nat) : outcome bool :=
  o <- var w x ;;
  match k, o_pn o, o_ptr o with
  | KObjectList, Some c, PTo _ => n <- counter w c ;; Ok (n - 1 =? 0)
  | _, _, _ => Ok false
  end.
Definition clear_released (k : class) (s : lworld) (x : nat) : outcome lworld :=
  b <- cleans k (structs s) x ;; if b : bool then put_vector s x [] else Ok s.
(** 631-637, 714-719: assignment *)
Definition list_assign (k : class) (s : lworld) (x y : nat) : outcome lworld :=
  s <- clear_released k s x ;;
  s <- with_structs s (copy_assign k (structs s) x y) ;;
  put_vector s x (vector s y).
(** 639-645, 721-726: move assignment exchanges everything *)
Definition list_move_assign (s : lworld) (x y : nat) : outcome lworld :=
  s <- with_structs s (move_assign (structs s) x y) ;;
  let a := vector s x in let b := vector s y in
  s <- put_vector s x b ;; put_vector s y a.
(** 647-649, 728-730: the destructors, and that of the vector *)
Definition list_destroy (k : class) (s : lworld) (x : nat) : outcome lworld :=
  s <- with_structs s (destroy k (structs s) x) ;; put_vector s x [].
(** 651-653 ObjectList::get, 732-736 ImageList::get into the element variable [v] *)
Definition list_get (s : lworld) (v x i : nat) : outcome lworld :=
  _ <- var (structs s) x ;; e <- fetch (vector s x) i ;; put_elem s v e.
(** 655-660 ObjectList::set, 744-749 ImageList::set with the element variable [v] *)
Definition list_set (s : lworld) (x i v : nat) : outcome lworld :=
  e <- fetch (elems s) v ;;
  l <- set_cell (vector s x) i e ;;
  s <- put_vector s x l ;;
  with_structs s (change (structs s) x (fun es => set_cell es i (pointer e))).
(** The list that the C functions make on reception: at each position an element that comes into existence, or NULL *)
Definition incoming (first : nat) (present : list bool) : list (option nat) :=
  map (fun p : nat * bool => if snd p then Some (first + fst p)%nat else None) (combine (seq 0 (List.length present)) present).
(** std::vector::resize *)
Definition resize (l : list (option nat)) (n : nat) : list (option nat) := firstn n l ++ repeat None (n - List.length l).
(** wrap on the elements: a NULL leaves the old element in place (src/traxpp.cpp:602, 944) *)
Definition take_over (old new : option nat) : option nat := match new with Some e => Some e | None => old end.
Definition take_all (old new : list (option nat)) : list (option nat) :=
  map (fun p : option nat * option nat => take_over (fst p) (snd p)) (combine old new).
(** 683-696 ObjectList::wrap: resized to the length of the list; 771-781 ImageList::wrap: not resized *)
Definition list_receive (k : class) (s : lworld) (x : nat) (present : list bool) : outcome lworld :=
  let new := incoming (made s) present in
  s <- clear_released k s x ;;
  s <- with_structs s (wrap k (structs s) x (Some (map pointer new))) ;;
  old <- match k with
         | KImageList => if (List.length (vector s x) <? CHANNELS)%nat then UB else Ok (vector s x)
         | _ => Ok (resize (vector s x) (List.length present))
         end ;;
  s <- put_vector s x (take_all old new) ;;
  Ok (mkLWorld (structs s) (vectors s) (elems s) (made s + List.length present)).

(** Creation of an element in the variable [v], and its end *)
Definition elem_make (s : lworld) (v : nat) : outcome lworld :=
  s <- put_elem s v (Some (made s)) ;; Ok (mkLWorld (structs s) (vectors s) (elems s) (S (made s))).
Definition elem_drop (s : lworld) (v : nat) : outcome lworld := put_elem s v None.

Definition refers (e : nat) (o : option nat) : bool := match o with Some d => Nat.eqb e d | None => false end.
Definition alive (s : lworld) (e : nat) : bool := existsb (refers e) (elems s) || existsb (existsb (refers e)) (vectors s).

(** What the C functions read from the structure when the list is sent (src/trax.c:947-1010, 1391-1440): None for a null list;
    an element that no longer exists is undefined behaviour *)
Definition read_entry (s : lworld) (e : entry) : outcome entry :=
  match e with Element i => if alive s i then Ok e else UB | _ => Ok e end.
Fixpoint read_entries (s : lworld) (l : list entry) : outcome (list entry) :=
  match l with [] => Ok [] | e :: l' => a <- read_entry s e ;; b <- read_entries s l' ;; Ok (a :: b) end.
Definition list_send (s : lworld) (x : nat) : outcome (option (list entry)) :=
  t <- target (structs s) x ;;
  match t with None => Ok None | Some l => r <- read_entries s l ;; Ok (Some r) end.
(** What the members get and has show *)
Definition list_show (s : lworld) (x : nat) : outcome (list (option nat)) := _ <- var (structs s) x ;; Ok (vector s x).
