(** What programs over the C++ lists should do: every list variable has a list of its own. *)
From Verif Require Import CBase StrMap Props PropsSpec Num PropsNum Region RegionGeom Formats Handle Lists ListsSpec Wrap WrapSpec WrapLists.
Local Open Scope Z_scope.

(** Programs over list variables x, y and element variables v *)
Inductive lop :=
| LNew (x : nat)                            (* ObjectList() or ImageList() *)
| LSized (x n : nat)                        (* ObjectList(n) *)
| LCopy (x y : nat) | LMove (x y : nat) | LAssign (x y : nat) | LMoveAssign (x y : nat) | LDestroy (x : nat)
| LGet (v x i : nat)                        (* v = x.get(i) *)
| LSet (x i v : nat)                        (* x.set(i, v) *)
| LReceive (x : nat) (present : list bool)  (* x receives a list; [present]: which positions hold an element *)
| LMake (v : nat)                           (* v becomes a new element *)
| LDrop (v : nat).                          (* v becomes empty *)

Definition run_lop (k : class) (s : lworld) (o : lop) : outcome lworld :=
  match o with
  | LNew x => list_new k s x
  | LSized x n => list_sized s x n
  | LCopy x y => list_copy s x y
  | LMove x y => list_move k s x y
  | LAssign x y => list_assign k s x y
  | LMoveAssign x y => list_move_assign s x y
  | LDestroy x => list_destroy k s x
  | LGet v x i => list_get s v x i
  | LSet x i v => list_set s x i v
  | LReceive x present => list_receive k s x present
  | LMake v => elem_make s v
  | LDrop v => elem_drop s v
  end.
Fixpoint run_lops (k : class) (s : lworld) (ops : list lop) : outcome lworld :=
  match ops with [] => Ok s | o :: ops' => s' <- run_lop k s o ;; run_lops k s' ops' end.
(** [n] list variables, [m] element variables *)
Definition begin (n m : nat) : lworld := mkLWorld (start n) (repeat [] n) (repeat None m) 0.

(** ---- Values ---- *)
Record lvals := mkLVals { lists : list (value (list (option nat))); singles : list (option nat); count : nat }.
Definition set_list (s : lvals) (x : nat) (v : value (list (option nat))) : lvals := mkLVals (update (lists s) x v) (singles s) (count s).
Definition set_single (s : lvals) (v : nat) (e : option nat) : lvals := mkLVals (lists s) (update (singles s) v e) (count s).
Definition is_free (s : lvals) (x : nat) : bool := (x <? List.length (lists s))%nat && is_unborn (value_of (lists s) x).
(** The elements of a list that arrives: new ones, numbered by position *)
Fixpoint arriving (first : nat) (present : list bool) : list (option nat) :=
  match present with [] => [] | b :: p => (if b then Some first else None) :: arriving (S first) p end.

(** None: not an allowed operation.  Allowed are: construction of a variable that does not exist, copies from variables that
    exist and are not moved from, no assignment of a variable to itself, positions inside the list.  An image list has three
    positions.  A moved-from image list is not used for reception. *)
Definition step_vals (k : class) (s : lvals) (o : lop) : option lvals :=
  match o with
  | LNew x => if is_free s x then Some (set_list s x (VVal (match k with KImageList => [None; None; None] | _ => [] end))) else None
  | LSized x n => if is_free s x && class_eqb k KObjectList then Some (set_list s x (VVal (repeat None n))) else None
  | LCopy x y => if is_free s x && is_value (value_of (lists s) y) then Some (set_list s x (value_of (lists s) y)) else None
  | LMove x y =>
      if is_free s x && is_value (value_of (lists s) y) then Some (set_list (set_list s x (value_of (lists s) y)) y VMoved) else None
  | LAssign x y =>
      if negb (is_unborn (value_of (lists s) x)) && is_value (value_of (lists s) y) && negb (x =? y)%nat
      then Some (set_list s x (value_of (lists s) y)) else None
  | LMoveAssign x y =>
      if negb (is_unborn (value_of (lists s) x)) && negb (is_unborn (value_of (lists s) y))
      then Some (set_list (set_list s x (value_of (lists s) y)) y (value_of (lists s) x)) else None
  | LDestroy x => if is_unborn (value_of (lists s) x) then None else Some (set_list s x VUnborn)
  | LGet v x i =>
      match value_of (lists s) x with
      | VVal l => if (v <? List.length (singles s))%nat && (i <? List.length l)%nat then Some (set_single s v (nth i l None)) else None
      | _ => None
      end
  | LSet x i v =>
      match value_of (lists s) x with
      | VVal l =>
          if (v <? List.length (singles s))%nat && (i <? List.length l)%nat
          then Some (set_list s x (VVal (update l i (nth v (singles s) None)))) else None
      | _ => None
      end
  | LReceive x present =>
      let fine := match value_of (lists s) x with
                  | VUnborn => false
                  | VVal _ => class_eqb k KObjectList || (List.length present =? 3)%nat
                  | VMoved => class_eqb k KObjectList
                  end in
      if fine : bool then
        Some (mkLVals (update (lists s) x (VVal (arriving (count s) present))) (singles s) (count s + List.length present))
      else None
  | LMake v =>
      if (v <? List.length (singles s))%nat then Some (mkLVals (lists s) (update (singles s) v (Some (count s))) (S (count s))) else None
  | LDrop v => if (v <? List.length (singles s))%nat then Some (set_single s v None) else None
  end.
Fixpoint run_vals (k : class) (s : lvals) (ops : list lop) : option lvals :=
  match ops with [] => Some s | o :: ops' => match step_vals k s o with Some s' => run_vals k s' ops' | None => None end end.
Definition begin_vals (n m : nat) : lvals := mkLVals (repeat VUnborn n) (repeat None m) 0.

(** ---- Conditions on the execution ---- *)

(** A list with missing elements is received only where nothing was shown before *)
Definition fits_over (old : list (option nat)) (present : list bool) : Prop :=
  Forall (fun b => b = true) present \/ Forall (fun e => e = None) old.
Definition over_empty (s : lworld) (o : lop) : Prop :=
  match o with LReceive x present => forall old, list_show s x = Ok old -> fits_over old present | _ => True end.
(** Positions are set only in lists that share with no other, and lists with an uncounted structure (made by ObjectList(n) or
    ImageList()) are not copied *)
Definition counted (w : world (list entry)) (x : nat) : Prop :=
  exists o, nth_error (vars w) x = Some (Some o) /\ (o_pn o <> None \/ o_ptr o = PNull).
Definition unshared (s : lworld) (o : lop) : Prop :=
  match o with
  | LSet x _ _ => alone (structs s) x
  | LCopy _ y | LAssign _ y => counted (structs s) y
  | _ => True
  end.
Fixpoint throughout (P : lworld -> lop -> Prop) (k : class) (s : lworld) (ops : list lop) : Prop :=
  match ops with
  | [] => True
  | o :: ops' => P s o /\ match run_lop k s o with Ok s' => throughout P k s' ops' | _ => True end
  end.

(** What is sent for a list: its elements, and for an empty position nothing or, in object lists, the region made by default *)
Definition sent_as (k : class) (sent : entry) (shown : option nat) : Prop :=
  match shown with
  | Some e => sent = Element e
  | None => sent = Nothing \/ (k = KObjectList /\ sent = Default)
  end.
Definition sends (k : class) (sent : option (list entry)) (shown : list (option nat)) : Prop :=
  match sent with None => shown = [] | Some l => Forall2 (sent_as k) l shown end.
Definition is_list (k : class) : Prop := k = KImageList \/ k = KObjectList.
