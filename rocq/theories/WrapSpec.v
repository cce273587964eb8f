(** What programs over the C++ objects should do: who holds which resource, and which value each object has. *)
From Verif Require Import CBase StrMap Props PropsSpec Num PropsNum Region RegionGeom Formats Handle Lists ListsSpec Wrap.
Local Open Scope Z_scope.

(** ---- Programs ---- *)
Inductive wop (V : Type) :=
| WNew (x : nat) (v : V)           (* default construction; [v]: what a fresh Metadata holds *)
| WList (x : nat) (v : V)          (* ObjectList(int) or ImageList() *)
| WCopy (x y : nat)                (* construct x as a copy of y *)
| WMove (x y : nat)                (* construct x by moving y *)
| WAssign (x y : nat)              (* x = y *)
| WMoveAssign (x y : nat)          (* x = std::move(y) *)
| WWrap (x : nat) (v : option V)   (* x receives the C object [v] (creation functions, wait), or NULL *)
| WDestroy (x : nat).
Arguments WNew {V}. Arguments WList {V}. Arguments WCopy {V}. Arguments WMove {V}. Arguments WAssign {V}. Arguments WMoveAssign {V}.
Arguments WWrap {V}. Arguments WDestroy {V}.

Definition run_wop {V} (k : class) (w : world V) (o : wop V) : outcome (world V) :=
  match o with
  | WNew x v => construct k w x v
  | WList x v => construct_list w x v
  | WCopy x y => copy_construct w x y
  | WMove x y => move_construct k w x y
  | WAssign x y => copy_assign k w x y
  | WMoveAssign x y => move_assign w x y
  | WWrap x v => wrap k w x v
  | WDestroy x => destroy k w x
  end.
Fixpoint run_wops {V} (k : class) (w : world V) (ops : list (wop V)) : outcome (world V) :=
  match ops with [] => Ok w | o :: ops' => w' <- run_wop k w o ;; run_wops k w' ops' end.
(** A program with [n] variables *)
Definition start {V} (n : nat) : world V := mkWorld [] [] [] (repeat None n).

(** ---- Who should hold what ---- *)

(** A variable: not constructed, empty, holding the resource that was created as number [r], or moved from *)
Inductive hold := HUnborn | HEmpty | HOwn (r : nat) | HMoved.
(** The variables, and the resources created so far *)
Record holds (V : Type) := mkHolds { hold_of : list hold; created : list V }.
Arguments mkHolds {V}. Arguments hold_of {V}. Arguments created {V}.
Definition held {V} (s : holds V) (x : nat) : hold := nth x (hold_of s) HUnborn.

Definition readable (h : hold) : bool := match h with HEmpty | HOwn _ => true | _ => false end.
Definition constructed (h : hold) : bool := match h with HUnborn => false | _ => true end.
Definition is_variable {V} (s : holds V) (x : nat) : bool := (x <? List.length (hold_of s))%nat.
Definition set_hold {V} (s : holds V) (x : nat) (h : hold) : holds V := mkHolds (update (hold_of s) x h) (created s).
Definition own_new {V} (s : holds V) (x : nat) (v : V) : holds V :=
  mkHolds (update (hold_of s) x (HOwn (List.length (created s)))) (created s ++ [v]).
Definition class_eqb (a b : class) : bool :=
  match a, b with
  | KMetadata, KMetadata | KHandle, KHandle | KImage, KImage | KImageList, KImageList | KObjectList, KObjectList
  | KRegion, KRegion | KProperties, KProperties => true
  | _, _ => false
  end.

(** The effect of an operation on the holders; None: not an allowed operation.  Allowed are: construction of a variable that
    does not exist, copies of and from variables that exist and are not moved from, no assignment of a variable to itself,
    no assignment of handles (private), no move assignment of Properties (not defined), and, for the lists, no construction
    other than empty and by receiving a list. *)
Definition step_holds {V} (k : class) (s : holds V) (o : wop V) : option (holds V) :=
  match o with
  | WNew x v =>
      if is_variable s x && negb (constructed (held s x)) && negb (class_eqb k KImageList) then
        Some (if class_eqb k KMetadata then own_new s x v else set_hold s x HEmpty)
      else None
  | WList _ _ => None
  | WCopy x y =>
      if is_variable s x && negb (constructed (held s x)) && readable (held s y) then Some (set_hold s x (held s y)) else None
  | WMove x y =>
      if is_variable s x && negb (constructed (held s x)) && readable (held s y) then
        let s' := set_hold s x (held s y) in Some (if class_eqb k KHandle then s' else set_hold s' y HMoved)
      else None
  | WAssign x y =>
      if constructed (held s x) && readable (held s y) && negb (x =? y)%nat && negb (class_eqb k KHandle) then
        Some (set_hold s x (held s y))
      else None
  | WMoveAssign x y =>
      if constructed (held s x) && constructed (held s y) && negb (class_eqb k KHandle) && negb (class_eqb k KProperties) then
        Some (set_hold (set_hold s x (held s y)) y (held s x))
      else None
  | WWrap x v =>
      if constructed (held s x) then Some (match v with Some v => own_new s x v | None => s end) else None
  | WDestroy x => if constructed (held s x) then Some (set_hold s x HUnborn) else None
  end.
Fixpoint run_holds {V} (k : class) (s : holds V) (ops : list (wop V)) : option (holds V) :=
  match ops with [] => Some s | o :: ops' => match step_holds k s o with Some s' => run_holds k s' ops' | None => None end end.
Definition start_holds {V} (n : nat) : holds V := mkHolds (repeat HUnborn n) [].

(** The object [x] refers to resource [r], which is alive and has the value [v] *)
Definition reaches {V} (w : world V) (x r : nat) (v : V) : Prop :=
  exists o, nth_error (vars w) x = Some (Some o) /\ o_ptr o = PTo r /\ nth_error (resources w) r = Some (Some v).
(** Some counter of the program is still allocated *)
Definition counter_alive {V} (w : world V) : Prop := exists c n, nth_error (counts w) c = Some (Some n).

(** ---- Values ---- *)

(** Programs over Properties objects *)
Inductive dop :=
| DNew (x : nat) | DCopy (x y : nat) | DMove (x y : nat) | DAssign (x y : nat) | DDestroy (x : nat)
| DSet (x : nat) (key value : list N) | DClear (x : nat).
Definition run_dop (w : world props) (o : dop) : outcome (world props) :=
  match o with
  | DNew x => construct KProperties w x props_create
  | DCopy x y => copy_construct w x y
  | DMove x y => move_construct KProperties w x y
  | DAssign x y => copy_assign KProperties w x y
  | DDestroy x => destroy KProperties w x
  | DSet x k v => properties_set w x k v
  | DClear x => properties_clear w x
  end.
Fixpoint run_dops (w : world props) (ops : list dop) : outcome (world props) :=
  match ops with [] => Ok w | o :: ops' => w' <- run_dop w o ;; run_dops w' ops' end.

(** A variable as a value: not constructed, a value, or moved from *)
Inductive value (A : Type) := VUnborn | VVal (a : A) | VMoved.
Arguments VUnborn {A}. Arguments VVal {A}. Arguments VMoved {A}.
Definition value_of {A} (s : list (value A)) (x : nat) : value A := nth x s VUnborn.
Definition is_value {A} (v : value A) : bool := match v with VVal _ => true | _ => false end.
Definition is_unborn {A} (v : value A) : bool := match v with VUnborn => true | _ => false end.

(** Every variable has a dictionary of its own.  None: not an allowed operation. *)
Definition step_dicts (s : list (value pmap)) (o : dop) : option (list (value pmap)) :=
  match o with
  | DNew x => if (x <? List.length s)%nat && is_unborn (value_of s x) then Some (update s x (VVal pm_empty)) else None
  | DCopy x y =>
      if (x <? List.length s)%nat && is_unborn (value_of s x) && is_value (value_of s y) then Some (update s x (value_of s y)) else None
  | DMove x y =>
      if (x <? List.length s)%nat && is_unborn (value_of s x) && is_value (value_of s y) then
        Some (update (update s x (value_of s y)) y VMoved)
      else None
  | DAssign x y =>
      if negb (is_unborn (value_of s x)) && is_value (value_of s y) && negb (x =? y)%nat then Some (update s x (value_of s y)) else None
  | DDestroy x => if is_unborn (value_of s x) then None else Some (update s x VUnborn)
  | DSet x k v => match value_of s x with VVal m => Some (update s x (VVal (pm_set m k v))) | _ => None end
  | DClear x => match value_of s x with VVal _ => Some (update s x (VVal pm_empty)) | _ => None end
  end.
Fixpoint run_dicts (s : list (value pmap)) (ops : list dop) : option (list (value pmap)) :=
  match ops with [] => Some s | o :: ops' => match step_dicts s o with Some s' => run_dicts s' ops' | None => None end end.
Definition start_values {A} (n : nat) : list (value A) := repeat VUnborn n.

(** [x] shares its contents with no other object when it is cleared *)
Definition alone {V} (w : world V) (x : nat) : Prop := exists n, claims w x = Ok n /\ n <= 1.
Fixpoint clears_alone (w : world props) (ops : list dop) : Prop :=
  match ops with
  | [] => True
  | o :: ops' =>
      match o with DClear x => alone w x | _ => True end /\
      match run_dop w o with Ok w' => clears_alone w' ops' | _ => True end
  end.

(** Programs over Region objects *)
Inductive rop :=
| RNew (x : nat) | RGet (x : nat) (r : region) | RCopy (x y : nat) | RMove (x y : nat) | RAssign (x y : nat) | RMoveAssign (x y : nat)
| RDestroy (x : nat) | RSetCode (x : nat) (code : Z) | RSetRect (x : nat) (a b c d : spec_float)
| RSetPoint (x : nat) (index : Z) (px py : spec_float) | RWrite (x : nat) (row column : Z) (value : N).
Definition run_rop (legacy : bool) (w : world region) (o : rop) : outcome (world region) :=
  match o with
  | RNew x => construct KRegion w x (RSpecial 0)
  | RGet x r => wrap KRegion w x (Some r)
  | RCopy x y => copy_construct w x y
  | RMove x y => move_construct KRegion w x y
  | RAssign x y => copy_assign KRegion w x y
  | RMoveAssign x y => move_assign w x y
  | RDestroy x => destroy KRegion w x
  | RSetCode x code => region_set_code w x code
  | RSetRect x a b c d => region_set_rectangle w x a b c d
  | RSetPoint x i px py => region_set_point legacy w x i px py
  | RWrite x row column value => region_write_pixel w x row column value
  end.
Fixpoint run_rops (legacy : bool) (w : world region) (ops : list rop) : outcome (world region) :=
  match ops with [] => Ok w | o :: ops' => w' <- run_rop legacy w o ;; run_rops legacy w' ops' end.

(** Every variable has a region of its own, None when it is empty.  The result is None for an operation that is not allowed:
    points are set in polygons and pixels in masks, inside their range. *)
Definition step_regions (s : list (value (option region))) (o : rop) : option (list (value (option region))) :=
  match o with
  | RNew x => if (x <? List.length s)%nat && is_unborn (value_of s x) then Some (update s x (VVal None)) else None
  | RGet x r => if is_unborn (value_of s x) then None else Some (update s x (VVal (Some r)))
  | RCopy x y =>
      if (x <? List.length s)%nat && is_unborn (value_of s x) && is_value (value_of s y) then Some (update s x (value_of s y)) else None
  | RMove x y =>
      if (x <? List.length s)%nat && is_unborn (value_of s x) && is_value (value_of s y) then
        Some (update (update s x (value_of s y)) y VMoved)
      else None
  | RAssign x y =>
      if negb (is_unborn (value_of s x)) && is_value (value_of s y) && negb (x =? y)%nat then Some (update s x (value_of s y)) else None
  | RMoveAssign x y =>
      if negb (is_unborn (value_of s x)) && negb (is_unborn (value_of s y)) then
        Some (update (update s x (value_of s y)) y (value_of s x))
      else None
  | RDestroy x => if is_unborn (value_of s x) then None else Some (update s x VUnborn)
  | RSetCode x code => match value_of s x with VVal _ => Some (update s x (VVal (Some (RSpecial code)))) | _ => None end
  | RSetRect x a b c d => match value_of s x with VVal _ => Some (update s x (VVal (Some (RRect a b c d)))) | _ => None end
  | RSetPoint x i px py =>
      match value_of s x with
      | VVal (Some (RPoly l)) =>
          if (0 <=? i) && (i <? Z.of_nat (List.length l)) then Some (update s x (VVal (Some (RPoly (update l (Z.to_nat i) (px, py)))))) else None
      | _ => None
      end
  | RWrite x row column v =>
      match value_of s x with
      | VVal (Some (RMask mx my mw mh d)) =>
          if (0 <=? row) && (row <? mh) && (0 <=? column) && (column <? mw) && (Z.of_nat (List.length d) =? mw * mh) then
            Some (update s x (VVal (Some (RMask mx my mw mh (update d (Z.to_nat (mw * row + column)) v)))))
          else None
      | _ => None
      end
  end.
Fixpoint run_regions (s : list (value (option region))) (ops : list rop) : option (list (value (option region))) :=
  match ops with [] => Some s | o :: ops' => match step_regions s o with Some s' => run_regions s' ops' | None => None end end.
(** Pixels are written only to objects that share their contents with no other *)
Fixpoint writes_alone (legacy : bool) (w : world region) (ops : list rop) : Prop :=
  match ops with
  | [] => True
  | o :: ops' =>
      match o with RWrite x _ _ _ => alone w x | _ => True end /\
      match run_rop legacy w o with Ok w' => writes_alone legacy w' ops' | _ => True end
  end.
