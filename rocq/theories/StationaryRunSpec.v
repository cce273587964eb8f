(** Specification for C123: the stationary tracker under the failure criterion. *)
From Verif Require Import CBase Num NumSpec Region RegionSpec RegionGeom GeomSpec ImageSize Cli CliSpec StaticSpec Criterion CriterionSpec EvaluateSpec.
Local Open Scope Z_scope.

(** The same region: equal, or a mask with the same place, size and foreground *)
Definition same_region (a b : region) : Prop :=
  match a, b with
  | RMask x y w h d, RMask x' y' w' h' d' => x' = x /\ y' = y /\ w' = w /\ h' = h /\ foreground d' = foreground d
  | _, _ => b = a
  end.
(** [fails] is the criterion of the client for this ground truth, wherever that is defined.  Without bounds no image is used *)
Definition criterion_of (s : settings) (truth : list (option region)) (n : nat) (fails : nat -> option region -> bool) : Prop :=
  forall i r b, (i < n)%nat -> judge s PUrl (init_of truth i) r = Ok b -> fails i (Some r) = b.
(** The regions of the ground truth can be compared with each other *)
Definition comparable_truth (s : settings) (truth : list (option region)) (n : nat) : Prop :=
  forall start i g, (start <= i < n)%nat -> init_of truth start = Some g -> assessable s PUrl (init_of truth i) g.
(** Index of the region of frame [start] and that of frame [i] *)
Definition left_start (s : settings) (truth : list (option region)) (start i : nat) : Prop :=
  exists g, init_of truth start = Some g /\ lost s PUrl (init_of truth i) g.
Definition near_start (s : settings) (truth : list (option region)) (start i : nat) : Prop :=
  exists g, init_of truth start = Some g /\ kept s PUrl (init_of truth i) g.
Definition start_region (truth : list (option region)) (start : nat) (r : region) : Prop :=
  exists g, init_of truth start = Some g /\ same_region g r.

(** A function that is the criterion *)
Definition real_criterion (s : settings) (truth : list (option region)) (i : nat) (state : option region) : bool :=
  match state with
  | Some r => match judge s PUrl (init_of truth i) r with Ok b => b | _ => false end
  | None => false
  end.
(** The object moves away: 48 of 80 pixels, then 16 of 112 *)
Definition moving_texts : list (list N * bool) := [(str "0,0,8,8", false); (str "2,0,8,8", false); (str "6,0,8,8", true); (str "6,0,8,8", false)].
Definition moving_truth : list (option region) := [Some (block_at 0 0 8 8); Some (block_at 2 0 8 8); Some (block_at 6 0 8 8); Some (block_at 6 0 8 8)].
(** A flat object that becomes twice as high: half of the pixels stay *)
Definition flat_texts : list (list N * bool) := [(str "0,0,10,1", false); (str "0,0,10,2", false)].
Definition flat_truth : list (option region) := [Some (block_at 0 0 10 1); Some (block_at 0 0 10 2)].
