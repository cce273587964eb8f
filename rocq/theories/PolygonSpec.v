(** Specification vocabulary for point queries on polygons. *)
From Verif Require Import CBase Num NumSpec Region RegionSpec GeomSpec.
Local Open Scope Z_scope.

Definition point : Type := Z * Z.

(** The sides of a polygon: each vertex with the next one, the last with the first. *)
Definition sides {A : Type} (pts : list A) : list (A * A) := combine pts (tl pts ++ firstn 1 pts).

(** Positive, zero or negative as q lies to one side of the line from a to b, on it, or to the other. *)
Definition turn (a b q : point) : Z := (fst b - fst a) * (snd q - snd a) - (snd b - snd a) * (fst q - fst a).

(** The horizontal ray from q to the right crosses the side: its ends are on different sides of the ray (an end on the
    line of the ray counts as above it) and the crossing is to the right of q. *)
Definition crosses (q : point) (side : point * point) : bool :=
  let '(a, b) := side in
  ((snd a <=? snd q) && (snd q <? snd b) && (0 <? turn a b q)) ||
  ((snd b <=? snd q) && (snd q <? snd a) && (turn a b q <? 0)).
(** The even-odd rule: q is inside when the ray crosses an odd number of sides. *)
Definition even_odd (pts : list point) (q : point) : bool := Nat.odd (List.length (filter (crosses q) (sides pts))).

(** A convex polygon (s = 1 or -1 is its orientation): distinct vertices, and every other vertex lies strictly on the same
    side of each side. *)
Definition convex (s : Z) (pts : list point) : Prop :=
  NoDup pts /\ (3 <= List.length pts)%nat /\
  forall a b v, In (a, b) (sides pts) -> In v pts -> v <> a -> v <> b -> 0 < s * turn a b v.
Definition inside (s : Z) (pts : list point) (q : point) : Prop := forall a b, In (a, b) (sides pts) -> 0 < s * turn a b q.
Definition outside (s : Z) (pts : list point) (q : point) : Prop := exists a b, In (a, b) (sides pts) /\ s * turn a b q < 0.

(** (X, Y) is at most one pixel left or right of the polygon: a point (p/q, Y) with |p/q - X| <= 1 is not outside any side (the
    condition is the one on [turn], multiplied by q). *)
Definition next_to (s : Z) (pts : list point) (X Y : Z) : Prop :=
  exists p q, 0 < q /\ Z.abs (p - q * X) <= q /\
    forall a b, In (a, b) (sides pts) -> 0 <= s * ((fst b - fst a) * (q * (Y - snd a)) - (snd b - snd a) * (p - q * fst a)).

(** The vertices have integer coordinates. *)
Definition int_point (p : spec_float * spec_float) (z : point) : Prop :=
  finite_float (fst p) /\ finite_float (snd p) /\ is_int (fst p) (fst z) /\ is_int (snd p) (snd z).
(** No side is longer than n in either direction. *)
Definition sides_within (n : Z) (pts : list point) : Prop :=
  forall a b, In (a, b) (sides pts) -> Z.abs (fst b - fst a) <= n /\ Z.abs (snd b - snd a) <= n.
