(** Specification of the texts that can be read as regions without harm *)
From Verif Require Import CBase Num NumSpec RegionSpec.
Local Open Scope Z_scope.

(** ---- The parts of a text ---- *)

(** A scheme: at most 15 lower-case letters and signs before the first colon; the data follow it. *)
Definition scheme_letter (c : N) : Prop := (97 <= c <= 122)%N \/ c = 43%N \/ c = 45%N \/ c = 46%N.
Definition scheme (t s d : list N) : Prop := t = s ++ 58%N :: d /\ (List.length s <= 15)%nat /\ Forall scheme_letter s.
Fixpoint begins (a b : list N) : bool :=
  match a, b with
  | [], _ => true
  | x :: a', y :: b' => (x =? y)%N && begins a' b'
  | _ :: _, [] => false
  end.
Inductive kind := Rect | Poly | Mask | Special.
(** What a scheme stands for: the last letter of the scheme does not matter, the others must begin the name. *)
Definition kind_of (s : list N) : option kind :=
  match s with
  | [] => None
  | _ =>
      let b := removelast s in
      if begins b (str "rect") then Some Rect
      else if begins b (str "poly") then Some Poly
      else if begins b (str "mask") then Some Mask
      else if begins b (str "special") then Some Special
      else None
  end.
Inductive splits : list N -> option kind -> list N -> Prop :=
| splits_scheme t s d : scheme t s d -> splits t (kind_of s) d
| splits_plain t : (forall s d, ~ scheme t s d) -> splits t None t.
(** The numbers: what the C library reads (in single precision) at the beginning and behind every comma *)
Fixpoint behind_commas (d : list N) : list (list N) :=
  match d with
  | [] => []
  | c :: d' => if (c =? 44)%N then d' :: behind_commas d' else behind_commas d'
  end.
Definition numbers (d : list N) : list spec_float := map (fun f => float_of_double (atof f)) (d :: behind_commas d).

(** ---- Conversions to int ---- *)

(** The number without its fraction *)
Definition whole (x : spec_float) : Z := Z.quot (units x) (2 ^ 1074).
Definition a_number (x : spec_float) : bool := match x with S754_nan => false | _ => true end.
(** It can be converted to int. *)
Definition fits_int (x : spec_float) : Prop :=
  match x with S754_zero _ | S754_finite _ _ _ => INT_MIN <= whole x <= INT_MAX | _ => False end.

(** ---- Harmless texts ---- *)

(** Lengths of runs that can be written into [room] pixels: a negative one fills everything, counting down. *)
Fixpoint runs_fit (room : Z) (runs : list spec_float) : Prop :=
  match runs with
  | [] => True
  | c :: runs' =>
      fits_int c /\ (whole c < 0 -> INT_MIN <= whole c - room) /\
      runs_fit (if whole c <? 0 then 0 else Z.max 0 (room - whole c)) runs'
  end.
(** The data contain something else than commas. *)
Definition nonempty_data (d : list N) : Prop := exists c, In c d /\ c <> 44%N.
Definition all_numbers (d : list N) : Prop := Forall (fun x => a_number x = true) (numbers d).
Inductive harmless : list N -> Prop :=
| harmless_nan t k d : splits t k d -> nonempty_data d -> ~ all_numbers d ->
    (forall a b c x, numbers d = [a; b; c; x] -> a_number x = true -> fits_int x /\ whole x <> INT_MIN) -> harmless t
| harmless_special t k d x : splits t k d -> nonempty_data d -> all_numbers d -> k = Some Special \/ k = None ->
    numbers d = [x] -> fits_int x -> harmless t
| harmless_rect t d : splits t (Some Rect) d -> nonempty_data d -> all_numbers d -> n_fields d = 4%nat -> harmless t
| harmless_poly t d n : splits t (Some Poly) d -> nonempty_data d -> all_numbers d -> n_fields d = (2 * n)%nat -> (3 <= n)%nat -> harmless t
| harmless_plain t d : splits t None d -> nonempty_data d -> all_numbers d -> n_fields d <> 1%nat -> harmless t
| harmless_mask t d x y w h runs : splits t (Some Mask) d -> nonempty_data d -> all_numbers d -> numbers d = x :: y :: w :: h :: runs -> runs <> [] ->
    fits_int x -> fits_int y -> fits_int w -> fits_int h -> INT_MIN <= whole w * whole h <= INT_MAX ->
    runs_fit (Z.max 0 (whole w * whole h)) runs -> harmless t.
(** The number of fields that a scheme needs *)
Definition right_count (k : kind) (n : nat) : Prop :=
  match k with Rect => n = 4%nat | Poly => exists m, n = (2 * m)%nat /\ (3 <= m)%nat | Mask => (5 <= n)%nat | Special => n = 1%nat end.
(** Texts with a scheme whose data do not have this number of fields *)
Inductive miscounted : list N -> Prop :=
| miscounted_intro t k d : splits t (Some k) d -> nonempty_data d -> all_numbers d -> ~ right_count k (n_fields d) -> miscounted t.
