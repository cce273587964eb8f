(** Specification for the Matlab tutorial tracker (C135). *)
From Verif Require Import CBase Ncc NccMatlab.
Local Open Scope Z_scope.

(** The rectangle leaves out the outermost pixels of the picture. *)
Definition inner (width height : Z) (r : irect) : Prop :=
  1 <= r_x r /\ 1 <= r_y r /\ r_x r + r_w r <= width - 1 /\ r_y r + r_h r <= height - 1.
(** The rectangle has its ends within half a pixel of these coordinates, which are in units of 2^-20. *)
Definition near (z n : Z) : Prop := 2 * Z.abs (1048576 * n - z) <= 1048576.
Definition near_box (x1 y1 x2 y2 : Z) (r : irect) : Prop := near x1 (r_x r) /\ near y1 (r_y r) /\ near x2 (r_x r + r_w r) /\ near y2 (r_y r + r_h r).
(** Ends of a region at least a pixel away from the border and from each other. *)
Definition well_in (n a b : Z) : Prop := 1048576 <= a /\ a + 1048576 <= b /\ b <= (n - 1) * 1048576.
(** A polygon as Matlab has it, and the ends of its coordinates. *)
Definition flat (l : list (Z * Z)) : list Z := concat (map (fun p => [fst p; snd p]) l).
Definition extremes (l : list Z) (a b : Z) : Prop := In a l /\ In b l /\ Forall (fun z => a <= z <= b) l.
(** A picture of this size, in which the best of some places is one of them. *)
Definition proper_picture (width height : Z) (v : view) : Prop :=
  v_cols v = width /\ v_rows v = height /\
  forall places, 1 <= r_w places -> 1 <= r_h places -> 0 <= fst (v_best v places) < r_w places /\ 0 <= snd (v_best v places) < r_h places.
(** A picture that, without its outermost pixels, is smaller than the object. *)
Definition too_small (w h : Z) (v : view) : Prop := v_cols v - 2 < w \/ v_rows v - 2 < h.
(** The part of a row of [n] pixels, without the outermost, that is as far from the middle of an object as its larger side is long, up
    to half a pixel. *)
Definition around_inner (n x w reach first last : Z) : Prop :=
  (Z.abs (2 * first - (2 * x + w - 2 * reach)) <= 1 /\ 1 <= first \/ first = 1 /\ 2 * x + w - 2 * reach <= 2) /\
  (Z.abs (2 * last - (2 * x + w + 2 * reach)) <= 1 /\ last <= n - 2 \/ last = n - 2 /\ 2 * (n - 2) <= 2 * x + w + 2 * reach + 1).
Definition whole_place (r : irect) : place := mkPlace (2 * r_x r) (2 * r_y r) (r_w r) (r_h r).
(** Every answer has the size of the object and is the best place in the part of the picture around the one before, without its end, or
    the one before itself if the picture is too small. *)
Fixpoint places_ok (width height w h : Z) (before : irect) (l : list view) (answers : list (place * option irect)) : Prop :=
  match l, answers with
  | [], [] => True
  | v :: l', (p, Some part) :: answers' =>
      exists r, p = whole_place r /\ r_w r = w /\ r_h r = h /\ inner width height r /\ inner width height part /\
        around_inner width (r_x before) w (Z.max w h) (r_x part) (r_x part + r_w part - 1) /\
        around_inner height (r_y before) h (Z.max w h) (r_y part) (r_y part + r_h part - 1) /\
        (let places := mkRect (r_x part) (r_y part) (r_w part - w) (r_h part - h) in
         r_x r = r_x part + fst (v_best v places) /\ r_y r = r_y part + snd (v_best v places)) /\
        r_x r + w < r_x part + r_w part /\ r_y r + h < r_y part + r_h part /\
        places_ok width height w h r l' answers'
  | v :: l', (p, None) :: answers' => too_small w h v /\ p = whole_place before /\ places_ok width height w h before l' answers'
  | _, _ => False
  end.
