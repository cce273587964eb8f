(** Specification for the tutorial tracker (C132). *)
From Verif Require Import CBase Ncc.
Local Open Scope Z_scope.

(** ---- Files ---- *)
Definition newline : N := 10.
Definition comma : N := 44.
(** A line that is not empty, without its end. *)
Definition a_line (l : list N) : Prop := l <> [] /\ ~ In newline l.
(** Lines, each with its end. *)
Definition ended (l : list (list N)) : list N := concat (map (fun x => x ++ [newline]) l).
(** A decimal number. *)
Definition digits_mean (l : list N) (n : Z) : Prop :=
  l <> [] /\ Forall (fun c => (48 <= c <= 57)%N) l /\ Z.of_N (fold_left (fun a c => (10 * a + (c - 48))%N) l 0%N) = n.
Definition number_text (t : list N) (z : Z) : Prop :=
  -2147483648 <= z <= 2147483647 /\ (digits_mean t z \/ exists d, t = 45%N :: d /\ digits_mean d (- z)).
(** The text goes on with something else than a digit, or it ends. *)
Definition no_digit (r : list N) : Prop := match r with c :: _ => ~ (48 <= c <= 57)%N | [] => True end.

(** ---- Pictures ---- *)
(** The pixels of the rectangle are pixels of the picture. *)
Definition inside (cols rows : Z) (r : irect) : Prop :=
  0 <= r_x r /\ 0 <= r_y r /\ 0 <= r_w r /\ 0 <= r_h r /\ r_x r + r_w r <= cols /\ r_y r + r_h r <= rows.
(** The range in which floats count halves without loss. *)
Definition moderate (z : Z) : Prop := - 2 ^ 20 <= z <= 2 ^ 20.
Definition moderate_rect (r : irect) : Prop := moderate (r_x r) /\ moderate (r_y r) /\ 0 <= r_w r <= 2 ^ 20 /\ 0 <= r_h r <= 2 ^ 20.
Definition size_ok (cols rows : Z) : Prop := 1 <= cols <= 2 ^ 20 /\ 1 <= rows <= 2 ^ 20.
(** The best match of a template of this size in a part of the picture is in this part. *)
Definition proper_view (w h : Z) (v : view) : Prop :=
  size_ok (v_cols v) (v_rows v) /\
  forall part, inside (v_cols v) (v_rows v) part -> w <= r_w part -> h <= r_h part ->
    0 <= fst (v_best v part) <= r_w part - w /\ 0 <= snd (v_best v part) <= r_h part - h.
(** The part of a row of [n] pixels that is as far from the middle of an object as the larger side of the object is long, up to half a
    pixel; nothing before the first pixel, nothing after the last. *)
Definition around (n x w reach first last : Z) : Prop :=
  (Z.abs (2 * first - (2 * x + w - 2 * reach)) <= 1 /\ 0 <= first \/ first = 0 /\ 2 * x + w - 2 * reach <= 0) /\
  (Z.abs (2 * last - (2 * x + w + 2 * reach)) <= 1 /\ last <= n - 1 \/ last = n - 1 /\ 2 * (n - 1) <= 2 * x + w + 2 * reach + 1).
(** The answers to the pictures: each one has the size of the object, and is either the one before, or was found in the part of the
    picture around the one before and lies in it. *)
Fixpoint answers_ok (w h : Z) (before : irect) (l : list view) (answers : list (irect * option irect)) : Prop :=
  match l, answers with
  | [], [] => True
  | v :: l', (r, searched) :: answers' =>
      r_w r = w /\ r_h r = h /\
      match searched with
      | None => r = before
      | Some part => around (v_cols v) (r_x before) w (Z.max w h) (r_x part) (r_x part + r_w part) /\
                     around (v_rows v) (r_y before) h (Z.max w h) (r_y part) (r_y part + r_h part) /\
                     inside (v_cols v) (v_rows v) part /\ inside (v_cols v) (v_rows v) r /\
                     r_x part <= r_x r /\ r_y part <= r_y r /\ r_x r + w <= r_x part + r_w part /\ r_y r + h <= r_y part + r_h part
      end /\ answers_ok w h r l' answers'
  | _, _ => False
  end.
(** A picture in which the template, taken at this place, matches best at this place. *)
Definition unmoved (x y : Z) (v : view) : Prop := forall part, v_best v part = (x - r_x part, y - r_y part).

(** ---- Examples ---- *)
Definition top_left (cols rows : Z) : view := mkView cols rows (fun _ => (0, 0)).
Definition same_place (x y cols rows : Z) : view := mkView cols rows (fun part => (x - r_x part, y - r_y part)).
