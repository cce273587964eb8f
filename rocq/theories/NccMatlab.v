(** Model of the Matlab tutorial tracker (docs/tutorials/matlab/ncc_tracker.m): the geometry of ncc_initialize and ncc_update.
    Simplifications: pixels are left out, so where a template matches best is a parameter and what normxcorr2 refuses (templates of one
    pixel or of one colour) is left out; doubles are exact: region coordinates are counted in units of 2^-20 and positions in halves. *)
From Verif Require Import CBase Ncc.
Local Open Scope Z_scope.

(** The unit of the numbers of a region *)
Definition unit : Z := 1048576.
(** round: to the nearest integer, away from zero in the middle *)
Definition m_round (z : Z) : Z := if 0 <=? z then (2 * z + unit) / (2 * unit) else - ((unit - 2 * z) / (2 * unit)).
(** region(1:2:end) and region(2:2:end) *)
Fixpoint every_other (l : list Z) : list Z := match l with a :: _ :: l' => a :: every_other l' | [a] => [a] | [] => [] end.
Definition m_min (l : list Z) : Z := match l with [] => 0 | a :: l' => fold_left Z.min l' a end.
Definition m_max (l : list Z) : Z := match l with [] => 0 | a :: l' => fold_left Z.max l' a end.
(** docs/tutorials/matlab/ncc_tracker.m:53-64; None is the error for an index beyond the end *)
Definition bounding (region : list Z) : option irect :=
  if (4 <? List.length region)%nat then
    let x1 := m_round (m_min (every_other region)) in
    let x2 := m_round (m_max (every_other region)) in
    let y1 := m_round (m_min (every_other (tl region))) in
    let y2 := m_round (m_max (every_other (tl region))) in
    Some (mkRect x1 y1 (x2 - x1) (y2 - y1))
  else match region with
       | [x; y; w; h] => Some (mkRect (m_round x) (m_round y) (m_round (x + w) - m_round x) (m_round (y + h) - m_round y))
       | _ => None
       end.
(** docs/tutorials/matlab/ncc_tracker.m:73-75 the state; the position is in halves; the template has the size [s_w], [s_h], or is empty *)
Record mstate := mkState { s_x2 : Z; s_y2 : Z; s_w : Z; s_h : Z; s_window : Z }.
(** docs/tutorials/matlab/ncc_tracker.m:66-77 the state and the location, which is also the part of the picture that is the template *)
Definition minit (width height : Z) (region : list Z) : option (mstate * irect) :=
  match bounding region with
  | None => None
  | Some r =>
      let x1 := Z.max 1 (r_x r) in
      let y1 := Z.max 1 (r_y r) in
      let x2 := Z.min (width - 2) (r_x r + r_w r - 1) in
      let y2 := Z.min (height - 2) (r_y r + r_h r - 1) in
      let w := x2 - x1 + 1 in
      let h := y2 - y1 + 1 in
      Some (mkState (x1 + x2 + 1) (y1 + y2 + 1) w h (Z.max w h * 2), mkRect x1 y1 w h)
  end.
(** A location: corners in halves *)
Record place := mkPlace { l_x2 : Z; l_y2 : Z; l_w : Z; l_h : Z }.
(** docs/tutorials/matlab/ncc_tracker.m:81-116: the location, the state and the part that was searched, if any; None is the error of
    line 109, for an empty response.  [best] is the place of the largest number in the response whose corner is at this pixel and that has
    this size (lines 102 to 109): mx - 1 and my - 1. *)
Definition mupdate (width height : Z) (best : irect -> Z * Z) (t : mstate) : option (place * mstate * option irect) :=
  let x1 := Z.max 1 (round2 (s_x2 t - s_window t)) in
  let y1 := Z.max 1 (round2 (s_y2 t - s_window t)) in
  let x2 := Z.min (width - 2) (round2 (s_x2 t + s_window t)) in
  let y2 := Z.min (height - 2) (round2 (s_y2 t + s_window t)) in
  let part := mkRect x1 y1 (Z.max 0 (x2 - x1 + 1)) (Z.max 0 (y2 - y1 + 1)) in
  let cols := Z.max 0 (s_w t) in
  let rows := Z.max 0 (s_h t) in
  if (r_h part <? rows) || (r_w part <? cols)
  then Some (mkPlace (s_x2 t - s_w t) (s_y2 t - s_h t) (s_w t) (s_h t), t, None)
  else
    let center_w := r_w part - (cols - 1) - 1 in
    let center_h := r_h part - (rows - 1) - 1 in
    if (center_w <=? 0) || (center_h <=? 0) then None
    else
      let '(ox, oy) := best (mkRect x1 y1 center_w center_h) in
      let px := 2 * (x1 + (cols - 1) + (ox + 1)) - s_w t in
      let py := 2 * (y1 + (rows - 1) + (oy + 1)) - s_h t in
      Some (mkPlace (px - s_w t) (py - s_h t) (s_w t) (s_h t), mkState px py (s_w t) (s_h t) (s_window t), Some part).
(** docs/tutorials/matlab/ncc_tracker.m:27-41 the tracking loop *)
Fixpoint mtrack (t : mstate) (l : list view) : option (list (place * option irect)) :=
  match l with
  | [] => Some []
  | v :: l' =>
      match mupdate (v_cols v) (v_rows v) (v_best v) t with
      | None => None
      | Some (p, t', s) => match mtrack t' l' with Some r => Some ((p, s) :: r) | None => None end
      end
  end.
