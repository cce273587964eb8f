(** Model of the geometry of the tutorial tracker (docs/tutorials/tracker/ncc.cpp) in floats, as it is computed.
    Simplifications: pixels are left out, so where a template matches best is a parameter; texts on the standard output are left out.
    round() is that of double; on a float std::round has the same value. *)
From Verif Require Import CBase Num Region FloatOps Ncc.
Local Open Scope Z_scope.

(** OpenCV's MAX and MIN on floating-point numbers *)
Definition cv_max (a b : spec_float) : spec_float := if flt a b then b else a.
Definition cv_min (a b : spec_float) : spec_float := if fgt a b then b else a.
(** docs/tutorials/tracker/ncc.cpp:140-143 the members; of the template only the size is kept *)
Record fncc := mkFncc { q_x : spec_float; q_y : spec_float; q_w : Z; q_h : Z; q_window : spec_float; q_cols : Z; q_rows : Z }.
(** docs/tutorials/tracker/ncc.cpp:60-85 init.  The sizes become floats and integers again (line 79): these floats have no fractions, so
    OpenCV's rounding conversion is the truncating one.  An int as an operand of a floating-point number becomes one. *)
Definition finit (cols rows : Z) (r : irect) : outcome (option (fncc * irect)) :=
  let window := mulf (float_of_int (Z.max (r_w r) (r_h r))) (float_of_int 2) in
  let left := Z.max (r_x r) 0 in
  let top := Z.max (r_y r) 0 in
  a <- int_result (r_x r + r_w r) ;;
  b <- int_result (r_y r + r_h r) ;;
  let right := Z.min a (cols - 1) in
  let bottom := Z.min b (rows - 1) in
  match cut cols rows (mkRect left top (right - left) (bottom - top)) with
  | None => Ok None
  | Some part =>
      let x := addf (float_of_int (r_x r)) (divf (float_of_int (r_w r)) (float_of_int 2)) in
      let y := addf (float_of_int (r_y r)) (divf (float_of_int (r_h r)) (float_of_int 2)) in
      w <- int_of_float (float_of_int (r_w r)) ;;
      h <- int_of_float (float_of_int (r_h r)) ;;
      Ok (Some (mkFncc x y w h window (r_w part) (r_h part), part))
  end.
Record ffound := mkFfound { x_result : irect; x_state : fncc; x_searched : option irect }.
(** docs/tutorials/tracker/ncc.cpp:90-136 update.  [p_size] has integers: its halves in lines 106 and 107 are integers. *)
Definition fupdate (cols rows : Z) (best : irect -> Z * Z) (t : fncc) : outcome (option ffound) :=
  let half := divf (q_window t) (float_of_int 2) in
  let left := float_of_double (cv_max (fround (subf (q_x t) half)) (float_of_int 0)) in
  let top := float_of_double (cv_max (fround (subf (q_y t) half)) (float_of_int 0)) in
  let right := float_of_double (cv_min (fround (addf (q_x t) half)) (float_of_int (cols - 1))) in
  let bottom := float_of_double (cv_min (fround (addf (q_y t) half)) (float_of_int (rows - 1))) in
  l <- int_of_float left ;;
  p <- int_of_float top ;;
  w <- int_of_float (subf right left) ;;
  h <- int_of_float (subf bottom top) ;;
  let roi := mkRect l p w h in
  if (w <? q_cols t) || (h <? q_rows t)
  then x <- int_of_float (subf (q_x t) (float_of_int (Z.quot (q_w t) 2))) ;;
       y <- int_of_float (subf (q_y t) (float_of_int (Z.quot (q_h t) 2))) ;;
       Ok (Some (mkFfound (mkRect x y (q_w t) (q_h t)) t None))
  else match cut cols rows roi with
       | None => Ok None
       | Some part =>
           let '(mx, my) := best part in
           let x := addf left (float_of_int mx) in
           let y := addf top (float_of_int my) in
           rx <- int_of_float x ;;
           ry <- int_of_float y ;;
           Ok (Some (mkFfound (mkRect rx ry (q_w t) (q_h t))
                 (mkFncc (addf x (divf (float_of_int (q_w t)) (float_of_int 2))) (addf y (divf (float_of_int (q_h t)) (float_of_int 2)))
                    (q_w t) (q_h t) (q_window t) (q_cols t) (q_rows t)) (Some part)))
       end.
(** docs/tutorials/tracker/ncc.cpp:227-243 the tracking loop *)
Fixpoint ftrack (t : fncc) (l : list view) : outcome (option (list (irect * option irect))) :=
  match l with
  | [] => Ok (Some [])
  | v :: l' =>
      q <- fupdate (v_cols v) (v_rows v) (v_best v) t ;;
      match q with
      | None => Ok None
      | Some u => a <- ftrack (x_state u) l' ;;
                  match a with Some r => Ok (Some ((x_result u, x_searched u) :: r)) | None => Ok None end
      end
  end.
