(** Model of the tutorial tracker (docs/tutorials/tracker/ncc.cpp): its files and the geometry of its search.
    Simplifications: pixels are left out, so where a template matches best is a parameter; floats are counted in halves, which is what
    they are as long as all coordinates are below 2^22 (NccFloat.v computes in floats and is proved equal for coordinates up to 2^20); texts on the
    standard output are left out. *)
From Verif Require Import CBase Num Region Image Sockets.
Local Open Scope Z_scope.

(** ---- Files ---- *)
(** A file that is being read, and whether its end has been met *)
Record stream := mkStream { f_left : list N; f_eof : bool }.
Fixpoint until (d : N) (l : list N) : list N * option (list N) :=
  match l with
  | [] => ([], None)
  | c :: l' => if (c =? d)%N then ([], Some l') else let '(t, r) := until d l' in (c :: t, r)
  end.
(** std::getline: a stream that has met its end is not good, and then the text is left as it is *)
Definition getline (d : N) (s : stream) (text : list N) : stream * list N :=
  if f_eof s then (s, text)
  else match until d (f_left s) with
       | (t, Some r) => (mkStream r false, t)
       | (t, None) => (mkStream [] true, t)
       end.
(** docs/tutorials/tracker/ncc.cpp:185-193 the loop of readsequence *)
Fixpoint sequence_loop (fuel : nat) (s : stream) (path : list N) (found : list (list N)) : outcome (list (list N)) :=
  match fuel with
  | O => NoFuel
  | S fuel' =>
      let '(s, path) := getline 10 s path in
      match path with
      | [] => Ok found
      | _ => sequence_loop fuel' s path (found ++ [path])
      end
  end.
(** docs/tutorials/tracker/ncc.cpp:177-196 readsequence of a file that exists *)
Definition readsequence (fuel : nat) (file : list N) : outcome (list (list N)) := sequence_loop fuel (mkStream file false) [] [].

Record irect := mkRect { r_x : Z; r_y : Z; r_w : Z; r_h : Z }.
(** docs/tutorials/tracker/ncc.cpp:152-173 readrectangle of a file that exists *)
Definition readrectangle (file : list N) : irect :=
  let '(s, t1) := getline 44 (mkStream file false) [] in
  let '(s, t2) := getline 44 s t1 in
  let '(s, t3) := getline 44 s t2 in
  let '(s, t4) := getline 44 s t3 in
  mkRect (atoi t1) (atoi t2) (atoi t3) (atoi t4).

(** ---- The tracker ---- *)
(** docs/tutorials/tracker/ncc.cpp:139-143 the members; the position is in halves, of the template only the size is kept *)
Record ncc := mkNcc { n_x2 : Z; n_y2 : Z; n_w : Z; n_h : Z; n_window : Z; n_cols : Z; n_rows : Z }.
(** OpenCV: a part of a picture; None is the exception for a rectangle that is not in it *)
Definition cut (cols rows : Z) (r : irect) : option irect :=
  if (0 <=? r_x r) && (0 <=? r_w r) && (r_x r + r_w r <=? cols) && (0 <=? r_y r) && (0 <=? r_h r) && (r_y r + r_h r <=? rows) then Some r else None.
(** docs/tutorials/tracker/ncc.cpp:60-85 init with a picture of this size; the second component is the part that was copied *)
Definition init (cols rows : Z) (r : irect) : outcome (option (ncc * irect)) :=
  let left := Z.max (r_x r) 0 in
  let top := Z.max (r_y r) 0 in
  a <- int_result (r_x r + r_w r) ;;
  b <- int_result (r_y r + r_h r) ;;
  let right := Z.min a (cols - 1) in
  let bottom := Z.min b (rows - 1) in
  match cut cols rows (mkRect left top (right - left) (bottom - top)) with
  | None => Ok None
  | Some part => Ok (Some (mkNcc (2 * r_x r + r_w r) (2 * r_y r + r_h r) (r_w r) (r_h r) (2 * Z.max (r_w r) (r_h r)) (r_w part) (r_h part), part))
  end.
(** round(3) of a number of halves: to the nearest integer, away from zero in the middle *)
Definition round2 (h : Z) : Z := if 0 <=? h then (h + 1) / 2 else - ((1 - h) / 2).
(** The conversion of a number of halves to int *)
Definition int2 (h : Z) : Z := Z.quot h 2.
(** How an update goes: the answer, the state and the part of the picture that was searched, if any *)
Record found := mkFound { u_result : irect; u_state : ncc; u_searched : option irect }.
(** docs/tutorials/tracker/ncc.cpp:90-136 update with a picture of this size; [best] is the place of the best match in the searched part.
    The window is an even number, so half of it is one.  [p_size] has integers: its halves in lines 106 and 107 are rounded down, those in
    lines 124 and 125 are not. *)
Definition update (cols rows : Z) (best : irect -> Z * Z) (t : ncc) : option found :=
  let left := Z.max (round2 (n_x2 t - n_window t)) 0 in
  let top := Z.max (round2 (n_y2 t - n_window t)) 0 in
  let right := Z.min (round2 (n_x2 t + n_window t)) (cols - 1) in
  let bottom := Z.min (round2 (n_y2 t + n_window t)) (rows - 1) in
  let roi := mkRect left top (right - left) (bottom - top) in
  if (r_w roi <? n_cols t) || (r_h roi <? n_rows t)
  then Some (mkFound (mkRect (int2 (n_x2 t - 2 * Z.quot (n_w t) 2)) (int2 (n_y2 t - 2 * Z.quot (n_h t) 2)) (n_w t) (n_h t)) t None)
  else match cut cols rows roi with
       | None => None
       | Some part =>
           let '(mx, my) := best part in
           Some (mkFound (mkRect (left + mx) (top + my) (n_w t) (n_h t))
                   (mkNcc (2 * (left + mx) + n_w t) (2 * (top + my) + n_h t) (n_w t) (n_h t) (n_window t) (n_cols t) (n_rows t)) (Some part))
       end.
(** A picture: its size, and where the template matches best in a part of it *)
Record view := mkView { v_cols : Z; v_rows : Z; v_best : irect -> Z * Z }.
(** docs/tutorials/tracker/ncc.cpp:227-243 the tracking loop: the answers for the pictures after the first and the parts searched *)
Fixpoint track (t : ncc) (l : list view) : option (list (irect * option irect)) :=
  match l with
  | [] => Some []
  | v :: l' =>
      match update (v_cols v) (v_rows v) (v_best v) t with
      | None => None
      | Some u => match track (u_state u) l' with Some r => Some ((u_result u, u_searched u) :: r) | None => None end
      end
  end.
