(** Specification for C127: what the stationary tracker written in Matlab reports. *)
From Verif Require Import CBase Props PropsSpec Message MessageSpec Num NumSpec Region RegionSpec Image Formats Handle SessionSpec StaticSpec CppSession Matlab MatlabServer MatlabServerSpec MatlabStatic.
Local Open Scope Z_scope.

(** A request of a client written in C++: it starts the tracker with a polygon, or sends a frame *)
Record task := mkTask {
  tk_polygon : option (list (spec_float * spec_float));
  tk_images : Handle.image_list;
  tk_props : props;
  tk_cut1 : list N -> list (list N);
  tk_cut2 : list N -> list (list N)
}.
(** The polygon to follow after a request, as the client gave it *)
Definition target (p : option (list (spec_float * spec_float))) (q : task) : option (list (spec_float * spec_float)) :=
  match tk_polygon q with Some pts => Some pts | None => p end.
(** Requests within the formats the tracker announces: polygons of at least three corners with finite coordinates, and images given as paths (1), pixels (4)
    or files (8) *)
Definition task_ok (slack : nat) (p : option (list (spec_float * spec_float))) (q : task) : Prop :=
  cutter (tk_cut1 q) /\ cutter (tk_cut2 q) /\ (exists ims, images_arrive slack TRAX_CHANNEL_COLOR 13 (tk_images q) ims /\ viewable_images ims) /\
  match tk_polygon q with
  | Some pts => (3 <= List.length pts)%nat /\ in_int (2 * Z.of_nat (List.length pts)) = true /\ Forall point_finite pts
  | None => p <> None
  end /\
  clean (tk_props q) /\ in_int (2 * Z.of_nat (props_count (tk_props q))) = true.
Fixpoint tasks_ok (slack : nat) (p : option (list (spec_float * spec_float))) (qs : list task) : Prop :=
  match qs with [] => True | q :: qs' => task_ok slack p q /\ tasks_ok slack (target p q) qs' end.

(** A request, a pass of the tracker, and what the client's wait gives *)
Definition task_round (legacy : bool) (slack : nat) (c : handle) (t : mstatic) (q : task) : outcome (handle * mpass * (Z * option region)) :=
  a <- match tk_polygon q with
       | Some pts => cpp_initialize legacy c (tk_images q) (RPoly pts) (tk_props q)
       | None => cpp_frame legacy c (tk_images q) (tk_props q)
       end ;;
  let '(_, c1) := a in
  p <- matlab_static_pass (match tk_polygon q with Some _ => 4 | None => 3 end) slack (mkMstatic (fed (tk_cut1 q) (written c c1) (mt_server t)) (mt_memory t)) ;;
  x <- cpp_client_wait (arrive (tk_cut2 q) (wrote (mt_server t) (pass_server p)) c1) None props_create ;;
  let '(state, c2, answer, _) := x in
  Ok (c2, p, (state, answer)).
(** A session: requests as long as the tracker goes on *)
Fixpoint task_rounds (legacy : bool) (slack : nat) (c : handle) (t : mstatic) (qs : list task) : outcome (option (handle * mstatic * list (Z * option region))) :=
  match qs with
  | [] => Ok (Some (c, t, []))
  | q :: qs' =>
      x <- task_round legacy slack c t q ;;
      match x with
      | (c1, Went t1, sn) =>
          y <- task_rounds legacy slack c1 t1 qs' ;;
          Ok (match y with Some (c2, t2, l) => Some (c2, t2, sn :: l) | None => None end)
      | _ => Ok None
      end
  end.
(** Every answer is the polygon of the latest start, up to the fifth decimal *)
Fixpoint task_reports (p : option (list (spec_float * spec_float))) (qs : list task) (l : list (Z * option region)) : Prop :=
  match qs, l with
  | [], [] => True
  | q :: qs', (state, answer) :: l' =>
      state = TRAX_STATE /\ (exists pts r, target p q = Some pts /\ answer = Some r /\ stays (RPoly pts) r) /\ task_reports (target p q) qs' l'
  | _, _ => False
  end.
(** The client quits, and the tracker makes another pass *)
Definition task_ending (fuel slack : nat) (c : handle) (t : mstatic) (reason : list N) (cut : list N -> list (list N)) : outcome mpass :=
  a <- terminate c (Some reason) ;;
  matlab_static_pass fuel slack (mkMstatic (fed cut (written c (snd a)) (mt_server t)) (mt_memory t)).

(** A triangle, frames, and a quadrangle; paths and a file as images *)
Definition sample_file : Handle.image_list :=
  [match image_create_buffer 6 [137; 80; 78; 71; 13; 10]%N with Ok i => Some i | _ => None end; None; None].
Definition sample_corners (z : Z) : list (spec_float * spec_float) := [(fl z, fl 2); (fl 30, fl z); (fl 4, fl 50)].
Definition sample_tasks : list task :=
  [mkTask (Some (sample_corners 1)) sample_colour (sample_props (str "time_wait") (str "soon")) byte_cut whole_cut;
   mkTask None sample_file props_create whole_cut byte_cut;
   mkTask (Some ((fl 7, fl 8) :: sample_corners 5)) sample_colour props_create byte_cut byte_cut;
   mkTask None sample_colour (sample_props (str "k") (str "v w")) whole_cut whole_cut].
