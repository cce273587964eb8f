(** Model of the example trackers support/opencv/interactive.cpp and support/opencv/camshift.cpp, over the C++ classes of CppSession.
    Simplifications: windows, drawings and OpenCV's computations are left out; of a picture only whether there is one is kept.  Which files and which
    data OpenCV can read, what the user does and the windows that camshift finds are given. *)
From Verif Require Import CBase Props PropsNum Num Region RegionGeom Image Formats Handle CppSession OpenCv.
Local Open Scope Z_scope.

(** include/trax.h:744-746, src/traxpp.cpp:123-133: the constructor of Metadata, also named Configuration (trax.h:785), with two arguments: the formats
    of regions and the formats of images *)
Definition configuration (region_formats image_formats : Z) : outcome metadata :=
  metadata_create region_formats image_formats TRAX_CHANNEL_COLOR None None None (Some 0).
(** interactive.cpp:71-72 and camshift.cpp:62-65: the configuration of both programs *)
Definition example_configuration : outcome metadata :=
  configuration (Z.lor (Z.lor TRAX_IMAGE_PATH TRAX_IMAGE_MEMORY) TRAX_IMAGE_BUFFER) TRAX_REGION_RECTANGLE.

(** What OpenCV can read: files by their name, data in a buffer *)
Record files := mkFiles { readable : list N -> bool; decodable : list (option N) -> bool }.
(** img.get(TRAX_CHANNEL_COLOR) *)
Definition color (images : option image_list) : option image := match images with Some l => nth 0 l None | None => None end.
(** support/opencv/opencv.cpp:15-46 image_to_mat: whether the result has pixels; None is an exception of OpenCV *)
Definition picture (f : files) (im : option image) : outcome (option bool) :=
  match im with
  | None => Ok (Some false)
  | Some im =>
      if i_type im =? TRAX_IMAGE_PATH then p <- image_get_path im ;; Ok (Some (readable f p))
      else if i_type im =? TRAX_IMAGE_MEMORY then m <- image_to_mat im ;; Ok (option_map (fun m => (0 <? m_rows m) && (0 <? m_cols m)) m)
      else if i_type im =? TRAX_IMAGE_BUFFER then Ok (Some (decodable f (i_data im)))
      else Ok (Some false)
  end.

(** How one pass of the loop ends: the program has replied and goes on or leaves its loop; it leaves its loop without a reply; it ends by an exception.
    [A] are the variables of the program. *)
Inductive pass (A : Type) :=
| Replied (code : Z) (goes_on : bool) (v : A)
| Ended (v : A)
| Died.
Arguments Replied {A}. Arguments Ended {A}. Arguments Died {A}.

(** ---- interactive.cpp ---- *)

Definition rect := (Z * Z * Z * Z)%type.
(** interactive.cpp:68-72, 77: the handle, the region and the rectangle *)
Record interactive := mkInteractive { v_handle : handle; v_region : option region; v_rect : rect }.
Definition interactive_start (h : handle) : interactive := mkInteractive h None (0, 0, 0, 0).
(** What ends the loop that waits for the user: a click or a key *)
Inductive action := Click (x y : Z) | Key.
(** interactive.cpp:51-64, 107-116: the rectangle, and whether the program goes on *)
Definition user (r : rect) (a : action) : outcome (rect * bool) :=
  let '(x, y, w, h) := r in
  match a with
  | Key => Ok (r, false)
  | Click cx cy => x' <- int_result (cx - Z.quot w 2) ;; y' <- int_result (cy - Z.quot h 2) ;; Ok ((x', y', w, h), true)
  end.
(** interactive.cpp:101-103: the sums computed for the drawings *)
Definition drawings (r : rect) : outcome unit :=
  let '(x, y, w, h) := r in
  _ <- int_result (x + w) ;; _ <- int_result (y + h) ;; _ <- int_result (x + Z.quot w 2) ;; _ <- int_result (y + Z.quot h 2) ;; Ok tt.
(** interactive.cpp:101-119: drawing, showing (which throws without pixels), waiting for the user, the reply *)
Definition interactive_show (f : files) (h : handle) (reg : option region) (r : rect) (im : option image) (a : action) : outcome (pass interactive) :=
  p <- picture f im ;;
  match p with
  | None => Ok Died
  | Some has =>
      _ <- drawings r ;;
      if has then
        u <- user r a ;;
        let '((x, y, w, ht), goes_on) := u in
        b <- cpp_reply h (rect_to_region x y w ht) props_create ;;
        let '(code, h', _) := b in
        Ok (Replied code goes_on (mkInteractive h' reg (x, y, w, ht)))
      else Ok Died
  end.
(** interactive.cpp:81-121: one pass of the loop.  A request to initialize always comes with a region. *)
Definition interactive_pass (f : files) (legacy : bool) (fuel slack : nat) (v : interactive) (a : action) : outcome (pass interactive) :=
  w <- cpp_server_wait fuel slack (v_handle v) (v_region v) props_create ;;
  let '(tr, h, images, reg, _) := w in
  if tr =? TRAX_INITIALIZE then
    match reg with
    | None => UB
    | Some r => q <- region_to_rect legacy r ;; interactive_show f h reg q (color images) a
    end
  else if tr =? TRAX_FRAME then interactive_show f h reg (v_rect v) (color images) a
  else Ok (Ended (mkInteractive h reg (v_rect v))).

(** ---- camshift.cpp ---- *)

(** camshift.cpp:54-57, 65-68: the handle, the region, the state of the tracker and its three parameters *)
Record camshift := mkCamshift { k_handle : handle; k_region : option region; k_object : Z; k_params : Z * Z * Z }.
(** camshift.cpp:84-105, traxpp.cpp:870-874: a request to initialize: the region must be a rectangle; parameters; the first reply *)
Definition camshift_initialize (h : handle) (reg : option region) (p : props) (params : Z * Z * Z) : outcome (handle * (Z * Z * Z)) :=
  match reg with
  | Some (RRect x y w ht) =>
      _ <- int_of_float x ;; _ <- int_of_float y ;; _ <- int_of_float w ;; _ <- int_of_float ht ;;
      let '(vmin, vmax, smin) := params in
      vmin' <- props_get_int p (str "vmin") vmin ;; vmax' <- props_get_int p (str "vmax") vmax ;; smin' <- props_get_int p (str "smin") smin ;;
      b <- cpp_reply h (RRect x y w ht) props_create ;;
      let '(_, h', _) := b in Ok (h', (vmin', vmax', smin'))
  | None => UB
  | _ => Abort
  end.
(** camshift.cpp:122-178: without pixels the loop is left; else the window that OpenCV finds is the reply; None is an exception of OpenCV *)
Definition camshift_track (f : files) (h : handle) (reg : option region) (object : Z) (params : Z * Z * Z) (im : option image) (window : option rect)
  : outcome (pass camshift) :=
  p <- picture f im ;;
  match p, window with
  | Some false, _ => Ok (Ended (mkCamshift h reg object params))
  | Some true, Some (x, y, w, ht) =>
      b <- cpp_reply h (rect_to_region x y w ht) props_create ;;
      let '(code, h', _) := b in Ok (Replied code true (mkCamshift h' reg 1 params))
  | _, _ => Ok Died
  end.
(** camshift.cpp:72-180: one pass of the loop *)
Definition camshift_pass (f : files) (fuel slack : nat) (v : camshift) (window : option rect) : outcome (pass camshift) :=
  w <- cpp_server_wait fuel slack (k_handle v) (k_region v) props_create ;;
  let '(tr, h, images, reg, p) := w in
  if tr =? TRAX_INITIALIZE then
    b <- camshift_initialize h reg p (k_params v) ;; camshift_track f (fst b) reg (-1) (snd b) (color images) window
  else if tr =? TRAX_FRAME then
    if k_object v <? 1 then Ok (Ended (mkCamshift h reg (k_object v) (k_params v)))
    else camshift_track f h reg (k_object v) (k_params v) (color images) window
  else Ok (Ended (mkCamshift h reg (k_object v) (k_params v))).
