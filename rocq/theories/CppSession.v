(** Model of the session functions of the C++ classes Client, ServerMOT and ServerSOT in src/traxpp.cpp for one object, over the handles of Handle.v.
    Simplifications: objects are values (their sharing is in Wrap.v); handles are set and regions given are not empty; variables for images are fresh. *)
From Verif Require Import CBase Props Region RegionGeom Image Formats Message Handle.
Local Open Scope Z_scope.

(** ---- Client ---- *)

(** traxpp.cpp:347-360 Client::initialize with a region: a list of one object without properties *)
Definition cpp_initialize (legacy : bool) (h : handle) (images : image_list) (r : region) (p : props) : outcome (Z * handle) :=
  c <- region_clone r ;; client_initialize legacy h images [(c, props_create)] (Some p).
(** traxpp.cpp:369-374 Client::frame without objects *)
Definition cpp_frame (legacy : bool) (h : handle) (images : image_list) (p : props) : outcome (Z * handle) := client_frame legacy h images None (Some p).
(** The dictionary a function was given is still there *)
Definition dictionary (p : option props) : props := match p with Some p => p | None => props_create end.
(** traxpp.cpp:312-322, 452-460: one object gives a region and its properties, several are an error; [reg] and [p] are the caller's variables *)
Definition single_object (result : Z) (h : handle) (objects : option object_list) (reg : option region) (p : props) : outcome (Z * handle * option region * props) :=
  match objects with
  | None | Some [] => Ok (result, h, reg, p)
  | Some [(r, q)] => c <- region_clone r ;; d <- props_append q p false ;; Ok (result, h, Some c, d)
  | Some _ => Ok (TRAX_ERROR, h, reg, p)
  end.
(** traxpp.cpp:300-328 Client::wait with a region *)
Definition cpp_client_wait (h : handle) (reg : option region) (p : props) : outcome (Z * handle * option region * props) :=
  x <- client_wait h (Some p) ;;
  let '(result, h', objects, p') := x in
  single_object result h' objects reg (dictionary p').

(** ---- Servers ---- *)

Definition cpp_seen := (Z * handle * option image_list * option region * props)%type.
(** traxpp.cpp:434-464 ServerMOT::wait with a region *)
Definition cpp_server_wait (fuel slack : nat) (h : handle) (reg : option region) (p : props) : outcome cpp_seen :=
  x <- server_wait_mot fuel slack h None (Some p) ;;
  let '(result, h', images, objects, p') := x in
  y <- single_object result h' objects reg (dictionary p') ;;
  let '(result', h'', reg', p'') := y in
  Ok (result', h'', images, reg', p'').
(** traxpp.cpp:466-480 ServerMOT::reply with a region: code, handle, and the caller's dictionary.
    The properties of the new object, which are empty, are appended to the dictionary given, not the other way round. *)
Definition cpp_reply (h : handle) (r : region) (p : props) : outcome (Z * handle * props) :=
  c <- region_clone r ;;
  q <- props_append props_create p false ;;
  x <- server_reply_mot h [(c, props_create)] ;;
  Ok (fst x, snd x, q).
(** traxpp.cpp:393-414 ServerSOT::wait *)
Definition cpp_sot_wait (slack : nat) (h : handle) (reg : option region) (p : props) : outcome cpp_seen :=
  x <- server_wait_sot slack h None None (Some p) ;;
  let '(result, h', images, r, p') := x in
  Ok (result, h', images, match r with Some r => Some r | None => reg end, dictionary p').
(** traxpp.cpp:416-422 ServerSOT::reply *)
Definition cpp_sot_reply (h : handle) (r : region) (p : props) : outcome (Z * handle * props) :=
  x <- server_reply_sot h r (Some p) ;; Ok (fst x, snd x, p).

(** ---- Both ---- *)

(** traxpp.cpp:267-270 Handle::terminate *)
Definition cpp_terminate (h : handle) (reason : list N) : outcome (bool * handle) :=
  x <- terminate h (Some (c_string reason)) ;; Ok (fst x =? TRAX_OK, snd x).
