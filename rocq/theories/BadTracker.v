(** Model of the test tracker support/tests/bad/badtracker.cpp, which dies on purpose.
    Simplifications: its texts on the error stream are left out; the signals it raises have their default actions, so the process ends
    where it raises one; objects are values (their sharing is in Wrap.v). *)
From Verif Require Import CBase StrMap Props Num PropsNum Message Region Image Formats Handle Lists.
Local Open Scope Z_scope.

(** badtracker.cpp:11 with the defaults of include/trax.h:745-747 and src/traxpp.cpp:123-133: color images, no texts, one object *)
Definition bad_metadata : outcome metadata := metadata_create TRAX_REGION_RECTANGLE 15 TRAX_CHANNEL_COLOR None None None (Some 0).

(** The variables of the program: the handle, [memory] (None: a list that was never filled), [timetobreak] and [breaktype] *)
Record bad := mkBad { bd_handle : handle; bd_memory : option object_list; bd_time : Z; bd_type : Z }.
(** badtracker.cpp:13-16; [time] is the random number *)
Definition bad_start (h : handle) (time : Z) : bad := mkBad h None time 1.

(** The default case of the switch calls abort *)
Inductive signal := SIGABRT | SIGSEGV | SIGUSR1.
(** After a pass of the loop: it goes on, or the loop was left, or the process was killed *)
Inductive fate := GoesOn | Leaves | Killed (by_signal : signal).

(** src/traxpp.cpp:1084-1094 Properties::get with a text *)
Definition get_text (p : props) (key def : list N) : outcome (list N) :=
  v <- props_get p key ;; Ok (match v with Some t => t | None => def end).
(** src/traxpp.cpp:504-510 ServerMOT::reply with a list; a list that was never filled is NULL *)
Definition cpp_reply_list (h : handle) (objects : option object_list) : outcome (Z * handle) :=
  match objects with Some l => server_reply_mot h l | None => UB end.

(** badtracker.cpp:30-36 *)
Definition break_type (type : list N) : Z :=
  if bytes_eqb type (str "sigsegv") then 2 else if bytes_eqb type (str "sigusr1") then 3 else 1.
(** badtracker.cpp:54-66 *)
Definition bad_signal (type : Z) : signal := if type =? 1 then SIGABRT else if type =? 2 then SIGSEGV else if type =? 3 then SIGUSR1 else SIGABRT.
(** badtracker.cpp:49-68: the countdown; decrementing the smallest integer is undefined *)
Definition bad_countdown (t : bad) : outcome (fate * bad) :=
  time <- int_result (bd_time t - 1) ;;
  let t' := mkBad (bd_handle t) (bd_memory t) time (bd_type t) in
  Ok (if time <=? 0 then Killed (bad_signal (bd_type t)) else GoesOn, t').
(** badtracker.cpp:27-41: the request is TRAX_INITIALIZE *)
Definition bad_initialize (objects : option object_list) (p : props) (t : bad) : outcome bad :=
  time <- props_get_int p (str "break_time") 5 ;;
  type <- get_text p (str "break_type") (str "sigabrt") ;;
  b <- cpp_reply_list (bd_handle t) objects ;;
  Ok (mkBad (snd b) objects time (break_type type)).
(** badtracker.cpp:42-45: the request is TRAX_FRAME *)
Definition bad_frame (t : bad) : outcome bad :=
  b <- cpp_reply_list (bd_handle t) (bd_memory t) ;; Ok (mkBad (snd b) (bd_memory t) (bd_time t) (bd_type t)).
(** badtracker.cpp:20-24, src/traxpp.cpp:482-502: the wait, with new variables for what it gives *)
Record request := mkRequest { rq_event : Z; rq_objects : option object_list; rq_props : props }.
Definition bad_wait (fuel slack : nat) (t : bad) : outcome (request * bad) :=
  w <- server_wait_mot fuel slack (bd_handle t) None (Some props_create) ;;
  let '(event, h, _, objects, p) := w in
  match p with
  | Some p => Ok (mkRequest event objects p, mkBad h (bd_memory t) (bd_time t) (bd_type t))
  | None => UB
  end.
(** badtracker.cpp:27-68 *)
Definition bad_answer (q : request) (t : bad) : outcome (fate * bad) :=
  if rq_event q =? TRAX_INITIALIZE then t' <- bad_initialize (rq_objects q) (rq_props q) t ;; bad_countdown t'
  else if rq_event q =? TRAX_FRAME then t' <- bad_frame t ;; bad_countdown t'
  else Ok (Leaves, t).
