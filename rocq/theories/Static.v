(** Model of the example tracker support/tests/static/native_static.c, in the form for several objects (without TRAX_LEGACY_SINGLE).
    Simplifications: the program's own texts on its output streams and the time it sleeps are left out. *)
From Verif Require Import CBase StrMap Props Num PropsNum Message Region Image Formats Handle Lists.
Local Open Scope Z_scope.

(** native_static.c:70-78, 89-90: the channels depend on two environment variables *)
Definition static_metadata (depth ir : bool) : outcome metadata :=
  let channels := Z.lor (Z.lor TRAX_CHANNEL_COLOR (if depth then TRAX_CHANNEL_DEPTH else 0)) (if ir then TRAX_CHANNEL_IR else 0) in
  metadata_create 14 15 channels (Some (str "Static")) (Some (str "Static demo tracker")) (Some (str "Demo")) (Some TRAX_METADATA_MULTI_OBJECT).

(** The variables of the program: the handle, the objects to report, the time to wait; [sc_live] counts the dictionaries that were
    created and not released. *)
Record static := mkStatic { sc_handle : handle; sc_mem : option object_list; sc_wait : spec_float; sc_live : nat }.
Definition static_start (h : handle) : static := mkStatic h None (S754_zero false) 0.

(** src/trax.c:2112-2132 trax_object_list_append for two different lists: copies of the objects are added at the end *)
Fixpoint static_append (mem new : object_list) : outcome object_list :=
  match new with
  | [] => Ok mem
  | (r, p) :: l => d <- copy_properties p props_create ALL_OVERWRITE ;; static_append (mem ++ [(r, d)]) l
  end.

(** What trax_server_wait gave to the program *)
Record got := mkGot { gt_event : Z; gt_images : option image_list; gt_objects : option object_list; gt_props : props }.

(** native_static.c:106-118: a new dictionary, then the wait *)
Definition static_wait (fuel slack : nat) (t : static) : outcome (got * static) :=
  w <- server_wait_mot fuel slack (sc_handle t) None (Some props_create) ;;
  let '(event, h, images, objects, p) := w in
  match p with
  | Some p => Ok (mkGot event images objects p, mkStatic h (sc_mem t) (sc_wait t) (S (sc_live t)))
  | None => UB
  end.

(** native_static.c:122-138: the request is TRAX_INITIALIZE; append asserts that there are objects *)
Definition static_initialize (g : got) (t : static) : outcome (Z * static) :=
  w <- props_get_float (gt_props g) (str "time_wait") (S754_zero false) ;;
  match gt_objects g with
  | None => Abort
  | Some new =>
      mem <- static_append [] new ;;
      b <- server_reply_mot (sc_handle t) mem ;;
      Ok (fst b, mkStatic (snd b) (Some mem) w (sc_live t))
  end.
(** native_static.c:156: append asserts that there is a list *)
Definition static_new_objects (mem new : option object_list) : outcome (option object_list) :=
  match new with
  | None => Ok mem
  | Some l => match mem with Some m => m' <- static_append m l ;; Ok (Some m') | None => Abort end
  end.
(** native_static.c:145-158: the request is TRAX_FRAME; a reply with no list reads from NULL *)
Definition static_frame (g : got) (t : static) : outcome (Z * static) :=
  mem <- static_new_objects (sc_mem t) (gt_objects g) ;;
  match mem with
  | None => UB
  | Some m => b <- server_reply_mot (sc_handle t) m ;; Ok (fst b, mkStatic (snd b) (Some m) (sc_wait t) (sc_live t))
  end.
(** native_static.c:165-173: anything else ends the loop; only here the dictionary is released *)
Definition static_quit (t : static) : static := mkStatic (sc_handle t) (sc_mem t) (sc_wait t) (sc_live t - 1).

(** native_static.c:119-173: the result of the reply, or None when the loop ends *)
Definition static_answer (g : got) (t : static) : outcome (option Z * static) :=
  if gt_event g =? TRAX_INITIALIZE then r <- static_initialize g t ;; Ok (Some (fst r), snd r)
  else if gt_event g =? TRAX_FRAME then r <- static_frame g t ;; Ok (Some (fst r), snd r)
  else Ok (None, static_quit t).

(** native_static.c:193-203: at the end of the program trax_cleanup *)
Definition static_end (t : static) : outcome (ostate * nat) := o <- cleanup (sc_handle t) ;; Ok (o, sc_live t).
