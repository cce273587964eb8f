(** Memory of the Python bindings (support/python/trax): wrapper objects own structures of the C library and release them when they are
    collected.  A structure is a block or several (Blocks.v); the dictionaries and strings of Python itself are left out.  A local variable
    of a method is released before the method returns; where an exception is raised, its traceback may keep it a while longer. *)
From Verif Require Import CBase Message Handle Blocks.
Local Open Scope Z_scope.

(** A call of the C function behind a logger: the callback object must still be there; None: no logger *)
Definition log (thunk : option nat) : mm unit := match thunk with Some t => touch t | None => mret tt end.
(** __init__.py:281-334: trax_properties_get gives a copy that nobody frees (_ctypes.py:1133: the result is converted to bytes) *)
Definition properties_get (p : nat) (present : bool) : mm unit := touch p ;;; _ <-- new_if present ;; mret tt.
(** __init__.py:347-364 wrap_images: the list refers to the images of the dictionary *)
Definition wrap_images (given : list (option img)) : mm ilist :=
  l <-- new_ilist (List.length given) ;; mret (mkIlist (il_block l) given).
(** __init__.py:377-380: each object, with its Properties *)
Fixpoint fill_objects (i : nat) (objects : list rgn) (ol : olist) : mm olist :=
  match objects with
  | [] => mret ol
  | r :: objects => p <-- new ;; ol <-- set_olist ol i (Some r) ;; touch p ;;; free p ;;; fill_objects (S i) objects ol
  end.
(** __init__.py:366-382 wrap_objects *)
Definition wrap_objects (objects : list rgn) : mm olist := ol <-- new_olist (List.length objects) ;; fill_objects 0 objects ol.
(** __init__.py:325-345 wrap_object_list: copies of the regions; no object for NULL *)
Fixpoint wrap_regions (l : list (option rgn * nat)) : mm (list rgn) :=
  match l with
  | [] => mret []
  | o :: l => touch (snd o) ;;; c <-- clone_region (fst o) ;; k <-- wrap_regions l ;; mret (match c with Some r => r :: k | None => k end)
  end.
Definition wrap_object_list (ol : olist) : mm (list rgn) := touch (ol_block ol) ;;; wrap_regions (ol_objects ol).
(** __init__.py:306-323 wrap_image_list: the images themselves *)
Fixpoint given_images (l : list (option img)) : list img :=
  match l with [] => [] | Some i :: l => i :: given_images l | None :: l => given_images l end.
Definition wrap_image_list (il : ilist) : mm (list img) := touch (il_block il) ;;; mret (given_images (il_images il)).

(** ---- Setting up ---- *)

(** server.py:47-87 Server.__init__; [bad]: a key of the metadata that is no string (line 70 raises) *)
Definition server_init (logger bad : bool) (v4 multi : bool) (channels : list bool) (regions : list rkind) (strings : list bool) : mm (option (option nat * conn)) :=
  t <-- new_if logger ;; d <-- new_mdata strings ;;
  if bad then free_opt t ;;; mret None
  else s <-- new ;; log t ;;; h <-- setup_server d s v4 multi channels regions ;; release_mdata d ;;; mret (Some (t, h)).
(** client.py:32-97 Client.__init__; [interrupted]: the logger was interrupted (line 72) *)
Definition client_init (logger interrupted : bool) (v4 multi : bool) (channels : list bool) (regions : list rkind) (g : hello) : mm (option (option nat * conn)) :=
  t <-- new_if logger ;; s <-- new ;; log t ;;; c <-- setup_client s v4 multi channels regions g ;;
  match c with
  | None => free_opt t ;;; mret None
  | Some h => if interrupted : bool then free_opt t ;;; mret None else mret (Some (t, h))
  end.
(** __init__.py:293-303 HandleWrapper: the finalizer is trax_cleanup *)
Definition drop_handle (thunk : option nat) (h : conn) : mm unit := (if c_dead h then mret tt else log thunk) ;;; cleanup h.
(** A Server or Client that is collected: its attributes go in the order in which they were set, the logger (server.py:53, client.py:50) before the
    handle (server.py:87, client.py:83) *)
Definition delete (thunk : option nat) (handle : option conn) : mm unit :=
  free_opt thunk ;;; match handle with Some h => drop_handle thunk h | None => mret tt end.

(** ---- Methods ---- *)

(** client.py:154-209 Client.initialize ([first]) and 211-269 Client.frame; [reason]: a quit message comes with a reason (lines 198, 262) *)
Definition client_send (thunk : option nat) (first reason : bool) (h : conn) (given : list (option img)) (objects : list rgn) (l : list amsg)
  : mm (conn * list rgn * list amsg) :=
  il <-- wrap_images given ;; ol <-- wrap_objects objects ;; tp <-- new ;; log thunk ;;;
  r <-- (if first then initialize h il ol else frame h il (Some ol)) ;;
  if fst r =? TRAX_ERROR then release_ilist il ;;; release_olist ol ;;; free tp ;;; mret (snd r, [], l)
  else
    release_olist ol ;;; p <-- new ;; log thunk ;;; w <-- await_states (snd r) l ;;
    let '(code, h, tobjects, l) := w in
    k <-- (if (code =? TRAX_ERROR) then mret []
           else if code =? TRAX_QUIT then properties_get p reason ;;; mret []
           else match tobjects with Some ol => wrap_object_list ol | None => mfail UB end) ;;
    release_ilist il ;;; free tp ;;; free p ;;; (match tobjects with Some ol => release_olist ol | None => mret tt end) ;;;
    mret (h, k, l).
(** server.py:89-125 Server.wait: the images, regions and Properties of the request, if there is one.  With quit nothing is done about
    the objects (line 102) *)
Definition server_wait (thunk : option nat) (h : conn) (l : list amsg) : mm (conn * (list img * list rgn * list nat) * list amsg) :=
  p <-- new ;; log thunk ;;; w <-- wait_mot h None l ;;
  let '(code, h, timage, tobjects, l) := w in
  if code =? TRAX_QUIT then mret (h, ([], [], [p]), l)
  else if code =? TRAX_INITIALIZE then
    match timage, tobjects with
    | Some il, Some ol =>
        i <-- wrap_image_list il ;; r <-- wrap_object_list ol ;; release_ilist il ;;; release_olist ol ;;; mret (h, (i, r, [p]), l)
    | _, _ => mfail UB
    end
  else if code =? TRAX_FRAME then
    match timage with
    | Some il =>
        i <-- wrap_image_list il ;; release_ilist il ;;;
        r <-- (match tobjects with Some ol => r <-- wrap_object_list ol ;; release_olist ol ;;; mret r | None => mret [] end) ;;
        mret (h, (i, r, [p]), l)
    | None => mfail UB
    end
  else free p ;;; mret (h, ([], [], []), l).
(** server.py:127-146 Server.status *)
Definition server_status (thunk : option nat) (h : conn) (objects : list rgn) : mm conn :=
  tp <-- new ;; ol <-- wrap_objects objects ;; log thunk ;;; r <-- reply_mot h ol ;; release_olist ol ;;; free tp ;;; mret (snd r).
(** server.py:160-174 Server.quit: the handle goes; client.py:276-288 Client.quit keeps it *)
Definition session_quit (thunk : option nat) (h : conn) : mm (option conn) :=
  (if c_dead h then mret tt else log thunk) ;;; h <-- end_session h ;;
  if c_server h then drop_handle thunk h ;;; mret None else mret (Some h).
