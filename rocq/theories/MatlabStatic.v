(** Model of support/tests/static/matlab_static.m, a tracker that reports the region it was given, over the function traxserver of MatlabServer.v.
    Simplifications: time does not pass ([timeout], str2double, which gives NaN for what is no number, and pause only delay the tracker); an error that
    traxserver raises ends the function. *)
From Coq Require Import Floats.SpecFloat.
From Verif Require Import CBase Num Message Handle Matlab MatlabServer.
Local Open Scope Z_scope.

(** A text of the script, and a row of texts *)
Definition chars (s : list N) : mx := MChar 1 (Z.of_nat (List.length s)) s.
Definition texts (l : list (list N)) : mx := MCell 1 (Z.of_nat (List.length l)) (map (fun s => Some (chars s)) l).
(** Matlab's isempty *)
Definition is_empty (a : mx) : bool := get_m a * get_n a =? 0.

(** The state of traxserver, and the variable [memory] *)
Record mstatic := mkMstatic { mt_server : mserver; mt_memory : mx }.
(** A pass of the loop: it goes on, the loop is left, or traxserver raised an error *)
Inductive mpass := Went (t : mstatic) | Broke (t : mstatic) | Raised (s : mserver).
Definition pass_server (p : mpass) : mserver := match p with Went t | Broke t => mt_server t | Raised s => s end.

(** matlab_static.m:5: a statement asks for no outputs *)
Definition static_setup_call (net : option (istream * ostate)) : mcall :=
  mkMcall 0 [chars (str "setup"); chars (str "polygon"); texts [str "path"; str "memory"; str "buffer"]] net.
(** matlab_static.m:13 *)
Definition static_wait_call : mcall := mkMcall 3 [chars (str "wait"); chars (str "PropStruct"); logical true] None.
(** matlab_static.m:30 *)
Definition static_status_call (memory : mx) : mcall := mkMcall 0 [chars (str "status"); memory] None.
(** matlab_static.m:33 *)
Definition static_quit_call : mcall := mkMcall 0 [chars (str "quit")] None.

(** matlab_static.m:1-7: [memory] is [0 0 0 0]; [None] after an error *)
Definition matlab_static_start (fuel slack : nat) (net : option (istream * ostate)) : outcome (mserver * option mstatic) :=
  r <- mex_server fuel slack mserver0 (static_setup_call net) ;;
  let '(s, outs) := r in
  Ok (s, match outs with Some _ => Some (mkMstatic s (MDouble 1 4 (repeat (S754_zero false) 4))) | None => None end).
(** matlab_static.m:30: the report *)
Definition matlab_static_report (fuel slack : nat) (s : mserver) (memory : mx) : outcome mpass :=
  r <- mex_server fuel slack s (static_status_call memory) ;;
  let '(s', outs) := r in
  Ok (match outs with Some _ => Went (mkMstatic s' memory) | None => Raised s' end).
(** matlab_static.m:33: after the loop *)
Definition matlab_static_quit (fuel slack : nat) (s : mserver) (memory : mx) : outcome mpass :=
  r <- mex_server fuel slack s static_quit_call ;;
  let '(s', outs) := r in
  Ok (match outs with Some _ => Broke (mkMstatic s' memory) | None => Raised s' end).
(** matlab_static.m:11-33: one pass of the loop, with what follows it when it is left.  An output that was not set is an error. *)
Definition matlab_static_pass (fuel slack : nat) (t : mstatic) : outcome mpass :=
  w <- mex_server fuel slack (mt_server t) static_wait_call ;;
  let '(s, outs) := w in
  match outs with
  | Some [Some image; Some region; Some properties] =>
      if is_empty image then matlab_static_quit fuel slack s (mt_memory t)
      else matlab_static_report fuel slack s (if is_empty region then mt_memory t else region)
  | _ => Ok (Raised s)
  end.
