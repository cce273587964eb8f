(** Model of the debug messages of the library (src/debug.c, src/debug.h) and of client_setup in a build with them.
    Simplifications: the time functions tic and toc and flushing are left out; the buffer of a stream is its text. *)
From Verif Require Import CBase Num Props Message Handle.
Local Open Scope Z_scope.

(** src/debug.c:20-28: a build without TRAX_DEBUG, with it, and with TRAX_ENABLE_DEBUG too *)
Inductive build := Release | Debugging | DebuggingOn.
(** src/debug.c:11-30 the variables; a stream has a number, standard output is 1 *)
Record debug := mkDebug { d_flag : Z; d_target : option nat; d_length : nat }.
Definition debug_start (b : build) : debug := mkDebug (match b with Release => 0 | Debugging => -1 | DebuggingOn => 1 end) None 0.
(** src/debug.c:32-37 __debug_enable *)
Definition debug_enable (root : list N) (s : debug) : debug :=
  mkDebug 1 (match d_target s with None => Some 1%nat | t => t end) (List.length root).
(** src/debug.c:39-41 __debug_disable *)
Definition debug_disable (s : debug) : debug := mkDebug 0 (d_target s) (d_length s).
(** src/debug.c:43-48 __is_debug_enabled; [variable] says whether TRAX_DEBUG is in the environment *)
Definition is_debug_enabled (variable : bool) (s : debug) : bool * debug :=
  let s := if d_flag s <? 0 then mkDebug (if variable then 1 else 0) (d_target s) (d_length s) else s in
  (negb (d_flag s =? 0), s).
(** src/debug.c:50-52 __debug_set_target *)
Definition debug_set_target (t : option nat) (s : debug) : debug := mkDebug (d_flag s) t (d_length s).

(** A byte of a C string, with the zero at its end *)
Definition byte_of (l : list N) (i : nat) : outcome N :=
  match nth_error l i with
  | Some c => Ok c
  | None => if Nat.eqb i (List.length l) then Ok 0%N else UB
  end.
(** src/debug.c:71-87 __short_file_name, [left] steps before the end of the loop *)
Fixpoint short_loop (root filename : list N) (left position : nat) : outcome (list N) :=
  match left with
  | O => Ok (skipn position filename)
  | S left' =>
      c <- byte_of filename position ;;
      if (c =? 0)%N then Ok filename
      else r <- byte_of root position ;;
           if negb (r =? c)%N then Ok filename else short_loop root filename left' (S position)
  end.
Definition short_file_name (root : list N) (s : debug) (filename : list N) : outcome (list N) := short_loop root filename (d_length s) 0.

(** What is written, and where *)
Definition output := list (nat * list N).
(** src/debug.h:16 DEBUGMSG; printing to NULL is undefined *)
Definition debugmsg (b : build) (variable : bool) (root : list N) (s : debug) (file : list N) (line : Z) (text : list N) : outcome (debug * output) :=
  match b with
  | Release => Ok (s, [])
  | _ =>
      let '(on, s) := is_debug_enabled variable s in
      if on
      then match d_target s with
           | None => UB
           | Some t => name <- short_file_name root s file ;; Ok (s, [(t, name ++ [40%N] ++ print_Z line ++ str "): "); (t, text)])
           end
      else Ok (s, [])
  end.
(** src/trax.c:580-588: the message of a client for an introduction it does not take *)
Definition bad_hello_line (r : read_result) : Z := match rr_type r with Some MHello => 586 | _ => 581 end.
Definition bad_hello_text (r : read_result) : list N :=
  match rr_type r with
  | Some MHello => str "Illegal number of arguments " ++ print_Z (Z.of_nat (List.length (rr_args r))) ++ str ", required more."
  | _ => str "Unable to parse hello message."
  end.
(** src/trax.c:561-643 client_setup with its debug messages; [file] is the path of src/trax.c at compile time *)
Definition client_setup_debug (b : build) (variable : bool) (root file : list N) (s : debug) (st : istream) (o : ostate) : outcome (option handle * debug * output) :=
  h <- client_setup st o ;;
  match h with
  | Some h => Ok (Some h, s, [])
  | None =>
      r <- read_message None st props_create ;;
      d <- debugmsg b variable root s file (bad_hello_line r) (bad_hello_text r) ;;
      Ok (None, fst d, snd d)
  end.
