(** Model of the log file (src/trax.c:81-108): file_logger over the buffered file of the C library, called as PyText's [log_call]s say.
    Simplifications: the C library may write any part of what it holds at any fwrite; what a full disk does not take is held back. *)
From Verif Require Import CBase Props Message PyText.
Local Open Scope nat_scope.

(** A FILE opened for writing: what is on the disk, what the C library still holds, and how many bytes the disk takes. *)
Record lfile := mkFile { on_disk : list N; held : list N; room : nat }.
(** The C library passes up to [n] of the bytes it holds to the disk. *)
Definition pass (n : nat) (f : lfile) : lfile :=
  let m := Nat.min n (Nat.min (List.length (held f)) (room f)) in
  mkFile (on_disk f ++ firstn m (held f)) (skipn m (held f)) (room f - m).
(** src/trax.c:86 fwrite: the bytes are held, and some of those held go to the disk. *)
Definition fwrite (n : nat) (bytes : list N) (f : lfile) : lfile := pass n (mkFile (on_disk f) (held f ++ bytes) (room f)).
(** src/trax.c:88 fflush *)
Definition fflush (f : lfile) : lfile := pass (List.length (held f)) f.
(** src/trax.c:81-89 file_logger; [n] is what the C library passes on if it writes *)
Definition file_logger (data : option lfile) (c : log_call) (n : nat) : outcome (option lfile) :=
  match data with
  | None => Ok None
  | Some f =>
      match c with
      | LogPiece memory length => if length <=? List.length memory then Ok (Some (fwrite n (firstn length memory) f)) else UB
      | LogFlush => Ok (Some (fflush f))
      end
  end.
(** src/trax.c:90-102: what trax_no_log and trax_logger_setup tell the library: the callback, if any *)
Inductive logging := NoLog | LogTo (data : option lfile).
(** src/trax.c:104-108 trax_logger_setup_file *)
Definition logger_setup_file (file : option lfile) : logging := LogTo file.
(** src/message.h:67-69 LOG_STRING, LOG_BUFFER and LOG_CHAR: nothing without a callback *)
Fixpoint log_all (l : logging) (calls : list (log_call * nat)) : outcome logging :=
  match calls with
  | [] => Ok l
  | (c, n) :: calls' =>
      match l with
      | NoLog => log_all NoLog calls'
      | LogTo data => data' <- file_logger data c n ;; log_all (LogTo data') calls'
      end
  end.
(** src/message.c:625-662 and 659: the call of the callback for a buffer, if the stream took all of it *)
Definition buffer_calls (o : ostate) (buf : list N) : list log_call :=
  match buf with
  | [] => []
  | _ => let '(_, _, ok) := write_all (o_sched o) buf in if ok : bool then [LogPiece buf (List.length buf)] else []
  end.
(** src/message.c:664-700: those of an OUTPUT macro *)
Fixpoint output_calls (o : ostate) (chunks : list (list N)) : list log_call :=
  match chunks with
  | [] => []
  | b :: chunks' => let (o', ok) := write_buffer o b in buffer_calls o b ++ (if ok : bool then output_calls o' chunks' else [])
  end.
Fixpoint outputs_calls (o : ostate) (outs : list (list (list N))) : list log_call :=
  match outs with [] => [] | x :: outs' => output_calls o x ++ outputs_calls (run_output o x) outs' end.
(** src/message.c:720-778: those of write_message over a stream that may fail; line 776 is the flush *)
Definition write_calls (o : ostate) (t : mtype) (args : list (list N)) (p : props) : list log_call :=
  outputs_calls o (message_outputs t args p) ++ [LogFlush].
