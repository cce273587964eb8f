(** Specification for the log file (C136). *)
From Verif Require Import CBase Props Message MessageSpec PyText FileLog.

(** What a handle does with its stream: it sends a message, or it receives these characters up to the end of a message. *)
Inductive exchange := Sends (t : mtype) (args : list (list N)) (p : props) | Receives (chars : list N).
(** The bytes of the exchange on the stream *)
Definition bytes_of (e : exchange) : list N := match e with Sends t args p => wire t args (props_enum p) | Receives chars => chars end.
(** The calls of the log callback for it *)
Definition calls_of (e : exchange) : list log_call := match e with Sends t args p => sent_calls t args p | Receives chars => received_calls [] chars end.
Definition prefix_of (a b : list N) : Prop := exists r, b = a ++ r.
(** [part_of a b]: [a] is [b] with some of its elements left out. *)
Inductive part_of : list N -> list N -> Prop :=
| part_nil : part_of [] []
| part_keep c a b : part_of a b -> part_of (c :: a) (c :: b)
| part_skip c a b : part_of a b -> part_of a (c :: b).
(** Messages sent one after the other over a stream: the stream afterwards, the calls of the log callback, and the bytes the messages have. *)
Definition message := (mtype * list (list N) * props)%type.
Fixpoint stream_after (o : ostate) (ms : list message) : ostate :=
  match ms with [] => o | (t, args, p) :: ms' => stream_after (write_message o t args p) ms' end.
Fixpoint calls_over (o : ostate) (ms : list message) : list log_call :=
  match ms with [] => [] | (t, args, p) :: ms' => write_calls o t args p ++ calls_over (write_message o t args p) ms' end.
Definition text_of (ms : list message) : list N := flat_map (fun m => let '(t, args, p) := m in wire t args (props_enum p)) ms.
