(** What the client support library should do: the log of a tracker's output, the words of a command, deadlines. *)
From Verif Require Import CBase Lists Support.
Local Open Scope Z_scope.

(** ---- the log ---- *)

(** The complete lines of a text (without their line ends) and what follows the last line end *)
Fixpoint text_lines (l : list N) : list (list N) * list N :=
  match l with
  | [] => ([], [])
  | c :: l' =>
      let '(ls, rest) := text_lines l' in
      if (c =? c_nl)%N then ([] :: ls, rest)
      else match ls with [] => ([], c :: rest) | x :: ls' => ((c :: x) :: ls', rest) end
  end.
(** A line is cut after 255 bytes *)
Definition cut (line : list N) : list N := firstn 255 line.
(** What should be printed for a text: every line, cut; a last line that is cut ends there *)
Definition clipped (l : list N) : list N :=
  let '(ls, rest) := text_lines l in
  concat (map (fun x => cut x ++ [c_nl]) ls) ++ cut rest ++ (if (255 <? List.length rest)%nat then [c_nl] else []).
(** No line has more than 2147483646 bytes, so that its bytes can be counted *)
Definition lines_fit (l : list N) : Prop :=
  let '(ls, rest) := text_lines l in Forall (fun x => Z.of_nat (List.length x) < INT_MAX) (rest :: ls).

(** What happens to the two streams ([err] true: standard error): bytes arrive, the stream is flushed *)
Inductive logop := LBytes (err : bool) (l : list N) | LFlush (err : bool).
Definition run_logop (l : logger) (o : logop) : outcome logger :=
  match o with LBytes err t => log_bytes err l t | LFlush err => log_flush err l end.
Fixpoint run_log (l : logger) (ops : list logop) : outcome logger :=
  match ops with [] => Ok l | o :: ops' => l' <- run_logop l o ;; run_log l' ops' end.
(** The bytes that arrived on a stream *)
Fixpoint arrived (err : bool) (ops : list logop) : list N :=
  match ops with
  | [] => []
  | LBytes e t :: ops' => (if Bool.eqb e err then t else []) ++ arrived err ops'
  | LFlush _ :: ops' => arrived err ops'
  end.
(** The bytes printed for a stream *)
Fixpoint printed (err : bool) (w : list (bool * list N)) : list N :=
  match w with [] => [] | (e, t) :: w' => (if Bool.eqb e err then t else []) ++ printed err w' end.
(** The bytes waiting in the buffer of a stream *)
Definition waiting (err : bool) (l : logger) : list N := firstn (Z.to_nat (lb_position (log_side err l))) (lb_cells (log_side err l)).
(** Just reset, nothing printed yet; the contents of the arrays are arbitrary *)
Definition fresh_logger (l : logger) : Prop :=
  written l = [] /\ forall err, Z.of_nat (List.length (lb_cells (log_side err l))) = LOGGER_BUFFER_SIZE /\ lb_position (log_side err l) = 0 /\ lb_length (log_side err l) = 0.

(** A piece of text that is one line, cut *)
Definition one_line (t : list N) : Prop := exists x, ~ In c_nl x /\ t = cut x ++ [c_nl].
Definition no_flush (o : logop) : Prop := match o with LBytes _ _ => True | LFlush _ => False end.

(** ---- commands ---- *)

(** A word is written plainly or between quotes *)
Inductive item := Plain (w : list N) | Quoted (w : list N).
Definition word_of (i : item) : list N := match i with Plain w => w | Quoted w => w end.
Definition item_text (i : item) : list N := match i with Plain w => w | Quoted w => [c_quote] ++ w ++ [c_quote] end.
(** Words that can be written so: plain ones are not empty, contain no space and do not begin with a quote; quoted ones contain
    no quote and do not end with an apostrophe.  Both have at most 1023 bytes. *)
Definition item_ok (i : item) : Prop :=
  (List.length (word_of i) <= 1023)%nat /\
  match i with
  | Plain w => ~ In c_sp w /\ match w with [] => False | c :: _ => c <> c_quote end
  | Quoted w => ~ In c_quote w /\ last w 0%N <> c_apos
  end.
(** A command: the items, each after [n] spaces, at least one between two items, and at most one space at the end *)
Fixpoint command_text (items : list (nat * item)) (trailing : bool) : list N :=
  match items with
  | [] => if trailing then [c_sp] else []
  | (n, i) :: items' => repeat c_sp n ++ item_text i ++ command_text items' trailing
  end.
Definition command_ok (items : list (nat * item)) : Prop :=
  items <> [] /\ Forall (fun p => item_ok (snd p)) items /\ Forall (fun p => (1 <= fst p)%nat) (tl items).

(** An argument that the command-line client can pass on *)
Definition quotable (a : list N) : Prop := (List.length a <= 1023)%nat /\ ~ In c_quote a /\ last a 0%N <> c_apos.

(** ---- deadlines ---- *)

(** A valid time value *)
Definition valid_time (t : Z * Z) : Prop := 0 <= snd t < 1000000000.
(** A time value in nanoseconds *)
Definition nanoseconds (t : Z * Z) : Z := fst t * 1000000000 + snd t.
