(** Model of parts of the client support library: the output logger (support/client/client.cpp), the splitting of tracker
    commands (support/client/process.cpp) and the deadline of timed waits (support/client/threads.cpp). *)
From Verif Require Import CBase Handle Lists.
Local Open Scope Z_scope.

(** ---- the output logger ---- *)

(** support/client/client.cpp:81 *)
Definition LOGGER_BUFFER_SIZE : Z := 1024.
(** support/client/client.cpp:150-156 line_buffer.  [lb_cells] are the bytes of the array. *)
Record line_buffer := mkLine { lb_cells : list N; lb_position : Z; lb_length : Z }.
(** support/client/client.cpp:158 RESET_LINE_BUFFER.  The array keeps its contents. *)
Definition reset_line (b : line_buffer) : line_buffer := mkLine (lb_cells b) 0 0.
(** support/client/client.cpp:160-177 line_buffer_push.  Simplification: [truncate] is positive ([line_truncate] is always 256);
    the overflow of [length] is undefined behaviour. *)
Definition line_buffer_push (b : line_buffer) (chr : N) (truncate : Z) : outcome (line_buffer * bool) :=
  let n := lb_length b + 1 in
  if negb (in_int n) then UB else
  b' <- (if truncate <=? n then
           if n =? truncate then
             c <- put_cell (lb_cells b) (lb_position b) c_nl ;; Ok (mkLine c (lb_position b + 1) n)
           else Ok (mkLine (lb_cells b) (lb_position b) n)
         else c <- put_cell (lb_cells b) (lb_position b) chr ;; Ok (mkLine c (lb_position b + 1) n)) ;;
  let flush := (lb_position b' =? LOGGER_BUFFER_SIZE - 1) || (chr =? c_nl)%N in
  Ok (mkLine (lb_cells b') (lb_position b') (if (chr =? c_nl)%N then 0 else n), flush).
(** support/client/client.cpp:179-191 line_buffer_flush; the bytes written to the stream *)
Definition line_buffer_flush (b : line_buffer) : outcome (line_buffer * list N) :=
  c <- put_cell (lb_cells b) (lb_position b) 0%N ;;
  Ok (mkLine c 0 (lb_length b), firstn (Z.to_nat (lb_position b)) c).

(** The two buffers of TrackerProcess::State and what has been written to the log stream, each piece with the buffer it came
    from (true: stderr). *)
Record logger := mkLogger { out_buffer : line_buffer; err_buffer : line_buffer; written : list (bool * list N) }.
(** support/client/client.cpp:466-476 reset_logger *)
Definition line_truncate : Z := 256.
Definition reset_logger (l : logger) : logger := mkLogger (reset_line (out_buffer l)) (reset_line (err_buffer l)) (written l).
Definition log_side (err : bool) (l : logger) : line_buffer := if err then err_buffer l else out_buffer l.
Definition set_log (err : bool) (l : logger) (b : line_buffer) (w : list (bool * list N)) : logger :=
  if err then mkLogger (out_buffer l) b (written l ++ w) else mkLogger b (err_buffer l) (written l ++ w).
Definition log_flush (err : bool) (l : logger) : outcome logger :=
  r <- line_buffer_flush (log_side err l) ;; let '(b, text) := r in Ok (set_log err l b [(err, text)]).
(** One byte: the loop body 665-677 of client_logger for the standard output, 617-637 of logger_loop for the standard error.
    Simplification: verbosity is not VERBOSITY_SILENT; pushing a byte and flushing are not interleaved with the other thread
    (the two threads use different buffers, and the stream is protected by logger_mutex). *)
Definition log_byte (err : bool) (l : logger) (chr : N) : outcome logger :=
  r <- line_buffer_push (log_side err l) chr line_truncate ;;
  let '(b, flush) := r in
  let l' := set_log err l b [] in
  if flush : bool then log_flush err l' else Ok l'.
Fixpoint log_bytes (err : bool) (l : logger) (chrs : list N) : outcome logger :=
  match chrs with [] => Ok l | c :: chrs' => l' <- log_byte err l c ;; log_bytes err l' chrs' end.

(** ---- splitting commands ---- *)

(** support/client/process.cpp:64-82, the loop of __next_token: [rest] is the string from index [i] on, [prev] the byte before it
    (only used when i is not the start).  The results are s, e, i and quotes at the end of the loop; None stands for -1. *)
Definition c_apos : N := 39.
Fixpoint token_loop (rest : list N) (i : nat) (prev : option N) (s : option nat) (quotes : bool) : option nat * option nat * nat * bool :=
  match rest with
  | [] => (s, None, i, quotes)
  | c :: rest' =>
      match s with
      | None =>
          if (c =? c_sp)%N then token_loop rest' (S i) (Some c) None quotes
          else if (c =? c_quote)%N then token_loop rest' (S i) (Some c) (Some (S i)) true
          else token_loop rest' (S i) (Some c) (Some i) quotes
      | Some _ =>
          if (negb quotes && (c =? c_sp)%N) ||
             (quotes && (c =? c_quote)%N && match prev with None => true | Some p => negb (p =? c_apos)%N end)
          then (s, Some i, i, quotes)
          else token_loop rest' (S i) (Some c) s quotes
      end
  end.
(** support/client/process.cpp:57-98 __next_token.  The result is the token and the next position, None for -1. *)
Definition next_token (command : list N) (start len : nat) : outcome (option (list N * nat)) :=
  if (List.length command <? start)%nat then UB
  else
    match token_loop (skipn start command) start None None false with
    | (None, _, _, _) => Ok None
    | (Some s, e, i, quotes) =>
        match (match e with Some e => Some e | None => if quotes then None else Some i end) with
        | None => Ok None
        | Some e =>
            if (len - 1 <? e - s)%nat then Ok None
            else if (List.length command + 1 <? e - s + 1)%nat then UB   (* the buffer of the caller *)
            else Ok (Some (firstn (e - s) (skipn s command),
                           if (e =? List.length command)%nat then e else if quotes then (e + 2)%nat else (e + 1)%nat))
        end
    end.
(** support/client/process.cpp:108-131, the loop of parse_command; [fuel] bounds the number of iterations *)
Fixpoint parse_loop (fuel : nat) (command : list N) (position : nat) (tokens : list (list N)) : outcome (option (list (list N))) :=
  match fuel with
  | O => NoFuel
  | S fuel' =>
      t <- next_token command position 1024 ;;
      match t with
      | None => Ok None
      | Some (token, position') =>
          if (List.length command <=? List.length tokens)%nat then UB   (* tokens[i++] behind the array *)
          else
            let tokens' := tokens ++ [token] in
            if (List.length command <=? position')%nat then Ok (Some tokens') else parse_loop fuel' command position' tokens'
      end
  end.
(** support/client/process.cpp:100-142 parse_command; None: NULL *)
Definition parse_command (command : list N) : outcome (option (list (list N))) :=
  parse_loop (S (List.length command)) command 0 [].
(** support/client/process.cpp:145-161 Process::Process: the words of the command.  NULL is dereferenced. *)
Definition process_words (command : list N) : outcome (list (list N)) :=
  t <- parse_command command ;; match t with None => UB | Some words => Ok words end.
(** support/client/cli.cpp:525-533: the command made of the arguments of the command-line client *)
Definition cli_command (arguments : list (list N)) : list N :=
  concat (map (fun a => [c_sp; c_quote] ++ a ++ [c_quote; c_sp]) arguments).

(** ---- timed waits ---- *)

(** support/client/threads.cpp:60-69: the deadline passed to pthread_cond_timedwait for the time of day [sec], [usec] *)
Definition deadline (sec usec milisec : Z) : Z * Z :=
  let usec := usec + milisec * 1000 in
  let '(sec, usec) := if 1000000 <? usec then (sec + 1, usec - 1000000) else (sec, usec) in
  (sec, 1000 * usec).
