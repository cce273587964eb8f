(** Properties C44, C45 and C47: the client's log of a tracker's output, tracker commands, timed waits. *)
From Verif Require Import CBase Lists Support SupportSpec SupportProofs CommandProofs.
Local Open Scope Z_scope.

(** C44, partial: however the output of the tracker is split into chunks and flushed, what is printed for each of its two streams,
    followed by what waits in the buffer, is the text with its lines cut.
    Missing: lines of 2147483647 bytes and more, and the reset of the buffers (false, below). *)
Theorem log_complete_partial : forall l ops, fresh_logger l -> (forall e, lines_fit (arrived e ops)) ->
  exists l', run_log l ops = Ok l' /\ forall e, printed e (written l') ++ waiting e l' = clipped (arrived e ops).
Proof. exact log_complete. Qed.
Print Assumptions log_complete_partial.
Definition blank_logger : logger := mkLogger (mkLine (repeat 0%N 1024) 0 0) (mkLine (repeat 0%N 1024) 0 0) [].
Definition sample_log : list logop :=
  [LBytes false (str "abc"); LBytes true (str "x"); LFlush false; LBytes true [c_nl]; LBytes false (repeat 97%N 300); LBytes false [c_nl; 98%N]].
Example log_complete_nonvacuous : fresh_logger blank_logger /\ (forall e, lines_fit (arrived e sample_log)) /\
  clipped (arrived false sample_log) = str "abc" ++ repeat 97%N 252 ++ [c_nl; 98%N].
Proof.
  split; [|split].
  - split; [reflexivity|]. intros [|]; (split; [vm_compute; reflexivity|split; reflexivity]).
  - intros e. unfold lines_fit. destruct (text_lines (arrived e sample_log)) as (ls, r) eqn:E. destruct e; vm_compute in E; injection E as <- <-;
      repeat (apply Forall_cons; [vm_compute; reflexivity|]); apply Forall_nil.
  - vm_compute. reflexivity.
Qed.
(** C44: without explicit flushes the lines of the two streams are not mixed: every piece printed is one whole line. *)
Theorem log_lines_partial : forall l ops, fresh_logger l -> (forall e, lines_fit (arrived e ops)) -> Forall no_flush ops ->
  exists l', run_log l ops = Ok l' /\ Forall (fun p => one_line (snd p)) (written l').
Proof. exact log_lines. Qed.
Print Assumptions log_lines_partial.
Example log_lines_nonvacuous :
  option_map (@List.length _) (match run_log blank_logger [LBytes false (str "abc"); LBytes true (str "x"); LBytes true [c_nl]; LBytes false [c_nl]] with Ok l => Some (written l) | _ => None end) = Some 2%nat.
Proof. vm_compute. reflexivity. Qed.
(** C44 violated: the count of the bytes of a line overflows. *)
Theorem log_overflow_refuted : forall l err, fresh_logger l -> log_bytes err l (repeat 97%N (S (Z.to_nat INT_MAX))) = UB.
Proof. exact line_overflow. Qed.
Print Assumptions log_overflow_refuted.
(** C44 violated: an unfinished line that waits when the process is stopped is dropped. *)
Theorem log_reset_refuted :
  exists l, log_bytes true blank_logger (str "fatal") = Ok l /\ waiting true l = str "fatal" /\ written (reset_logger l) = [] /\ waiting true (reset_logger l) = [].
Proof. eexists. split; [vm_compute; reflexivity|]. split; [vm_compute; reflexivity|]. split; vm_compute; reflexivity. Qed.
Print Assumptions log_reset_refuted.

(** C45, partial: a command of plain words and quoted words is split into these words.
    Missing: two spaces at the end, text directly after a closing quote, words of more than 1023 bytes (false, below). *)
Theorem command_words_partial : forall items trailing, command_ok items -> process_words (command_text items trailing) = Ok (map (fun p => word_of (snd p)) items).
Proof. exact words_of_command. Qed.
Print Assumptions command_words_partial.
Example command_words_nonvacuous :
  command_ok [(1%nat, Plain (str "python")); (1%nat, Quoted (str "my tracker.py")); (3%nat, Quoted []); (2%nat, Plain (str "-x"))] /\
  command_text [(1%nat, Plain (str "python")); (1%nat, Quoted (str "my tracker.py")); (3%nat, Quoted []); (2%nat, Plain (str "-x"))] true = str " python ""my tracker.py""   """"  -x ".
Proof.
  split; [|vm_compute; reflexivity]. split; [discriminate|]. split.
  - repeat (apply Forall_cons; [split; [vm_compute; lia|split; vm_compute; [intuition discriminate|discriminate]]|]). apply Forall_nil.
  - cbn [tl]. repeat (apply Forall_cons; [cbn [fst]; lia|]). apply Forall_nil.
Qed.
(** C45, partial: the command-line client passes on its arguments.
    Missing: arguments that contain a quote, end with an apostrophe or have more than 1023 bytes (false, below). *)
Theorem cli_arguments_partial : forall args, args <> [] -> Forall quotable args -> process_words (cli_command args) = Ok args.
Proof. exact cli_words. Qed.
Print Assumptions cli_arguments_partial.
Example cli_arguments_nonvacuous : Forall quotable [str "tracker"; []; str "it's a name"].
Proof. repeat (apply Forall_cons; [split; [vm_compute; lia|split; vm_compute; [intuition discriminate|discriminate]]|]). apply Forall_nil. Qed.
(** C45: splitting any command ends and stays inside its arrays; only the null result is not handled. *)
Theorem command_safe_partial : forall command, exists r, parse_command command = Ok r.
Proof. exact parse_total. Qed.
Print Assumptions command_safe_partial.
(** C45 violated: commands that end with two spaces, are empty or leave a quote open crash the client. *)
Theorem command_crash_refuted : process_words (str "tracker  ") = UB /\ process_words [] = UB /\ process_words (str "tracker ""a") = UB.
Proof. split; [|split]; vm_compute; reflexivity. Qed.
Print Assumptions command_crash_refuted.
(** C45 violated: the byte after a closing quote is dropped. *)
Theorem command_drop_refuted : process_words (str """a""b c") = Ok [str "a"; str "c"] /\ process_words (str """a""bc") = Ok [str "a"; str "c"].
Proof. split; vm_compute; reflexivity. Qed.
Print Assumptions command_drop_refuted.
(** C45 violated: arguments with quotes or ending with an apostrophe are passed on wrongly or crash the client. *)
Theorem cli_arguments_refuted :
  process_words (cli_command [str "a"; str "b""c"]) = UB /\ process_words (cli_command [str "a""b"" c"]) = Ok [str "a"; str " c"] /\
  process_words (cli_command [str "tracker"; str "it's'"; str "c"]) = UB /\ process_words (cli_command [repeat 97%N 1024]) = UB.
Proof. split; [|split; [|split]]; vm_compute; reflexivity. Qed.
Print Assumptions cli_arguments_refuted.

(** C47, partial: the deadline of a timed wait is the current time plus the timeout ... *)
Theorem deadline_exact_partial : forall sec usec ms, nanoseconds (deadline sec usec ms) = nanoseconds (sec, 1000 * usec) + ms * 1000000.
Proof. exact deadline_exact. Qed.
Print Assumptions deadline_exact_partial.
(** ... and it is a valid time value exactly when the sum of the current microseconds and the timeout is less than two seconds and
    not exactly one second.  Missing: the other timeouts (false, below). *)
Theorem deadline_valid_partial : forall sec usec ms, 0 <= usec < 1000000 -> 0 <= ms ->
  (valid_time (deadline sec usec ms) <-> usec + ms * 1000 < 2000000 /\ usec + ms * 1000 <> 1000000).
Proof. exact deadline_valid. Qed.
Print Assumptions deadline_valid_partial.
Example deadline_nonvacuous : deadline 100 999999 1000 = (101, 999999000) /\ valid_time (deadline 100 999999 1000).
Proof. split; [reflexivity|vm_compute; split; [discriminate|reflexivity]]. Qed.
(** C47 violated: for timeouts of two seconds and more the time value is never valid, and for one second it is not when the current
    microsecond is zero. *)
Theorem deadline_refuted : (forall sec usec ms, 0 <= usec < 1000000 -> 2000 <= ms -> ~ valid_time (deadline sec usec ms)) /\ (forall sec, ~ valid_time (deadline sec 0 1000)).
Proof. split; intros; rewrite deadline_valid by lia; lia. Qed.
Print Assumptions deadline_refuted.
