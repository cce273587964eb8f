(** Theorems about the log file (C136). *)
From Verif Require Import CBase Props Message MessageSpec MessageProofs MessageApi PyText FileLog FileLogSpec FileLogProofs.

(** After any exchanges the file has all their bytes, in their order, and nothing is left in the C library, however it passes bytes on. *)
Theorem log_file_partial : forall es calls f, map fst calls = flat_map calls_of es -> held f = [] ->
  (List.length (flat_map bytes_of es) <= room f)%nat ->
  exists f', log_all (logger_setup_file (Some f)) calls = Ok (LogTo (Some f')) /\ on_disk f' = on_disk f ++ flat_map bytes_of es /\ held f' = [] /\
    (room f' + List.length (flat_map bytes_of es) = room f)%nat.
Proof. exact file_whole. Qed.
Print Assumptions log_file_partial.
(** A program that ends in the middle of an exchange leaves a file with all exchanges before, and the beginning of this one. *)
Theorem log_file_crash_partial : forall es e calls some more f, map fst calls = flat_map calls_of es ++ some -> some ++ more = calls_of e ->
  held f = [] -> (List.length (flat_map bytes_of es) <= room f)%nat ->
  exists f' q, log_all (logger_setup_file (Some f)) calls = Ok (LogTo (Some f')) /\ on_disk f' = on_disk f ++ flat_map bytes_of es ++ q /\ prefix_of q (bytes_of e).
Proof. exact file_crash. Qed.
Print Assumptions log_file_crash_partial.
(** For a received message the file has what was read from the stream, and a newline if the stream ended. *)
Theorem log_file_received_partial : forall t st f, delivers st -> ascii (stream_bytes st) = true -> held f = [] ->
  (List.length (stream_bytes st) < room f)%nat ->
  exists r, read_message t st props_create = Ok r /\
    forall calls, map fst calls = received_calls [] (rr_log r) ->
    exists f' s, log_all (logger_setup_file (Some f)) calls = Ok (LogTo (Some f')) /\ held f' = [] /\ on_disk f' = on_disk f ++ s /\
      (stream_bytes st = s ++ stream_bytes (rr_stream r) \/ stream_bytes (rr_stream r) = [] /\ s = stream_bytes st ++ [10]).
Proof. exact file_received. Qed.
Print Assumptions log_file_received_partial.
(** Without a file, and without a logger, nothing happens. *)
Theorem log_file_none : forall calls, log_all NoLog calls = Ok NoLog /\ log_all (logger_setup_file None) calls = Ok (LogTo None).
Proof. exact no_file. Qed.
Print Assumptions log_file_none.
(** If the disk is full, the end of the log is missing and the program is not told. *)
Theorem log_file_full_refuted : forall es calls f, map fst calls = flat_map calls_of es -> held f = [] ->
  (room f < List.length (flat_map bytes_of es))%nat ->
  exists f', log_all (logger_setup_file (Some f)) calls = Ok (LogTo (Some f')) /\ on_disk f' = on_disk f ++ firstn (room f) (flat_map bytes_of es).
Proof. exact file_full. Qed.
Print Assumptions log_file_full_refuted.

(** If the stream fails, every logged byte was sent, and every byte sent is of the message, in their order. *)
Theorem log_only_sent : forall o t args p, exists d g, o_bytes (write_message o t args p) = o_bytes o ++ d /\ o_log (write_message o t args p) = o_log o ++ g /\
  part_of g d /\ part_of d (wire t args (props_enum p)).
Proof. exact only_sent. Qed.
Print Assumptions log_only_sent.
(** If it fails and stays broken, the log is the beginning of what was sent, and this is the beginning of the message. *)
Theorem log_of_broken_stream : forall t args p good, no_error good -> exists enough, forall n, (enough <= n)%nat ->
  exists g u tl, o_bytes (write_message (mkO (good ++ repeat WError n) [] []) t args p) = g ++ u /\
    o_log (write_message (mkO (good ++ repeat WError n) [] []) t args p) = g /\ wire t args (props_enum p) = g ++ u ++ tl.
Proof. exact broken_log_any. Qed.
Print Assumptions log_of_broken_stream.
(** If it fails for a moment, the message goes on after a gap: one error at the start sends and logs any message without its prefix. *)
Theorem log_gap_refuted : forall t args p, wire t args (props_enum p) = str "@@TRAX:" ++ o_bytes (write_message (mkO [WError] [] []) t args p) /\
  o_log (write_message (mkO [WError] [] []) t args p) = o_bytes (write_message (mkO [WError] [] []) t args p).
Proof. exact hole. Qed.
Print Assumptions log_gap_refuted.

(** So is the file of any messages: it never has a byte that was not sent, whatever the stream does, and all that is logged is on the disk. *)
Theorem log_file_of_failing_stream : forall ms o calls f, map fst calls = calls_over o ms -> held f = [] -> (List.length (text_of ms) <= room f)%nat ->
  exists f' d g, log_all (logger_setup_file (Some f)) calls = Ok (LogTo (Some f')) /\ held f' = [] /\ on_disk f' = on_disk f ++ g /\
    o_bytes (stream_after o ms) = o_bytes o ++ d /\ part_of g d /\ part_of d (text_of ms) /\ o_log (stream_after o ms) = o_log o ++ g.
Proof. exact file_of_streams. Qed.
Print Assumptions log_file_of_failing_stream.

Example log_broken_nonvacuous : no_error [WAccept 9; WAccept 3; WAccept 2] /\
  o_bytes (write_message (mkO ([WAccept 9; WAccept 3; WAccept 2] ++ repeat WError 20) [] []) MState [str "1"] props_create) = str "@@TRAX:state" /\
  o_bytes (write_message (mkO ([WAccept 9; WAccept 3] ++ repeat WError 20) [] []) MState [str "1"] props_create) = str "@@TRAX:sta" /\
  o_log (write_message (mkO ([WAccept 9; WAccept 3] ++ repeat WError 20) [] []) MState [str "1"] props_create) = str "@@TRAX:".
Proof.
  split; [repeat (apply Forall_cons; [discriminate|]); apply Forall_nil|]. split; [vm_compute; reflexivity|]. split; vm_compute; reflexivity.
Qed.

Definition some_exchanges : list exchange := [Receives (str "@@TRAX:quit" ++ [10]); Sends MState [str "1""2"] props_create].
Definition lazily (cs : list log_call) : list (log_call * nat) := map (fun c => (c, 0%nat)) cs.
Example log_file_nonvacuous :
  map fst (lazily (flat_map calls_of some_exchanges)) = flat_map calls_of some_exchanges /\
  log_all (logger_setup_file (Some (mkFile (str "old ") [] 100))) (lazily (flat_map calls_of some_exchanges)) =
    Ok (LogTo (Some (mkFile (str "old @@TRAX:quit" ++ [10] ++ str "@@TRAX:state ""1\""2"" " ++ [10]) [] 67))) /\
  (exists f', log_all (logger_setup_file (Some (mkFile [] [] 14))) (lazily (flat_map calls_of some_exchanges)) = Ok (LogTo (Some f')) /\
     on_disk f' = str "@@TRAX:quit" ++ [10] ++ str "@@") /\
  (exists f', log_all (logger_setup_file (Some (mkFile [] [] 100))) (lazily (firstn 15 (flat_map calls_of some_exchanges))) = Ok (LogTo (Some f')) /\
     on_disk f' = str "@@TRAX:quit" ++ [10] /\ held f' = str "@@TRAX:state").
Proof.
  split; [vm_compute; reflexivity|]. split; [vm_compute; reflexivity|].
  split; eexists; (split; [vm_compute; reflexivity|]); [vm_compute; reflexivity|split; vm_compute; reflexivity].
Qed.
Definition two_messages : list message := [(MState, [str "1"], props_create); (MQuit, [], props_create)].
Example log_file_of_failing_stream_nonvacuous :
  log_all (logger_setup_file (Some (mkFile [] [] 100))) (lazily (calls_over (mkO [WAccept 9; WAccept 3; WError] [] []) two_messages)) =
    Ok (LogTo (Some (mkFile (str "@@TRAX: ""1"" " ++ [10] ++ str "@@TRAX:quit " ++ [10]) [] 74))) /\
  o_bytes (stream_after (mkO [WAccept 9; WAccept 3; WError] [] []) two_messages) = str "@@TRAX:sta ""1"" " ++ [10] ++ str "@@TRAX:quit " ++ [10].
Proof. split; vm_compute; reflexivity. Qed.
