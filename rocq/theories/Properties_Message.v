(** Properties C01-C11: the wire protocol. *)
From Verif Require Import CBase StrMap Props PropsSpec StrMapProofs Message MessageSpec MessageProofs MessageApi
  Buffer BufferSpec BufferProofs SyntaxProofs.

(** C01: whatever message is sent (with whatever partial writes), a reader of the same bytes - in any state [t] left by
    earlier reads, for any way [st] of cutting the stream into read() results, with anything following - returns that
    message and leaves exactly what follows. *)
Theorem message_round_trip : forall m sched, msg_ok m -> no_error sched ->
  exists o, send (mkO sched [] []) m = Ok o /\
  forall t st rest, delivers st -> stream_bytes st = o_bytes o ++ rest ->
  exists r, read_message t st props_create = Ok r /\ receives r m /\
    stream_bytes (rr_stream r) = rest /\ delivers (rr_stream r).
Proof. exact round_trip. Qed.
Print Assumptions message_round_trip.

Definition example_msg : msg :=
  mkMsg MFrame [str "file:///a b"; [34; 92; 10; 92; 110]; []; str "a-b=c"; str "@@TRAX:quit"]
        [PSet (str "trax.version") (str "4"); PSet (str "x_1") ([10; 34] ++ str " = \"); PSet (str "a") (str "1");
         PSet (str "A") []].
Lemma example_msg_ok : msg_ok example_msg.
Proof.
  split; [reflexivity|]. intros k v. unfold pm_run, example_msg. cbn [m_hist fold_left pm_step].
  unfold pm_set, pm_empty.
  repeat match goal with |- context [bytes_eqb ?a k] => destruct (bytes_eqb a k) eqn:?E end;
    intros H; inversion H; subst;
    match goal with E : bytes_eqb _ k = true |- _ => apply bytes_eqb_eq in E; subst k end; reflexivity.
Qed.
Example message_round_trip_nonvacuous :
  msg_ok example_msg /\ no_error [WAccept 1; WAccept 0; WAccept 2] /\
  delivers (mkStream [64] [[64; 84]; [82]]).
Proof.
  split; [exact example_msg_ok|]. split; repeat constructor; discriminate.
Qed.

(** C02 *)
Theorem message_sequence_round_trip : forall ms sched, Forall msg_ok ms -> no_error sched ->
  exists o, send_all (mkO sched [] []) ms = Ok o /\
  forall t st rest, delivers st -> stream_bytes st = o_bytes o ++ rest ->
  exists rs st', read_many (List.length ms) t st = Ok (rs, st') /\
    Forall2 receives rs ms /\ stream_bytes st' = rest /\ delivers st'.
Proof. exact sequence_round_trip. Qed.
Print Assumptions message_sequence_round_trip.
Example message_sequence_nonvacuous : Forall msg_ok [example_msg; mkMsg MQuit [] []; example_msg].
Proof. repeat constructor; try exact (proj1 example_msg_ok); try exact (proj2 example_msg_ok). intros k v H. discriminate H. Qed.

(** C03: for every byte stream (well formed or not) and every two ways of cutting it into read() results. *)
Theorem decoding_independent_of_chunking : forall n t st1 st2,
  delivers st1 -> delivers st2 -> stream_bytes st1 = stream_bytes st2 ->
  exists rs1 rs2 st1' st2', read_many n t st1 = Ok (rs1, st1') /\ read_many n t st2 = Ok (rs2, st2') /\
    List.length rs1 = n /\ Forall2 same_read rs1 rs2 /\ stream_bytes st1' = stream_bytes st2'.
Proof. exact chunking. Qed.
Print Assumptions decoding_independent_of_chunking.
Example chunking_nonvacuous :
  delivers (mkStream [] [[64; 64; 200; 10]]) /\ delivers (mkStream [64] [[64]; [200]; [10]]) /\
  stream_bytes (mkStream [] [[64; 64; 200; 10]]) = stream_bytes (mkStream [64] [[64]; [200]; [10]]).
Proof. split; [|split]; [repeat constructor; discriminate..|reflexivity]. Qed.

(** C04: partial writes do not change the bytes; a buffer write that fails delivered a prefix of its buffer; a stream
    that fails for good delivered a prefix of the message. *)
Theorem short_writes_deliver_all : forall ms sched, no_error sched ->
  exists o o0, send_all (mkO sched [] []) ms = Ok o /\ send_all (mkO [] [] []) ms = Ok o0 /\ o_bytes o = o_bytes o0.
Proof. exact short_writes. Qed.
Print Assumptions short_writes_deliver_all.

Theorem failed_buffer_write_delivers_prefix : forall sched buf r d ok, write_all sched buf = (r, d, ok) ->
  (exists tl, buf = d ++ tl) /\ (ok = true -> d = buf).
Proof. exact write_all_prefix. Qed.
Print Assumptions failed_buffer_write_delivers_prefix.

Theorem dead_stream_delivers_prefix : forall m good, no_error good ->
  exists full n0, send (mkO [] [] []) m = Ok full /\
  forall n, (n0 <= n)%nat ->
   exists o tl, send (mkO (good ++ repeat WError n) [] []) m = Ok o /\ o_bytes full = o_bytes o ++ tl.
Proof. exact dead_stream_prefix. Qed.
Print Assumptions dead_stream_delivers_prefix.

Example short_writes_nonvacuous :
  o_bytes (write_message (mkO [WAccept 3; WAccept 2; WAccept 1; WAccept 1; WError; WError; WError; WError] [] []) MQuit [] props_create)
  = str "@@TRAX:".
Proof. reflexivity. Qed.

(** A single failed write in the middle goes unnoticed and the message is corrupted. *)
Theorem transient_write_error_refuted : exists sched m full o,
  send (mkO [] [] []) m = Ok full /\ send (mkO sched [] []) m = Ok o /\
  ~ (exists tl, o_bytes full = o_bytes o ++ tl).
Proof. exact transient_write_error. Qed.
Print Assumptions transient_write_error_refuted.

(** C05 *)
Theorem plain_lines_are_skipped : forall items, Forall (fun it => Forall plain_line (fst it) /\ msg_ok (snd it)) items ->
  exists bytes, transcript items = Ok bytes /\
  forall t st rest, delivers st -> stream_bytes st = bytes ++ rest ->
  exists rs st', read_many (List.length items) t st = Ok (rs, st') /\
    Forall2 receives rs (map snd items) /\ stream_bytes st' = rest /\ delivers st'.
Proof. exact read_transcript. Qed.
Print Assumptions plain_lines_are_skipped.
Example plain_lines_nonvacuous :
  Forall plain_line [str "loading model"; []; str "@@TRAX"; str "@@@TRAX:quit"; str "@@TRAY:hello"] /\ msg_ok example_msg.
Proof.
  split; [|exact example_msg_ok].
  repeat (constructor; [split; [reflexivity|]; split; [vm_compute; intuition discriminate|reflexivity]|]). constructor.
Qed.

(** C06 *)
Theorem message_is_one_line : forall m sched, no_error sched ->
  (forall k v, pm_run (m_hist m) k = Some v -> ~ In 10 k) ->
  exists o body, send (mkO sched [] []) m = Ok o /\ o_bytes o = str "@@TRAX:" ++ body ++ [10] /\ ~ In 10 body.
Proof. exact one_line. Qed.
Print Assumptions message_is_one_line.
Example message_is_one_line_nonvacuous : In 10 (concat (m_args example_msg)) /\
  (forall k v, pm_run (m_hist example_msg) k = Some v -> ~ In 10 k).
Proof.
  split; [vm_compute; tauto|]. intros k v H. pose proof (proj2 example_msg_ok k v H) as Hk.
  unfold kv_ok in Hk. apply andb_true_iff in Hk as [Hk _]. cbn [fst] in Hk. unfold key_ok in Hk.
  apply andb_true_iff in Hk as [_ Hk]. rewrite forallb_forall in Hk. intros Hin. specialize (Hk 10 Hin). discriminate.
Qed.

(** C07: every stream of any bytes (also with read errors in between), every reader state, every dictionary: the read
    ends, without UB, having consumed a prefix of the stream. *)
Theorem reader_is_total : forall t st hist, exists p r consumed,
  props_run hist = Ok p /\ read_message t st p = Ok r /\ stream_bytes st = consumed ++ stream_bytes (rr_stream r).
Proof. exact read_total. Qed.
Print Assumptions reader_is_total.

(** The growing buffers behind the reader: no history of operations writes or reads outside its allocation, and a
    buffer holds exactly the bytes pushed since the last reset. *)
Theorem string_buffers_are_safe : forall L ops, exists B, run_ops bop_run (buffer_create L) ops = Ok B /\
  b_pos B = List.length (fold_left bop_spec ops []) /\ buffer_extract B = Ok (c_block (fold_left bop_spec ops [])).
Proof. exact buffer_api. Qed.
Print Assumptions string_buffers_are_safe.

Theorem string_lists_are_safe : forall L ops, exists B, run_ops lop_run (list_create L) ops = Ok B /\
  list_size B = List.length (fold_left lop_spec ops []) /\
  forall i, list_get B i = Ok (if (i <? 0)%Z then None else nth_error (fold_left lop_spec ops []) (Z.to_nat i)).
Proof. exact list_api. Qed.
Print Assumptions string_lists_are_safe.

(** C08 is violated after every non-empty history: the read at the end of the stream returns a message nobody sent, of
    the type of the last message. *)
Theorem end_of_stream_refuted : forall ms m sched, Forall msg_ok (ms ++ [m]) -> no_error sched ->
  exists o, send_all (mkO sched [] []) (ms ++ [m]) = Ok o /\
  forall t st, delivers st -> stream_bytes st = o_bytes o ->
  exists rs r st', read_many (S (List.length (ms ++ [m]))) t st = Ok (rs ++ [r], st') /\
    Forall2 receives rs (ms ++ [m]) /\ rr_type r = Some (m_type m) /\ rr_args r = [].
Proof. exact eof_invents. Qed.
Print Assumptions end_of_stream_refuted.
Example end_of_stream_refuted_nonvacuous : Forall msg_ok ([mkMsg MQuit [] []] ++ [example_msg]).
Proof. repeat constructor; try exact (proj1 example_msg_ok); try exact (proj2 example_msg_ok). intros k v H. discriminate H. Qed.

(** What holds: on a stream that never carried a message, the end of the stream is reported. *)
Theorem end_of_stream_partial : forall ls st, Forall plain_line ls -> delivers st -> stream_bytes st = lines ls ->
  exists r, read_message None st props_create = Ok r /\ rr_type r = None /\ rr_args r = [].
Proof. exact eof_new_stream. Qed.
Print Assumptions end_of_stream_partial.

(** C09 is violated: the message with the argument "é" (UTF-8) is not read back.  (For 7-bit text: C01.) *)
Theorem non_ascii_text_refuted : exists m o r,
  (forall k, pm_run (m_hist m) k = None) /\ m_args m = [[195; 169]] /\
  send (mkO [] [] []) m = Ok o /\ read_message None (one_chunk (o_bytes o)) props_create = Ok r /\ ~ receives r m.
Proof. exact non_ascii_broken. Qed.
Print Assumptions non_ascii_text_refuted.

(** C10 is violated in three ways: arguments and properties of a rejected line show up in the next message ... *)
Theorem rejected_line_leaks_refuted : exists m o r, msg_ok m /\ send (mkO [] [] []) m = Ok o /\
  read_message None (one_chunk (bad_line ++ o_bytes o)) props_create = Ok r /\
  rr_type r = Some (m_type m) /\ m_args m = [] /\ rr_args r = [str "old"] /\
  pm_run (m_hist m) (str "key") = None /\ props_get (rr_props r) (str "key") = Ok (Some (str "value")).
Proof. exact leak. Qed.
Print Assumptions rejected_line_leaks_refuted.

(** ... and a line with an unknown type takes the next message with it. *)
Theorem rejected_line_swallows_refuted : exists m o r, msg_ok m /\ send (mkO [] [] []) m = Ok o /\
  read_message None (one_chunk (unknown_line ++ o_bytes o)) props_create = Ok r /\
  rr_type r = None /\ stream_bytes (rr_stream r) = [].
Proof. exact swallow. Qed.
Print Assumptions rejected_line_swallows_refuted.

(** ... and a letter after a closing quote spoils the header of the next message, which is lost. *)
Theorem rejected_line_spoils_next_refuted : exists m o r, msg_ok m /\ send (mkO [] [] []) m = Ok o /\
  read_message None (one_chunk (stray_line ++ o_bytes o)) props_create = Ok r /\
  rr_type r = None /\ stream_bytes (rr_stream r) = [].
Proof. exact stray. Qed.
Print Assumptions rejected_line_spoils_next_refuted.

(** What holds: a protocol line whose header is wrong (a word [w] followed by a character [c] that does not make it
    a known message type) is dropped as a whole and the next message is read intact. *)
Theorem rejected_header_is_isolated_partial : forall m w c l sched, msg_ok m -> no_error sched ->
  forallb is_alnum w = true -> is_alnum c = false -> c <> 10 -> c < 128 ->
  (c = 32 -> parse_message_type w = None) -> ascii l = true -> ~ In 10 l ->
  exists o, send (mkO sched [] []) m = Ok o /\
  forall t st rest, delivers st -> stream_bytes st = (str "@@TRAX:" ++ w ++ [c] ++ l ++ [10]) ++ o_bytes o ++ rest ->
  exists r, read_message t st props_create = Ok r /\ receives r m /\ stream_bytes (rr_stream r) = rest.
Proof. exact bad_header_isolated. Qed.
Print Assumptions rejected_header_is_isolated_partial.
Example rejected_header_nonvacuous :
  forallb is_alnum (str "frames") = true /\ parse_message_type (str "frames") = None /\
  parse_message_type (str "FraMe") = Some MFrame.
Proof. repeat split. Qed.

(** C11: sent bytes are logged exactly; for a received message the log is exactly its bytes. *)
Theorem log_is_transcript : forall ms m sched, msg_ok m -> no_error sched ->
  exists o, send_all (mkO sched [] []) ms = Ok o /\ o_log o = o_bytes o /\
  exists o1, send (mkO sched [] []) m = Ok o1 /\
  forall t st rest, delivers st -> stream_bytes st = o_bytes o1 ++ rest ->
  exists r, read_message t st props_create = Ok r /\ rr_log r = o_bytes o1.
Proof. exact log_message. Qed.
Print Assumptions log_is_transcript.

(** ... and for any 7-bit stream the log is what was consumed, or the whole stream plus one newline when the stream
    ended inside a message. *)
Theorem log_is_what_was_read : forall t st, delivers st -> ascii (stream_bytes st) = true ->
  exists r, read_message t st props_create = Ok r /\
    (stream_bytes st = rr_log r ++ stream_bytes (rr_stream r) \/
     (stream_bytes (rr_stream r) = [] /\ rr_log r = stream_bytes st ++ [10])).
Proof. exact log_read. Qed.
Print Assumptions log_is_what_was_read.

(** C11 is violated when a write fails after part of the buffer was accepted: the accepted bytes are not logged. *)
Theorem log_misses_partial_writes_refuted : exists sched m o,
  send (mkO sched [] []) m = Ok o /\ o_log o <> o_bytes o.
Proof. exact log_failed_write. Qed.
Print Assumptions log_misses_partial_writes_refuted.

(** C49: every line in the documented syntax is decoded to what it denotes: header word in any letter case, arguments
    quoted or not, positional or named in any order, any use of escapes, one or more separating spaces, with or
    without a space before the newline.  Of repeated names the last one counts.  (The guard [token_ok] excludes
    one documented form, see the refutation below.) *)
Theorem documented_syntax_is_decoded_partial : forall w mt sp toks final,
  forallb is_alnum w = true -> parse_message_type w = Some mt ->
  forallb token_ok (line_tokens toks final) = true ->
  forall t st rest, delivers st -> stream_bytes st = line_text w sp toks final ++ rest ->
  exists r, read_message t st props_create = Ok r /\ rr_type r = Some mt /\
    rr_args r = positional (line_tokens toks final) /\
    (forall k, props_get (rr_props r) k = Ok (pm_run (named (line_tokens toks final)) k)) /\
    stream_bytes (rr_stream r) = rest /\ rr_log r = line_text w sp toks final.
Proof. exact documented_syntax. Qed.
Print Assumptions documented_syntax_is_decoded_partial.
(** A line with four differently written arguments and no space before the newline. *)
Example documented_syntax_nonvacuous :
  let toks := [(mkTok true None [Raw 97; Raw 32; Esc 34; Raw 98], 0%nat); (mkTok false None (map Raw (str "file:///x")), 1%nat);
               (mkTok true (Some (str "time")) [Raw 61], 0%nat)] in
  let final := Some (mkTok false (Some (str "x.y")) [Raw 49; Esc 61]) in
  parse_message_type (str "Frame") = Some MFrame /\ forallb token_ok (line_tokens toks final) = true /\
  positional (line_tokens toks final) = [[97; 32; 34; 98]; str "file:///x"] /\
  named (line_tokens toks final) = [PSet (str "time") [61]; PSet (str "x.y") [49; 61]] /\
  line_text (str "Frame") 1 toks final =
    str "@@TRAX:Frame  " ++ [34] ++ str "a " ++ [92; 34] ++ str "b" ++ [34] ++ str " file:///x  " ++
    [34] ++ str "time==" ++ [34] ++ str " x.y=1" ++ [92; 61; 10].
Proof. repeat split. Qed.

Theorem documented_header_is_decoded : forall w mt, forallb is_alnum w = true -> parse_message_type w = Some mt ->
  forall t st rest, delivers st -> stream_bytes st = bare_line w ++ rest ->
  exists r, read_message t st props_create = Ok r /\ rr_type r = Some mt /\ rr_args r = [] /\
    (forall k, props_get (rr_props r) k = Ok None) /\
    stream_bytes (rr_stream r) = rest /\ rr_log r = bare_line w.
Proof. exact documented_bare. Qed.
Print Assumptions documented_header_is_decoded.
Example documented_header_nonvacuous : parse_message_type (str "QUIT") = Some MQuit /\
  bare_line (str "QUIT") = str "@@TRAX:QUIT" ++ [10].
Proof. split; reflexivity. Qed.

(** C49 is violated for an unquoted argument that starts with an escape: backslash quote a is not decoded to quote a. *)
Theorem leading_escape_refuted : exists items r,
  forallb (item_ok false) items = true /\ no_named [] items = true /\
  read_message None (one_chunk (str "@@TRAX:frame " ++ flat_map item_text items ++ [10])) props_create = Ok r /\
  rr_args r <> [map item_char items].
Proof. exact first_escape_broken. Qed.
Print Assumptions leading_escape_refuted.
