(** A side that dies while writing (C128) *)
From Verif Require Import CBase Props PropsSpec Message MessageSpec MessageApi Num Region Image Formats Handle SessionSpec HistorySpec CutSpec CutProofs CutClientProofs.
From Verif Require Properties_Message.
Local Open Scope Z_scope.

(** C128, partial: whatever was sent before and after whichever byte of a message its sender dies, for any partial writes and any
    cutting of the stream into read() results: everything sent before is received as it was sent, and the read of the
    unfinished message reports an error, or nothing but whole arguments and properties of this message: exactly those that had
    arrived in full, all arguments before any property.  (In the first seven bytes it is the violation of C08: a message without
    contents, of the type of the one before.)  Missing: an error in all of these cases, refuted below. *)
Theorem cut_message_partial : forall ms m sched, Forall msg_ok ms -> msg_ok m -> no_error sched ->
  exists before after kvs, send_all (mkO sched [] []) ms = Ok before /\ send before m = Ok after /\
    enumerates kvs (pm_run (m_hist m)) /\
    forall t st seen lost, o_bytes after = o_bytes before ++ seen ++ lost -> lost <> [] -> delivers st -> stream_bytes st = o_bytes before ++ seen ->
    exists rs r st', read_many (S (List.length ms)) t st = Ok (rs ++ [r], st') /\ Forall2 receives rs ms /\ cut_read (last_type t ms) m kvs seen r.
Proof. exact cut_history. Qed.
Print Assumptions cut_message_partial.
Example cut_message_nonvacuous : Forall msg_ok [Properties_Message.example_msg; mkMsg MQuit [] []] /\ msg_ok Properties_Message.example_msg /\
  no_error [WAccept 1; WAccept 0; WAccept 2].
Proof. exact (conj two_ok (conj Properties_Message.example_msg_ok some_writes)). Qed.

(** C128 violated: every message with arguments can be cut so that it is received as a message of its type without arguments. *)
Theorem cut_message_refuted : forall m sched t, msg_ok m -> no_error sched -> m_args m <> [] ->
  exists o seen lost, send (mkO sched [] []) m = Ok o /\ o_bytes o = seen ++ lost /\ lost <> [] /\
    forall st, delivers st -> stream_bytes st = seen -> exists r, read_message t st props_create = Ok r /\ rr_type r = Some (m_type m) /\ rr_args r = [] /\
      stream_bytes (rr_stream r) = [] /\ delivers (rr_stream r).
Proof. exact cut_accepted. Qed.
Print Assumptions cut_message_refuted.
Example cut_message_refuted_nonvacuous : msg_ok Properties_Message.example_msg /\ m_args Properties_Message.example_msg <> [].
Proof. split; [exact Properties_Message.example_msg_ok|discriminate]. Qed.

(** C128 for a client that waits for the answer about any number of objects, in a session that has already seen an answer: if the
    tracker dies after whichever byte of its answer, the call reports an error or the same regions as for the whole answer, each
    with some of its properties; it never reports another region. *)
Theorem cut_answer_partial : forall h p ms st st' sched o seen lost hf whole pf,
  h_server h = false -> is_alive h = true -> h_type h = None \/ h_type h = Some MState ->
  Forall msg_ok ms -> Forall (fun m => m_type m = MState) ms -> h_objects h = Z.of_nat (List.length ms) -> no_error sched ->
  send_all (mkO sched [] []) ms = Ok o -> o_bytes o = seen ++ lost -> lost <> [] ->
  delivers st -> stream_bytes st = o_bytes o -> delivers st' -> stream_bytes st' = seen ->
  client_wait (reading h st) p = Ok (TRAX_STATE, hf, Some whole, pf) ->
  exists h', (exists l, client_wait (reading h st') p = Ok (TRAX_ERROR, h', l, p)) \/
    (exists got, client_wait (reading h st') p = Ok (TRAX_STATE, h', Some got, p) /\ objects_of got whole).
Proof. exact cut_answer. Qed.
Print Assumptions cut_answer_partial.

(** Reached: a client with one object, after a first answer; the second answer has a property.  Cut before the property, the
    answer is taken for a whole one without the property (which violates C128), cut in the region it is an error.  (The last line
    shows that this client meets the premises of the theorem above.) *)
Theorem cut_answer_refuted : exists h1 h hf o seen1 lost1 hc d seen2 lost2 hd l first,
  client_send false sample_client true sample_images [sample_object] None = Ok (TRAX_OK, h1) /\
  client_wait (reading h1 (one_chunk first_answer)) None = Ok (TRAX_STATE, h, Some [first], None) /\
  send_all (mkO [] [] []) [second_answer] = Ok o /\
  client_wait (reading h (one_chunk (o_bytes o))) None = Ok (TRAX_STATE, hf, Some [(RRect (fl 1) (fl 2) (fl 3) (fl 4), d)], None) /\
  props_get d (str "confidence") = Ok (Some (str "1")) /\
  (o_bytes o = seen1 ++ lost1 /\ lost1 <> [] /\
   client_wait (reading h (one_chunk seen1)) None = Ok (TRAX_STATE, hc, Some [(RRect (fl 1) (fl 2) (fl 3) (fl 4), props_create)], None)) /\
  (o_bytes o = seen2 ++ lost2 /\ lost2 <> [] /\ client_wait (reading h (one_chunk seen2)) None = Ok (TRAX_ERROR, hd, l, None)) /\
  h_type h = Some MState /\ h_objects h = 1 /\ msg_ok second_answer /\ is_alive h = true /\ h_server h = false.
Proof. exact second_cut. Qed.
Print Assumptions cut_answer_refuted.

(** C128 for a server that waits for a request about a single object: if the client dies after whichever byte of its request, the
    call reports an error or the same request with the same images and region, and some of the properties. *)
Theorem cut_request_partial : forall slack h images reg p m sched o st st' seen lost code hf im rg pf,
  h_server h = true -> is_alive h = true -> h_version h < 4 -> 1 <= md_channels (h_meta h) <= INT_MAX -> h_type h <> Some MQuit ->
  p = None \/ p = Some props_create -> msg_ok m -> no_error sched ->
  send (mkO sched [] []) m = Ok o -> o_bytes o = seen ++ lost -> lost <> [] ->
  delivers st -> stream_bytes st = o_bytes o -> delivers st' -> stream_bytes st' = seen ->
  server_wait_sot slack (reading h st) images reg p = Ok (code, hf, im, rg, pf) -> code <> TRAX_ERROR ->
  (exists h' im2 rg2, server_wait_sot slack (reading h st') images reg p = Ok (TRAX_ERROR, h', im2, rg2, p)) \/
  (exists h' p2, server_wait_sot slack (reading h st') images reg p = Ok (code, h', im, rg, p2) /\ given_entries p2 pf).
Proof. exact cut_request. Qed.
Print Assumptions cut_request_partial.
Example cut_request_nonvacuous : msg_ok sample_request /\
  exists h o hf im rg d, server_setup sample_metadata3 (mkStream [] []) (mkO [] [] []) 3 = Ok h /\
  h_server h = true /\ is_alive h = true /\ h_version h < 4 /\ 1 <= md_channels (h_meta h) <= INT_MAX /\ h_type h <> Some MQuit /\
  send (mkO [] [] []) sample_request = Ok o /\
  server_wait_sot 0 (reading h (one_chunk (o_bytes o))) None None (Some props_create) = Ok (TRAX_INITIALIZE, hf, im, rg, Some d).
Proof. exact (conj sample_request_ok sample_request_reads). Qed.

(** C128 violated for a server that waits for a request about several objects: every initialize message with arguments can be cut
    so that the call never returns (whatever the number of messages it may read, it wants more). *)
Theorem cut_request_refuted : forall slack h images p m sched, h_server h = true -> is_alive h = true -> 0 <= md_channels (h_meta h) <= INT_MAX ->
  msg_ok m -> m_type m = MInitialize -> m_args m <> [] -> no_error sched ->
  exists o seen lost, send (mkO sched [] []) m = Ok o /\ o_bytes o = seen ++ lost /\ lost <> [] /\
    forall fuel st, delivers st -> stream_bytes st = seen -> server_wait_mot fuel slack (reading h st) images p = NoFuel.
Proof. exact cut_hangs. Qed.
Print Assumptions cut_request_refuted.
Example cut_request_refuted_nonvacuous : (h_server sample_server = true /\ is_alive sample_server = true /\ 0 <= md_channels (h_meta sample_server) <= INT_MAX) /\
  msg_ok sample_request /\ m_type sample_request = MInitialize /\ m_args sample_request <> [].
Proof. split; [exact sample_server_waits|]. split; [exact sample_request_ok|]. split; [reflexivity|discriminate]. Qed.
