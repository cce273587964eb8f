(** Theorems about the errors that handles keep *)
From Verif Require Import CBase Num Region Image Formats Props Message Handle SessionSpec HistorySpec Errors ErrorsSpec ErrorsProofs.
Local Open Scope Z_scope.

(** C107: a call that sends fails exactly if there is a reason, and the text afterwards gives the reason (unless the text has a number in it) *)
Theorem send_errors_partial : forall legacy slack h c code h', sends c = true -> drawn c -> run_call legacy slack h c = Ok (code, h') ->
  (code = TRAX_OK /\ h_error h' = false /\ (forall k, ~ must_fail h c k)) \/
  (code = TRAX_ERROR /\ h_error h' = true /\ exists k r, must_fail h c k /\ call_report h c = Some r /\ (~ image_problem k -> error_text r = Ok (complaint_text k))).
Proof. exact send_result. Qed.
Print Assumptions send_errors_partial.
Example send_errors_nonvacuous : drawn (CInitialize sample_images [] None) /\ must_fail sample_client (CInitialize sample_images [] None) NoObject /\
  (exists h', run_call false 0 sample_client (CInitialize sample_images [] None) = Ok (TRAX_ERROR, h') /\ h_error h' = true) /\
  drawn (CReplyMot [sample_object]) /\ must_fail sample_server (CReplyMot [sample_object]) WrongCount /\ (forall k, ~ must_fail sample_client (CInitialize sample_images [sample_object] None) k).
Proof. exact send_samples. Qed.

(** A call that succeeds leaves no error, apart from a client's wait *)
Theorem success_clears_partial : forall legacy slack h c code h', waits_or_ends c = true \/ sends c = true -> run_call legacy slack h c = Ok (code, h') ->
  code <> TRAX_ERROR -> h_error h' = false.
Proof. exact success_clears. Qed.
Print Assumptions success_clears_partial.
Example success_clears_nonvacuous : exists h', run_call false 0 (set_error sample_client) (CInitialize sample_images [sample_object] None) = Ok (TRAX_OK, h') /\ h_error (set_error sample_client) = true.
Proof. eexists. split; vm_compute; reflexivity. Qed.

(** C107, violated: the text about a missing channel, or a wrong number of arguments, comes from a va_list taken as a number *)
Theorem number_text_refuted : (forall h c id r, must_fail h c (NoImage id) -> call_report h c = Some r -> error_text r = UB) /\ (forall a b, error_text (arguments_report a b) = UB) /\
  exists h', run_call false 0 sample_client (CFrame sample_missing None None) = Ok (TRAX_ERROR, h') /\ must_fail sample_client (CFrame sample_missing None None) (NoImage 2).
Proof. exact number_texts. Qed.
Print Assumptions number_text_refuted.
(** C107, violated: a client's wait never clears the error *)
Theorem stale_error_refuted : (forall legacy slack h p code h', h_terminated h = false -> run_call legacy slack h (CClientWait p) = Ok (code, h') -> h_error h' = h_error h) /\
  exists h', run_calls false 0 sample_client sample_stale = Ok ([TRAX_OK; TRAX_ERROR; TRAX_OK; TRAX_STATE], h') /\ h_error h' = true.
Proof. exact stale_error. Qed.
Print Assumptions stale_error_refuted.
(** C107, violated: calls that fail without any text *)
Theorem silent_failure_refuted :
  (exists h', run_call false 0 sample_server (CWaitMot 1 None None) = Ok (TRAX_ERROR, h') /\ h_error h' = false) /\
  (exists h', run_call false 0 (set_objects sample_server 1) (CReplyMot [(RPoly [], props_create)]) = Ok (TRAX_ERROR, h') /\ h_error h' = false) /\
  (exists h', run_calls false 0 sample_client sample_end = Ok ([TRAX_OK; TRAX_OK; TRAX_STATE; TRAX_ERROR], h') /\ h_error h' = false).
Proof. exact silent_failures. Qed.
Print Assumptions silent_failure_refuted.
