(** Theorems about tracker processes as a client sees them (C73 to C77). *)
From Verif Require Import CBase Num Region Handle Process ProcessSpec Tracker TrackerSpec TrackerProofs.
Local Open Scope Z_scope.

(** ---- Examples used below ---- *)
(** A client with standard streams. *)
Definition client_os : os := mkOs [Some (Something 0); Some (Something 1); Some (Something 2)] 0 None [].
Definition fresh (timeout : Z) : tracker := tracker_create client_os false [] timeout.
Definition nothing : turn := mkTurn None false [].
(** A tracker with this process number that introduces itself after [n] turns. *)
Definition good (id : Z) (n : nat) : launch := mkLaunch (mkAnswers 3 (Some id)) None (repeat nothing n) (Some 4) [].
(** A launch for which the system has no process. *)
Definition no_process : launch := mkLaunch (mkAnswers 3 None) None [] (Some 4) [].
(** A tracker that answers with a code after [n] turns. *)
Definition says (n : nat) (code : Z) : answer := mkAnswer (repeat nothing n) code true [].
Lemma client_fresh : fresh_os client_os.
Proof. split; [reflexivity|]. split; [reflexivity|]. intros m k. do 3 (destruct m as [|m]; [intros H; injection H as <-; exact Logic.I|]). destruct m; discriminate. Qed.
Lemma good_ok id n : 0 < id -> launch_ok (good id n).
Proof. intros H. split; [cbn; lia|]. split; [|reflexivity]. intros i E. injection E as <-. exact H. Qed.
Lemma calm_repeat n : Forall calm (repeat nothing n).
Proof. induction n; constructor; [split; reflexivity|assumption]. Qed.

(** ---- C73: timeouts ---- *)
(** A request that is answered before ten turns of the watchdog per second of the timeout have passed gets the answer of the tracker,
    and nothing is done to the tracker; without a timeout (zero or negative) it may take any time. *)
Theorem answered_in_time_partial : forall T o s c k a, reachable o T s -> able s c -> asks c = Some (k, a) ->
  Forall calm (a_waiting a) -> T <= 0 \/ Z.of_nat (List.length (a_waiting a)) < T * 10 -> a_code a <> TRAX_ERROR ->
  exists s', do_call s c = Ok (Returned (a_code a =? success k), s') /\ t_process s' = t_process s /\ t_os s' = t_os s.
Proof. exact answered_in_time. Qed.
Print Assumptions answered_in_time_partial.
(** A request that is not answered by then returns false, and the tracker process is gone. *)
Theorem timed_out_partial : forall T o s c k a, reachable o T s -> able s c -> asks c = Some (k, a) ->
  Forall calm (a_waiting a) -> 0 < T -> T * 10 <= Z.of_nat (List.length (a_waiting a)) ->
  exists s', do_call s c = Ok (Returned false, s') /\ t_process s' = None /\ not_ready s'.
Proof. exact timed_out. Qed.
Print Assumptions timed_out_partial.
(** The same for starting a tracker: it is ready if its introduction comes in time, and stopped if not. *)
Theorem started_in_time_partial : forall T o s s0 l id v, reachable o T s -> process_running s = (false, s0) -> launch_ok l ->
  spawned (l_answers l) = Some id -> l_first l = None -> Forall calm (l_waiting l) -> T <= 0 \/ Z.of_nat (List.length (l_waiting l)) < T * 10 ->
  l_version l = Some v -> v <= 4 -> exists s', do_call s (Query l) = Ok (Returned true, s') /\ is_ready s'.
Proof. exact start_in_time_r. Qed.
Print Assumptions started_in_time_partial.
Theorem start_timed_out_partial : forall T o s s0 l id, reachable o T s -> process_running s = (false, s0) -> launch_ok l ->
  spawned (l_answers l) = Some id -> l_first l = None -> Forall calm (l_waiting l) -> 0 < T -> T * 10 <= Z.of_nat (List.length (l_waiting l)) ->
  exists s', do_call s (Query l) = Ok (Threw, s') /\ t_process s' = None /\ not_ready s'.
Proof. exact start_late_r. Qed.
Print Assumptions start_timed_out_partial.
(** With a timeout of one second: an answer after nine turns counts, one after ten does not; the same for the introduction. *)
Example timeouts_nonvacuous : exists s1 s2, reachable client_os 1 s1 /\ run (fresh 1) [Initialize (good 77 9) (says 9 TRAX_OK)] = Ok ([Returned true], s1) /\ able s1 (Frame (says 9 TRAX_OK)) /\
  able s1 (Initialize (good 78 0) (says 9 TRAX_OK)) /\
  run s1 [Wait (says 9 TRAX_STATE); Frame (says 9 TRAX_OK); Wait (says 10 TRAX_STATE); AskReady] = Ok ([Returned true; Returned true; Returned false; Returned false], s2) /\
  (exists s3, run (fresh 1) [Query (good 77 9); AskReady] = Ok ([Returned true; Returned true], s3)) /\
  (exists s3, run (fresh 1) [Query (good 77 10); AskReady] = Ok ([Threw; Returned false], s3)).
Proof.
  eexists _, _. split; [|split; [vm_compute; reflexivity|]].
  - exists false, [], [Initialize (good 77 9) (says 9 TRAX_OK)], [Returned true]. split; [exact client_fresh|]. split; [reflexivity|]. split; [|vm_compute; reflexivity].
    constructor; [apply good_ok; reflexivity|constructor].
  - split; [eexists; vm_compute; reflexivity|]. split; [eexists; vm_compute; reflexivity|]. split; [vm_compute; reflexivity|]. split; eexists; vm_compute; reflexivity.
Qed.
(** A timeout of more than 214748364 seconds overflows. *)
Theorem long_timeout_refuted : forall o explicit en timeout l a, 214748364 < timeout -> launch_ok l -> spawned (l_answers l) <> None -> l_first l = None ->
  do_call (tracker_create o explicit en timeout) (Initialize l a) = UB.
Proof. exact long_timeout. Qed.
Print Assumptions long_timeout_refuted.
Example long_timeout_nonvacuous : launch_ok (good 77 0) /\ spawned (l_answers (good 77 0)) <> None /\ in_int 214748365 = true.
Proof. split; [apply good_ok; reflexivity|]. split; [discriminate|reflexivity]. Qed.

(** ---- C74: requests come in order ---- *)
(** As long as trackers are only launched to be initialised at once, frames and states are only asked for directly after the tracker has
    answered the request before with success. *)
Theorem requests_in_order_partial : forall T o explicit en calls rs s, in_int (T * 10) = true -> Forall call_ok calls -> Forall no_bare_launch calls ->
  run (tracker_create o explicit en T) calls = Ok (rs, s) -> in_order (t_events s).
Proof. exact frames_in_order. Qed.
Print Assumptions requests_in_order_partial.
Example requests_in_order_nonvacuous : exists s, run (fresh 1) [Initialize (good 77 0) (says 0 TRAX_OK); Wait (says 0 TRAX_STATE); Frame (says 0 TRAX_QUIT); Wait (says 0 TRAX_STATE)] =
    Ok ([Returned true; Returned true; Returned false; Threw], s) /\
  t_events s = [Answered NewFrame TRAX_QUIT; Sent NewFrame; Answered AwaitState TRAX_STATE; Sent AwaitState; Answered Initialise TRAX_OK; Sent Initialise; Launched 77].
Proof. eexists. split; vm_compute; reflexivity. Qed.
(** After a restart the client believes that the tracker is tracking, and sends it a frame although it was never initialised. *)
Theorem frame_after_reset_refuted : exists s, run (fresh 1) [Initialize (good 77 0) (says 0 TRAX_OK); Reset [Some (Exited 0)] (good 78 0); AskTracking; Frame (says 0 TRAX_OK)] =
    Ok ([Returned true; Returned true; Returned true; Returned true], s) /\
  t_events s = [Answered NewFrame TRAX_OK; Sent NewFrame; Launched 78; QuitSent; Answered Initialise TRAX_OK; Sent Initialise; Launched 77] /\ ~ in_order (t_events s).
Proof.
  eexists. split; [vm_compute; reflexivity|]. split; [vm_compute; reflexivity|]. vm_compute. intros H.
  destruct (H [Answered NewFrame 0] NewFrame _ eq_refl) as (r & rest & E); [discriminate|discriminate E].
Qed.
Print Assumptions frame_after_reset_refuted.
(** Asking whether a started tracker is tracking before it was initialised reads an uninitialised variable; so do frame and wait. *)
Theorem tracking_before_initialize_refuted : forall c, needs_tracking c -> run (fresh 1) [Query (good 77 0); c] = UB.
Proof. intros [l|l a|a|a|x l| | |u|d] H; cbn [needs_tracking] in H; try contradiction; vm_compute; reflexivity. Qed.
Print Assumptions tracking_before_initialize_refuted.
(** A tracker with a protocol version that the client does not support is reported by an exception, but the tracker stays ready. *)
Theorem unsupported_version_refuted : exists s, run (fresh 1) [Query (mkLaunch (mkAnswers 3 (Some 77)) None [] (Some 5) []); AskReady] = Ok ([Threw; Returned true], s).
Proof. eexists. vm_compute. reflexivity. Qed.
Print Assumptions unsupported_version_refuted.

(** ---- C75: trackers are stopped politely ---- *)
(** A ready tracker that ends within half a second is sent no signal, one that ends within the next half second is sent SIGTERM, all
    others are sent SIGTERM and SIGKILL, in this order. *)
Theorem polite_stop_partial : forall T o s x, reachable o T s -> is_ready s -> exists o', tracker_destroy s x = Ok o' /\
  (forall k d, (k < 5)%nat -> quiet k x -> nth k x None = Some d -> sent_since (t_os s) o' []) /\
  (forall k d, (5 <= k < 10)%nat -> quiet k x -> nth k x None = Some d -> sent_since (t_os s) o' [15]) /\
  (forall d, quiet 10 x -> nth 10 x None = Some d -> sent_since (t_os s) o' [15; 9]) /\
  (quiet 11 x -> sent_since (t_os s) o' [15; 9; 9]).
Proof. exact polite. Qed.
Print Assumptions polite_stop_partial.
(** Restarting tells a ready tracker to quit before anything else. *)
Theorem reset_quits_first : forall T o s x l r s', reachable o T s -> is_ready s -> launch_ok l -> do_call s (Reset x l) = Ok (r, s') ->
  exists later, t_events s' = later ++ QuitSent :: t_events s.
Proof. exact reset_quits. Qed.
Print Assumptions reset_quits_first.
Example polite_stop_nonvacuous : exists s, run (fresh 1) [Initialize (good 77 0) (says 0 TRAX_OK)] = Ok ([Returned true], s) /\ is_ready s /\ reachable client_os 1 s /\
  (exists o', tracker_destroy s [None; None; Some (Exited 0)] = Ok o' /\ map fst (signals o') = []) /\
  (exists o', tracker_destroy s (repeat None 7 ++ [Some (Exited 0)]) = Ok o' /\ map fst (signals o') = [15]) /\
  (exists o', tracker_destroy s (repeat None 10 ++ [Some (Signaled 9)]) = Ok o' /\ map fst (signals o') = [9; 15]) /\
  (exists o', tracker_destroy s [] = Ok o' /\ map fst (signals o') = [9; 9; 15]).
Proof.
  eexists. split; [vm_compute; reflexivity|]. split; [eexists; vm_compute; reflexivity|]. split.
  - exists false, [], [Initialize (good 77 0) (says 0 TRAX_OK)], [Returned true]. split; [exact client_fresh|]. split; [reflexivity|]. split; [|vm_compute; reflexivity].
    constructor; [apply good_ok; reflexivity|constructor].
  - split; [|split; [|split]]; (eexists; split; vm_compute; reflexivity).
Qed.

(** ---- C76: histories are safe and give everything back ---- *)
(** Every history in which the first initialisation comes before everything that needs one, and did not throw, is defined, and so is
    the destruction after it. *)
Theorem histories_defined_partial : forall T o explicit en pre l a post, in_int (T * 10) = true -> Forall call_ok (pre ++ Initialize l a :: post) ->
  Forall (fun c => ~ needs_tracking c) pre ->
  exists rs s r s1, run (tracker_create o explicit en T) pre = Ok (rs, s) /\ do_call s (Initialize l a) = Ok (r, s1) /\
    (r <> Threw -> exists rs' s2, run s1 post = Ok (rs', s2) /\ forall x, exists o', tracker_destroy s2 x = Ok o').
Proof. exact histories. Qed.
Print Assumptions histories_defined_partial.
(** If the watchdog had a turn before each launch, the destruction gives all descriptors back. *)
Theorem descriptors_returned_partial : forall T o explicit en calls rs s x, in_int (T * 10) = true -> Forall call_ok calls -> watched calls ->
  run (tracker_create o explicit en T) calls = Ok (rs, s) -> exists o', tracker_destroy s x = Ok o' /\ same_table (files o') (files o).
Proof. exact all_returned. Qed.
Print Assumptions descriptors_returned_partial.
Definition long_history : list call :=
  [Initialize no_process (says 0 TRAX_OK); Turn nothing; Initialize (good 77 3) (says 2 TRAX_OK); Wait (says 1 TRAX_STATE); Dies (Exited 1); Frame (says 0 TRAX_OK); Turn nothing;
   Initialize (good 78 0) (says 0 TRAX_OK); Wait (says 10 TRAX_STATE); AskTracking].
Example histories_nonvacuous : Forall call_ok long_history /\ watched long_history /\ exists s, run (fresh 1) long_history =
  Ok ([Threw; Returned true; Returned true; Returned true; Returned true; Threw; Returned true; Returned true; Returned false; Returned false], s).
Proof.
  split; [|split; [|eexists; vm_compute; reflexivity]].
  - repeat constructor; cbn; try lia; try (intros i E; injection E as <-; lia); try (intros i E; discriminate E).
  - unfold long_history. intros before c after E [(l & ->)|(l & a & ->)].
    + exfalso. do 10 (destruct before as [|? before]; [discriminate E|injection E as _ E]). destruct before; discriminate E.
    + destruct before as [|c0 before]; [left; reflexivity|right]. injection E as <- E. destruct before as [|c1 before]; [discriminate E|]. injection E as <- E.
      destruct before as [|c2 before]; [exists [Initialize no_process (says 0 TRAX_OK)], nothing; reflexivity|]. injection E as <- E.
      do 4 (destruct before as [|? before]; [discriminate E|injection E as <- E]).
      destruct before as [|? before]; [eexists (_ :: _ :: _ :: _ :: _ :: _ :: []), nothing; reflexivity|]. injection E as <- E.
      do 2 (destruct before as [|? before]; [discriminate E|injection E as <- E]). destruct before; discriminate E.
Qed.
(** If a tracker dies and is initialised again before the watchdog has noticed, the first process object and its descriptors are lost. *)
Theorem crash_leaks_refuted : exists s o', run (fresh 1) [Initialize (good 77 0) (says 0 TRAX_OK); Dies (Signaled 11); Initialize (good 78 0) (says 0 TRAX_OK)] =
    Ok ([Returned true; Returned true; Returned true], s) /\ t_lost s = 1%nat /\ tracker_destroy s [] = Ok o' /\ ~ same_table (files o') (files client_os).
Proof. eexists _, _. split; [vm_compute; reflexivity|]. split; [vm_compute; reflexivity|]. split; [vm_compute; reflexivity|]. intros H. specialize (H 3%nat). vm_compute in H. discriminate H. Qed.
Print Assumptions crash_leaks_refuted.
(** A tracker that introduces itself and ends before the client has returned from starting it makes the client use a null pointer. *)
Theorem introduce_and_exit_refuted : run (fresh 1) [Query (mkLaunch (mkAnswers 3 (Some 77)) None [] (Some 4) [mkTurn (Some (Exited 0)) false []])] = UB.
Proof. vm_compute. reflexivity. Qed.
Print Assumptions introduce_and_exit_refuted.
(** If the system has fewer than three pipes left, the next turn of the watchdog uses uninitialised members of the process. *)
Theorem no_pipes_refuted : forall n, (n < 3)%nat -> exists s, run (fresh 1) [Query (mkLaunch (mkAnswers n None) None [] None [])] = Ok ([Threw], s) /\ do_call s (Turn nothing) = UB.
Proof. intros [|[|[|n]]] H; try lia; eexists; (split; [vm_compute; reflexivity|vm_compute; reflexivity]). Qed.
Print Assumptions no_pipes_refuted.

(** ---- C77: crashes and failures ---- *)
(** A tracker that has ended is not ready; the next turn of the watchdog removes it and gives its descriptors back. *)
Theorem crash_noticed_at_once : forall T o s d r s1 u, reachable o T s -> do_call s (Dies d) = Ok (r, s1) ->
  not_ready s1 /\ exists s2, do_call s1 (Turn u) = Ok (Returned true, s2) /\ t_process s2 = None /\ not_ready s2 /\ (t_lost s = 0%nat -> same_table (files (t_os s2)) (files o)).
Proof. exact crash_noticed. Qed.
Print Assumptions crash_noticed_at_once.
(** After a request that failed, ended the session or timed out the tracker is not ready. *)
Theorem failed_request_not_ready : forall T o s c k a s', reachable o T s -> call_ok c -> asks c = Some (k, a) -> answer_ok k a ->
  do_call s c = Ok (Returned false, s') -> not_ready s'.
Proof. exact failure_not_ready. Qed.
Print Assumptions failed_request_not_ready.
(** A watchdog callback that asks for it stops the tracker at the next turn. *)
Theorem callback_stops_tracker : forall T o s u, reachable o T s -> u_callbacks u = true ->
  exists s2, do_call s (Turn u) = Ok (Returned true, s2) /\ t_process s2 = None /\ not_ready s2.
Proof. exact callback_stops. Qed.
Print Assumptions callback_stops_tracker.
Example crash_nonvacuous : exists s1 s2, run (fresh 1) [Initialize (good 77 0) (says 0 TRAX_OK); AskReady] = Ok ([Returned true; Returned true], s1) /\
  run s1 [Dies (Signaled 11); AskReady; Turn nothing; AskReady] = Ok ([Returned true; Returned false; Returned true; Returned false], s2) /\ t_process s2 = None /\
  (exists s3, run s1 [Wait (says 0 TRAX_ERROR); AskReady] = Ok ([Returned false; Returned false], s3)) /\
  (exists s3, run s1 [Turn (mkTurn None true [Some (Exited 0)]); AskReady] = Ok ([Returned true; Returned false], s3)).
Proof. eexists _, _. split; [vm_compute; reflexivity|]. split; [vm_compute; reflexivity|]. split; [reflexivity|]. split; eexists; vm_compute; reflexivity. Qed.
