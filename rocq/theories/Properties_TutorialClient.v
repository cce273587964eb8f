(** Theorems about the tutorial client (C131). *)
From Verif Require Import CBase Num Region Handle Process ProcessSpec Tracker TrackerSpec TutorialClient TutorialClientSpec TutorialClientProofs.
Local Open Scope Z_scope.

(** With a tracker that starts and answers in time, the client shows one picture after the other, in order and without leaving one out,
    starts anew at every fiftieth with the region of that picture, and ends with the ground truth; the tracker is still there then. *)
Theorem tutorial_client_partial : forall o truth m, Z.of_nat (List.length truth) <= INT_MAX -> goes_well (List.length truth) m ->
  exists s asked, tutorial o truth m = Ok (Finished, s, asked) /\ as_planned truth asked /\ (truth <> [] -> is_ready s).
Proof. exact tutorial_well. Qed.
Print Assumptions tutorial_client_partial.
Example tutorial_client_nonvacuous : goes_well 60 sample_moment /\ Z.of_nat (List.length (sample_truth 60)) <= INT_MAX /\
  exists s asked, tutorial sample_system (sample_truth 60) sample_moment = Ok (Finished, s, asked) /\
    nth_error asked 49 = Some (GoOn (str "00000050.jpg")) /\ nth_error asked 50 = Some (BeginWith (str "00000051.jpg") (RSpecial 0)).
Proof.
  split; [|split; [vm_compute; discriminate|eexists _, _; split; [vm_compute; reflexivity|split; vm_compute; reflexivity]]].
  assert (C : forall n, Forall calm (repeat still n)) by (intros n; apply Forall_forall; intros x Hx; apply repeat_spec in Hx; subst x; split; reflexivity).
  split.
  - split; [split; [cbn; lia|split; [intros id E; injection E as <-; reflexivity|reflexivity]]|]. split; [exists 77; reflexivity|]. split; [reflexivity|]. split; [apply C|]. split; [cbn; lia|]. exists 4. split; [reflexivity|discriminate].
  - intros i _. split; (split; [apply C|split; [cbn; lia|split; [|reflexivity]]]); [unfold request_at; destruct (Nat.eqb (i mod 50) 0); reflexivity|reflexivity].
Qed.

(** When the tracker fails or is late with the state of the picture before a new beginning, another one is launched and the client
    goes on with it as planned. *)
Theorem tutorial_restart_partial : forall o before g rest m, let k := List.length before in Z.of_nat (S k + List.length rest) <= INT_MAX -> goes_well k m ->
  answers_well (request_at k) (w_request (m k)) -> answer_ok AwaitState (w_state (m k)) -> no_answer (w_state (m k)) -> (S k mod 50 = 0)%nat -> starts_well (w_launch (m (S k))) ->
  (forall i, (S k <= i < S k + List.length rest)%nat -> answers_well (request_at i) (w_request (m i)) /\ answers_well AwaitState (w_state (m i))) ->
  exists s asked, tutorial o (before ++ g :: rest) m = Ok (Finished, s, asked) /\ as_planned (before ++ g :: rest) asked.
Proof. exact restarted. Qed.
Print Assumptions tutorial_restart_partial.
(** The tracker fails at picture 50 of 60, and another one goes on.  One that quits there and whose process is still running is not
    replaced. *)
Example tutorial_restart_nonvacuous : no_answer (w_state (fails_at 49 49)) /\ answer_ok AwaitState (w_state (fails_at 49 49)) /\
  (exists s asked, tutorial sample_system (sample_truth 60) (fails_at 49) = Ok (Finished, s, asked) /\ List.length (filter (fun e => match e with Launched _ => true | _ => false end) (t_events s)) = 2%nat) /\
  (exists s asked, tutorial sample_system (sample_truth 60) (quits_at 49) = Ok (Uncaught 50, s, asked)).
Proof.
  split; [left; reflexivity|]. split; [right; left; reflexivity|]. split; [eexists _, _; split; [vm_compute; reflexivity|vm_compute; reflexivity]|eexists _, _; vm_compute; reflexivity].
Qed.

(** Whatever a proper tracker does, the client has no undefined behaviour; but it never ends at the line for a tracker that has
    requested termination (nor does any tracker get it to). *)
Theorem tutorial_termination_refuted : forall o truth m, Z.of_nat (List.length truth) <= INT_MAX -> (forall j, (j < List.length truth)%nat -> proper_moment j (m j)) ->
  exists c s asked, tutorial o truth m = Ok (c, s, asked) /\ (forall j, c <> Requested j).
Proof. exact tutorial_any. Qed.
Print Assumptions tutorial_termination_refuted.
(** Instead, when a tracker quits, fails or is late with a state, the next picture ends the client by an exception that nobody catches. *)
Theorem tutorial_exception_refuted : forall o before g g' rest m, let k := List.length before in Z.of_nat (S (S k)) <= INT_MAX -> goes_well k m ->
  answers_well (request_at k) (w_request (m k)) -> no_state (w_state (m k)) -> (S k mod 50 <> 0)%nat ->
  exists s asked, tutorial o (before ++ g :: g' :: rest) m = Ok (Uncaught (S k), s, asked).
Proof. exact missing_next. Qed.
Print Assumptions tutorial_exception_refuted.
(** When it happens at the last picture, nobody notices. *)
Theorem tutorial_last_state_refuted : forall o before g m, let k := List.length before in Z.of_nat (S k) <= INT_MAX -> goes_well k m ->
  answers_well (request_at k) (w_request (m k)) -> no_state (w_state (m k)) -> exists s asked, tutorial o (before ++ [g]) m = Ok (Finished, s, asked).
Proof. exact missing_last. Qed.
Print Assumptions tutorial_last_state_refuted.
(** A tracker that quits at the third of five pictures, and one that quits at the last of three. *)
Example tutorial_quit_nonvacuous : no_state (w_state (quits_at 2 2)) /\ (forall j, proper_moment j (quits_at 2 j)) /\
  (exists s asked, tutorial sample_system (sample_truth 5) (quits_at 2) = Ok (Uncaught 3, s, asked)) /\
  (exists s asked, tutorial sample_system (sample_truth 3) (quits_at 2) = Ok (Finished, s, asked)).
Proof.
  split; [split; [right; right; reflexivity|left; discriminate]|]. split; [|split; eexists _, _; vm_compute; reflexivity].
  intros j. split; [split; [cbn; lia|split; [intros id E; injection E as <-; reflexivity|reflexivity]]|].
  split; [left; unfold request_at; destruct (Nat.eqb (j mod 50) 0); reflexivity|]. cbn [quits_at w_state]. destruct (Nat.eqb j 2); [right; right; reflexivity|left; reflexivity].
Qed.
