(** Specification vocabulary for tracker processes as a client sees them. *)
From Verif Require Import CBase Num Handle Process ProcessSpec Tracker.
Local Open Scope Z_scope.

(** A turn of the watchdog in which nothing happens. *)
Definition calm (u : turn) : Prop := u_before u = None /\ u_callbacks u = false.
(** The system has the means to start a process. *)
Definition launch_ok (l : launch) : Prop :=
  (3 <= pipes_possible (l_answers l))%nat /\ (forall id, spawned (l_answers l) = Some id -> 0 < id) /\ l_after l = [].
(** The answer is a success, an error, or it ended the session. *)
Definition answer_ok (r : request) (a : answer) : Prop :=
  a_code a = (match r with AwaitState => TRAX_STATE | _ => TRAX_OK end) \/ a_code a = TRAX_ERROR \/ a_alive a = false.
(** What can happen to a tracker process: the functions of the interface, a turn of the watchdog, the end of the tracker. *)
Inductive call :=
  | Query (l : launch) | Initialize (l : launch) (a : answer) | Frame (a : answer) | Wait (a : answer) | Reset (x : sleeps) (l : launch)
  | AskReady | AskTracking | Turn (u : turn) | Dies (e : ending).
Definition do_call (s : tracker) (c : call) : outcome (result * tracker) :=
  match c with
  | Query l => start_process s l
  | Initialize l a => initialize s l a
  | Frame a => frame s a
  | Wait a => wait s a
  | Reset x l => reset s x l
  | AskReady => r <- ready s ;; Ok (Returned (fst r), snd r)
  | AskTracking => r <- is_tracking s ;; Ok (Returned (fst r), snd r)
  | Turn u => s <- tick s u ;; Ok (Returned true, s)
  | Dies e => Ok (Returned true, set_process s (sleep (t_os s) (Some e)) (t_process s))
  end.
(** All results and the last state. *)
Fixpoint run (s : tracker) (l : list call) : outcome (list result * tracker) :=
  match l with
  | [] => Ok ([], s)
  | c :: l' => r <- do_call s c ;; t <- run (snd r) l' ;; Ok (fst r :: fst t, snd t)
  end.
Definition call_ok (c : call) : Prop :=
  match c with Query l | Reset _ l | Initialize l _ => launch_ok l | _ => True end.
(** The call launches trackers only to initialise them at once, and only trackers of a known version. *)
Definition no_bare_launch (c : call) : Prop :=
  match c with Query _ | Reset _ _ => False | Initialize l _ => forall v, l_version l = Some v -> v <= 4 | _ => True end.
(** Frames and states are only asked for directly after the same tracker has answered a request with success (events: latest first). *)
Definition success (r : request) : Z := match r with AwaitState => TRAX_STATE | _ => TRAX_OK end.
Definition in_order (events : list event) : Prop :=
  forall later r earlier, events = later ++ Sent r :: earlier -> r <> Initialise ->
  exists r' rest, earlier = Answered r' (success r') :: Sent r' :: rest.
(** Nothing happens in the first [n] sleeps. *)
Definition quiet (n : nat) (x : sleeps) : Prop := forall j, (j < n)%nat -> nth j x None = None.
(** The signals sent since another state of the system, in order. *)
Definition sent_since (o o' : os) (l : list Z) : Prop := map fst (signals o') = rev l ++ map fst (signals o).
(** The tracker runs and was introduced. *)
Definition is_ready (s : tracker) : Prop := exists s', ready s = Ok (true, s').
Definition not_ready (s : tracker) : Prop := exists s', ready s = Ok (false, s').
(** States that a client can bring about. *)
Definition reachable (o : os) (timeout : Z) (s : tracker) : Prop :=
  exists explicit env calls results, fresh_os o /\ in_int (timeout * 10) = true /\ Forall call_ok calls /\
    run (tracker_create o explicit env timeout) calls = Ok (results, s).
(** Calls that make a request, with the request and its answer. *)
Definition asks (c : call) : option (request * answer) :=
  match c with Initialize _ a => Some (Initialise, a) | Frame a => Some (NewFrame, a) | Wait a => Some (AwaitState, a) | _ => None end.
(** The tracker is in the state that the request is meant for. *)
Definition able (s : tracker) (c : call) : Prop :=
  match c with Initialize _ _ => is_ready s | Frame _ | Wait _ => exists s', is_tracking s = Ok (true, s') | _ => False end.
(** Calls that make sense only after an initialisation. *)
Definition needs_tracking (c : call) : Prop := match c with Frame _ | Wait _ | AskTracking => True | _ => False end.
(** Trackers are launched at the beginning or directly after a turn of the watchdog (or by [Reset]). *)
Definition watched (calls : list call) : Prop :=
  forall before c after, calls = before ++ c :: after -> (exists l, c = Query l) \/ (exists l a, c = Initialize l a) ->
  before = [] \/ exists earlier u, before = earlier ++ [Turn u].
