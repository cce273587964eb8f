(** Model of the class TrackerProcess (support/client/client.cpp) on top of the model of child processes.
    The watchdog thread is a sequence of ticks.  A tick happens as a whole, between two calls or while a call waits for the tracker.
    Simplifications: what a client says to a tracker is reduced to the kind of message; the logger thread, debug output and the
    server socket are left out; the working directory is left out. *)
From Verif Require Import CBase Num Region Handle Process.
Local Open Scope Z_scope.

(** What passes between client and tracker, and the starts of trackers *)
Inductive request := Initialise | NewFrame | AwaitState.
Inductive event := Launched (id : Z) | Sent (r : request) | QuitSent | Answered (r : request) (code : Z).
(** src/traxpp.cpp:282-294: a Client has a handle or not; a handle is alive or terminated *)
Inductive handle_state := NoHandle | Alive | Terminated.

(** support/client/client.cpp:679-721, the members of State that are used here.  [tracking] is not initialised by the constructor.
    [lost] counts Process objects that were never deleted, [events] is what happened, latest first. *)
Record tracker := mkTracker {
  t_os : os; t_process : option process; t_client : option handle_state; t_tracking : option bool; t_count : Z;
  t_timeout : Z; t_explicit : bool; t_env : list (list N * list N);
  t_lost : nat; t_events : list event
}.
Definition set_process (s : tracker) (o : os) (p : option process) : tracker :=
  mkTracker o p (t_client s) (t_tracking s) (t_count s) (t_timeout s) (t_explicit s) (t_env s) (t_lost s) (t_events s).
Definition set_client (s : tracker) (c : option handle_state) : tracker :=
  mkTracker (t_os s) (t_process s) c (t_tracking s) (t_count s) (t_timeout s) (t_explicit s) (t_env s) (t_lost s) (t_events s).
Definition set_tracking (s : tracker) (b : bool) : tracker :=
  mkTracker (t_os s) (t_process s) (t_client s) (Some b) (t_count s) (t_timeout s) (t_explicit s) (t_env s) (t_lost s) (t_events s).
Definition set_count (s : tracker) (n : Z) : tracker :=
  mkTracker (t_os s) (t_process s) (t_client s) (t_tracking s) n (t_timeout s) (t_explicit s) (t_env s) (t_lost s) (t_events s).
Definition set_lost (s : tracker) (n : nat) : tracker :=
  mkTracker (t_os s) (t_process s) (t_client s) (t_tracking s) (t_count s) (t_timeout s) (t_explicit s) (t_env s) n (t_events s).
Definition record (s : tracker) (e : event) : tracker :=
  mkTracker (t_os s) (t_process s) (t_client s) (t_tracking s) (t_count s) (t_timeout s) (t_explicit s) (t_env s) (t_lost s) (e :: t_events s).

(** support/client/client.cpp:227-266 State::State; [env] is what copy_environment and the given environment amount to *)
Definition tracker_create (o : os) (explicit : bool) (env : list (list N * list N)) (timeout : Z) : tracker :=
  mkTracker o None None None 0 timeout explicit env 0 [].

(** Sleeping: the child may end meanwhile *)
Definition sleep (o : os) (x : option ending) : os :=
  match x, the_child o with
  | Some e, Some c =>
      match c_life c with
      | Running => mkOs (files o) (pipes o) (Some (mkChild (c_pid c) (c_files c) (c_vars c) (Ended e))) (signals o)
      | _ => o
      end
  | _, _ => o
  end.
(** What happens during the sleeps of a function, in order *)
Definition sleeps := list (option ending).
Definition next (l : sleeps) : option ending * sleeps := match l with [] => (None, []) | x :: l' => (x, l') end.

(** support/client/client.cpp:292-295 State::process_running *)
Definition process_running (s : tracker) : bool * tracker :=
  match t_process s with
  | None => (false, s)
  | Some p => let '(a, _, o, p') := is_alive (t_os s) p in (a, set_process s o (Some p'))
  end.
(** support/client/client.cpp:400-403 and 408-411: up to [n] looks, a sleep after each that finds the process alive *)
Fixpoint poll (n : nat) (o : os) (p : process) (l : sleeps) : os * process * sleeps :=
  match n with
  | O => (o, p, l)
  | S n' =>
      let '(a, _, o, p) := is_alive o p in
      if a then let '(x, l) := next l in poll n' (sleep o x) p l else (o, p, l)
  end.
(** support/client/client.cpp:413-418 *)
Definition escalate (o : os) (p : process) (l : sleeps) : var * os * process :=
  let '(a, st, o, p) := is_alive o p in
  if a
  then let '(o, p) := process_kill o p in
       let '(_, st, o, p) := is_alive (sleep o (fst (next l))) p in (st, o, p)
  else (st, o, p).
(** support/client/client.cpp:400-420: the status, the system and the process after all attempts *)
Definition end_process (o : os) (p : process) (l : sleeps) : var * os * process :=
  let '(o, p, l) := poll 5 o p l in
  let '(a, st, o, p) := is_alive o p in
  if a
  then let '(o, p) := process_stop o p in
       let '(o, p, l) := poll 5 o p l in escalate o p l
  else (st, o, p).
(** src/trax.c:1449-1476 trax_terminate by way of src/traxpp.cpp:267-270 *)
Definition client_terminate (s : tracker) : tracker :=
  match t_client s with
  | Some Alive => record (set_client s (Some Terminated)) QuitSent
  | _ => s
  end.
(** support/client/client.cpp:385-446 State::stop_process *)
Definition stop_process (s : tracker) (l : sleeps) : outcome (bool * tracker) :=
  let s := client_terminate (set_count s 0) in
  match t_process s with
  | None => Ok (true, s)
  | Some p =>
      let '(st, o, p) := end_process (t_os s) p l in
      o <- process_destroy o p ;;
      st <- fetch st ;;
      Ok (st =? 0, set_process s o None)
  end.

(** One turn of the watchdog: what happens to the child before, what the callbacks say, the sleeps of stopping *)
Record turn := mkTurn { u_before : option ending; u_callbacks : bool; u_sleeps : sleeps }.
(** support/client/client.cpp:543-585 State::watchdog_loop *)
Definition tick (s : tracker) (u : turn) : outcome tracker :=
  let '(a, s) := process_running (set_process s (sleep (t_os s) (u_before u)) (t_process s)) in
  if negb a || u_callbacks u
  then r <- stop_process s (u_sleeps u) ;; Ok (snd r)
  else if 0 <? t_count s
  then let s := set_count s (t_count s - 1) in
       if t_count s =? 0 then r <- stop_process s (u_sleeps u) ;; Ok (snd r) else Ok s
  else Ok s.
Fixpoint ticks (s : tracker) (l : list turn) : outcome tracker :=
  match l with
  | [] => Ok s
  | u :: l' => s <- tick s u ;; ticks s l'
  end.

(** How a start goes: the answers of the system, the first tenth of a second, the turns of the watchdog until the introduction of the
    tracker arrives (None: it is not acceptable), its version, the turns between that and line 375 *)
Record launch := mkLaunch { l_answers : answers; l_first : option ending; l_waiting : list turn; l_version : option Z; l_after : list turn }.
Inductive result := Returned (b : bool) | Threw.
Definition TRAX_VERSION : Z := 4.
(** support/client/client.cpp:448-465 reset_watchdog, start_watchdog, stop_watchdog *)
Definition start_watchdog (s : tracker) : outcome tracker := n <- int_result (t_timeout s * 10) ;; Ok (set_count s n).
(** support/client/client.cpp:346-380, from the start of the watchdog on.  A client whose tracker was stopped by the watchdog has no
    introduction to read. *)
Definition connect (s : tracker) (id : Z) (l : launch) : outcome (result * tracker) :=
  s <- start_watchdog s ;;
  s <- ticks s (l_waiting l) ;;
  match t_process s, l_version l with
  | Some _, Some v =>
      let s := set_client s (Some Alive) in
      s <- ticks s (l_after l) ;;
      let s := set_count s 0 in
      match t_process s with
      | None => UB                                           (* process->get_handle() *)
      | Some _ => Ok (if TRAX_VERSION <? v then Threw else Returned true, s)
      end
  | _, _ => Ok (Threw, set_client s (Some NoHandle))
  end.
(** support/client/client.cpp:297-383 State::start_process *)
Definition start_process (s : tracker) (l : launch) : outcome (result * tracker) :=
  let '(a, s) := process_running s in
  if a then Ok (Returned false, s)
  else
    let s := set_client s None in
    let s := set_lost s (match t_process s with Some _ => S (t_lost s) | None => t_lost s end) in
    r <- process_start (t_os s) (with_env (process_create (t_explicit s)) (t_env s)) (l_answers l) ;;
    let '(started, o, p) := r in
    let s := set_process s o (Some p) in
    if started
    then let s := record (set_process s (sleep o (l_first l)) (Some p)) (Launched (pid p)) in
         let '(a, s) := process_running s in
         if a then connect s (pid p) l else Ok (Threw, s)
    else Ok (Threw, s).

(** support/client/client.cpp:896-902 TrackerProcess::ready *)
Definition ready (s : tracker) : outcome (bool * tracker) :=
  let '(a, s) := process_running s in
  if a
  then match t_client s with
       | None => UB
       | Some Alive => Ok (true, s)
       | Some _ => Ok (false, s)
       end
  else Ok (false, s).
(** support/client/client.cpp:904-909 TrackerProcess::tracking *)
Definition is_tracking (s : tracker) : outcome (bool * tracker) :=
  r <- ready s ;;
  let '(a, s) := r in
  if a then b <- fetch (t_tracking s) ;; Ok (b, s) else Ok (false, s).

(** How the tracker answers: the turns of the watchdog until then, the result of the client's function, whether the handle is alive
    afterwards, and the sleeps if the process has to be stopped *)
Record answer := mkAnswer { a_waiting : list turn; a_code : Z; a_alive : bool; a_sleeps : sleeps }.
(** The result that means success *)
Definition wanted (r : request) : Z := match r with AwaitState => TRAX_STATE | _ => TRAX_OK end.
(** support/client/client.cpp:757-773 (also 783-796, 806-819, 830-845, 855-868, 878-892): from start_watchdog on.  The exception for
    TRAX_ERROR is made but not thrown.  Without a process the client's function fails. *)
Definition ask (s : tracker) (r : request) (a : answer) : outcome (result * tracker) :=
  s <- start_watchdog s ;;
  s <- ticks (record s (Sent r)) (a_waiting a) ;;
  let '(code, s) := match t_process s with
                    | Some _ => (a_code a, set_client s (Some (if a_alive a then Alive else Terminated)))
                    | None => (TRAX_ERROR, s)
                    end in
  let s := record s (Answered r code) in
  let s := set_tracking (set_count s 0) (code =? wanted r) in
  if code =? TRAX_ERROR
  then r' <- stop_process s (a_sleeps a) ;; Ok (Returned false, snd r')
  else Ok (Returned (code =? wanted r), s).
(** support/client/client.cpp:750-775 and 823-847 TrackerProcess::initialize *)
Definition initialize (s : tracker) (l : launch) (a : answer) : outcome (result * tracker) :=
  r <- start_process s l ;;
  match r with
  | (Threw, s) => Ok (Threw, s)
  | (Returned _, s) =>
      r <- ready s ;;
      let '(b, s) := r in
      if b then ask (set_tracking s false) Initialise a else Ok (Threw, s)
  end.
(** support/client/client.cpp:777-821 and 849-894 TrackerProcess::wait and TrackerProcess::frame *)
Definition continue (s : tracker) (k : request) (a : answer) : outcome (result * tracker) :=
  r <- ready s ;;
  let '(b, s) := r in
  if b
  then t <- fetch (t_tracking s) ;; if t : bool then ask s k a else Ok (Threw, s)
  else Ok (Threw, s).
Definition frame (s : tracker) (a : answer) := continue s NewFrame a.
Definition wait (s : tracker) (a : answer) := continue s AwaitState a.
(** support/client/client.cpp:911-918 TrackerProcess::reset *)
Definition reset (s : tracker) (l : sleeps) (n : launch) : outcome (result * tracker) :=
  r <- stop_process s l ;; start_process (snd r) n.
(** support/client/client.cpp:268-290 State::~State and 737-742: what is left of the system *)
Definition tracker_destroy (s : tracker) (l : sleeps) : outcome os :=
  r <- stop_process s l ;; Ok (t_os (snd r)).
