(** Model of the threads of a TrackerProcess (support/client/client.cpp): the user's thread, the watchdog and the logger, as
    programs that are interleaved instruction by instruction.
    Simplifications: memory is sequentially consistent; the functions of Process and Client are single instructions (the mutex inside
    Process is a leaf: nothing is locked below it); a call that waits for the tracker ends sometime (the tracker answers, or its
    streams end when it is stopped); callbacks given to the watchdog do not call the tracker object; text written in several
    pieces is written in one. *)
From Verif Require Import CBase.
Local Open Scope Z_scope.

(** support/client/client.cpp:710-714 *)
Inductive mutex := WatchdogMutex | StateMutex | LoggerMutex.
Inductive thread := User | Watchdog | Logger.
Definition mutex_eqb (a b : mutex) : bool :=
  match a, b with WatchdogMutex, WatchdogMutex | StateMutex, StateMutex | LoggerMutex, LoggerMutex => true | _, _ => false end.
Definition thread_eqb (a b : thread) : bool :=
  match a, b with User, User | Watchdog, Watchdog | Logger, Logger => true | _, _ => false end.

(** A Process object: whether start() succeeded, whether its child was seen dead, whether the object was deleted *)
Record object := mkObject { o_started : bool; o_dead : bool; o_deleted : bool }.
(** support/client/client.cpp:683-721, what the threads share, and the local variables of the watchdog (run, terminate, the value
    loaded by watchdog_timeout--) and of the logger (run, err <> -1).
    Objects are numbered in the order of their creation; a Client object is deleted or not. *)
Record shared := mkShared {
  s_process : option nat; s_objects : list object;
  s_client : option nat; s_clients : list bool;
  s_watchdog : bool; s_logger : bool;
  s_timeout : Z; s_limit : Z;
  w_run : bool; w_terminate : bool; w_loaded : Z;
  l_run : bool; l_err : bool
}.
Definition with_process (s : shared) (p : option nat) (l : list object) : shared :=
  mkShared p l (s_client s) (s_clients s) (s_watchdog s) (s_logger s) (s_timeout s) (s_limit s) (w_run s) (w_terminate s)
           (w_loaded s) (l_run s) (l_err s).
Definition with_client (s : shared) (c : option nat) (l : list bool) : shared :=
  mkShared (s_process s) (s_objects s) c l (s_watchdog s) (s_logger s) (s_timeout s) (s_limit s) (w_run s) (w_terminate s)
           (w_loaded s) (l_run s) (l_err s).
Definition with_flags (s : shared) (w l : bool) : shared :=
  mkShared (s_process s) (s_objects s) (s_client s) (s_clients s) w l (s_timeout s) (s_limit s) (w_run s) (w_terminate s)
           (w_loaded s) (l_run s) (l_err s).
Definition with_timeout (s : shared) (n : Z) : shared :=
  mkShared (s_process s) (s_objects s) (s_client s) (s_clients s) (s_watchdog s) (s_logger s) n (s_limit s) (w_run s) (w_terminate s)
           (w_loaded s) (l_run s) (l_err s).
Definition with_watchdog (s : shared) (run terminate : bool) (loaded : Z) : shared :=
  mkShared (s_process s) (s_objects s) (s_client s) (s_clients s) (s_watchdog s) (s_logger s) (s_timeout s) (s_limit s) run terminate
           loaded (l_run s) (l_err s).
Definition with_logger (s : shared) (run err : bool) : shared :=
  mkShared (s_process s) (s_objects s) (s_client s) (s_clients s) (s_watchdog s) (s_logger s) (s_timeout s) (s_limit s) (w_run s)
           (w_terminate s) (w_loaded s) run err.

(** ---- Instructions ---- *)
Inductive instr :=
| Lock (m : mutex) | Unlock (m : mutex) | Join (t : thread)
| Idle                              (* the user's own business between two calls *)
| Pause                             (* sleepf, sleep, Signal::notify, Signal::wait(1000): can always go on *)
| Output                            (* writing to the log stream, resetting the line buffers *)
| Register                          (* callbacks.push_back *)
| NewProcess | UseProcess | DeleteProcess | ClearProcess
| NewClient | UseClient | DeleteClient | ClearClient
| WatchdogOff | LoggerOff           (* watchdog_active = false, logger_active = false *)
| SetLimit | SetZero                (* watchdog_timeout = timeout * 10, watchdog_timeout = 0 *)
| LoadTimeout | StoreTimeout        (* the two halves of watchdog_timeout-- *)
| ReadWatchdog | ReadLogger         (* run = state->watchdog_active, run = state->logger_active *)
| Terminate (b : bool)              (* terminate = b *)
| GetError | DropError.             (* err = state->process->get_error(), err = -1 *)
Inductive test :=
| Choice                            (* decided outside: results of the protocol, bytes to read, verbosity *)
| Callbacks                         (* the loop over the callbacks: whether one of them asks for the end *)
| HasProcess | HasClient            (* process, client not NULL *)
| Running                           (* process && process->is_alive() *)
| IsAlive                           (* process->is_alive() *)
| Starts                            (* process->start() *)
| ErrorText                         (* read_stream(process->get_error(), ...) > 0 *)
| ClientAlive                       (* client->is_alive(), the operator bool of a Client *)
| TimeoutPositive | TimeoutZero
| WatchdogRun | LoggerRun | Terminating | NoError.
Inductive code :=
| Done
| Do (i : instr) (k : code)
| If (t : test) (yes no k : code)
| While (t : test) (body k : code).
(** One program after the other *)
Fixpoint andthen (c k : code) : code :=
  match c with
  | Done => k
  | Do i c' => Do i (andthen c' k)
  | If t y n c' => If t y n (andthen c' k)
  | While t b c' => While t b (andthen c' k)
  end.

(** An access through the pointer: UB if it is NULL or the object was deleted *)
Definition the_process (s : shared) : outcome (nat * object) :=
  match s_process s with
  | Some n => match nth_error (s_objects s) n with
              | Some o => if o_deleted o then UB else Ok (n, o)
              | None => UB
              end
  | None => UB
  end.
Definition the_client (s : shared) : outcome nat :=
  match s_client s with
  | Some n => match nth_error (s_clients s) n with Some false => Ok n | _ => UB end
  | None => UB
  end.
Definition set_at {A} (l : list A) (n : nat) (x : A) : list A := firstn n l ++ x :: skipn (S n) l.
(** is_alive of a Process (process.cpp:559-607): [b] tells whether a child that was not seen dead still lives *)
Definition look_alive (s : shared) (b : bool) : outcome (bool * shared) :=
  r <- the_process s ;;
  let '(n, o) := r in
  if o_started o && negb (o_dead o)
  then if b then Ok (true, s) else Ok (false, with_process s (s_process s) (set_at (s_objects s) n (mkObject true true false)))
  else Ok (false, s).

(** What an instruction other than Lock, Unlock and Join does *)
Definition exec (i : instr) (s : shared) : outcome shared :=
  match i with
  | NewProcess => Ok (with_process s (Some (List.length (s_objects s))) (s_objects s ++ [mkObject false false false]))
  | UseProcess => _ <- the_process s ;; Ok s
  | DeleteProcess =>
      r <- the_process s ;;
      let '(n, o) := r in
      Ok (with_process s (s_process s) (set_at (s_objects s) n (mkObject (o_started o) (o_dead o) true)))
  | ClearProcess => Ok (with_process s None (s_objects s))
  | NewClient => Ok (with_client s (Some (List.length (s_clients s))) (s_clients s ++ [false]))
  | UseClient => _ <- the_client s ;; Ok s
  | DeleteClient => n <- the_client s ;; Ok (with_client s (s_client s) (set_at (s_clients s) n true))
  | ClearClient => Ok (with_client s None (s_clients s))
  | WatchdogOff => Ok (with_flags s false (s_logger s))
  | LoggerOff => Ok (with_flags s (s_watchdog s) false)
  | SetLimit => Ok (with_timeout s (s_limit s))
  | SetZero => Ok (with_timeout s 0)
  | LoadTimeout => Ok (with_watchdog s (w_run s) (w_terminate s) (s_timeout s))
  | StoreTimeout => Ok (with_timeout s (w_loaded s - 1))
  | ReadWatchdog => Ok (with_watchdog s (s_watchdog s) (w_terminate s) (w_loaded s))
  | ReadLogger => Ok (with_logger s (s_logger s) (l_err s))
  | Terminate b => Ok (with_watchdog s (w_run s) b (w_loaded s))
  | GetError => r <- the_process s ;; Ok (with_logger s (l_run s) (o_started (snd r) && negb (o_dead (snd r))))
  | DropError => Ok (with_logger s (l_run s) false)
  | Lock _ | Unlock _ | Join _ | Idle | Pause | Output | Register => Ok s
  end.
(** What a test says; [b] is what is decided outside *)
Definition look (t : test) (s : shared) (b : bool) : outcome (bool * shared) :=
  match t with
  | Choice | Callbacks => Ok (b, s)
  | HasProcess => Ok (match s_process s with Some _ => true | None => false end, s)
  | HasClient => Ok (match s_client s with Some _ => true | None => false end, s)
  | Running => match s_process s with Some _ => look_alive s b | None => Ok (false, s) end
  | IsAlive => look_alive s b
  | Starts =>
      r <- the_process s ;;
      let '(n, o) := r in
      Ok (b, if b then with_process s (s_process s) (set_at (s_objects s) n (mkObject true (o_dead o) false)) else s)
  | ErrorText => _ <- the_process s ;; Ok (b, s)
  | ClientAlive => _ <- the_client s ;; Ok (b, s)
  | TimeoutPositive => Ok (0 <? s_timeout s, s)
  | TimeoutZero => Ok (s_timeout s =? 0, s)
  | WatchdogRun => Ok (w_run s, s)
  | LoggerRun => Ok (l_run s, s)
  | Terminating => Ok (w_terminate s, s)
  | NoError => Ok (negb (l_err s), s)
  end.

(** ---- The programs ---- *)
(** support/client/client.cpp:505-541 print_debug, 465-474 reset_logger, 646-675 client_logger: a section of logger_mutex.
    Whether there is output is decided outside. *)
Definition output (k : code) : code := Do (Lock LoggerMutex) (Do Output (Do (Unlock LoggerMutex) k)).
Definition debug (k : code) : code := If Choice (output Done) Done k.
(** support/client/client.cpp:292-295 process_running *)
Definition process_running (yes no k : code) : code :=
  Do (Lock StateMutex) (If Running (Do (Unlock StateMutex) yes) (Do (Unlock StateMutex) no) k).
(** support/client/client.cpp:400-403: at most [n] looks, a pause after each that finds the process alive *)
Fixpoint poll (n : nat) (k : code) : code :=
  match n with O => k | S n' => If IsAlive (Do Pause (poll n' Done)) Done k end.
(** support/client/client.cpp:476-503 flush_streams *)
Fixpoint flush (n : nat) (k : code) : code :=
  match n with O => k | S n' => If ErrorText (debug (Do Pause (flush n' Done))) Done k end.
(** support/client/client.cpp:398-443, if there is a process *)
Definition end_process (k : code) : code :=
  poll 5 (If IsAlive
            (debug (Do UseProcess (poll 5 (If IsAlive (debug (Do UseProcess (Do Pause (If IsAlive Done Done Done)))) Done Done))))
            Done
            (debug (flush 10 (Do Pause (Do DeleteProcess (Do ClearProcess (debug (output (debug (debug k)))))))))).
(** support/client/client.cpp:385-446 stop_process *)
Definition stop_process (k : code) : code :=
  Do SetZero (Do (Lock StateMutex)
    (If HasClient (debug (Do UseClient (debug Done))) Done
       (If HasProcess (end_process Done) Done (Do (Unlock StateMutex) k)))).
(** support/client/client.cpp:297-383 start_process: [k] is what follows if nothing is thrown *)
Definition start_process (k : code) : code :=
  process_running k
    (If HasClient (Do DeleteClient (Do ClearClient (debug Done))) Done
       (debug (Do (Lock StateMutex) (Do NewProcess (debug (Do (Unlock StateMutex)
          (Do UseProcess (Do UseProcess (output (debug
             (If Starts
                (Do Pause (If IsAlive
                   (Do SetLimit (debug (Do UseProcess (Do NewClient (debug
                      (If ClientAlive
                         (Do SetZero (Do UseProcess (debug (Do UseClient (If Choice (debug k) Done Done)))))
                         (debug Done)
                         Done))))))
                   (debug Done) Done))
                (debug Done) Done)))))))))))
    Done.
(** support/client/client.cpp:896-902 ready *)
Definition ready (yes : code) : code := process_running (If ClientAlive yes Done Done) Done Done.
(** support/client/client.cpp:757-773 (also 783-796, 806-819, 830-845, 855-868, 878-892) *)
Definition ask : code :=
  Do SetLimit (Do UseClient (debug (Do SetZero (If Choice (stop_process (Do UseClient Done)) Done Done)))).
(** The calls of the user *)
Inductive call := Query | Initialize | Exchange (* frame, wait *) | Inspect (* ready, tracking, multiobject, metadata *) | Reset | RegisterCallback.
Definition call_code (c : call) : code :=
  match c with
  | Query => start_process Done                                                    (* 744-748 *)
  | Initialize => start_process (ready ask)                                        (* 750-775, 823-847 *)
  | Exchange => ready (If Choice ask Done Done)                                    (* 777-821, 849-894 *)
  | Inspect => ready (If Choice (Do UseClient Done) Done Done)                     (* 896-909, 920-940 *)
  | Reset => debug (stop_process (start_process Done))                             (* 911-918 *)
  | RegisterCallback => Do (Lock WatchdogMutex) (Do Register (Do (Unlock WatchdogMutex) Done))  (* 679-684 *)
  end.
(** support/client/client.cpp:268-290 ~State *)
Definition destroy : code :=
  debug (Do WatchdogOff (Do LoggerOff (Do (Join Watchdog) (Do (Join Logger)
    (stop_process (If HasClient (Do DeleteClient (Do ClearClient Done)) Done (debug Done))))))).
Fixpoint user (l : list call) : code :=
  match l with
  | [] => Do Idle destroy
  | c :: l' => Do Idle (andthen (call_code c) (user l'))
  end.
(** support/client/client.cpp:543-585 watchdog_loop *)
Definition watchdog_body : code :=
  Do Pause (Do (Lock WatchdogMutex) (Do ReadWatchdog
    (process_running (Do (Terminate false) Done) (Do (Terminate true) Done)
       (If Callbacks (Do (Terminate true) Done) Done
          (If Terminating (stop_process Done)
             (If TimeoutPositive (Do LoadTimeout (Do StoreTimeout (If TimeoutZero (stop_process Done) Done Done))) Done Done)
             (Do (Unlock WatchdogMutex) Done)))))).
Definition watchdog : code := While WatchdogRun watchdog_body Done.
(** support/client/client.cpp:587-644 logger_loop *)
Definition logger_body : code :=
  Do ReadLogger
    (If NoError (process_running (Do GetError Done) (Do Pause Done) Done) Done
       (If NoError (Do Pause Done)
          (If Choice
             (If Choice (output (If NoError (Do Pause Done) Done Done)) Done Done)
             (process_running (Do DropError Done) Done (output (If NoError (Do Pause Done) Done Done)))
             Done)
          Done)).
Definition logger : code := While LoggerRun logger_body (debug Done).

(** ---- Interleaving ---- *)
Record config := mkConfig { code_of : thread -> code; owner_of : mutex -> option thread; mem : shared }.
Definition set_code (c : thread -> code) (t : thread) (k : code) : thread -> code := fun t' => if thread_eqb t t' then k else c t'.
Definition set_owner (o : mutex -> option thread) (m : mutex) (x : option thread) : mutex -> option thread :=
  fun m' => if mutex_eqb m m' then x else o m'.
(** One instruction of thread [t]; None: the thread has ended or is blocked.  Unlocking a mutex that the thread does not hold is UB. *)
Definition step (c : config) (t : thread) (b : bool) : option (outcome config) :=
  match code_of c t with
  | Done => None
  | Do (Lock m) k =>
      match owner_of c m with
      | None => Some (Ok (mkConfig (set_code (code_of c) t k) (set_owner (owner_of c) m (Some t)) (mem c)))
      | Some _ => None
      end
  | Do (Unlock m) k =>
      match owner_of c m with
      | Some t' => if thread_eqb t' t
                   then Some (Ok (mkConfig (set_code (code_of c) t k) (set_owner (owner_of c) m None) (mem c)))
                   else Some UB
      | None => Some UB
      end
  | Do (Join t') k =>
      match code_of c t' with
      | Done => Some (Ok (mkConfig (set_code (code_of c) t k) (owner_of c) (mem c)))
      | _ => None
      end
  | Do i k => Some (s <- exec i (mem c) ;; Ok (mkConfig (set_code (code_of c) t k) (owner_of c) s))
  | If x yes no k =>
      Some (r <- look x (mem c) b ;;
            Ok (mkConfig (set_code (code_of c) t (andthen (if fst r then yes else no) k)) (owner_of c) (snd r)))
  | While x body k =>
      Some (r <- look x (mem c) b ;;
            Ok (mkConfig (set_code (code_of c) t (if fst r then andthen body (While x body k) else k)) (owner_of c) (snd r)))
  end.
(** A schedule says whose turn it is, and what is decided outside then; a thread that cannot go on is passed over *)
Definition schedule := list (thread * bool).
Fixpoint run (c : config) (l : schedule) : outcome config :=
  match l with
  | [] => Ok c
  | (t, b) :: l' =>
      match step c t b with
      | None => run c l'
      | Some r => c' <- r ;; run c' l'
      end
  end.
(** support/client/client.cpp:227-266: after the construction, with a timeout of [limit] turns *)
Definition initial (limit : Z) (calls : list call) : config :=
  mkConfig (fun t => match t with User => user calls | Watchdog => watchdog | Logger => logger end)
           (fun _ => None)
           (mkShared None [] None [] true true 0 limit true false 0 true false).
