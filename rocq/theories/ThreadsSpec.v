(** Specification for the threads of a tracker object: progress, endings, and the places where a thread touches an object unprotected *)
From Verif Require Import CBase Threads.
Local Open Scope Z_scope.

Definition unfinished (c : config) : Prop := exists t, code_of c t <> Done.
(** The thread has a next instruction and is not blocked *)
Definition can_move (c : config) (t : thread) : Prop := forall b, step c t b <> None.
(** A schedule in which every turn is taken *)
Inductive goes : config -> schedule -> config -> Prop :=
| goes_refl c : goes c [] c
| goes_step c t b c' l c'' : step c t b = Some (Ok c') -> goes c' l c'' -> goes c ((t, b) :: l) c''.
(** A thread ran into undefined behaviour *)
Definition crashes (c : config) (t : thread) (b : bool) : Prop := step c t b = Some UB.
(** The destructor has told both threads to end *)
Definition ending (c : config) : Prop := s_watchdog (mem c) = false /\ s_logger (mem c) = false.
(** The accesses that the code makes without holding the mutex that protects the object:
    those of start_process to the process, that of the logger to the process, that of the watchdog to the client *)
Definition unprotected (c : config) (t : thread) : Prop :=
  match t with
  | User => owner_of c StateMutex <> Some User /\
            exists k, code_of c User = Do UseProcess k \/ exists y n, code_of c User = If Starts y n k \/ code_of c User = If IsAlive y n k
  | Watchdog => exists k, code_of c Watchdog = Do UseClient k
  | Logger => owner_of c StateMutex <> Some Logger /\ exists k, code_of c Logger = Do GetError k
  end.
(** The mutex that a thread has to hold for its next instruction: that of the callbacks for adding one and for calling them, that of the
    log for writing to it *)
Definition needs (c : config) (t : thread) (m : mutex) : Prop :=
  match m with
  | WatchdogMutex => exists k, code_of c t = Do Register k \/ exists y n, code_of c t = If Callbacks y n k
  | LoggerMutex => exists k, code_of c t = Do Output k
  | StateMutex => exists k, code_of c t = Do NewProcess k \/ code_of c t = Do DeleteProcess k \/ code_of c t = Do ClearProcess k
  end.
