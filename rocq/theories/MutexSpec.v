(** What a recursive mutex should do. *)
From Verif Require Import CBase Lists Mutex.

(** How often thread [t] is inside, given the calls that have returned, latest first.  Leaving when outside has no effect. *)
Fixpoint depth (t : nat) (h : list (nat * call)) : nat :=
  match h with
  | [] => 0
  | (u, c) :: h' => if (u =? t)%nat then match c with Acquire => S (depth t h') | Release => pred (depth t h') end else depth t h'
  end.
(** How often a thread is inside after a program *)
Fixpoint depth_after (d : nat) (program : list call) : nat :=
  match program with [] => d | Acquire :: p => depth_after (S d) p | Release :: p => depth_after (pred d) p end.
(** Every program leaves as often as it enters *)
Definition balanced (program : list call) : Prop := depth_after 0 program = 0%nat.

Definition finished (t : thread) : Prop := at_pc t = Idle /\ todo t = [].
(** Thread number [i] cannot step *)
Definition stuck (s : mstate) (i : nat) : Prop := step s i = Ok None.
(** No thread is in the middle of a call *)
Definition quiet (s : mstate) : Prop := Forall (fun t => at_pc t = Idle) (threads s).
(** States that some schedule reaches when the threads run the programs *)
Definition reached (programs : list (list call)) (s : mstate) : Prop := exists schedule, run (start_mutex programs) schedule = Ok s.
(** Number of steps that change something in a schedule *)
Fixpoint busy (s : mstate) (schedule : list nat) : nat :=
  match schedule with
  | [] => 0
  | i :: schedule' => match step s i with Ok (Some s') => S (busy s' schedule') | _ => busy s schedule' end
  end.
