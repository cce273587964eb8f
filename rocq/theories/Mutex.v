(** Model of the recursive mutex of support/client/threads.cpp:108-204 under every interleaving.
    Each access to a shared variable is one step; memory is sequentially consistent (simplification: the code reads [owner] without
    holding the lock, which the C++ memory model calls a data race; the model gives such a read the current value).
    [counter] does not overflow. *)
From Verif Require Import CBase Lists.
Local Open Scope Z_scope.

(** Calls of the public interface *)
Inductive call := Acquire | Release.

(** The position of a thread inside a call.  AEq1-AEq3 and REq1-REq3 are the up to three reads of [owner] in
    THREAD_EQUALS(tid, owner), support/client/threads.h:82; [c] is a value read before. *)
Inductive pc :=
| Idle
| AEq1 | AEq2 | AEq3 | ALock | AOwner | AZero | ARead | AWrite (c : Z)
| REq1 | REq2 | REq3 | RRead | RWrite (c : Z) | RTest | ROwner | RUnlock.

(** A thread: its identifier (not THREAD_NONE, which is 0), its position and the calls it still has to make *)
Record thread := mkThread { tid : nat; at_pc : pc; todo : list call }.
(** The members of Mutex, support/client/threads.h:122-126: [holder] is the thread that holds the pthread mutex.
    [history] lists the calls that have returned, latest first. *)
Record mstate := mkM { holder : option nat; owner : nat; counter : Z; threads : list thread; history : list (nat * call) }.
Definition THREAD_NONE : nat := 0.

Definition goto (s : mstate) (i : nat) (t : thread) (p : pc) : outcome mstate :=
  l <- set_cell (threads s) i (mkThread (tid t) p (todo t)) ;; Ok (mkM (holder s) (owner s) (counter s) l (history s)).
(** A call returns *)
Definition return_call (s : mstate) (i : nat) (t : thread) (c : call) : outcome mstate :=
  l <- set_cell (threads s) i (mkThread (tid t) Idle (todo t)) ;; Ok (mkM (holder s) (owner s) (counter s) l ((tid t, c) :: history s)).
Definition set_holder (s : mstate) h := mkM h (owner s) (counter s) (threads s) (history s).
Definition set_owner (s : mstate) o := mkM (holder s) o (counter s) (threads s) (history s).
Definition set_count (s : mstate) c := mkM (holder s) (owner s) c (threads s) (history s).

(** One step of thread number [i]: None when it has finished or waits for the lock.
    support/client/threads.cpp:122-138 Mutex::acquire, 140-159 Mutex::release, with [recursive] true. *)
Definition step (s : mstate) (i : nat) : outcome (option mstate) :=
  match nth_error (threads s) i with
  | None => Ok None
  | Some t =>
      let go s p := s' <- goto s i t p ;; Ok (Some s') in
      let ret s c := s' <- return_call s i t c ;; Ok (Some s') in
      match at_pc t with
      | Idle =>
          match todo t with
          | [] => Ok None
          | c :: rest =>
              l <- set_cell (threads s) i (mkThread (tid t) (match c with Acquire => AEq1 | Release => REq1 end) rest) ;;
              Ok (Some (mkM (holder s) (owner s) (counter s) l (history s)))
          end
      | AEq1 => go s (if (tid t =? owner s)%nat then ARead else AEq2)
      | AEq2 => go s (if (owner s =? THREAD_NONE)%nat then ALock else AEq3)
      | AEq3 => go s (if (tid t =? owner s)%nat then ARead else ALock)
      | ALock => match holder s with None => go (set_holder s (Some (tid t))) AOwner | Some _ => Ok None end
      | AOwner => go (set_owner s (tid t)) AZero
      | AZero => go (set_count s 0) ARead
      | ARead => go s (AWrite (counter s))
      | AWrite c => ret (set_count s (c + 1)) Acquire
      | REq1 => go s (if (tid t =? owner s)%nat then RRead else REq2)
      | REq2 => if (owner s =? THREAD_NONE)%nat then ret s Release else go s REq3
      | REq3 => if (tid t =? owner s)%nat then go s RRead else ret s Release
      | RRead => go s (RWrite (counter s))
      | RWrite c => go (set_count s (c - 1)) RTest
      | RTest => if counter s <? 1 then go s ROwner else ret s Release
      | ROwner => go (set_owner s THREAD_NONE) RUnlock
      | RUnlock =>
          match holder s with
          | Some h => if (h =? tid t)%nat then ret (set_holder s None) Release else UB
          | None => UB
          end
      end
  end.
(** A schedule: the numbers of the threads that step, in order; a thread that cannot step stays *)
Fixpoint run (s : mstate) (schedule : list nat) : outcome mstate :=
  match schedule with
  | [] => Ok s
  | i :: schedule' => r <- step s i ;; run (match r with Some s' => s' | None => s end) schedule'
  end.
(** support/client/threads.cpp:108-116 Mutex::Mutex and 161-163 RecursiveMutex; thread number i has identifier i + 1 *)
Definition start_threads (programs : list (list call)) : list thread :=
  map (fun p => mkThread (S (fst p)) Idle (snd p)) (combine (seq 0 (List.length programs)) programs).
Definition start_mutex (programs : list (list call)) : mstate := mkM None THREAD_NONE 0 (start_threads programs) [].

(** support/client/threads.cpp:169-204 class Lock: [locked], and the calls it makes on its mutex *)
Inductive lock_call := LockCall | UnlockCall.
Definition lock_step (locked : bool) (c : lock_call) : bool * list call :=
  match c with
  | LockCall => if locked then (true, []) else (true, [Acquire])
  | UnlockCall => if locked then (false, [Release]) else (false, [])
  end.
Fixpoint lock_steps (locked : bool) (cs : list lock_call) : bool * list call :=
  match cs with
  | [] => (locked, [])
  | c :: cs' => let '(l1, a) := lock_step locked c in let '(l2, b) := lock_steps l1 cs' in (l2, a ++ b)
  end.
(** The life of a Lock: constructor, calls, destructor *)
Definition lock_life (cs : list lock_call) : list call := snd (lock_steps false (LockCall :: cs ++ [UnlockCall])).
