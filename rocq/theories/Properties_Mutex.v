(** Property C46: the recursive mutex. *)
From Verif Require Import CBase Lists Mutex MutexSpec MutexProofs.
Local Open Scope Z_scope.

(** Two threads with nested sections, one of which leaves once too often *)
Definition sample_programs : list (list call) := [[Acquire; Acquire; Release; Release]; [Release; Acquire; Release]].
(** A schedule that stops while the first thread is inside twice and the second one waits *)
Definition sample_schedule : list nat := repeat 0%nat 8 ++ repeat 1%nat 6 ++ repeat 0%nat 4 ++ repeat 1%nat 6.
Definition sample_state : mstate := match run (start_mutex sample_programs) sample_schedule with Ok s => s | _ => start_mutex [] end.
Lemma sample_reached : reached sample_programs sample_state.
Proof. exists sample_schedule. vm_compute. reflexivity. Qed.
Example sample_shape : depth 1 (history sample_state) = 2%nat /\ map at_pc (threads sample_state) = [Idle; ALock] /\ stuck sample_state 1.
Proof. split; [vm_compute; reflexivity|]. split; vm_compute; reflexivity. Qed.
Example sample_balanced : Forall balanced sample_programs.
Proof. repeat (apply Forall_cons; [reflexivity|]). apply Forall_nil. Qed.

(** C46: every schedule of any number of threads runs without undefined behaviour: in particular only the thread that holds
    the lock releases it.  All theorems of this file assume sequentially consistent memory and a counter that does not overflow
    (see Mutex.v). *)
Theorem mutex_safe : forall programs schedule, exists s, run (start_mutex programs) schedule = Ok s.
Proof. intros programs schedule. destruct (run_inv schedule _ (start_inv programs)) as (s & E & _). exists s. exact E. Qed.
Print Assumptions mutex_safe.
(** C46: at most one thread is inside. *)
Theorem mutex_mutual_exclusion : forall programs s t u, reached programs s -> (0 < depth t (history s))%nat -> (0 < depth u (history s))%nat -> t = u.
Proof. exact exclusion. Qed.
Print Assumptions mutex_mutual_exclusion.
Example mutual_exclusion_nonvacuous : reached sample_programs sample_state /\ (0 < depth 1 (history sample_state))%nat.
Proof. split; [exact sample_reached|vm_compute; lia]. Qed.
(** C46: a thread that is inside is never held up, so it may enter again. *)
Theorem mutex_reentrant : forall programs s i t, reached programs s -> nth_error (threads s) i = Some t -> (0 < depth (tid t) (history s))%nat -> ~ finished t ->
  exists s', step s i = Ok (Some s').
Proof. exact reentrant. Qed.
Print Assumptions mutex_reentrant.
Example reentrant_nonvacuous : exists t, nth_error (threads sample_state) 0 = Some t /\ (0 < depth (tid t) (history sample_state))%nat /\ ~ finished t.
Proof. eexists. split; [vm_compute; reflexivity|]. split; [vm_compute; lia|]. intros (_ & H). vm_compute in H. discriminate. Qed.
(** C46: a thread is held up only while another one is inside or in the middle of a call ... *)
Theorem mutex_blocked : forall programs s i t, reached programs s -> nth_error (threads s) i = Some t -> ~ finished t -> stuck s i ->
  exists u, In u (threads s) /\ tid u <> tid t /\ ((0 < depth (tid u) (history s))%nat \/ at_pc u <> Idle).
Proof. exact blocked. Qed.
Print Assumptions mutex_blocked.
Example blocked_nonvacuous : exists t, nth_error (threads sample_state) 1 = Some t /\ ~ finished t /\ stuck sample_state 1.
Proof. eexists. split; [vm_compute; reflexivity|]. split; [intros (H & _); vm_compute in H; discriminate|]. vm_compute. reflexivity. Qed.
(** ... and between calls the mutex is free exactly when everyone has left as often as they entered. *)
Theorem mutex_free : forall programs s, reached programs s -> quiet s -> (holder s = None <-> forall t, depth t (history s) = 0%nat).
Proof. exact free_when_outside. Qed.
Print Assumptions mutex_free.
Definition quiet_state : mstate := match run (start_mutex sample_programs) (repeat 0%nat 12) with Ok s => s | _ => start_mutex [] end.
Example mutex_free_nonvacuous : reached sample_programs quiet_state /\ quiet quiet_state /\ depth 1 (history quiet_state) = 2%nat.
Proof.
  split; [exists (repeat 0%nat 12); vm_compute; reflexivity|]. split; [|vm_compute; reflexivity].
  unfold quiet. replace (threads quiet_state) with [mkThread 1 Idle [Release; Release]; mkThread 2 Idle [Release; Acquire; Release]] by (vm_compute; reflexivity).
  repeat (apply Forall_cons; [reflexivity|]). apply Forall_nil.
Qed.
(** C46: when every program leaves as often as it enters there is no deadlock ... *)
Theorem mutex_no_deadlock : forall programs s, Forall balanced programs -> reached programs s -> Forall finished (threads s) \/ exists i s', step s i = Ok (Some s').
Proof. exact no_deadlock. Qed.
Print Assumptions mutex_no_deadlock.
(** ... every run can be completed, and then the mutex is free ... *)
Theorem mutex_completes : forall programs s, Forall balanced programs -> reached programs s ->
  exists more s', run s more = Ok s' /\ Forall finished (threads s') /\ holder s' = None /\ forall t, depth t (history s') = 0%nat.
Proof. exact finishes. Qed.
Print Assumptions mutex_completes.
(** ... and no run goes on for longer than nine steps for each call. *)
Theorem mutex_bounded_steps : forall programs schedule, (busy (start_mutex programs) schedule <= 9 * list_sum (map (@List.length call) programs))%nat.
Proof. exact bounded_steps. Qed.
Print Assumptions mutex_bounded_steps.
Example bounded_steps_nonvacuous : busy (start_mutex sample_programs) (sample_schedule ++ repeat 0%nat 20 ++ repeat 1%nat 20) = 44%nat.
Proof. vm_compute. reflexivity. Qed.
(** C46: whatever calls are made on it, a Lock leaves the mutex as it found it when it goes out of scope ... *)
Theorem mutex_lock_scope : forall cs d, depth_after d (lock_life cs) = d.
Proof. exact lock_scope. Qed.
Print Assumptions mutex_lock_scope.
(** ... and it holds the mutex once while it says that it is locked. *)
Theorem mutex_lock_state : forall cs d, depth_after d (snd (lock_steps false cs)) = (if fst (lock_steps false cs) then S d else d).
Proof. exact lock_state. Qed.
Print Assumptions mutex_lock_state.
Example lock_nonvacuous : lock_life [UnlockCall; UnlockCall; LockCall; LockCall] = [Acquire; Release; Acquire; Release].
Proof. vm_compute. reflexivity. Qed.
