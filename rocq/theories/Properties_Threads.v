(** Theorems about the threads of a tracker object (C78 to C81). *)
From Verif Require Import CBase Threads ThreadsSpec ThreadsProofs.
Local Open Scope Z_scope.

(** ---- Schedules used below ---- *)
Definition turns (t : thread) (b : bool) (n : nat) : schedule := repeat (t, b) n.
(** The user's thread alone, until query() has started a tracker that introduced itself *)
Definition started : schedule := turns User true 52.
(** A frame is sent, which arms the watchdog, *)
Definition asked : schedule := started ++ turns User true 7.
(** the watchdog loads the value of the timeout, *)
Definition loaded : schedule := asked ++ turns Watchdog true 8 ++ turns Watchdog false 4.
(** and the answer arrives: the user's thread rests again. *)
Definition answered : schedule := loaded ++ turns User false 4.
(** A part of a turn of the watchdog that finds the tracker alive, and whose callbacks do not ask for its end *)
Definition look_around : schedule := turns Watchdog true 8 ++ turns Watchdog false 1.
(** The watchdog alone: it stores the decremented value, takes two more turns and stops the tracker. *)
Definition late : schedule :=
  turns Watchdog false 3 ++ look_around ++ turns Watchdog false 6 ++ look_around ++ turns Watchdog false 4 ++ turns Watchdog true 52 ++ turns Watchdog false 2.

(** ---- C78: no deadlock ---- *)
(** Whatever the user calls in whatever order, and however the threads are interleaved: as long as a thread has not ended, some thread
    can go on. *)
Theorem no_deadlock : forall n calls sch c, run (initial n calls) sch = Ok c -> unfinished c -> exists t, can_move c t.
Proof. exact threads_never_deadlock. Qed.
Print Assumptions no_deadlock.
(** The watchdog, which holds its own mutex, waits for the state mutex, which the user's thread holds while it creates a process *)
Example no_deadlock_case : exists c, run (initial 50 [Query; Reset]) (turns User false 9 ++ turns Watchdog false 40) = Ok c /\
  unfinished c /\ ~ can_move c Watchdog /\ can_move c User.
Proof.
  eexists. split; [vm_compute; reflexivity|]. split; [exists User; cbn; discriminate|]. split.
  - intros H. apply (H true). vm_compute. reflexivity.
  - intros b. vm_compute. discriminate.
Qed.

(** ---- C79: destroying the object ends its threads ---- *)
(** From the moment when the destructor has told both threads to end, only so many instructions are left, whatever the interleaving;
    and when nothing can go on any more, all threads have ended (in particular the two joins have returned). *)
Theorem destruction_ends : forall n calls sch c, run (initial n calls) sch = Ok c -> ending c ->
  exists most, forall l c', goes c l c' ->
    (List.length l <= most)%nat /\ ((forall t, ~ can_move c' t) -> forall t, code_of c' t = Done).
Proof. exact destructor_ends. Qed.
Print Assumptions destruction_ends.
(** With a living tracker: the destructor runs while the watchdog is inside a turn; the watchdog ends by itself, the tracker is stopped *)
Example destruction_ends_case :
  (exists c, run (initial 50 [Query]) (started ++ turns Watchdog true 5 ++ turns User false 4) = Ok c /\ ending c /\ ~ can_move c User) /\
  (exists c, run (initial 50 [Query])
               (started ++ turns Watchdog true 5 ++ turns User false 4 ++ turns Watchdog true 3 ++ turns Watchdog false 4 ++ turns Watchdog true 8 ++
                turns Watchdog false 6 ++ turns Logger true 25 ++ turns User false 40) = Ok c /\
             (forall t, code_of c t = Done) /\ s_process (mem c) = None /\ s_client (mem c) = None).
Proof.
  split; eexists.
  - split; [vm_compute; reflexivity|]. split; [split; vm_compute; reflexivity|]. intros H. apply (H true). vm_compute. reflexivity.
  - split; [vm_compute; reflexivity|]. split; [intros []; vm_compute; reflexivity|]. split; vm_compute; reflexivity.
Qed.
(** The user's thread gets through the destructor only after the other threads: none of them uses the object afterwards. *)
Theorem destruction_last : forall n calls sch c, run (initial n calls) sch = Ok c -> code_of c User = Done -> forall t, code_of c t = Done.
Proof. exact destroyed_last. Qed.
Print Assumptions destruction_last.

(** ---- C80: no thread touches an object that another has deleted ---- *)
(** The only accesses that can go wrong are the three kinds that the code makes without the mutex. *)
Theorem protected_access_partial : forall n calls sch c t b, run (initial n calls) sch = Ok c -> crashes c t b -> unprotected c t.
Proof. exact only_unprotected_crash. Qed.
Print Assumptions protected_access_partial.
Example protected_access_case : exists c k, run (initial 50 [Query; Reset]) (started ++ turns User true 18) = Ok c /\
  (code_of c User = Do UseProcess k \/ exists y n, code_of c User = If IsAlive y n k) /\ owner_of c StateMutex = Some User /\ ~ unprotected c User.
Proof.
  eexists. eexists. split; [vm_compute; reflexivity|]. split; [right; eexists _, _; vm_compute; reflexivity|]. split; [reflexivity|].
  intros [H _]. apply H. reflexivity.
Qed.
(** Callbacks are added and called, the log is written and the pointer to the process is changed only by a thread that holds the mutex. *)
Theorem protected_sections_partial : forall n calls sch c t m, run (initial n calls) sch = Ok c -> needs c t m -> owner_of c m = Some t.
Proof. exact needs_owner. Qed.
Print Assumptions protected_sections_partial.
Example protected_sections_case : exists c c', run (initial 50 [RegisterCallback]) (turns User true 2) = Ok c /\ needs c User WatchdogMutex /\
  run c (turns Watchdog true 30) = Ok c' /\ ~ can_move c' Watchdog.
Proof.
  eexists _, _. split; [vm_compute; reflexivity|]. split; [eexists; left; vm_compute; reflexivity|]. split; [vm_compute; reflexivity|].
  intros H. apply (H true). vm_compute. reflexivity.
Qed.
(** Each of the three kinds does go wrong.  While start_process prepares a process, the watchdog finds a process that does not run and
    deletes it. *)
Theorem protected_access_refuted : exists sch c, run (initial 50 [Query]) sch = Ok c /\ crashes c User true.
Proof. exists (turns User false 10 ++ turns Watchdog false 30). eexists. split; vm_compute; reflexivity. Qed.
Print Assumptions protected_access_refuted.
(** The logger finds the process running, then the user stops the tracker, then the logger asks the process for its error stream. *)
Theorem protected_access_logger_refuted : exists sch c, run (initial 50 [Query; Reset]) sch = Ok c /\ crashes c Logger true.
Proof. exists (started ++ turns Logger true 6 ++ turns User false 16). eexists. split; vm_compute; reflexivity. Qed.
Print Assumptions protected_access_logger_refuted.
(** The tracker has died; the watchdog is about to tell the client object, which the user's thread, about to launch a new tracker,
    deletes. *)
Theorem protected_access_watchdog_refuted : exists sch c, run (initial 50 [Query; Initialize]) sch = Ok c /\ crashes c Watchdog true.
Proof. exists (started ++ turns User false 4 ++ turns Watchdog false 14 ++ turns User false 2). eexists. split; vm_compute; reflexivity. Qed.
Print Assumptions protected_access_watchdog_refuted.

(** ---- C81: a tracker that nobody waits for is left alone ---- *)
(** When the timeout is not armed at the beginning of a turn of the watchdog, and the user's thread rests, the watchdog stops a tracker only
    after it has found it dead, or a callback has asked for it.  Missing: that the timeout is not armed between calls. *)
Theorem idle_tracker_partial : forall n calls sch c sch' c' t k, run (initial n calls) sch = Ok c ->
  s_timeout (mem c) <= 0 -> code_of c Watchdog = watchdog ->
  Forall (fun x : thread * bool => fst x <> User) sch' -> run c sch' = Ok c' ->
  t <> User -> code_of c' t = Do DeleteProcess k -> t = Watchdog /\ w_terminate (mem c') = true.
Proof. exact unarmed_watchdog_spares. Qed.
Print Assumptions idle_tracker_partial.
(** A tracker that died while nobody waited for it is cleared away *)
Example idle_tracker_case : exists c c' k, run (initial 50 [Query; Exchange]) started = Ok c /\
  s_timeout (mem c) = 0 /\ code_of c Watchdog = watchdog /\
  run c (turns Watchdog false 22) = Ok c' /\ code_of c' Watchdog = Do DeleteProcess k /\ w_terminate (mem c') = true.
Proof.
  eexists _, _, _. split; [vm_compute; reflexivity|]. split; [reflexivity|]. split; [reflexivity|].
  split; [vm_compute; reflexivity|]. split; vm_compute; reflexivity.
Qed.
(** The decrement of the counter is not atomic: if the answer of the tracker arrives between its two halves, the watchdog arms the timeout
    again, and later stops a living tracker that nobody waits for. *)
Theorem idle_tracker_refuted : exists c c' k k',
  run (initial 3 [Query; Exchange]) answered = Ok c /\
  code_of c User = Do Idle k /\ s_timeout (mem c) = 0 /\ s_process (mem c) = Some 0%nat /\ nth_error (s_objects (mem c)) 0 = Some (mkObject true false false) /\
  Forall (fun x : thread * bool => fst x = Watchdog) late /\ run c late = Ok c' /\
  code_of c' Watchdog = Do DeleteProcess k' /\ w_terminate (mem c') = false /\ s_process (mem c') = Some 0%nat.
Proof.
  eexists _, _, _, _. split; [vm_compute; reflexivity|]. split; [vm_compute; reflexivity|]. split; [reflexivity|]. split; [reflexivity|]. split; [reflexivity|].
  split; [vm_compute; repeat constructor|]. split; [vm_compute; reflexivity|]. split; [vm_compute; reflexivity|]. split; reflexivity.
Qed.
Print Assumptions idle_tracker_refuted.
