(** Theorems about child processes (C67 to C72). *)
From Verif Require Import CBase Num Process ProcessSpec ProcessProofs.
Local Open Scope Z_scope.

(** A parent with standard streams and a file open at 3 and 5. *)
Definition parent : os := mkOs [Some (Something 0); Some (Something 1); Some (Something 2); Some (Something 3); None; Some (Something 5)] 0 None [].
(** A parent without an error stream. *)
Definition mute : os := mkOs [Some (Something 0); Some (Something 1)] 0 None [].
Definition three_pipes_and (id : Z) : answers := mkAnswers 3 (Some id).

(** C67, default streams.  Whatever the descriptors of the parent, the child reads from the pipe that the parent writes to, and its
    output and its errors go to the two pipes that the parent reads from; the child has no other end of these pipes, and the other
    descriptors of both stay what they were. *)
Theorem child_streams : forall s en a id, fresh_os s -> (3 <= pipes_possible a)%nat -> spawned a = Some id ->
  exists s' p' c inp outp errp, process_start s (prepared false en) a = Ok (true, s', p') /\
    the_child s' = Some c /\ c_pid c = id /\ c_life c = Running /\ c_vars c = map setting en /\
    fd_get (c_files c) 0 = Some (ReadEnd inp) /\ fd_get (c_files c) 1 = Some (WriteEnd outp) /\ fd_get (c_files c) 2 = Some (WriteEnd errp) /\
    refers (files s') (get_input p') (WriteEnd inp) /\ refers (files s') (get_output p') (ReadEnd outp) /\ refers (files s') (get_error p') (ReadEnd errp) /\
    nowhere (c_files c) (WriteEnd inp) /\ nowhere (c_files c) (ReadEnd outp) /\ nowhere (c_files c) (ReadEnd errp) /\
    inp <> outp /\ inp <> errp /\ outp <> errp /\
    (forall m k, fd_get (files s) m = Some k -> fd_get (files s') m = Some k /\ ((2 < m)%nat -> fd_get (c_files c) m = Some k)).
Proof. exact streams_default. Qed.
Print Assumptions child_streams.
Example child_streams_nonvacuous : fresh_os parent /\ fresh_os mute /\
  exists s' p', process_start parent (prepared false []) (three_pipes_and 77) = Ok (true, s', p') /\
    get_input p' = Ok 6 /\ get_output p' = Ok 7 /\ get_error p' = Ok 9 /\ get_handle p' = 77.
Proof.
  split; [|split].
  - split; [reflexivity|]. split; [reflexivity|]. intros m k. do 6 (destruct m as [|m]; [intros H; vm_compute in H; (discriminate H || (injection H as <-; exact Logic.I))|]). destruct m; discriminate.
  - split; [reflexivity|]. split; [reflexivity|]. intros m k. do 2 (destruct m as [|m]; [intros H; injection H as <-; exact Logic.I|]). destruct m; discriminate.
  - eexists _, _. split; [vm_compute; reflexivity|]. vm_compute. auto.
Qed.

(** C67, explicit streams: the variables TRAX_IN and TRAX_OUT name the right descriptors, if the parent has an error stream and the
    variables are not in the environment that it passes on. *)
Theorem explicit_streams_partial : forall s en a id k2, fresh_os s -> (3 <= pipes_possible a)%nat -> spawned a = Some id ->
  fd_get (files s) 2 = Some k2 -> names_ok en -> unset (str "TRAX_IN") en -> unset (str "TRAX_OUT") en ->
  exists s' p' c inp outp errp fi fo, process_start s (prepared true en) a = Ok (true, s', p') /\
    the_child s' = Some c /\ c_pid c = id /\ c_life c = Running /\
    getenv (c_vars c) (str "TRAX_IN") = Some (print_Z (Z.of_nat fi)) /\ fd_get (c_files c) fi = Some (ReadEnd inp) /\
    getenv (c_vars c) (str "TRAX_OUT") = Some (print_Z (Z.of_nat fo)) /\ fd_get (c_files c) fo = Some (WriteEnd outp) /\
    fd_get (c_files c) 2 = Some (WriteEnd errp) /\
    refers (files s') (get_input p') (WriteEnd inp) /\ refers (files s') (get_output p') (ReadEnd outp) /\ refers (files s') (get_error p') (ReadEnd errp) /\
    nowhere (c_files c) (WriteEnd inp) /\ nowhere (c_files c) (ReadEnd outp) /\ nowhere (c_files c) (ReadEnd errp) /\
    inp <> outp /\ inp <> errp /\ outp <> errp /\
    (forall m k, fd_get (files s) m = Some k -> fd_get (files s') m = Some k /\ (m <> 2%nat -> fd_get (c_files c) m = Some k)).
Proof. exact streams_explicit. Qed.
Print Assumptions explicit_streams_partial.
Example explicit_streams_nonvacuous : fd_get (files parent) 2 = Some (Something 2) /\ names_ok [(str "PATH", str "/bin")] /\ unset (str "TRAX_IN") [(str "PATH", str "/bin")] /\
  exists s' p' c, process_start parent (prepared true [(str "PATH", str "/bin")]) (three_pipes_and 77) = Ok (true, s', p') /\ the_child s' = Some c /\
    getenv (c_vars c) (str "TRAX_IN") = Some (str "4") /\ fd_get (c_files c) 4 = Some (ReadEnd 0) /\
    getenv (c_vars c) (str "TRAX_OUT") = Some (str "8") /\ fd_get (c_files c) 8 = Some (WriteEnd 1) /\ getenv (c_vars c) (str "PATH") = Some (str "/bin").
Proof.
  split; [reflexivity|]. split; [constructor; [vm_compute; intuition discriminate|constructor]|]. split; [vm_compute; intuition discriminate|].
  eexists _, _, _. split; [vm_compute; reflexivity|]. split; [reflexivity|]. vm_compute. auto 10.
Qed.

(** Without an error stream in the parent the pipe for the input gets descriptor 2, which the error stream of the child replaces: the
    child is told to read from a pipe that it can only write to. *)
Theorem explicit_no_stderr_refuted : exists s' p' c, process_start mute (prepared true []) (three_pipes_and 77) = Ok (true, s', p') /\ the_child s' = Some c /\
  getenv (c_vars c) (str "TRAX_IN") = Some (str "2") /\ fd_get (c_files c) 2 = Some (WriteEnd 2) /\ refers (files s') (get_error p') (ReadEnd 2) /\
  nowhere (c_files c) (ReadEnd 0).
Proof.
  eexists _, _, _. split; [vm_compute; reflexivity|]. split; [reflexivity|]. split; [vm_compute; reflexivity|]. split; [vm_compute; reflexivity|].
  split; [exists 6%nat; vm_compute; auto|]. intros m H. do 8 (destruct m as [|m]; [vm_compute in H; discriminate H|]). destruct m; vm_compute in H; discriminate H.
Qed.
Print Assumptions explicit_no_stderr_refuted.
(** If the parent was itself started with explicit streams and passes its environment on, the child reads the numbers meant for the
    parent. *)
Theorem explicit_inherited_refuted : exists s' p' c,
  process_start parent (copy_environment (process_create true) [str "TRAX_IN=3"; str "TRAX_OUT=5"]) (three_pipes_and 77) = Ok (true, s', p') /\
  the_child s' = Some c /\ getenv (c_vars c) (str "TRAX_IN") = Some (str "3") /\ fd_get (c_files c) 3 = Some (Something 3) /\
  getenv (c_vars c) (str "TRAX_OUT") = Some (str "5") /\ fd_get (c_files c) 5 = Some (Something 5).
Proof. eexists _, _, _. split; [vm_compute; reflexivity|]. split; [reflexivity|]. vm_compute. auto. Qed.
Print Assumptions explicit_inherited_refuted.

(** C68.  Asking whether the child is alive tells the truth after every history of questions and signals: alive while it runs, then its
    exit code, or the number of the signal that ended it, negated. *)
Theorem alive_truthful_partial : forall s explicit en a id l, (3 <= pipes_possible a)%nat -> spawned a = Some id -> 0 < id -> Forall no_start l ->
  exists s' p', do_deeds s (prepared explicit en) (Start a :: l) = Ok (s', p') /\
    fst (fst (is_alive s' p')) = match first_end l with
                                 | None => (true, Some 0)
                                 | Some (Exited c) => (false, Some c)
                                 | Some (Signaled g) => (false, Some (- g))
                                 end.
Proof. exact status_true. Qed.
Print Assumptions alive_truthful_partial.
Example alive_truthful_nonvacuous : exists s' p',
  do_deeds parent (prepared false []) [Start (three_pipes_and 77); Ask; Terminate; ChildEnds (Signaled 15); Ask; KillIt; Ask] = Ok (s', p') /\
  fst (fst (is_alive s' p')) = (false, Some (-15)) /\ signals s' = [(15, OurChild)] /\ get_handle p' = 0.
Proof. eexists _, _. split; [vm_compute; reflexivity|]. vm_compute. auto. Qed.
(** Trying to start it again, which is refused, loses the exit code. *)
Theorem restart_forgets_refuted : exists s' p',
  do_deeds parent (prepared false []) [Start (three_pipes_and 77); ChildEnds (Exited 3); Ask; Start (three_pipes_and 78)] = Ok (s', p') /\
  fst (fst (is_alive s' p')) = (false, Some (-1)).
Proof. eexists _, _. split; [vm_compute; reflexivity|]. vm_compute. reflexivity. Qed.
Print Assumptions restart_forgets_refuted.
(** Before the first start the status is not initialised. *)
Theorem status_before_start_refuted : forall s explicit en, fst (fst (is_alive s (prepared explicit en))) = (false, None).
Proof. reflexivity. Qed.
Print Assumptions status_before_start_refuted.

(** C69.  Signals are only ever sent to the child, never to a stranger that got its number: in every history. *)
Theorem signals_to_child : forall s explicit en l, fresh_os s ->
  exists s' p', do_deeds s (prepared explicit en) l = Ok (s', p') /\ Forall (fun x => snd x = OurChild) (signals s').
Proof. exact signals_ours. Qed.
Print Assumptions signals_to_child.
Example signals_to_child_nonvacuous : exists s' p',
  do_deeds parent (prepared false []) [Terminate; Start (three_pipes_and 77); Terminate; Start (three_pipes_and 78); KillIt; ChildEnds (Signaled 9); Terminate; KillIt; Terminate] = Ok (s', p') /\
  signals s' = [(15, OurChild); (9, OurChild); (15, OurChild)] /\ snd (hd (0, OurChild) (signals (sys_kill s' 77 9))) = Stranger.
Proof. eexists _, _. split; [vm_compute; reflexivity|]. vm_compute. auto. Qed.

(** C70.  Destroying the process closes everything that was opened for it, after every history that began with a successful start, and
    signals only the child. *)
Theorem destroy_restores_partial : forall s explicit en a id l, fresh_os s -> (3 <= pipes_possible a)%nat -> spawned a = Some id -> 0 < id ->
  exists s' p' s'', do_deeds s (prepared explicit en) (Start a :: l) = Ok (s', p') /\ process_destroy s' p' = Ok s'' /\ same_table (files s'') (files s) /\
    Forall (fun x => snd x = OurChild) (signals s'').
Proof. exact destroy_restores. Qed.
Print Assumptions destroy_restores_partial.
Example destroy_restores_nonvacuous : exists s' p' s'',
  do_deeds parent (prepared false []) [Start (three_pipes_and 77); Ask; Start (three_pipes_and 78)] = Ok (s', p') /\
  fd_get (files s') 4 = Some (ReadEnd 0) /\ process_destroy s' p' = Ok s'' /\ fd_get (files s'') 4 = None /\ fd_get (files s'') 5 = Some (Something 5) /\
  signals s'' = [(9, OurChild)].
Proof. eexists _, _, _. split; [vm_compute; reflexivity|]. split; [vm_compute; reflexivity|]. split; [vm_compute; reflexivity|]. vm_compute. auto. Qed.
(** A process that was never started, or for which the pipes ran out, closes descriptors whose numbers were never set. *)
Theorem destroy_unstarted_refuted : forall s explicit en, process_destroy s (prepared explicit en) = UB.
Proof. reflexivity. Qed.
Print Assumptions destroy_unstarted_refuted.
Theorem destroy_no_pipes_refuted : forall s explicit en n id, (n < 3)%nat ->
  exists s' p', do_deeds s (prepared explicit en) [Start (mkAnswers n id)] = Ok (s', p') /\ process_destroy s' p' = UB.
Proof. exact destroy_no_pipes. Qed.
Print Assumptions destroy_no_pipes_refuted.
(** Starting again after the pipes ran out leaks the pipe that had been made. *)
Theorem start_again_leaks_refuted : exists s' p' s'',
  do_deeds parent (prepared false []) [Start (mkAnswers 1 (Some 77)); Start (three_pipes_and 78)] = Ok (s', p') /\ process_destroy s' p' = Ok s'' /\
  fd_get (files parent) 4 = None /\ fd_get (files s'') 4 = Some (ReadEnd 0).
Proof. eexists _, _, _. split; [vm_compute; reflexivity|]. split; [vm_compute; reflexivity|]. vm_compute. auto. Qed.
Print Assumptions start_again_leaks_refuted.

(** C71.  The parent keeps its own copies of the ends that the child writes to: until the process is destroyed reading from the child
    never meets the end of the file, however the child ended. *)
Theorem end_of_output_refuted : forall s explicit en a id l, (3 <= pipes_possible a)%nat -> spawned a = Some id -> 0 < id ->
  exists s' p' s1 p1 outp errp, process_start s (prepared explicit en) a = Ok (true, s1, p1) /\ do_deeds s1 p1 l = Ok (s', p') /\
    refers (files s1) (get_output p1) (ReadEnd outp) /\ refers (files s1) (get_error p1) (ReadEnd errp) /\
    ~ end_of_file s' outp /\ ~ end_of_file s' errp.
Proof. exact never_ends. Qed.
Print Assumptions end_of_output_refuted.
Example end_of_output_nonvacuous : exists s1 p1 s' p',
  process_start parent (prepared false []) (three_pipes_and 77) = Ok (true, s1, p1) /\ do_deeds s1 p1 [ChildEnds (Signaled 11); Ask] = Ok (s', p') /\
  fst (fst (is_alive s' p')) = (false, Some (-11)) /\ alive_table s' = [] /\ fd_get (files s') 8 = Some (WriteEnd 1).
Proof. eexists _, _, _, _. split; [vm_compute; reflexivity|]. split; [vm_compute; reflexivity|]. vm_compute. auto. Qed.

(** C72.  The child sees the environment of the parent, and the variables set for it. *)
Theorem child_environment_partial : forall s l a id, (3 <= pipes_possible a)%nat -> spawned a = Some id -> names_ok l -> NoDup (map fst l) ->
  exists s' p' c, process_start s (copy_environment (process_create false) (map setting l)) a = Ok (true, s', p') /\ the_child s' = Some c /\
    forall name, ~ In c_eq name -> getenv (c_vars c) name = getenv (map setting l) name.
Proof. exact child_environment. Qed.
Print Assumptions child_environment_partial.
Theorem child_variable_partial : forall s l k v a id, (3 <= pipes_possible a)%nat -> spawned a = Some id -> names_ok l -> NoDup (map fst l) -> ~ In c_eq k ->
  exists s' p' c, process_start s (set_environment (copy_environment (process_create false) (map setting l)) k v) a = Ok (true, s', p') /\ the_child s' = Some c /\
    getenv (c_vars c) k = Some v /\ forall name, ~ In c_eq name -> name <> k -> getenv (c_vars c) name = getenv (map setting l) name.
Proof. exact child_variable. Qed.
Print Assumptions child_variable_partial.
Example child_variable_nonvacuous : let l := [(str "PATH", str "/bin"); (str "TERM", str "a=b")] in
  names_ok l /\ NoDup (map fst l) /\
  exists s' p' c, process_start parent (set_environment (copy_environment (process_create false) (map setting l)) (str "PATH") (str "/usr")) (three_pipes_and 77) = Ok (true, s', p') /\
    the_child s' = Some c /\ getenv (c_vars c) (str "PATH") = Some (str "/usr") /\ getenv (c_vars c) (str "TERM") = Some (str "a=b") /\ getenv (c_vars c) (str "HOME") = None.
Proof.
  split; [|split].
  - repeat (apply Forall_cons; [vm_compute; intuition discriminate|]). apply Forall_nil.
  - cbn [map fst]. apply NoDup_cons; [intros [H|[]]; vm_compute in H; discriminate H|]. apply NoDup_cons; [intros []|apply NoDup_nil].
  - eexists _, _, _. split; [vm_compute; reflexivity|]. split; [reflexivity|]. vm_compute. auto.
Qed.
(** With a variable twice in the environment the parent sees the first value and the child the last. *)
Theorem duplicate_variable_refuted : exists s' p' c,
  process_start parent (copy_environment (process_create false) [str "A=1"; str "A=2"]) (three_pipes_and 77) = Ok (true, s', p') /\ the_child s' = Some c /\
  getenv [str "A=1"; str "A=2"] (str "A") = Some (str "1") /\ getenv (c_vars c) (str "A") = Some (str "2").
Proof. eexists _, _, _. split; [vm_compute; reflexivity|]. split; [reflexivity|]. vm_compute. auto. Qed.
Print Assumptions duplicate_variable_refuted.
