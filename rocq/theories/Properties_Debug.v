(** Theorems about debug messages (C133). *)
From Verif Require Import CBase Num Message Handle HistorySpec Debug DebugSpec DebugProofs.
Local Open Scope Z_scope.

(** In a build without debug messages a client connects as without them. *)
Theorem debug_release_partial : forall variable root file s st o h, client_setup st o = Ok h -> client_setup_debug Release variable root file s st o = Ok (h, s, []).
Proof. exact setup_release. Qed.
Print Assumptions debug_release_partial.
(** In a build with them, they are on or off as the last call said (or the build, or the environment), and a client connects all the same:
    nothing is printed while they are off. *)
Theorem debug_off_partial : forall b variable root file calls st o h, b <> Release -> c_text root -> c_text file -> client_setup st o = Ok h ->
  switched (on_at_start b variable) calls = false -> exists s, client_setup_debug b variable root file (debug_after b variable root calls) st o = Ok (h, s, []).
Proof. exact setup_quiet. Qed.
Print Assumptions debug_off_partial.
(** While they are on and have a stream, something is printed exactly when there is no connection, and to this stream only. *)
Theorem debug_on_partial : forall b variable root file calls st o h t, b <> Release -> c_text root -> c_text file -> client_setup st o = Ok h ->
  switched (on_at_start b variable) calls = true -> target_after None calls = Some t ->
  exists s out, client_setup_debug b variable root file (debug_after b variable root calls) st o = Ok (h, s, out) /\ Forall (fun x => fst x = t) out /\ (h <> None <-> out = []).
Proof. exact setup_loud. Qed.
Print Assumptions debug_on_partial.
(** A message starts with the name of the file, without the directory of the sources if messages
    were ever enabled by a call, and the line. *)
Theorem debug_message_partial : forall b variable root calls file line text t, b <> Release -> c_text root -> c_text file ->
  switched (on_at_start b variable) calls = true -> target_after None calls = Some t ->
  exists s name, debugmsg b variable root (debug_after b variable root calls) file line text = Ok (s, [(t, name ++ [40%N] ++ print_Z line ++ str "): "); (t, text)]) /\
    (In Enable calls -> short_name root file name) /\ (~ In Enable calls -> name = file).
Proof. intros b variable root calls file line text t Hb Hr Hf. exact (proj1 (proj2 (message_ok b variable root calls file line text Hb Hr Hf)) t). Qed.
Print Assumptions debug_message_partial.
(** The directory of the sources is taken off exactly when the name starts with it; no name is read beyond its end. *)
Theorem debug_file_name_partial : forall root s file, c_text root -> c_text file -> d_length s = List.length root ->
  exists name, short_file_name root s file = Ok name /\ short_name root file name.
Proof. exact short_ok. Qed.
Print Assumptions debug_file_name_partial.
(** But messages that are on because of the build or the environment have no stream: a client that gets a wrong introduction prints to
    NULL instead of reporting that there is no connection. *)
Theorem debug_crash_refuted : forall b variable root file calls st o, b <> Release -> c_text root -> c_text file -> client_setup st o = Ok None ->
  switched (on_at_start b variable) calls = true -> target_after None calls = None -> client_setup_debug b variable root file (debug_after b variable root calls) st o = UB.
Proof. exact setup_crash. Qed.
Print Assumptions debug_crash_refuted.
(** With TRAX_DEBUG in the environment, and an introduction that is none. *)
Example debug_nonvacuous : let st := sample_input (str "@@TRAX:quit" ++ [10%N]) in
  client_setup st (h_out sample_client) = Ok None /\ c_text sample_root /\ c_text sample_file /\
  client_setup_debug Debugging true sample_root sample_file (debug_start Debugging) st (h_out sample_client) = UB /\
  (exists s, client_setup_debug Debugging true sample_root sample_file (debug_after Debugging true sample_root [Enable]) st (h_out sample_client) =
     Ok (None, s, [(1%nat, str "src/trax.c(581): "); (1%nat, str "Unable to parse hello message.")])) /\
  (exists s, client_setup_debug Debugging false sample_root sample_file (debug_start Debugging) st (h_out sample_client) = Ok (None, s, [])) /\
  (exists s, client_setup_debug Debugging false sample_root (str "/src/other.c") (debug_after Debugging false sample_root [Target 2; Ask; Enable; Ask]) (sample_input (str "@@TRAX:hello" ++ [32%N; 34%N; 97%N; 34%N; 10%N])) (h_out sample_client) =
     Ok (None, s, [(2%nat, str "/src/other.c(586): "); (2%nat, str "Illegal number of arguments 1, required more.")])).
Proof.
  assert (C : forall l, forallb (fun c => negb (c =? 0)%N) l = true -> c_text l).
  { intros l H X. rewrite forallb_forall in H. specialize (H _ X). discriminate H. }
  split; [vm_compute; reflexivity|]. split; [apply C; vm_compute; reflexivity|]. split; [apply C; vm_compute; reflexivity|]. split; [vm_compute; reflexivity|].
  split; [eexists; vm_compute; reflexivity|]. split; eexists; vm_compute; reflexivity.
Qed.
