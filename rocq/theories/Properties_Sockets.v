(** Theorems about connections between clients and trackers (C85 to C88). *)
From Verif Require Import CBase Num Process ProcessSpec Sockets SocketsSpec SocketsProofs.
Local Open Scope Z_scope.

(** A client with standard streams, and one whose standard input is closed. *)
Definition three_files : table := [Some (Something 0); Some (Something 1); Some (Something 2)].
Definition no_input : table := [None; Some (Something 1); Some (Something 2)].
Definition taken : try := mkTry true true false true.
Definition no_options : try := mkTry true false true true.
Definition a_parent : os := mkOs three_files 0 None [].
Definition one_process (id : Z) : answers := mkAnswers 3 (Some id).

(** C85.  In every history of a client's tracker objects and files, each object listens on a port of its own between 9090 and 65535,
    and the port that it tells its trackers is that port, except when it is 65535. *)
Theorem own_port_partial : forall t l w, w = do_changes (beginning t) l ->
  (forall i v, nth_error (o_live w) i = Some v -> exists port, listens_on w v port /\ 9090 <= port <= 65535 /\ (port <> 65535 -> socket_port v = port)) /\
  (forall i j u v p, nth_error (o_live w) i = Some u -> nth_error (o_live w) j = Some v -> listens_on w u p -> listens_on w v p -> i = j).
Proof. exact ports_told. Qed.
Print Assumptions own_port_partial.
Example own_port_nonvacuous :
  let w := do_changes (beginning three_files) [Make []; Make [taken]; OpenFile; Make []; Delete 0; CloseFile 5; Make []] in
  map socket_port (o_live w) = [9092; 9093; 9094] /\ map socket_id (o_live w) = [4; 6; 3] /\ listens (o_net w) 4 = Some 9092.
Proof. vm_compute. auto. Qed.
(** After the last port the numbers begin again before the port is noted: the object that listens on port 65535 tells its trackers 9089. *)
Theorem last_port_refuted : exists l v,
  o_live (do_changes (beginning three_files) l) = [v] /\ listens_on (do_changes (beginning three_files) l) v 65535 /\ socket_port v = 9089.
Proof.
  exists (repeat (Make (repeat taken 10)) 5644 ++ [Make (repeat taken 5)]), (mkServer 3 9089). split; [vm_compute; reflexivity|]. split; [|reflexivity].
  split; [vm_compute; discriminate|vm_compute; reflexivity].
Qed.
Print Assumptions last_port_refuted.

(** C85.  The constructor succeeds if and only if one of the next ten ports can be used, and takes the first of those; if none can, it
    throws and opens nothing (unless setsockopt fails).  This is so when standard input is open. *)
Theorem ten_ports_partial : forall t l w r, w = do_changes (beginning t) l -> fd_get (n_files (o_net w)) 0 <> None ->
  match state_create (o_net w) (o_next w) r with
  | (Some v, _, s') => exists i port, (i < 10)%nat /\ port = candidate (o_next w) i /\ usable (o_net w) port (attempt r i) /\
      (forall j, (j < i)%nat -> ~ usable (o_net w) (candidate (o_next w) j) (attempt r j)) /\
      0 <= socket_id v /\ listens s' (Z.to_nat (socket_id v)) = Some port
  | (None, _, s') => (forall i, (i < 10)%nat -> ~ usable (o_net w) (candidate (o_next w) i) (attempt r i)) /\
      (Forall (fun a => t_option a = true) r -> same_table (n_files s') (n_files (o_net w)))
  end.
Proof. exact ten_candidates. Qed.
Print Assumptions ten_ports_partial.
Example ten_ports_nonvacuous :
  fst (fst (state_create (mkNet three_files []) 9090 (repeat taken 9))) = Some (mkServer 3 9099) /\
  fst (fst (state_create (mkNet three_files []) 9090 (repeat taken 10))) = None /\
  candidate 65530 9 = 9093 /\ usable (mkNet three_files []) 9099 all_well.
Proof. split; [vm_compute; reflexivity|]. split; [vm_compute; reflexivity|]. split; [vm_compute; reflexivity|]. unfold usable. cbn. auto 10. Qed.

(** C85.  When all objects have been destroyed the client has the descriptors that it had before, if setsockopt did not fail and
    standard input is open. *)
Theorem ports_returned_partial : forall t l w, fd_get t 0 <> None -> Forall only_objects l -> w = do_changes (beginning t) l -> o_live w = [] ->
  n_bound (o_net w) = [] /\ same_table (n_files (o_net w)) t.
Proof. exact ports_given_back. Qed.
Print Assumptions ports_returned_partial.
Example ports_returned_nonvacuous :
  Forall only_objects [Make []; Make [taken]; Delete 0; Make (repeat taken 10); Delete 0] /\
  o_live (do_changes (beginning three_files) [Make []; Make [taken]; Delete 0; Make (repeat taken 10); Delete 0]) = [] /\
  o_live (do_changes (beginning three_files) [Make []; Make [taken]; Delete 0; Make (repeat taken 10)]) <> [].
Proof.
  split; [|split; [vm_compute; reflexivity|vm_compute; discriminate]].
  constructor; [constructor|]. constructor; [constructor; [reflexivity|constructor]|]. constructor; [exact Logic.I|]. constructor; [|constructor; [exact Logic.I|constructor]].
  cbn [only_objects repeat]. repeat constructor.
Qed.
(** When setsockopt fails the socket is never closed. *)
Theorem option_leak_refuted : exists w, w = do_changes (beginning three_files) [Make [no_options]; Delete 0] /\ o_live w = [] /\
  fd_get three_files 3 = None /\ fd_get (n_files (o_net w)) 3 = Some a_socket.
Proof. eexists. split; [reflexivity|]. vm_compute. auto. Qed.
Print Assumptions option_leak_refuted.
(** When standard input is closed a socket gets descriptor 0, which counts as a failure: it goes on listening for ever, and another one
    is made. *)
Theorem descriptor_zero_refuted : exists w, w = do_changes (beginning no_input) [Make []] /\ map socket_port (o_live w) = [9091] /\
  listens (o_net w) 0 = Some 9090 /\ let w' := do_change w (Delete 0) in o_live w' = [] /\ listens (o_net w') 0 = Some 9090.
Proof. eexists. split; [reflexivity|]. vm_compute. auto 10. Qed.
Print Assumptions descriptor_zero_refuted.

(** C86, sockets.  Whatever the environment of the client and the variables given to the tracker object, the tracker connects to the port
    on which the object listens, except for port 65535. *)
Theorem tracker_finds_port_partial : forall t h w i v s l given a id, w = do_changes (beginning t) h -> nth_error (o_live w) i = Some v ->
  (3 <= pipes_possible a)%nat -> spawned a = Some id -> names_ok l -> names_ok given ->
  exists port s' p' c, listens_on w v port /\ process_start s (describe Sockets (socket_port v) (map setting l) given) a = Ok (true, s', p') /\
    the_child s' = Some c /\ c_pid c = id /\ (port <> 65535 -> server_channel (c_vars c) = ConnectTo port).
Proof. exact tracker_finds. Qed.
Print Assumptions tracker_finds_port_partial.
Example tracker_finds_port_nonvacuous : exists s' p' c,
  process_start a_parent (describe Sockets 9092 (map setting [(str "TRAX_SOCKET", str "1"); (str "TRAX_IN", str "7")]) [(str "TRAX_SOCKET", str "2")]) (one_process 5) = Ok (true, s', p') /\
  the_child s' = Some c /\ server_channel (c_vars c) = ConnectTo 9092.
Proof. eexists _, _, _. split; [vm_compute; reflexivity|]. split; [reflexivity|]. vm_compute. reflexivity. Qed.

(** C86, standard streams: the tracker reads from and writes to the pipes of its client, if none of the three variables is set. *)
Theorem default_streams_partial : forall s l given port a id, fresh_os s -> (3 <= pipes_possible a)%nat -> spawned a = Some id ->
  names_ok l -> names_ok given -> no_channel l -> no_channel given ->
  exists s' p' c inp outp, process_start s (describe DefaultStreams port (map setting l) given) a = Ok (true, s', p') /\ the_child s' = Some c /\ c_pid c = id /\
    server_channel (c_vars c) = Streams 0 1 /\ fd_get (c_files c) 0 = Some (ReadEnd inp) /\ fd_get (c_files c) 1 = Some (WriteEnd outp) /\
    refers (files s') (get_input p') (WriteEnd inp) /\ refers (files s') (get_output p') (ReadEnd outp).
Proof. exact default_channel. Qed.
Print Assumptions default_streams_partial.
(** C86, dedicated streams. *)
Theorem explicit_numbers_partial : forall s l given port a id k2, fresh_os s -> descriptors_fit s -> (3 <= pipes_possible a)%nat -> spawned a = Some id ->
  fd_get (files s) 2 = Some k2 -> names_ok l -> names_ok given -> no_channel l -> no_channel given ->
  exists s' p' c inp outp fi fo, process_start s (describe ExplicitStreams port (map setting l) given) a = Ok (true, s', p') /\ the_child s' = Some c /\ c_pid c = id /\
    server_channel (c_vars c) = Streams (Z.of_nat fi) (Z.of_nat fo) /\ fd_get (c_files c) fi = Some (ReadEnd inp) /\ fd_get (c_files c) fo = Some (WriteEnd outp) /\
    refers (files s') (get_input p') (WriteEnd inp) /\ refers (files s') (get_output p') (ReadEnd outp).
Proof. exact explicit_channel. Qed.
Print Assumptions explicit_numbers_partial.
Definition ordinary : list (list N * list N) := [(str "PATH", str "/bin"); (str "TRAX", str "x=y")].
Example streams_nonvacuous : fresh_os a_parent /\ descriptors_fit a_parent /\ names_ok ordinary /\ no_channel ordinary /\
  exists s' p' c, process_start a_parent (describe ExplicitStreams 0 (map setting ordinary) [(str "HOME", str "/")]) (one_process 5) = Ok (true, s', p') /\
    the_child s' = Some c /\ server_channel (c_vars c) = Streams 3 6.
Proof.
  split. { split; [reflexivity|]. split; [reflexivity|]. intros m k. do 3 (destruct m as [|m]; [intros H; injection H as <-; exact Logic.I|]). destruct m; discriminate. }
  split; [vm_compute; discriminate|]. split. { constructor; [vm_compute; intuition discriminate|]. constructor; [vm_compute; intuition discriminate|constructor]. }
  split. { split; [vm_compute; intuition discriminate|]. split; vm_compute; intuition discriminate. }
  eexists _, _, _. split; [vm_compute; reflexivity|]. split; [reflexivity|]. vm_compute. reflexivity.
Qed.
(** A client that was itself started with a socket, a tracker that uses other trackers, passes TRAX_SOCKET on: trackers that it starts with
    streams connect to the socket of the client's own client instead. *)
Theorem inherited_socket_refuted : forall s mode l given port a id x, (3 <= pipes_possible a)%nat -> spawned a = Some id -> mode <> Sockets ->
  names_ok l -> NoDup (map fst l) -> names_ok given -> unset (str "TRAX_SOCKET") given -> In (str "TRAX_SOCKET", x) l ->
  exists s' p' c, process_start s (describe mode port (map setting l) given) a = Ok (true, s', p') /\ the_child s' = Some c /\
    server_channel (c_vars c) = ConnectTo (htons (atoi x)).
Proof. exact inherited_socket. Qed.
Print Assumptions inherited_socket_refuted.
(** In the same way TRAX_IN and TRAX_OUT are passed on to trackers with standard streams. *)
Theorem inherited_streams_refuted : exists s' p' c,
  process_start a_parent (describe DefaultStreams 0 (map setting [(str "TRAX_IN", str "7"); (str "TRAX_OUT", str "8")]) []) (one_process 5) = Ok (true, s', p') /\
  the_child s' = Some c /\ server_channel (c_vars c) = Streams 7 8 /\ fd_get (c_files c) 7 = None.
Proof. eexists _, _, _. split; [vm_compute; reflexivity|]. split; [reflexivity|]. vm_compute. auto. Qed.
Print Assumptions inherited_streams_refuted.

(** C87.  A tracker with a socket gets connected if and only if one of its attempts succeeds. *)
Theorem connects_partial : forall answers, server_connect true true answers = Ok tt <-> In true answers.
Proof. exact server_connects. Qed.
Print Assumptions connects_partial.
Example connects_nonvacuous : server_connect true true [false; false; true; false] = Ok tt.
Proof. reflexivity. Qed.
(** It tries for ever when nobody listens, for instance because the client has ended; and, when setsockopt fails, also when somebody does.
    Without a socket the setup follows a null pointer. *)
Theorem nobody_listens_refuted : forall n, server_connect true true (repeat false n) = NoFuel.
Proof. exact server_waits. Qed.
Print Assumptions nobody_listens_refuted.
Theorem connect_option_refuted : forall answers, server_connect true false answers = NoFuel.
Proof. exact server_hangs. Qed.
Print Assumptions connect_option_refuted.
Theorem no_socket_refuted : forall can_option answers, server_connect false can_option answers = UB.
Proof. reflexivity. Qed.
Print Assumptions no_socket_refuted.

(** C88.  A client with sockets waits 0.1 s and the timeout for the tracker to connect, no less and no more, if no connection is left from
    before, no signal comes and the timeout is not negative; with a negative one it waits as long as it takes. *)
Theorem waits_for_tracker_partial : forall timeout s d, 0 <= timeout -> l_queue s = [] -> l_runs s = false -> 0 <= d ->
  exists s', launch_process s timeout (Some d) None =
    (Some (if d <=? 100 + 1000 * timeout then Accepted (l_now s + Z.max 100 d) (S (l_last s)) else TimedOut (l_now s + 100 + 1000 * timeout)), s') /\ l_last s' = S (l_last s).
Proof. exact own_launch. Qed.
Print Assumptions waits_for_tracker_partial.
Theorem silent_tracker_partial : forall timeout s, 0 <= timeout -> l_queue s = [] -> l_runs s = false ->
  exists s', launch_process s timeout None None = (Some (TimedOut (l_now s + 100 + 1000 * timeout)), s') /\ l_queue s' = [].
Proof. exact silent_launch. Qed.
Print Assumptions silent_tracker_partial.
Theorem negative_timeout_partial : forall timeout s d, timeout < 0 -> l_queue s = [] -> l_runs s = false -> 0 <= d ->
  exists s', launch_process s timeout (Some d) None = (Some (Accepted (l_now s + Z.max 100 d) (S (l_last s))), s').
Proof. exact negative_waits. Qed.
Print Assumptions negative_timeout_partial.
(** C88.  In a history in which every process connects in time, every launch gets the connection of the process that it started. *)
Theorem own_tracker_partial : forall timeout now l, 0 <= timeout -> Forall (in_time timeout) l ->
  Forall (fun x => exists t, snd x = Accepted t (fst x)) (fst (happens timeout (idle now) l)).
Proof. intros timeout now l Ht Hl. exact (proj1 (history_own timeout l Ht Hl (idle now) eq_refl)). Qed.
Print Assumptions own_tracker_partial.
Example own_tracker_nonvacuous :
  let l := [Launch (Some 50) None; Launch (Some 10) None; Ends; Passes 300; Launch (Some 1100) None; Ends; Launch (Some 0) None] in
  Forall (in_time 1) l /\ fst (happens 1 (idle 0) l) = [(1%nat, Accepted 100 1); (2%nat, Accepted 1500 2); (3%nat, Accepted 1600 3)].
Proof. split; [repeat (constructor; [cbn [in_time]; exact Logic.I || lia|]); constructor|vm_compute; reflexivity]. Qed.
(** A timeout of zero, which elsewhere means to wait for ever (C73), fails at once. *)
Theorem zero_timeout_refuted : forall s d, l_queue s = [] -> l_runs s = false -> 100 < d ->
  exists s', launch_process s 0 (Some d) None = (Some (TimedOut (l_now s + 100)), s').
Proof.
  intros s d Hq Hr Hd. destruct (own_launch 0 s d ltac:(lia) Hq Hr ltac:(lia)) as (s' & E & _). exists s'. rewrite E.
  replace (d <=? 100 + 1000 * 0) with false by lia. now rewrite Z.add_0_r.
Qed.
Print Assumptions zero_timeout_refuted.
(** A process that connects after the timeout leaves its connection behind, also when it has been killed: the next launch takes it for that
    of the new process. *)
Theorem stale_connection_refuted :
  fst (happens 1 (idle 0) [Launch (Some 1500) None; Passes 1000; Ends; Launch (Some 50) None]) = [(1%nat, TimedOut 1100); (2%nat, Accepted 2200 1)].
Proof. vm_compute. reflexivity. Qed.
Print Assumptions stale_connection_refuted.
(** A signal while the client waits turns the timeout off: if the tracker never connects, the client waits for ever. *)
Theorem interrupted_refuted : fst (happens 1 (idle 0) [Launch None (Some 500)]) = [(1%nat, Forever)].
Proof. vm_compute. reflexivity. Qed.
Print Assumptions interrupted_refuted.
