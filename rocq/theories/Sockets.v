(** Model of how a client and a tracker find each other: the ports of tracker objects (support/client/client.cpp), the choice of the
    connection in the tracker (src/trax.c), and connecting and accepting (src/message.c).  POSIX branches.
    Descriptors and environments are those of Process.v.  Simplifications: SO_NOSIGPIPE is not defined (Linux); perror writes nothing;
    tracker objects are made one at a time (next_available_socket_port is not protected). *)
From Verif Require Import CBase Num Image Process.
Local Open Scope Z_scope.

(** ---- Ports ---- *)
(** support/client/include/trax/client.hpp:35 *)
Definition TRAX_DEFAULT_PORT : Z := 9090.
(** The sockets of the client: its descriptors, and the ports on which they listen *)
Record net := mkNet { n_files : table; n_bound : list (nat * Z) }.
(** What a descriptor for a socket refers to, in the vocabulary of Process.v *)
Definition a_socket : kind := Something 0.
(** What the system answers to one attempt: socket(), setsockopt(), bind() (false: another process has the port) and listen() *)
Record try := mkTry { t_socket : bool; t_option : bool; t_free : bool; t_listen : bool }.
Definition all_well : try := mkTry true true true true.
(** A port is a 16 bit number: htons *)
Definition htons (port : Z) : Z := port mod 65536.
(** bind(2) refuses a port on which a socket of the same process listens *)
Definition in_use (b : list (nat * Z)) (port : Z) : bool := existsb (fun x => snd x =? port) b.
(** close(2) of a socket *)
Definition close_socket (s : net) (n : nat) : net :=
  mkNet (fd_set (n_files s) n None) (filter (fun x => negb (fst x =? n)%nat) (n_bound s)).

(** support/client/client.cpp:83-132 create_server_socket: when setsockopt fails the descriptor is not closed *)
Definition create_server_socket (s : net) (port : Z) (a : try) : Z * net :=
  if negb (t_socket a) then (-1, s)
  else
    let '(n, t) := fd_new (n_files s) a_socket in
    let s1 := mkNet t (n_bound s) in
    if negb (t_option a) then (-1, s1)
    else if negb (t_free a) || in_use (n_bound s) (htons port) then (-1, close_socket s1 n)
    else if negb (t_listen a) then (-1, close_socket s1 n)
    else (Z.of_nat n, mkNet t ((n, htons port) :: n_bound s)).

(** support/client/client.cpp:134-145 destroy_server_socket *)
Definition destroy_server_socket (s : net) (server : Z) : net :=
  if server <? 0 then s else close_socket s (Z.to_nat server).

(** support/client/client.cpp:242-244: the next port to try *)
Definition next_port (port : Z) : Z := if 65535 <? port + 1 then TRAX_DEFAULT_PORT else port + 1.
(** support/client/client.cpp:240-247: the loop.  [sid] is socket_id, [port] is next_available_socket_port. *)
Fixpoint try_ports (attempts : nat) (sid port : Z) (s : net) (l : list try) : Z * Z * net :=
  match attempts with
  | O => (sid, port, s)
  | S n =>
      let '(sid', s') := create_server_socket s port (hd all_well l) in
      if 0 <? sid' then (sid', next_port port, s') else try_ports n sid' (next_port port) s' (tl l)
  end.

(** What a tracker object keeps: socket_id and socket_port *)
Record server := mkServer { socket_id : Z; socket_port : Z }.
(** support/client/client.cpp:237-253: the part of the State constructor for sockets; None: it throws *)
Definition state_create (s : net) (port : Z) (l : list try) : option server * Z * net :=
  let '(sid, port', s') := try_ports 10 (-1) port s l in
  if sid <? 0 then (None, port', s') else (Some (mkServer sid (port' - 1)), port', s').

(** ---- The environment of a tracker ---- *)
(** support/client/include/trax/client.hpp: ConnectionMode *)
Inductive connection := DefaultStreams | ExplicitStreams | Sockets.
(** support/client/client.cpp:310-332: the part of State::start_process that describes the process.  [environ] is the environment of the
    client, [given] the variables passed to the tracker object. *)
Definition set_variable (p : process) (kv : list N * list N) : process := set_environment p (fst kv) (snd kv).
Definition describe (mode : connection) (port : Z) (environ : list (list N)) (given : list (list N * list N)) : process :=
  let p := process_create (match mode with ExplicitStreams => true | _ => false end) in
  let p := copy_environment p environ in
  let p := fold_left set_variable given p in
  match mode with Sockets => set_environment p (str "TRAX_SOCKET") (print_Z port) | _ => p end.

(** atoi(3): the conversion of glibc, strtol and a cast *)
Definition atoi (l : list N) : Z := int_of_long (fst (strtol l)).
(** Where a tracker looks for its client *)
Inductive channel := ConnectTo (port : Z) | Streams (input output : Z).
(** src/trax.c:1032-1064 trax_server_setup_v, and src/message.c:138 for the port *)
Definition stream_number (v : option (list N)) (default : Z) : Z := match v with Some x => atoi x | None => default end.
Definition server_channel (vars : list (list N)) : channel :=
  match getenv vars (str "TRAX_SOCKET") with
  | Some x => ConnectTo (htons (atoi x))
  | None => Streams (stream_number (getenv vars (str "TRAX_IN")) 0) (stream_number (getenv vars (str "TRAX_OUT")) 1)
  end.

(** ---- Connecting ---- *)
(** src/message.c:145-168 the loop of create_message_stream_socket_connect: one answer of connect() per second; NoFuel: still waiting *)
Fixpoint connect_loop (answers : list bool) : outcome unit :=
  match answers with
  | [] => NoFuel
  | true :: _ => Ok tt
  | false :: answers' => connect_loop answers'
  end.
(** src/message.c:126-184 create_message_stream_socket_connect: None is NULL.  When setsockopt fails the socket is closed, and connecting
    with it fails each time. *)
Definition socket_connect (can_socket can_option : bool) (answers : list bool) : outcome (option unit) :=
  if negb can_socket then Ok None
  else _ <- connect_loop (if can_option then answers else map (fun _ => false) answers) ;; Ok (Some tt).
(** src/trax.c:1036-1040 and 645-760: server_setup writes to the stream, and message.c:65 reads its flags: a NULL stream is not expected *)
Definition server_connect (can_socket can_option : bool) (answers : list bool) : outcome unit :=
  r <- socket_connect can_socket can_option answers ;; match r with Some _ => Ok tt | None => UB end.

(** ---- Accepting ---- *)
(** The connections at a listening socket, with the time in milliseconds at which each arrives and the number of the process that made
    it, in the order of the times.  Connections stay when the process ends (TCP). *)
Definition queue := list (Z * nat).
Inductive waiting := Accepted (at_time : Z) (process : nat) | TimedOut (at_time : Z) | Forever.
(** accept(2) on a blocking socket *)
Definition sys_accept (q : queue) (now : Z) : waiting * queue :=
  match q with
  | [] => (Forever, [])
  | (t, k) :: q' => (Accepted (Z.max now t) k, q')
  end.
(** select(2) for reading: the time at which it returns and whether the socket is in the set then.  When it fails, because of a negative
    timeout or a signal, the sets are left as they were, the socket is in it. *)
Definition first_arrival (q : queue) (now : Z) : option Z := match q with [] => None | (t, _) :: _ => Some (Z.max now t) end.
Definition before (x : option Z) (t : Z) : bool := match x with Some y => y <=? t | None => false end.
Definition sys_select (q : queue) (now timeout : Z) (interrupt : option Z) : Z * bool :=
  if timeout <? 0 then (now, true)
  else
    let deadline := now + 1000 * timeout in
    match first_arrival q now with
    | Some t =>
        if (t <=? deadline) && negb (before interrupt t) then (t, true)
        else match interrupt with Some i => if i <=? deadline then (Z.max now i, true) else (deadline, false) | None => (deadline, false) end
    | None => match interrupt with Some i => if i <=? deadline then (Z.max now i, true) else (deadline, false) | None => (deadline, false) end
    end.
(** src/message.c:186-239 create_message_stream_socket_accept; the result of select is not looked at.  Simplifications: listen() and
    setsockopt() succeed, the descriptor fits into a set, and a signal comes at most once. *)
Definition socket_accept (q : queue) (now timeout : Z) (interrupt : option Z) : waiting * queue :=
  let '(t, set) := sys_select q now timeout interrupt in
  if set then sys_accept q t else (TimedOut t, q).

(** ---- Starting trackers ---- *)
(** A tracker object with sockets: the time, the connections, the number of the last process and whether it runs *)
Record line := mkLine { l_now : Z; l_queue : queue; l_last : nat; l_runs : bool }.
(** A new connection comes after those that were made before *)
Fixpoint arrive (q : queue) (t : Z) (k : nat) : queue :=
  match q with
  | [] => [(t, k)]
  | (t', k') :: q' => if t <? t' then (t, k) :: q else (t', k') :: arrive q' t k
  end.
(** support/client/client.cpp:297-383 State::start_process: only if no process runs; 0.1 s after the start the connection is accepted.
    [delay]: when the process connects, if it does; the result: None when it was refused. *)
Definition launch_process (s : line) (timeout : Z) (delay interrupt : option Z) : option waiting * line :=
  if l_runs s then (None, s)
  else
    let k := S (l_last s) in
    let q := match delay with Some d => arrive (l_queue s) (l_now s + d) k | None => l_queue s end in
    let '(w, q') := socket_accept q (l_now s + 100) timeout interrupt in
    let now := match w with Accepted t _ | TimedOut t => t | Forever => l_now s + 100 end in
    (Some w, mkLine now q' k true).
(** A process that ends makes no connections any more *)
Definition process_ends (s : line) : line :=
  mkLine (l_now s) (filter (fun x => negb ((snd x =? l_last s)%nat && (l_now s <? fst x))) (l_queue s)) (l_last s) false.
