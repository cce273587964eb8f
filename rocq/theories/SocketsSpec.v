(** Specification vocabulary for connections between clients and trackers. *)
From Verif Require Import CBase Num Process ProcessSpec Sockets.
Local Open Scope Z_scope.

(** What a client does with tracker objects that use sockets, and with its other files. *)
Inductive change := Make (l : list try) | Delete (i : nat) | OpenFile | CloseFile (n : nat).
Record objects := mkObjects { o_net : net; o_next : Z; o_live : list server }.
Definition listens (s : net) (n : nat) : option Z :=
  match find (fun x => (fst x =? n)%nat) (n_bound s) with Some (_, p) => Some p | None => None end.
Fixpoint remove_at {A} (l : list A) (i : nat) : list A :=
  match l, i with
  | [], _ => []
  | _ :: l', O => l'
  | x :: l', S i' => x :: remove_at l' i'
  end.
Definition do_change (w : objects) (c : change) : objects :=
  match c with
  | Make l =>
      let '(r, next, s) := state_create (o_net w) (o_next w) l in
      mkObjects s next (match r with Some v => o_live w ++ [v] | None => o_live w end)
  | Delete i =>
      match nth_error (o_live w) i with
      | Some v => mkObjects (destroy_server_socket (o_net w) (socket_id v)) (o_next w) (remove_at (o_live w) i)
      | None => w
      end
  | OpenFile => mkObjects (mkNet (snd (fd_new (n_files (o_net w)) (Something 1))) (n_bound (o_net w))) (o_next w) (o_live w)
  | CloseFile n =>
      match listens (o_net w) n with
      | Some _ => w   (* a client closes its own files only *)
      | None => mkObjects (mkNet (fd_set (n_files (o_net w)) n None) (n_bound (o_net w))) (o_next w) (o_live w)
      end
  end.
Definition do_changes (w : objects) (l : list change) : objects := fold_left do_change l w.
(** A client that has made no tracker object yet, with any files open. *)
Definition beginning (t : table) : objects := mkObjects (mkNet t []) 9090 [].
(** The socket of this object listens on this port. *)
Definition listens_on (w : objects) (v : server) (port : Z) : Prop :=
  0 <= socket_id v /\ listens (o_net w) (Z.to_nat (socket_id v)) = Some port.

(** The i-th port that is tried: the ports from 9090 to 65535 in a circle. *)
Definition candidate (port : Z) (i : nat) : Z := 9090 + (port - 9090 + Z.of_nat i) mod (65536 - 9090).
(** The system lets the client listen on the port. *)
Definition usable (s : net) (port : Z) (a : try) : Prop :=
  t_socket a = true /\ t_option a = true /\ t_free a = true /\ t_listen a = true /\ ~ In port (map snd (n_bound s)).
Definition attempt (l : list try) (i : nat) : try := nth i l all_well.
(** No call of setsockopt fails, and the client leaves its other files alone. *)
Definition only_objects (c : change) : Prop :=
  match c with Make l => Forall (fun a => t_option a = true) l | Delete _ => True | OpenFile | CloseFile _ => False end.

(** Descriptors are numbers of type int. *)
Definition descriptors_fit (s : os) : Prop := Z.of_nat (List.length (files s)) + 6 <= 2147483647.
(** None of the variables that a tracker looks at. *)
Definition no_channel (e : list (list N * list N)) : Prop :=
  unset (str "TRAX_SOCKET") e /\ unset (str "TRAX_IN") e /\ unset (str "TRAX_OUT") e.

(** What happens to a tracker object with sockets, and what its launches give. *)
Inductive happening := Launch (delay interrupt : option Z) | Ends | Passes (ms : Z).
Definition happen (timeout : Z) (s : line) (h : happening) : list (nat * waiting) * line :=
  match h with
  | Launch d i => let '(r, s') := launch_process s timeout d i in (match r with Some w => [(l_last s', w)] | None => [] end, s')
  | Ends => ([], process_ends s)
  | Passes ms => ([], mkLine (l_now s + Z.max 0 ms) (l_queue s) (l_last s) (l_runs s))
  end.
Fixpoint happens (timeout : Z) (s : line) (l : list happening) : list (nat * waiting) * line :=
  match l with
  | [] => ([], s)
  | h :: l' =>
      let '(r, s1) := happen timeout s h in let '(r', s2) := happens timeout s1 l' in (r ++ r', s2)
  end.
Definition idle (now : Z) : line := mkLine now [] 0 false.
(** The process connects in time, 0.1 s and the timeout after its start, and no signal interrupts the client. *)
Definition in_time (timeout : Z) (h : happening) : Prop :=
  match h with
  | Launch (Some d) None => 0 <= d <= 100 + 1000 * timeout
  | Launch _ _ => False
  | _ => True
  end.
