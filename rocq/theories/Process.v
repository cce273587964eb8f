(** Model of the child processes of the client support library: support/client/process.cpp and process.h, POSIX branches.
    The operating system is modelled by the table of open descriptors of each process, pipes with two ends, and the child.
    Simplifications: the object mutex is left out (every function runs to its end; Mutex.v models the mutex), allocations
    succeed, the command has been parsed (Support.v models that), and the working directory is not modelled. *)
From Verif Require Import CBase Num.
Local Open Scope Z_scope.

(** ---- Operating system ---- *)
(** What a descriptor refers to: an end of a pipe or something else *)
Inductive kind := ReadEnd (p : nat) | WriteEnd (p : nat) | Something (n : nat).
(** The open descriptors of a process: descriptor n at position n; None: closed *)
Definition table := list (option kind).
Definition fd_get (t : table) (n : nat) : option kind := nth n t None.
(** A new descriptor is the lowest one that is closed (POSIX, "File Descriptor Allocation") *)
Fixpoint fd_new (t : table) (k : kind) : nat * table :=
  match t with
  | [] => (O, [Some k])
  | None :: t' => (O, Some k :: t')
  | Some x :: t' => let r := fd_new t' k in (S (fst r), Some x :: snd r)
  end.
Fixpoint fd_set (t : table) (n : nat) (k : option kind) : table :=
  match n, t with
  | O, [] => [k]
  | O, _ :: t' => k :: t'
  | S n', [] => None :: fd_set [] n' k
  | S n', x :: t' => x :: fd_set t' n' k
  end.

(** How a process ended: WIFEXITED with WEXITSTATUS, or WIFSIGNALED with WTERMSIG *)
Inductive ending := Exited (code : Z) | Signaled (sig : Z).
(** A child runs, has ended and waits for waitpid, or is gone: its number may belong to a stranger by now *)
Inductive life := Running | Ended (e : ending) | Gone.
Record child := mkChild { c_pid : Z; c_files : table; c_vars : list (list N); c_life : life }.
Inductive receiver := OurChild | Stranger.
Record os := mkOs {
  files : table;                          (* of the parent *)
  pipes : nat;                            (* pipes made so far *)
  the_child : option child;
  signals : list (Z * receiver)           (* signals sent, latest first *)
}.
Definition set_files (s : os) (t : table) : os := mkOs t (pipes s) (the_child s) (signals s).

(** pipe(2): the read end first *)
Definition sys_pipe (s : os) : (nat * nat) * os :=
  let '(r, t1) := fd_new (files s) (ReadEnd (pipes s)) in
  let '(w, t2) := fd_new t1 (WriteEnd (pipes s)) in
  ((r, w), mkOs t2 (S (pipes s)) (the_child s) (signals s)).
Definition sys_close (s : os) (n : nat) : os := set_files s (fd_set (files s) n None).
(** kill(2) *)
Definition sys_kill (s : os) (pid sig : Z) : os :=
  let r := match the_child s with
           | Some c => if (c_pid c =? pid) && negb (match c_life c with Gone => true | _ => false end) then OurChild else Stranger
           | None => Stranger
           end in
  mkOs (files s) (pipes s) (the_child s) ((sig, r) :: signals s).
(** waitpid(2) with WNOHANG: inl 0: still running, inl (-1): no such child *)
Definition sys_waitpid (s : os) (pid : Z) : (Z + ending) * os :=
  match the_child s with
  | Some c =>
      if c_pid c =? pid
      then match c_life c with
           | Running => (inl 0, s)
           | Ended e => (inr e, mkOs (files s) (pipes s) (Some (mkChild (c_pid c) (c_files c) (c_vars c) Gone)) (signals s))
           | Gone => (inl (-1), s)
           end
      else (inl (-1), s)
  | None => (inl (-1), s)
  end.
(** The file actions of posix_spawn: closing a closed descriptor is ignored; None: dup2 fails and so does the spawn *)
Inductive action := AddClose (n : nat) | AddDup2 (a b : nat).
Definition perform (t : table) (a : action) : option table :=
  match a with
  | AddClose n => Some (fd_set t n None)
  | AddDup2 a b => match fd_get t a with Some k => Some (fd_set t b (Some k)) | None => None end
  end.
Fixpoint perform_all (t : table) (l : list action) : option table :=
  match l with
  | [] => Some t
  | a :: l' => match perform t a with Some t' => perform_all t' l' | None => None end
  end.
(** getenv(3): the value after the first entry that begins with the name and an equals sign *)
Fixpoint getenv (vars : list (list N)) (name : list N) : option (list N) :=
  match vars with
  | [] => None
  | v :: vars' =>
      if starts_with (name ++ [c_eq]) v then Some (skipn (List.length (name ++ [c_eq])) v) else getenv vars' name
  end.

(** ---- The class Process ---- *)
(** A descriptor or status variable: None: not initialised *)
Definition var := option Z.
(** support/client/process.h:62-107.  [p_out], [p_in], [p_err] are the pairs out, in and err. *)
Record process := mkProcess {
  running : bool; explicit_mode : bool; pid : Z; exit_status : var;
  p_stdin : var; p_stdout : var; p_stderr : var;
  p_out : var * var; p_in : var * var; p_err : var * var;
  action_initialized : option bool;
  env : list (list N * list N)            (* std::map: each name once *)
}.
Definition fetch {A} (v : option A) : outcome A := match v with Some x => Ok x | None => UB end.

(** support/client/process.cpp:145-161 Process::Process: only these members are initialised *)
Definition process_create (explicit : bool) : process :=
  mkProcess false explicit 0 None None None None (None, None) (None, None) (None, None) None [].

(** support/client/process.cpp:633-637 Process::set_environment.
    Simplification: the order of the entries is not that of std::map; as names occur once it does not matter. *)
Fixpoint map_set (m : list (list N * list N)) (k v : list N) : list (list N * list N) :=
  match m with
  | [] => [(k, v)]
  | (k', v') :: m' => if bytes_eqb k k' then (k, v) :: m' else (k', v') :: map_set m' k v
  end.
Definition with_env (p : process) (e : list (list N * list N)) : process :=
  mkProcess (running p) (explicit_mode p) (pid p) (exit_status p) (p_stdin p) (p_stdout p) (p_stderr p) (p_out p) (p_in p) (p_err p)
            (action_initialized p) e.
Definition set_environment (p : process) (k v : list N) : process := with_env p (map_set (env p) k v).
(** strchr(var, '='): what is before it and after it *)
Fixpoint split_eq (l : list N) : option (list N * list N) :=
  match l with
  | [] => None
  | c :: l' =>
      if (c =? c_eq)%N then Some ([], l')
      else match split_eq l' with Some (k, v) => Some (c :: k, v) | None => None end
  end.
(** support/client/process.cpp:639-679 Process::copy_environment *)
Definition copy_variable (p : process) (var : list N) : process :=
  match split_eq var with Some (k, v) => set_environment p k v | None => p end.
Definition copy_environment (p : process) (environ : list (list N)) : process := fold_left copy_variable environ p.

(** support/client/process.cpp:500-505: one descriptor *)
Definition close_var (s : os) (v : var) : outcome os :=
  n <- fetch v ;; Ok (if n =? -1 then s else sys_close s (Z.to_nat n)).
(** support/client/process.cpp:460-517 Process::cleanup *)
Definition cleanup (s : os) (p : process) : outcome (os * process) :=
  s <- close_var s (fst (p_out p)) ;; s <- close_var s (fst (p_err p)) ;; s <- close_var s (snd (p_in p)) ;;
  s <- close_var s (snd (p_out p)) ;; s <- close_var s (snd (p_err p)) ;; s <- close_var s (fst (p_in p)) ;;
  _ <- fetch (action_initialized p) ;;
  let m := Some (-1) in
  Ok (s, mkProcess false (explicit_mode p) (pid p) (exit_status p) (p_stdin p) (p_stdout p) (p_stderr p) (m, m) (m, m) (m, m) (Some false) (env p)).

(** support/client/process.cpp:328-334: the environment of the child *)
Definition entry (kv : list N * list N) : list N := fst kv ++ [c_eq] ++ snd kv.
(** support/client/process.cpp:336-350 *)
Definition spawn_actions (explicit : bool) (o i e : nat * nat) : list action :=
  [AddClose (snd o); AddClose (fst i); AddClose (fst e)] ++
  (if explicit then [AddDup2 (snd e) 2] else [AddDup2 (fst o) 0; AddDup2 (snd i) 1; AddDup2 (snd e) 2]).
Definition spawn_vars (p : process) (o i : nat * nat) : list (list N) :=
  map entry (env p) ++
  (if explicit_mode p then [str "TRAX_OUT=" ++ print_Z (Z.of_nat (snd i)); str "TRAX_IN=" ++ print_Z (Z.of_nat (fst o))] else []).

Definition pair_vars (x : nat * nat) : var * var := (Some (Z.of_nat (fst x)), Some (Z.of_nat (snd x))).
(** What the system does when asked: how many calls of pipe succeed, and the number of the new process (None: it cannot be made) *)
Record answers := mkAnswers { pipes_possible : nat; spawned : option Z }.
(** support/client/process.cpp:180-393 Process::start *)
Definition process_start (s : os) (p : process) (a : answers) : outcome (bool * os * process) :=
  if running p then Ok (false, s, p)
  else
    let fresh po pi pe := mkProcess false (explicit_mode p) (pid p) (Some (-1)) (Some (-1)) (Some (-1)) (Some (-1)) po pi pe (Some false) (env p) in
    if negb (pid p =? 0) then Ok (false, s, fresh (p_out p) (p_in p) (p_err p))
    else
      match pipes_possible a with
      | O => Ok (false, s, fresh (p_out p) (p_in p) (p_err p))
      | S n =>
          let '(o, s1) := sys_pipe s in
          match n with
          | O => Ok (false, s1, fresh (pair_vars o) (p_in p) (p_err p))
          | S n =>
              let '(i, s2) := sys_pipe s1 in
              match n with
              | O => Ok (false, s2, fresh (pair_vars o) (pair_vars i) (p_err p))
              | S _ =>
                  let '(e, s3) := sys_pipe s2 in
                  let p3 := fresh (pair_vars o) (pair_vars i) (pair_vars e) in
                  match spawned a, perform_all (files s3) (spawn_actions (explicit_mode p) o i e) with
                  | Some id, Some t =>
                      Ok (true, mkOs (files s3) (pipes s3) (Some (mkChild id t (spawn_vars p o i) Running)) (signals s3),
                          mkProcess true (explicit_mode p) id (Some (-1)) (Some (Z.of_nat (snd o))) (Some (Z.of_nat (fst i))) (Some (Z.of_nat (fst e)))
                                    (pair_vars o) (pair_vars i) (pair_vars e) (Some true) (env p))
                  | _, _ =>
                      r <- cleanup s3 p3 ;; Ok (false, fst r, snd r)
                  end
              end
          end
      end.

Definition ended (p : process) (st : Z) : process :=
  mkProcess false (explicit_mode p) (pid p) (Some st) (p_stdin p) (p_stdout p) (p_stderr p) (p_out p) (p_in p) (p_err p) (action_initialized p) (env p).
Definition status_of (e : ending) : Z := match e with Exited c => c | Signaled g => - g end.
(** support/client/process.cpp:559-607 Process::is_alive: the result and what is stored in *status *)
Definition is_alive (s : os) (p : process) : bool * var * os * process :=
  if negb (running p) then (false, exit_status p, s, p)
  else
    match sys_waitpid s (pid p) with
    | (inl r, s') => (r =? 0, Some 0, s', p)
    | (inr e, s') => (false, Some (status_of e), s', ended p (status_of e))
    end.

(** support/client/process.cpp:395-457 Process::stop and Process::kill: SIGTERM is 15, SIGKILL is 9 *)
Definition signal_child (s : os) (p : process) (sig : Z) : os * process :=
  if running p
  then let '(_, s', p') := is_alive (sys_kill s (pid p) sig) p in (s', p')
  else (s, p).
Definition process_stop (s : os) (p : process) := signal_child s p 15.
Definition process_kill (s : os) (p : process) := signal_child s p 9.
(** support/client/process.cpp:163-178 Process::~Process *)
Definition process_destroy (s : os) (p : process) : outcome os :=
  let '(s1, p1) := process_kill s p in r <- cleanup s1 p1 ;; Ok (fst r).

(** support/client/process.cpp:519-557 get_input, get_output, get_error; 609-625 get_handle *)
Definition get_stream (p : process) (v : var) : outcome Z := if running p then fetch v else Ok (-1).
Definition get_input (p : process) := get_stream p (p_stdin p).
Definition get_output (p : process) := get_stream p (p_stdout p).
Definition get_error (p : process) := get_stream p (p_stderr p).
Definition get_handle (p : process) : Z := if running p then pid p else 0.
