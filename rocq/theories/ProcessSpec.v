(** Specification vocabulary for child processes. *)
From Verif Require Import CBase Num Process.
Local Open Scope Z_scope.

(** The operating system before anything is started: a parent with these descriptors, none of which belongs to a later pipe. *)
Definition older (n : nat) (k : kind) : Prop := match k with ReadEnd p | WriteEnd p => (p < n)%nat | Something _ => True end.
Definition fresh_os (s : os) : Prop :=
  the_child s = None /\ signals s = [] /\ forall m k, fd_get (files s) m = Some k -> older (pipes s) k.

(** A process that has been described but not started: its environment is arbitrary. *)
Definition prepared (explicit : bool) (e : list (list N * list N)) : process := with_env (process_create explicit) e.

(** A descriptor number that a function returned refers to this, in this table. *)
Definition refers (t : table) (n : outcome Z) (k : kind) : Prop :=
  exists m, n = Ok (Z.of_nat m) /\ fd_get t m = Some k.
(** No descriptor of the table refers to it. *)
Definition nowhere (t : table) (k : kind) : Prop := forall m, fd_get t m <> Some k.
(** Reading from a pipe ends (end of file) when no descriptor of any process refers to its write end. *)
Definition alive_table (s : os) : table :=
  match the_child s with Some c => match c_life c with Running => c_files c | _ => [] end | None => [] end.
Definition end_of_file (s : os) (p : nat) : Prop := nowhere (files s) (WriteEnd p) /\ nowhere (alive_table s) (WriteEnd p).

(** What can happen to a process after it was created: the functions of its interface, and the end of the child. *)
Inductive deed := Start (a : answers) | Ask | Terminate | KillIt | ChildEnds (e : ending).
Definition child_ends (s : os) (e : ending) : os :=
  match the_child s with
  | Some c =>
      match c_life c with
      | Running => mkOs (files s) (pipes s) (Some (mkChild (c_pid c) (c_files c) (c_vars c) (Ended e))) (signals s)
      | _ => s
      end
  | None => s
  end.
Definition do_deed (s : os) (p : process) (d : deed) : outcome (os * process) :=
  match d with
  | Start a => r <- process_start s p a ;; Ok (snd (fst r), snd r)
  | Ask => Ok (snd (fst (is_alive s p)), snd (is_alive s p))
  | Terminate => Ok (process_stop s p)
  | KillIt => Ok (process_kill s p)
  | ChildEnds e => Ok (child_ends s e, p)
  end.
Fixpoint do_deeds (s : os) (p : process) (l : list deed) : outcome (os * process) :=
  match l with
  | [] => Ok (s, p)
  | d :: l' => r <- do_deed s p d ;; do_deeds (fst r) (snd r) l'
  end.
(** The system gives positive numbers to processes. *)
Definition sensible (d : deed) : Prop := match d with Start a => forall id, spawned a = Some id -> 0 < id | _ => True end.
Definition no_start (d : deed) : Prop := match d with Start _ => False | _ => True end.
(** How the child ended: the first ending counts. *)
Fixpoint first_end (l : list deed) : option ending :=
  match l with
  | [] => None
  | ChildEnds e :: _ => Some e
  | _ :: l' => first_end l'
  end.
(** The descriptors of a table are those of another one. *)
Definition same_table (t t' : table) : Prop := forall m, fd_get t m = fd_get t' m.
(** No variable of this name is set; names have no equals sign. *)
Definition unset (name : list N) (e : list (list N * list N)) : Prop := ~ In name (map fst e).
Definition names_ok (e : list (list N * list N)) : Prop := Forall (fun kv => ~ In c_eq (fst kv)) e.
(** A variable as the system passes it. *)
Definition setting (kv : list N * list N) : list N := fst kv ++ str "=" ++ snd kv.
