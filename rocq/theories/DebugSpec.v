(** Specification for debug messages (C133). *)
From Verif Require Import CBase Message Handle Debug.
Local Open Scope Z_scope.

(** What a program can do with the debug messages, and the state after it. *)
Inductive debug_call := Enable | Disable | Target (t : nat) | NoTarget | Ask.
Definition debug_do (variable : bool) (root : list N) (s : debug) (c : debug_call) : debug :=
  match c with
  | Enable => debug_enable root s
  | Disable => debug_disable s
  | Target t => debug_set_target (Some t) s
  | NoTarget => debug_set_target None s
  | Ask => snd (is_debug_enabled variable s)
  end.
Definition debug_after (b : build) (variable : bool) (root : list N) (calls : list debug_call) : debug := fold_left (debug_do variable root) calls (debug_start b).

(** Whether messages are on after some calls: as the last Enable or Disable says; before any, as the build and the environment say. *)
Fixpoint switched (start : bool) (calls : list debug_call) : bool :=
  match calls with
  | [] => start
  | Enable :: l => switched true l
  | Disable :: l => switched false l
  | _ :: l => switched start l
  end.
Definition on_at_start (b : build) (variable : bool) : bool := match b with Release => false | Debugging => variable | DebuggingOn => true end.
(** The stream for messages: the last one that was set; standard output if messages were enabled while there was none. *)
Fixpoint target_after (start : option nat) (calls : list debug_call) : option nat :=
  match calls with
  | [] => start
  | Enable :: l => target_after (match start with None => Some 1%nat | t => t end) l
  | Target t :: l => target_after (Some t) l
  | NoTarget :: l => target_after None l
  | _ :: l => target_after start l
  end.
(** A text without zeros. *)
Definition c_text (l : list N) : Prop := ~ In 0%N l.
(** The name of a file without the directory of the sources. *)
Definition short_name (root file name : list N) : Prop :=
  file = root ++ name \/ ((forall rest, file <> root ++ rest) /\ name = file).

(** ---- Examples ---- *)
Definition sample_root : list N := str "/src/trax/".
Definition sample_file : list N := str "/src/trax/src/trax.c".
Definition sample_input (text : list N) : istream := mkStream [] [text].
