(** Specification of buffers and lists: a buffer is a byte string, a list is a list of C strings. *)
From Verif Require Import CBase Buffer.

Inductive bop := BPush (c : N) | BReset | BAppend (s : list N).
Definition bop_spec (l : list N) (o : bop) : list N :=
  match o with BPush c => l ++ [c] | BReset => [] | BAppend s => l ++ s end.
Definition bop_run (B : string_buffer) (o : bop) : outcome string_buffer :=
  match o with BPush c => buffer_push B c | BReset => Ok (buffer_reset B) | BAppend s => buffer_append B s end.

(** An element of a list is appended as a C string stored in a block (contents, NUL, anything). *)
Inductive lop := LAppend (s : list N) | LAppendDirect (s : list N) | LReset.
Definition c_block (s : list N) : block N := map Some (s ++ [0]).
Definition lop_spec (l : list (list N)) (o : lop) : list (list N) :=
  match o with LAppend s | LAppendDirect s => l ++ [c_string s] | LReset => [] end.
Definition lop_run (B : string_list) (o : lop) : outcome string_list :=
  match o with
  | LAppend s => list_append B (c_block s)
  | LAppendDirect s => list_append_direct B (c_block s)
  | LReset => list_reset B
  end.

Fixpoint run_ops {A O} (f : A -> O -> outcome A) (a : A) (ops : list O) : outcome A :=
  match ops with [] => Ok a | o :: ops' => a' <- f a o ;; run_ops f a' ops' end.
