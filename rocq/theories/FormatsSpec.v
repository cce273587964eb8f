(** Specification of the format lists, without strtok. *)
From Verif Require Import CBase Formats.
Local Open Scope Z_scope.

(** The pieces of a text between semicolons. *)
Fixpoint pieces (l : list N) : list (list N) :=
  match l with
  | [] => [[]]
  | c :: l' =>
      if (c =? 59)%N then [] :: pieces l'
      else match pieces l' with
           | p :: ps => (c :: p) :: ps
           | [] => [[c]]
           end
  end.
(** The names in a list: the pieces that are not empty. *)
Definition names_of (l : list N) : list (list N) := filter (fun p => match p with [] => false | _ => true end) (pieces l).

(** The set of formats of a list: bit [b] belongs to it exactly if the list has the name of [b]. *)
Definition denotes (names : list (list N * Z)) (l : list N) (formats : Z) : Prop :=
  forall b, 0 <= b -> Z.testbit formats b = true <-> exists n, In n (names_of l) /\ In (n, 2 ^ b) names.

(** Number of bits set in an int, seen as 32 bits. *)
Definition bit (z : Z) (i : nat) : nat := if Z.testbit z (Z.of_nat i) then 1 else 0.
Definition popcount32 (z : Z) : nat := fold_right (fun i n => bit z i + n)%nat O (seq 0 32).
