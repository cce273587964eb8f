(** Property C118: dictionaries when memory runs out *)
From Verif Require Import CBase PropsSpec Blocks BlocksSpec DictMem DictMemSpec DictMemProofs.
From Coq Require Import Permutation.

(** C118, if the very first block can be had: whatever allocations fail, every history of calls on a dictionary is defined; each call means
    what it says, and a failing one stores nothing (or, for append, only some of the pairs); the release gives every block back, once. *)
Theorem dictionary_memory_partial : forall w l, world_ok w -> ~ no_memory_at_all w -> Forall dcall_ok l ->
  exists d w1 d' r w2 w3, dict_create w = Ok (d, w1) /\ do_dcalls d l w1 = Ok ((d', r), w2) /\ dict_release d' w2 = Ok (tt, w3) /\
    explained (mkShadow (Nat.eqb (w_failed w) (w_failed w1)) pm_empty) l r /\ Permutation (m_live (w_mem w3)) (m_live (w_mem w)).
Proof. exact life_runs. Qed.
Print Assumptions dictionary_memory_partial.
Definition scarce : world := fresh_world [true; true; true; true; true; true; true; false].
Example dictionary_memory_nonvacuous : world_ok scarce /\ ~ no_memory_at_all scarce /\
  Forall dcall_ok [DSet (str "a") (str "1"); DSet (str "a") (str "22"); DGet (str "a"); DAppend false [(str "a", str "0"); (str "b", str "3")]; DList] /\
  dict_life [DSet (str "a") (str "1"); DSet (str "a") (str "22"); DGet (str "a"); DAppend false [(str "a", str "0"); (str "b", str "3")]; DList] scarce =
  Ok ([(ANothing, true); (ANothing, true); (AText None, false); (ANothing, true); (APairs [(str "a", str "22"); (str "b", str "3")], true)], mkWorld (mkMem 10 []) [] 1).
Proof.
  split; [split; [constructor|intros x []]|]. split; [intros [p E]; discriminate E|]. split.
  - do 3 (apply Forall_cons; [exact Logic.I|]). apply Forall_cons; [|apply Forall_cons; [exact Logic.I|apply Forall_nil]].
    cbn [dcall_ok map fst]. constructor; [intros [E|[]]; discriminate E|]. constructor; [intros []|constructor].
  - vm_compute. reflexivity.
Qed.

(** C118 violated: without memory for the first block the program that makes a dictionary crashes. *)
Theorem dictionary_create_refuted : forall w, no_memory_at_all w -> dict_create w = UB.
Proof. exact create_crashes. Qed.
Print Assumptions dictionary_create_refuted.
Example dictionary_create_case : no_memory_at_all (fresh_world [false]).
Proof. exists []. reflexivity. Qed.
(** C118 violated: a dictionary that could not be cleared properly never stores anything again, though there is memory; nothing tells the program. *)
Theorem dictionary_clear_refuted : exists w', dict_life [DClear; DSet (str "k") (str "v"); DHas (str "k")] (fresh_world [true; true; true; false]) =
  Ok ([(ANothing, false); (ANothing, true); (ABool false, true)], w').
Proof. eexists. vm_compute. reflexivity. Qed.
Print Assumptions dictionary_clear_refuted.
(** C118 violated: without memory for the copy a property that is present is reported as absent. *)
Theorem dictionary_get_refuted : exists w', dict_life [DSet (str "k") (str "v"); DHas (str "k"); DGet (str "k")] (fresh_world [true; true; true; true; true; true; false]) =
  Ok ([(ANothing, true); (ABool true, true); (AText None, false)], w').
Proof. eexists. vm_compute. reflexivity. Qed.
Print Assumptions dictionary_get_refuted.
