(** Specification of a property dictionary: a finite map from keys to values. *)
From Verif Require Import CBase StrMap Props.

Definition pmap := list N -> option (list N).
Definition pm_empty : pmap := fun _ => None.
Definition pm_set (m : pmap) (k v : list N) : pmap := fun k' => if bytes_eqb k k' then Some v else m k'.

(** Operations a program may perform on a dictionary. *)
Inductive pop :=
| PSet (k v : list N)
| PClear.

Definition pm_step (m : pmap) (o : pop) : pmap :=
  match o with
  | PSet k v => pm_set m k v
  | PClear => pm_empty
  end.
Definition pm_run (ops : list pop) : pmap := fold_left pm_step ops pm_empty.

(** A list of pairs enumerates a map: every pair of the map occurs, nothing else, and no key twice. *)
Definition enumerates (l : list (list N * list N)) (m : pmap) : Prop :=
  NoDup (map fst l) /\ (forall k v, In (k, v) l <-> m k = Some v).

(** The same history performed with the C functions on a new dictionary. *)
Definition props_step (p : outcome props) (o : pop) : outcome props :=
  p' <- p ;; match o with PSet k v => props_set p' k v | PClear => Ok (props_clear p') end.
Definition props_run (ops : list pop) : outcome props := fold_left props_step ops (Ok props_create).
