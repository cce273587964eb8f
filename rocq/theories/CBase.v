(** Common vocabulary of the model: bytes, C strings, outcomes of C functions. *)
From Coq Require Export String Ascii.
From Coq Require Export ZArith NArith Bool Lia List.
From Coq Require Export ZifyBool ZifyNat ZifyN.
Export ListNotations.
Ltac Zify.zify_post_hook ::= Z.div_mod_to_equations.
#[global] Open Scope list_scope.
#[global] Open Scope N_scope.

(** A byte is a number; a byte is well formed when below 256.  A C string is the list of the bytes before
    its terminating NUL. *)
Definition byte_ok (b : N) : Prop := b < 256.
Definition bytes_ok (l : list N) : Prop := Forall byte_ok l.

(** C string literals. *)
Definition str (s : string) : list N := map N_of_ascii (list_ascii_of_string s).

Definition c_nl : N := 10.     (* '\n' *)
Definition c_cr : N := 13.     (* '\r' *)
Definition c_sp : N := 32.     (* ' '  *)
Definition c_quote : N := 34.  (* double quote *)
Definition c_eq : N := 61.     (* '='  *)
Definition c_bsl : N := 92.    (* backslash *)
Definition c_n : N := 110.     (* 'n'  *)

(** [isalnum] of <ctype.h> in the C locale. *)
Definition is_digit (c : N) : bool := (48 <=? c) && (c <=? 57).
Definition is_upper (c : N) : bool := (65 <=? c) && (c <=? 90).
Definition is_lower (c : N) : bool := (97 <=? c) && (c <=? 122).
Definition is_alnum (c : N) : bool := is_digit c || is_upper c || is_lower c.

(** [tolower] in the C locale, and [strcasecmp(a, b) == 0]. *)
Definition to_lower (c : N) : N := if is_upper c then c + 32 else c.

Fixpoint bytes_eqb (a b : list N) : bool :=
  match a, b with
  | [], [] => true
  | x :: a', y :: b' => (x =? y) && bytes_eqb a' b'
  | _, _ => false
  end.

Definition strcasecmp_eq (a b : list N) : bool := bytes_eqb (map to_lower a) (map to_lower b).

(** [strncmp(s, p, length p) == 0] for a literal [p] *)
Fixpoint starts_with (p s : list N) : bool :=
  match p, s with
  | [], _ => true
  | x :: p', y :: s' => (x =? y) && starts_with p' s'
  | _ :: _, [] => false
  end.

(** The reading of a buffer as a C string: the bytes before the first NUL. *)
Fixpoint c_string (l : list N) : list N :=
  match l with
  | [] => []
  | b :: l' => if b =? 0 then [] else b :: c_string l'
  end.

(** Outcome of a C function: a normal result, undefined behaviour, a failed assert, or exhausted fuel
    (stands for a computation the model could not finish: a non-terminating loop). *)
Inductive outcome (A : Type) : Type :=
| Ok (a : A)
| UB
| Abort
| NoFuel.
Arguments Ok {A} a.
Arguments UB {A}.
Arguments Abort {A}.
Arguments NoFuel {A}.

Definition obind {A B} (m : outcome A) (f : A -> outcome B) : outcome B :=
  match m with
  | Ok a => f a
  | UB => UB
  | Abort => Abort
  | NoFuel => NoFuel
  end.
Notation "x <- m ;; k" := (obind m (fun x => k)) (at level 61, m at next level, right associativity).

(** Range of [int] and [unsigned long] on the platforms built (LP64). *)
Definition INT_MAX : Z := 2147483647%Z.
Definition INT_MIN : Z := (-2147483648)%Z.
Definition in_int (z : Z) : bool := ((INT_MIN <=? z) && (z <=? INT_MAX))%Z.
