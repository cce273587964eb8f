(** Specification for the tutorial client (C131). *)
From Verif Require Import CBase Num Region Handle Process Tracker TrackerSpec TutorialClient.
Local Open Scope Z_scope.

(** The number that a row of decimal digits means. *)
Definition decimal_value (l : list N) : N := fold_left (fun a c => (10 * a + (c - 48))%N) l 0%N.
(** The name of the picture with this number: at least eight digits, filled up with zeros, and .jpg. *)
Definition picture_file (number : Z) (name : list N) : Prop :=
  exists digits, name = digits ++ str ".jpg" /\ (8 <= List.length digits <= 10)%nat /\ Forall (fun c => (48 <= c <= 57)%N) digits /\
    Z.of_N (decimal_value digits) = number /\ ((8 < List.length digits)%nat -> number >= 10 ^ 8).
(** What a user of the tutorial client expects it to do with this ground truth: one picture after the other, and every fiftieth picture
    is a new beginning with the region of that picture. *)
Definition as_planned (truth : list region) (asked : list told) : Prop :=
  List.length asked = List.length truth /\
  forall i g, nth_error truth i = Some g -> exists name, picture_file (Z.of_nat i + 1) name /\
    nth_error asked i = Some (if Nat.eqb (Nat.modulo i 50) 0 then BeginWith name g else GoOn name).

(** The tracker gives the answer that means success in less than ten seconds. *)
Definition answers_well (r : request) (a : answer) : Prop :=
  Forall calm (a_waiting a) /\ (List.length (a_waiting a) < 100)%nat /\ a_code a = success r /\ a_alive a = true.
(** The tracker starts and introduces itself in less than ten seconds. *)
Definition starts_well (l : launch) : Prop :=
  launch_ok l /\ (exists id, spawned (l_answers l) = Some id) /\ l_first l = None /\ Forall calm (l_waiting l) /\ (List.length (l_waiting l) < 100)%nat /\
  exists v, l_version l = Some v /\ v <= 4.
Definition request_at (i : nat) : request := if Nat.eqb (Nat.modulo i 50) 0 then Initialise else NewFrame.
(** The first [n] frames go well. *)
Definition goes_well (n : nat) (m : nat -> moment) : Prop :=
  starts_well (w_launch (m O)) /\
  forall i, (i < n)%nat -> answers_well (request_at i) (w_request (m i)) /\ answers_well AwaitState (w_state (m i)).
(** Instead of a state, the tracker sends something else (that ends the session or is an error), or nothing in ten seconds. *)
Definition no_state (a : answer) : Prop :=
  answer_ok AwaitState a /\ (a_code a <> TRAX_STATE \/ (Forall calm (a_waiting a) /\ (100 <= List.length (a_waiting a))%nat)).
(** The tracker fails, or sends nothing in ten seconds. *)
Definition no_answer (a : answer) : Prop :=
  a_code a = TRAX_ERROR \/ (Forall calm (a_waiting a) /\ (100 <= List.length (a_waiting a))%nat).
(** The system can start processes whenever it is asked, and requests are answered by success, by an error, or by the end of the session. *)
Definition proper_moment (i : nat) (w : moment) : Prop :=
  launch_ok (w_launch w) /\ answer_ok (request_at i) (w_request w) /\ answer_ok AwaitState (w_state w).

(** ---- Examples ---- *)
Definition sample_system : os := mkOs [Some (Something 0); Some (Something 1); Some (Something 2)] 0 None [].
Definition still : turn := mkTurn None false [].
Definition sample_launch : launch := mkLaunch (mkAnswers 3 (Some 77)) None (repeat still 3) (Some 4) [].
Definition replies (n : nat) (code : Z) : answer := mkAnswer (repeat still n) code true [].
Definition sample_moment (i : nat) : moment := mkMoment sample_launch (replies 2 TRAX_OK) (replies 5 TRAX_STATE).
(** The tracker quits instead of sending the state of picture [k] *)
Definition quits_at (k i : nat) : moment :=
  mkMoment sample_launch (replies 2 TRAX_OK) (if Nat.eqb i k then mkAnswer (repeat still 5) TRAX_QUIT false [] else replies 5 TRAX_STATE).
(** The tracker fails there *)
Definition fails_at (k i : nat) : moment :=
  mkMoment (mkLaunch (mkAnswers 3 (Some (if Nat.eqb i 0 then 77 else 78))) None (repeat still 3) (Some 4) []) (replies 2 TRAX_OK) (if Nat.eqb i k then replies 5 TRAX_ERROR else replies 5 TRAX_STATE).
Definition sample_truth (n : nat) : list region := repeat (RSpecial 0) n.
