(** Specification for C119: the trajectory of a stationary tracker. *)
From Verif Require Import CBase Props PropsSpec Message MessageSpec Num Region RegionSpec Image Formats Handle SessionSpec Static StaticSpec Cli CliSpec Evaluate.
Local Open Scope Z_scope.

(** The tracker has to be launched; it follows a region, which it reports as [r'] and which stands in the file as [r'']; it rests after a
    failure; it is not launched again *)
Inductive stage := Launch | Follow (r' r'' : region) | Pause (frames_left : nat) | Done.
Definition next_stage (reinitialize : nat) : stage := match reinitialize with O => Done | S O => Launch | S n => Pause n end.
(** The entries for [n] frames beginning with frame [f].  0: no tracking, 1: the tracker was launched, 2: failure *)
Inductive stationary (start : nat -> option region) (fails : nat -> option region -> bool) (reinitialize : nat) : nat -> nat -> stage -> list (option region) -> Prop :=
| at_end f s : stationary start fails reinitialize O f s []
| without_region n f l : start f = None -> stationary start fails reinitialize n (S f) Launch l ->
    stationary start fails reinitialize (S n) f Launch (special 0 :: l)
| launched n f r r' r'' l : start f = Some r -> stays r r' -> stays r r'' -> fails f (Some r') = false ->
    stationary start fails reinitialize n (S f) (Follow r' r'') l -> stationary start fails reinitialize (S n) f Launch (special 1 :: l)
| fails_at_once n f r r' l : start f = Some r -> stays r r' -> fails f (Some r') = true ->
    stationary start fails reinitialize n (S f) (next_stage reinitialize) l -> stationary start fails reinitialize (S n) f Launch (special 2 :: l)
| followed_on n f r' r'' l : fails f (Some r') = false ->
    stationary start fails reinitialize n (S f) (Follow r' r'') l -> stationary start fails reinitialize (S n) f (Follow r' r'') (Some r'' :: l)
| fails_later n f r' r'' l : fails f (Some r') = true ->
    stationary start fails reinitialize n (S f) (next_stage reinitialize) l -> stationary start fails reinitialize (S n) f (Follow r' r'') (special 2 :: l)
| paused n f k l : stationary start fails reinitialize n (S f) (match k with S (S k') => Pause (S k') | _ => Launch end) l ->
    stationary start fails reinitialize (S n) f (Pause k) (special 0 :: l)
| done_with n f l : stationary start fails reinitialize n (S f) Done l -> stationary start fails reinitialize (S n) f Done (special 0 :: l).

Definition network_ok (w : network) : Prop := cutter (n_hello w) /\ cutter (n_request w) /\ cutter (n_answer w) /\ no_error (n_server w) /\ no_error (n_client w).
(** The paths of a line: one for every channel the tracker wants, texts within the guard of C01 *)
Definition line_ok (depth ir : bool) (l : list (list N)) : Prop :=
  Forall (fun p => text_ok p = true /\ path_ok p) l /\ (List.length l <= 3)%nat /\
  forall k, (k < 3)%nat -> (k = 0 \/ k = 1 /\ depth = true \/ k = 2 /\ ir = true)%nat -> exists p, nth_error l k = Some p /\ p <> [].

(** A sequence of four frames: no region for the first, a failure at the third *)
Definition sample_net (f : nat) : network := mkNet byte_cut [] [] (if Nat.even f then whole_cut else byte_cut) byte_cut.
Definition sample_lines : list (list (list N)) := [[str "a.jpg"; str "a-d.png"]; [str "b.jpg"; str "b-d.png"; str "b-ir.png"]; [str "c 1.jpg"; str "c-d.png"]; [str "d.jpg"; str "d-d.png"]].
Definition sample_texts : list (list N * bool) := [([], true); (str "1.5,2,3,4", false); (str "8,8,2,2", true); (str "5,5,5,5", false)].
