(** Model of the tutorial client (docs/tutorials/client/client.cpp) on top of the model of TrackerProcess.
    Simplifications: reading the ground truth and putting together the command are modelled with the command line client (the same code);
    the destructor of the TrackerProcess at the end is [tracker_destroy]; there are fewer than 2^31 regions. *)
From Verif Require Import CBase Num Region Handle Process Tracker.
Local Open Scope Z_scope.

(** docs/tutorials/client/client.cpp:65-66: snprintf with %08d.jpg into 32 bytes *)
Definition pad (n : nat) (l : list N) : list N := repeat 48%N (n - List.length l) ++ l.
Definition zero_padded (z : Z) : list N := if z <? 0 then 45%N :: pad 7 (print_N (Z.abs_N z)) else pad 8 (print_N (Z.abs_N z)).
Definition image_name (number : Z) : list N := firstn 31 (zero_padded number ++ str ".jpg").

(** What the client asks of the TrackerProcess for a frame *)
Inductive told := BeginWith (image : list N) (truth : region) | GoOn (image : list N).
(** How the tracker behaves at a frame: what happens if it has to be launched, its answer to the image, its answer to the wait *)
Record moment := mkMoment { w_launch : launch; w_request : answer; w_state : answer }.
(** How the loop ends: after the last region, at line 75 or 79, at line 95, or by an exception nobody catches *)
Inductive course := Finished | Broke (i : nat) | Requested (i : nat) | Uncaught (i : nat).

(** docs/tutorials/client/client.cpp:72-80 *)
Definition ask_frame (s : tracker) (i : nat) (w : moment) : outcome (result * tracker) :=
  if Nat.eqb (Nat.modulo i 50) 0 then initialize s (w_launch w) (w_request w) else frame s (w_request w).
Definition say (i : nat) (image : list N) (truth : region) : told :=
  if Nat.eqb (Nat.modulo i 50) 0 then BeginWith image truth else GoOn image.
(** docs/tutorials/client/client.cpp:63-101, from frame [i] on; the last component is what was asked, in order *)
Fixpoint frames (s : tracker) (i : nat) (truth : list region) (m : nat -> moment) : outcome (course * tracker * list told) :=
  match truth with
  | [] => Ok (Finished, s, [])
  | g :: rest =>
      number <- int_result (Z.of_nat i + 1) ;;
      let t := say i (image_name number) g in
      r <- ask_frame s i (m i) ;;
      match r with
      | (Threw, s) => Ok (Uncaught i, s, [t])
      | (Returned false, s) => Ok (Broke i, s, [t])
      | (Returned true, s) =>
          r <- wait s (w_state (m i)) ;;
          match r with
          | (Threw, s) => Ok (Uncaught i, s, [t])
          | (Returned true, s) => q <- frames s (S i) rest m ;; Ok (fst q, t :: snd q)
          | (Returned false, s) =>
              r <- ready s ;;
              if fst r then Ok (Requested i, snd r, [t])
              else q <- frames (snd r) (S i) rest m ;; Ok (fst q, t :: snd q)
          end
      end
  end.
(** docs/tutorials/client/client.cpp:61: the TrackerProcess has the default timeout of ten seconds (support/client/include/trax/client.hpp:48) *)
Definition tutorial (o : os) (truth : list region) (m : nat -> moment) : outcome (course * tracker * list told) :=
  frames (tracker_create o false [] 10) 0 truth m.
