(** What the command-line client should do. *)
From Verif Require Import CBase Num Region Image Formats Handle SessionSpec Cli.
Local Open Scope Z_scope.

(** ---- evaluation, frame by frame ---- *)
(** The tracker has to be started; it runs; it rests for some more frames after a failure; it is not started again *)
Inductive phase := Start | Running | Rest (frames_left : nat) | Over.
Definition after_failure (reinitialize : nat) : phase := match reinitialize with O => Over | S O => Start | S n => Rest n end.
(** One entry for each of [n] frames beginning with frame [f], and whether it is timed.  0: no tracking, 1: the tracker is started, 2: failure *)
Fixpoint expected (initialization : nat -> option region) (fails : nat -> region -> bool) (state : nat -> region) (reinitialize : nat)
  (n f : nat) (ph : phase) : list (option region * bool) :=
  match n with
  | O => []
  | S n' =>
      let continue := expected initialization fails state reinitialize n' (S f) in
      match ph with
      | Over => (special 0, true) :: continue Over
      | Rest k => (special 0, true) :: continue (match k with S (S k') => Rest (S k') | _ => Start end)
      | Start =>
          match initialization f with
          | None => (special 0, false) :: continue Start
          | Some _ => if fails f (state f) then (special 2, true) :: continue (after_failure reinitialize) else (special 1, true) :: continue Running
          end
      | Running => if fails f (state f) then (special 2, true) :: continue (after_failure reinitialize) else (Some (state f), true) :: continue Running
      end
  end.
Fixpoint count_true (l : list bool) : nat := match l with [] => O | b :: l' => ((if b then 1 else 0) + count_true l')%nat end.
(** The region a tracker gives for a frame *)
Definition state_of (tracker : nat -> answer) (f : nat) : region := match tracker f with State r => r | _ => RSpecial 0 end.
Definition init_of (initialization : list (option region)) (f : nat) : option region := match nth_error initialization f with Some r => r | None => None end.

(** ---- files ---- *)
(** A Region after being written to a file and read again *)
Definition entry_arrives (a b : option region) : Prop :=
  match a, b with None, None => True | Some r, Some r' => region_arrives r r' | _, _ => False end.
(** Lines with their ends: line feed, or carriage return and line feed *)
Definition line_end (crlf : bool) : list N := if crlf then [13%N; 10%N] else [10%N].
Definition one_line (l : list N) : Prop := ~ In 10%N l /\ ~ In 13%N l.
(** A line stands for a region, or for the empty Region if it cannot be decoded *)
Definition line_reads (s : list N) (r : option region) : Prop := one_line s /\ exists ok v, region_parse (c_string s) = Ok (ok, v) /\ r = (if ok : bool then v else None).
(** Paths joined with semicolons *)
Fixpoint join_paths (l : list (list N)) : list N :=
  match l with [] => [] | [p] => p | p :: l' => p ++ 59%N :: join_paths l' end.
Definition path_ok (p : list N) : Prop := ~ In 10%N p /\ ~ In 59%N p.
(** One path for each channel, missing ones empty *)
Definition channels_of (l : list (list N)) : list (list N) := l ++ repeat [] (3 - List.length l).

(** ---- images of a frame ---- *)
(** For each announced channel (bits 0 to 2) one image from the path of that channel, in an announced format *)
Definition right_images (paths : list (list N)) (channels formats : Z) (l : list loaded) : Prop :=
  (forall k, (k < 3)%nat -> Z.testbit channels (Z.of_nat k) = true <-> exists x, In x l /\ l_channel x = 2 ^ Z.of_nat k) /\
  NoDup (map l_channel l) /\
  forall x, In x l -> supports formats (l_format x) = true /\ exists k, (k < 3)%nat /\ l_channel x = 2 ^ Z.of_nat k /\ nth_error paths k = Some (l_path x).
