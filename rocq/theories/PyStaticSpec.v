(** Specification for C126: what the stationary trackers written in Python and Matlab report *)
From Verif Require Import CBase Props Message MessageSpec Num NumSpec Region RegionSpec Image Handle SessionSpec ListsSpec NoisySpec StaticSpec
  PyText PyTextSpec PySession PySessionSpec PyStatic.
Local Open Scope Z_scope.

(** A request of a client: to initialize, or a frame (the first frame has the object, too); the ways the bytes arrive, and what
    the tracker prints on its own *)
Record pyask := mkPyask {
  pa_init : bool;
  pa_images : images_dict;
  pa_object : option (region * dict);
  pa_props : dict;
  pa_cut1 : list N -> list (list N);
  pa_cut2 : list N -> list (list N);
  pa_talk : list N -> list N
}.
Definition asked_objects (q : pyask) : list (region * dict) := match pa_object q with Some o => [o] | None => [] end.
(** The object that is tracked after a request *)
Definition tracked_object (o : option (region * dict)) (q : pyask) : option (region * dict) :=
  match pa_object q with Some o' => Some o' | None => o end.

(** A number as people write it: a sign, digits with a point, an exponent *)
Definition written_number (t : list N) : Prop := exists s b, sign_text s /\ decimal_text b /\ t = s ++ b.
(** A character no number contains: not a blank, a digit, a sign, a point, an underscore or a letter of e, inf, infinity, nan *)
Definition foreign_char (c : N) : Prop := ~ In c (str "+-._0123456789eEiInNfFtTyYaA" ++ [32; 9; 10; 11; 12; 13])%N.
Definition foreign_text (t : list N) : Prop := exists c, In c t /\ foreign_char c.

Definition pyask_given (slack : nat) (cfg : tracker_config) (o : option (region * dict)) (q : pyask) : Prop :=
  cutter (pa_cut1 q) /\ cutter (pa_cut2 q) /\ talker (pa_talk q) /\
  NoDup (map fst (pa_images q)) /\ (exists shown, images_reach slack cfg (pa_images q) shown) /\
  match pa_object q with
  | Some (r, d) => steady r /\ In (region_kind r) (tc_regions cfg) /\ sendable_dict d /\ (pa_init q = true \/ o = None)
  | None => pa_init q = false /\ o <> None
  end /\
  sendable_dict (pa_props q).
(** ... the time to wait that comes with an object being a number *)
Definition pyask_ok (slack : nat) (cfg : tracker_config) (o : option (region * dict)) (q : pyask) : Prop :=
  pyask_given slack cfg o q /\ (pa_object q <> None -> forall t, In (str "time_wait", t) (pa_props q) -> written_number t).
Fixpoint pyasks_ok (slack : nat) (cfg : tracker_config) (o : option (region * dict)) (qs : list pyask) : Prop :=
  match qs with
  | [] => True
  | q :: qs' => pyask_ok slack cfg o q /\ pyasks_ok slack cfg (tracked_object o q) qs'
  end.

(** One request of a client written in Python, a pass of the tracker, and what the client's call gives *)
Definition pystatic_ask (legacy : bool) (slack : nat) (told : exn -> text) (c : handle) (t : pystatic) (q : pyask) : outcome (handle * pypass) :=
  a <- client_send legacy (pa_init q) c (pa_images q) (Some (given_objects (asked_objects q))) (DDict (pa_props q)) ;;
  p <- pystatic_pass told (3 + List.length (asked_objects q)) slack
         (mkPystatic (arrive (pa_cut1 q) (written c (snd a)) (py_handle t)) (py_objects t)) ;;
  Ok (snd a, p).
Definition pass_handle (p : pypass) : handle := match p with Answered t => py_handle t | Left _ _ h => h end.
Definition pystatic_round (legacy : bool) (slack : nat) (told : exn -> text) (c : handle) (t : pystatic) (q : pyask)
  : outcome (handle * pypass * answer) :=
  x <- pystatic_ask legacy slack told c t q ;;
  let '(c1, p) := x in
  y <- client_receive (arrive (pa_cut2 q) (pa_talk q (written (py_handle t) (pass_handle p))) c1) ;;
  Ok (snd y, p, fst y).
(** A session: requests as long as the tracker answers *)
Fixpoint pystatic_rounds (legacy : bool) (slack : nat) (told : exn -> text) (c : handle) (t : pystatic) (qs : list pyask)
  : outcome (option (handle * pystatic * list answer)) :=
  match qs with
  | [] => Ok (Some (c, t, []))
  | q :: qs' =>
      x <- pystatic_round legacy slack told c t q ;;
      match x with
      | (c1, Answered t1, a) =>
          y <- pystatic_rounds legacy slack told c1 t1 qs' ;;
          Ok (match y with Some (c2, t2, l) => Some (c2, t2, a :: l) | None => None end)
      | _ => Ok None
      end
  end.

(** Every answer is the object of the latest initialization: its region up to the fifth decimal, and its properties *)
Definition dict_object_stays (a b : region * dict) : Prop := stays (fst a) (fst b) /\ same_dict (snd a) (snd b).
Fixpoint pyreports (o : option (region * dict)) (qs : list pyask) (l : list answer) : Prop :=
  match qs, l with
  | [], [] => True
  | q :: qs', a :: l' =>
      (exists x y, tracked_object o q = Some x /\ a = Objects [y] /\ dict_object_stays x y) /\ pyreports (tracked_object o q) qs' l'
  | _, _ => False
  end.
Fixpoint tracked_objects (o : option (region * dict)) (qs : list pyask) : option (region * dict) :=
  match qs with [] => o | q :: qs' => tracked_objects (tracked_object o q) qs' end.

(** What the client is told: rectangles, images given as paths, the color channel, one object *)
Definition told_rectangles (i : client_info) : Prop :=
  ci_regions i = [str "rectangle"] /\ (forall n, In n (ci_images i) <-> n = str "path") /\ (forall n, In n (ci_channels i) <-> n = str "color") /\
  client_get i (str "multiobject") = Some (inr false).

(** The client ends the session *)
Definition pystatic_ending (slack : nat) (told : exn -> text) (c : handle) (t : pystatic) (reason : option text) (cut : list N -> list (list N)) : outcome (pypass * list N) :=
  q <- session_quit false c reason ;;
  let '(_, _, c') := q in
  p <- pystatic_pass told 1 slack (mkPystatic (arrive cut (written c c') (py_handle t)) (py_objects t)) ;;
  Ok (p, written (py_handle t) (pass_handle p)).

(** Sample: an initialization with a time, two frames, an initialization with another rectangle *)
Definition sample_color : images_dict := match sample_path (str "/a b.jpg") with Some a => [(str "color", a)] | None => [] end.
Definition sample_square (z : Z) : region := RRect (fl z) (fl (z + 1)) (fl 3) (fl 4).
Definition sample_pyasks : list pyask :=
  [mkPyask true sample_color (Some (sample_square 1, [(str "id", str "1")])) [(str "time_wait", str "1.5e-3"); (str "k", str "v w")] byte_cut whole_cut sample_talk;
   mkPyask false sample_color None [] whole_cut byte_cut silent;
   mkPyask true sample_color (Some (sample_square 5, [])) [] byte_cut byte_cut sample_talk;
   mkPyask false sample_color None [(str "time_wait", str "soon")] whole_cut whole_cut silent].
(** ... and one with a time that is not a number *)
Definition sample_pyword : pyask :=
  mkPyask true sample_color (Some (sample_square 1, [])) [(str "time_wait", str "a 'short' while")] byte_cut whole_cut silent.
