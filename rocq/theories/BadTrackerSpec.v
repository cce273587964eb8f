(** Specification for C129: how long the failing tracker lives. *)
From Verif Require Import CBase StrMap Props PropsSpec Message MessageSpec Num NumSpec Region RegionSpec Image Formats Handle SessionSpec StaticSpec BadTracker.
Local Open Scope Z_scope.

(** The properties that say when to die and how: [time] is the number of requests to answer *)
Definition asks_time (p : option props) (time : Z) : Prop :=
  match p with
  | Some p => props_get p (str "break_time") = Ok None /\ time = 5 \/
      exists t, props_get p (str "break_time") = Ok (Some t) /\ int_text t time /\ in_int time = true
  | None => time = 5
  end.
Definition asks_signal (p : option props) (s : signal) : Prop :=
  match match p with Some p => props_get p (str "break_type") | None => Ok None end with
  | Ok (Some t) => (t = str "sigsegv" /\ s = SIGSEGV) \/ (t = str "sigusr1" /\ s = SIGUSR1) \/ (t <> str "sigsegv" /\ t <> str "sigusr1" /\ s = SIGABRT)
  | _ => s = SIGABRT
  end.

(** Requests within the protocol for one rectangle: the first one gives an object, later ones give one only to start again.
    The smallest integer as a time is excluded. *)
Definition rectangle (r : region) : Prop := exists x y w h, r = RRect x y w h /\ finite_float x /\ finite_float y /\ finite_float w /\ finite_float h.
Definition order_ok (slack : nat) (q : ask) : Prop :=
  cutter (ask_cut1 q) /\ cutter (ask_cut2 q) /\ (exists ims, images_arrive slack TRAX_CHANNEL_COLOR 15 (ask_images q) ims) /\
  match ask_props q with Some p => clean p | None => True end /\
  if ask_init q then (exists r p, ask_objects q = [(r, p)] /\ rectangle r /\ clean p) /\ exists time, asks_time (ask_props q) time /\ INT_MIN < time
  else ask_objects q = [].
Definition orders_ok (slack : nat) (qs : list ask) : Prop :=
  Forall (order_ok slack) qs /\ match qs with [] => True | q :: _ => ask_init q = true end.

(** The request number [i] (from 0) is the last of the first [n] that starts the tracker *)
Definition last_start (qs : list ask) (n i : nat) (q : ask) : Prop :=
  (i < n)%nat /\ nth_error qs i = Some q /\ ask_init q = true /\
  forall j q', (i < j < n)%nat -> nth_error qs j = Some q' -> ask_init q' = false.
(** After [n] requests the tracker is due to die by the signal [s] *)
Definition due (qs : list ask) (n : nat) (s : signal) : Prop :=
  exists i q time, last_start qs n i q /\ asks_time (ask_props q) time /\ asks_signal (ask_props q) s /\ time <= Z.of_nat (n - i).

(** The client sends the requests and waits for the answers until the tracker is dead or left its loop *)
Definition bad_round (legacy : bool) (slack : nat) (c : handle) (t : bad) (q : ask) : outcome (handle * bad * fate * (Z * option object_list)) :=
  a <- (if ask_init q then client_initialize legacy c (ask_images q) (ask_objects q) (ask_props q)
        else client_frame legacy c (ask_images q) (Some (ask_objects q)) (ask_props q)) ;;
  let '(_, c1) := a in
  g <- bad_wait (3 + List.length (ask_objects q)) slack (mkBad (arrive (ask_cut1 q) (written c c1) (bd_handle t)) (bd_memory t) (bd_time t) (bd_type t)) ;;
  r <- bad_answer (fst g) (snd g) ;;
  x <- client_wait (arrive (ask_cut2 q) (written (bd_handle (snd g)) (bd_handle (snd r))) c1) (Some props_create) ;;
  let '(state, c2, result, _) := x in
  Ok (c2, snd r, fst r, (state, result)).
Fixpoint bad_rounds (legacy : bool) (slack : nat) (c : handle) (t : bad) (qs : list ask) : outcome (handle * bad * fate * list (Z * option object_list)) :=
  match qs with
  | [] => Ok (c, t, GoesOn, [])
  | q :: qs' =>
      x <- bad_round legacy slack c t q ;;
      let '(c1, t1, f, sn) := x in
      match f with
      | GoesOn =>
          y <- bad_rounds legacy slack c1 t1 qs' ;;
          let '(c2, t2, f2, sns) := y in
          Ok (c2, t2, f2, sn :: sns)
      | _ => Ok (c1, t1, f, [sn])
      end
  end.

(** The client ends the session instead *)
Definition bad_ending (slack fuel : nat) (c : handle) (t : bad) (reason : list N) (cut : list N -> list (list N)) : outcome fate :=
  a <- terminate c (Some reason) ;;
  g <- bad_wait fuel slack (mkBad (arrive cut (written c (snd a)) (bd_handle t)) (bd_memory t) (bd_time t) (bd_type t)) ;;
  r <- bad_answer (fst g) (snd g) ;;
  Ok (fst r).

(** A client without a tracker: whatever becomes of what it still writes, its waits return an error *)
Definition lost_tracker (c : handle) : Prop :=
  (exists c' l p, client_wait c (Some props_create) = Ok (TRAX_ERROR, c', l, p)) /\
  forall legacy out images p code c1, client_frame legacy (with_out c out) images None p = Ok (code, c1) ->
    exists c' l p', client_wait c1 (Some props_create) = Ok (TRAX_ERROR, c', l, p').

Definition bad_images : image_list := [sample_path (str "/a b.jpg"); None; None].
(** A session: three answers were asked for, then again two *)
Definition sample_rect : region := RRect (fl 1) (fl 2) (fl 3) (fl 4).
Definition sample_orders : list ask :=
  [mkAsk true bad_images [(sample_rect, props_create)] (Some (sample_props (str "break_time") (str "3"))) byte_cut whole_cut;
   mkAsk false bad_images [] None whole_cut byte_cut;
   mkAsk true bad_images [(sample_rect, sample_props (str "id") (str "1"))] (Some (sample_props (str "break_type") (str "sigsegv"))) whole_cut byte_cut;
   mkAsk false bad_images [] None whole_cut byte_cut; mkAsk false bad_images [] None whole_cut byte_cut;
   mkAsk false bad_images [] None whole_cut byte_cut; mkAsk false bad_images [] None whole_cut byte_cut;
   mkAsk false bad_images [] None whole_cut byte_cut].
