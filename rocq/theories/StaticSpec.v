(** Specification for C115: what a stationary tracker reports. *)
From Verif Require Import CBase StrMap Props PropsSpec Message MessageSpec Num NumSpec Region RegionSpec Image Formats Handle SessionSpec Static.
Local Open Scope Z_scope.

(** Regions within the guards of C25 and C26 *)
Inductive steady : region -> Prop :=
| steady_rect x y w h : finite_float x -> finite_float y -> finite_float w -> finite_float h -> steady (RRect x y w h)
| steady_poly pts : (3 <= List.length pts)%nat -> Forall point_finite pts -> steady (RPoly pts)
| steady_mask x y w h data : exact_int x -> exact_int y -> exact_int w -> exact_int h -> 0 < w -> 0 < h -> in_int (w * h) = true ->
    Z.of_nat (List.length data) = w * h -> (exists d, In d data /\ d <> 0%N) -> short_runs (2 ^ 24) (foreground data) -> steady (RMask x y w h data).
(** [b] is [a] up to the fifth decimal of coordinates, or the same mask *)
Inductive stays : region -> region -> Prop :=
| stays_rect x y w h x' y' w' h' : coord_close x' x -> coord_close y' y -> coord_close w' w -> coord_close h' h ->
    stays (RRect x y w h) (RRect x' y' w' h')
| stays_poly a b : Forall2 point_close b a -> stays (RPoly a) (RPoly b)
| stays_mask x y w h a b : foreground b = foreground a -> stays (RMask x y w h a) (RMask x y w h b).
Definition object_stays (a b : region * props) : Prop := stays (fst a) (fst b) /\ same_props (snd b) (snd a).

(** A request of the client: it initializes the tracker or sends a frame, perhaps with new objects *)
Record ask := mkAsk {
  ask_init : bool;
  ask_images : image_list;
  ask_objects : object_list;
  ask_props : option props;
  ask_cut1 : list N -> list (list N);
  ask_cut2 : list N -> list (list N)
}.
(** The objects tracked after a request, as the client gave them *)
Definition followed (l : object_list) (q : ask) : object_list := if ask_init q then ask_objects q else l ++ ask_objects q.
Definition ask_ok (slack : nat) (channels : Z) (l : object_list) (q : ask) : Prop :=
  cutter (ask_cut1 q) /\ cutter (ask_cut2 q) /\ (exists ims, images_arrive slack channels 15 (ask_images q) ims) /\
  Forall (fun o => steady (fst o) /\ clean (snd o)) (ask_objects q) /\
  match ask_props q with Some p => clean p /\ props_get p (str "time_wait") <> Ok (Some []) | None => True end /\
  (ask_init q = true -> ask_objects q <> []) /\ followed l q <> [].
Fixpoint asks_ok (slack : nat) (channels : Z) (l : object_list) (qs : list ask) : Prop :=
  match qs with
  | [] => True
  | q :: qs' => ask_ok slack channels l q /\ asks_ok slack channels (followed l q) qs'
  end.

(** One request, the answer of the tracker, and what the client's wait returns *)
Definition static_round (legacy : bool) (slack : nat) (c : handle) (t : static) (q : ask) : outcome (handle * static * (Z * option object_list)) :=
  a <- (if ask_init q then client_initialize legacy c (ask_images q) (ask_objects q) (ask_props q)
        else client_frame legacy c (ask_images q) (Some (ask_objects q)) (ask_props q)) ;;
  let '(_, c1) := a in
  g <- static_wait (3 + List.length (ask_objects q)) slack
    (mkStatic (arrive (ask_cut1 q) (written c c1) (sc_handle t)) (sc_mem t) (sc_wait t) (sc_live t)) ;;
  r <- static_answer (fst g) (snd g) ;;
  x <- client_wait (arrive (ask_cut2 q) (written (sc_handle (snd g)) (sc_handle (snd r))) c1) (Some props_create) ;;
  let '(state, c2, result, _) := x in
  Ok (c2, snd r, (state, result)).
Fixpoint static_rounds (legacy : bool) (slack : nat) (c : handle) (t : static) (qs : list ask)
  : outcome (handle * static * list (Z * option object_list)) :=
  match qs with
  | [] => Ok (c, t, [])
  | q :: qs' =>
      x <- static_round legacy slack c t q ;;
      let '(c1, t1, sn) := x in
      y <- static_rounds legacy slack c1 t1 qs' ;;
      let '(c2, t2, sns) := y in
      Ok (c2, t2, sn :: sns)
  end.

(** Every result shows the objects as the client gave them *)
Fixpoint reports (l : object_list) (qs : list ask) (sns : list (Z * option object_list)) : Prop :=
  match qs, sns with
  | [], [] => True
  | q :: qs', (state, result) :: sns' =>
      state = TRAX_STATE /\ (exists res, result = Some res /\ Forall2 object_stays (followed l q) res) /\ reports (followed l q) qs' sns'
  | _, _ => False
  end.

(** The client ends the session: the tracker waits once more and ends; the flag says whether it left its loop *)
Definition static_ending (slack fuel : nat) (c : handle) (t : static) (reason : list N) (cut : list N -> list (list N)) : outcome (Z * bool * nat) :=
  a <- terminate c (Some reason) ;;
  g <- static_wait fuel slack (mkStatic (arrive cut (written c (snd a)) (sc_handle t)) (sc_mem t) (sc_wait t) (sc_live t)) ;;
  r <- static_answer (fst g) (snd g) ;;
  e <- static_end (snd r) ;;
  Ok (gt_event (fst g), match fst r with None => true | Some _ => false end, snd e).

Definition sample_asks : list ask :=
  [mkAsk true sample_images [(sample_poly, sample_props (str "id") (str "1")); (sample_mask, props_create)] (Some (sample_props (str "time_wait") (str "0.5"))) byte_cut whole_cut;
   mkAsk false sample_images [] None whole_cut byte_cut;
   mkAsk false sample_images [(RRect (fl 1) (fl 2) (fl 3) (fl 4), props_create)] (Some (sample_props (str "k") (str "v w"))) whole_cut byte_cut;
   mkAsk true sample_images [(sample_mask, props_create)] None byte_cut byte_cut].
