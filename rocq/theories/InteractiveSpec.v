(** Specification for C125: what an example tracker with a user tells its client. *)
From Verif Require Import CBase Props PropsSpec Message MessageSpec Num NumSpec Region RegionSpec RegionGeom GeomSpec Image Formats Handle SessionSpec CppSession
  OpenCv Interactive.
Local Open Scope Z_scope.

(** A turn of a session: the client starts with a rectangle or sends the next frame; the user clicks somewhere or presses a key. *)
Record turn := mkTurn { tn_start : option (Z * Z * Z * Z); tn_file : list N; tn_props : props; tn_user : action;
  tn_cut1 : list N -> list (list N); tn_cut2 : list N -> list (list N) }.
(** The rectangle with these integers, converted to float as in C, and what the client gives *)
Definition plain_rect (r : Z * Z * Z * Z) : region := let '(x, y, w, h) := r in RRect (float_of_int x) (float_of_int y) (float_of_int w) (float_of_int h).
Definition color_image (file : list N) : image_list :=
  match image_create_path file with Ok i => [Some i; None; None] | _ => [None; None; None] end.
Definition request (legacy : bool) (c : handle) (start : option region) (images : image_list) (p : props) : outcome (Z * handle) :=
  match start with Some r => cpp_initialize legacy c images r p | None => cpp_frame legacy c images p end.

(** The region the user marked: a click moves the middle of the last region to the place of the click, a key leaves it where it is. *)
Definition current (last : Z * Z * Z * Z) (q : turn) : Z * Z * Z * Z := match tn_start q with Some r => r | None => last end.
Definition marked (last : Z * Z * Z * Z) (q : turn) : Z * Z * Z * Z :=
  let '(x, y, w, h) := current last q in
  match tn_user q with
  | Click cx cy => (cx - Z.quot w 2, cy - Z.quot h 2, w, h)
  | Key => (x, y, w, h)
  end.

(** Turns within the guards: the numbers are at most 2^20 in magnitude, the file can be read, the user goes on unless this is the last turn *)
Definition small (z : Z) : Prop := Z.abs z <= 2 ^ 20.
Definition turn_ok (f : files) (q : turn) : Prop :=
  cutter (tn_cut1 q) /\ cutter (tn_cut2 q) /\ text_ok (tn_file q) = true /\ readable f (tn_file q) = true /\ clean (tn_props q) /\
  match tn_start q with Some (x, y, w, h) => small x /\ small y /\ small w /\ small h | None => True end /\
  match tn_user q with Click x y => small x /\ small y | Key => True end.
Fixpoint going_on (qs : list turn) : Prop :=
  match qs with
  | [] | [_] => True
  | q :: qs' => tn_user q <> Key /\ going_on qs'
  end.
Definition turns_ok (f : files) (qs : list turn) : Prop :=
  Forall (turn_ok f) qs /\ going_on qs /\ match qs with [] => True | q :: _ => tn_start q <> None end.

(** What reaches the client when a pass of the program's loop has ended; a program that left its loop without a reply
    closes its handle. *)
Definition interactive_output (before : handle) (x : pass interactive) : outcome (list N) :=
  match x with
  | Replied _ _ v => Ok (written before (v_handle v))
  | Ended v =>
      o <- cleanup (v_handle v) ;; Ok (skipn (List.length (o_bytes (h_out before))) (o_bytes o))
  | Died => Ok []
  end.
(** A turn: the client's next handle, how the pass ended, and the result of the client's wait with the region *)
Definition interactive_turn (f : files) (legacy : bool) (slack : nat) (c : handle) (v : interactive) (q : turn)
  : outcome (handle * pass interactive * (Z * option region)) :=
  a <- request legacy c (option_map plain_rect (tn_start q)) (color_image (tn_file q)) (tn_props q) ;;
  let '(_, c1) := a in
  x <- interactive_pass f legacy (match tn_start q with Some _ => 4 | None => 3 end) slack (mkInteractive (arrive (tn_cut1 q) (written c c1) (v_handle v)) (v_region v) (v_rect v)) (tn_user q) ;;
  bytes <- interactive_output (v_handle v) x ;;
  y <- cpp_client_wait (arrive (tn_cut2 q) bytes c1) None props_create ;;
  let '(state, c2, r, _) := y in
  Ok (c2, x, (state, r)).
(** A session, until the program leaves its loop *)
Fixpoint interactive_turns (f : files) (legacy : bool) (slack : nat) (c : handle) (v : interactive) (qs : list turn) : outcome (list (Z * option region)) :=
  match qs with
  | [] => Ok []
  | q :: qs' =>
      a <- interactive_turn f legacy slack c v q ;;
      let '(c', x, sn) := a in
      match x with
      | Replied _ true v' => sns <- interactive_turns f legacy slack c' v' qs' ;; Ok (sn :: sns)
      | _ => Ok [sn]
      end
  end.
(** Every wait of the client returns a state: the rectangle the user marked *)
Definition shows (r : Z * Z * Z * Z) (sn : Z * option region) : Prop :=
  let '(x, y, w, h) := r in
  fst sn = TRAX_STATE /\ exists a b c d, snd sn = Some (RRect a b c d) /\ is_int a x /\ is_int b y /\ is_int c w /\ is_int d h.
Fixpoint shows_all (last : Z * Z * Z * Z) (qs : list turn) (sns : list (Z * option region)) : Prop :=
  match qs, sns with
  | [], [] => True
  | q :: qs', sn :: sns' => shows (marked last q) sn /\ shows_all (marked last q) qs' sns'
  | _, _ => False
  end.

(** The program has ended without telling its client anything. *)
Definition silent (s : handle) (x : pass interactive) : Prop :=
  match x with
  | Replied _ _ _ => False
  | Ended v => written s (v_handle v) = []
  | Died => True
  end.

(** The configuration the two programs mean: rectangles; pictures in files, in memory or in buffers *)
Definition meant : metadata := mkMeta 2 13 1 None None None props_create (Some 0).
Definition any_file : files := mkFiles (fun _ => true) (fun _ => true).
Definition sample_turns : list turn :=
  [mkTurn (Some (10, 20, 31, 40)) (str "/a b.jpg") (sample_props (str "k") (str "v w")) (Click 100 (-3)) byte_cut whole_cut;
   mkTurn None (str "/b.jpg") props_create (Click 0 0) whole_cut byte_cut;
   mkTurn (Some (-7, 5, 1, 0)) (str "/c.jpg") props_create Key whole_cut byte_cut].
Example sample_turns_marked : shows_all (0, 0, 0, 0) sample_turns
  [(TRAX_STATE, Some (plain_rect (85, -23, 31, 40))); (TRAX_STATE, Some (plain_rect (-15, -20, 31, 40))); (TRAX_STATE, Some (plain_rect (-7, 5, 1, 0)))].
Proof. repeat (split; [split; [reflexivity|]; do 4 eexists; split; [reflexivity|]; vm_compute; tauto|]). exact Logic.I. Qed.

(** camshift: the client starts or sends a frame, [window] is what the tracker finds in the picture *)
Definition camshift_turn (f : files) (slack : nat) (c : handle) (v : camshift) (start : option region) (images : image_list) (window : option rect)
  : outcome (handle * camshift * (Z * option region)) :=
  a <- request false c start images props_create ;;
  let '(_, c1) := a in
  x <- camshift_pass f 4 slack (mkCamshift (arrive whole_cut (written c c1) (k_handle v)) (k_region v) (k_object v) (k_params v)) window ;;
  match x with
  | Replied _ _ v' =>
      y <- cpp_client_wait (arrive whole_cut (written (k_handle v) (k_handle v')) c1) None props_create ;;
      let '(state, c2, r, _) := y in Ok (c2, v', (state, r))
  | _ => Abort
  end.
