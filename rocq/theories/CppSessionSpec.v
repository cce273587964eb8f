(** Specification of sessions with the C++ classes, one object *)
From Verif Require Import CBase Props PropsSpec Message MessageSpec Num Region Image Formats Handle SessionSpec ListsSpec CppSession.
Local Open Scope Z_scope.

(** A round: the client starts with a region or sends a frame, the server waits and replies, the client waits.  Variables are fresh. *)
Record cround := mkCround { cr_start : option region; cr_images : image_list; cr_props : props; cr_reply : region; cr_reply_props : props;
  cr_cut1 : list N -> list (list N); cr_cut2 : list N -> list (list N) }.
(** What the two sides see *)
Record cseen := mkCseen { cs_sent : Z; cs_event : Z; cs_images : option image_list; cs_region : option region; cs_props : props;
  cs_replied : Z; cs_state : Z; cs_answer : option region; cs_answer_props : props }.
Definition cpp_round (sot legacy : bool) (slack : nat) (c s : handle) (r : cround) : outcome (handle * handle * cseen) :=
  a <- match cr_start r with
       | Some reg => cpp_initialize legacy c (cr_images r) reg (cr_props r)
       | None => cpp_frame legacy c (cr_images r) (cr_props r)
       end ;;
  let '(sent, c1) := a in
  let s0 := arrive (cr_cut1 r) (written c c1) s in
  w <- (if sot then cpp_sot_wait slack s0 None props_create
        else cpp_server_wait (match cr_start r with Some _ => 4 | None => 3 end) slack s0 None props_create) ;;
  let '(event, s1, images, reg, p) := w in
  b <- (if sot then cpp_sot_reply s1 (cr_reply r) (cr_reply_props r) else cpp_reply s1 (cr_reply r) (cr_reply_props r)) ;;
  let '(replied, s2, _) := b in
  x <- cpp_client_wait (arrive (cr_cut2 r) (written s1 s2) c1) None props_create ;;
  let '(state, c2, answer, q) := x in
  Ok (c2, s2, mkCseen sent event images reg p replied state answer q).
Fixpoint cpp_play (sot legacy : bool) (slack : nat) (c s : handle) (rs : list cround) : outcome (handle * handle * list cseen) :=
  match rs with
  | [] => Ok (c, s, [])
  | r :: rs' =>
      x <- cpp_round sot legacy slack c s r ;;
      let '(c1, s1, sn) := x in
      y <- cpp_play sot legacy slack c1 s1 rs' ;;
      let '(c2, s2, sns) := y in
      Ok (c2, s2, sn :: sns)
  end.
(** A round within the protocol *)
Definition cround_ok (slack : nat) (m : metadata) (r : cround) : Prop :=
  cutter (cr_cut1 r) /\ cutter (cr_cut2 r) /\
  (exists ims, images_arrive slack (md_channels m) (md_image m) (cr_images r) ims) /\
  match cr_start r with
  | Some reg => (forall c, reg <> RSpecial c) /\ supports (md_region m) (region_bit reg) = true /\ whole reg /\ exists reg', region_arrives reg reg'
  | None => True
  end /\
  clean (cr_props r) /\ whole (cr_reply r) /\ (exists reg', region_arrives (cr_reply r) reg') /\ clean (cr_reply_props r).
(** The first one starts the tracker *)
Definition crounds_ok (slack : nat) (m : metadata) (rs : list cround) : Prop :=
  Forall (cround_ok slack m) rs /\ match rs with [] => True | r :: _ => cr_start r <> None end.
(** What the client gave has arrived at the server, and the region of the reply at the client *)
Definition region_there (given seen : option region) : Prop :=
  match given with Some r => exists r', seen = Some r' /\ region_arrives r r' | None => seen = None end.
Definition cseen_ok (slack : nat) (m : metadata) (r : cround) (sn : cseen) : Prop :=
  cs_sent sn = TRAX_OK /\ cs_event sn = match cr_start r with Some _ => TRAX_INITIALIZE | None => TRAX_FRAME end /\
  (exists ims, cs_images sn = Some ims /\ images_arrive slack (md_channels m) (md_image m) (cr_images r) ims) /\
  region_there (cr_start r) (cs_region sn) /\ same_props (cs_props sn) (cr_props r) /\
  cs_replied sn = TRAX_OK /\ cs_state sn = TRAX_STATE /\ region_there (Some (cr_reply r)) (cs_answer sn).
(** ... and the properties of the reply *)
Definition answered_props (r : cround) (sn : cseen) : Prop := same_props (cs_answer_props sn) (cr_reply_props r).

(** A session for the examples: three rounds, the replies of two of them with properties *)
Definition sample_crounds : list cround :=
  [mkCround (Some sample_poly) sample_images (sample_props (str "k") (str "v w")) sample_mask (sample_props (str "conf") (str "0.5")) byte_cut whole_cut;
   mkCround None sample_images props_create (RSpecial 2) props_create whole_cut byte_cut;
   mkCround (Some sample_mask) sample_images props_create sample_poly (sample_props (str "conf") (str "1")) whole_cut byte_cut].
