(** Specification of connections: what arrives, rounds of a session, and the network between two handles. *)
From Verif Require Import CBase Props PropsSpec Message MessageSpec Num Region Image Formats Handle.
Local Open Scope Z_scope.

(** A dictionary an application made, within the character guard of C01; dictionaries with the same contents. *)
Definition made (p : props) : Prop := exists hist, props_run hist = Ok p.
Definition clean (p : props) : Prop := made p /\ forall k v, props_get p k = Ok (Some v) -> kv_ok (k, v) = true.
Definition same_props (a b : props) : Prop := forall k, props_get a k = props_get b k.
Definition given (p : option props) : props := match p with Some p => p | None => props_create end.

(** [r'] is what the text form of [r] stands for (C24 to C26 say how [r'] relates to [r]); masks have positive sides. *)
Definition solid (r : region) : Prop := match r with RMask _ _ w h _ => 0 < w /\ 0 < h | _ => True end.
Definition region_arrives (r r' : region) : Prop :=
  exists t, region_string r = Ok (Some t) /\ region_parse t = Ok (true, Some r') /\ solid r'.
(** The same for images (C19 to C22); the text must not look like a named argument. *)
Definition image_arrives (slack : nat) (i i' : image) : Prop :=
  exists t, image_encode i = Ok (Some t) /\ arg_ok t = true /\ image_decode slack t = Ok (Some i').

(** An object with its properties, and a list of objects *)
Definition object_arrives (a b : region * props) : Prop :=
  region_arrives (fst a) (fst b) /\ same_props (snd b) (snd a) /\ made (snd b).
Definition objects_arrive : object_list -> object_list -> Prop := Forall2 object_arrives.

(** Images of the channels in the set [ch], in formats of the set [fmt] *)
Definition images_arrive (slack : nat) (ch fmt : Z) (a b : image_list) : Prop :=
  List.length a = 3%nat /\ List.length b = 3%nat /\
  forall k, (k < 3)%nat ->
    if Z.testbit ch (Z.of_nat k)
    then exists i i', nth k a None = Some i /\ nth k b None = Some i' /\ image_arrives slack i i' /\ supports fmt (i_type i') = true
    else nth k b None = None.

(** Regions a client may hand to a server that announced the formats [fmt]; states a server may report. *)
Definition object_sendable (fmt : Z) (o : region * props) : Prop :=
  (forall c, fst o <> RSpecial c) /\ supports fmt (region_bit (fst o)) = true /\ (exists r', region_arrives (fst o) r') /\ clean (snd o).
Definition state_sendable (o : region * props) : Prop := (exists r', region_arrives (fst o) r') /\ clean (snd o).

(** The network: the bytes a side has written since [from], cut into pieces in any way, reach the other side. *)
Definition cutter (cut : list N -> list (list N)) : Prop := forall l, concat (cut l) = l /\ Forall (fun ch => ch <> []) (cut l).
Definition written (from from' : handle) : list N := skipn (List.length (o_bytes (h_out from))) (o_bytes (h_out from')).
Definition arrive (cut : list N -> list (list N)) (bytes : list N) (to : handle) : handle :=
  with_in to (h_type to) (mkStream (st_buf (h_in to)) (st_script (h_in to) ++ cut bytes)).

(** One round of a session: the client initializes or sends a frame (perhaps with new objects), the server waits and
    replies, the client waits. *)
Record round := mkRound {
  rd_init : bool;
  rd_images : image_list;
  rd_objects : object_list;
  rd_props : option props;
  rd_reply : object_list;
  rd_cut1 : list N -> list (list N);
  rd_cut2 : list N -> list (list N)
}.
(** What the two sides get to see *)
Record seen := mkSeen {
  sn_sent : Z;                         (* return code of the client's initialize or frame *)
  sn_event : Z;                        (* return code of the server's wait *)
  sn_images : option image_list;
  sn_objects : option object_list;
  sn_props : option props;
  sn_replied : Z;                      (* return code of the server's reply *)
  sn_state : Z;                        (* return code of the client's wait *)
  sn_result : option object_list
}.

Definition play_round (legacy : bool) (slack : nat) (c s : handle) (r : round) : outcome (handle * handle * seen) :=
  a <- (if rd_init r then client_initialize legacy c (rd_images r) (rd_objects r) (rd_props r)
        else client_frame legacy c (rd_images r) (Some (rd_objects r)) (rd_props r)) ;;
  let '(sent, c1) := a in
  w <- server_wait_mot (3 + List.length (rd_objects r)) slack (arrive (rd_cut1 r) (written c c1) s) None (Some props_create) ;;
  let '(event, s1, images, objects, p) := w in
  b <- server_reply_mot s1 (rd_reply r) ;;
  let '(replied, s2) := b in
  x <- client_wait (arrive (rd_cut2 r) (written s1 s2) c1) (Some props_create) ;;
  let '(state, c2, result, _) := x in
  Ok (c2, s2, mkSeen sent event images objects p replied state result).
Fixpoint play (legacy : bool) (slack : nat) (c s : handle) (rs : list round) : outcome (handle * handle * list seen) :=
  match rs with
  | [] => Ok (c, s, [])
  | r :: rs' =>
      x <- play_round legacy slack c s r ;;
      let '(c1, s1, sn) := x in
      y <- play legacy slack c1 s1 rs' ;;
      let '(c2, s2, sns) := y in
      Ok (c2, s2, sn :: sns)
  end.

(** The number of objects tracked after a round, [n] being the number before it. *)
Definition tracked (n : nat) (r : round) : nat :=
  if rd_init r then List.length (rd_objects r) else (n + List.length (rd_objects r))%nat.
(** A round that respects the protocol: the images for the announced channels exist and are in announced formats, the
    regions too; without multi-object support at most one object is tracked; the reply has one state for each object. *)
Definition round_ok (slack : nat) (m : metadata) (multi : bool) (n : nat) (r : round) : Prop :=
  cutter (rd_cut1 r) /\ cutter (rd_cut2 r) /\
  (exists ims, images_arrive slack (md_channels m) (md_image m) (rd_images r) ims) /\
  Forall (object_sendable (md_region m)) (rd_objects r) /\
  match rd_props r with Some p => clean p | None => True end /\
  (rd_init r = true -> rd_objects r <> []) /\
  (1 <= tracked n r)%nat /\ (multi = false -> (tracked n r <= 1)%nat) /\
  List.length (rd_reply r) = tracked n r /\ Forall state_sendable (rd_reply r).
(** Everything was delivered. *)
Definition seen_ok (slack : nat) (m : metadata) (n : nat) (r : round) (sn : seen) : Prop :=
  sn_sent sn = TRAX_OK /\ sn_event sn = (if rd_init r || Nat.eqb n 0 then TRAX_INITIALIZE else TRAX_FRAME) /\
  (exists ims, sn_images sn = Some ims /\ images_arrive slack (md_channels m) (md_image m) (rd_images r) ims) /\
  match rd_objects r with
  | [] => sn_objects sn = None
  | l => exists l', sn_objects sn = Some l' /\ objects_arrive l l'
  end /\
  (exists p, sn_props sn = Some p /\ same_props p (given (rd_props r))) /\
  sn_replied sn = TRAX_OK /\ sn_state sn = TRAX_STATE /\
  (exists l, sn_result sn = Some l /\ objects_arrive (rd_reply r) l).

Fixpoint rounds_ok (slack : nat) (m : metadata) (multi : bool) (n : nat) (rs : list round) : Prop :=
  match rs with
  | [] => True
  | r :: rs' => round_ok slack m multi n r /\ rounds_ok slack m multi (tracked n r) rs'
  end.
Fixpoint all_seen (slack : nat) (m : metadata) (n : nat) (rs : list round) (sns : list seen) : Prop :=
  match rs, sns with
  | [], [] => True
  | r :: rs', sn :: sns' => seen_ok slack m n r sn /\ all_seen slack m (tracked n r) rs' sns'
  | _, _ => False
  end.
Fixpoint tracked_all (n : nat) (rs : list round) : nat :=
  match rs with [] => n | r :: rs' => tracked_all (tracked n r) rs' end.

(** A whole connection: the server starts and sends its hello message, the client connects. *)
Definition connect (m : metadata) (version : Z) (cut : list N -> list (list N)) (sched_s sched_c : list wres)
  : outcome (option (handle * handle)) :=
  s <- server_setup m (mkStream [] []) (mkO sched_s [] []) version ;;
  c <- client_setup (mkStream [] (cut (o_bytes (h_out s)))) (mkO sched_c [] []) ;;
  Ok (match c with Some c => Some (c, s) | None => None end).

(** The version two parties speak when the server asked for [version]; 0 or less stands for the newest. *)
Definition spoken (version : Z) : Z := if version <? 1 then TRAX_VERSION else version.
(** Metadata within the guards of C01; the names beginning with trax. are reserved for the library. *)
Definition metadata_ok (m : metadata) (version : Z) : Prop :=
  version <= TRAX_VERSION /\ clean (md_custom m) /\
  (forall k v, props_get (md_custom m) k = Ok (Some v) -> starts_with (str "trax.") k = false) /\
  Forall (fun t => match t with Some t => text_ok t = true | None => True end) [md_name m; md_description m; md_family m] /\
  1 <= md_channels m <= 7 /\ (spoken version = 4 -> md_flags m <> None).
Definition multi_object (m : metadata) (version : Z) : bool :=
  (spoken version =? 4) && match md_flags m with Some f => supports f TRAX_METADATA_MULTI_OBJECT | None => false end.
(** What the client knows: rectangle, polygon and mask bits of the regions, the four image formats, the channels (color
    only in version 1), the texts and the custom properties. *)
Definition conveyed (m : metadata) (version : Z) (c : metadata) : Prop :=
  md_region c = Z.land (md_region m) 14 /\ md_image c = Z.land (md_image m) 15 /\
  md_channels c = (if spoken version =? 1 then TRAX_CHANNEL_COLOR else md_channels m) /\
  md_name c = md_name m /\ md_description c = md_description m /\ md_family c = md_family m /\
  same_props (md_custom c) (md_custom m) /\
  md_flags c = Some (if multi_object m version then TRAX_METADATA_MULTI_OBJECT else 0).

(** ---- sessions in versions 1 to 3: one object, whose region travels with the images ---- *)
Record sround := mkSround {
  sr_object : option region;           (* None: a frame *)
  sr_images : image_list;
  sr_props : option props;
  sr_reply : region * props;
  sr_cut1 : list N -> list (list N);
  sr_cut2 : list N -> list (list N)
}.
Record sseen := mkSseen {
  ss_sent : Z;
  ss_event : Z;
  ss_images : option image_list;
  ss_region : option region;
  ss_props : option props;
  ss_replied : Z;
  ss_state : Z;
  ss_result : option object_list
}.
Definition play_sround (legacy : bool) (slack : nat) (c s : handle) (r : sround) : outcome (handle * handle * sseen) :=
  a <- match sr_object r with
       | Some reg => client_initialize legacy c (sr_images r) [(reg, props_create)] (sr_props r)
       | None => client_frame legacy c (sr_images r) None (sr_props r)
       end ;;
  let '(sent, c1) := a in
  w <- server_wait_sot slack (arrive (sr_cut1 r) (written c c1) s) None None (Some props_create) ;;
  let '(event, s1, images, reg, p) := w in
  b <- server_reply_sot s1 (fst (sr_reply r)) (Some (snd (sr_reply r))) ;;
  let '(replied, s2) := b in
  x <- client_wait (arrive (sr_cut2 r) (written s1 s2) c1) (Some props_create) ;;
  let '(state, c2, result, _) := x in
  Ok (c2, s2, mkSseen sent event images reg p replied state result).
Fixpoint splay (legacy : bool) (slack : nat) (c s : handle) (rs : list sround) : outcome (handle * handle * list sseen) :=
  match rs with
  | [] => Ok (c, s, [])
  | r :: rs' =>
      x <- play_sround legacy slack c s r ;;
      let '(c1, s1, sn) := x in
      y <- splay legacy slack c1 s1 rs' ;;
      let '(c2, s2, sns) := y in
      Ok (c2, s2, sn :: sns)
  end.
Definition sround_ok (slack : nat) (m : metadata) (r : sround) : Prop :=
  cutter (sr_cut1 r) /\ cutter (sr_cut2 r) /\
  (exists ims, images_arrive slack (md_channels m) (md_image m) (sr_images r) ims) /\
  match sr_object r with
  | Some reg => (forall c, reg <> RSpecial c) /\ supports (md_region m) (region_bit reg) = true /\ exists reg', region_arrives reg reg'
  | None => True
  end /\
  match sr_props r with Some p => clean p | None => True end /\ state_sendable (sr_reply r).
(** The first round initializes the tracker. *)
Definition srounds_ok (slack : nat) (m : metadata) (rs : list sround) : Prop :=
  Forall (sround_ok slack m) rs /\ match rs with [] => True | r :: _ => sr_object r <> None end.
Definition sseen_ok (slack : nat) (m : metadata) (r : sround) (sn : sseen) : Prop :=
  ss_sent sn = TRAX_OK /\ ss_event sn = (match sr_object r with Some _ => TRAX_INITIALIZE | None => TRAX_FRAME end) /\
  (exists ims, ss_images sn = Some ims /\ images_arrive slack (md_channels m) (md_image m) (sr_images r) ims) /\
  match sr_object r with
  | Some reg => exists reg', ss_region sn = Some reg' /\ region_arrives reg reg'
  | None => ss_region sn = None
  end /\
  (exists p, ss_props sn = Some p /\ same_props p (given (sr_props r))) /\
  ss_replied sn = TRAX_OK /\ ss_state sn = TRAX_STATE /\
  (exists l, ss_result sn = Some l /\ objects_arrive [sr_reply r] l).

(** Sample data for the examples: a tracker for polygons and masks on color and depth paths, and a session of three rounds. *)
Definition byte_cut (l : list N) : list (list N) := map (fun b => [b]) l.
Definition whole_cut (l : list N) : list (list N) := match l with [] => [] | _ => [l] end.
Definition sample_props (k v : list N) : props := match props_set props_create k v with Ok p => p | _ => props_create end.
Definition sample_path (p : list N) : option image := match image_create_path p with Ok i => Some i | _ => None end.
Definition sample_metadata : metadata :=
  mkMeta 12 3 3 (Some (str "Tracker")) None (Some (str "mean ""shift""")) (sample_props (str "vot") (str "2014 a=b")) (Some TRAX_METADATA_MULTI_OBJECT).
Definition fl (z : Z) : spec_float := SpecFloat.binary_normalize 24 128 z 0 false.
Definition sample_images : image_list := [sample_path (str "/a b.jpg"); sample_path (str "/d=1.png"); None].
Definition sample_poly : region := RPoly [(fl 0, fl 0); (fl 10, fl (-3)); (fl 4, fl 7)].
Definition sample_mask : region := RMask 5 6 2 2 [1; 0; 0; 1]%N.
Definition sample_rounds : list round :=
  [mkRound true sample_images [(sample_poly, sample_props (str "id") (str "1")); (sample_mask, props_create)]
     (Some (sample_props (str "k") (str "v w"))) [(sample_mask, props_create); (RSpecial 2, sample_props (str "conf") (str "0.5"))] byte_cut whole_cut;
   mkRound false sample_images [] None [(sample_mask, props_create); (sample_poly, props_create)] whole_cut byte_cut;
   mkRound false sample_images [(sample_mask, props_create)] None
     [(sample_mask, props_create); (sample_poly, props_create); (RRect (fl 1) (fl 2) (fl 3) (fl 4), props_create)] whole_cut byte_cut].
Definition sample_metadata3 : metadata :=
  mkMeta 12 3 3 (Some (str "Tracker")) None None (sample_props (str "vot") (str "2014")) None.
Definition sample_srounds : list sround :=
  [mkSround (Some sample_poly) sample_images (Some (sample_props (str "k") (str "v w"))) (sample_mask, props_create) byte_cut whole_cut;
   mkSround None sample_images None (RSpecial 2, sample_props (str "conf") (str "0.5")) whole_cut byte_cut;
   mkSround (Some sample_mask) sample_images None (sample_poly, props_create) whole_cut byte_cut].
(** A tracker that announces two channels in version 1 and uses a reserved name; one for masks. *)
Definition sample_metadata1 : metadata := mkMeta 2 1 3 None None None (sample_props (str "trax.description") (str "x")) None.
Definition sample_mask_metadata : metadata := mkMeta 8 1 1 None None None props_create (Some 0).
Definition sample_empty_mask_round : round :=
  mkRound true [sample_path (str "/a.jpg"); None; None] [(RMask 0 0 2 1 [0; 0]%N, props_create)] None [] whole_cut whole_cut.
