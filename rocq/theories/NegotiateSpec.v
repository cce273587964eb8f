(** Specification of format negotiation: in which format a region reaches a tracker, and where it then is. *)
From Verif Require Import CBase Props Message MessageSpec Num NumSpec Region RegionSpec RegionGeom GeomSpec Image Formats Handle SessionSpec.
Local Open Scope Z_scope.

(** The three formats of regions; a tracker announces a set of them, given as bits 1, 2 and 3 of a number. *)
Inductive format := Rectangle | Polygon | Pixels.
Definition announces (set : Z) (f : format) : bool := Z.testbit set (match f with Rectangle => 1 | Polygon => 2 | Pixels => 3 end).
Definition in_format (f : format) (r : region) : Prop :=
  match f, r with
  | Rectangle, RRect _ _ _ _ | Polygon, RPoly _ | Pixels, RMask _ _ _ _ _ => True
  | _, _ => False
  end.
(** The format for regions whose own format was not announced: masks are preferred to polygons, polygons to rectangles. *)
Definition preferred (set : Z) : format :=
  if announces set Pixels then Pixels else if announces set Polygon then Polygon else Rectangle.
(** The region is in an announced format. *)
Definition acceptable (set : Z) (r : region) : Prop := exists f, announces set f = true /\ in_format f r.

(** Points with integer coordinates, and corner points of a box. *)
Definition int_point (p : spec_float * spec_float) (q : Z * Z) : Prop := is_int (fst p) (fst q) /\ is_int (snd p) (snd q).
Definition corners (l t r b : Z) : list (Z * Z) := [(l, t); (r, t); (r, b); (l, b)].
(** The smallest interval with integer ends that contains these coordinates has the ends [a] and [b], and both are attained. *)
Definition extent (cs : list spec_float) (a b : Z) : Prop :=
  Forall (fun c => a * 2 ^ 1074 <= units c <= b * 2 ^ 1074) cs /\ (exists c, In c cs /\ is_int c a) /\ (exists c, In c cs /\ is_int c b).

(** [q] marks the place of [r] in another format.  A rectangle at (X, Y) with sides W and H covers the pixels X .. X + W - 1
    and Y .. Y + H - 1; its polygon has the corners of this box of pixels (with the legacy rasterisation, the right and
    lower corners are one further).  A mask becomes the tight box of its set pixels.  A polygon becomes the box of its points. *)
Definition same_place (legacy : bool) (r q : region) : Prop :=
  match r, q with
  | RRect x y w h, RMask qx qy qw qh data =>
      is_int x qx /\ is_int y qy /\ is_int w qw /\ is_int h qh /\ mask_ok qw qh data /\
      forall A B, set_at qx qy qw qh data A B <-> qx <= A < qx + qw /\ qy <= B < qy + qh
  | RRect x y w h, RPoly pts =>
      exists X Y W H, is_int x X /\ is_int y Y /\ is_int w W /\ is_int h H /\
        Forall2 int_point pts (if legacy then corners X Y (X + W) (Y + H) else corners X Y (X + W - 1) (Y + H - 1))
  | RMask x y w h data, RPoly pts =>
      exists l t r b, tight_box (set_at x y w h data) l t r b /\ Forall2 int_point pts (corners l t r b)
  | RMask x y w h data, RRect qx qy qw qh =>
      exists l t r b, tight_box (set_at x y w h data) l t r b /\
        is_int qx l /\ is_int qy t /\ is_int qw (r - l + 1) /\ is_int qh (b - t + 1)
  | RPoly pts, RRect qx qy qw qh =>
      exists l t r b, extent (map fst pts) l r /\ extent (map snd pts) t b /\
        is_int qx l /\ is_int qy t /\ is_int qw (r - l) /\ is_int qh (b - t)
  | _, _ => False
  end.

(** Coordinates with integer values of magnitude at most 2^22. *)
Definition whole_coordinate (x : spec_float) : Prop := finite_float x /\ exists z, is_int x z /\ Z.abs z <= 2 ^ 22.
(** Regions within the guards: the tracker announced some format.  A region in an announced format may be any finite rectangle
    or polygon with at least three points, or a mask as in C36.  Otherwise a rectangle has integer position and positive
    integer sides, a mask a set pixel; a polygon has integer coordinates, some of them positive in both directions, and the
    tracker announced neither polygons nor masks. *)
Definition presentable (set : Z) (r : region) : Prop :=
  (exists f, announces set f = true) /\
  match r with
  | RSpecial _ => False
  | RRect x y w h =>
      finite_float x /\ finite_float y /\ finite_float w /\ finite_float h /\
      (announces set Rectangle = false ->
       exists X Y W H, is_int x X /\ is_int y Y /\ is_int w W /\ is_int h H /\ Z.abs X <= 2 ^ 22 /\ Z.abs Y <= 2 ^ 22 /\
         0 < W /\ 0 < H /\ W * H <= 2 ^ 22)
  | RPoly pts =>
      Forall point_finite pts /\ (3 <= List.length pts)%nat /\
      (announces set Polygon = false ->
       announces set Pixels = false /\ Forall (fun p => whole_coordinate (fst p) /\ whole_coordinate (snd p)) pts /\
       (exists p z, In p pts /\ is_int (fst p) z /\ 1 <= z) /\ (exists p z, In p pts /\ is_int (snd p) z /\ 1 <= z))
  | RMask x y w h data =>
      mask_ok w h data /\ exact_span x w /\ exact_span y h /\ (exists d, In d data /\ d <> 0%N) /\
      short_runs (2 ^ 24) (foreground data)
  end.
(** What the tracker gets instead of [r] *)
Definition received (legacy : bool) (set : Z) (r q : region) : Prop :=
  acceptable set q /\
  ((exists f, in_format f r /\ in_format f q /\ announces set f = true) /\ region_arrives r q \/
   (forall f, in_format f r -> announces set f = false) /\ in_format (preferred set) q /\ same_place legacy r q).
Definition object_received (legacy : bool) (set : Z) (a b : region * props) : Prop :=
  received legacy set (fst a) (fst b) /\ same_props (snd b) (snd a) /\ made (snd b).
Definition object_presentable (set : Z) (o : region * props) : Prop := presentable set (fst o) /\ clean (snd o).

(** A round of a session (version 4), the client's regions being in any format; what is seen. *)
Definition any_round (slack : nat) (m : metadata) (multi : bool) (n : nat) (r : round) : Prop :=
  cutter (rd_cut1 r) /\ cutter (rd_cut2 r) /\
  (exists ims, images_arrive slack (md_channels m) (md_image m) (rd_images r) ims) /\
  Forall (object_presentable (md_region m)) (rd_objects r) /\
  match rd_props r with Some p => clean p | None => True end /\
  (rd_init r = true -> rd_objects r <> []) /\
  (1 <= tracked n r)%nat /\ (multi = false -> (tracked n r <= 1)%nat) /\
  List.length (rd_reply r) = tracked n r /\ Forall state_sendable (rd_reply r).
Definition any_seen (legacy : bool) (slack : nat) (m : metadata) (n : nat) (r : round) (sn : seen) : Prop :=
  sn_sent sn = TRAX_OK /\ sn_event sn = (if rd_init r || Nat.eqb n 0 then TRAX_INITIALIZE else TRAX_FRAME) /\
  (exists ims, sn_images sn = Some ims /\ images_arrive slack (md_channels m) (md_image m) (rd_images r) ims) /\
  match rd_objects r with
  | [] => sn_objects sn = None
  | l => exists l', sn_objects sn = Some l' /\ Forall2 (object_received legacy (md_region m)) l l'
  end /\
  (exists p, sn_props sn = Some p /\ same_props p (given (rd_props r))) /\
  sn_replied sn = TRAX_OK /\ sn_state sn = TRAX_STATE /\
  (exists l, sn_result sn = Some l /\ objects_arrive (rd_reply r) l).
Fixpoint any_rounds (slack : nat) (m : metadata) (multi : bool) (n : nat) (rs : list round) : Prop :=
  match rs with
  | [] => True
  | r :: rs' => any_round slack m multi n r /\ any_rounds slack m multi (tracked n r) rs'
  end.
Fixpoint all_any_seen (legacy : bool) (slack : nat) (m : metadata) (n : nat) (rs : list round) (sns : list seen) : Prop :=
  match rs, sns with
  | [], [] => True
  | r :: rs', sn :: sns' => any_seen legacy slack m n r sn /\ all_any_seen legacy slack m (tracked n r) rs' sns'
  | _, _ => False
  end.

(** The same for versions 1 to 3 *)
Definition any_sround (slack : nat) (m : metadata) (r : sround) : Prop :=
  cutter (sr_cut1 r) /\ cutter (sr_cut2 r) /\
  (exists ims, images_arrive slack (md_channels m) (md_image m) (sr_images r) ims) /\
  match sr_object r with Some reg => presentable (md_region m) reg | None => True end /\
  match sr_props r with Some p => clean p | None => True end /\ state_sendable (sr_reply r).
Definition any_srounds (slack : nat) (m : metadata) (rs : list sround) : Prop :=
  Forall (any_sround slack m) rs /\ match rs with [] => True | r :: _ => sr_object r <> None end.
Definition any_sseen (legacy : bool) (slack : nat) (m : metadata) (r : sround) (sn : sseen) : Prop :=
  ss_sent sn = TRAX_OK /\ ss_event sn = (match sr_object r with Some _ => TRAX_INITIALIZE | None => TRAX_FRAME end) /\
  (exists ims, ss_images sn = Some ims /\ images_arrive slack (md_channels m) (md_image m) (sr_images r) ims) /\
  match sr_object r with
  | Some reg => exists reg', ss_region sn = Some reg' /\ received legacy (md_region m) reg reg'
  | None => ss_region sn = None
  end /\
  (exists p, ss_props sn = Some p /\ same_props p (given (sr_props r))) /\
  ss_replied sn = TRAX_OK /\ ss_state sn = TRAX_STATE /\
  (exists l, ss_result sn = Some l /\ objects_arrive [sr_reply r] l).

(** Sample data: trackers for rectangles only and for polygons only, and a session whose client has masks and rectangles;
    objects for the counterexamples. *)
Definition tracker_for (set : Z) : metadata := mkMeta set 1 1 None None None props_create (Some TRAX_METADATA_MULTI_OBJECT).
Definition one_picture : image_list := [sample_path (str "/a.jpg"); None; None].
Definition whole_rect (x y w h : Z) : region := RRect (fl x) (fl y) (fl w) (fl h).
Definition present (objs : list region) : round :=
  mkRound true one_picture (map (fun r => (r, props_create)) objs) None (map (fun _ => (RSpecial 0, props_create)) objs) byte_cut whole_cut.
Definition sample_any : list round :=
  [present [sample_mask; whole_rect (-3) 10 20 30];
   mkRound false one_picture [(whole_rect 0 0 1 1, props_create)] None
     [(sample_mask, props_create); (sample_poly, props_create); (RSpecial 2, props_create)] whole_cut byte_cut].
Definition square : region := RPoly [(fl 0, fl 0); (fl 4, fl 0); (fl 4, fl 4); (fl 0, fl 4)].
Definition segment : region := RPoly [(fl 1, fl 2); (fl 3, fl 4)].
Definition distant_square : region := RPoly [(fl 5, fl 0); (fl 9, fl 0); (fl 9, fl 4); (fl 5, fl 4)].
Definition negative_triangle : region := RPoly [(fl (-5), fl (-5)); (fl (-3), fl (-5)); (fl (-3), fl (-2))].
Definition sample_any_single : list sround :=
  [mkSround (Some sample_mask) one_picture None (RSpecial 0, props_create) byte_cut whole_cut;
   mkSround None one_picture None (sample_mask, props_create) whole_cut byte_cut;
   mkSround (Some square) one_picture None (sample_poly, props_create) whole_cut byte_cut].
