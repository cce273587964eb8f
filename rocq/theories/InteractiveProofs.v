(** The example trackers *)
From Verif Require Import CBase StrMap Props PropsSpec StrMapProofs PropsProofs Buffer BufferProofs Message MessageSpec MessageProofs MessageApi
  Num NumSpec FloatProofs BoundsProofs Region RegionSpec RegionGeom GeomSpec Image Formats FormatsSpec FormatsProofs Handle SessionSpec HandleProofs SessionProofs HandshakeProofs SendableProofs
  ListsSpec ListsProofs HistorySpec HistoryProofs NegotiateProofs GeomProofs CppSession CppSessionSpec CppSessionProofs OpenCv OpenCvProofs Interactive InteractiveSpec.
Local Open Scope Z_scope.

(** ---- rectangles with integers ---- *)
Definition within (k : Z) (r : Z * Z * Z * Z) : Prop := let '(x, y, w, h) := r in Z.abs x <= k /\ Z.abs y <= k /\ Z.abs w <= k /\ Z.abs h <= k.
Lemma close_same x z y : fint x z -> coord_close y x -> y = x.
Proof.
  intros I H. destruct (H (proj1 I)) as [_ C]. apply C. right. destruct I as [_ (_ & _ & V)].
  exists (16 * z). rewrite <- Z.mul_assoc. f_equal. exact V.
Qed.
Lemma plain_arrives r : within (2 ^ 24) r -> region_arrives (plain_rect r) (plain_rect r).
Proof.
  destruct r as [[[x y] w] h]. intros (Hx & Hy & Hw & Hh). cbn [plain_rect].
  pose proof (fint_of_int x Hx) as Fx. pose proof (fint_of_int y Hy) as Fy. pose proof (fint_of_int w Hw) as Fw. pose proof (fint_of_int h Hh) as Fh.
  destruct (rect_arrives _ _ _ _ (proj1 Fx) (proj1 Fy) (proj1 Fw) (proj1 Fh)) as (a & b & c & d & A & C1 & C2 & C3 & C4).
  rewrite (close_same _ _ _ Fx C1), (close_same _ _ _ Fy C2), (close_same _ _ _ Fw C3), (close_same _ _ _ Fh C4) in A. exact A.
Qed.
Lemma plain_back legacy r : within (2 ^ 24) r -> region_to_rect legacy (plain_rect r) = Ok r.
Proof.
  destruct r as [[[x y] w] h]. intros (Hx & Hy & Hw & Hh). apply (rect_round_trip legacy x y w h).
  intros v [<-|[<-|[<-|[<-|[]]]]]; assumption.
Qed.
Lemma plain_shows r a : within (2 ^ 24) r -> region_arrives (plain_rect r) a -> shows r (TRAX_STATE, Some a).
Proof.
  intros H A. rewrite (arrives_unique _ _ _ A (plain_arrives r H)). destruct r as [[[x y] w] h]. destruct H as (Hx & Hy & Hw & Hh).
  split; [reflexivity|]. do 4 eexists. split; [reflexivity|]. split; [|split; [|split]]; apply fint_int, fint_of_int; assumption.
Qed.
Lemma plain_whole r : whole (plain_rect r).
Proof. destruct r as [[[x y] w] h]. exact Logic.I. Qed.

(** ---- a request ---- *)
Definition example_metadata (rf imf : Z) : metadata := mkMeta rf imf 1 None None None props_create (Some 0).
Lemma example_ok rf imf : metadata_ok (example_metadata rf imf) 0.
Proof.
  split; [unfold TRAX_VERSION; lia|]. split; [exact SessionProofs.clean_create|]. cbn [example_metadata md_custom md_name md_description md_family md_channels md_flags]. split.
  - intros k v G. rewrite (props_get_spec _ _ props_create_ok) in G. unfold props_create in G. rewrite sm_new_lookup in G. discriminate.
  - split; [repeat (apply Forall_cons; [exact Logic.I|]); apply Forall_nil|]. split; [lia|discriminate].
Qed.
(** the image of the file arrives *)
Lemma file_arrives slack imf p : supports imf TRAX_IMAGE_PATH = true -> text_ok p = true ->
  exists i, images_arrive slack 1 imf (color_image p) [Some i; None; None] /\ i_type i = TRAX_IMAGE_PATH /\ image_get_path i = Ok p.
Proof.
  intros S T. destruct (path_arrives slack p _ T (ImageProofs.path_image p)) as (i & A & Ti & P). exists i. split; [|now split].
  unfold color_image. rewrite (ImageProofs.path_image p). split; [reflexivity|]. split; [reflexivity|]. intros k Hk.
  destruct k as [|[|[|k]]]; [| | |lia]; [|reflexivity|reflexivity]. eexists. exists i. split; [reflexivity|]. split; [reflexivity|]. split; [exact A|]. now rewrite Ti.
Qed.
Lemma image_unique slack i a b : image_arrives slack i a -> image_arrives slack i b -> a = b.
Proof. intros (t & E & _ & D) (t' & E' & _ & D'). rewrite E in E'. injection E' as <-. rewrite D in D'. now injection D'. Qed.
Lemma color_unique slack imf p i ims : images_arrive slack 1 imf (color_image p) [Some i; None; None] -> images_arrive slack 1 imf (color_image p) ims -> color (Some ims) = Some i.
Proof.
  intros (_ & _ & A) (_ & _ & B). destruct (A 0%nat ltac:(lia)) as (x & x' & X1 & X2 & X3 & _). destruct (B 0%nat ltac:(lia)) as (y & y' & Y1 & Y2 & Y3 & _).
  cbn [nth] in X2. injection X2 as <-. rewrite X1 in Y1. injection Y1 as <-. cbn [color]. rewrite Y2. f_equal. exact (image_unique _ _ _ _ Y3 X3).
Qed.

(** ---- one round of the C++ session ---- *)
Lemma cround_step legacy slack m multi n c s r : client_side m multi n c -> server_side m multi n s -> 1 <= md_channels m <= 7 -> cround_ok slack m r -> (n <= 1)%nat ->
  n = 1%nat \/ cr_start r <> None ->
  exists c' s' csn, cpp_round false legacy slack c s r = Ok (c', s', csn) /\ cseen_ok slack m r csn /\ client_side m multi 1 c' /\ server_side m multi 1 s'.
Proof.
  intros Hc Hs Hch Hr Hle Hn.
  assert (Hm : rounds_ok slack m multi n [to_round r]).
  { apply (rounds_map slack m multi [r]); [now constructor|exact Hle|exact Hn]. }
  destruct Hm as [Hm _].
  assert (T : tracked n (to_round r) = 1%nat).
  { unfold tracked, to_round, objects_of. cbn [rd_init rd_objects]. destruct (cr_start r); [reflexivity|]. cbn [List.length]. destruct Hn as [->|Hn]; [reflexivity|now elim Hn]. }
  destruct (round_delivers legacy slack m multi n c s (to_round r) Hc Hs Hch Hm) as (c' & s' & sn & E & Hc' & Hs' & Sn). rewrite T in Hc', Hs'.
  destruct (mot_round legacy slack m n c s c' s' r sn Hr) as (csn & F & G & _); [|exact E|exact Sn|].
  { intros X. destruct Hn as [->|Hn]; [discriminate|now elim Hn]. }
  exists c', s', csn. auto.
Qed.
Lemma cpp_parts legacy slack c s r c' s' sn : cpp_round false legacy slack c s r = Ok (c', s', sn) ->
  exists sent c1 event s1 images reg p replied q state answer q',
    request legacy c (cr_start r) (cr_images r) (cr_props r) = Ok (sent, c1) /\
    cpp_server_wait (match cr_start r with Some _ => 4 | None => 3 end) slack (arrive (cr_cut1 r) (written c c1) s) None props_create = Ok (event, s1, images, reg, p) /\
    cpp_reply s1 (cr_reply r) (cr_reply_props r) = Ok (replied, s', q) /\
    cpp_client_wait (arrive (cr_cut2 r) (written s1 s') c1) None props_create = Ok (state, c', answer, q') /\
    sn = mkCseen sent event images reg p replied state answer q'.
Proof.
  unfold cpp_round. fold (request legacy c (cr_start r) (cr_images r) (cr_props r)). intros E.
  destruct (request legacy c (cr_start r) (cr_images r) (cr_props r)) as [[sent c1]| | |]; try discriminate. cbn [obind] in E. cbv zeta in E.
  destruct (cpp_server_wait _ _ _ _ _) as [[[[[event s1] images] reg] p]| | |] eqn:E2; try discriminate. cbn [obind] in E.
  destruct (cpp_reply s1 (cr_reply r) (cr_reply_props r)) as [[[replied s2] q]| | |] eqn:E3; try discriminate. cbn [obind] in E.
  destruct (cpp_client_wait _ _ _) as [[[[state c2] answer] q']| | |] eqn:E4; try discriminate. cbn [obind] in E.
  injection E as <- <- <-. do 12 eexists. split; [reflexivity|]. split; [exact E2|]. split; [exact E3|]. split; [exact E4|reflexivity].
Qed.
Lemma wait_keeps fuel slack h reg p event h' images reg' p' : cpp_server_wait fuel slack h None p = Ok (event, h', images, reg', p') ->
  cpp_server_wait fuel slack h reg p = Ok (event, h', images, match reg' with Some r => Some r | None => reg end, p').
Proof.
  unfold cpp_server_wait. destruct (server_wait_mot fuel slack h None (Some p)) as [[[[[result h1] ims] objects] p0]| | |]; try discriminate. cbn [obind].
  destruct objects as [[|[r q] [|]]|]; cbn [single_object obind]; intros E; try (injection E as <- <- <- <- <-; reflexivity).
  destruct (region_clone r); try discriminate. cbn [obind] in *. destruct (props_append q (dictionary p0) false); try discriminate. cbn [obind] in *.
  injection E as <- <- <- <- <-. reflexivity.
Qed.
Lemma wait_quiet fuel slack h reg p event h' images reg' p' : cpp_server_wait fuel slack h reg p = Ok (event, h', images, reg', p') -> h_out h' = h_out h.
Proof.
  unfold cpp_server_wait. destruct (server_wait_mot fuel slack h None (Some p)) as [[[[[result h1] ims] objects] p0]| | |] eqn:E; try discriminate. cbn [obind]. intros F.
  assert (O : h_out h1 = h_out h).
  { unfold server_wait_mot in E. destruct (negb (h_server h)); [discriminate|]. cbv zeta in E. destruct (negb (alive (clear_error h))); [inv_ok E; reflexivity|].
    destruct (image_list_count _); try discriminate. cbn [obind] in E. apply wait_mot_loop_quiet in E as [E _]. exact E. }
  destruct objects as [[|[r q] [|]]|]; cbn [single_object obind] in F; try (injection F as _ <- _ _ _; exact O).
  destruct (region_clone r); try discriminate. cbn [obind] in F. destruct (props_append q (dictionary p0) false); try discriminate. cbn [obind] in F.
  injection F as _ <- _ _ _. exact O.
Qed.

(** ---- one turn ---- *)
Definition as_cround (q : turn) (reply : region) : cround :=
  mkCround (option_map plain_rect (tn_start q)) (color_image (tn_file q)) (tn_props q) reply props_create (tn_cut1 q) (tn_cut2 q).
Lemma small_within x y w h : small x -> small y -> small w -> small h -> within (2 ^ 20) (x, y, w, h).
Proof. intros A B C D. repeat split; assumption. Qed.
Lemma within_le a b r : a <= b -> within a r -> within b r.
Proof. destruct r as [[[x y] w] h]. intros H (A & B & C & D). refine (conj _ (conj _ (conj _ _))); lia. Qed.
Lemma turn_cround f slack rf imf q r : supports rf TRAX_REGION_RECTANGLE = true -> supports imf TRAX_IMAGE_PATH = true -> turn_ok f q -> within (2 ^ 24) r ->
  cround_ok slack (example_metadata rf imf) (as_cround q (plain_rect r)).
Proof.
  intros Hrf Himf (C1 & C2 & T & _ & P & St & _) Hr. unfold cround_ok, as_cround. cbn [cr_cut1 cr_cut2 cr_images cr_start cr_props cr_reply cr_reply_props example_metadata md_channels md_image md_region].
  split; [exact C1|]. split; [exact C2|]. split; [destruct (file_arrives slack imf _ Himf T) as (i & A & _); now exists [Some i; None; None]|].
  split.
  - destruct (tn_start q) as [[[[x y] w] h]|]; [|exact Logic.I]. destruct St as (S1 & S2 & S3 & S4). cbn [option_map].
    split; [intros c; discriminate|]. split; [exact Hrf|]. split; [apply plain_whole|]. eexists. apply plain_arrives. apply (within_le (2 ^ 20)); [lia|]. now apply small_within.
  - split; [exact P|]. split; [apply plain_whole|]. split; [eexists; apply plain_arrives; exact Hr|exact SessionProofs.clean_create].
Qed.
(** the size is within 2^20, the place within 2^21 *)
Definition held (r : Z * Z * Z * Z) : Prop := let '(x, y, w, h) := r in Z.abs x <= 2 ^ 21 /\ Z.abs y <= 2 ^ 21 /\ Z.abs w <= 2 ^ 20 /\ Z.abs h <= 2 ^ 20.
Lemma quot_small w : Z.abs w <= 2 ^ 20 -> Z.abs (Z.quot w 2) <= 2 ^ 19.
Proof. intros H. pose proof (Z.quot_rem' w 2). pose proof (Z.rem_bound_abs w 2 ltac:(lia)). change (2 ^ 20) with 1048576 in *. change (2 ^ 19) with 524288. change (Z.abs 2) with 2 in *. lia. Qed.
Lemma current_held f last q : turn_ok f q -> held last -> held (current last q).
Proof.
  intros (_ & _ & _ & _ & _ & St & _) H. unfold current. destruct (tn_start q) as [[[[x y] w] h]|]; [|exact H]. unfold small in St. cbn [held]. change (2 ^ 21) with 2097152. change (2 ^ 20) with 1048576 in *. lia.
Qed.
Lemma user_marked f last q : turn_ok f q -> held last ->
  exists b, user (current last q) (tn_user q) = Ok (marked last q, b) /\ (tn_user q <> Key -> b = true) /\ (tn_user q = Key -> b = false) /\ held (marked last q).
Proof.
  intros Hq H. pose proof (current_held f last q Hq H) as Hc. destruct Hq as (_ & _ & _ & _ & _ & _ & Hu). unfold marked, user.
  destruct (current last q) as [[[x y] w] h]. destruct (tn_user q) as [cx cy|].
  - destruct Hu as [U1 U2]. destruct Hc as (_ & _ & W & K). pose proof (quot_small w W). pose proof (quot_small h K). unfold small in *.
    assert (B : Z.abs (cx - Z.quot w 2) <= 2 ^ 21 /\ Z.abs (cy - Z.quot h 2) <= 2 ^ 21) by (change (2 ^ 21) with 2097152; change (2 ^ 20) with 1048576 in *; change (2 ^ 19) with 524288 in *; lia).
    unfold int_result. rewrite !in_int_of by (change (2 ^ 21) with 2097152 in *; unfold INT_MIN, INT_MAX; lia). cbn [obind].
    exists true. split; [reflexivity|]. split; [reflexivity|]. split; [discriminate|]. cbn [held]. tauto.
  - exists false. split; [reflexivity|]. split; [congruence|]. split; [reflexivity|exact Hc].
Qed.
Lemma drawings_ok r : held r -> drawings r = Ok tt.
Proof.
  destruct r as [[[x y] w] h]. intros (A & B & C & D). pose proof (quot_small w C). pose proof (quot_small h D). unfold drawings, int_result.
  rewrite !in_int_of by (change (2 ^ 21) with 2097152 in *; change (2 ^ 20) with 1048576 in *; change (2 ^ 19) with 524288 in *; unfold INT_MIN, INT_MAX; lia). reflexivity.
Qed.
Lemma held_within r : held r -> within (2 ^ 24) r.
Proof. destruct r as [[[x y] w] h]. intros (A & B & C & D). change (2 ^ 21) with 2097152 in *; change (2 ^ 20) with 1048576 in *. cbn [within]. change (2 ^ 24) with 16777216. lia. Qed.

Lemma turn_shows f legacy slack rf imf n c v q : supports rf TRAX_REGION_RECTANGLE = true -> supports imf TRAX_IMAGE_PATH = true -> turn_ok f q ->
  client_side (example_metadata rf imf) false n c -> server_side (example_metadata rf imf) false n (v_handle v) -> (n <= 1)%nat -> n = 1%nat \/ tn_start q <> None -> held (v_rect v) ->
  exists c' v' code b sn, interactive_turn f legacy slack c v q = Ok (c', Replied code b v', sn) /\ shows (marked (v_rect v) q) sn /\ v_rect v' = marked (v_rect v) q /\ held (v_rect v') /\
    client_side (example_metadata rf imf) false 1 c' /\ server_side (example_metadata rf imf) false 1 (v_handle v') /\ (tn_user q <> Key -> b = true) /\ (tn_user q = Key -> b = false).
Proof.
  intros Hrf Himf Hq Hc Hs Hle Hn Hh. set (m := example_metadata rf imf) in *.
  assert (Hn' : forall r, n = 1%nat \/ cr_start (as_cround q r) <> None). { intros r. destruct Hn as [Hn|Hn]; [now left|right]. cbn [as_cround cr_start]. destruct (tn_start q); [discriminate|now elim Hn]. }
  destruct (user_marked f _ q Hq Hh) as (b & U & U1 & U2 & Hm). pose proof (current_held f _ q Hq Hh) as Hcur.
  destruct (cround_step legacy slack m false n c (v_handle v) (as_cround q (plain_rect (marked (v_rect v) q))) Hc Hs ltac:(cbn; lia)
    (turn_cround f slack rf imf q _ Hrf Himf Hq (held_within _ Hm)) Hle (Hn' _)) as (c' & s' & sn & E & Sn & Hc' & Hs').
  destruct (cpp_parts _ _ _ _ _ _ _ _ E) as (sent & c1 & event & s1 & images & reg & p & replied & q0 & state & answer & q' & E1 & E2 & E3 & E4 & ->).
  destruct Sn as (_ & Ev & (ims & Ei & Ai) & Rg & _ & _ & St & (ra & Ra & Aa)).
  cbn [cs_event cs_images cs_region cs_state cs_answer as_cround cr_start cr_images cr_reply cr_cut1 cr_cut2 cr_props cr_reply_props] in *. subst event images state answer.
  destruct Hq as (C1 & C2 & T & Rd & P & Hst & Hu). destruct (file_arrives slack imf _ Himf T) as (i & Ai' & Ti & Pi).
  pose proof (color_unique _ _ _ _ _ Ai' Ai) as Col.
  assert (Pic : picture f (Some i) = Ok (Some true)). { unfold picture. rewrite Ti. change (TRAX_IMAGE_PATH =? TRAX_IMAGE_PATH) with true. cbv iota. rewrite Pi. cbn [obind]. now rewrite Rd. }
  assert (Sh : forall reg, interactive_show f s1 reg (current (v_rect v) q) (Some i) (tn_user q) = Ok (Replied replied b (mkInteractive s' reg (marked (v_rect v) q)))).
  { intros reg0. unfold interactive_show. rewrite Pic. cbn [obind]. rewrite (drawings_ok _ Hcur). cbn [obind]. rewrite U. cbn [obind].
    destruct (marked (v_rect v) q) as [[[mx my] mw] mh]. change (rect_to_region mx my mw mh) with (plain_rect (mx, my, mw, mh)). rewrite E3. reflexivity. }
  exists c', (mkInteractive s' (match reg with Some r => Some r | None => v_region v end) (marked (v_rect v) q)), replied, b, (TRAX_STATE, Some ra).
  split; [|split; [apply (plain_shows _ _ (held_within _ Hm) Aa)|split; [reflexivity|split; [exact Hm|split; [exact Hc'|split; [exact Hs'|split; [exact U1|exact U2]]]]]]].
  unfold interactive_turn. rewrite E1. cbn [obind]. unfold interactive_pass. cbn [v_handle v_region v_rect].
  replace (match tn_start q with Some _ => 4%nat | None => 3%nat end) with (match option_map plain_rect (tn_start q) with Some _ => 4%nat | None => 3%nat end) by (destruct (tn_start q); reflexivity).
  pose proof (wait_keeps _ _ _ (v_region v) _ _ _ _ _ _ E2) as K. rewrite K. cbn [obind]. pose proof (wait_quiet _ _ _ _ _ _ _ _ _ _ K) as Q.
  assert (Wr : written (v_handle v) s' = written s1 s'). { unfold written. now rewrite Q. }
  destruct (tn_start q) as [st|] eqn:Es; cbn [option_map] in *.
  - destruct Rg as (rr & -> & Ar). change (TRAX_INITIALIZE =? TRAX_INITIALIZE) with true. cbv iota.
    assert (Wi : within (2 ^ 24) st). { destruct st as [[[x y] w] h]. destruct Hst as (S1 & S2 & S3 & S4). apply (within_le (2 ^ 20)); [lia|]. now apply small_within. }
    rewrite (arrives_unique _ _ _ Ar (plain_arrives st Wi)), (plain_back legacy st Wi). cbn [obind]. rewrite Col.
    assert (Cu : st = current (v_rect v) q) by (unfold current; now rewrite Es). rewrite Cu, Sh. cbn [obind interactive_output v_handle]. rewrite Wr, E4. cbn [obind]. reflexivity.
  - cbn [region_there] in Rg. subst reg. change (TRAX_FRAME =? TRAX_INITIALIZE) with false. change (TRAX_FRAME =? TRAX_FRAME) with true. cbv iota. rewrite Col.
    assert (Cu : v_rect v = current (v_rect v) q) by (unfold current; now rewrite Es). rewrite Cu at 1. rewrite Sh. cbn [obind interactive_output v_handle]. rewrite Wr, E4. cbn [obind]. reflexivity.
Qed.

(** ---- a session ---- *)
Lemma turns_show f legacy slack rf imf : supports rf TRAX_REGION_RECTANGLE = true -> supports imf TRAX_IMAGE_PATH = true -> forall qs n c v,
  Forall (turn_ok f) qs -> going_on qs -> n = 1%nat \/ match qs with [] => True | q :: _ => tn_start q <> None end -> (n <= 1)%nat ->
  client_side (example_metadata rf imf) false n c -> server_side (example_metadata rf imf) false n (v_handle v) -> held (v_rect v) ->
  exists sns, interactive_turns f legacy slack c v qs = Ok sns /\ shows_all (v_rect v) qs sns.
Proof.
  intros Hrf Himf. induction qs as [|q qs IH]; intros n c v Hq Hg Hn Hle Hc Hs Hh; [exists []; split; [reflexivity|exact Logic.I]|].
  inversion Hq as [|? ? Hq1 Hq2]; subst. destruct (turn_shows f legacy slack rf imf n c v q Hrf Himf Hq1 Hc Hs Hle Hn Hh)
    as (c' & v' & code & b & sn & E & Sh & Rv & Hh' & Hc' & Hs' & K1 & K2).
  cbn [interactive_turns]. rewrite E. cbn [obind]. destruct qs as [|q2 qs].
  - destruct b; cbn [interactive_turns obind]; exists [sn]; (split; [reflexivity|]); split; try exact Sh; exact Logic.I.
  - destruct Hg as [G1 G2]. rewrite (K1 G1). destruct (IH 1%nat c' v' Hq2 G2 (or_introl eq_refl) (le_n 1) Hc' Hs' Hh') as (sns & E' & Sa). rewrite E'. cbn [obind].
    exists (sn :: sns). split; [reflexivity|]. rewrite Rv in Sa. split; [exact Sh|exact Sa].
Qed.
Lemma example_sides rf imf cut sched_s sched_c : cutter cut -> no_error sched_s -> no_error sched_c ->
  exists c s, connect (example_metadata rf imf) 0 cut sched_s sched_c = Ok (Some (c, s)) /\
    client_side (example_metadata rf imf) false 0 c /\ server_side (example_metadata rf imf) false 0 s.
Proof.
  intros Hcut Hs Hc. pose proof (example_ok rf imf) as Hm.
  destruct (connect_ok _ 0 cut sched_s sched_c Hm Hcut Hs Hc) as (c & s & E & Vc & Vs & Hcv & A1 & A2 & A3 & A4 & A5 & A6 & A7 & A8 & A9 & A10 & A11 & A12 & A13).
  destruct Hcv as (B1 & B2 & B3 & B4 & B5 & B6 & B7 & B8). change (spoken 0 =? 1) with false in B3. cbv iota in B3.
  assert (Mu : multi_object (example_metadata rf imf) 0 = false) by reflexivity. rewrite Mu in *.
  exists c, s. split; [exact E|]. split.
  - unfold client_side. split; [exact A1|]. split; [exact A3|]. split; [unfold is_version_4; rewrite Vc; reflexivity|]. split; [exact B1|]. split; [exact B3|].
    split; [unfold is_multi_object; rewrite B8; reflexivity|]. split; [exact A5|]. split; [exact A9|exact A7].
  - unfold server_side. split; [exact A2|]. split; [exact A4|]. split; [exact A11|]. split; [exact A12|]. split; [apply A13; reflexivity|]. split; [exact A6|]. split; [exact A10|exact A8].
Qed.
Lemma interactive_session f legacy slack rf imf m cut sched_s sched_c qs : configuration rf imf = Ok m -> Z.testbit rf 1 = true -> Z.testbit imf 0 = true ->
  cutter cut -> no_error sched_s -> no_error sched_c -> turns_ok f qs ->
  exists c s sns, connect m 0 cut sched_s sched_c = Ok (Some (c, s)) /\ interactive_turns f legacy slack c (interactive_start s) qs = Ok sns /\ shows_all (0, 0, 0, 0) qs sns.
Proof.
  intros Em Hrf Himf Hcut Hs Hc (Q1 & Q2 & Q3). injection Em as <-. fold (example_metadata rf imf).
  destruct (example_sides rf imf cut sched_s sched_c Hcut Hs Hc) as (c & s & E & C & S0). exists c, s.
  assert (R1 : supports rf TRAX_REGION_RECTANGLE = true) by (rewrite <- Hrf; exact (supports_announces rf NegotiateSpec.Rectangle)).
  assert (R2 : supports imf TRAX_IMAGE_PATH = true).
  { rewrite <- Himf. exact (supports_bit imf 0 (Z.le_refl 0)). }
  destruct (turns_show f legacy slack rf imf R1 R2 qs 0%nat c (interactive_start s) Q1 Q2 (or_intror Q3) (le_S _ _ (le_n 0)) C S0) as (sns & E' & Sa).
  - cbn. lia.
  - exists sns. split; [exact E|]. split; [exact E'|exact Sa].
Qed.

(** ---- the configuration of the programs ---- *)
Lemma read_meta h r h' : handle_read h = Ok (r, h') -> h_meta h' = h_meta h.
Proof. unfold handle_read. destruct (read_message _ _ _); try discriminate. cbn [obind]. intros E. injection E as _ <-. reflexivity. Qed.
Lemma decoded_color slack formats args ims : decode_images slack 1 formats channel_ids args = Ok (Some ims) -> exists i, color (Some ims) = Some i /\ supports formats (i_type i) = true.
Proof.
  unfold channel_ids. cbn [decode_images]. change (supports 1 TRAX_CHANNEL_COLOR) with true. change (supports 1 TRAX_CHANNEL_DEPTH) with false. change (supports 1 TRAX_CHANNEL_IR) with false. cbv iota.
  destruct args as [|a args]; [discriminate|]. destruct (image_decode slack a) as [[i|]| | |]; try discriminate. cbn [obind]. destruct (supports formats (i_type i)) eqn:S; [|discriminate].
  cbn [obind option_map]. intros E. injection E as <-. exists i. now split.
Qed.
Lemma mot_failure_error h objs p code h' l o q : mot_failure h objs p = Ok (code, h', l, o, q) -> code = TRAX_ERROR.
Proof. unfold mot_failure. destruct (existsb _ _); [discriminate|]. intros E. now inv_ok E. Qed.
Lemma mot_end_images result h images objs p code h' l o q : mot_end result h images objs p = Ok (code, h', l, o, q) -> code = result /\ l = images.
Proof. unfold mot_end. destruct objs; [intros E; inv_ok E; auto|]. destruct (mot_objects _); try discriminate. cbn [obind]. intros E. inv_ok E. auto. Qed.
Lemma loop_color slack argc fuel formats : forall h result objs p code h' l o q, md_channels (h_meta h) = 1 -> md_image (h_meta h) = formats ->
  wait_mot_loop fuel slack argc h None result objs p = Ok (code, h', l, o, q) -> code = TRAX_INITIALIZE \/ code = TRAX_FRAME ->
  exists i, color l = Some i /\ supports formats (i_type i) = true.
Proof.
  induction fuel as [|fuel IH]; intros h result objs p code h' l o q Hch Hf E C; cbn [wait_mot_loop] in E; [discriminate|].
  destruct (handle_read h) as [[r h1]| | |] eqn:Er; try discriminate. cbn [obind] in E. apply read_meta in Er. rewrite <- Er in Hch, Hf.
  assert (Fa : forall h objs, mot_failure h objs p = Ok (code, h', l, o, q) -> exists i, color l = Some i /\ supports formats (i_type i) = true).
  { intros h0 l0 X. apply mot_failure_error in X. subst code. destruct C; discriminate. }
  destruct (rr_type r) as [[| | | |]|]; [| | | | |exact (Fa _ _ E)].
  - exact (IH _ _ _ _ _ _ _ _ _ Hch Hf E C).
  - destruct (rr_args r) as [|a [|? ?]]; [| |exact (Fa _ _ E)].
    + exact (IH (set_objects h1 0) _ _ _ _ _ _ _ _ Hch Hf E C).
    + destruct (region_parse a) as [[[|] reg]| | |]; try discriminate; cbn [obind] in E; [|exact (Fa _ _ E)].
      destruct (copy_properties _ _ _); try discriminate. cbn [obind] in E. exact (IH _ _ _ _ _ _ _ _ _ Hch Hf E C).
  - destruct (_ && _); [exact (Fa _ _ E)|]. destruct (negb (_ =? argc)); [exact (Fa _ _ E)|]. rewrite Hch, Hf in E.
    destruct (decode_images _ _ _ _ _) as [[ims|]| | |] eqn:D; try discriminate; cbn [obind] in E; [|exact (Fa _ _ E)].
    destruct (copy_out _ _ _); try discriminate. cbn [obind] in E. apply mot_end_images in E as (_ & ->). exact (decoded_color _ _ _ _ D).
  - destruct (negb (_ =? 0)); [exact (Fa _ _ E)|]. destruct (copy_out _ _ _); try discriminate. cbn [obind] in E.
    apply mot_end_images in E as (-> & _). destruct C; discriminate.
  - exact (IH _ _ _ _ _ _ _ _ _ Hch Hf E C).
Qed.
Lemma wait_color fuel slack formats h reg p code h' l reg' q : md_channels (h_meta h) = 1 -> md_image (h_meta h) = formats ->
  cpp_server_wait fuel slack h reg p = Ok (code, h', l, reg', q) -> code = TRAX_INITIALIZE \/ code = TRAX_FRAME ->
  exists i, color l = Some i /\ supports formats (i_type i) = true.
Proof.
  intros Hch Hf. unfold cpp_server_wait. destruct (server_wait_mot fuel slack h None (Some p)) as [[[[[result h1] ims] objects] p0]| | |] eqn:E; try discriminate. cbn [obind]. intros F C.
  assert (K : result = TRAX_INITIALIZE \/ result = TRAX_FRAME -> exists i, color ims = Some i /\ supports formats (i_type i) = true).
  { intros C'. unfold server_wait_mot in E. destruct (negb (h_server h)); [discriminate|]. cbv zeta in E. destruct (negb (alive (clear_error h))); [inv_ok E; destruct C'; discriminate|].
    destruct (image_list_count _); try discriminate. cbn [obind] in E. exact (loop_color _ _ _ _ (clear_error h) _ _ _ _ _ _ _ _ Hch Hf E C'). }
  destruct objects as [[|[r q1] [|]]|]; cbn [single_object obind] in F.
  - injection F as <- _ <- _ _. now apply K.
  - destruct (region_clone r); try discriminate. cbn [obind] in F. destruct (props_append q1 (dictionary p0) false); try discriminate. cbn [obind] in F. injection F as <- _ <- _ _. now apply K.
  - injection F as <- _ _ _ _. destruct C; discriminate.
  - injection F as <- _ <- _ _. now apply K.
Qed.
Lemma url_unseen f i : supports 2 (i_type i) = true -> picture f (Some i) = Ok (Some false).
Proof.
  intros S. unfold picture. destruct (i_type i =? TRAX_IMAGE_PATH) eqn:E1; [apply Z.eqb_eq in E1; rewrite E1 in S; discriminate S|].
  destruct (i_type i =? TRAX_IMAGE_MEMORY) eqn:E2; [apply Z.eqb_eq in E2; rewrite E2 in S; discriminate S|].
  destruct (i_type i =? TRAX_IMAGE_BUFFER) eqn:E3; [apply Z.eqb_eq in E3; rewrite E3 in S; discriminate S|]. reflexivity.
Qed.
Lemma show_unseen f h reg r i a x : supports 2 (i_type i) = true -> interactive_show f h reg r (Some i) a = Ok x -> x = Died.
Proof. intros S. unfold interactive_show. rewrite (url_unseen f i S). cbn [obind]. destruct (drawings r); try discriminate. cbn [obind]. intros E. now injection E. Qed.
Lemma interactive_silent m cut sched_s sched_c c s : example_configuration = Ok m -> cutter cut -> no_error sched_s -> no_error sched_c -> connect m 0 cut sched_s sched_c = Ok (Some (c, s)) ->
  forall f legacy fuel slack bytes cut' a x, interactive_pass f legacy fuel slack (interactive_start (arrive cut' bytes s)) a = Ok x -> silent s x.
Proof.
  intros Em Hcut H1 H2 Ec f legacy fuel slack bytes cut' a x E.
  assert (Hm : m = example_metadata 13 2) by (injection Em as Em; symmetry; exact Em). clear Em. subst m.
  destruct (example_sides 13 2 cut sched_s sched_c Hcut H1 H2) as (c0 & s0 & E0 & _ & (_ & _ & S3 & S4 & _)).
  assert (X : s0 = s) by congruence. subst s0. clear E0 Ec. cbn [example_metadata md_channels md_image] in S3, S4.
  unfold interactive_pass in E. cbn [interactive_start v_handle v_region v_rect] in E.
  destruct (cpp_server_wait fuel slack (arrive cut' bytes s) None props_create) as [[[[[tr h] images] reg] p]| | |] eqn:W; try discriminate. cbn [obind] in E.
  pose proof (wait_quiet _ _ _ _ _ _ _ _ _ _ W) as Q. pose proof (wait_color fuel slack 2 (arrive cut' bytes s) None props_create tr h images reg p S3 S4 W) as K.
  destruct (tr =? TRAX_INITIALIZE) eqn:T1.
  - apply Z.eqb_eq in T1. destruct (K (or_introl T1)) as (i & Ci & Si). destruct reg as [r|]; [|discriminate]. destruct (region_to_rect legacy r) as [q| | |]; try discriminate. cbn [obind] in E.
    rewrite Ci in E. apply (show_unseen _ _ _ _ _ _ _ Si) in E. subst x. exact Logic.I.
  - destruct (tr =? TRAX_FRAME) eqn:T2.
    + apply Z.eqb_eq in T2. destruct (K (or_intror T2)) as (i & Ci & Si). rewrite Ci in E. apply (show_unseen _ _ _ _ _ _ _ Si) in E. subst x. exact Logic.I.
    + injection E as <-. cbn [silent]. unfold written. cbn [v_handle]. rewrite Q. apply skipn_all.
Qed.

(** ---- samples ---- *)
Lemma sample_turns_ok : turns_ok any_file sample_turns.
Proof.
  split; [|split; [|discriminate]].
  - unfold sample_turns. repeat (apply Forall_cons; [split; [first [apply byte_cutter|apply whole_cutter]|]; split; [first [apply byte_cutter|apply whole_cutter]|];
      split; [reflexivity|]; split; [reflexivity|]; split; [first [apply SessionProofs.clean_create|apply clean_sample; reflexivity]|]; vm_compute; intuition discriminate|]). apply Forall_nil.
  - split; [discriminate|]. split; [discriminate|exact Logic.I].
Qed.
