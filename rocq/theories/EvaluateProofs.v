(** Proofs for C119. *)
From Verif Require Import CBase StrMap Props PropsSpec StrMapProofs PropsProofs BufferSpec Message MessageSpec Num NumSpec PropsNum Region RegionGeom RegionSpec RegionProofs Image ImageSpec ImageProofs Formats FormatsSpec FormatsProofs
  Handle SessionSpec HandleProofs SessionProofs HandshakeProofs SendableProofs ListsSpec ListsProofs PySessionProofs Static StaticSpec StaticProofs CppSession CppSessionProofs Cli CliSpec CliProofs TrajectoryProofs Evaluate EvaluateSpec.
Local Open Scope Z_scope.

(** ---- regions ---- *)
Lemma steady_thrice r : steady r -> exists r1 r2 r3, region_arrives r r1 /\ region_arrives r1 r2 /\ region_arrives r2 r3 /\ stays r r2 /\ stays r r3.
Proof.
  destruct 1 as [x y w h Hx Hy Hw Hh|pts L F|x y w h data Hx Hy Hw Hh Pw Ph Hi Hl Hd Hs].
  - destruct (rect_round_trip x y w h Hx Hy Hw Hh) as (t & x' & y' & w' & h' & E & P & E' & C1 & C2 & C3 & C4).
    assert (A : region_arrives (RRect x' y' w' h') (RRect x' y' w' h')) by (exists t; split; [exact E'|split; [exact P|exact Logic.I]]).
    exists (RRect x' y' w' h'), (RRect x' y' w' h'), (RRect x' y' w' h'). split; [exists t; split; [exact E|split; [exact P|exact Logic.I]]|].
    split; [exact A|]. split; [exact A|]. split; now constructor.
  - destruct (poly_round_trip pts L F) as (t & pts' & E & P & E' & C).
    assert (A : region_arrives (RPoly pts') (RPoly pts')) by (exists t; split; [exact E'|split; [exact P|exact Logic.I]]).
    exists (RPoly pts'), (RPoly pts'), (RPoly pts'). split; [exists t; split; [exact E|split; [exact P|exact Logic.I]]|].
    split; [exact A|]. split; [exact A|]. split; now constructor.
  - assert (K : forall d, foreground d = foreground data -> exists d', region_arrives (RMask x y w h d) (RMask x y w h d') /\ foreground d' = foreground data).
    { intros d F.
      assert (L1 : List.length d = List.length data). { pose proof (f_equal (@List.length bool) F) as G. unfold foreground in G. now rewrite !map_length in G. }
      assert (D1 : exists d0, In d0 d /\ d0 <> 0%N).
      { destruct Hd as (d0 & I0 & N0). assert (X : In true (foreground data)). { unfold foreground. apply in_map_iff. exists d0. split; [|exact I0]. destruct (d0 =? 0)%N eqn:Z0; [lia|reflexivity]. }
        rewrite <- F in X. unfold foreground in X. apply in_map_iff in X as (d' & X & Y). exists d'. split; [exact Y|]. intros ->. discriminate. }
      destruct (mask_round_trip x y w h d Hx Hy Hw Hh Hi ltac:(lia) D1 ltac:(rewrite F; exact Hs)) as (t2 & d2 & E2 & P2 & F2).
      exists d2. split; [exists t2; split; [exact E2|split; [exact P2|now split]]|congruence]. }
    destruct (K data eq_refl) as (d1 & A1 & F1). destruct (K d1 F1) as (d2 & A2 & F2). destruct (K d2 F2) as (d3 & A3 & F3).
    exists (RMask x y w h d1), (RMask x y w h d2), (RMask x y w h d3). split; [exact A1|]. split; [exact A2|]. split; [exact A3|]. split; constructor; assumption.
Qed.
Lemma steady_whole r : steady r -> whole r.
Proof. destruct 1; try exact Logic.I. cbn [whole]. split; [assumption|]. split; [assumption|]. split; [assumption|]. lia. Qed.
(** What the client sees of a region after it went to the tracker and back *)
Definition back (r r' : region) : Prop := exists r1, region_arrives r r1 /\ region_arrives r1 r'.
Lemma back_once r a b : back r a -> back r b -> a = b.
Proof. intros (x & A & B) (y & A' & B'). rewrite <- (arrives_once _ _ _ A A') in B'. exact (arrives_once _ _ _ B B'). Qed.

(** ---- one request, with more about it than StaticProofs.round_reports ---- *)
Lemma round_parts legacy slack m l c t q : md_region m = 14 -> md_image m = 15 -> 1 <= md_channels m <= 7 ->
  client_side m true (List.length l) c -> server_side m true (List.length l) (sc_handle t) -> remembers l t -> ask_ok slack (md_channels m) l q ->
  exists c1 g t' c' res, (if ask_init q then client_initialize legacy c (ask_images q) (ask_objects q) (ask_props q)
     else client_frame legacy c (ask_images q) (Some (ask_objects q)) (ask_props q)) = Ok (TRAX_OK, c1) /\
    static_wait (3 + List.length (ask_objects q)) slack (mkStatic (arrive (ask_cut1 q) (written c c1) (sc_handle t)) (sc_mem t) (sc_wait t) (sc_live t)) = Ok g /\
    static_answer (fst g) (snd g) = Ok (Some TRAX_OK, t') /\
    client_wait (arrive (ask_cut2 q) (written (sc_handle (snd g)) (sc_handle t')) c1) (Some props_create) = Ok (TRAX_STATE, c', Some res, Some props_create) /\
    Forall2 (fun o y => back (fst o) (fst y) /\ made (snd y)) (followed l q) res /\
    client_side m true (List.length (followed l q)) c' /\ server_side m true (List.length (followed l q)) (sc_handle t') /\ remembers (followed l q) t'.
Proof.
  intros R I0 Hch Hc Hs Re Hq.
  set (reply0 := repeat (RSpecial 2, props_create) (List.length (followed l q))).
  assert (K0 : round_ok slack m true (List.length l) (as_round q reply0)).
  { apply ask_round; try assumption; [|apply repeat_length]. apply Forall_forall. intros x X. apply repeat_spec in X as ->. apply special_sendable. }
  destruct (round_delivers legacy slack m true (List.length l) c (sc_handle t) _ Hc Hs Hch K0) as (c0 & s0 & sn & E0 & _ & _ & Sn).
  destruct (play_parts _ _ _ _ _ _ _ E0) as (sent & c1 & event & s1 & images & objects & p & replied0 & s20 & state0 & c20 & result0 & p20 & Es & Ew & _ & _ & Ex).
  injection Ex as -> -> ->. clear E0. pose proof Sn as (St0 & _ & _ & _ & (p' & Ep & _) & _). cbn [sn_props sn_sent] in Ep, St0. subst p sent.
  destruct (answers slack m _ q reply0 _ l t s1 p' Sn eq_refl Re Hq eq_refl) as (mem & w & Hm & An). cbn [sn_event sn_images sn_objects] in An.
  assert (K1 : round_ok slack m true (List.length l) (as_round q mem)).
  { apply ask_round; try assumption; [|exact (forall2_len _ _ _ Hm)]. clear - Hm. induction Hm as [|o x la lb H _ IH]; constructor; [exact (held_sendable o x H)|exact IH]. }
  destruct (round_delivers legacy slack m true (List.length l) c (sc_handle t) _ Hc Hs Hch K1) as (c' & s' & sn1 & E1 & Hc' & Hs' & Sn1).
  destruct (play_parts _ _ _ _ _ _ _ E1) as (sent' & c1' & event' & s1' & images' & objects' & p1 & replied & s2 & state & c2 & result & p2 & Es' & Ew' & Er & Ec & Ex).
  rewrite Es in Es'. injection Es' as <- <-. rewrite Ew in Ew'. injection Ew' as <- <- <- <- <-. injection Ex as -> -> ->.
  destruct Sn1 as (_ & _ & _ & _ & _ & Rp & St & (res & Rs & Ar)). cbn [sn_state sn_result sn_replied as_round rd_reply] in St, Rs, Ar, Rp. subst state result replied.
  assert (T : tracked (List.length l) (as_round q mem) = List.length (followed l q)).
  { unfold tracked, followed. cbn [as_round rd_init rd_objects]. destruct (ask_init q); [reflexivity|]. symmetry. apply app_length. }
  rewrite T in Hc', Hs'. pose proof (wait_dictionary _ _ _ _ _ _ Ec) as D. subst p2.
  exists c1, (mkGot event images objects p', mkStatic s1 (sc_mem t) (sc_wait t) (S (sc_live t))), (mkStatic s2 (Some mem) w (S (sc_live t))), c2, res.
  split; [exact Es|]. split; [unfold static_wait; cbn [sc_handle sc_mem sc_wait sc_live]; rewrite Ew; reflexivity|].
  split; [exact (An _ s2 Er)|]. split; [exact Ec|]. split; [|split; [exact Hc'|split; [exact Hs'|right; exists mem; now split]]].
  clear - Hm Ar. revert res Ar. induction Hm as [|o x l0 l1 H _ IH]; intros res Ar; inversion Ar as [|a b l2 l3 A1 A2]; subst; constructor; [|now apply IH].
  destruct H as (_ & _ & H & _). destruct A1 as (A1 & _ & A3). split; [exists (fst x); now split|exact A3].
Qed.

Section Runs.
  Variables (legacy : bool) (slack : nat) (depth ir : bool) (net : nat -> network) (frames : nat) (lines : list (list (list N)))
    (initialization : list (option region)) (fails : nat -> option region -> bool) (reinitialize : nat) (properties : props) (m : metadata).
  Hypothesis (Em : static_metadata depth ir = Ok m).
  Hypothesis (Hnet : forall f, network_ok (net f)).
  Hypothesis (Hlines : Forall (line_ok depth ir) lines).
  Hypothesis (Hcount : List.length lines = frames).
  Hypothesis (Hregions : forall f r, nth_error initialization f = Some (Some r) -> steady r).
  Hypothesis (Hinit : List.length initialization = frames).
  Hypothesis (Hprops : clean properties /\ props_get properties (str "time_wait") <> Ok (Some [])).
  Let images := map channels_of lines.

  Lemma channel_bits : Z.testbit (md_channels m) 0 = true /\ Z.testbit (md_channels m) 1 = depth /\ Z.testbit (md_channels m) 2 = ir /\ load_format (md_channels m) = Some TRAX_IMAGE_PATH.
  Proof. revert Em. unfold static_metadata, metadata_create. destruct depth, ir; vm_compute; intros E; injection E as <-; auto. Qed.

  (** the images of a frame arrive *)
  Definition picture_of (p : list N) : option image := match p with [] => None | _ => Some (mkImage TRAX_IMAGE_PATH 0 0 0 (c_block p)) end.
  Lemma channels_three l : (List.length l <= 3)%nat -> exists a b c, channels_of l = [a; b; c] /\ forall k, (k < 3)%nat -> nth k [a; b; c] [] = nth k l [].
  Proof.
    intros L. destruct l as [|a [|b [|c [|d l]]]]; cbn [List.length] in L; try lia; eexists _, _, _; (split; [reflexivity|]);
      intros k K; destruct k as [|[|[|k]]]; try lia; reflexivity.
  Qed.
  Lemma pictures_ok md f : (f < frames)%nat -> md_channels md = md_channels m -> md_image md = 15 ->
    exists ims, pictures images md f = Ok (Some ims) /\ exists b, images_arrive slack (md_channels m) 15 ims b.
  Proof.
    intros Hf C I0. unfold pictures, images. rewrite nth_error_map.
    destruct (nth_error lines f) as [l|] eqn:El; [|apply nth_error_None in El; lia]. cbn [option_map].
    assert (Hl : line_ok depth ir l). { rewrite Forall_forall in Hlines. apply Hlines. exact (nth_error_In _ _ El). }
    destruct Hl as (Ht & Hn & Hw). destruct (channels_three l Hn) as (p0 & p1 & p2 & Ec & Ek). rewrite Ec.
    destruct channel_bits as (B0 & B1 & B2 & Lf). rewrite C, I0. unfold frame_images.
    rewrite (load_images_list [p0; p1; p2] 15 (md_channels m) TRAX_IMAGE_PATH (le_n 3) Lf). unfold loads. rewrite Lf.
    change (Z.testbit 15 (Z.of_nat 0)) with true. change (Z.testbit 15 (Z.of_nat 1)) with true. change (Z.testbit 15 (Z.of_nat 2)) with true.
    cbn [nth_error app obind].
    assert (P : picture [mkLoaded (2 ^ Z.of_nat 0) TRAX_IMAGE_PATH p0; mkLoaded (2 ^ Z.of_nat 1) TRAX_IMAGE_PATH p1; mkLoaded (2 ^ Z.of_nat 2) TRAX_IMAGE_PATH p2] TRAX_CHANNEL_COLOR = Ok (picture_of p0) /\
                picture [mkLoaded (2 ^ Z.of_nat 0) TRAX_IMAGE_PATH p0; mkLoaded (2 ^ Z.of_nat 1) TRAX_IMAGE_PATH p1; mkLoaded (2 ^ Z.of_nat 2) TRAX_IMAGE_PATH p2] TRAX_CHANNEL_DEPTH = Ok (picture_of p1) /\
                picture [mkLoaded (2 ^ Z.of_nat 0) TRAX_IMAGE_PATH p0; mkLoaded (2 ^ Z.of_nat 1) TRAX_IMAGE_PATH p1; mkLoaded (2 ^ Z.of_nat 2) TRAX_IMAGE_PATH p2] TRAX_CHANNEL_IR = Ok (picture_of p2)).
    { assert (Q : forall p, match p with [] => Ok None | path => if TRAX_IMAGE_PATH =? TRAX_IMAGE_PATH then i <- image_create_path path ;; Ok (Some i) else NoFuel end = Ok (picture_of p)).
      { intros [|x p]; [reflexivity|]. change (TRAX_IMAGE_PATH =? TRAX_IMAGE_PATH) with true. cbv iota. rewrite ImageProofs.path_image. reflexivity. }
      split; [destruct p0 as [|x0 l0]; [reflexivity|exact (Q (x0 :: l0))]|]. split; [destruct p1 as [|x0 l0]; [reflexivity|exact (Q (x0 :: l0))]|]. destruct p2 as [|x0 l0]; [reflexivity|exact (Q (x0 :: l0))]. }
    destruct P as (-> & -> & ->). cbn [obind]. eexists. split; [reflexivity|].
    (* what arrives *)
    assert (A : forall k, (k < 3)%nat -> Z.testbit (md_channels m) (Z.of_nat k) = true -> exists i i', picture_of (nth k [p0; p1; p2] []) = Some i /\ image_arrives slack i i' /\ supports 15 (i_type i') = true).
    { intros k K T.
      assert (W : (k = 0 \/ k = 1 /\ depth = true \/ k = 2 /\ ir = true)%nat).
      { destruct k as [|[|[|k]]]; [now left|right; left|right; right|lia]; (split; [reflexivity|]); [rewrite <- B1|rewrite <- B2]; exact T. }
      destruct (Hw k K W) as (p & Np & Ne). rewrite (Ek k K), (nth_error_nth _ _ _ Np).
      assert (Tp : text_ok p = true). { rewrite Forall_forall in Ht. apply (Ht p). exact (nth_error_In _ _ Np). }
      destruct (path_arrives slack p _ Tp (ImageProofs.path_image p)) as (i' & A1 & A2 & _).
      exists (mkImage TRAX_IMAGE_PATH 0 0 0 (c_block p)), i'. split; [destruct p; [now elim Ne|reflexivity]|]. split; [exact A1|]. rewrite A2. reflexivity. }
    set (arrived := fun k => if Z.testbit (md_channels m) (Z.of_nat k) then True else False).
    assert (X : forall k, (k < 3)%nat -> exists b, if Z.testbit (md_channels m) (Z.of_nat k)
       then exists i i', nth k [picture_of p0; picture_of p1; picture_of p2] None = Some i /\ b = Some i' /\ image_arrives slack i i' /\ supports 15 (i_type i') = true else b = None).
    { intros k K. destruct (Z.testbit (md_channels m) (Z.of_nat k)) eqn:T; [|now exists None]. destruct (A k K T) as (i & i' & A1 & A2 & A3). exists (Some i'), i, i'. split; [|auto].
      rewrite <- A1. destruct k as [|[|[|k]]]; [reflexivity|reflexivity|reflexivity|lia]. }
    destruct (X 0%nat ltac:(lia)) as (b0 & X0). destruct (X 1%nat ltac:(lia)) as (b1 & X1). destruct (X 2%nat ltac:(lia)) as (b2 & X2).
    exists [b0; b1; b2]. split; [reflexivity|]. split; [reflexivity|]. intros k K. destruct k as [|[|[|k]]]; [exact X0|exact X1|exact X2|lia].
  Qed.

  (** a connection on which the tracker follows [r]; [0] objects before it is initialized *)
  Definition linked (l : object_list) (v : live) : Prop :=
    client_side m true (List.length l) (lv_client v) /\ server_side m true (List.length l) (sc_handle (lv_tracker v)) /\ remembers l (lv_tracker v).

  Lemma meta_facts : metadata_ok m 0 /\ md_region m = 14 /\ md_image m = 15 /\ 1 <= md_channels m <= 7 /\ multi_object m 0 = true.
  Proof. exact (static_metadata_ok depth ir m Em). Qed.

  Lemma launched_ok f : exists v, launch depth ir net f = Ok (Some v) /\ linked [] v /\ md_channels (h_meta (lv_client v)) = md_channels m /\ md_image (h_meta (lv_client v)) = 15.
  Proof.
    destruct meta_facts as (Hm & R & I0 & Hch & Mu). destruct (Hnet f) as (N1 & _ & _ & N4 & N5).
    destruct (connect_ok m 0 (n_hello (net f)) (n_server (net f)) (n_client (net f)) Hm N1 N4 N5)
      as (c & s & E & Vc & Vs & Hcv & A1 & A2 & A3 & A4 & A5 & A6 & A7 & A8 & A9 & A10 & A11 & A12 & A13).
    destruct Hcv as (B1 & B2 & B3 & B4 & B5 & B6 & B7 & B8). change (spoken 0 =? 1) with false in B3. cbv iota in B3. rewrite Mu in *.
    unfold launch. rewrite Em. cbn [obind]. rewrite E. cbn [obind]. eexists. split; [reflexivity|]. cbn [lv_client]. split; [|split; [exact B3|rewrite B2, I0; reflexivity]].
    split; [|split; [|now left]]; cbn [lv_client lv_tracker sc_handle static_start List.length].
    - unfold client_side. split; [exact A1|]. split; [exact A3|]. split; [unfold is_version_4; rewrite Vc; reflexivity|]. split; [exact B1|]. split; [exact B3|].
      split; [unfold is_multi_object; rewrite B8; reflexivity|]. split; [exact A5|]. split; [exact A9|exact A7].
    - unfold server_side. split; [exact A2|]. split; [exact A4|]. split; [exact A11|]. split; [exact A12|]. split; [apply A13; reflexivity|]. split; [exact A6|]. split; [exact A10|exact A8].
  Qed.

  Lemma answered f fuel c c1 t g t' c' res r : static_wait fuel slack (mkStatic (arrive (n_request (net f)) (written c c1) (sc_handle t)) (sc_mem t) (sc_wait t) (sc_live t)) = Ok g ->
    static_answer (fst g) (snd g) = Ok (Some TRAX_OK, t') ->
    client_wait (arrive (n_answer (net f)) (written (sc_handle (snd g)) (sc_handle t')) c1) (Some props_create) = Ok (TRAX_STATE, c', Some res, Some props_create) ->
    Forall2 (fun o y => back (fst o) (fst y) /\ made (snd y)) [(r, props_create)] res ->
    exists y, wait_state slack net f fuel c c1 t = Ok (Some (Some y), mkLive c' t') /\ back r y.
  Proof.
    intros E1 E2 E3 F. inversion F as [|o [y q] l0 l1 (B & M) N]; subst. inversion N; subst. cbn [fst snd] in B, M.
    exists y. split; [|exact B]. unfold wait_state. rewrite E1. cbn [obind]. rewrite E2. cbn [obind fst snd]. unfold cpp_client_wait. rewrite E3. cbn [obind dictionary single_object].
    destruct B as (r1 & _ & B). rewrite (clone_arrives _ _ B). cbn [obind]. destruct (append_new q M) as (d & -> & _). reflexivity.
  Qed.

  Lemma begins f v r : (f < frames)%nat -> linked [] v -> md_channels (h_meta (lv_client v)) = md_channels m -> md_image (h_meta (lv_client v)) = 15 -> steady r ->
    exists y v', begin_at legacy slack net images properties f (h_meta (lv_client v)) v r = Ok (Some (Some y), v') /\ back r y /\ linked [(r, props_create)] v'.
  Proof.
    intros Hf (L1 & L2 & L3) C I0 S0. destruct meta_facts as (_ & R & I1 & Hch & _). destruct (Hnet f) as (_ & N2 & N3 & _ & _).
    destruct (pictures_ok _ f Hf C I0) as (ims & Ei & Ai). unfold begin_at. rewrite Ei. cbn [obind].
    assert (Hq : ask_ok slack (md_channels m) [] (mkAsk true ims [(r, props_create)] (Some properties) (n_request (net f)) (n_answer (net f)))).
    { unfold ask_ok. cbn [ask_cut1 ask_cut2 ask_images ask_objects ask_props ask_init followed]. split; [exact N2|]. split; [exact N3|]. split; [exact Ai|].
      split; [constructor; [split; [exact S0|exact SessionProofs.clean_create]|constructor]|]. split; [exact Hprops|]. split; discriminate. }
    destruct (round_parts legacy slack m [] (lv_client v) (lv_tracker v) _ R I1 Hch L1 L2 L3 Hq) as (c1 & g & t' & c' & res & E1 & E2 & E3 & E4 & F & G1 & G2 & G3).
    cbn [ask_cut1 ask_cut2 ask_images ask_objects ask_props ask_init followed] in *.
    unfold cpp_initialize. rewrite (whole_clone r (steady_whole r S0)). cbn [obind]. rewrite E1. cbn [obind fst snd]. change (TRAX_OK =? TRAX_OK) with true. cbn [negb].
    destruct (answered f 4 (lv_client v) c1 (lv_tracker v) g t' c' res r E2 E3 E4 F) as (y & W & B). rewrite W. exists y, (mkLive c' t'). split; [reflexivity|]. split; [exact B|].
    split; [exact G1|]. split; [exact G2|exact G3].
  Qed.
  Lemma continues f md v r : (f < frames)%nat -> linked [(r, props_create)] v -> md_channels md = md_channels m -> md_image md = 15 ->
    exists y v', continue_at legacy slack net images f md v = Ok (Some (Some y), v') /\ back r y /\ linked [(r, props_create)] v'.
  Proof.
    intros Hf (L1 & L2 & L3) C I0. destruct meta_facts as (_ & R & I1 & Hch & _). destruct (Hnet f) as (_ & N2 & N3 & _ & _).
    destruct (pictures_ok _ f Hf C I0) as (ims & Ei & Ai). unfold continue_at. rewrite Ei. cbn [obind].
    assert (Hq : ask_ok slack (md_channels m) [(r, props_create)] (mkAsk false ims [] (Some props_create) (n_request (net f)) (n_answer (net f)))).
    { unfold ask_ok. cbn [ask_cut1 ask_cut2 ask_images ask_objects ask_props ask_init]. unfold followed. cbn [ask_init ask_objects]. rewrite app_nil_r. split; [exact N2|]. split; [exact N3|]. split; [exact Ai|].
      split; [constructor|]. split; [split; [exact SessionProofs.clean_create|]|split; discriminate].
      rewrite (props_get_spec _ _ props_create_ok). unfold props_create. rewrite sm_new_lookup. discriminate. }
    destruct (round_parts legacy slack m _ (lv_client v) (lv_tracker v) _ R I1 Hch L1 L2 L3 Hq) as (c1 & g & t' & c' & res & E1 & E2 & E3 & E4 & F & G1 & G2 & G3).
    unfold followed in *. cbn [ask_cut1 ask_cut2 ask_images ask_objects ask_props ask_init] in *. rewrite app_nil_r in *.
    assert (X : cpp_frame legacy (lv_client v) ims props_create = Ok (TRAX_OK, c1)) by exact E1. rewrite X. cbn [obind fst snd]. change (TRAX_OK =? TRAX_OK) with true. cbn [negb].
    destruct (answered f 3 (lv_client v) c1 (lv_tracker v) g t' c' res r E2 E3 E4 F) as (y & W & B). rewrite W. exists y, (mkLive c' t'). split; [reflexivity|]. split; [exact B|].
    split; [exact G1|]. split; [exact G2|exact G3].
  Qed.

  (** ---- the trajectory ---- *)
  Notation fine := (stationary (init_of initialization) fails reinitialize).
  (** entries in memory whose text in the file is as specified *)
  Definition fits (n f : nat) (s : stage) (out : list (option region)) : Prop :=
    Forall (fun x => exists r r', x = Some r /\ region_arrives r r') out /\ forall out', Forall2 entry_arrives out out' -> fine n f s out'.
  Lemma fits_nil f s : fits 0 f s [].
  Proof. split; [constructor|]. intros out' H. inversion H. constructor. Qed.
  Lemma fits_cons n f s x r y l : region_arrives r y -> x = Some r -> (forall l', (Forall2 entry_arrives l l') -> fine (S n) f s (Some y :: l')) ->
    Forall (fun x => exists r r', x = Some r /\ region_arrives r r') l -> fits (S n) f s (x :: l).
  Proof.
    intros A -> K F. split; [constructor; [now exists r, y|exact F]|]. intros out' H. inversion H as [|a b l0 l1 E1 E2]; subst. cbn [entry_arrives] in E1.
    destruct b as [b|]; [|contradiction]. rewrite (arrives_once _ _ _ E1 A). now apply K.
  Qed.
  Lemma special_arrives c : c = 0 \/ c = 1 \/ c = 2 -> region_arrives (RSpecial c) (RSpecial c).
  Proof. intros [->|[->| ->]]; eexists; (split; [vm_compute; reflexivity|]); (split; [vm_compute; reflexivity|exact Logic.I]). Qed.
  Lemma fits_end n f g s s' l : n = 0%nat -> fits n f s l -> fits n g s' l.
  Proof.
    intros -> (F & K). assert (l = []).
    { destruct l as [|x l]; [reflexivity|]. exfalso. assert (X : exists l', Forall2 entry_arrives (x :: l) l').
      { clear K. induction F as [|a l0 (r & r' & -> & A) _ IH]; [now exists []|]. destruct IH as (l' & IH). exists (Some r' :: l'). constructor; [exact A|exact IH]. }
      destruct X as (l' & X). specialize (K l' X). inversion K; subst. inversion X. }
    subst l. apply fits_nil.
  Qed.

  Lemma zeroes n : forall f, fits n f Done (repeat (special 0) n).
  Proof.
    induction n as [|n IH]; intros f; [apply fits_nil|]. cbn [repeat]. apply (fits_cons _ _ _ _ (RSpecial 0) (RSpecial 0)); [apply special_arrives; auto|reflexivity| |apply (IH f)].
    intros l' H. apply done_with. now apply (IH (S f)).
  Qed.
  Lemma pausing k : forall f rest, (f <= frames)%nat -> let n := Nat.min (S k) (frames - f) in fits (frames - (f + n)) (f + n) Launch rest ->
    fits (frames - f) f (Pause (S k)) (repeat (special 0) n ++ rest).
  Proof.
    induction k as [|k IH]; intros f rest Hf; cbv zeta; destruct (frames - f)%nat as [|d] eqn:D.
    - replace (Nat.min 1 0) with 0%nat by lia. rewrite Nat.add_0_r. cbn [repeat app]. rewrite D. apply fits_end. reflexivity.
    - replace (Nat.min 1 (S d)) with 1%nat by lia. intros K. cbn [repeat app]. replace (frames - (f + 1))%nat with d in K by lia. replace (f + 1)%nat with (S f) in K by lia.
      apply (fits_cons _ _ _ _ (RSpecial 0) (RSpecial 0)); [apply special_arrives; auto|reflexivity| |apply K]. intros l' H. apply paused. now apply K.
    - rewrite Nat.min_0_r, Nat.add_0_r. cbn [repeat app]. rewrite D. apply fits_end. reflexivity.
    - replace (Nat.min (S (S k)) (S d)) with (S (Nat.min (S k) (frames - S f))) by lia. intros K. cbn [repeat app].
      specialize (IH (S f) rest ltac:(lia)). cbv zeta in IH.
      replace (f + S (Nat.min (S k) (frames - S f)))%nat with (S f + Nat.min (S k) (frames - S f))%nat in K by lia. specialize (IH K). replace (frames - S f)%nat with d in * by lia.
      apply (fits_cons _ _ _ _ (RSpecial 0) (RSpecial 0)); [apply special_arrives; auto|reflexivity| |apply IH]. intros l' H. apply paused. now apply IH.
  Qed.
  Lemma resting g rest k : (g < frames)%nat -> reinitialize = S k -> let j := Nat.max (S g) (Nat.min (g + reinitialize) frames) in fits (frames - j) j Launch rest ->
    fits (frames - S g) (S g) (next_stage reinitialize) (repeat (special 0) (j - S g) ++ rest).
  Proof.
    intros Hg R. cbv zeta. intros K. replace (next_stage reinitialize) with (next_stage (S k)) by now rewrite R. destruct k as [|k]; cbn [next_stage].
    - replace (Nat.max (S g) (Nat.min (g + reinitialize) frames)) with (S g) in * by lia. rewrite Nat.sub_diag. exact K.
    - pose proof (pausing k (S g) rest ltac:(lia)) as P. cbv zeta in P.
      replace (Nat.max (S g) (Nat.min (g + reinitialize) frames)) with (S g + Nat.min (S k) (frames - S g))%nat in * by lia.
      replace (S g + Nat.min (S k) (frames - S g) - S g)%nat with (Nat.min (S k) (frames - S g)) by lia. exact (P K).
  Qed.
  Lemma fill_output n : forall e, ev_output (fill n e) = ev_output e ++ repeat (special 0) n.
  Proof.
    induction n as [|n IH]; intros e; cbn [fill repeat]; [symmetry; apply app_nil_r|]. rewrite IH. cbn [timed push ev_output]. rewrite <- app_assoc. reflexivity.
  Qed.

  Lemma skips fuel : forall e, (ev_frame e <= frames)%nat -> (frames - ev_frame e < fuel)%nat ->
    exists e' out, skip_frames frames initialization fuel e = Ok e' /\ (ev_frame e <= ev_frame e' <= frames)%nat /\ ev_output e' = ev_output e ++ out /\
      (forall rest, fits (frames - ev_frame e') (ev_frame e') Launch rest -> fits (frames - ev_frame e) (ev_frame e) Launch (out ++ rest)) /\
      ((ev_frame e' < frames)%nat -> exists r, nth_error initialization (ev_frame e') = Some (Some r)).
  Proof.
    induction fuel as [|fuel IH]; intros e H F; [lia|]. cbn [skip_frames]. destruct (Nat.ltb_spec (ev_frame e) frames) as [L|L].
    - destruct (nth_error initialization (ev_frame e)) as [[r|]|] eqn:E.
      + exists e, []. split; [reflexivity|]. split; [lia|]. split; [symmetry; apply app_nil_r|]. split; [auto|]. intros _. now exists r.
      + destruct (IH (next (push e (special 0)))) as (e' & out & A & B & C & D & G); cbn [next push ev_frame ev_output] in *; [lia|lia|].
        exists e', (special 0 :: out). split; [exact A|]. split; [lia|]. split; [rewrite C, <- app_assoc; reflexivity|]. split; [|exact G].
        intros rest K. specialize (D rest K). replace (frames - ev_frame e)%nat with (S (frames - S (ev_frame e))) by lia. cbn [app].
        apply (fits_cons _ _ _ _ (RSpecial 0) (RSpecial 0)); [apply special_arrives; auto|reflexivity| |apply D]. intros l' Hl. apply without_region; [|now apply D]. unfold init_of. now rewrite E.
      + apply nth_error_None in E. lia.
    - exists e, []. split; [reflexivity|]. split; [lia|]. split; [symmetry; apply app_nil_r|]. split; [auto|]. lia.
  Qed.

  Lemma follows fuel md r y y' : md_channels md = md_channels m -> md_image md = 15 -> steady r -> back r y -> region_arrives y y' -> stays r y -> stays r y' ->
    forall e (first : bool) v, (ev_frame e < frames)%nat -> (frames - ev_frame e < fuel)%nat -> linked [(r, props_create)] v -> (first = true -> init_of initialization (ev_frame e) = Some r) ->
    exists e' how out, follow legacy slack net frames images fails fuel md e first (Some (Some y)) v = Ok (e', how) /\ ev_output e' = ev_output e ++ out /\
      match how with
      | Exception => False
      | Sequence_end => ev_frame e' = frames /\ fits (frames - ev_frame e) (ev_frame e) (if first then Launch else Follow y y') out
      | Failure => (ev_frame e <= ev_frame e' < frames)%nat /\ forall rest, fits (frames - S (ev_frame e')) (S (ev_frame e')) (next_stage reinitialize) rest ->
          fits (frames - ev_frame e) (ev_frame e) (if first then Launch else Follow y y') (out ++ special 2 :: rest)
      end.
  Proof.
    intros C I0 S0 B A S1 S2. induction fuel as [|fuel IH]; intros e first v H F L St; [lia|]. cbn [follow].
    destruct (fails (ev_frame e) (Some y)) eqn:Fa.
    - exists e, Failure, []. split; [reflexivity|]. split; [symmetry; apply app_nil_r|]. split; [lia|]. intros rest K. cbn [app].
      replace (frames - ev_frame e)%nat with (S (frames - S (ev_frame e))) by lia.
      apply (fits_cons _ _ _ _ (RSpecial 2) (RSpecial 2)); [apply special_arrives; auto|reflexivity| |apply K]. intros l' Hl. apply K in Hl.
      destruct first; [exact (fails_at_once _ _ _ _ _ r y _ (St eq_refl) S1 Fa Hl)|exact (fails_later _ _ _ _ _ y y' _ Fa Hl)].
    - cbv zeta. set (e1 := next (timed (push e (if first then special 1 else Some y)))). assert (E1 : ev_frame e1 = S (ev_frame e)) by reflexivity.
      assert (O1 : ev_output e1 = ev_output e ++ [if first then special 1 else Some y]) by reflexivity.
      assert (Step : forall l, fits (frames - S (ev_frame e)) (S (ev_frame e)) (Follow y y') l -> fits (frames - ev_frame e) (ev_frame e) (if first then Launch else Follow y y') ((if first then special 1 else Some y) :: l)).
      { intros l K. replace (frames - ev_frame e)%nat with (S (frames - S (ev_frame e))) by lia. destruct first.
        - apply (fits_cons _ _ _ _ (RSpecial 1) (RSpecial 1)); [apply special_arrives; auto|reflexivity| |apply K]. intros l' Hl. exact (launched _ _ _ _ _ r y y' _ (St eq_refl) S1 S2 Fa (proj2 K _ Hl)).
        - apply (fits_cons _ _ _ _ y y'); [exact A|reflexivity| |apply K]. intros l' Hl. exact (followed_on _ _ _ _ _ y y' _ Fa (proj2 K _ Hl)). }
      destruct (Nat.leb_spec frames (ev_frame e1)) as [Le|Le].
      + exists e1, Sequence_end, [if first then special 1 else Some y]. split; [reflexivity|]. split; [exact O1|]. split; [lia|]. apply Step. replace (frames - S (ev_frame e))%nat with 0%nat by lia. apply fits_nil.
      + destruct (continues (ev_frame e1) md v r Le L C I0) as (z & v' & Ez & Bz & Lz). rewrite Ez. cbn [obind fst snd]. rewrite (back_once _ _ _ Bz B).
        destruct (IH e1 false v' Le ltac:(lia) Lz ltac:(discriminate)) as (e' & how & out & Ef & Eo & Eh). exists e', how, ((if first then special 1 else Some y) :: out).
        split; [exact Ef|]. split; [rewrite Eo, O1, <- app_assoc; reflexivity|]. rewrite E1 in Eh. destruct how; [|destruct Eh as [Eh1 Eh2]|exact Eh].
        * destruct Eh as [Eh1 Eh2]. split; [exact Eh1|]. now apply Step.
        * split; [lia|]. intros rest K. cbn [app]. apply Step. now apply Eh2.
  Qed.

  Lemma looping fuel : forall e v, (ev_frame e <= frames)%nat -> (frames - ev_frame e < fuel)%nat ->
    ((ev_frame e < frames)%nat -> exists v0, v = Some v0 /\ linked [] v0 /\ md_channels (h_meta (lv_client v0)) = md_channels m /\ md_image (h_meta (lv_client v0)) = 15) ->
    exists out t, evaluation_loop legacy slack depth ir net frames images initialization fails reinitialize properties fuel e v = Ok (Saved (ev_output e ++ out) t) /\ fits (frames - ev_frame e) (ev_frame e) Launch out.
  Proof.
    induction fuel as [|fuel IH]; intros e v H F Hv; [lia|]. cbn [evaluation_loop]. destruct (Nat.ltb_spec (ev_frame e) frames) as [L|L].
    2: { exists [], (ev_timings e). rewrite app_nil_r. split; [reflexivity|]. replace (frames - ev_frame e)%nat with 0%nat by lia. apply fits_nil. }
    destruct (Hv L) as (v0 & -> & Lk & Mc & Mi).
    destruct (skips (S frames) e H ltac:(lia)) as (e1 & o1 & -> & F1 & O1 & K1 & I1). cbn [obind]. destruct (Nat.eqb_spec (ev_frame e1) frames) as [Q|Q].
    { exists o1, (ev_timings e1). split; [now rewrite O1|]. rewrite <- (app_nil_r o1). apply K1. rewrite Q, Nat.sub_diag. apply fits_nil. }
    destruct (I1 ltac:(lia)) as (r & Er). pose proof (Hregions _ _ Er) as S0. unfold track_from. rewrite Er. cbv zeta.
    destruct (begins (ev_frame e1) v0 r ltac:(lia) Lk Mc Mi S0) as (y & v' & Eb & B & Lv). rewrite Eb. cbn [obind fst snd].
    assert (Y : exists y', region_arrives y y' /\ stays r y /\ stays r y').
    { destruct (steady_thrice r S0) as (r1 & r2 & r3 & A1 & A2 & A3 & S2 & S3). assert (y = r2) as ->; [|now exists r3]. exact (back_once _ _ _ B (ex_intro _ r1 (conj A1 A2))). }
    destruct Y as (y' & A & S2 & S3).
    destruct (follows (S frames) (h_meta (lv_client v0)) r y y' Mc Mi S0 B A S2 S3 e1 true v' ltac:(lia) ltac:(lia) Lv) as (e2 & how & o2 & Ef & O2 & Eh).
    { intros _. unfold init_of. now rewrite Er. }
    rewrite Ef. cbn [obind]. destruct how; [| |contradiction].
    - destruct Eh as [E2 K2]. destruct (Nat.ltb_spec (ev_frame e2) frames) as [X|X]; [lia|].
      destruct (IH e2 None ltac:(lia) ltac:(lia) ltac:(lia)) as (o3 & t & E3 & K3). rewrite E3. exists (o1 ++ o2), t. split.
      + assert (N : o3 = []). { assert (Z0 : (frames - ev_frame e2)%nat = 0%nat) by lia. rewrite Z0 in K3. clear - K3. destruct K3 as (Fo & K). destruct o3 as [|x l]; [reflexivity|]. exfalso.
          assert (X : exists l', Forall2 entry_arrives (x :: l) l').
          { clear K. induction Fo as [|a l0 (r & r' & -> & A) _ IH]; [now exists []|]. destruct IH as (l' & IH). exists (Some r' :: l'). constructor; [exact A|exact IH]. }
          destruct X as (l' & X). specialize (K l' X). inversion K; subst. inversion X. }
        rewrite N, app_nil_r, O2, O1, app_assoc. reflexivity.
      + now apply K1.
    - destruct Eh as [E2 K2]. destruct (Nat.ltb_spec (ev_frame e2) frames) as [X|X]; [|lia].
      assert (Cs : reinitialize = 0%nat \/ exists k, reinitialize = S k) by (clear; destruct reinitialize; eauto). destruct Cs as [R|(k & R)].
      + assert (Rz : (0 <? reinitialize)%nat = false) by (apply Nat.ltb_ge; lia). rewrite Rz. cbv beta iota zeta.
        exists (o1 ++ o2 ++ special 2 :: repeat (special 0) (frames - S (ev_frame e2))). eexists. split; [reflexivity || (do 3 f_equal)|].
        * rewrite fill_output. cbn [timed push ev_output]. rewrite O2, O1, <- !app_assoc. reflexivity.
        * apply K1. apply K2. replace (next_stage reinitialize) with Done by now rewrite R. apply zeroes.
      + assert (Rz : (0 <? reinitialize)%nat = true) by (apply Nat.ltb_lt; lia). rewrite Rz. cbv beta iota zeta.
        set (j := Nat.max (S (ev_frame e2)) (Nat.min (ev_frame e2 + reinitialize) frames)).
        set (e4 := fill (j - S (ev_frame e2)) (timed (push e2 (special 2)))).
        assert (Lc : exists w, (if (j <? frames)%nat then launch depth ir net j else Ok None) = Ok w /\
          ((j < frames)%nat -> exists v0, w = Some v0 /\ linked [] v0 /\ md_channels (h_meta (lv_client v0)) = md_channels m /\ md_image (h_meta (lv_client v0)) = 15)).
        { destruct (Nat.ltb_spec j frames) as [J|J]; [|exists None; split; [reflexivity|lia]]. destruct (launched_ok j) as (w & Ew & Lw). exists (Some w). split; [exact Ew|]. intros _. now exists w. }
        destruct Lc as (w & -> & Lw). cbn [obind].
        destruct (IH (mkEval j (ev_output e4) (ev_timings e4)) w) as (o3 & t & E3 & K3); cbn [ev_frame ev_output] in *; [lia|lia|exact Lw|].
        exists (o1 ++ o2 ++ special 2 :: repeat (special 0) (j - S (ev_frame e2)) ++ o3), t. split.
        * rewrite E3. unfold e4. rewrite fill_output. cbn [timed push ev_output]. rewrite O2, O1, <- !app_assoc. reflexivity.
        * apply K1. apply K2. exact (resting _ _ _ X R K3).
  Qed.

  Lemma evaluates : exists out t, evaluate_tracker legacy slack depth ir net frames images initialization fails reinitialize properties = Ok (Saved out t) /\ fits frames 0 Launch out.
  Proof.
    destruct (launched_ok 0) as (v & E & Lk). unfold evaluate_tracker. rewrite E. cbn [obind].
    destruct (looping (S frames) (mkEval 0 [] 0) (Some v)) as (out & t & E1 & K); cbn [ev_frame ev_output] in *; [lia|lia|intros _; now exists v|].
    exists out, t. split; [exact E1|]. rewrite Nat.sub_0_r in K. exact K.
  Qed.
End Runs.

(** ---- files ---- *)
Lemma stationary_length start fails k n f s l : stationary start fails k n f s l -> List.length l = n.
Proof. induction 1; cbn [List.length]; congruence. Qed.

Lemma forall_firstn {A} (P : A -> Prop) l : Forall P l -> forall n, Forall P (firstn n l).
Proof. induction 1 as [|x l Hx _ IH]; intros n; [now rewrite firstn_nil|]. destruct n; cbn [firstn]; constructor; auto. Qed.
Lemma whole_run legacy slack depth ir net fails k properties lines texts rs : (forall f, network_ok (net f)) -> Forall (line_ok depth ir) lines ->
  Forall2 (fun l r => line_reads (fst l) r) texts rs -> lines <> [] -> rs <> [] -> Forall (fun r => match r with Some r => steady r | None => True end) rs ->
  clean properties -> props_get properties (str "time_wait") <> Ok (Some []) ->
  exists file out, traxclient legacy slack depth ir net fails k properties (concat (map (fun l => join_paths l ++ [10%N]) lines)) (concat (map (fun l => fst l ++ line_end (snd l)) texts)) = Ok (Some file) /\
    load_trajectory file = Ok out /\ let n := Nat.min (List.length lines) (List.length rs) in List.length out = n /\ stationary (init_of (firstn n rs)) fails k n 0 Launch out.
Proof.
  intros Hnet Hl Ht Hn1 Hne Hs Hp Hw. unfold traxclient.
  assert (Ri : read_images (concat (map (fun l => join_paths l ++ [10%N]) lines)) = map channels_of lines).
  { pose proof (images_read lines []) as X. rewrite app_nil_r in X. apply X; [|intros []]. eapply Forall_impl; [|exact Hl]. intros l (A & _ & B). split.
    - destruct (B 0%nat ltac:(lia) ltac:(now left)) as (p & N & _). destruct l; [discriminate|discriminate].
    - eapply Forall_impl; [|exact A]. now intros p [_ P]. }
  assert (Rg : load_trajectory (concat (map (fun l => fst l ++ line_end (snd l)) texts)) = Ok rs).
  { destruct (load_file texts rs [] Ht) as (tail & X & T); [split; intros []|intros Y; now elim Y|]. subst tail. rewrite !app_nil_r in X. exact X. }
  rewrite Ri, Rg. cbn [obind]. rewrite map_length. cbv zeta. set (n := Nat.min (List.length lines) (List.length rs)).
  assert (Hn : n <> 0%nat) by (unfold n; destruct lines, rs; cbn [List.length]; try congruence; lia).
  rewrite firstn_map.
  assert (Em : exists m, static_metadata depth ir = Ok m) by (destruct depth, ir; vm_compute; now eexists). destruct Em as (m & Em).
  destruct (evaluates legacy slack depth ir net n (firstn n lines) (firstn n rs) fails k properties m Em Hnet (forall_firstn _ _ Hl n)) as (out & t & E & (Fo & K)).
  - rewrite firstn_length. unfold n. lia.
  - intros f r Er. pose proof (forall_firstn _ _ Hs n) as Hs'. rewrite Forall_forall in Hs'. exact (Hs' _ (nth_error_In _ _ Er)).
  - rewrite firstn_length. unfold n. lia.
  - now split.
  - destruct (trajectory_round_trip out) as (file & out' & Es & Lo & A).
    { eapply Forall_impl; [|exact Fo]. intros x (r & r' & -> & A). now exists r'. }
    rewrite E. cbn [obind]. specialize (K out' A). pose proof (stationary_length _ _ _ _ _ _ _ K) as Ln.
    exists file, out'. split; [|split; [exact Lo|split; [exact Ln|exact K]]].
    destruct out as [|x out]; [|rewrite Es; reflexivity]. inversion A; subst. cbn [List.length] in Ln. lia.
Qed.

(** ---- without failures ---- *)
Lemma following start k n : forall f r' r'' l, stationary start (fun _ _ => false) k n f (Follow r' r'') l -> l = repeat (Some r'') n.
Proof. induction n as [|n IH]; intros f r' r'' l H; inversion H; subst; try discriminate; [reflexivity|]. cbn [repeat]. f_equal. match goal with X : stationary _ _ _ n _ _ _ |- _ => exact (IH _ _ _ _ X) end. Qed.
Lemma never_failing start k n : forall f l, stationary start (fun _ _ => false) k n f Launch l -> exists a, (a <= n)%nat /\ (forall i, (i < a)%nat -> start (f + i)%nat = None) /\
  (a = n /\ l = repeat (special 0) n \/ exists r r'', (a < n)%nat /\ start (f + a)%nat = Some r /\ stays r r'' /\ l = repeat (special 0) a ++ special 1 :: repeat (Some r'') (n - S a)).
Proof.
  induction n as [|n IH]; intros f l H; inversion H as [f0 s0 E1 E2 E3 E4|n0 f0 l0 N0 H0 E1 E2 E3 E4|n0 f0 r r' r'' l0 N0 S1 S2 _ H0 E1 E2 E3 E4| | | | |]; subst; try discriminate.
  - exists 0%nat. split; [lia|]. split; [lia|]. left. now split.
  - destruct (IH _ _ H0) as (a & La & Na & Ca). exists (S a). split; [lia|]. split.
    { intros i Hi. destruct i as [|i]; [now rewrite Nat.add_0_r|]. rewrite <- Nat.add_succ_comm. apply Na. lia. }
    destruct Ca as [(-> & ->)|(r & r'' & L & Sr & St & ->)]; [left; now split|right]. exists r, r''. split; [lia|]. split; [rewrite <- Nat.add_succ_comm; exact Sr|]. split; [exact St|reflexivity].
  - exists 0%nat. split; [lia|]. split; [lia|]. right. exists r, r''. split; [lia|]. rewrite Nat.add_0_r. split; [exact N0|]. split; [exact S2|]. rewrite (following _ _ _ _ _ _ _ H0). cbn [repeat app]. now rewrite Nat.sub_succ, Nat.sub_0_r.
Qed.

(** ---- the sample ---- *)
Lemma sample_net_ok f : network_ok (sample_net f).
Proof.
  unfold network_ok, sample_net. cbn [n_hello n_server n_client n_request n_answer].
  split; [apply byte_cutter|]. split; [destruct (Nat.even f); [apply whole_cutter|apply byte_cutter]|]. split; [apply byte_cutter|]. split; constructor.
Qed.
Lemma sample_lines_ok : Forall (line_ok true false) sample_lines.
Proof.
  unfold sample_lines. repeat (apply Forall_cons; [split; [repeat (apply Forall_cons; [split; [vm_compute; reflexivity|split; vm_compute; intuition discriminate]|]); apply Forall_nil|split; [cbn [List.length]; lia|
    intros k K [->|[(-> & _)|(-> & X)]]; [eexists; split; [reflexivity|discriminate]|eexists; split; [reflexivity|discriminate]|discriminate X]]]|]). apply Forall_nil.
Qed.
Lemma sample_regions : exists rs, Forall2 (fun l r => line_reads (fst l) r) sample_texts rs /\ List.length rs = 4%nat /\ Forall (fun r => match r with Some r => steady r | None => True end) rs.
Proof.
  assert (O : forall s, existsb (fun c => (c =? 10)%N || (c =? 13)%N) s = false -> one_line s).
  { intros s H. split; intros K; enough (existsb (fun c => (c =? 10)%N || (c =? 13)%N) s = true) by congruence; apply existsb_exists; eexists; (split; [exact K|reflexivity]). }
  eexists. split.
  - unfold sample_texts. repeat (apply Forall2_cons; [split; [apply O; vm_compute; reflexivity|eexists _, _; split; [vm_compute; reflexivity|reflexivity]]|]). apply Forall2_nil.
  - split; [reflexivity|]. repeat (apply Forall_cons; [first [exact Logic.I|apply steady_rect; (split; [vm_compute; reflexivity|exact Logic.I])]|]). apply Forall_nil.
Qed.
