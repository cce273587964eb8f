(** Proofs for C115. *)
From Verif Require Import CBase StrMap Props PropsSpec StrMapProofs PropsProofs Message MessageSpec Num NumSpec PropsNum Region RegionSpec RegionProofs Image ImageSpec Formats
  Handle SessionSpec HandleProofs SessionProofs HandshakeProofs SendableProofs PySessionProofs Static StaticSpec.
Local Open Scope Z_scope.

Lemma arrives_once r a b : region_arrives r a -> region_arrives r b -> a = b.
Proof. intros (t & E & P & _) (t' & E' & P' & _). rewrite E in E'. injection E' as <-. rewrite P in P'. now injection P'. Qed.

Lemma steady_twice r : steady r -> exists r1 r2, region_arrives r r1 /\ region_arrives r1 r2 /\ stays r r2.
Proof.
  destruct 1 as [x y w h Hx Hy Hw Hh|pts L F|x y w h data Hx Hy Hw Hh Pw Ph Hi Hl Hd Hs].
  - destruct (rect_round_trip x y w h Hx Hy Hw Hh) as (t & x' & y' & w' & h' & E & P & E' & C1 & C2 & C3 & C4).
    exists (RRect x' y' w' h'), (RRect x' y' w' h'). split; [exists t; split; [exact E|split; [exact P|exact Logic.I]]|].
    split; [exists t; split; [exact E'|split; [exact P|exact Logic.I]]|]. now constructor.
  - destruct (poly_round_trip pts L F) as (t & pts' & E & P & E' & C).
    exists (RPoly pts'), (RPoly pts'). split; [exists t; split; [exact E|split; [exact P|exact Logic.I]]|].
    split; [exists t; split; [exact E'|split; [exact P|exact Logic.I]]|]. now constructor.
  - destruct (mask_round_trip x y w h data Hx Hy Hw Hh Hi Hl Hd Hs) as (t & d1 & E & P & F).
    assert (L1 : List.length d1 = List.length data). { pose proof (f_equal (@List.length bool) F) as G. unfold foreground in G. now rewrite !map_length in G. }
    assert (D1 : exists d, In d d1 /\ d <> 0%N).
    { destruct Hd as (d & I0 & N0). assert (X : In true (foreground data)). { unfold foreground. apply in_map_iff. exists d. split; [|exact I0]. destruct (d =? 0)%N eqn:Z0; [lia|reflexivity]. }
      rewrite <- F in X. unfold foreground in X. apply in_map_iff in X as (d' & X & Y). exists d'. split; [exact Y|]. intros ->. discriminate. }
    destruct (mask_round_trip x y w h d1 Hx Hy Hw Hh Hi ltac:(lia) D1 ltac:(rewrite F; exact Hs)) as (t2 & d2 & E2 & P2 & F2).
    exists (RMask x y w h d1), (RMask x y w h d2). split; [exists t; split; [exact E|split; [exact P|now split]]|].
    split; [exists t2; split; [exact E2|split; [exact P2|now split]]|]. constructor. congruence.
Qed.

(** What the program keeps of an object the client gave *)
Definition held (o x : region * props) : Prop := steady (fst o) /\ clean (snd o) /\ region_arrives (fst o) (fst x) /\ same_props (snd x) (snd o) /\ made (snd x).
Lemma held_sendable o x : held o x -> state_sendable x.
Proof.
  intros (S0 & C & A & P & M). destruct (steady_twice _ S0) as (r1 & r2 & A1 & A2 & _). rewrite <- (arrives_once _ _ _ A A1) in A2. split; [now exists r2|].
  split; [exact M|]. intros k v G. rewrite P in G. exact (proj2 C k v G).
Qed.
Lemma held_stays o x y : held o x -> object_arrives x y -> object_stays o y.
Proof.
  intros (S0 & C & A & P & M) (A' & P' & _). destruct (steady_twice _ S0) as (r1 & r2 & A1 & A2 & St).
  rewrite <- (arrives_once _ _ _ A A1) in A2. rewrite <- (arrives_once _ _ _ A' A2) in St. split; [exact St|]. intros k. now rewrite P', P.
Qed.
Lemma steady_sendable o : steady (fst o) -> clean (snd o) -> object_sendable 14 o.
Proof.
  intros S0 C. destruct (steady_twice _ S0) as (r1 & r2 & A1 & _). split; [|split; [|split; [now exists r1|exact C]]].
  - intros c E. rewrite E in S0. inversion S0.
  - destruct o as [r p]. cbn [fst] in *. destruct S0; reflexivity.
Qed.

Lemma append_copies new : Forall (fun o => made (snd o)) new -> forall mem, exists ext, static_append mem new = Ok (mem ++ ext) /\
  Forall2 (fun (a b : region * props) => fst b = fst a /\ same_props (snd b) (snd a) /\ made (snd b)) new ext.
Proof.
  induction 1 as [|[r p] new Hp _ IH]; intros mem; cbn [static_append].
  - exists []. rewrite app_nil_r. split; [reflexivity|constructor].
  - cbn [snd] in Hp. destruct (copy_new p ALL_OVERWRITE Hp ltac:(now right)) as (d & E & Sd & Md). rewrite E. cbn [obind].
    destruct (IH (mem ++ [(r, d)])) as (ext & Ee & F). exists ((r, d) :: ext). rewrite Ee, <- app_assoc. split; [reflexivity|]. constructor; [|exact F]. now split.
Qed.
Lemma append_held objs new mem : Forall (fun o => steady (fst o) /\ clean (snd o)) objs -> objects_arrive objs new ->
  exists ext, static_append mem new = Ok (mem ++ ext) /\ Forall2 held objs ext.
Proof.
  intros S0 A. destruct (append_copies new) with (mem := mem) as (ext & E & F).
  - clear - A. induction A as [|a b l l' (_ & _ & M) _ IH]; constructor; [exact M|exact IH].
  - exists ext. split; [exact E|]. clear E. revert S0 ext F. induction A as [|a b l l' (A1 & A2 & A3) _ IH]; intros S0 ext F; inversion F as [|x y l1 l2 (F1 & F2 & F3) F4]; subst; [constructor|].
    inversion S0 as [|x l1 [S1 S2] S3]; subst. constructor; [|now apply IH]. split; [exact S1|]. split; [exact S2|]. split; [now rewrite F1|]. split; [intros k; now rewrite F2|exact F3].
Qed.

(** The answer of the program to the request *)
Definition as_round (q : ask) (reply : object_list) : round :=
  mkRound (ask_init q) (ask_images q) (ask_objects q) (ask_props q) reply (ask_cut1 q) (ask_cut2 q).

Lemma special_sendable : state_sendable (RSpecial 2, props_create).
Proof. split; [exact special_sends|exact SessionProofs.clean_create]. Qed.

Lemma ask_round slack m l q reply : md_region m = 14 -> md_image m = 15 -> ask_ok slack (md_channels m) l q -> Forall state_sendable reply -> List.length reply = List.length (followed l q) ->
  round_ok slack m true (List.length l) (as_round q reply).
Proof.
  intros R I0 (C1 & C2 & Im & Ob & Pr & Ne & Fo) Sr Lr. unfold round_ok, tracked. cbn [as_round rd_cut1 rd_cut2 rd_images rd_objects rd_props rd_reply rd_init].
  assert (T : (if ask_init q then List.length (ask_objects q) else (List.length l + List.length (ask_objects q))%nat) = List.length (followed l q)).
  { unfold followed. destruct (ask_init q); [reflexivity|]. symmetry. apply app_length. }
  rewrite T, R, I0. split; [exact C1|]. split; [exact C2|]. split; [exact Im|]. split; [|split; [|split; [exact Ne|split; [|split; [discriminate|split; [exact Lr|exact Sr]]]]]].
  - eapply Forall_impl; [|exact Ob]. intros o [S0 C]. now apply steady_sendable.
  - destruct (ask_props q); [apply Pr|exact Logic.I].
  - destruct (followed l q); [congruence|cbn [List.length]; lia].
Qed.

Lemma wait_time p q : same_props p (given q) -> match q with Some q => clean q /\ props_get q (str "time_wait") <> Ok (Some []) | None => True end ->
  exists x, props_get_float p (str "time_wait") (S754_zero false) = Ok x.
Proof.
  intros Sp H. unfold props_get_float. rewrite Sp.
  assert (G : exists v, props_get (given q) (str "time_wait") = Ok v /\ v <> Some []).
  { destruct q as [q|]; cbn [given].
    - destruct H as [[M _] H]. rewrite (props_get_spec q _ (made_ok q M)) in *. eexists. split; [reflexivity|]. congruence.
    - exists None. split; [|discriminate]. rewrite (props_get_spec _ _ props_create_ok). unfold props_create. now rewrite sm_new_lookup. }
  destruct G as (v & -> & Nv). cbn [obind]. destruct v as [[|c t]|]; [congruence| |now exists (S754_zero false)].
  destruct (strtod (c :: t)) as [[d rest]|]; [|now eexists]. destruct rest; now eexists.
Qed.

(** The state of the program between two requests *)
Definition remembers (l : object_list) (t : static) : Prop := l = [] \/ exists mem, sc_mem t = Some mem /\ Forall2 held l mem.

Lemma forall2_len {A B} (R : A -> B -> Prop) l l' : Forall2 R l l' -> List.length l' = List.length l.
Proof. induction 1; cbn [List.length]; congruence. Qed.
Lemma forall2_app {A B} (R : A -> B -> Prop) a b a' b' : Forall2 R a a' -> Forall2 R b b' -> Forall2 R (a ++ b) (a' ++ b').
Proof. induction 1; intros H'; cbn [app]; [exact H'|]. constructor; [assumption|now apply IHForall2]. Qed.

(** What the two replies of a session model and of the program have in common: the request is the same *)
Lemma play_parts legacy slack c s q reply x : play_round legacy slack c s (as_round q reply) = Ok x ->
  exists sent c1 event s1 images objects p replied s2 state c2 result p2,
    (if ask_init q then client_initialize legacy c (ask_images q) (ask_objects q) (ask_props q)
     else client_frame legacy c (ask_images q) (Some (ask_objects q)) (ask_props q)) = Ok (sent, c1) /\
    server_wait_mot (3 + List.length (ask_objects q)) slack (arrive (ask_cut1 q) (written c c1) s) None (Some props_create) = Ok (event, s1, images, objects, p) /\
    server_reply_mot s1 reply = Ok (replied, s2) /\
    client_wait (arrive (ask_cut2 q) (written s1 s2) c1) (Some props_create) = Ok (state, c2, result, p2) /\
    x = (c2, s2, mkSeen sent event images objects p replied state result).
Proof.
  unfold play_round. cbn [as_round rd_cut1 rd_cut2 rd_images rd_objects rd_props rd_reply rd_init]. intros E.
  destruct (if ask_init q then client_initialize legacy c (ask_images q) (ask_objects q) (ask_props q)
     else client_frame legacy c (ask_images q) (Some (ask_objects q)) (ask_props q)) as [[sent c1]| | |]; try discriminate. cbn [obind] in E.
  destruct (server_wait_mot (3 + List.length (ask_objects q)) slack (arrive (ask_cut1 q) (written c c1) s) None (Some props_create)) as [[[[[event s1] images] objects] p]| | |] eqn:W; try discriminate.
  cbn [obind] in E. destruct (server_reply_mot s1 reply) as [[replied s2]| | |] eqn:R; try discriminate. cbn [obind] in E.
  destruct (client_wait (arrive (ask_cut2 q) (written s1 s2) c1) (Some props_create)) as [[[[state c2] result] p2]| | |] eqn:X; try discriminate. cbn [obind] in E.
  injection E as <-. exists sent, c1, event, s1, images, objects, p, replied, s2, state, c2, result, p2.
  split; [reflexivity|]. split; [exact W|]. split; [exact R|]. split; [exact X|reflexivity].
Qed.

Lemma answers slack m n q reply sn l t s1 p : seen_ok slack m n (as_round q reply) sn -> n = List.length l -> remembers l t -> ask_ok slack (md_channels m) l q ->
  sn_props sn = Some p -> exists mem w, Forall2 held (followed l q) mem /\
    forall replied s2, server_reply_mot s1 mem = Ok (replied, s2) ->
    static_answer (mkGot (sn_event sn) (sn_images sn) (sn_objects sn) p) (mkStatic s1 (sc_mem t) (sc_wait t) (S (sc_live t))) = Ok (Some replied, mkStatic s2 (Some mem) w (S (sc_live t))).
Proof.
  intros (_ & Ev & _ & Ob & (p' & Ep & Sp) & _) -> Re (C1 & C2 & Im & St & Pr & Ne & Fo) Ep'. rewrite Ep in Ep'. injection Ep' as ->.
  cbn [as_round rd_init rd_objects rd_props] in *.
  destruct (wait_time p (ask_props q) Sp Pr) as (w & Ew).
  unfold static_answer. cbn [gt_event]. rewrite Ev.
  destruct (ask_init q || Nat.eqb (List.length l) 0) eqn:B.
  - (* initialize *)
    assert (Fl : followed l q = ask_objects q).
    { unfold followed. destruct (ask_init q) eqn:I0; [reflexivity|]. cbn [orb] in B. destruct l; [reflexivity|discriminate]. }
    rewrite Fl in *. destruct (ask_objects q) as [|o0 os0] eqn:Eo; [congruence|]. destruct Ob as (l' & El & Al).
    destruct (append_held (o0 :: os0) l' [] St Al) as (mem & Em & Hm). exists mem, w. split; [exact Hm|]. intros replied s2 R.
    change (TRAX_INITIALIZE =? TRAX_INITIALIZE) with true. cbv iota. unfold static_initialize. cbn [gt_props gt_objects]. rewrite Ew. cbn [obind]. rewrite El, Em. cbn [obind app sc_handle sc_live].
    rewrite R. reflexivity.
  - (* frame *)
    apply Bool.orb_false_iff in B as [I0 B]. destruct Re as [->|(mem & Em & Hm)]; [discriminate|].
    change (TRAX_FRAME =? TRAX_INITIALIZE) with false. change (TRAX_FRAME =? TRAX_FRAME) with true. cbv iota. unfold static_frame. cbn [gt_objects sc_mem]. rewrite Em. unfold followed. rewrite I0.
    destruct (ask_objects q) as [|o0 os0] eqn:Eo.
    + rewrite Ob, app_nil_r. exists mem, (sc_wait t). split; [exact Hm|]. intros replied s2 R. cbn [static_new_objects obind sc_handle sc_live sc_wait]. rewrite R. reflexivity.
    + destruct Ob as (l' & El & Al). rewrite El. destruct (append_held (o0 :: os0) l' mem St Al) as (ext & Ee & He). exists (mem ++ ext), (sc_wait t).
      split; [now apply forall2_app|]. intros replied s2 R. cbn [static_new_objects]. rewrite Ee. cbn [obind sc_handle sc_live sc_wait]. rewrite R. reflexivity.
Qed.

Lemma round_reports legacy slack m l c t q : md_region m = 14 -> md_image m = 15 -> 1 <= md_channels m <= 7 ->
  client_side m true (List.length l) c -> server_side m true (List.length l) (sc_handle t) -> remembers l t -> ask_ok slack (md_channels m) l q ->
  exists c' t' res, static_round legacy slack c t q = Ok (c', t', (TRAX_STATE, Some res)) /\ Forall2 object_stays (followed l q) res /\
    client_side m true (List.length (followed l q)) c' /\ server_side m true (List.length (followed l q)) (sc_handle t') /\ remembers (followed l q) t' /\ sc_live t' = S (sc_live t).
Proof.
  intros R I0 Hch Hc Hs Re Hq.
  set (reply0 := repeat (RSpecial 2, props_create) (List.length (followed l q))).
  assert (K0 : round_ok slack m true (List.length l) (as_round q reply0)).
  { apply ask_round; try assumption; [|apply repeat_length]. apply Forall_forall. intros x X. apply repeat_spec in X as ->. apply special_sendable. }
  destruct (round_delivers legacy slack m true (List.length l) c (sc_handle t) _ Hc Hs Hch K0) as (c0 & s0 & sn & E0 & _ & _ & Sn).
  destruct (play_parts _ _ _ _ _ _ _ E0) as (sent & c1 & event & s1 & images & objects & p & replied0 & s20 & state0 & c20 & result0 & p20 & Es & Ew & _ & _ & Ex).
  injection Ex as -> -> ->. clear E0. pose proof Sn as (_ & _ & _ & _ & (p' & Ep & _) & _). cbn [sn_props] in Ep. subst p.
  destruct (answers slack m _ q reply0 _ l t s1 p' Sn eq_refl Re Hq eq_refl) as (mem & w & Hm & An). cbn [sn_event sn_images sn_objects] in An.
  assert (K1 : round_ok slack m true (List.length l) (as_round q mem)).
  { apply ask_round; try assumption; [|exact (forall2_len _ _ _ Hm)]. clear - Hm. induction Hm as [|o x la lb H _ IH]; constructor; [exact (held_sendable o x H)|exact IH]. }
  destruct (round_delivers legacy slack m true (List.length l) c (sc_handle t) _ Hc Hs Hch K1) as (c' & s' & sn1 & E1 & Hc' & Hs' & Sn1).
  destruct (play_parts _ _ _ _ _ _ _ E1) as (sent' & c1' & event' & s1' & images' & objects' & p1 & replied & s2 & state & c2 & result & p2 & Es' & Ew' & Er & Ec & Ex).
  rewrite Es in Es'. injection Es' as <- <-. rewrite Ew in Ew'. injection Ew' as <- <- <- <- <-. injection Ex as -> -> ->.
  destruct Sn1 as (_ & _ & _ & _ & _ & _ & St & (res & Rs & Ar)). cbn [sn_state sn_result as_round rd_reply] in St, Rs, Ar. subst state result.
  assert (T : tracked (List.length l) (as_round q mem) = List.length (followed l q)).
  { unfold tracked, followed. cbn [as_round rd_init rd_objects]. destruct (ask_init q); [reflexivity|]. symmetry. apply app_length. }
  rewrite T in Hc', Hs'.
  exists c2, (mkStatic s2 (Some mem) w (S (sc_live t))), res. split; [|split; [|split; [exact Hc'|split; [exact Hs'|split; [right; exists mem; now split|reflexivity]]]]].
  - unfold static_round. rewrite Es. cbn [obind]. unfold static_wait. cbn [sc_handle sc_mem sc_wait sc_live]. rewrite Ew. cbn [obind fst snd].
    rewrite (An replied s2 Er). cbn [obind fst snd sc_handle]. rewrite Ec. reflexivity.
  - clear - Hm Ar. revert res Ar. induction Hm as [|o x l0 l1 H _ IH]; intros res Ar; inversion Ar as [|a b l2 l3 A1 A2]; subst; constructor; [exact (held_stays o x b H A1)|now apply IH].
Qed.

Lemma rounds_report legacy slack m : md_region m = 14 -> md_image m = 15 -> 1 <= md_channels m <= 7 -> forall qs l c t,
  client_side m true (List.length l) c -> server_side m true (List.length l) (sc_handle t) -> remembers l t -> asks_ok slack (md_channels m) l qs ->
  exists c' t' sns n, static_rounds legacy slack c t qs = Ok (c', t', sns) /\ reports l qs sns /\
    client_side m true n c' /\ server_side m true n (sc_handle t') /\ sc_live t' = (sc_live t + List.length qs)%nat.
Proof.
  intros R I0 Hch. induction qs as [|q qs IH]; intros l c t Hc Hs Re Hq; cbn [static_rounds asks_ok] in *.
  - exists c, t, [], (List.length l). split; [reflexivity|]. split; [exact Logic.I|]. split; [exact Hc|]. split; [exact Hs|]. cbn [List.length]. lia.
  - destruct Hq as [Hq Hqs]. destruct (round_reports legacy slack m l c t q R I0 Hch Hc Hs Re Hq) as (c1 & t1 & res & E & St & Hc1 & Hs1 & Re1 & Lv). rewrite E. cbn [obind].
    destruct (IH _ _ _ Hc1 Hs1 Re1 Hqs) as (c2 & t2 & sns & n & E2 & Rp & Hc2 & Hs2 & Lv2). rewrite E2. cbn [obind].
    exists c2, t2, ((TRAX_STATE, Some res) :: sns), n. split; [reflexivity|]. split; [|split; [exact Hc2|split; [exact Hs2|cbn [List.length]; lia]]].
    cbn [reports]. split; [reflexivity|]. split; [exists res; now split|exact Rp].
Qed.

Lemma ending fuel slack m n c t reason cut : 1 <= md_channels m <= 7 -> client_side m true n c -> server_side m true n (sc_handle t) -> text_ok reason = true -> cutter cut ->
  static_ending slack (S fuel) c t reason cut = Ok (TRAX_QUIT, true, sc_live t).
Proof.
  intros Hch (_ & Tc & _ & _ & _ & _ & _ & Oc & _) (K1 & K2 & K3 & _ & _ & _ & _ & Rd) Hr Hcut.
  destruct (terminate_ok c (Some reason) Tc Oc Hr) as (p & c' & Et & Cl & (Sb & _) & _). unfold static_ending. rewrite Et. cbn [obind snd].
  assert (Wr : written c c' = wire MQuit [] (props_enum p)). { unfold written. rewrite Sb. rewrite skipn_app, skipn_all, Nat.sub_diag. reflexivity. }
  rewrite Wr. pose proof (arrive_ready cut (wire MQuit [] (props_enum p)) (sc_handle t) Hcut Rd) as Ra. set (a := arrive cut (wire MQuit [] (props_enum p)) (sc_handle t)) in *.
  assert (A1 : h_server a = true) by exact K1. assert (A2 : h_terminated a = false) by exact K2. assert (A3 : h_meta a = h_meta (sc_handle t)) by reflexivity.
  unfold static_wait, server_wait_mot. cbn [sc_handle sc_mem sc_wait sc_live]. rewrite A1. cbn [negb]. cbv zeta. unfold alive. cbn [clear_error h_terminated]. rewrite A2. cbn [negb].
  change (h_meta (clear_error a)) with (h_meta a). rewrite A3, K3, (count_channels _ Hch). cbn [obind wait_mot_loop].
  rewrite <- (app_nil_r (wire _ _ _)) in Ra.
  destruct (handle_read_wire (clear_error a) MQuit [] p [] Cl eq_refl Ra) as (r & st & E & Er & Ea & Mr & _).
  change (mkHandle _ _ _ _ _ _ _ _ _) with (clear_error a). rewrite E. cbn [obind].
  rewrite Er, Ea. cbn [List.length]. change (Z.of_nat 0 =? 0) with true. cbn [negb]. unfold copy_out.
  destruct (copy_external_spec (rr_props r) props_create (made_ok _ Mr) props_create_ok) as (q & Eq & _).
  change (Z.lor COPY_EXTERNAL COPY_OVERWRITE) with EXTERNAL_OVERWRITE in Eq. rewrite Eq. cbn [obind mot_end fst snd].
  unfold static_answer. cbn [gt_event]. change (TRAX_QUIT =? TRAX_INITIALIZE) with false. change (TRAX_QUIT =? TRAX_FRAME) with false. cbv iota. cbn [obind fst snd].
  unfold static_end, static_quit, cleanup, terminate, alive. cbn [sc_handle sc_live clear_error h_terminated terminated negb obind fst snd].
  replace (S (sc_live t) - 1)%nat with (sc_live t) by lia. reflexivity.
Qed.

(** ---- a whole session ---- *)
Lemma static_metadata_ok depth ir m : static_metadata depth ir = Ok m -> metadata_ok m 0 /\ md_region m = 14 /\ md_image m = 15 /\ 1 <= md_channels m <= 7 /\ multi_object m 0 = true.
Proof.
  intros E. unfold static_metadata, metadata_create in E. 
  assert (X : exists ch, 1 <= ch <= 7 /\ m = mkMeta 14 15 ch (Some (str "Static")) (Some (str "Static demo tracker")) (Some (str "Demo")) props_create (Some TRAX_METADATA_MULTI_OBJECT)).
  { destruct depth, ir; vm_compute in E; injection E as <-; eexists; (split; [|reflexivity]); lia. }
  clear E. destruct X as (ch & Hch & ->). split; [|split; [reflexivity|split; [reflexivity|split; [exact Hch|reflexivity]]]].
  split; [unfold TRAX_VERSION; lia|]. split; [exact SessionProofs.clean_create|]. cbn [md_custom md_name md_description md_family md_channels md_flags]. split.
  - intros k v G. rewrite (props_get_spec _ _ props_create_ok) in G. unfold props_create in G. rewrite sm_new_lookup in G. discriminate.
  - split; [repeat (apply Forall_cons; [vm_compute; reflexivity|]); apply Forall_nil|]. split; [exact Hch|discriminate].
Qed.

Lemma static_session legacy slack depth ir m cut sched_s sched_c qs : static_metadata depth ir = Ok m -> cutter cut -> no_error sched_s -> no_error sched_c ->
  asks_ok slack (md_channels m) [] qs ->
  exists c s c' t' sns, connect m 0 cut sched_s sched_c = Ok (Some (c, s)) /\ static_rounds legacy slack c (static_start s) qs = Ok (c', t', sns) /\ reports [] qs sns /\
    forall fuel reason cut', text_ok reason = true -> cutter cut' -> static_ending slack (S fuel) c' t' reason cut' = Ok (TRAX_QUIT, true, List.length qs).
Proof.
  intros Em Hcut Hs Hc Hq. destruct (static_metadata_ok depth ir m Em) as (Hm & R & I0 & Hch & Mu).
  destruct (connect_ok m 0 cut sched_s sched_c Hm Hcut Hs Hc)
    as (c & s & E & Vc & Vs & Hcv & A1 & A2 & A3 & A4 & A5 & A6 & A7 & A8 & A9 & A10 & A11 & A12 & A13).
  destruct Hcv as (B1 & B2 & B3 & B4 & B5 & B6 & B7 & B8). change (spoken 0 =? 1) with false in B3. cbv iota in B3. rewrite Mu in *.
  assert (Hcs : client_side m true 0 c).
  { unfold client_side. split; [exact A1|]. split; [exact A3|]. split; [unfold is_version_4; rewrite Vc; reflexivity|]. split; [exact B1|]. split; [exact B3|].
    split; [unfold is_multi_object; rewrite B8; reflexivity|]. split; [exact A5|]. split; [exact A9|exact A7]. }
  assert (Hss : server_side m true 0 s).
  { unfold server_side. split; [exact A2|]. split; [exact A4|]. split; [exact A11|]. split; [exact A12|]. split; [apply A13; reflexivity|]. split; [exact A6|]. split; [exact A10|exact A8]. }
  destruct (rounds_report legacy slack m R I0 Hch qs [] c (static_start s) Hcs Hss (or_introl eq_refl) Hq) as (c' & t' & sns & n & E1 & Rp & Hc' & Hs' & Lv).
  exists c, s, c', t', sns. split; [exact E|]. split; [exact E1|]. split; [exact Rp|]. intros fuel reason cut' Hr Hcut'.
  rewrite (ending fuel slack m n c' t' reason cut' Hch Hc' Hs' Hr Hcut'), Lv. reflexivity.
Qed.

(** ---- the sample session and the defects ---- *)
Lemma static_images_arrive : exists ims, images_arrive 0 3 15 sample_images ims.
Proof.
  destruct (path_arrives 0 (str "/a b.jpg") _ eq_refl eq_refl) as (a & Ha & Ta & _).
  destruct (path_arrives 0 (str "/d=1.png") _ eq_refl eq_refl) as (d & Hd & Td & _).
  exists [Some a; Some d; None]. split; [reflexivity|]. split; [reflexivity|]. intros k Hk.
  destruct k as [|[|[|k]]]; [| | |lia]; cbn [Z.testbit Z.of_nat Pos.of_succ_nat Pos.succ Pos.testbit nth sample_images].
  - eexists. exists a. split; [reflexivity|]. split; [reflexivity|]. split; [exact Ha|]. now rewrite Ta.
  - eexists. exists d. split; [reflexivity|]. split; [reflexivity|]. split; [exact Hd|]. now rewrite Td.
  - reflexivity.
Qed.
Lemma fl_finite z : valid_binary 24 128 (fl z) = true -> match fl z with S754_zero _ | S754_finite _ _ _ => True | _ => False end -> finite_float (fl z).
Proof. intros A B. now split. Qed.
Ltac fine := (split; [vm_compute; reflexivity|vm_compute; exact Logic.I]).
Lemma steady_poly_sample : steady sample_poly.
Proof. apply steady_poly; [cbn [List.length]; lia|]. repeat (apply Forall_cons; [split; fine|]). apply Forall_nil. Qed.
Lemma steady_mask_sample : steady sample_mask.
Proof.
  apply steady_mask; try (unfold exact_int; lia); try reflexivity; [exists 1%N; split; [now left|discriminate]|].
  intros a m b v E _. apply (f_equal (@List.length bool)) in E. rewrite !app_length in E. cbn [foreground map List.length] in E. lia.
Qed.
Lemma steady_rect_sample : steady (RRect (fl 1) (fl 2) (fl 3) (fl 4)).
Proof. apply steady_rect; fine. Qed.
Lemma time_set t : t <> [] -> props_get (sample_props (str "time_wait") t) (str "time_wait") <> Ok (Some []).
Proof.
  intros H. unfold sample_props. destruct (made_set props_create (str "time_wait") t made_create) as (p & E & M & L). rewrite E, (props_get_spec p _ (made_ok p M)), L.
  unfold pm_set. change (bytes_eqb (str "time_wait") (str "time_wait")) with true. cbv iota. congruence.
Qed.
Lemma other_set : props_get (sample_props (str "k") (str "v w")) (str "time_wait") <> Ok (Some []).
Proof. vm_compute. discriminate. Qed.

Lemma sample_asks_ok : asks_ok 0 3 [] sample_asks.
Proof.
  unfold sample_asks, asks_ok, ask_ok, followed.
  cbn [ask_cut1 ask_cut2 ask_images ask_objects ask_props ask_init app].
  split; [|split; [|split; [|split; [|exact Logic.I]]]].
  all: (split; [first [apply byte_cutter|apply whole_cutter]|]); (split; [first [apply byte_cutter|apply whole_cutter]|]); (split; [exact static_images_arrive|]).
  all: (split; [repeat (apply Forall_cons; [split; [first [exact steady_poly_sample|exact steady_mask_sample|exact steady_rect_sample]
    |first [apply SessionProofs.clean_create|apply clean_sample; reflexivity]]|]); apply Forall_nil|]).
  all: (split; [|split; [intros _; discriminate || (intros X; discriminate)|discriminate]]) || (split; [|split; [discriminate|discriminate]]).
  all: try exact Logic.I.
  - split; [apply clean_sample; reflexivity|]. apply time_set. discriminate.
  - split; [apply clean_sample; reflexivity|]. exact other_set.
Qed.

Definition sample_static : metadata := match static_metadata true false with Ok m => m | _ => sample_metadata end.
Lemma static_leak : exists c s c' t' sns, connect sample_static 0 byte_cut [] [] = Ok (Some (c, s)) /\ static_rounds false 0 c (static_start s) sample_asks = Ok (c', t', sns) /\
  static_ending 0 1 c' t' (str "bye") whole_cut = Ok (TRAX_QUIT, true, 4%nat).
Proof.
  destruct (static_session false 0 true false sample_static byte_cut [] [] sample_asks eq_refl byte_cutter (Forall_nil _) (Forall_nil _) sample_asks_ok)
    as (c & s & c' & t' & sns & E & P & _ & En).
  exists c, s, c', t', sns. split; [exact E|]. split; [exact P|]. exact (En 0%nat (str "bye") whole_cut eq_refl whole_cutter).
Qed.
Lemma static_empty_time : exists c s, connect sample_static 0 whole_cut [] [] = Ok (Some (c, s)) /\
  static_round false 0 c (static_start s) (mkAsk true sample_images [(sample_mask, props_create)] (Some (sample_props (str "time_wait") [])) whole_cut whole_cut) = UB.
Proof. eexists. eexists. split; [vm_compute; reflexivity|]. vm_compute. reflexivity. Qed.
