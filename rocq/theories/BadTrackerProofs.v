(** Proofs for C129. *)
From Verif Require Import GeomProofs.
From Verif Require Import CBase StrMap Props PropsSpec StrMapProofs PropsProofs Message MessageSpec Num NumSpec PropsNum PropsNumProofs Region RegionSpec RegionProofs Image ImageSpec Formats
  Handle SessionSpec HandleProofs SessionProofs HandshakeProofs HistoryProofs SendableProofs PySessionProofs Static StaticSpec StaticProofs BadTracker BadTrackerSpec.
Local Open Scope Z_scope.

(** ---- the properties ---- *)
Lemma int_text_once l a b : int_text l a -> int_text l b -> in_int a = true -> in_int b = true -> a = b.
Proof. intros A B Ia Ib. destruct (read_int_text l a A Ia) as (d & E & F). destruct (read_int_text l b B Ib) as (d' & E' & F'). rewrite E in E'. injection E' as <-. congruence. Qed.
Lemma int_text_some l a : int_text l a -> l <> [].
Proof.
  intros (w & ds & _ & _ & Hne & Hl') ->. destruct Hl' as [[Hx _]|[[Hx _]|[Hx _]]]; symmetry in Hx; apply app_eq_nil in Hx as [_ Hx]; (discriminate Hx || congruence).
Qed.
Lemma asks_time_once p a b : asks_time p a -> asks_time p b -> a = b.
Proof.
  unfold asks_time. destruct p as [p|]; [|congruence]. intros [[A ->]|(t & A & Ta & Ia)] [[B ->]|(t' & B & Tb & Ib)]; try congruence.
  rewrite A in B. injection B as <-. exact (int_text_once t a b Ta Tb Ia Ib).
Qed.
Lemma asks_signal_once p a b : asks_signal p a -> asks_signal p b -> a = b.
Proof.
  unfold asks_signal. destruct (match p with Some p => props_get p (str "break_type") | None => Ok None end) as [[t|]| | |]; try congruence.
  intros [[A ->]|[[A ->]|(A1 & A2 & ->)]] [[B ->]|[[B ->]|(B1 & B2 & ->)]]; try congruence; subst t; discriminate.
Qed.
Lemma given_get q k : props_get (given q) k = match q with Some p => props_get p k | None => Ok None end.
Proof. destruct q as [p|]; [reflexivity|]. cbn [given]. rewrite (props_get_spec _ _ props_create_ok). unfold props_create. now rewrite sm_new_lookup. Qed.
Lemma time_read p q time : same_props p (given q) -> asks_time q time -> props_get_int p (str "break_time") 5 = Ok time.
Proof.
  intros Sp H. unfold props_get_int. rewrite Sp, given_get. unfold asks_time in H. destruct q as [q|]; [|now subst].
  destruct H as [[-> ->]|(t & -> & T & I0)]; [reflexivity|]. cbn [obind]. destruct (read_int_text t time T I0) as (d & E & F). rewrite E, F. cbn [obind].
  destruct t; [now destruct (int_text_some _ _ T)|reflexivity].
Qed.
Lemma signal_read p q : same_props p (given q) -> match q with Some q => made q | None => True end ->
  exists ty, get_text p (str "break_type") (str "sigabrt") = Ok ty /\ asks_signal q (bad_signal (break_type ty)).
Proof.
  intros Sp H. unfold get_text. rewrite Sp, given_get.
  assert (G : exists v, match q with Some q => props_get q (str "break_type") | None => Ok None end = Ok v).
  { destruct q as [q|]; [|now eexists]. rewrite (props_get_spec q _ (made_ok q H)). now eexists. }
  unfold asks_signal. destruct G as (v & ->). cbn [obind]. destruct v as [t|]; [|eexists; split; reflexivity].
  exists t. split; [reflexivity|]. unfold break_type. destruct (bytes_eqb t (str "sigsegv")) eqn:E1; [apply bytes_eqb_eq in E1; now left|].
  right. destruct (bytes_eqb t (str "sigusr1")) eqn:E2; [apply bytes_eqb_eq in E2; now left|]. right.
  split; [intros ->; rewrite bytes_eqb_refl in E1; discriminate|]. split; [intros ->; rewrite bytes_eqb_refl in E2; discriminate|reflexivity].
Qed.

(** ---- the client after an answer ---- *)
Lemma loop_type n : forall h acc p result h' l p', client_wait_loop n h acc p result = Ok (TRAX_STATE, h', l, p') -> (result = TRAX_STATE -> h_type h = Some MState) -> h_type h' = Some MState.
Proof.
  induction n as [|n IH]; intros h acc p result h' l p' E H; cbn [client_wait_loop] in E.
  - injection E as -> <- _ _. now apply H.
  - unfold handle_read in E. destruct (read_message (h_type h) (h_in h) props_create) as [r| | |]; try discriminate. cbn [obind] in E.
    destruct (rr_type r) as [[]|] eqn:Et.
    + apply IH in E; [exact E|discriminate].
    + apply IH in E; [exact E|discriminate].
    + apply IH in E; [exact E|discriminate].
    + destruct (rr_args r); [|discriminate]. destruct (copy_out (rr_props r) p ALL_OVERWRITE); discriminate.
    + destruct (rr_args r) as [|a [|]]; try discriminate. destruct (region_parse a) as [[[] [reg|]]| | |]; try discriminate. cbn [obind] in E.
      destruct (region_clone reg); try discriminate. cbn [obind] in E. destruct (copy_properties (rr_props r) props_create ALL_OVERWRITE); try discriminate. cbn [obind] in E.
      apply IH in E; [exact E|]. intros _. cbn [with_in h_type]. reflexivity.
    + discriminate.
Qed.
Lemma wait_type h p h' l p' : client_wait h p = Ok (TRAX_STATE, h', l, p') -> h_type h' = Some MState.
Proof. unfold client_wait. destruct (h_server h); [discriminate|]. destruct (negb (alive h)); [discriminate|]. intros E. apply loop_type in E; [exact E|discriminate]. Qed.
Lemma ready_end h : ready (h_in h) [] -> at_end h.
Proof.
  intros [B D]. unfold stream_bytes in B. apply app_eq_nil in B as [B1 B2]. split; [exact B1|]. unfold delivers in D. destruct (st_script (h_in h)) as [|x l]; [reflexivity|].
  cbn [concat] in B2. apply app_eq_nil in B2 as [-> _]. inversion D. congruence.
Qed.
Lemma frame_keeps legacy h images p code h' : client_frame legacy h images None p = Ok (code, h') -> h_in h' = h_in h /\ h_type h' = h_type h /\ h_server h' = h_server h.
Proof.
  unfold client_frame. destruct (h_server h) eqn:S0; [discriminate|]. cbv zeta. destruct (negb (alive (clear_error h))).
  { intros E. injection E as _ <-. split; [reflexivity|]. split; [reflexivity|exact S0]. }
  cbn [List.length Z.of_nat]. assert (F : forall h1, h_in h1 = h_in h -> h_type h1 = h_type h -> h_server h1 = false -> send_frame h1 images p = Ok (code, h') ->
    h_in h' = h_in h /\ h_type h' = h_type h /\ h_server h' = false).
  { intros h1 A B C E. unfold send_frame in E. destruct (image_arguments (md_channels (h_meta h1)) channel_ids images) as [[a|]| | |]; try discriminate; cbn [obind] in E.
    - destruct (all_texts a); try discriminate. cbn [obind] in E. injection E as _ <-. now split.
    - injection E as _ <-. now split. }
  destruct (is_version_4 (clear_error h)).
  - destruct (if 1 <? h_objects (clear_error h) + 0 then m <- is_multi_object (clear_error h);; Ok (negb m) else Ok false) as [[]| | |]; try discriminate; cbn [obind].
    + intros E. injection E as _ <-. split; [reflexivity|]. split; [reflexivity|exact S0].
    + cbn [send_objects obind]. apply F; [reflexivity|reflexivity|exact S0].
  - change (0 <? 0) with false. cbv iota. apply F; [reflexivity|reflexivity|exact S0].
Qed.
Lemma lost c : h_server c = false -> ready (h_in c) [] -> h_type c = Some MState -> lost_tracker c.
Proof.
  intros S0 R T. pose proof (ready_end c R) as Ae. split.
  - destruct (client_wait_ends c (Some props_create) Ae (or_intror T) S0) as (c' & l & E). now exists c', l, (Some props_create).
  - intros legacy out images p code c1 E. destruct (frame_keeps _ _ _ _ _ _ E) as (A & B & C).
    assert (Ae1 : at_end c1). { unfold at_end. rewrite A. exact Ae. }
    destruct (client_wait_ends c1 (Some props_create) Ae1) as (c' & l & E1); [right; rewrite B; exact T|rewrite C; exact S0|]. now exists c', l, (Some props_create).
Qed.

(** ---- one request ---- *)
Lemma rectangle_steady r : rectangle r -> steady r.
Proof. intros (x & y & w & h & -> & A & B & C & D). now apply steady_rect. Qed.
Lemma rectangle_sendable o : rectangle (fst o) -> clean (snd o) -> object_sendable 2 o.
Proof.
  intros R C. destruct (steady_twice _ (rectangle_steady _ R)) as (r1 & r2 & A1 & _). destruct o as [r p]. cbn [fst snd] in *. destruct R as (x & y & w & h & -> & _).
  split; [discriminate|]. split; [reflexivity|]. split; [now exists r1|exact C].
Qed.
Lemma order_round slack m l q reply : md_region m = 2 -> md_image m = 15 -> md_channels m = 1 -> order_ok slack q -> (List.length l <= 1)%nat -> (l = [] -> ask_init q = true) ->
  Forall state_sendable reply -> List.length reply = 1%nat ->
  round_ok slack m false (List.length l) (as_round q reply) /\ List.length (followed l q) = 1%nat.
Proof.
  intros R I0 Ch (C1 & C2 & Im & Pr & Ob) Ll Li Sr Lr.
  assert (T : List.length (followed l q) = 1%nat).
  { unfold followed. destruct (ask_init q) eqn:Ei.
    - destruct Ob as ((r & p & -> & _) & _). reflexivity.
    - rewrite Ob, app_nil_r. destruct l as [|? [|]]; [discriminate (Li eq_refl)|reflexivity|cbn [List.length] in Ll; lia]. }
  split; [|exact T]. unfold round_ok. cbn [as_round rd_cut1 rd_cut2 rd_images rd_objects rd_props rd_reply rd_init].
  assert (T' : tracked (List.length l) (as_round q reply) = 1%nat).
  { rewrite <- T. unfold tracked, followed. cbn [as_round rd_init rd_objects]. destruct (ask_init q); [reflexivity|]. symmetry. apply app_length. }
  rewrite T', R, I0, Ch. split; [exact C1|]. split; [exact C2|]. split; [exact Im|]. split; [|split; [exact Pr|split; [|split; [lia|split; [lia|split; [exact Lr|exact Sr]]]]]].
  - destruct (ask_init q); [|rewrite Ob; constructor]. destruct Ob as ((r & p & -> & Hr & Hp) & _). constructor; [|constructor]. now apply rectangle_sendable.
  - intros Ei. rewrite Ei in Ob. destruct Ob as ((r & p & -> & _) & _). discriminate.
Qed.

Definition knows (l : object_list) (t : bad) : Prop := l = [] \/ exists mem, bd_memory t = Some mem /\ Forall2 held l mem.
Definition in_range (q : ask) (t : bad) : Prop := ask_init q = true \/ INT_MIN < bd_time t <= INT_MAX.

Lemma countdown h mem time type : INT_MIN < time <= INT_MAX ->
  bad_countdown (mkBad h mem time type) = Ok (if time <=? 1 then Killed (bad_signal type) else GoesOn, mkBad h mem (time - 1) type).
Proof.
  intros H. unfold bad_countdown, int_result. cbn [bd_time bd_handle bd_memory bd_type].
  replace (in_int (time - 1)) with true by (symmetry; apply in_int_of; unfold INT_MIN, INT_MAX in *; lia). cbn [obind].
  destruct (Z.leb_spec (time - 1) 0), (Z.leb_spec time 1); (reflexivity || lia).
Qed.
Lemma asks_time_range p time : asks_time p time -> in_int time = true.
Proof. unfold asks_time. destruct p as [p|]; [|intros ->; reflexivity]. intros [[_ ->]|(t & _ & _ & H)]; [reflexivity|exact H]. Qed.

Lemma bad_answers slack m q reply sn l t s1 p : seen_ok slack m (List.length l) (as_round q reply) sn -> order_ok slack q -> knows l t -> in_range q t ->
  (l = [] -> ask_init q = true) -> sn_props sn = Some p -> exists mem time type, Forall2 held (followed l q) mem /\
    (if ask_init q then asks_time (ask_props q) time /\ asks_signal (ask_props q) (bad_signal type) else time = bd_time t /\ type = bd_type t) /\
    INT_MIN < time <= INT_MAX /\
    forall replied s2, server_reply_mot s1 mem = Ok (replied, s2) ->
    bad_answer (mkRequest (sn_event sn) (sn_objects sn) p) (mkBad s1 (bd_memory t) (bd_time t) (bd_type t)) =
      Ok (if time <=? 1 then Killed (bad_signal type) else GoesOn, mkBad s2 (Some mem) (time - 1) type).
Proof.
  intros (_ & Ev & _ & Ob & (p' & Ep & Sp) & _) (C1 & C2 & Im & Pr & Oo) Kn Ra Li Ep'. rewrite Ep in Ep'. injection Ep' as ->.
  cbn [as_round rd_init rd_objects rd_props] in *. unfold bad_answer. cbn [rq_event rq_objects rq_props]. rewrite Ev. unfold followed.
  destruct (ask_init q) eqn:Ei; cbn [orb].
  - destruct Oo as ((r & pr & Eo & Hr & Hp) & (time & Ht & Hmin)). rewrite Eo in *. destruct Ob as (l' & El & Al). rewrite El.
    destruct (signal_read p (ask_props q) Sp) as (ty & Et & As). { destruct (ask_props q); [apply Pr|exact Logic.I]. }
    assert (Rt : INT_MIN < time <= INT_MAX). { pose proof (asks_time_range _ _ Ht) as X. apply in_int_iff in X. unfold INT_MIN, INT_MAX in *. lia. }
    exists l', time, (break_type ty). split; [|split; [now split|split; [exact Rt|]]].
    + inversion Al as [|a b la lb (A1 & A2 & A3) A4]; subst. inversion A4; subst. constructor; [|constructor]. split; [exact (rectangle_steady _ Hr)|]. split; [exact Hp|]. split; [exact A1|]. now split.
    + intros replied s2 Rp. change (TRAX_INITIALIZE =? TRAX_INITIALIZE) with true. cbv iota. unfold bad_initialize. rewrite (time_read p (ask_props q) time Sp Ht). cbn [obind]. rewrite Et. cbn [obind cpp_reply_list bd_handle].
      rewrite Rp. cbn [obind snd]. exact (countdown s2 (Some l') time (break_type ty) Rt).
  - destruct Kn as [->|(mem & Em & Hm)]; [discriminate (Li eq_refl)|]. rewrite Oo, app_nil_r. destruct Ra as [Ra|Ra]; [congruence|].
    assert (Nl : l <> []) by (intros ->; discriminate (Li eq_refl)). assert (N0 : Nat.eqb (List.length l) 0 = false) by (destruct l; [congruence|reflexivity]). rewrite N0.
    exists mem, (bd_time t), (bd_type t). split; [exact Hm|]. split; [now split|]. split; [exact Ra|]. intros replied s2 Rp.
    change (TRAX_FRAME =? TRAX_INITIALIZE) with false. change (TRAX_FRAME =? TRAX_FRAME) with true. cbv iota. unfold bad_frame. cbn [bd_handle bd_memory bd_time bd_type]. rewrite Em. cbn [cpp_reply_list].
    rewrite Rp. cbn [obind snd]. exact (countdown s2 (Some mem) (bd_time t) (bd_type t) Ra).
Qed.

Lemma bad_step legacy slack m l c t q : md_region m = 2 -> md_image m = 15 -> md_channels m = 1 ->
  client_side m false (List.length l) c -> server_side m false (List.length l) (bd_handle t) -> order_ok slack q -> knows l t -> in_range q t -> (List.length l <= 1)%nat -> (l = [] -> ask_init q = true) ->
  exists c' t' res time, bad_round legacy slack c t q = Ok (c', t', if time <=? 1 then Killed (bad_signal (bd_type t')) else GoesOn, (TRAX_STATE, Some res)) /\
    bd_time t' = time - 1 /\
    (if ask_init q then asks_time (ask_props q) time /\ asks_signal (ask_props q) (bad_signal (bd_type t')) else time = bd_time t /\ bd_type t' = bd_type t) /\
    INT_MIN < time <= INT_MAX /\ Forall2 object_stays (followed l q) res /\ List.length (followed l q) = 1%nat /\
    client_side m false 1 c' /\ server_side m false 1 (bd_handle t') /\ knows (followed l q) t' /\ h_type c' = Some MState.
Proof.
  intros R I0 Ch Hc Hs Hq Kn Ra Ll Li. assert (Hch : 1 <= md_channels m <= 7) by lia.
  destruct (order_round slack m l q [(RSpecial 2, props_create)] R I0 Ch Hq Ll Li ltac:(constructor; [exact special_sendable|constructor]) eq_refl) as (K0 & T).
  destruct (round_delivers legacy slack m false (List.length l) c (bd_handle t) _ Hc Hs Hch K0) as (c0 & s0 & sn & E0 & _ & _ & Sn).
  destruct (play_parts _ _ _ _ _ _ _ E0) as (sent & c1 & event & s1 & images & objects & p & replied0 & s20 & state0 & c20 & result0 & p20 & Es & Ew & _ & _ & Ex).
  injection Ex as -> -> ->. clear E0. pose proof Sn as (_ & _ & _ & _ & (p' & Ep & _) & _). cbn [sn_props] in Ep. subst p.
  destruct (bad_answers slack m q _ _ l t s1 p' Sn Hq Kn Ra Li eq_refl) as (mem & time & type & Hm & Ti & Rt & An). cbn [sn_event sn_objects] in An.
  destruct (order_round slack m l q mem R I0 Ch Hq Ll Li) as (K1 & _).
  { clear - Hm. induction Hm as [|o x la lb H _ IH]; constructor; [exact (held_sendable o x H)|exact IH]. }
  { rewrite (forall2_len _ _ _ Hm). exact T. }
  destruct (round_delivers legacy slack m false (List.length l) c (bd_handle t) _ Hc Hs Hch K1) as (c' & s' & sn1 & E1 & Hc' & Hs' & Sn1).
  destruct (play_parts _ _ _ _ _ _ _ E1) as (sent' & c1' & event' & s1' & images' & objects' & p1 & replied & s2 & state & c2 & result & p2 & Es' & Ew' & Er & Ec & Ex).
  rewrite Es in Es'. injection Es' as <- <-. rewrite Ew in Ew'. injection Ew' as <- <- <- <- <-. injection Ex as -> -> ->.
  destruct Sn1 as (_ & _ & _ & _ & _ & _ & St & (res & Rs & Ar)). cbn [sn_state sn_result as_round rd_reply] in St, Rs, Ar. subst state result.
  assert (T' : tracked (List.length l) (as_round q mem) = 1%nat).
  { rewrite <- T. unfold tracked, followed. cbn [as_round rd_init rd_objects]. destruct (ask_init q); [reflexivity|]. symmetry. apply app_length. }
  rewrite T' in Hc', Hs'.
  exists c2, (mkBad s2 (Some mem) (time - 1) type), res, time. cbn [bd_time bd_type bd_handle].
  split; [|split; [reflexivity|split; [exact Ti|split; [exact Rt|split; [|split; [exact T|split; [exact Hc'|split; [exact Hs'|split; [right; exists mem; now split|exact (wait_type _ _ _ _ _ Ec)]]]]]]]]].
  - unfold bad_round. rewrite Es. cbn [obind]. unfold bad_wait. cbn [bd_handle bd_memory bd_time bd_type]. rewrite Ew. cbn [obind fst snd].
    rewrite (An replied s2 Er). cbn [obind fst snd bd_handle]. rewrite Ec. reflexivity.
  - clear - Hm Ar. revert res Ar. induction Hm as [|o x l0 l1 H _ IH]; intros res Ar; inversion Ar as [|a b l2 l3 A1 A2]; subst; constructor; [exact (held_stays o x b H A1)|now apply IH].
Qed.

(** ---- a session ---- *)
Lemma last_start_once qs n i q j q' : last_start qs n i q -> last_start qs n j q' -> i = j /\ q = q'.
Proof.
  intros (A1 & A2 & A3 & A4) (B1 & B2 & B3 & B4). assert (X : i = j).
  { destruct (Nat.lt_trichotomy i j) as [L|[E|L]]; [|exact E|].
    - pose proof (A4 j q' (conj L B1) B2). congruence.
    - pose proof (B4 i q (conj L A1) A2). congruence. }
  subst j. split; [reflexivity|congruence].
Qed.
Lemma not_due qs n i q time sg : last_start qs n i q -> asks_time (ask_props q) time -> Z.of_nat (n - i) < time -> ~ due qs n sg.
Proof.
  intros L T H (j & q' & time' & L' & T' & _ & H'). destruct (last_start_once _ _ _ _ _ _ L L') as (-> & ->). rewrite (asks_time_once _ _ _ T T') in H. lia.
Qed.
Lemma start_here qs n q : nth_error qs n = Some q -> ask_init q = true -> last_start qs (S n) n q.
Proof. intros A B. split; [lia|]. split; [exact A|]. split; [exact B|]. intros j q' H. lia. Qed.
Lemma start_kept qs n i q0 q : last_start qs n i q0 -> nth_error qs n = Some q -> ask_init q = false -> last_start qs (S n) i q0.
Proof.
  intros (A1 & A2 & A3 & A4) N0 B. split; [lia|]. split; [exact A2|]. split; [exact A3|]. intros j q' H E.
  destruct (Nat.eq_dec j n) as [->|Ne]; [congruence|]. apply (A4 j q'); [lia|exact E].
Qed.

(** The state of the program after [n] requests *)
Definition counting (qs : list ask) (n : nat) (l : object_list) (t : bad) : Prop :=
  (n = 0%nat /\ l = []) \/
  exists i q time, last_start qs n i q /\ asks_time (ask_props q) time /\ asks_signal (ask_props q) (bad_signal (bd_type t)) /\
    bd_time t = time - Z.of_nat (n - i) /\ Z.of_nat (n - i) < time /\ List.length l = 1%nat.
Lemma counting_not_due qs n l t sg : counting qs n l t -> ~ due qs n sg.
Proof.
  intros [[-> _]|(i & q & time & L & T & _ & _ & H & _)]; [|exact (not_due qs n i q time sg L T H)].
  intros (i & q & time & (A & _) & _). lia.
Qed.

Lemma bad_quits fuel slack m n c t reason cut : 1 <= md_channels m <= 7 -> client_side m false n c -> server_side m false n (bd_handle t) -> text_ok reason = true -> cutter cut ->
  bad_ending slack (S fuel) c t reason cut = Ok Leaves.
Proof.
  intros Hch (_ & Tc & _ & _ & _ & _ & _ & Oc & _) (K1 & K2 & K3 & _ & _ & _ & _ & Rd) Hr Hcut.
  destruct (terminate_ok c (Some reason) Tc Oc Hr) as (p & c' & Et & Cl & (Sb & _) & _). unfold bad_ending. rewrite Et. cbn [obind snd].
  assert (Wr : written c c' = wire MQuit [] (props_enum p)). { unfold written. rewrite Sb. rewrite skipn_app, skipn_all, Nat.sub_diag. reflexivity. }
  rewrite Wr. pose proof (arrive_ready cut (wire MQuit [] (props_enum p)) (bd_handle t) Hcut Rd) as Ra. set (a := arrive cut (wire MQuit [] (props_enum p)) (bd_handle t)) in *.
  assert (A1 : h_server a = true) by exact K1. assert (A2 : h_terminated a = false) by exact K2. assert (A3 : h_meta a = h_meta (bd_handle t)) by reflexivity.
  unfold bad_wait, server_wait_mot. cbn [bd_handle bd_memory bd_time bd_type]. rewrite A1. cbn [negb]. cbv zeta. unfold alive. cbn [clear_error h_terminated]. rewrite A2. cbn [negb].
  change (h_meta (clear_error a)) with (h_meta a). rewrite A3, K3, (count_channels _ Hch). cbn [obind wait_mot_loop].
  rewrite <- (app_nil_r (wire _ _ _)) in Ra.
  destruct (handle_read_wire (clear_error a) MQuit [] p [] Cl eq_refl Ra) as (r & st & E & Er & Ea & Mr & _).
  change (mkHandle _ _ _ _ _ _ _ _ _) with (clear_error a). rewrite E. cbn [obind].
  rewrite Er, Ea. cbn [List.length]. change (Z.of_nat 0 =? 0) with true. cbn [negb]. unfold copy_out.
  destruct (copy_external_spec (rr_props r) props_create (made_ok _ Mr) props_create_ok) as (q & Eq & _).
  change (Z.lor COPY_EXTERNAL COPY_OVERWRITE) with EXTERNAL_OVERWRITE in Eq. rewrite Eq. cbn [obind mot_end fst snd].
  unfold bad_answer. cbn [rq_event]. change (TRAX_QUIT =? TRAX_INITIALIZE) with false. change (TRAX_QUIT =? TRAX_FRAME) with false. cbv iota. reflexivity.
Qed.

Definition ended (qs : list ask) (slack n : nat) (c : handle) (t : bad) (f : fate) (last : nat) : Prop :=
  (f = GoesOn /\ n = last /\ (forall sg, ~ due qs n sg) /\
    forall fuel reason cut, text_ok reason = true -> cutter cut -> bad_ending slack (S fuel) c t reason cut = Ok Leaves) \/
  (exists sg, f = Killed sg /\ due qs n sg /\ lost_tracker c).

Lemma bad_run legacy slack m qs : md_region m = 2 -> md_image m = 15 -> md_channels m = 1 -> Forall (order_ok slack) qs -> forall rest n l c t,
  skipn n qs = rest -> (n <= List.length qs)%nat -> (l = [] -> match rest with [] => True | q :: _ => ask_init q = true end) ->
  client_side m false (List.length l) c -> server_side m false (List.length l) (bd_handle t) -> counting qs n l t -> knows l t ->
  exists c' t' f sns, bad_rounds legacy slack c t rest = Ok (c', t', f, sns) /\ reports l (firstn (List.length sns) rest) sns /\
    (forall j sg, (n <= j < n + List.length sns)%nat -> ~ due qs j sg) /\ ended qs slack (n + List.length sns) c' t' f (List.length qs).
Proof.
  intros R I0 Ch Fo. induction rest as [|q rest IH]; intros n l c t Sk Ln Li Hc Hs Co Kn; cbn [bad_rounds].
  - exists c, t, GoesOn, []. cbn [List.length firstn]. split; [reflexivity|]. split; [exact Logic.I|]. split; [lia|]. left. split; [reflexivity|].
    rewrite Nat.add_0_r. split; [|split; [intros sg; exact (counting_not_due _ _ _ _ sg Co)|]].
    + pose proof (skipn_length n qs) as X. rewrite Sk in X. cbn [List.length] in X. lia.
    + intros fuel reason cut Hr Hcut. apply (bad_quits fuel slack m (List.length l) c t reason cut); try assumption. lia.
  - assert (Nq : nth_error qs n = Some q). { rewrite <- (firstn_skipn n qs), Sk, nth_error_app2; rewrite firstn_length, Nat.min_l by lia; [|lia]. now rewrite Nat.sub_diag. }
    assert (Hq : order_ok slack q) by exact (proj1 (Forall_forall _ _) Fo q (nth_error_In _ _ Nq)).
    assert (Sk' : skipn (S n) qs = rest). { clear - Sk. revert n Sk. induction qs as [|x qs IH]; intros [|n] Sk; try discriminate; [now injection Sk|]. exact (IH n Sk). }
    assert (Ln' : (S n <= List.length qs)%nat). { assert (X : nth_error qs n <> None) by congruence. apply nth_error_Some in X. lia. }
    assert (Ll : (List.length l <= 1)%nat). { destruct Co as [[_ ->]|(i & q0 & time & _ & _ & _ & _ & _ & L)]; cbn [List.length]; lia. }
    assert (Ra : in_range q t).
    { destruct (ask_init q) eqn:Ei; [now left|]. right. destruct Co as [[_ ->]|(i & q0 & time & _ & T & _ & B & H & _)]; [discriminate (Li eq_refl)|].
      pose proof (proj1 (in_int_iff _) (asks_time_range _ _ T)) as X. unfold INT_MIN, INT_MAX in *. lia. }
    destruct (bad_step legacy slack m l c t q R I0 Ch Hc Hs Hq Kn Ra Ll Li) as (c1 & t1 & res & time & E & B1 & Ti & Rt & St & T1 & Hc1 & Hs1 & Kn1 & Ty).
    rewrite E. cbn [obind].
    assert (Q : exists i q0 time0, last_start qs (S n) i q0 /\ asks_time (ask_props q0) time0 /\ asks_signal (ask_props q0) (bad_signal (bd_type t1)) /\ time - 1 = time0 - Z.of_nat (S n - i)).
    { destruct (ask_init q) eqn:Ei.
      - destruct Ti as [Ti Sg]. exists n, q, time. split; [exact (start_here qs n q Nq Ei)|]. split; [exact Ti|]. split; [exact Sg|]. lia.
      - destruct Ti as [-> Tt]. destruct Co as [[_ ->]|(i & q0 & time0 & L & T & Sg & B & H & _)]; [discriminate (Li eq_refl)|].
        exists i, q0, time0. split; [exact (start_kept qs n i q0 q L Nq Ei)|]. split; [exact T|]. split; [now rewrite Tt|]. destruct L as [L _]. lia. }
    destruct Q as (i & q0 & time0 & L & T & Sg & H). assert (Li' : (i < S n)%nat) by apply L.
    destruct (Z.leb_spec time 1) as [Le|Gt].
    + exists c1, t1, (Killed (bad_signal (bd_type t1))), [(TRAX_STATE, Some res)]. split; [reflexivity|]. cbn [List.length firstn reports].
      split; [split; [reflexivity|split; [exists res; now split|exact Logic.I]]|]. split.
      * intros j sg Hj. replace j with n by lia. exact (counting_not_due _ _ _ _ sg Co).
      * right. exists (bad_signal (bd_type t1)). split; [reflexivity|]. replace (n + 1)%nat with (S n) by lia. split; [exists i, q0, time0; split; [exact L|split; [exact T|split; [exact Sg|lia]]]|].
        destruct Hc1 as (A1 & _ & _ & _ & _ & _ & _ & _ & A9). exact (lost c1 A1 A9 Ty).
    + assert (Co1 : counting qs (S n) (followed l q) t1).
      { right. exists i, q0, time0. split; [exact L|]. split; [exact T|]. split; [exact Sg|]. split; [lia|]. split; [lia|exact T1]. }
      destruct (IH (S n) (followed l q) c1 t1 Sk' Ln') as (c2 & t2 & f & sns & E2 & Rp & Nd & En).
      { intros X. rewrite X in T1. discriminate. } { rewrite T1. exact Hc1. } { rewrite T1. exact Hs1. } { exact Co1. } { exact Kn1. }
      rewrite E2. cbn [obind]. exists c2, t2, f, ((TRAX_STATE, Some res) :: sns). split; [reflexivity|]. cbn [List.length firstn reports].
      split; [split; [reflexivity|split; [exists res; now split|exact Rp]]|]. split.
      * intros j sg Hj. destruct (Nat.eq_dec j n) as [->|Ne]; [exact (counting_not_due _ _ _ _ sg Co)|]. apply Nd. lia.
      * replace (n + S (List.length sns))%nat with (S n + List.length sns)%nat by lia. exact En.
Qed.

Lemma bad_metadata_ok m : bad_metadata = Ok m -> metadata_ok m 0 /\ md_region m = 2 /\ md_image m = 15 /\ md_channels m = 1 /\ multi_object m 0 = false.
Proof.
  intros E. assert (Hm : m = mkMeta 2 15 1 None None None props_create (Some 0)) by (unfold bad_metadata, metadata_create in E; injection E as E; symmetry; exact E). subst m.
  split; [|split; [reflexivity|split; [reflexivity|split; [reflexivity|reflexivity]]]].
  split; [unfold TRAX_VERSION; lia|]. split; [exact SessionProofs.clean_create|]. cbn [md_custom md_name md_description md_family md_channels md_flags]. split.
  - intros k v G. rewrite (props_get_spec _ _ props_create_ok) in G. unfold props_create in G. rewrite sm_new_lookup in G. discriminate.
  - split; [repeat (apply Forall_cons; [exact Logic.I|]); apply Forall_nil|]. split; [lia|discriminate].
Qed.

Lemma bad_session legacy slack time m cut sched_s sched_c qs : bad_metadata = Ok m -> cutter cut -> no_error sched_s -> no_error sched_c -> orders_ok slack qs ->
  exists c s c' t' f sns, connect m 0 cut sched_s sched_c = Ok (Some (c, s)) /\ bad_rounds legacy slack c (bad_start s time) qs = Ok (c', t', f, sns) /\
    reports [] (firstn (List.length sns) qs) sns /\ (forall n sg, (n < List.length sns)%nat -> ~ due qs n sg) /\
    ((f = GoesOn /\ List.length sns = List.length qs /\ (forall sg, ~ due qs (List.length qs) sg) /\
       forall fuel reason cut', text_ok reason = true -> cutter cut' -> bad_ending slack (S fuel) c' t' reason cut' = Ok Leaves) \/
     exists sg, f = Killed sg /\ due qs (List.length sns) sg /\ lost_tracker c').
Proof.
  intros Em Hcut Hs Hc [Fo Hd]. destruct (bad_metadata_ok m Em) as (Hm & R & I0 & Ch & Mu).
  destruct (connect_ok m 0 cut sched_s sched_c Hm Hcut Hs Hc)
    as (c & s & E & Vc & Vs & Hcv & A1 & A2 & A3 & A4 & A5 & A6 & A7 & A8 & A9 & A10 & A11 & A12 & A13).
  destruct Hcv as (B1 & B2 & B3 & B4 & B5 & B6 & B7 & B8). change (spoken 0 =? 1) with false in B3. cbv iota in B3. rewrite Mu in *.
  assert (Hcs : client_side m false 0 c).
  { unfold client_side. split; [exact A1|]. split; [exact A3|]. split; [unfold is_version_4; rewrite Vc; reflexivity|]. split; [exact B1|]. split; [exact B3|].
    split; [unfold is_multi_object; rewrite B8; reflexivity|]. split; [exact A5|]. split; [exact A9|exact A7]. }
  assert (Hss : server_side m false 0 s).
  { unfold server_side. split; [exact A2|]. split; [exact A4|]. split; [exact A11|]. split; [exact A12|]. split; [apply A13; reflexivity|]. split; [exact A6|]. split; [exact A10|exact A8]. }
  destruct (bad_run legacy slack m qs R I0 Ch Fo qs 0%nat [] c (bad_start s time) eq_refl ltac:(lia)) as (c' & t' & f & sns & Er & Rp & Nd & En).
  { intros _. exact Hd. } { exact Hcs. } { exact Hss. } { left. now split. } { now left. }
  exists c, s, c', t', f, sns. split; [exact E|]. split; [exact Er|]. split; [exact Rp|]. split; [intros n sg H; apply Nd; lia|].
  cbn [Nat.add] in En. destruct En as [(F & L & Nx & Q)|En]; [left|right; exact En]. split; [exact F|]. split; [exact L|]. split; [rewrite <- L; exact Nx|exact Q].
Qed.

(** ---- the sample session and the defects ---- *)
Lemma bad_images_arrive : exists ims, images_arrive 0 TRAX_CHANNEL_COLOR 15 bad_images ims.
Proof.
  destruct (path_arrives 0 (str "/a b.jpg") _ eq_refl eq_refl) as (a & Ha & Ta & _).
  exists [Some a; None; None]. split; [reflexivity|]. split; [reflexivity|]. intros k Hk.
  destruct k as [|[|[|k]]]; [| | |lia]; cbn [Z.testbit Z.of_nat Pos.of_succ_nat Pos.succ Pos.testbit nth bad_images TRAX_CHANNEL_COLOR].
  - eexists. exists a. split; [reflexivity|]. split; [reflexivity|]. split; [exact Ha|]. now rewrite Ta.
  - reflexivity.
  - reflexivity.
Qed.
Lemma sample_rect_ok : rectangle sample_rect.
Proof. exists (fl 1), (fl 2), (fl 3), (fl 4). split; [reflexivity|]. split; [fine|]. split; [fine|]. split; fine. Qed.
Lemma sample_set k v k' : bytes_eqb k k' = true -> props_get (sample_props k v) k' = Ok (Some v).
Proof.
  intros B. unfold sample_props. destruct (made_set props_create k v made_create) as (p & E & M & L). rewrite E, (props_get_spec p _ (made_ok p M)), L. unfold pm_set. now rewrite B.
Qed.
Lemma sample_unset k v k' : bytes_eqb k k' = false -> props_get (sample_props k v) k' = Ok None.
Proof.
  intros B. unfold sample_props. destruct (made_set props_create k v made_create) as (p & E & M & L). rewrite E, (props_get_spec p _ (made_ok p M)), L. unfold pm_set. rewrite B.
  unfold props_create. now rewrite sm_new_lookup.
Qed.
Lemma three : int_text (str "3") 3.
Proof. exact (print_Z_int_text 3). Qed.
Lemma time_three : asks_time (Some (sample_props (str "break_time") (str "3"))) 3.
Proof. right. exists (str "3"). split; [apply sample_set; reflexivity|]. split; [exact three|reflexivity]. Qed.
Lemma time_default : asks_time (Some (sample_props (str "break_type") (str "sigsegv"))) 5.
Proof. left. split; [apply sample_unset; reflexivity|reflexivity]. Qed.
Lemma sample_orders_ok : orders_ok 0 sample_orders.
Proof.
  split; [|reflexivity]. unfold sample_orders.
  repeat (apply Forall_cons; [unfold order_ok; cbn [ask_cut1 ask_cut2 ask_images ask_objects ask_props ask_init]|]); [| | | | | | | |apply Forall_nil].
  all: (split; [first [apply byte_cutter|apply whole_cutter]|]); (split; [first [apply byte_cutter|apply whole_cutter]|]); (split; [exact bad_images_arrive|]).
  1,3: (split; [apply clean_sample; reflexivity|]); split.
  1,3: eexists _, _; (split; [reflexivity|]); (split; [exact sample_rect_ok|]); first [apply SessionProofs.clean_create|apply clean_sample; reflexivity].
  1: exists 3; split; [exact time_three|reflexivity].
  1: exists 5; split; [exact time_default|reflexivity].
  all: split; [exact Logic.I|reflexivity].
Qed.
Lemma sample_due : due sample_orders 7 SIGSEGV.
Proof.
  eexists 2%nat, _, 5. split; [split; [lia|split; [reflexivity|split; [reflexivity|]]]|].
  - intros j q' Hj E. destruct j as [|[|[|[|[|[|[|j]]]]]]]; try lia; cbn [nth_error sample_orders] in E; injection E as <-; reflexivity.
  - cbn [ask_props]. split; [exact time_default|]. split; [|reflexivity]. unfold asks_signal. rewrite (sample_set (str "break_type") (str "sigsegv") (str "break_type") eq_refl). left. now split.
Qed.

(** A first request that gives a time *)
Definition order_with (p : props) : ask := mkAsk true bad_images [(sample_rect, props_create)] (Some p) whole_cut whole_cut.
Definition sample_bad : metadata := match bad_metadata with Ok m => m | _ => sample_metadata end.
Lemma smallest_time : exists c s, connect sample_bad 0 whole_cut [] [] = Ok (Some (c, s)) /\
  bad_round false 0 c (bad_start s 1) (order_with (sample_props (str "break_time") (str "-2147483648"))) = UB.
Proof. eexists. eexists. split; [vm_compute; reflexivity|]. vm_compute. reflexivity. Qed.
Lemma empty_time : exists c s, connect sample_bad 0 whole_cut [] [] = Ok (Some (c, s)) /\
  bad_round false 0 c (bad_start s 1) (order_with (sample_props (str "break_time") [])) = UB.
Proof. eexists. eexists. split; [vm_compute; reflexivity|]. vm_compute. reflexivity. Qed.
Lemma large_time : exists c s, connect sample_bad 0 whole_cut [] [] = Ok (Some (c, s)) /\
  bad_round false 0 c (bad_start s 1) (order_with (sample_props (str "break_time") (str "3000000000"))) = UB.
Proof. eexists. eexists. split; [vm_compute; reflexivity|]. vm_compute. reflexivity. Qed.
