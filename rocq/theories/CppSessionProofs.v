(** Sessions with the C++ classes *)
From Verif Require Import CBase StrMap Props PropsSpec StrMapProofs PropsProofs Buffer BufferProofs Message MessageSpec MessageProofs MessageApi
  Num Region RegionGeom Image Formats FormatsSpec FormatsProofs Handle SessionSpec HandleProofs SessionProofs HandshakeProofs SendableProofs ListsSpec ListsProofs CppSession CppSessionSpec.
Local Open Scope Z_scope.

(** ---- Dictionaries ---- *)
Lemma append_empty q p : made q -> same_props q props_create -> props_append q p false = Ok p.
Proof.
  intros Hm S. unfold props_append, copy_properties. destruct (enum_enumerates q (made_ok q Hm)) as [_ En].
  replace (props_enum q) with (@nil (list N * list N)); [reflexivity|]. symmetry. destruct (props_enum q) as [|[k v] l] eqn:E; [reflexivity|]. exfalso.
  assert (L : sm_lookup q k = Some v). { apply En. change (sm_enum q) with (props_enum q). rewrite E. now left. }
  specialize (S k). rewrite (props_get_spec q k (made_ok q Hm)), (props_get_spec _ k props_create_ok), L in S. unfold props_create in S. rewrite sm_new_lookup in S. discriminate.
Qed.
Lemma append_new q : made q -> exists d, props_append q props_create false = Ok d /\ same_props d q.
Proof. intros Hm. destruct (copy_new q 1 Hm (or_introl eq_refl)) as (r & E & S & _). exists r. split; [exact E|exact S]. Qed.
Lemma wait_loop_dictionary n : forall h acc p result code h' l p', client_wait_loop n h acc p result = Ok (code, h', Some l, p') -> p' = p.
Proof.
  induction n as [|n IH]; intros h acc p result code h' l p' E; cbn [client_wait_loop] in E; [congruence|].
  destruct (handle_read h) as [[r h1]| | |]; try discriminate. cbn [obind] in E. destruct (rr_type r) as [[]|]; try (exact (IH _ _ _ _ _ _ _ _ E)); try discriminate.
  - destruct (rr_args r); [|discriminate]. destruct (copy_out _ _ _); discriminate.
  - destruct (rr_args r) as [|a [|]]; try discriminate. destruct (region_parse a) as [[[] [reg|]]| | |]; try discriminate. cbn [obind] in E.
    destruct (region_clone reg); try discriminate. cbn [obind] in E. destruct (copy_properties _ _ _); try discriminate. cbn [obind] in E. exact (IH _ _ _ _ _ _ _ _ E).
Qed.
Lemma wait_dictionary h p code h' l p' : client_wait h p = Ok (code, h', Some l, p') -> p' = p.
Proof. unfold client_wait. destruct (h_server h); [discriminate|]. destruct (negb (alive h)); [discriminate|]. apply wait_loop_dictionary. Qed.
Lemma arrived_one (o : region * props) (l : object_list) : objects_arrive [o] l -> exists r q, l = [(r, q)] /\ region_arrives (fst o) r /\ same_props q (snd o) /\ made q.
Proof. intros H. inversion H as [|? [r q] ? ? (A & B & C) N]; subst. inversion N; subst. exists r, q. auto. Qed.

(** ---- ServerMOT ---- *)
Definition objects_of (r : cround) : object_list := match cr_start r with Some reg => [(reg, props_create)] | None => [] end.
Definition to_round (r : cround) : round :=
  mkRound (match cr_start r with Some _ => true | None => false end) (cr_images r) (objects_of r) (Some (cr_props r)) [(cr_reply r, props_create)] (cr_cut1 r) (cr_cut2 r).
Lemma mot_round legacy slack m n c s c' s' r sn : cround_ok slack m r -> (cr_start r = None -> n <> 0%nat) -> play_round legacy slack c s (to_round r) = Ok (c', s', sn) ->
  seen_ok slack m n (to_round r) sn ->
  exists csn, cpp_round false legacy slack c s r = Ok (c', s', csn) /\ cseen_ok slack m r csn /\ same_props (cs_answer_props csn) props_create.
Proof.
  intros (_ & _ & _ & Hst & Hp & Hw & (rr & Hr) & Hq) Hn E (S1 & S2 & (ims & S3 & S3') & S4 & (p & S5 & S5') & S6 & S7 & (l & S8 & S8')).
  unfold to_round in S2, S3', S4, S5', S8'. unfold play_round, to_round in E. cbn [rd_init rd_images rd_objects rd_props rd_reply rd_cut1 rd_cut2] in *.
  unfold cpp_round.
  assert (A : forall x, (if match cr_start r with Some _ => true | None => false end then client_initialize legacy c (cr_images r) (objects_of r) (Some (cr_props r))
      else client_frame legacy c (cr_images r) (Some (objects_of r)) (Some (cr_props r))) = x ->
      match cr_start r with Some reg => cpp_initialize legacy c (cr_images r) reg (cr_props r) | None => cpp_frame legacy c (cr_images r) (cr_props r) end = x).
  { intros x <-. unfold objects_of. destruct (cr_start r) as [reg|]; [|reflexivity]. destruct Hst as (_ & _ & Hwh & _). unfold cpp_initialize. rewrite (whole_clone reg Hwh). reflexivity. }
  destruct (if match cr_start r with Some _ => true | None => false end then _ else _) as [[sent c1]| | |] eqn:E1; try discriminate. rewrite (A _ eq_refl). clear A. cbn [obind] in E |- *.
  replace (match cr_start r with Some _ => 4%nat | None => 3%nat end) with (3 + List.length (objects_of r))%nat by (unfold objects_of; destruct (cr_start r); reflexivity).
  unfold cpp_server_wait.
  destruct (server_wait_mot (3 + List.length (objects_of r)) slack (arrive (cr_cut1 r) (written c c1) s) None (Some props_create)) as [[[[[event s1] images] objects] p0]| | |] eqn:E2; try discriminate.
  cbn [obind] in E |- *.
  destruct (server_reply_mot s1 [(cr_reply r, props_create)]) as [[replied s2]| | |] eqn:E3; try discriminate. cbn [obind] in E.
  destruct (client_wait (arrive (cr_cut2 r) (written s1 s2) c1) (Some props_create)) as [[[[state c2] result] p1]| | |] eqn:E4; try discriminate. cbn [obind] in E.
  apply (f_equal (fun x => match x with Ok y => y | _ => (c, s, sn) end)) in E. apply pair_equal_spec in E as [E E']. apply pair_equal_spec in E as [Ec Es]. subst c2 s2 sn.
  cbn [sn_sent sn_event sn_images sn_objects sn_props sn_replied sn_state sn_result] in *. subst sent images p0 replied state result. cbn [dictionary].
  destruct (arrived_one _ _ S8') as (ra & qa & -> & R1 & R2 & R3). cbn [fst snd] in R1, R2.
  assert (P1 : p1 = Some props_create) by exact (wait_dictionary _ _ _ _ _ _ E4). subst p1.
  destruct (append_new qa R3) as (d & Ed & Sd).
  assert (W : exists reg, region_there (cr_start r) reg /\ single_object event s1 objects None p = Ok (event, s1, reg, p)).
  { unfold objects_of in S4. destruct (cr_start r) as [reg|]; cbv iota in S4.
    - destruct S4 as (l' & -> & Hl). destruct (arrived_one _ _ Hl) as (rb & qb & -> & T1 & T2 & T3). cbn [fst snd] in T1, T2. exists (Some rb). split; [now exists rb|].
      cbn [single_object]. rewrite (clone_arrives _ _ T1). cbn [obind]. rewrite (append_empty qb p T3 T2). reflexivity.
    - subst objects. exists None. split; reflexivity. }
  destruct W as (reg & W1 & W2). rewrite W2. cbn [obind]. unfold cpp_reply. rewrite (whole_clone _ Hw). cbn [obind].
  rewrite (append_empty props_create (cr_reply_props r) made_create (fun _ => eq_refl)). cbn [obind].
  rewrite E3. cbn [obind fst snd]. unfold cpp_client_wait. rewrite E4. cbn [obind dictionary single_object].
  rewrite (clone_arrives _ _ R1). cbn [obind]. rewrite Ed. cbn [obind].
  eexists. split; [reflexivity|]. split; [|cbn [cs_answer_props]; intros k; now rewrite Sd, R2].
  unfold cseen_ok. cbn [cs_sent cs_event cs_images cs_region cs_props cs_replied cs_state cs_answer].
  split; [reflexivity|]. split; [|split; [exists ims; now split|]].
  - rewrite S2. destruct (cr_start r); [reflexivity|]. cbn [orb]. destruct n; [now elim Hn|reflexivity].
  - split; [exact W1|]. split; [exact S5'|]. split; [reflexivity|]. split; [reflexivity|]. now exists ra.
Qed.
Lemma rounds_map slack m multi rs : Forall (cround_ok slack m) rs -> forall n, (n <= 1)%nat -> n = 1%nat \/ match rs with [] => True | r :: _ => cr_start r <> None end ->
  rounds_ok slack m multi n (map to_round rs).
Proof.
  induction 1 as [|r rs Hr _ IH]; intros n Hle Hn; [exact Logic.I|]. cbn [map rounds_ok].
  assert (T : tracked n (to_round r) = 1%nat).
  { unfold tracked, to_round, objects_of. cbn [rd_init rd_objects]. destruct (cr_start r); [reflexivity|]. cbn [List.length]. destruct Hn as [->|Hn]; [reflexivity|now elim Hn]. }
  rewrite T. split; [|apply IH; [lia|now left]].
  destruct Hr as (H1 & H2 & H3 & H4 & H5 & H6 & H7 & H8). unfold round_ok. rewrite T. unfold to_round, objects_of. cbn [rd_init rd_images rd_objects rd_props rd_reply rd_cut1 rd_cut2].
  split; [exact H1|]. split; [exact H2|]. split; [exact H3|]. split.
  { destruct (cr_start r) as [reg|]; [|apply Forall_nil]. destruct H4 as (A & B & _ & C). apply Forall_cons; [|apply Forall_nil]. unfold object_sendable. cbn [fst snd].
    split; [exact A|]. split; [exact B|]. split; [exact C|]. exact SessionProofs.clean_create. }
  split; [exact H5|]. split; [destruct (cr_start r); discriminate|]. split; [lia|]. split; [lia|]. split; [reflexivity|].
  apply Forall_cons; [|apply Forall_nil]. split; [exact H7|exact SessionProofs.clean_create].
Qed.
Lemma mot_play legacy slack m rs : Forall (cround_ok slack m) rs -> forall n c s c' s' sns, n = 1%nat \/ match rs with [] => True | r :: _ => cr_start r <> None end ->
  (n <= 1)%nat -> play legacy slack c s (map to_round rs) = Ok (c', s', sns) -> all_seen slack m n (map to_round rs) sns ->
  exists csns, cpp_play false legacy slack c s rs = Ok (c', s', csns) /\ Forall2 (cseen_ok slack m) rs csns /\ Forall (fun sn => same_props (cs_answer_props sn) props_create) csns.
Proof.
  induction 1 as [|r rs Hr _ IH]; intros n c s c' s' sns Hn Hle E A.
  - cbn [map play] in E. injection E as <- <- <-. exists []. split; [reflexivity|]. split; constructor.
  - cbn [map play] in E. destruct (play_round legacy slack c s (to_round r)) as [[[c1 s1] sn]| | |] eqn:E1; try discriminate. cbn [obind] in E.
    destruct (play legacy slack c1 s1 (map to_round rs)) as [[[c2 s2] sns']| | |] eqn:E2; try discriminate. cbn [obind] in E. injection E as <- <- <-.
    cbn [map all_seen] in A. destruct A as [A1 A2].
    assert (T : tracked n (to_round r) = 1%nat).
    { unfold tracked, to_round, objects_of. cbn [rd_init rd_objects]. destruct (cr_start r); [reflexivity|]. cbn [List.length]. destruct Hn as [->|Hn]; [reflexivity|now elim Hn]. }
    rewrite T in A2. destruct (mot_round legacy slack m n c s c1 s1 r sn Hr) as (csn & F1 & F2 & F3); [|exact E1|exact A1|].
    { intros X. destruct Hn as [->|Hn]; [discriminate|now elim Hn]. }
    destruct (IH 1%nat c1 s1 c2 s2 sns' (or_introl eq_refl) (le_n 1) E2 A2) as (csns & G1 & G2 & G3).
    exists (csn :: csns). cbn [cpp_play]. rewrite F1. cbn [obind]. rewrite G1. cbn [obind]. split; [reflexivity|]. split; constructor; assumption.
Qed.
Lemma cpp_delivers legacy slack m version cut sched_s sched_c rs : metadata_ok m version -> spoken version = 4 -> cutter cut -> no_error sched_s -> no_error sched_c -> crounds_ok slack m rs ->
  exists c s c' s' sns, connect m version cut sched_s sched_c = Ok (Some (c, s)) /\ cpp_play false legacy slack c s rs = Ok (c', s', sns) /\
    Forall2 (cseen_ok slack m) rs sns /\ Forall (fun sn => same_props (cs_answer_props sn) props_create) sns.
Proof.
  intros Hm H4 Hcut Hs Hc (Hrs & Hf).
  destruct (session_delivers legacy slack m version cut sched_s sched_c (map to_round rs) Hm H4 Hcut Hs Hc (rounds_map slack m _ rs Hrs 0%nat (le_S _ _ (le_n 0)) (or_intror Hf)))
    as (c & s & c' & s' & sns & E & P & A & _).
  destruct (mot_play legacy slack m rs Hrs 0%nat c s c' s' sns (or_intror Hf) (le_S _ _ (le_n 0)) P A) as (csns & F & G & K).
  exists c, s, c', s', csns. auto.
Qed.
(** Nothing of the dictionary is sent *)
Lemma reply_drops h r p : cpp_reply h r p = obind (cpp_reply h r props_create) (fun x => Ok (fst x, p)).
Proof.
  unfold cpp_reply. destruct (region_clone r) as [c| | |]; try reflexivity. cbn [obind].
  rewrite (append_empty props_create p made_create (fun _ => eq_refl)), (append_empty props_create props_create made_create (fun _ => eq_refl)). cbn [obind].
  destruct (server_reply_mot h [(c, props_create)]); reflexivity.
Qed.

(** ---- ServerSOT ---- *)
Definition to_sround (r : cround) : sround := mkSround (cr_start r) (cr_images r) (Some (cr_props r)) (cr_reply r, cr_reply_props r) (cr_cut1 r) (cr_cut2 r).
Lemma sot_round legacy slack m c s c' s' r sn : cround_ok slack m r -> play_sround legacy slack c s (to_sround r) = Ok (c', s', sn) -> sseen_ok slack m (to_sround r) sn ->
  exists csn, cpp_round true legacy slack c s r = Ok (c', s', csn) /\ cseen_ok slack m r csn /\ answered_props r csn.
Proof.
  intros (_ & _ & _ & Hst & Hp & Hw & (rr & Hr) & Hq) E (S1 & S2 & (ims & S3 & S3') & S4 & (p & S5 & S5') & S6 & S7 & (l & S8 & S8')).
  unfold to_sround in S2, S3', S4, S5', S8'. unfold play_sround, to_sround in E. cbn [sr_object sr_images sr_props sr_reply sr_cut1 sr_cut2 fst snd] in *. unfold cpp_round.
  assert (A : match cr_start r with Some reg => cpp_initialize legacy c (cr_images r) reg (cr_props r) | None => cpp_frame legacy c (cr_images r) (cr_props r) end =
    match cr_start r with Some reg => client_initialize legacy c (cr_images r) [(reg, props_create)] (Some (cr_props r)) | None => client_frame legacy c (cr_images r) None (Some (cr_props r)) end).
  { destruct (cr_start r) as [reg|]; [|reflexivity]. destruct Hst as (_ & _ & Hwh & _). unfold cpp_initialize. rewrite (whole_clone reg Hwh). reflexivity. }
  rewrite A. clear A.
  destruct (match cr_start r with Some reg => client_initialize _ _ _ _ _ | None => _ end) as [[sent c1]| | |] eqn:E1; try discriminate. cbn [obind] in E |- *. unfold cpp_sot_wait.
  destruct (server_wait_sot slack (arrive (cr_cut1 r) (written c c1) s) None None (Some props_create)) as [[[[[event s1] images] reg] p0]| | |] eqn:E2; try discriminate. cbn [obind] in E |- *.
  unfold cpp_sot_reply.
  destruct (server_reply_sot s1 (cr_reply r) (Some (cr_reply_props r))) as [[replied s2]| | |] eqn:E3; try discriminate. cbn [obind fst snd] in E |- *.
  unfold cpp_client_wait.
  destruct (client_wait (arrive (cr_cut2 r) (written s1 s2) c1) (Some props_create)) as [[[[state c2] result] p1]| | |] eqn:E4; try discriminate. cbn [obind] in E |- *.
  apply (f_equal (fun x => match x with Ok y => y | _ => (c, s, sn) end)) in E. apply pair_equal_spec in E as [E E']. apply pair_equal_spec in E as [Ec Es]. subst c2 s2 sn.
  cbn [ss_sent ss_event ss_images ss_region ss_props ss_replied ss_state ss_result] in *. subst sent images p0 replied state result. cbn [dictionary].
  destruct (arrived_one _ _ S8') as (ra & qa & -> & R1 & R2 & R3). cbn [fst snd] in R1, R2.
  assert (P1 : p1 = Some props_create) by exact (wait_dictionary _ _ _ _ _ _ E4). subst p1.
  destruct (append_new qa R3) as (d & Ed & Sd). cbn [single_object dictionary]. rewrite (clone_arrives _ _ R1). cbn [obind]. rewrite Ed. cbn [obind].
  eexists. split; [reflexivity|]. split; [|unfold answered_props; cbn [cs_answer_props]; intros k; now rewrite Sd, R2].
  unfold cseen_ok. cbn [cs_sent cs_event cs_images cs_region cs_props cs_replied cs_state cs_answer].
  split; [reflexivity|]. split; [exact S2|]. split; [exists ims; now split|]. split.
  - unfold region_there. destruct (cr_start r) as [g|]; [destruct S4 as (r' & -> & S4); now exists r'|now rewrite S4].
  - split; [exact S5'|]. split; [reflexivity|]. split; [reflexivity|]. now exists ra.
Qed.
Lemma sot_play legacy slack m rs : Forall (cround_ok slack m) rs -> forall c s c' s' sns, splay legacy slack c s (map to_sround rs) = Ok (c', s', sns) -> Forall2 (sseen_ok slack m) (map to_sround rs) sns ->
  exists csns, cpp_play true legacy slack c s rs = Ok (c', s', csns) /\ Forall2 (fun r sn => cseen_ok slack m r sn /\ answered_props r sn) rs csns.
Proof.
  induction 1 as [|r rs Hr _ IH]; intros c s c' s' sns E A.
  - cbn [map splay] in E. injection E as <- <- <-. exists []. split; [reflexivity|]. constructor.
  - cbn [map splay] in E. destruct (play_sround legacy slack c s (to_sround r)) as [[[c1 s1] sn]| | |] eqn:E1; try discriminate. cbn [obind] in E.
    destruct (splay legacy slack c1 s1 (map to_sround rs)) as [[[c2 s2] sns']| | |] eqn:E2; try discriminate. cbn [obind] in E. injection E as <- <- <-.
    cbn [map] in A. inversion A as [|? ? ? ? A1 A2]; subst.
    destruct (sot_round legacy slack m c s c1 s1 r sn Hr E1 A1) as (csn & F1 & F2).
    destruct (IH c1 s1 c2 s2 sns' E2 A2) as (csns & G1 & G2).
    exists (csn :: csns). cbn [cpp_play]. rewrite F1. cbn [obind]. rewrite G1. cbn [obind]. split; [reflexivity|]. constructor; assumption.
Qed.
Lemma cpp_sot_delivers legacy slack m version cut sched_s sched_c rs : metadata_ok m version -> spoken version <> 4 -> (spoken version = 1 -> md_channels m = TRAX_CHANNEL_COLOR) ->
  cutter cut -> no_error sched_s -> no_error sched_c -> crounds_ok slack m rs ->
  exists c s c' s' sns, connect m version cut sched_s sched_c = Ok (Some (c, s)) /\ cpp_play true legacy slack c s rs = Ok (c', s', sns) /\
    Forall2 (fun r sn => cseen_ok slack m r sn /\ answered_props r sn) rs sns.
Proof.
  intros Hm H4 H1 Hcut Hs Hc (Hrs & Hf).
  destruct (ssession_delivers legacy slack m version cut sched_s sched_c (map to_sround rs) Hm H4 H1 Hcut Hs Hc) as (c & s & c' & s' & sns & E & P & A).
  { split.
    - apply Forall_map. apply (Forall_impl _ (P := cround_ok slack m)); [|exact Hrs]. intros r (K1 & K2 & K3 & K4 & K5 & K6 & K7 & K8).
      unfold sround_ok, to_sround. cbn [sr_object sr_images sr_props sr_reply sr_cut1 sr_cut2]. split; [exact K1|]. split; [exact K2|]. split; [exact K3|].
      split; [|split; [exact K5|split; [exact K7|exact K8]]]. destruct (cr_start r); [|exact Logic.I]. destruct K4 as (A & B & _ & C). auto.
    - destruct rs as [|r rs]; [exact Logic.I|exact Hf]. }
  destruct (sot_play legacy slack m rs Hrs c s c' s' sns P A) as (csns & F & G). exists c, s, c', s', csns. auto.
Qed.

(** ---- Samples ---- *)
Lemma sample_crounds_ok m : md_channels m = 3 -> md_image m = 3 -> md_region m = 12 -> crounds_ok 0 m sample_crounds.
Proof.
  intros Hc Hi Hr. split; [|discriminate].
  repeat (apply Forall_cons; [unfold cround_ok; cbn [cr_cut1 cr_cut2 cr_images cr_start cr_props cr_reply cr_reply_props]; rewrite ?Hc, ?Hi, ?Hr;
    repeat match goal with |- _ /\ _ => split end; try exact Logic.I; try apply byte_cutter; try apply whole_cutter; try apply sample_images_arrive;
    try discriminate; try reflexivity; try apply poly_sends; try apply mask_sends; try apply special_sends;
    try (apply clean_sample; reflexivity); try apply SessionProofs.clean_create; try (unfold whole, sample_mask, sample_poly; first [exact Logic.I | split; [lia|split; [lia|split; reflexivity]]])|]); apply Forall_nil.
Qed.
Lemma reply_props_lost : exists c s c' s' sns, connect sample_metadata 0 byte_cut [] [] = Ok (Some (c, s)) /\ cpp_play false false 0 c s sample_crounds = Ok (c', s', sns) /\
  Forall2 (cseen_ok 0 sample_metadata) sample_crounds sns /\ ~ Forall2 answered_props sample_crounds sns.
Proof.
  destruct (cpp_delivers false 0 sample_metadata 0 byte_cut [] [] sample_crounds sample_metadata_ok eq_refl byte_cutter) as (c & s & c' & s' & sns & E & P & F & L);
    [apply Forall_nil|apply Forall_nil|exact (sample_crounds_ok sample_metadata eq_refl eq_refl eq_refl)|].
  exists c, s, c', s', sns. split; [exact E|]. split; [exact P|]. split; [exact F|]. intros A.
  inversion A as [|r sn rs sns' A1 A2 Q1 Q2]; subst. inversion L as [|? ? L1 L2]; subst. specialize (A1 (str "conf")). rewrite (L1 (str "conf")) in A1. vm_compute in A1. discriminate.
Qed.
