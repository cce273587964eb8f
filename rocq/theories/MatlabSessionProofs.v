(** Sessions of a Matlab tracker *)
From Coq Require Import Floats.SpecFloat Permutation.
From Verif Require Import CBase StrMap Props PropsSpec StrMapProofs PropsProofs Buffer BufferProofs Message MessageSpec MessageProofs MessageApi
  Num Region RegionGeom Image ImageProofs Formats FormatsSpec FormatsProofs GeomSpec GeomProofs Handle SessionSpec HandleProofs SessionProofs HandshakeProofs HistoryProofs SendableProofs
  ListsSpec ListsProofs PySessionProofs Matlab MatlabSpec MatlabProofs MatlabCallProofs MatlabClientProofs CppSession CppSessionSpec CppSessionProofs MatlabServer MatlabServerSpec MatlabServerProofs.
Local Open Scope Z_scope.

(** ---- Setup ---- *)
Lemma value_lookup p k : made p -> value_of p k = sm_lookup p k.
Proof. intros M. unfold value_of. now rewrite (props_get_spec p k (made_ok p M)). Qed.
Lemma last_option_in k kvs v : last_option (bytes_eqb k) kvs = Some v -> In (k, v) kvs.
Proof.
  unfold last_option. assert (G : forall l acc, fold_left (fun acc kv => if bytes_eqb k (fst kv) then Some (snd kv) else acc) l acc = Some v -> acc = Some v \/ In (k, v) l).
  { induction l as [|[k' v'] l IH]; intros acc E; [now left|]. cbn [fold_left fst snd] in E. destruct (IH _ E) as [X|X]; [|right; now right].
    destruct (bytes_eqb k k') eqn:B; [|now left]. apply bytes_eqb_eq in B. injection X as ->. subst. right. now left. }
  intros E. destruct (G kvs None E) as [X|X]; [discriminate|exact X].
Qed.
Lemma last_of_in test kvs : last_of test kvs [] = [] \/ exists kv, In kv kvs /\ last_of test kvs [] = snd kv.
Proof.
  unfold last_of. assert (G : forall l acc, fold_left (fun acc (kv : list N * list N) => if test (fst kv) then snd kv else acc) l acc = acc \/
    exists kv, In kv l /\ fold_left (fun acc (kv : list N * list N) => if test (fst kv) then snd kv else acc) l acc = snd kv).
  { induction l as [|kv l IH]; intros acc; [now left|]. cbn [fold_left]. destruct (IH (if test (fst kv) then snd kv else acc)) as [X|(kv' & X & Y)].
    - rewrite X. destruct (test (fst kv)); [right; exists kv; split; [now left|reflexivity]|now left].
    - right. exists kv'. split; [now right|exact Y]. }
  apply G.
Qed.
Lemma set_customs_ok l : Forall (fun kv => ~ In 0%N (fst kv) /\ ~ In 0%N (snd kv)) l -> forall p, made p ->
  exists q, set_customs l p = Ok q /\ made q /\ forall k, (forall v, sm_lookup q k = Some v -> In (k, v) l \/ sm_lookup p k = Some v) /\
    (sm_lookup p k <> None \/ (exists v, In (k, v) l) -> sm_lookup q k <> None).
Proof.
  induction 1 as [|[k v] l [Hk Hv] _ IH]; intros p M; cbn [set_customs].
  - exists p. split; [reflexivity|]. split; [exact M|]. intros k. split; [now right|intros [X|(v & [])]; exact X].
  - cbn [fst snd] in Hk, Hv. rewrite (no_nul_c_string k Hk), (no_nul_c_string v Hv).
    destruct (sm_put_spec p k v (made_ok p M)) as (p' & E & O & _ & L). unfold props_set. rewrite E. cbn [obind].
    assert (M' : made p'). { destruct M as (hist & Eh). apply (run_sets [(k, v)] hist p p' Eh). cbn [enum_into]. unfold props_set. rewrite E. reflexivity. }
    destruct (IH p' M') as (q & Eq & Mq & Lq). exists q. split; [exact Eq|]. split; [exact Mq|]. intros k'. destruct (Lq k') as [L1 L2]. split.
    + intros v' X. destruct (L1 v' X) as [Y|Y]; [left; now right|]. rewrite L in Y. unfold pm_set in Y. destruct (bytes_eqb k k') eqn:B; [|now right].
      apply bytes_eqb_eq in B. injection Y as ->. subst. left. now left.
    + intros X. apply L2. rewrite L. unfold pm_set. destruct (bytes_eqb k k') eqn:B; [left; discriminate|]. destruct X as [X|(w & [X|X])]; [now left| |right; now exists w].
      injection X as -> _. rewrite bytes_eqb_refl in B. discriminate.
Qed.
Lemma custom_chars k : custom_key k -> ~ In 0%N k.
Proof. intros (H & _) X. destruct (H _ X) as [Y|Y]; [unfold name_char in Y; lia|discriminate]. Qed.
Lemma custom_key_ok k : custom_key k -> (List.length k <= 64)%nat -> key_ok k = true.
Proof.
  intros (H & _) L. unfold key_ok. apply andb_true_intro. split; [now apply Nat.leb_le|]. apply forallb_forall. intros c X. destruct (H _ X) as [Y|Y].
  - unfold name_char in Y. unfold is_digit, is_upper, is_lower. destruct Y as [Y|[Y|[Y|Y]]].
    + replace ((48 <=? c) && (c <=? 57))%N with true by lia. reflexivity.
    + replace ((65 <=? c) && (c <=? 90))%N with true by lia. now rewrite orb_true_r.
    + replace ((97 <=? c) && (c <=? 122))%N with true by lia. now rewrite !orb_true_r.
    + subst. reflexivity.
  - subst. reflexivity.
Qed.
Lemma text_or_called kvs name : text_or_null (last_of (fun k => strcasecmp_eq k name) kvs []) = called kvs name.
Proof. unfold text_or_null, called. now destruct (last_of _ kvs []). Qed.
Lemma called_ok kvs name : Forall (fun kv => text_ok (snd kv) = true) kvs -> match called kvs name with Some t => text_ok t = true | None => True end.
Proof.
  intros H. unfold called. destruct (last_of_in (fun k => strcasecmp_eq k name) kvs) as [E|(kv & I1 & E)]; rewrite E; [exact Logic.I|].
  rewrite Forall_forall in H. specialize (H _ I1). destruct (snd kv); [exact Logic.I|exact H].
Qed.
Lemma setup_announces rr ii kvs regions images op : described_ok kvs -> get_flags rr get_region_code = done regions -> get_flags ii get_image_code = done images ->
  exists a m, Matlab.server_setup (op :: rr :: ii :: pair_arrays kvs) = done a /\ setup_metadata a = Ok m /\ announced regions images kvs m /\ metadata_ok m 0.
Proof.
  intros [K Hi] Er Ei.
  assert (G : Forall good_pair kvs).
  { apply (Forall_impl _ (P := fun kv => (custom_key (fst kv) /\ (List.length (fst kv) <= 64)%nat \/ described_key (fst kv)) /\ text_ok (snd kv) = true)); [|exact K].
    intros kv [[[X _]|X] Y]; (split; [|exact (text_ok_no_nul _ Y)]); [now left|now right]. }
  assert (Tx : Forall (fun kv => text_ok (snd kv) = true) kvs) by (apply (Forall_impl _ (P := fun kv => (custom_key (fst kv) /\ (List.length (fst kv) <= 64)%nat \/ described_key (fst kv)) /\ text_ok (snd kv) = true)); [intros kv [_ Y]; exact Y|exact K]).
  destruct (setup_described op rr ii kvs regions images G Hi Er Ei) as (s & E & N1 & N2 & N3 & N4 & N5).
  exists (s, regions, images). unfold setup_metadata, metadata_create. rewrite N4. change (1 =? 0) with false. cbv iota. cbn [obind md_custom].
  assert (Cu : forall k v, In (k, v) (s_custom s) -> custom_key k /\ (List.length k <= 64)%nat /\ text_ok v = true).
  { intros k v X. apply N5 in X as [X1 X2]. apply last_option_in in X2. rewrite Forall_forall in K. destruct (K _ X2) as [[[_ Y]|(n & Y1 & Y2)] Z1]; cbn [fst snd] in *.
    - auto.
    - exfalso. destruct X1 as (_ & _ & X1). rewrite (X1 n) in Y2; [discriminate|]. apply in_or_app. now right. }
  destruct (set_customs_ok (s_custom s)) with (p := props_create) as (q & Eq & Mq & Lq); [|exact made_create|].
  { apply Forall_forall. intros [k v] X. destruct (Cu k v X) as (A & _ & B). cbn [fst snd]. split; [now apply custom_chars|now apply text_ok_no_nul]. }
  rewrite Eq. cbn [obind md_region md_image md_channels md_name md_description md_family md_flags]. eexists. split; [exact E|]. split; [reflexivity|].
  assert (V : forall k v, value_of q k = Some v <-> In (k, v) (s_custom s)).
  { intros k v. rewrite (value_lookup q k Mq). destruct (Lq k) as [L1 L2]. assert (Z0 : sm_lookup props_create k = None) by apply sm_new_lookup. rewrite Z0 in L1, L2. split.
    - intros X. destruct (L1 v X) as [Y|Y]; [exact Y|discriminate].
    - intros X. destruct (sm_lookup q k) as [w|] eqn:W; [|elim L2; [right; now exists v|reflexivity]]. destruct (L1 w eq_refl) as [Y|Y]; [|discriminate].
      apply N5 in X as [_ X]. apply N5 in Y as [_ Y]. congruence. }
  split.
  - unfold announced. cbn [md_region md_image md_channels md_name md_description md_family md_flags md_custom]. rewrite N1, N2, N3, !text_or_called.
    split; [reflexivity|]. split; [reflexivity|]. split; [reflexivity|]. split; [reflexivity|]. split; [reflexivity|]. split; [reflexivity|]. split; [reflexivity|].
    intros k v. rewrite V. apply N5.
  - unfold metadata_ok. cbn [md_region md_image md_channels md_name md_description md_family md_flags md_custom]. split; [unfold TRAX_VERSION; lia|]. split; [|split; [|split; [|split]]].
    + split; [exact Mq|]. intros k v X. assert (Y : In (k, v) (s_custom s)) by (apply V; unfold value_of; now rewrite X). destruct (Cu k v Y) as (A & B & C).
      unfold kv_ok. cbn [fst snd]. rewrite C, (custom_key_ok k A B). reflexivity.
    + intros k v X. assert (Y : In (k, v) (s_custom s)) by (apply V; unfold value_of; now rewrite X). destruct (Cu k v Y) as ((_ & A & _) & _). exact A.
    + rewrite N1, N2, N3, !text_or_called.
      apply Forall_cons; [exact (called_ok kvs _ Tx)|]. apply Forall_cons; [exact (called_ok kvs _ Tx)|]. apply Forall_cons; [exact (called_ok kvs _ Tx)|]. apply Forall_nil.
    + lia.
    + discriminate.
Qed.
Lemma setup_opens fuel slack s rr ii kvs regions images o m h a : Matlab.server_setup (text_array (str "setup") :: rr :: ii :: pair_arrays kvs) = done a -> setup_metadata a = Ok m ->
  Handle.server_setup m (mkStream [] []) o 0 = Ok h -> h_terminated h = false -> get_flags rr get_region_code = done regions -> get_flags ii get_image_code = done images ->
  mex_server fuel slack s (setup_call rr ii kvs o) = Ok (replaced s (Some h), Some [Some (MU8 [1; 1] [1%N])]).
Proof.
  intros E M H T _ _. rewrite asks_setup; [|eexists _, (str "setup"), _; split; reflexivity]. unfold mex_setup. cbn [setup_call mc_prhs mc_nlhs mc_net].
  match goal with |- context [?n <? 3] => replace (n <? 3) with false by (symmetry; apply Z.ltb_ge; cbn [List.length]; lia) end.
  change (1 <? 1) with false. cbv iota. rewrite E. unfold helped, done. cbn [obind]. rewrite M. cbn [obind new_server]. rewrite H. cbn [obind].
  unfold is_alive, alive. rewrite T. reflexivity.
Qed.
Lemma codes_regions a code : lists_codes region_table a code -> get_flags a get_region_code = done code.
Proof. intros [s c H|names codes N F|names codes N F]; [exact (proj1 (name_single s c) H)| |]; destruct (names_union names codes N) as (A & _); apply (A F). Qed.
Lemma codes_images a code : lists_codes image_table a code -> get_flags a get_image_code = done code.
Proof. intros [s c H|names codes N F|names codes N F]; [exact (proj1 (proj2 (name_single s c)) H)| |]; destruct (names_union names codes N) as (_ & A & _); apply (A F). Qed.

(** ---- What arrives is determined by what was given ---- *)
Lemma region_arrives_once r a b : region_arrives r a -> region_arrives r b -> a = b.
Proof. intros (t & E & P & _) (t' & E' & P' & _). rewrite E in E'. injection E' as <-. rewrite P in P'. now injection P'. Qed.
Lemma image_arrives_once slack i a b : image_arrives slack i a -> image_arrives slack i b -> a = b.
Proof. intros (t & E & _ & P) (t' & E' & _ & P'). rewrite E in E'. injection E' as <-. rewrite P in P'. now injection P'. Qed.
Lemma images_arrive_once slack ch fmt l a b : images_arrive slack ch fmt l a -> images_arrive slack ch fmt l b -> a = b.
Proof.
  intros (_ & La & A) (_ & Lb & B). apply (nth_ext a b None None); [congruence|]. intros k Hk. rewrite La in Hk. specialize (A k Hk). specialize (B k Hk).
  destruct (Z.testbit ch (Z.of_nat k)); [|congruence]. destruct A as (i & i' & A1 & A2 & A3 & _), B as (j & j' & B1 & B2 & B3 & _).
  rewrite A1 in B1. injection B1 as <-. rewrite A2, B2. f_equal. exact (image_arrives_once slack i i' j' A3 B3).
Qed.
(** ---- Dictionaries ---- *)
Lemma append_made q p d : made p -> props_append q p false = Ok d -> made d.
Proof. intros (hist & E) A. unfold props_append, copy_properties in A. change (copy_callback COPY_ALL) with props_set in A. exact (run_sets (props_enum q) hist p d E A). Qed.
Lemma cpp_wait_made fuel slack h code h' ims reg p : cpp_server_wait fuel slack h None props_create = Ok (code, h', ims, reg, p) -> made p.
Proof.
  unfold cpp_server_wait. destruct (server_wait_mot _ _ _ _ _) as [x| | |] eqn:E; try discriminate. cbn [obind].
  destruct x as [[[[result h1] images] objects] p']. assert (M : made (dictionary p')).
  { pose proof (wait_made fuel slack h None (Some props_create) result h1 images objects p' made_create E) as W. destruct p' as [p'|]; [exact W|exact made_create]. }
  intros W. destruct (single_object result h1 objects None (dictionary p')) as [y| | |] eqn:S1; try discriminate.
  cbn [obind] in W. destruct y as [[[r2 h2] reg'] p'']. injection W as _ _ _ _ <-. unfold single_object in S1.
  destruct objects as [[|[rg q] [|]]|]; [now injection S1 as _ _ _ <-| |now injection S1 as _ _ _ <-|now injection S1 as _ _ _ <-].
  destruct (region_clone rg); try discriminate. cbn [obind] in S1. destruct (props_append q (dictionary p') false) as [d| | |] eqn:D; try discriminate. cbn [obind] in S1.
  injection S1 as _ _ _ <-. exact (append_made q (dictionary p') d M D).
Qed.
Lemma same_count p q : made p -> made q -> same_props p q -> props_count p = props_count q.
Proof.
  intros (a & Ea) (b & Eb) S1. destruct (props_api a) as (p' & Ep & Gp & _ & [Np Ip] & Cp). destruct (props_api b) as (q' & Eq & Gq & _ & [Nq Iq] & Cq).
  rewrite Ea in Ep. injection Ep as <-. rewrite Eb in Eq. injection Eq as <-. rewrite Cp, Cq. apply Permutation_length. apply NoDup_Permutation.
  - exact (NoDup_map_inv _ _ Np).
  - exact (NoDup_map_inv _ _ Nq).
  - intros [k v]. rewrite Ip, Iq. specialize (S1 k). rewrite Gp, Gq in S1. injection S1 as ->. reflexivity.
Qed.
Lemma props_shown_ok b p q : made p -> clean q -> same_props p q -> in_int (2 * Z.of_nat (props_count q)) = true ->
  exists a, shown_properties b p = Ok a /\ props_shown b q a.
Proof.
  intros Mp [Mq Cq] S1 Hi. rewrite <- (same_count p q Mp Mq S1) in Hi. destruct Mp as (ops & E). destruct (props_api ops) as (p' & Ep & G & _). rewrite E in Ep. injection Ep as <-.
  assert (V : forall k, value_of q k = pm_run ops k). { intros k. unfold value_of. rewrite <- (S1 k), G. reflexivity. }
  assert (C : c_strings (pm_run ops)).
  { intros k v X. assert (Y : props_get q k = Ok (Some v)) by (rewrite <- (S1 k), G, X; reflexivity). specialize (Cq k v Y). unfold kv_ok in Cq. cbn [fst snd] in Cq.
    apply andb_prop in Cq as [K T]. split; [|exact (text_ok_no_nul v T)]. intros I0. unfold key_ok in K. apply andb_prop in K as [_ K]. rewrite forallb_forall in K. specialize (K _ I0). discriminate. }
  destruct b; cbn [shown_properties props_shown].
  - eexists. split; [reflexivity|]. unfold parameters_to_struct. eexists. split; [reflexivity|]. intros k v X. rewrite V in X.
    destruct (struct_fields ops p k v E C X) as (fields & F & name & A & B & D & _ & H). unfold parameters_to_struct in F. injection F as <-. exists name. auto.
  - destruct (cell_shows ops p E C Hi) as (rows & cells & P & En & Sh). eexists. split; [exact P|]. exists rows, cells. split; [reflexivity|]. split; [|exact Sh].
    destruct En as [N In1]. split; [exact N|]. intros k v. rewrite V. apply In1.
Qed.
(** ---- Images and regions ---- *)
Lemma blk_read_firstn {A} (bytes : list A) d : firstn (List.length bytes) d = map Some bytes -> blk_read d (List.length bytes) = Ok bytes.
Proof.
  revert d. induction bytes as [|b bytes IH]; intros d E; [destruct d; reflexivity|]. destruct d as [|x d]; [discriminate E|]. cbn [List.length firstn map] in E. injection E as -> E.
  cbn [List.length blk_read]. rewrite (IH d E). reflexivity.
Qed.
Lemma file_shown im kind bytes : file_image im kind bytes ->
  image_to_array (Some im) = Ok (Some (MStruct [(str "format", text_array kind); (str "data", MU8 [Z.of_nat (List.length bytes); 1] bytes)])).
Proof.
  intros (T & F & W & D). unfold image_to_array. rewrite T. change (TRAX_IMAGE_BUFFER =? TRAX_IMAGE_PATH) with false. change (TRAX_IMAGE_BUFFER =? TRAX_IMAGE_URL) with false.
  change (TRAX_IMAGE_BUFFER =? TRAX_IMAGE_MEMORY) with false. change (TRAX_IMAGE_BUFFER =? TRAX_IMAGE_BUFFER) with true. cbv iota.
  unfold image_get_buffer. rewrite T. change (TRAX_IMAGE_BUFFER =? TRAX_IMAGE_BUFFER) with true. cbv iota. rewrite W, Nat2Z.id, (blk_read_firstn _ _ D). cbn [obind].
  destruct F as [[-> ->]|[-> ->]]; reflexivity.
Qed.
Lemma image_shown_ok im : memory_image im \/ MatlabSpec.path_image im \/ (exists kind bytes, file_image im kind bytes) -> exists a, image_to_array (Some im) = Ok (Some a) /\ image_shown im a.
Proof.
  intros [X|[(p & Hp & X)|(kind & bytes & X)]].
  - destruct (memory_round_trip im X) as (a & E1 & S1 & _). exists a. split; [exact E1|]. right. left. auto.
  - destruct (path_exchanged p Hp) as (im' & E1 & E2 & _). rewrite X in E1. injection E1 as <-. exists (text_array p). split; [exact E2|]. left. exists p. auto.
  - eexists. split; [exact (file_shown im kind bytes X)|]. right. right. exists kind, bytes. auto.
Qed.
Opaque image_to_array.
Lemma list_shown x y z : viewable_images [Some x; y; z] -> exists a, images_to_array [Some x; y; z] = Ok a /\ images_shown [Some x; y; z] a.
Proof.
  intros V. destruct (image_shown_ok x (V x (or_introl eq_refl))) as (ax & Ex & Sx).
  destruct y as [y|], z as [z|];
    try (destruct (image_shown_ok y (V y (or_intror (or_introl eq_refl)))) as (ay & Ey & Sy));
    try (destruct (image_shown_ok z (V z (or_intror (or_intror (or_introl eq_refl))))) as (az & Ez & Sz));
    (eexists; split; [unfold images_to_array, image_to_cell, list_has, list_get, list_size;
      repeat (progress (cbn; change (Pos.to_nat 1) with 1%nat; change (Pos.to_nat 2) with 2%nat; change (Pos.to_nat 3) with 3%nat; rewrite ?Ex, ?Ey, ?Ez)); reflexivity|]);
    [exists [ax; ay; az]|exists [ax; ay]|exists [ax; az]|exists [ax]]; (split; [reflexivity|]); cbn [flat_map app];
    repeat (apply Forall2_cons; [assumption|]); apply Forall2_nil.
Qed.
Transparent image_to_array.
Lemma images_shown_ok slack imf l ims : images_arrive slack TRAX_CHANNEL_COLOR imf l ims -> viewable_images ims -> exists a, images_to_array ims = Ok a /\ images_shown ims a.
Proof.
  intros (_ & L & A) V. destruct ims as [|x [|y [|z [|]]]]; try discriminate L. specialize (A 0%nat ltac:(lia)) as A0. cbn in A0. destruct A0 as (i & i' & _ & A0 & _). cbn [nth] in A0. subst x.
  exact (list_shown i' y z V).
Qed.
Lemma region_shown_ok r : viewable_region r -> exists a, region_to_array r = done a /\ region_shown r a.
Proof.
  intros V. destruct r as [c|x y w h|points|x y w h mask]; try (destruct (regions_exchanged _ V) as (a & E & B); exists a; (split; [exact E|]); (split; [|exact B]);
    (solve [inversion V] || (cbn [region_to_array] in E; first [injection E as <-|destruct (for_range _ _ _ _); try discriminate E; cbn [obind] in E; injection E as <-]; eexists _, _; reflexivity))).
  destruct V as (A & B & C & D & E & F). destruct (mask_shown_ok x y w h mask A B C D E F) as (data & R & L & S1). eexists. split; [exact R|]. exists data. split; [reflexivity|exact S1].
Qed.

(** ---- A round ---- *)
Definition crossed (r : mround) (reg : region) : cround := mkCround (mr_start r) (mr_images r) (mr_props r) reg props_create (mr_cut1 r) (mr_cut2 r).
Lemma wait_arguments b : Matlab.server_wait (mc_prhs (wait_call b)) = done b.
Proof. destruct b; vm_compute; reflexivity. Qed.
Lemma state_arguments a p : match p with None => True | Some a => exists p, match a with MStruct _ => struct_to_parameters a | _ => cell_to_parameters a end = done p end ->
  exists q, state_properties (mc_prhs (status_call a p)) = done q.
Proof. destruct p as [p|]; [|exists props_create; reflexivity]. intros (q & E). exists q. cbn [status_call mc_prhs state_properties]. destruct p; exact E. Qed.
Lemma mex_round_ok legacy slack rf m c s ms r reg c' s' csn : ms_server ms = Some (Some s) -> array_to_region (mr_state r) = done reg -> mround_ok slack rf (md_image m) r ->
  md_channels m = TRAX_CHANNEL_COLOR -> cpp_round false legacy slack c s (crossed r reg) = Ok (c', s', csn) -> cseen_ok slack m (crossed r reg) csn ->
  exists msn, mex_round legacy slack c ms r = Ok (c', set_server ms (Some (Some s')), msn) /\ mseen_ok slack (md_image m) r msn /\ mn_answer_props msn = cs_answer_props csn.
Proof.
  intros Hs Er (_ & _ & (ims & Hi & Vi) & Hst & Hp & Hn & _ & Hsp) Hc E (S1 & S2 & (ims' & S3 & S3') & S4 & S5 & S6 & S7 & S8).
  unfold crossed in S2, S3', S4, S5, S8. unfold cpp_round, crossed in E. cbn [cr_start cr_images cr_props cr_reply cr_reply_props cr_cut1 cr_cut2] in *. rewrite Hc in S3'.
  pose proof (images_arrive_once _ _ _ _ _ _ Hi S3') as Eq. subst ims'. unfold mex_round.
  set (send := match mr_start r with Some reg0 => cpp_initialize legacy c (mr_images r) reg0 (mr_props r) | None => cpp_frame legacy c (mr_images r) (mr_props r) end) in *.
  clearbody send. destruct send as [[sent c1]| | |]; try discriminate. cbn [obind] in E |- *.
  set (fuel := match mr_start r with Some _ => 4%nat | None => 3%nat end) in *.
  unfold fed, handle_of. rewrite Hs. set (s0 := arrive (mr_cut1 r) (written c c1) s) in *. clearbody s0.
  destruct (cpp_server_wait fuel slack s0 None props_create) as [w| | |] eqn:W; try discriminate. cbn [obind] in E. destruct w as [[[[event s1] images] rg] p].
  rewrite asks_wait by exact (wait_asks (mr_struct r)). unfold mex_wait. cbn [set_server ms_server]. rewrite wait_arguments. unfold helped at 1, done at 1. cbn [obind].
  replace (mc_nlhs (wait_call (mr_struct r))) with 3 by (destruct (mr_struct r); reflexivity). change (3 <? 3) with false. cbv iota. rewrite W. cbn [obind].
  destruct (cpp_reply s1 reg props_create) as [b| | |] eqn:B; try discriminate. cbn [obind] in E. destruct b as [[replied s2] q'].
  destruct (cpp_client_wait (arrive (mr_cut2 r) (written s1 s2) c1) None props_create) as [x| | |] eqn:X; try discriminate. cbn [obind] in E. destruct x as [[[state c2] answer] q].
  injection E as <- <- <-. cbn [cs_sent cs_event cs_images cs_region cs_props cs_replied cs_state cs_answer cs_answer_props] in *.
  pose proof (cpp_wait_made _ _ _ _ _ _ _ _ W) as Mp. destruct (props_shown_ok (mr_struct r) p (mr_props r) Mp Hp S5 Hn) as (pc & Pc & Sc).
  destruct (images_shown_ok slack (md_image m) (mr_images r) ims Hi Vi) as (ia & Ia & Sa).
  assert (Rg : exists b, (event = TRAX_INITIALIZE /\ shown_region rg = done (Some b) \/ event = TRAX_FRAME /\ b = empty_array) /\
    match mr_start r with Some reg0 => exists reg', region_arrives reg0 reg' /\ region_shown reg' b | None => b = MDouble 0 0 [] end).
  { destruct (mr_start r) as [r0|].
    - destruct Hst as (_ & _ & _ & r0' & A1 & A2). destruct S4 as (r1 & -> & A3). pose proof (region_arrives_once _ _ _ A1 A3) as Eq. subst r1.
      destruct (region_shown_ok r0' A2) as (b & Eb & Sb). exists b. split; [|exists r0'; auto]. left. split; [exact S2|]. unfold shown_region, mbind. rewrite Eb. reflexivity.
    - exists empty_array. split; [|reflexivity]. right. auto. }
  destruct Rg as (b & Ev & Sb). clear Hst S4. set (ms0 := set_server ms (Some (Some s0))).
  assert (Out : (if event =? TRAX_INITIALIZE then request_outputs (set_server ms0 (Some (Some s1))) 3 (mr_struct r) images (shown_region rg) p
                 else if event =? TRAX_FRAME then request_outputs (set_server ms0 (Some (Some s1))) 3 (mr_struct r) images (done (Some empty_array)) p
                 else if event =? TRAX_ERROR then failed (set_server ms0 (Some (Some s1)))
                 else s'' <- deleted (set_server ms0 (Some (Some s1))) (Some s1) ;; returned s'' (wanted 3 [Some empty_array; Some empty_array; Some empty_array])) =
                Ok (set_server ms (Some (Some s1)), Some [Some ia; Some b; Some pc])).
  { assert (G : request_outputs (set_server ms0 (Some (Some s1))) 3 (mr_struct r) images (done (Some b)) p = Ok (set_server ms (Some (Some s1)), Some [Some ia; Some b; Some pc])).
    { unfold request_outputs. change (0 <? 3) with true. change (1 <? 3) with true. change (2 <? 3) with true. cbv iota. rewrite S3. cbn [images_or_none]. rewrite Ia. cbn [obind].
      unfold helped, done. cbn [obind]. rewrite Pc. reflexivity. }
    destruct Ev as [[-> Eb]|[-> ->]]; [rewrite Eb|]; exact G. }
  cbv zeta. match goal with |- context [if event =? TRAX_INITIALIZE then ?x else ?y] => assert (Out2 : (if event =? TRAX_INITIALIZE then x else y) = Ok (set_server ms (Some (Some s1)), Some [Some ia; Some b; Some pc])) by exact Out end.
  setoid_rewrite Out2. cbn [obind]. clear Out Out2 Ev.
  destruct (state_arguments (mr_state r) (mr_state_props r) Hsp) as (sp & Esp).
  rewrite asks_status by (eexists _, (str "status"), _; split; reflexivity). unfold mex_status. cbn [set_server ms_server].
  assert (Ln : Z.of_nat (List.length (mc_prhs (status_call (mr_state r) (mr_state_props r)))) = match mr_state_props r with Some _ => 3 | None => 2 end) by (destruct (mr_state_props r); reflexivity).
  rewrite Ln. replace (3 <? match mr_state_props r with Some _ => 3 | None => 2 end) with false by (destruct (mr_state_props r); reflexivity).
  replace (match mr_state_props r with Some _ => 3 | None => 2 end <? 2) with false by (destruct (mr_state_props r); reflexivity).
  change (1 <? mc_nlhs (status_call (mr_state r) (mr_state_props r))) with false. cbv iota.
  replace (fetch (mc_prhs (status_call (mr_state r) (mr_state_props r))) 1) with (Ok (mr_state r)) by reflexivity. cbn [obind]. rewrite Er, Esp. unfold helped at 1, done at 1. cbn [obind].
  unfold helped at 1, done at 1. cbn [obind]. rewrite reply_drops, B. cbn [obind fst].
  rewrite S6. change (TRAX_OK =? TRAX_ERROR) with false. cbv iota. cbn [obind]. unfold returned. cbn [obind].
  unfold wrote, handle_of. cbn [set_server ms_server]. rewrite X. cbn [obind]. eexists. split; [reflexivity|]. split; [|reflexivity].
  unfold mseen_ok. cbn [mn_sent mn_request mn_replied mn_state mn_answer]. split; [exact S1|]. split.
  - exists ia, b, pc. split; [reflexivity|]. split; [exists ims; auto|]. split; [exact Sb|exact Sc].
  - split; [reflexivity|]. split; [exact S7|]. destruct S8 as (r' & Ea & Ar). exists reg, r'. auto.
Qed.
Definition state_region (r : mround) : region := match array_to_region (mr_state r) with Ok (Some reg) => reg | _ => RSpecial 0 end.
Lemma state_region_ok slack rf imf r : mround_ok slack rf imf r -> array_to_region (mr_state r) = done (state_region r).
Proof. intros (_ & _ & _ & _ & _ & _ & (reg & _ & E & _) & _). unfold state_region. rewrite E. reflexivity. Qed.
Lemma mex_play_ok legacy slack rf m rs : Forall (mround_ok slack rf (md_image m)) rs -> md_channels m = TRAX_CHANNEL_COLOR -> forall c s ms c' s' csns, ms_server ms = Some (Some s) ->
  cpp_play false legacy slack c s (map (fun r => crossed r (state_region r)) rs) = Ok (c', s', csns) ->
  Forall2 (cseen_ok slack m) (map (fun r => crossed r (state_region r)) rs) csns -> Forall (fun sn => same_props (cs_answer_props sn) props_create) csns ->
  exists ms' msns, mex_play legacy slack c ms rs = Ok (c', ms', msns) /\ Forall2 (mseen_ok slack (md_image m)) rs msns /\ Forall (fun sn => same_props (mn_answer_props sn) props_create) msns.
Proof.
  intros H Hc. induction H as [|r rs Hr _ IH]; intros c s ms c' s' csns Hs E F G.
  - cbn [map cpp_play] in E. injection E as <- <- <-. exists ms, []. split; [reflexivity|]. split; constructor.
  - cbn [map cpp_play] in E, F. destruct (cpp_round false legacy slack c s (crossed r (state_region r))) as [[[c1 s1] sn]| | |] eqn:R; try discriminate. cbn [obind] in E.
    destruct (cpp_play false legacy slack c1 s1 _) as [[[c2 s2] sns]| | |] eqn:P; try discriminate. cbn [obind] in E. injection E as <- <- <-.
    inversion F as [|? ? ? ? F1 F2]; subst. inversion G as [|? ? G1 G2]; subst.
    destruct (mex_round_ok legacy slack rf m c s ms r (state_region r) c1 s1 sn Hs (state_region_ok _ _ _ _ Hr) Hr Hc R F1) as (msn & M1 & M2 & M3).
    destruct (IH c1 s1 (set_server ms (Some (Some s1))) c2 s2 sns eq_refl P F2 G2) as (ms' & msns & N1 & N2 & N3).
    exists ms', (msn :: msns). cbn [mex_play]. rewrite M1. cbn [obind]. rewrite N1. cbn [obind]. split; [reflexivity|]. split; [now constructor|]. constructor; [now rewrite M3|exact N3].
Qed.
Lemma crossed_ok slack m r : mround_ok slack (md_region m) (md_image m) r -> md_channels m = TRAX_CHANNEL_COLOR -> cround_ok slack m (crossed r (state_region r)).
Proof.
  intros Hr Hc. pose proof (state_region_ok _ _ _ _ Hr) as Er. destruct Hr as (A & B & (ims & C & _) & D & E & _ & (reg & reg' & F & G & H) & _).
  rewrite Er in F. injection F as F. rewrite <- F in *. unfold cround_ok, crossed. cbn [cr_start cr_images cr_props cr_reply cr_reply_props cr_cut1 cr_cut2]. rewrite Hc.
  split; [exact A|]. split; [exact B|]. split; [exists ims; exact C|]. split; [|split; [exact E|split; [exact G|split; [exists reg'; exact H|apply clean_create]]]].
  destruct (mr_start r); [|exact Logic.I]. destruct D as (D1 & D2 & D3 & x & D4 & _). split; [exact D1|]. split; [exact D2|]. split; [exact D3|]. exists x. exact D4.
Qed.
Lemma matlab_delivers legacy fuel slack rr ii kvs regions images cut sched_s sched_c rs : described_ok kvs -> lists_codes region_table rr regions -> lists_codes image_table ii images ->
  cutter cut -> no_error sched_s -> no_error sched_c -> mrounds_ok slack regions images rs ->
  exists s h c c' s' sns m, mex_server fuel slack mserver0 (setup_call rr ii kvs (mkO sched_s [] [])) = Ok (s, Some [Some (MU8 [1; 1] [1%N])]) /\ handle_of s = Some h /\
    announced regions images kvs m /\ client_setup (mkStream [] (cut (o_bytes (h_out h)))) (mkO sched_c [] []) = Ok (Some c) /\ conveyed m 0 (h_meta c) /\
    mex_play legacy slack c s rs = Ok (c', s', sns) /\ Forall2 (mseen_ok slack images) rs sns /\ Forall (fun sn => same_props (mn_answer_props sn) props_create) sns.
Proof.
  intros Hk Hr Hi Hcut Hs Hc (Hrs & Hf). apply codes_regions in Hr. apply codes_images in Hi.
  destruct (setup_announces rr ii kvs regions images (text_array (str "setup")) Hk Hr Hi) as (a & m & Ea & Em & An & Ok1).
  pose proof An as (Ar & Ai & Ac & _). rewrite <- Ar, <- Ai in Hrs.
  assert (Cr : crounds_ok slack m (map (fun r => crossed r (state_region r)) rs)).
  { split; [|destruct rs; exact Hf]. apply Forall_map. apply (Forall_impl _ (P := mround_ok slack (md_region m) (md_image m))); [|exact Hrs]. intros r X. exact (crossed_ok slack m r X Ac). }
  destruct (cpp_delivers legacy slack m 0 cut sched_s sched_c _ Ok1 eq_refl Hcut Hs Hc Cr) as (c & s & c' & s' & csns & Co & Pl & F & G).
  destruct (connect_ok m 0 cut sched_s sched_c Ok1 Hcut Hs Hc) as (c0 & s0 & Co' & _ & _ & Cv & _ & _ & _ & Ts & _). rewrite Co in Co'. injection Co' as <- <-.
  unfold connect in Co. destruct (Handle.server_setup m (mkStream [] []) (mkO sched_s [] []) 0) as [h| | |] eqn:Sv; try discriminate. cbn [obind] in Co.
  destruct (client_setup _ _) as [oc| | |] eqn:Cl; try discriminate. cbn [obind] in Co. injection Co as Co. destruct oc as [oc|]; [|discriminate]. injection Co as -> ->.
  destruct (mex_play_ok legacy slack (md_region m) m rs Hrs Ac c s (replaced mserver0 (Some s)) c' s' csns eq_refl Pl F G) as (ms' & msns & M1 & M2 & M3).
  exists (replaced mserver0 (Some s)), s, c, c', ms', msns, m. split; [exact (setup_opens fuel slack mserver0 rr ii kvs regions images (mkO sched_s [] []) m s a Ea Em Sv Ts Hr Hi)|].
  split; [reflexivity|]. split; [exact An|]. split; [exact Cl|]. split; [exact Cv|]. split; [exact M1|]. rewrite <- Ai. auto.
Qed.

(** ---- Examples ---- *)
Lemma sample_codes : lists_codes region_table (row_of_texts [str "Mask"; str "polygon"]) 12 /\ lists_codes image_table (text_array (str "path")) 1 /\ described_ok sample_kvs.
Proof.
  split; [|split].
  - apply (lists_row region_table [str "Mask"; str "polygon"] [8; 4]); [discriminate|]. apply Forall2_cons; [|apply Forall2_cons; [|apply Forall2_nil]].
    + exists (str "mask"). split; [right; right; now left|reflexivity].
    + exists (str "polygon"). split; [right; now left|reflexivity].
  - apply lists_one. exists (str "path"). split; [now left|reflexivity].
  - split; [|reflexivity]. unfold sample_kvs. repeat (apply Forall_cons; [split; [|reflexivity]|]). 5: apply Forall_nil.
    1, 4: right; exists (str "name"); (split; [now left|reflexivity]).
    1: right; exists (str "family"); (split; [right; right; now left|reflexivity]).
    left. split; [|cbn; lia]. split; [|split].
    + intros c X. cbn in X. unfold name_char. left. repeat destruct X as [<-|X]; try lia.
    + reflexivity.
    + intros n X. unfold other_names, described in X. cbn [map In app] in X. repeat destruct X as [<-|X]; try reflexivity. destruct X.
Qed.
Lemma sample_colour_arrives : exists ims, images_arrive 0 TRAX_CHANNEL_COLOR 1 sample_colour ims /\ viewable_images ims.
Proof.
  exists sample_colour. split.
  - split; [reflexivity|]. split; [reflexivity|]. intros k Hk. destruct k as [|[|[|k]]]; [| | |lia].
    + eexists _, _. split; [vm_compute; reflexivity|]. split; [vm_compute; reflexivity|]. split; [|reflexivity]. eexists. split; [vm_compute; reflexivity|]. split; vm_compute; reflexivity.
    + reflexivity.
    + reflexivity.
  - intros im [X|[X|[X|[]]]]; try discriminate X. right. left. exists (str "/a b.jpg"). split; [intros Y; cbn in Y; repeat destruct Y as [Y|Y]; try discriminate; destruct Y|].
    vm_compute in X. injection X as <-. vm_compute. reflexivity.
Qed.
Lemma sample_mask_seen : exists reg', region_arrives sample_mask reg' /\ viewable_region reg'.
Proof.
  exists sample_mask. split; [|cbn; split; [lia|split; [lia|split; [lia|split; [lia|split; reflexivity]]]]].
  eexists. split; [vm_compute; reflexivity|]. split; [vm_compute; reflexivity|]. cbn; lia.
Qed.
Lemma sample_mrounds_ok : mrounds_ok 0 12 1 sample_mrounds.
Proof.
  split; [|discriminate]. unfold sample_mrounds.
  apply Forall_cons; [|apply Forall_cons; [|apply Forall_cons; [|apply Forall_nil]]]; unfold mround_ok; cbn [mr_cut1 mr_cut2 mr_images mr_start mr_props mr_state mr_state_props].
  - split; [apply byte_cutter|]. split; [apply whole_cutter|]. split; [exact sample_colour_arrives|]. split.
    { split; [discriminate|]. split; [reflexivity|]. split; [cbn; split; [lia|split; [lia|split; reflexivity]]|]. exact sample_mask_seen. }
    split; [apply clean_sample; reflexivity|]. split; [reflexivity|]. split; [|exact Logic.I].
    eexists _, _. split; [vm_compute; reflexivity|]. split; [cbn; split; [lia|split; [lia|split; reflexivity]]|]. eexists. split; [vm_compute; reflexivity|]. split; [vm_compute; reflexivity|]. cbn; lia.
  - split; [apply whole_cutter|]. split; [apply byte_cutter|]. split; [exact sample_colour_arrives|]. split; [exact Logic.I|].
    split; [apply clean_sample; reflexivity|]. split; [reflexivity|]. split; [|eexists; vm_compute; reflexivity].
    eexists _, _. split; [vm_compute; reflexivity|]. split; [exact Logic.I|]. eexists. split; [vm_compute; reflexivity|]. split; [vm_compute; reflexivity|]. cbn; lia.
  - split; [apply byte_cutter|]. split; [apply byte_cutter|]. split; [exact sample_colour_arrives|]. split.
    { split; [discriminate|]. split; [reflexivity|]. split; [cbn; split; [lia|split; [lia|split; reflexivity]]|]. exact sample_mask_seen. }
    split; [apply SessionProofs.clean_create|]. split; [reflexivity|]. split; [|exact Logic.I].
    eexists _, _. split; [vm_compute; reflexivity|]. split; [exact Logic.I|]. eexists. split; [vm_compute; reflexivity|]. split; [vm_compute; reflexivity|]. cbn; lia.
Qed.
Lemma state_props_lost : exists s h c c' s' sns, mex_server 0 0 mserver0 sample_setup = Ok (s, Some [Some (MU8 [1; 1] [1%N])]) /\ handle_of s = Some h /\
  client_setup (mkStream [] (byte_cut (o_bytes (h_out h)))) (mkO [] [] []) = Ok (Some c) /\ mex_play false 0 c s sample_mrounds = Ok (c', s', sns) /\
  Forall2 (mseen_ok 0 1) sample_mrounds sns /\ ~ Forall2 state_props_seen sample_mrounds sns.
Proof.
  destruct sample_codes as (A & B & C).
  destruct (matlab_delivers false 0 0 _ _ sample_kvs 12 1 byte_cut [] [] sample_mrounds C A B byte_cutter (Forall_nil _) (Forall_nil _) sample_mrounds_ok) as (s & h & c & c' & s' & sns & m & E1 & E2 & _ & E3 & _ & E4 & E5 & E6).
  exists s, h, c, c', s', sns. split; [exact E1|]. split; [exact E2|]. split; [exact E3|]. split; [exact E4|]. split; [exact E5|]. intros F.
  inversion F as [|r1 sn1 l1 l1' _ F1]; subst. inversion F1 as [|r2 sn2 l2 l2' F2 _]; subst. inversion E6 as [|? ? _ G1]; subst. inversion G1 as [|? ? G2 _]; subst.
  destruct F2 as (p & P1 & P2). specialize (G2 (str "conf")). specialize (P2 (str "conf")). rewrite G2 in P2. vm_compute in P1. injection P1 as <-. vm_compute in P2. discriminate.
Qed.
Lemma second_setup_loses : exists s rs h o, mex_run 0 0 mserver0 [sample_setup; sample_setup; quit_call (str "done")] = Ok (s, rs) /\ Forall (fun r => r <> None) rs /\
  ms_server s = None /\ ms_lost s = [Some h] /\ h_terminated h = false /\ ms_closed s = [o] /\
  exists quit, o_bytes o = o_bytes (h_out h) ++ quit /\ quit <> [].
Proof.
  eexists _, _, _, _. split; [vm_compute; reflexivity|]. split; [repeat (apply Forall_cons; [discriminate|]); apply Forall_nil|]. split; [reflexivity|]. split; [reflexivity|]. split; [reflexivity|]. split; [reflexivity|].
  eexists. split; [cbn [o_bytes h_out app]; reflexivity|]. discriminate.
Qed.
Lemma state_is_refused fuel slack s n rest net : refused fuel slack s (mkMcall n (text_array (str "state") :: rest) net).
Proof. apply unknown_refused; intros (m & t & r & E & X); cbn [mc_prhs] in E; injection E as _ E _; rewrite <- E in X; discriminate X. Qed.

(** ---- Quitting ---- *)
Lemma quit_sent fuel slack s c h reason : ms_server s = Some (Some h) -> h_terminated h = false -> no_error (o_sched (h_out h)) ->
  asks c (str "quit") -> List.tl (mc_prhs c) = [text_array reason] -> text_ok reason = true ->
  exists o p outs, mex_server fuel slack s c = Ok (mkMserver None (ms_lost s) (o :: ms_closed s), Some outs) /\
    o_bytes o = o_bytes (h_out h) ++ wire MQuit [] (props_enum p) /\ (forall k, value_of p k = if bytes_eqb k (str "trax.reason") then Some reason else None).
Proof.
  intros E T Ho A P R. destruct (quit_closes fuel slack s c h reason E T Ho A P R) as (o & p & outs & E1 & (E2 & _) & _ & E3). exists o, p, outs. auto.
Qed.
Lemma client_quit_closes fuel slack s h c reason cut structured : ms_server s = Some (Some h) -> h_server h = true -> h_terminated h = false ->
  1 <= md_channels (h_meta h) <= 7 -> ready (h_in h) [] -> h_terminated c = false -> no_error (o_sched (h_out c)) -> text_ok reason = true -> cutter cut ->
  exists c', terminate c (Some reason) = Ok (TRAX_OK, c') /\ mex_server (S fuel) slack (fed cut (written c c') s) (wait_call structured) =
    Ok (mkMserver None (ms_lost s) (h_out h :: ms_closed s), Some (repeat (Some (MDouble 0 0 [])) 3)).
Proof.
  intros Hs K1 K2 Hc Rd Tc Ho Hr Cut. destruct (terminate_ok c (Some reason) Tc Ho Hr) as (p & c' & Et & Cl & (Sb & _) & _). exists c'. split; [exact Et|].
  unfold fed, handle_of. rewrite Hs. assert (Wr : written c c' = wire MQuit [] (props_enum p)). { unfold written. rewrite Sb. rewrite skipn_app, skipn_all, Nat.sub_diag. reflexivity. }
  rewrite Wr. pose proof (arrive_ready cut (wire MQuit [] (props_enum p)) h Cut Rd) as R. set (a := arrive cut (wire MQuit [] (props_enum p)) h) in *.
  assert (A1 : h_server a = true) by exact K1. assert (A2 : h_terminated a = false) by exact K2. assert (A3 : h_meta a = h_meta h) by reflexivity. assert (A4 : h_out a = h_out h) by reflexivity.
  clearbody a. assert (W : exists h' ims reg q, cpp_server_wait (S fuel) slack a None props_create = Ok (TRAX_QUIT, h', ims, reg, q)).
  { unfold cpp_server_wait, server_wait_mot. rewrite A1. cbn [negb]. cbv zeta. unfold alive. cbn [clear_error h_terminated]. rewrite A2. cbn [negb].
    change (h_meta (clear_error a)) with (h_meta a). rewrite A3, (count_channels _ Hc). cbn [obind wait_mot_loop]. rewrite <- (app_nil_r (wire _ _ _)) in R.
    destruct (handle_read_wire (clear_error a) MQuit [] p [] Cl eq_refl R) as (r & st & E & Te & Ea & Mr & Sr & _).
    match goal with |- context [handle_read ?x] => change x with (clear_error a) end. rewrite E. cbn [obind]. rewrite Te, Ea. cbn [List.length]. change (Z.of_nat 0 =? 0) with true. cbn [negb]. unfold copy_out.
    destruct (copy_external_spec (rr_props r) props_create (made_ok _ Mr) props_create_ok) as (q & Eq & _ & _).
    change (Z.lor COPY_EXTERNAL COPY_OVERWRITE) with EXTERNAL_OVERWRITE in Eq. rewrite Eq. cbn [obind mot_end]. eexists _, _, _, _. reflexivity. }
  destruct W as (h' & ims & reg & q & W). rewrite (wait_quit (S fuel) slack (set_server s (Some (Some a))) a h' ims reg q structured eq_refl W). cbn [set_server ms_lost ms_closed]. now rewrite A4.
Qed.
Lemma sample_opened : exists s h, mex_server 0 0 mserver0 sample_setup = Ok (s, Some [Some (MU8 [1; 1] [1%N])]) /\ ms_server s = Some (Some h) /\ h_server h = true /\ h_terminated h = false /\
  1 <= md_channels (h_meta h) <= 7 /\ ready (h_in h) [] /\ no_error (o_sched (h_out h)) /\ asks (quit_call (str "enough")) (str "quit").
Proof.
  eexists _, _. split; [vm_compute; reflexivity|]. split; [reflexivity|]. split; [reflexivity|]. split; [reflexivity|]. split; [cbn; lia|].
  split; [split; [reflexivity|apply Forall_nil]|]. split; [apply Forall_nil|]. eexists _, (str "quit"), _. split; reflexivity.
Qed.
Lemma sample_apart : apart 0 0 mserver0 [sample_setup; quit_call (str "enough")] /\
  exists s' rs, mex_run 0 0 mserver0 [sample_setup; quit_call (str "enough"); sample_setup] = Ok (s', rs) /\ is_open s' /\ List.length (ms_closed s') = 1%nat /\ ms_lost s' = [].
Proof.
  split.
  - cbn [apart]. split; [intros _ H; now apply H|]. intros s r _. split; [|auto]. intros (n & t & rest & E & X). cbn [quit_call mc_prhs] in E. injection E as _ E _. rewrite <- E in X. discriminate X.
  - eexists _, _. split; [vm_compute; reflexivity|]. split; [discriminate|]. split; reflexivity.
Qed.
