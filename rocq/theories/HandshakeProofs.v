(** The handshake: the client learns what the server announced. *)
From Verif Require Import CBase StrMap Props PropsSpec StrMapProofs PropsProofs Message MessageSpec MessageProofs MessageApi
  Num PropsNum PropsNumProofs Region Image Formats FormatsSpec FormatsProofs Handle SessionSpec HandleProofs SessionProofs.
Local Open Scope Z_scope.

Lemma made_set p k v : made p -> exists p', props_set p k v = Ok p' /\ made p' /\ forall k', sm_lookup p' k' = pm_set (sm_lookup p) k v k'.
Proof.
  intros Hm. pose proof (made_ok p Hm) as Hok. destruct (sm_put_spec p k v Hok) as (p' & E & _ & _ & Hl).
  exists p'. split; [exact E|]. split; [|exact Hl]. destruct Hm as (hist & Eh).
  apply (run_sets [(k, v)] hist p p' Eh). cbn [enum_into]. unfold props_set. now rewrite E.
Qed.

Definition pm_opt (m : pmap) (k : list N) (v : option (list N)) : pmap := match v with Some v => pm_set m k v | None => m end.
Lemma made_set_optional p k v : made p -> exists p', set_optional p k v = Ok p' /\ made p' /\ forall k', sm_lookup p' k' = pm_opt (sm_lookup p) k v k'.
Proof.
  intros Hm. destruct v as [v|]; [apply made_set; exact Hm|]. exists p. cbn. auto.
Qed.
Lemma made_set_int p k v : in_int v = true -> made p ->
  exists p', props_set_int p k v = Ok p' /\ made p' /\ forall k', sm_lookup p' k' = pm_set (sm_lookup p) k (print_Z v) k'.
Proof.
  intros Hv Hm. destruct (made_set p k (print_Z v) Hm) as (p' & E & H & Hl). exists p'. split; [|auto].
  unfold props_set_int, sprintf_tmp. pose proof (print_Z_length v Hv).
  replace (Nat.leb (S (List.length (print_Z v))) 128) with true by (symmetry; apply Nat.leb_le; lia). exact E.
Qed.

Definition hello_map (m : metadata) (v : Z) (regions images channels : list N) (custom : pmap) : pmap :=
  pm_opt (pm_opt (pm_opt (pm_opt (pm_set (pm_set (pm_set (pm_set custom
    (str "trax.version") (print_Z v)) (str "trax.region") regions) (str "trax.image") images) (str "trax.channels") channels)
    (str "trax.name") (md_name m)) (str "trax.description") (md_description m)) (str "trax.family") (md_family m))
    (str "trax.multiobject") (if (v =? 4) && match md_flags m with Some f => supports f TRAX_METADATA_MULTI_OBJECT | None => false end
       then Some (print_Z 1) else None).

Lemma pm_set_ext a b k v : (forall x, a x = b x) -> forall x, pm_set a k v x = pm_set b k v x.
Proof. intros H x. unfold pm_set. now rewrite H. Qed.
Lemma pm_opt_ext a b k v : (forall x, a x = b x) -> forall x, pm_opt a k v x = pm_opt b k v x.
Proof. intros H x. destruct v; cbn [pm_opt]; [now apply pm_set_ext|apply H]. Qed.

Lemma hello_properties_ok m v : 1 <= v <= 4 -> made (md_custom m) -> (v = 4 -> md_flags m <> None) ->
  exists p regions images channels flags, hello_properties m v = Ok (p, flags) /\
    region_formats_encode (md_region m) = Ok regions /\ region_formats_decode (Some regions) = Ok (Z.land (md_region m) 14) /\
    image_formats_encode (md_image m) = Ok images /\ image_formats_decode (Some images) = Ok (Z.land (md_image m) 15) /\
    channels_encode (md_channels m) = Ok channels /\ channels_decode (Some channels) = Ok (Z.land (md_channels m) 7) /\
    made p /\ (forall k, sm_lookup p k = hello_map m v regions images channels (sm_lookup (md_custom m)) k) /\
    (v = 4 -> flags = Some (if match md_flags m with Some f => supports f TRAX_METADATA_MULTI_OBJECT | None => false end then TRAX_METADATA_MULTI_OBJECT else 0)).
Proof.
  intros Hv Hc Hf.
  destruct (region_formats_round_trip (md_region m)) as (tr & Er & Dr).
  destruct (image_formats_round_trip (md_image m)) as (ti & Ei & Di).
  destruct (channels_round_trip (md_channels m)) as (tc & Ec & Dc).
  destruct (copy_new (md_custom m) 1 Hc ltac:(now left)) as (p0 & E0 & S0 & M0).
  destruct (made_set_int p0 (str "trax.version") v ltac:(unfold in_int, INT_MIN, INT_MAX; lia) M0) as (p1 & E1 & M1 & L1).
  destruct (made_set p1 (str "trax.region") tr M1) as (p2 & E2 & M2 & L2).
  destruct (made_set p2 (str "trax.image") ti M2) as (p3 & E3 & M3 & L3).
  destruct (made_set p3 (str "trax.channels") tc M3) as (p4 & E4 & M4 & L4).
  destruct (made_set_optional p4 (str "trax.name") (md_name m) M4) as (p5 & E5 & M5 & L5).
  destruct (made_set_optional p5 (str "trax.description") (md_description m) M5) as (p6 & E6 & M6 & L6).
  destruct (made_set_optional p6 (str "trax.family") (md_family m) M6) as (p7 & E7 & M7 & L7).
  assert (L : forall k, sm_lookup p7 k = pm_opt (pm_opt (pm_opt (pm_set (pm_set (pm_set (pm_set (sm_lookup (md_custom m))
    (str "trax.version") (print_Z v)) (str "trax.region") tr) (str "trax.image") ti) (str "trax.channels") tc)
    (str "trax.name") (md_name m)) (str "trax.description") (md_description m)) (str "trax.family") (md_family m) k).
  { intros k. rewrite L7. apply pm_opt_ext. intros k6. rewrite L6. apply pm_opt_ext. intros k5. rewrite L5. apply pm_opt_ext.
    intros k4. rewrite L4. apply pm_set_ext. intros k3. rewrite L3. apply pm_set_ext. intros k2. rewrite L2. apply pm_set_ext.
    intros k1. rewrite L1. apply pm_set_ext. apply same_props_lookup; [now apply made_ok..|exact S0]. }
  unfold hello_properties. unfold props_copy. change COPY_ALL with 1. rewrite E0. cbn [obind]. rewrite E1. cbn [obind]. rewrite Er. cbn [obind].
  rewrite E2. cbn [obind]. rewrite Ei. cbn [obind]. rewrite E3. cbn [obind]. rewrite Ec. cbn [obind]. rewrite E4. cbn [obind].
  rewrite E5. cbn [obind]. rewrite E6. cbn [obind]. rewrite E7. cbn [obind].
  destruct (Z.eq_dec v 4) as [->|Hn].
  - specialize (Hf eq_refl). destruct (md_flags m) as [f|] eqn:Ef; [|now elim Hf]. change (4 <=? 4) with true. cbn iota.
    destruct (supports f TRAX_METADATA_MULTI_OBJECT) eqn:Es.
    + destruct (made_set_int p7 (str "trax.multiobject") 1 eq_refl M7) as (p8 & E8 & M8 & L8). rewrite E8. cbn [obind].
      exists p8, tr, ti, tc, (Some TRAX_METADATA_MULTI_OBJECT). do 8 (split; [assumption || reflexivity|]). split; [|reflexivity].
      intros k. rewrite L8. unfold hello_map. rewrite Ef, Es. cbn [Z.eqb Pos.eqb andb pm_opt]. now apply pm_set_ext.
    + exists p7, tr, ti, tc, (Some 0). do 8 (split; [assumption || reflexivity|]). split; [|reflexivity].
      intros k. rewrite L. unfold hello_map. rewrite Ef, Es. reflexivity.
  - replace (4 <=? v) with false by lia. exists p7, tr, ti, tc, None. do 8 (split; [assumption || reflexivity|]). split; [|lia].
    intros k. rewrite L. unfold hello_map. replace (v =? 4) with false by lia. reflexivity.
Qed.

(** ---- reading the announcement ---- *)
Lemma chain_get (C : pmap) tv tr ti tc n d f mo :
  let M := pm_opt (pm_opt (pm_opt (pm_opt (pm_set (pm_set (pm_set (pm_set C
    (str "trax.version") tv) (str "trax.region") tr) (str "trax.image") ti) (str "trax.channels") tc)
    (str "trax.name") n) (str "trax.description") d) (str "trax.family") f) (str "trax.multiobject") mo in
  (forall k, starts_with (str "trax.") k = true -> C k = None) ->
  M (str "trax.version") = Some tv /\ M (str "trax.region") = Some tr /\ M (str "trax.image") = Some ti /\ M (str "trax.channels") = Some tc /\
  M (str "trax.name") = n /\ M (str "trax.description") = d /\ M (str "trax.family") = f /\ M (str "trax.multiobject") = mo /\
  (forall k, starts_with (str "trax.") k = false -> M k = C k).
Proof.
  intros M HC. unfold M. clear M.
  assert (Hx : forall a k (x y : option (list N)), starts_with (str "trax.") a = true -> starts_with (str "trax.") k = false ->
    (if bytes_eqb a k then x else y) = y).
  { intros a k x y Ha Hk. destruct (bytes_eqb a k) eqn:E; [|reflexivity]. apply bytes_eqb_eq in E. subst. congruence. }
  repeat match goal with |- _ /\ _ => split end.
  1-8: destruct n, d, f, mo; cbn [pm_opt]; unfold pm_set;
    repeat match goal with |- context [bytes_eqb (str ?a) (str ?b)] =>
      let r := eval vm_compute in (bytes_eqb (str a) (str b)) in change (bytes_eqb (str a) (str b)) with r end; cbn iota;
    solve [reflexivity | apply HC; reflexivity].
  intros k Hk. destruct n, d, f, mo; cbn [pm_opt]; unfold pm_set; repeat (rewrite (Hx (str _) k) by (reflexivity || assumption)); reflexivity.
Qed.

Definition clean_map (M : pmap) : Prop := forall k v, M k = Some v -> kv_ok (k, v) = true.
Lemma clean_set M k v : clean_map M -> kv_ok (k, v) = true -> clean_map (pm_set M k v).
Proof.
  intros H Hk k' v' E. unfold pm_set in E. destruct (bytes_eqb k k') eqn:Eb; [|now apply H].
  apply bytes_eqb_eq in Eb. subst k'. now injection E as <-.
Qed.
Lemma clean_opt M k v : clean_map M -> key_ok k = true -> match v with Some t => text_ok t = true | None => True end -> clean_map (pm_opt M k v).
Proof. intros H Hk Hv. destruct v; [|exact H]. apply clean_set; [exact H|]. unfold kv_ok. cbn [fst snd]. now rewrite Hk, Hv. Qed.
Lemma encode_text names z t : forallb (fun nb => text_ok (fst nb)) names = true -> names_encode names z = Ok t -> text_ok t = true.
Proof.
  intros Hn E. unfold names_encode in E. destruct (Nat.leb _ 64); [|discriminate]. injection E as <-.
  rewrite forallb_forall in Hn. unfold text_ok. apply forallb_forall. intros c Hc. apply in_flat_map in Hc as (nb & Hin & Hc).
  destruct (supports z (snd nb)); [|now elim Hc]. specialize (Hn nb Hin). unfold text_ok in Hn. rewrite forallb_forall in Hn.
  apply in_app_or in Hc as [Hc|[<-|[]]]; [now apply Hn|reflexivity].
Qed.
Lemma print_Z_text z : text_ok (print_Z z) = true.
Proof. pose proof (plain_arg _ (print_Z_plain z)) as H. unfold arg_ok in H. now apply andb_true_iff in H. Qed.

Lemma get_small_int p k v def : 1 <= v <= 4 -> props_get p k = Ok (Some (print_Z v)) -> props_get_int p k def = Ok v.
Proof.
  intros Hv E. unfold props_get_int. rewrite E. cbn [obind].
  assert (H : v = 1 \/ v = 2 \/ v = 3 \/ v = 4) by lia. destruct H as [->|[->|[->| ->]]]; vm_compute; reflexivity.
Qed.

Lemma land_channels ch : 1 <= ch <= 7 -> Z.land ch 7 = ch.
Proof.
  intros H. assert (Hc : ch = 1 \/ ch = 2 \/ ch = 3 \/ ch = 4 \/ ch = 5 \/ ch = 6 \/ ch = 7) by lia.
  repeat destruct Hc as [Hc|Hc]; subst ch; reflexivity.
Qed.

Lemma spoken_range version : version <= TRAX_VERSION -> 1 <= spoken version <= 4.
Proof. unfold spoken, TRAX_VERSION. intros H. destruct (version <? 1) eqn:E; lia. Qed.

Lemma hello_metadata_ok m version p q tr ti tc : metadata_ok m version -> made p -> made q -> same_props q p ->
  (forall k, sm_lookup p k = hello_map m (spoken version) tr ti tc (sm_lookup (md_custom m)) k) ->
  region_formats_decode (Some tr) = Ok (Z.land (md_region m) 14) -> image_formats_decode (Some ti) = Ok (Z.land (md_image m) 15) ->
  channels_decode (Some tc) = Ok (Z.land (md_channels m) 7) ->
  exists c, hello_metadata q = Ok (c, spoken version) /\ conveyed m version c.
Proof.
  intros (Hv & (Hcm & Hck) & Hint & Htx & Hch & Hfl) Hp Hq Hqp Hl Dr Di Dc.
  pose proof (spoken_range version Hv) as Hsv. pose proof (made_ok _ Hcm) as Hcok. pose proof (made_ok _ Hp) as Hpok. pose proof (made_ok _ Hq) as Hqok.
  assert (HC : forall k, starts_with (str "trax.") k = true -> sm_lookup (md_custom m) k = None).
  { intros k Hk. destruct (sm_lookup (md_custom m) k) as [v|] eqn:E; [|reflexivity]. exfalso.
    rewrite (Hint k v) in Hk; [discriminate|]. rewrite props_get_spec by exact Hcok. now rewrite E. }
  set (mo := if (spoken version =? 4) && match md_flags m with Some f => supports f TRAX_METADATA_MULTI_OBJECT | None => false end
       then Some (print_Z 1) else None).
  destruct (chain_get (sm_lookup (md_custom m)) (print_Z (spoken version)) tr ti tc (md_name m) (md_description m) (md_family m) mo HC)
    as (G1 & G2 & G3 & G4 & G5 & G6 & G7 & G8 & G9).
  assert (G : forall k, props_get q k = Ok (hello_map m (spoken version) tr ti tc (sm_lookup (md_custom m)) k)).
  { intros k. rewrite Hqp, props_get_spec by exact Hpok. now rewrite Hl. }
  unfold hello_map in G. fold mo in G.
  unfold hello_metadata.
  rewrite (get_small_int q (str "trax.version") (spoken version) 1 Hsv) by (rewrite G, G1; reflexivity). cbn [obind].
  rewrite (G (str "trax.region")), G2. cbn [obind]. rewrite Dr. cbn [obind]. rewrite (G (str "trax.image")), G3. cbn [obind]. rewrite Di. cbn [obind].
  rewrite (G (str "trax.channels")), G4. rewrite (G (str "trax.name")), G5, (G (str "trax.description")), G6, (G (str "trax.family")), G7.
  set (chs := if spoken version =? 1 then TRAX_CHANNEL_COLOR else md_channels m).
  assert (Ech : (if spoken version <? 2 then Ok TRAX_CHANNEL_COLOR else
     c <- Ok (Some tc) ;; n <- channels_decode c ;; Ok (if n =? 0 then TRAX_CHANNEL_COLOR else n)) = Ok chs).
  { unfold chs. destruct (Z.eq_dec (spoken version) 1) as [E|E].
    - rewrite E. reflexivity.
    - replace (spoken version <? 2) with false by lia. replace (spoken version =? 1) with false by lia. cbn [obind]. rewrite Dc. cbn [obind].
      rewrite land_channels by exact Hch. now replace (md_channels m =? 0) with false by lia. }
  rewrite Ech. cbn [obind].
  assert (Efl : (if 3 <? spoken version then m0 <- props_get_int q (str "trax.multiobject") 0 ;; Ok (if truth m0 then TRAX_METADATA_MULTI_OBJECT else 0)
    else Ok 0) = Ok (if multi_object m version then TRAX_METADATA_MULTI_OBJECT else 0)).
  { unfold multi_object. destruct (Z.eq_dec (spoken version) 4) as [E|E].
    - pose proof (G (str "trax.multiobject")) as Gm. rewrite G8 in Gm. unfold mo in Gm. rewrite E in *. cbn [Z.eqb Pos.eqb andb] in *.
      change (3 <? 4) with true. cbn iota. destruct (match md_flags m with Some f => _ | None => _ end).
      + rewrite (get_small_int q _ 1 0 ltac:(lia) Gm). reflexivity.
      + unfold props_get_int. rewrite Gm. reflexivity.
    - replace (3 <? spoken version) with false by lia. now replace (spoken version =? 4) with false by lia. }
  rewrite Efl. cbn [obind].
  unfold metadata_create. replace (chs =? 0) with false by (unfold chs; destruct (spoken version =? 1); [reflexivity|lia]).
  cbn [obind md_custom md_region md_image md_channels md_name md_description md_family md_flags].
  destruct (copy_external_spec q props_create Hqok props_create_ok) as (r & Er & Hr & Hrl). rewrite Er. cbn [obind].
  eexists. split; [reflexivity|]. unfold conveyed. cbn [md_custom md_region md_image md_channels md_name md_description md_family md_flags].
  do 6 (split; [reflexivity|]). split; [|reflexivity].
  apply same_props_lookup; [assumption..|]. intros k. rewrite Hrl. unfold ext_key.
  unfold props_create. destruct (starts_with (str "trax.") k) eqn:Ek; cbn [negb].
  - rewrite sm_new_lookup. symmetry. now apply HC.
  - unfold over. pose proof (G k) as Gk. rewrite props_get_spec in Gk by exact Hqok. injection Gk as Gk. rewrite Gk, G9 by exact Ek.
    rewrite sm_new_lookup. now destruct (sm_lookup (md_custom m) k).
Qed.

Lemma connect_ok m version cut sched_s sched_c : metadata_ok m version -> cutter cut -> no_error sched_s -> no_error sched_c ->
  exists c s, connect m version cut sched_s sched_c = Ok (Some (c, s)) /\
    h_version c = spoken version /\ h_version s = spoken version /\ conveyed m version (h_meta c) /\
    h_server c = false /\ h_server s = true /\ h_terminated c = false /\ h_terminated s = false /\
    h_objects c = 0 /\ h_objects s = 0 /\ ready (h_in c) [] /\ ready (h_in s) [] /\
    no_error (o_sched (h_out c)) /\ no_error (o_sched (h_out s)) /\
    md_channels (h_meta s) = md_channels m /\ md_image (h_meta s) = md_image m /\
    (spoken version = 4 -> is_multi_object s = Ok (multi_object m version)).
Proof.
  intros Hm Hcut Hs Hc. pose proof Hm as (Hv & (Hcm & Hck) & Hint & Htx & Hch & Hfl).
  pose proof (spoken_range version Hv) as Hsv. pose proof (made_ok _ Hcm) as Hcok.
  destruct (hello_properties_ok m (spoken version) Hsv Hcm Hfl) as (p & tr & ti & tc & flags & Ep & Er & Dr & Ei & Di & Ec & Dc & Mp & Lp & Fl).
  unfold connect, server_setup. replace (version <=? TRAX_VERSION) with true by lia.
  change (if version <? 1 then TRAX_VERSION else version) with (spoken version). rewrite Ep. cbn [obind snd fst].
  unfold metadata_create. replace (md_channels m =? 0) with false by lia. cbn [obind].
  set (h0 := mkHandle true false _ _ _ _ _ _ _).
  assert (Hclean : clean p).
  { split; [exact Mp|]. intros k v E. rewrite props_get_spec in E by now apply made_ok. injection E as E. rewrite Lp in E. revert k v E.
    change (clean_map (hello_map m (spoken version) tr ti tc (sm_lookup (md_custom m)))). unfold hello_map.
    inversion Htx as [|? ? Hn Htx1]; subst. inversion Htx1 as [|? ? Hd Htx2]; subst. inversion Htx2 as [|? ? Hfa _]; subst.
    apply clean_opt; [|reflexivity|]. 2:{ destruct (_ && _); [apply print_Z_text|exact I]. }
    apply clean_opt; [|reflexivity|exact Hfa]. apply clean_opt; [|reflexivity|exact Hd]. apply clean_opt; [|reflexivity|exact Hn].
    apply clean_set; [|unfold kv_ok; cbn [fst snd]; rewrite (encode_text channel_names _ _ eq_refl Ec); reflexivity].
    apply clean_set; [|unfold kv_ok; cbn [fst snd]; rewrite (encode_text image_names _ _ eq_refl Ei); reflexivity].
    apply clean_set; [|unfold kv_ok; cbn [fst snd]; rewrite (encode_text region_names _ _ eq_refl Er); reflexivity].
    apply clean_set; [|unfold kv_ok; cbn [fst snd]; rewrite print_Z_text; reflexivity].
    intros k v E. apply Hck. rewrite props_get_spec by exact Hcok. now rewrite E. }
  pose proof (handle_write_sent h0 MHello [] (Some p) Hs) as (Sb & Se). cbn [given h0 h_out o_bytes app] in Sb.
  set (s := handle_write h0 MHello [] (Some p)) in *. cbn [obind]. rewrite Sb.
  set (st := mkStream [] (cut (wire MHello [] (props_enum p)))).
  set (hd := mkHandle false false 0 (h_meta s) 0 false None st (mkO sched_c [] [])).
  assert (Hr : ready (h_in hd) (wire MHello [] (props_enum p) ++ [])).
  { destruct (Hcut (wire MHello [] (props_enum p))) as (A & B). split; [|exact B]. cbn [h_in hd st stream_bytes st_buf st_script app]. now rewrite A, app_nil_r. }
  destruct (handle_read_wire hd MHello [] p [] Hclean eq_refl Hr) as (rr & st' & Err & Et & Eg & Mr & Sr & Hr').
  unfold handle_read in Err. cbn [h_type h_in hd] in Err.
  destruct (read_message None st props_create) as [rr'| | |] eqn:Erd; try discriminate. cbn [obind] in Err. injection Err as -> Hst' Hst.
  unfold client_setup. rewrite Erd. cbn [obind]. rewrite Et, Eg.
  destruct (hello_metadata_ok m version p (rr_props rr) tr ti tc Hm Mp Mr Sr Lp Dr Di Dc) as (c & Emd & Hcv).
  rewrite Emd. cbn [obind fst snd].
  eexists. exists s. split; [reflexivity|]. cbn [h_version h_meta h_server h_terminated h_objects h_in h_out s handle_write with_out h0 o_sched md_channels md_image].
  rewrite Hst. split; [reflexivity|]. split; [reflexivity|]. split; [exact Hcv|]. do 6 (split; [reflexivity|]). split; [exact Hr'|].
  split; [split; [reflexivity|constructor]|]. split; [exact Hc|]. split; [exact Se|]. do 2 (split; [reflexivity|]).
  intros E4. unfold is_multi_object. match goal with |- match ?x with _ => _ end = _ => change x with flags end. rewrite (Fl E4). unfold multi_object. rewrite E4. cbn [Z.eqb Pos.eqb andb].
  now destruct (match md_flags m with Some f => _ | None => _ end).
Qed.

(** A connection in version 4 and a session of any length over it. *)
Lemma session_delivers legacy slack m version cut sched_s sched_c rs : metadata_ok m version -> spoken version = 4 -> cutter cut ->
  no_error sched_s -> no_error sched_c -> rounds_ok slack m (multi_object m version) 0 rs ->
  exists c s c' s' sns, connect m version cut sched_s sched_c = Ok (Some (c, s)) /\ play legacy slack c s rs = Ok (c', s', sns) /\ all_seen slack m 0 rs sns /\ h_objects c' = Z.of_nat (tracked_all 0 rs) /\ h_objects s' = Z.of_nat (tracked_all 0 rs).
Proof.
  intros Hm H4 Hcut Hs Hc Hrs. pose proof Hm as (_ & _ & _ & _ & Hch & _).
  destruct (connect_ok m version cut sched_s sched_c Hm Hcut Hs Hc)
    as (c & s & E & Vc & Vs & Hcv & A1 & A2 & A3 & A4 & A5 & A6 & A7 & A8 & A9 & A10 & A11 & A12 & A13).
  destruct Hcv as (B1 & B2 & B3 & B4 & B5 & B6 & B7 & B8). rewrite H4 in B3. cbn [Z.eqb Pos.eqb] in B3.
  assert (Hcs : client_side m (multi_object m version) 0 c).
  { unfold client_side. repeat match goal with |- _ /\ _ => split end; try assumption.
    - unfold is_version_4. rewrite Vc, H4. reflexivity.
    - unfold is_multi_object. rewrite B8. now destruct (multi_object m version). }
  assert (Hss : server_side m (multi_object m version) 0 s).
  { unfold server_side. repeat match goal with |- _ /\ _ => split end; try assumption. now apply A13. }
  destruct (play_delivers legacy slack m (multi_object m version) Hch rs 0%nat c s Hcs Hss Hrs) as (c' & s' & sns & E' & Hc' & Hs' & Hsn).
  exists c, s, c', s', sns. split; [exact E|]. split; [exact E'|]. split; [exact Hsn|].
  split; [apply Hc'|apply Hs'].
Qed.

(** The same for versions 1 to 3. *)
Lemma ssession_delivers legacy slack m version cut sched_s sched_c rs : metadata_ok m version -> spoken version <> 4 ->
  (spoken version = 1 -> md_channels m = TRAX_CHANNEL_COLOR) -> cutter cut ->
  no_error sched_s -> no_error sched_c -> srounds_ok slack m rs ->
  exists c s c' s' sns, connect m version cut sched_s sched_c = Ok (Some (c, s)) /\ splay legacy slack c s rs = Ok (c', s', sns) /\
    Forall2 (sseen_ok slack m) rs sns.
Proof.
  intros Hm H4 H1 Hcut Hs Hc (Hrs & Hfst). pose proof Hm as (Hv & _ & _ & _ & Hch & _). pose proof (spoken_range version Hv) as Hsv.
  destruct (connect_ok m version cut sched_s sched_c Hm Hcut Hs Hc)
    as (c & s & E & Vc & Vs & Hcv & A1 & A2 & A3 & A4 & A5 & A6 & A7 & A8 & A9 & A10 & A11 & A12 & A13).
  destruct Hcv as (B1 & B2 & B3 & B4 & B5 & B6 & B7 & B8).
  assert (Hcs : sclient m 0 c).
  { unfold sclient. repeat match goal with |- _ /\ _ => split end; try assumption.
    - unfold is_version_4. rewrite Vc. lia.
    - rewrite B3. destruct (spoken version =? 1) eqn:E1; [|reflexivity]. symmetry. apply H1. lia.
    - unfold is_multi_object. rewrite B8. unfold multi_object. replace (spoken version =? 4) with false by lia. reflexivity. }
  assert (Hss : sserver m s).
  { unfold sserver. repeat match goal with |- _ /\ _ => split end; try assumption. unfold is_version_4. rewrite Vs. lia. }
  destruct (splay_delivers legacy slack m Hch rs 0 c s Hcs Hss Hrs ltac:(now right)) as (c' & s' & sns & E' & Hsn).
  exists c, s, c', s', sns. auto.
Qed.

Lemma handshake_conveys m version cut sched_s sched_c : metadata_ok m version -> cutter cut -> no_error sched_s -> no_error sched_c ->
  exists c s, connect m version cut sched_s sched_c = Ok (Some (c, s)) /\
    h_version c = spoken version /\ h_version s = spoken version /\ conveyed m version (h_meta c).
Proof.
  intros H1 H2 H3 H4. destruct (connect_ok m version cut sched_s sched_c H1 H2 H3 H4) as (c & s & E & A & B & C & _). now exists c, s.
Qed.
