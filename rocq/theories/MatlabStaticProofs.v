(** Proofs about the stationary tracker written in Matlab. *)
From Coq Require Import Floats.SpecFloat.
From Verif Require Import CBase StrMap Props PropsSpec Message MessageSpec Num NumSpec NumProofs Region RegionSpec RegionProofs Image Formats Handle SessionSpec HandleProofs SessionProofs HandshakeProofs
  SendableProofs ListsSpec StaticSpec StaticProofs MetricProofs CppSession CppSessionSpec CppSessionProofs Matlab MatlabSpec MatlabCallProofs MatlabServer MatlabServerSpec MatlabServerProofs MatlabSessionProofs MatlabStatic MatlabStaticSpec.
Local Open Scope Z_scope.

(** ---- Sessions leave both sides ready ---- *)
Lemma session_sides legacy slack m version cut sched_s sched_c rs : metadata_ok m version -> spoken version = 4 -> cutter cut ->
  no_error sched_s -> no_error sched_c -> rounds_ok slack m (multi_object m version) 0 rs ->
  exists c s c' s' sns n, connect m version cut sched_s sched_c = Ok (Some (c, s)) /\ conveyed m version (h_meta c) /\ h_terminated s = false /\ play legacy slack c s rs = Ok (c', s', sns) /\ all_seen slack m 0 rs sns /\
    client_side m (multi_object m version) n c' /\ server_side m (multi_object m version) n s'.
Proof.
  intros Hm H4 Hcut Hs Hc Hrs. pose proof Hm as (_ & _ & _ & _ & Hch & _).
  destruct (connect_ok m version cut sched_s sched_c Hm Hcut Hs Hc)
    as (c & s & E & Vc & Vs & Hcv & A1 & A2 & A3 & A4 & A5 & A6 & A7 & A8 & A9 & A10 & A11 & A12 & A13).
  pose proof Hcv as (B1 & B2 & B3 & B4 & B5 & B6 & B7 & B8). rewrite H4 in B3. cbn [Z.eqb Pos.eqb] in B3.
  assert (Hcs : client_side m (multi_object m version) 0 c).
  { unfold client_side. repeat match goal with |- _ /\ _ => split end; try assumption.
    - unfold is_version_4. rewrite Vc, H4. reflexivity.
    - unfold is_multi_object. rewrite B8. now destruct (multi_object m version). }
  assert (Hss : server_side m (multi_object m version) 0 s).
  { unfold server_side. repeat match goal with |- _ /\ _ => split end; try assumption. now apply A13. }
  destruct (play_delivers legacy slack m (multi_object m version) Hch rs 0%nat c s Hcs Hss Hrs) as (c' & s' & sns & E' & Hc' & Hs' & Hsn).
  exists c, s, c', s', sns, (tracked_all 0 rs). auto 10.
Qed.

(** ---- Polygons ---- *)
Lemma coord_single x : MatlabSpec.single (coord x).
Proof. exact (narrowed_single _). Qed.
Lemma polygon_arrives pts : (3 <= List.length pts)%nat -> Forall point_finite pts ->
  region_arrives (RPoly pts) (RPoly (map coord_point pts)).
Proof.
  intros L F. destruct (poly_round_trip pts L F) as (t & pts' & E & P & _). exists t. split; [exact E|].
  enough (pts' = map coord_point pts) as -> by (split; [exact P|exact Logic.I]).
  destruct pts as [|p pts]; [cbn in L; lia|]. rewrite poly_string in E.
  assert (E0 : t = RegionProofs.join (flat_map point_fields (p :: pts))) by congruence. subst t. clear E.
  assert (Hp : point_finite p) by (now inversion F).
  revert P. set (t := RegionProofs.join _).
  assert (St : number_start t).
  { unfold t. cbn [flat_map RegionProofs.point_fields app]. rewrite RegionProofs.join_tails. apply number_start_float, finite_of, Hp. }
  unfold region_parse. rewrite (no_prefix _ St). destruct t as [|c0 t'] eqn:Et; [destruct St|]. rewrite <- Et. unfold t.
  rewrite (parse_join (flat_map point_fields (p :: pts)) _ ltac:(discriminate) (point_reads _ F)). cbn [obind].
  rewrite (coords_valid _ F), coords_length.
  set (n := List.length (p :: pts)) in *.
  replace (Nat.eqb (2 * n) 0) with false by (symmetry; apply Nat.eqb_neq; lia).
  replace (Nat.eqb (2 * n) 1) with false by (symmetry; apply Nat.eqb_neq; lia).
  replace (Nat.eqb (2 * n) 4) with false by (symmetry; apply Nat.eqb_neq; lia).
  replace (Nat.leb 6 (2 * n)) with true by (symmetry; apply Nat.leb_le; lia).
  replace (Nat.eqb ((2 * n) mod 2) 0) with true
    by (symmetry; apply Nat.eqb_eq; rewrite Nat.mul_comm; now apply Nat.mod_mul).
  cbn [negb orb andb]. rewrite pair_points_flat. intros P. congruence.
Qed.
Lemma polygon_viewable pts : (3 <= List.length pts)%nat -> in_int (2 * Z.of_nat (List.length pts)) = true -> viewable_region (RPoly (map coord_point pts)).
Proof.
  intros L I0. apply ex_poly; [rewrite map_length; lia|rewrite map_length; exact I0|]. intros x y X. apply in_map_iff in X as ([a b] & X & _).
  injection X as <- <-. split; apply coord_single.
Qed.

(** ---- Calls ---- *)
Lemma static_wait_same fuel slack s : mex_server fuel slack s static_wait_call = mex_server fuel slack s (wait_call true).
Proof.
  rewrite (asks_wait _ _ _ _ (wait_asks true)). rewrite asks_wait by (eexists _, (str "wait"), _; split; reflexivity).
  unfold mex_wait. replace (Matlab.server_wait (mc_prhs static_wait_call)) with (Matlab.server_wait (mc_prhs (wait_call true))) by (vm_compute; reflexivity). reflexivity.
Qed.
Lemma static_status_same fuel slack s a b reg s' outs : array_to_region a = done reg -> array_to_region b = done reg ->
  mex_server fuel slack s (status_call a None) = Ok (s', Some outs) -> exists outs', mex_server fuel slack s (static_status_call b) = Ok (s', Some outs').
Proof.
  intros A B. rewrite asks_status by (eexists _, (str "status"), _; split; reflexivity). rewrite asks_status by (eexists _, (str "status"), _; split; reflexivity).
  unfold mex_status. destruct (ms_server s) as [o|]; [|discriminate]. cbv zeta.
  cbn [status_call static_status_call mc_prhs mc_nlhs List.length]. change (3 <? Z.of_nat 2) with false. change (Z.of_nat 2 <? 2) with false. change (1 <? 1) with false. change (1 <? 0) with false. cbv iota.
  change (fetch [text_array (str "status"); a] 1) with (Ok a). change (fetch [chars (str "status"); b] 1) with (Ok b). cbn [obind]. rewrite A, B.
  unfold helped at 1 3, done at 1 2. cbn [obind].
  change (state_properties [text_array (str "status"); a]) with (done props_create). change (state_properties [chars (str "status"); b]) with (done props_create).
  unfold helped, done. cbn [obind]. destruct o as [h|]; [|discriminate].
  destruct (cpp_reply h reg props_create) as [[[code h'] q]| | |]; try discriminate. cbn [obind].
  match goal with |- context [if ?t then failed ?z else _] => destruct t; [discriminate|] end.
  unfold returned. intros E. injection E as <- <-. eexists. reflexivity.
Qed.
Lemma wait_outputs fuel slack s h s' a b d : ms_server s = Some (Some h) -> is_empty a = false -> mex_server fuel slack s (wait_call true) = Ok (s', Some [Some a; Some b; Some d]) ->
  exists h', ms_server s' = Some (Some h') /\ h_out h' = h_out h /\ s' = set_server s (Some (Some h')).
Proof.
  intros E N. rewrite (asks_wait _ _ _ _ (wait_asks true)). unfold mex_wait. rewrite E, wait_arguments. unfold helped at 1, done at 1. cbn [obind wait_call mc_nlhs].
  change (3 <? 3) with false. cbv iota. destruct (cpp_server_wait fuel slack h None props_create) as [w| | |] eqn:W; try discriminate. cbn [obind]. destruct w as [[[[event h1] images] rg] p].
  pose proof (cpp_wait_quiet _ _ _ _ _ _ _ _ W) as Q. destruct (event =? TRAX_INITIALIZE).
  { intros O. apply outputs_state in O. subst s'. exists h1. cbn [set_server ms_server]. auto. }
  destruct (event =? TRAX_FRAME). { intros O. apply outputs_state in O. subst s'. exists h1. cbn [set_server ms_server]. auto. }
  destruct (event =? TRAX_ERROR); [discriminate|]. destruct (deleted _ _) as [s2| | |]; try discriminate. cbn [obind]. unfold returned. intros O. exfalso.
  assert (X : wanted 3 [Some empty_array; Some empty_array; Some empty_array] = [Some a; Some b; Some d]) by congruence. vm_compute in X. injection X as <- _ _. discriminate N.
Qed.

(** ---- The rounds of C112 that the tracker plays ---- *)
Definition good_corners (pts : list (spec_float * spec_float)) : Prop := (3 <= List.length pts)%nat /\ in_int (2 * Z.of_nat (List.length pts)) = true /\ Forall point_finite pts.
Definition arrived (pts : list (spec_float * spec_float)) : region := RPoly (map coord_point pts).
Definition shown_array (r : region) : mx := match region_to_array r with Ok (Some a) => a | _ => MDouble 0 0 [] end.
Definition plan_state (p : option (list (spec_float * spec_float))) : mx := match p with Some pts => shown_array (arrived pts) | None => MDouble 0 0 [] end.
Definition plan_round (p : option (list (spec_float * spec_float))) (q : task) : mround :=
  mkMround (option_map RPoly (tk_polygon q)) (tk_images q) (tk_props q) true (plan_state (target p q)) None (tk_cut1 q) (tk_cut2 q).
Fixpoint planned (p : option (list (spec_float * spec_float))) (qs : list task) : list mround :=
  match qs with [] => [] | q :: qs' => plan_round p q :: planned (target p q) qs' end.
Definition good (p : option (list (spec_float * spec_float))) : Prop := forall pts, p = Some pts -> good_corners pts.
Lemma shown_array_ok pts : good_corners pts -> array_to_region (shown_array (arrived pts)) = done (arrived pts).
Proof.
  intros (L & I0 & _). destruct (region_shown_ok _ (polygon_viewable pts L I0)) as (a & E & _ & B). unfold shown_array, arrived. rewrite E. exact B.
Qed.
Lemma target_good slack p q : good p -> task_ok slack p q -> exists pts, target p q = Some pts /\ good_corners pts.
Proof.
  intros G (_ & _ & _ & T & _). unfold target. destruct (tk_polygon q) as [pts|]; [exists pts; auto|]. destruct p as [pts|]; [exists pts; split; [reflexivity|now apply G]|now destruct T].
Qed.
Lemma corners_steady pts : good_corners pts -> steady (RPoly pts).
Proof. intros (L & _ & F). now constructor. Qed.
Lemma corners_arrive pts : good_corners pts -> region_arrives (RPoly pts) (arrived pts).
Proof. intros (L & _ & F). now apply polygon_arrives. Qed.
Lemma corners_return pts : good_corners pts -> exists r, region_arrives (arrived pts) r /\ stays (RPoly pts) r.
Proof.
  intros G. destruct (steady_twice _ (corners_steady pts G)) as (r1 & r2 & A1 & A2 & S2). rewrite <- (arrives_once _ _ _ (corners_arrive pts G) A1) in A2. exists r2. auto.
Qed.
Lemma plan_round_ok slack p q : good p -> task_ok slack p q -> mround_ok slack 4 13 (plan_round p q).
Proof.
  intros G T. destruct (target_good slack p q G T) as (pts & Ep & Gp). destruct T as (C1 & C2 & Im & Po & Cl & Ct). unfold mround_ok, plan_round.
  cbn [mr_cut1 mr_cut2 mr_images mr_start mr_props mr_state mr_state_props]. rewrite Ep. cbn [plan_state]. split; [exact C1|]. split; [exact C2|]. split; [exact Im|]. split.
  { unfold option_map. destruct (tk_polygon q) as [pts'|]; [|exact Logic.I]. split; [discriminate|]. split; [reflexivity|]. split; [exact Logic.I|]. exists (arrived pts').
    split; [exact (corners_arrive pts' Po)|]. destruct Po as (L & I0 & _). exact (polygon_viewable pts' L I0). }
  split; [exact Cl|]. split; [exact Ct|]. split; [|exact Logic.I]. destruct (corners_return pts Gp) as (r & A & _). exists (arrived pts), r. split; [exact (shown_array_ok pts Gp)|]. split; [exact Logic.I|exact A].
Qed.
Lemma good_target slack p q : good p -> task_ok slack p q -> good (target p q).
Proof. intros G T. destruct (target_good slack p q G T) as (pts & -> & Gp). intros x X. now injection X as <-. Qed.
Lemma planned_ok slack qs : forall p, good p -> tasks_ok slack p qs -> Forall (mround_ok slack 4 13) (planned p qs).
Proof.
  induction qs as [|q qs IH]; intros p G T; [constructor|]. destruct T as [T Ts]. cbn [planned]. constructor; [exact (plan_round_ok slack p q G T)|]. apply IH; [exact (good_target slack p q G T)|exact Ts].
Qed.

(** ---- A pass ---- *)
Lemma images_not_empty slack imf l ims a : images_arrive slack TRAX_CHANNEL_COLOR imf l ims -> images_shown ims a -> is_empty a = false.
Proof.
  intros (_ & L & A) (cells & -> & F). destruct ims as [|x [|y [|z [|]]]]; try discriminate L. specialize (A 0%nat ltac:(lia)) as A0. cbn in A0. destruct A0 as (i & i' & _ & A0 & _). cbn [nth] in A0. subst x.
  cbn [flat_map app] in F. inversion F as [|? ? ? cs ? ? E1 E2]; subst. unfold is_empty. cbn [get_m get_n List.length]. lia.
Qed.
Lemma polygon_not_empty a pts : (exists n data, a = MDouble 1 n data) -> array_to_region a = done (RPoly pts) -> is_empty a = false.
Proof.
  intros (n & data & ->) E. unfold is_empty. cbn [get_m get_n]. cbn [array_to_region] in E. destruct ((n mod 2 =? 0) && (6 <=? n))%bool eqn:B; [lia|]. destruct (Z.eqb_spec n 4) as [->|]; [reflexivity|discriminate E].
Qed.
Lemma round_ok legacy slack rf m c s t q p c' s' csn : ms_server (mt_server t) = Some (Some s) -> good p -> task_ok slack p q ->
  (forall pts, p = Some pts -> array_to_region (mt_memory t) = done (arrived pts)) -> md_image m = 13 -> md_channels m = TRAX_CHANNEL_COLOR -> rf = 4 ->
  cpp_round false legacy slack c s (crossed (plan_round p q) (state_region (plan_round p q))) = Ok (c', s', csn) ->
  cseen_ok slack m (crossed (plan_round p q) (state_region (plan_round p q))) csn ->
  exists memory r pts, task_round legacy slack c t q = Ok (c', Went (mkMstatic (set_server (mt_server t) (Some (Some s'))) memory), (TRAX_STATE, Some r)) /\
    target p q = Some pts /\ stays (RPoly pts) r /\ array_to_region memory = done (arrived pts).
Proof.
  intros Hs G T M Hi Hc -> E Cs. pose proof (plan_round_ok slack p q G T) as R. pose proof (state_region_ok _ _ _ _ R) as Er.
  destruct (target_good slack p q G T) as (pts & Ep & Gp). rewrite <- Hi in R.
  destruct (mex_round_ok legacy slack 4 m c s (mt_server t) (plan_round p q) _ c' s' csn Hs Er R Hc E Cs) as (msn & X & Sn & _). clear E Cs.
  unfold mex_round, plan_round in X. cbn [mr_start mr_images mr_props mr_cut1 mr_cut2 mr_struct mr_state mr_state_props] in X. rewrite Ep in X. cbn [plan_state] in X.
  unfold task_round.
  assert (Se : match option_map RPoly (tk_polygon q) with Some reg => cpp_initialize legacy c (tk_images q) reg (tk_props q) | None => cpp_frame legacy c (tk_images q) (tk_props q) end =
    match tk_polygon q with Some pts => cpp_initialize legacy c (tk_images q) (RPoly pts) (tk_props q) | None => cpp_frame legacy c (tk_images q) (tk_props q) end) by (destruct (tk_polygon q); reflexivity).
  rewrite Se in X. clear Se. destruct (match tk_polygon q with Some pts => cpp_initialize legacy c (tk_images q) (RPoly pts) (tk_props q) | None => cpp_frame legacy c (tk_images q) (tk_props q) end)
    as [[sent c1]| | |]; try discriminate. cbn [obind] in X |- *.
  replace (match option_map RPoly (tk_polygon q) with Some _ => 4%nat | None => 3%nat end) with (match tk_polygon q with Some _ => 4%nat | None => 3%nat end) in X by (destruct (tk_polygon q); reflexivity).
  set (fuel := match tk_polygon q with Some _ => 4%nat | None => 3%nat end) in *. clearbody fuel.
  assert (Hf : ms_server (fed (tk_cut1 q) (written c c1) (mt_server t)) = Some (Some (arrive (tk_cut1 q) (written c c1) s))) by (unfold fed, handle_of; rewrite Hs; reflexivity).
  assert (Hf2 : forall h', set_server (fed (tk_cut1 q) (written c c1) (mt_server t)) (Some (Some h')) = set_server (mt_server t) (Some (Some h'))) by (intros h'; unfold fed, handle_of; rewrite Hs; reflexivity).
  set (ft := fed (tk_cut1 q) (written c c1) (mt_server t)) in *. clearbody ft.
  destruct (mex_server fuel slack ft (wait_call true)) as [[s1 request]| | |] eqn:W; try discriminate. cbn [obind] in X.
  destruct (mex_server fuel slack s1 (status_call (shown_array (arrived pts)) None)) as [[s2 replied]| | |] eqn:B; try discriminate. cbn [obind] in X.
  destruct (cpp_client_wait (arrive (tk_cut2 q) (wrote s1 s2) c1) None props_create) as [[[[state c2] answer] pr]| | |] eqn:Y; try discriminate. cbn [obind] in X.
  injection X as <- Es <-. unfold mseen_ok in Sn. cbn [mn_request mn_replied mn_state mn_answer plan_round mr_start mr_images mr_props mr_struct mr_state] in Sn.
  destruct Sn as (_ & (a & b & d & -> & (ims & Ai & Si) & Sb & _) & -> & -> & (reg & reg' & A1 & A2 & A3)). rewrite Ep in A1. cbn [plan_state] in A1. rewrite (shown_array_ok pts Gp) in A1.
  assert (reg = arrived pts) by (unfold done in A1; injection A1 as A1; symmetry; exact A1). subst reg. pose proof (images_not_empty _ _ _ _ _ Ai Si) as Na.
  destruct (wait_outputs fuel slack ft _ s1 a b d Hf Na W) as (h1 & Eh & Oh & Es1).
  set (memory := if is_empty b then mt_memory t else b).
  assert (Em : array_to_region memory = done (arrived pts)).
  { unfold memory. unfold target in Ep. destruct T as (_ & _ & _ & Po & _). destruct (tk_polygon q) as [pts'|]; cbn [option_map] in Sb.
    - injection Ep as ->. destruct Sb as (r1 & B1 & B2). rewrite (arrives_once _ _ _ B1 (corners_arrive pts Gp)) in B2. unfold arrived in B2. destruct B2 as [B2 B3].
      rewrite (polygon_not_empty b _ B2 B3). exact B3.
    - subst b. change (is_empty (MDouble 0 0 [])) with true. cbv iota. exact (M pts Ep). }
  destruct (static_status_same fuel slack s1 _ memory (arrived pts) s2 _ (shown_array_ok pts Gp) Em B) as (outs & B').
  unfold matlab_static_pass. cbn [mt_server mt_memory]. rewrite static_wait_same, W. cbn [obind]. rewrite Na. unfold matlab_static_report. fold memory. rewrite B'. cbn [obind pass_server mt_server].
  replace (wrote (mt_server t) s2) with (wrote s1 s2).
  2: { unfold wrote, handle_of. rewrite Eh, Hs. unfold written. rewrite Oh. reflexivity. }
  rewrite Y. cbn [obind]. destruct (corners_return pts Gp) as (r & R1 & R2). rewrite (arrives_once _ _ _ A3 R1) in A2. subst answer.
  exists memory, r, pts. split; [|auto]. rewrite Es. reflexivity.
Qed.
Lemma tasks_play legacy slack m qs : md_image m = 13 -> md_channels m = TRAX_CHANNEL_COLOR -> forall p c s t c' s' csns, ms_server (mt_server t) = Some (Some s) -> good p -> tasks_ok slack p qs ->
  (forall pts, p = Some pts -> array_to_region (mt_memory t) = done (arrived pts)) ->
  cpp_play false legacy slack c s (map (fun r => crossed r (state_region r)) (planned p qs)) = Ok (c', s', csns) ->
  Forall2 (cseen_ok slack m) (map (fun r => crossed r (state_region r)) (planned p qs)) csns ->
  exists memory l, task_rounds legacy slack c t qs = Ok (Some (c', mkMstatic (set_server (mt_server t) (Some (Some s'))) memory, l)) /\ task_reports p qs l.
Proof.
  intros Hi Hc. induction qs as [|q qs IH]; intros p c s t c' s' csns Hs G T M E F.
  - cbn [planned map cpp_play] in E. injection E as <- <- <-. exists (mt_memory t), []. split; [|exact Logic.I]. cbn [task_rounds]. do 3 f_equal.
    destruct t as [[a b d] mem]. cbn [mt_server mt_memory ms_server] in *. subst a. reflexivity.
  - destruct T as [T Ts]. cbn [planned map cpp_play] in E, F.
    destruct (cpp_round false legacy slack c s (crossed (plan_round p q) (state_region (plan_round p q)))) as [[[c1 s1] sn]| | |] eqn:R; try discriminate. cbn [obind] in E.
    destruct (cpp_play false legacy slack c1 s1 _) as [[[c2 s2] sns]| | |] eqn:P; try discriminate. cbn [obind] in E. injection E as <- <- <-.
    inversion F as [|? ? ? ? F1 F2]; subst.
    destruct (round_ok legacy slack 4 m c s t q p c1 s1 sn Hs G T M Hi Hc eq_refl R F1) as (memory & r & pts & X & Ep & St & Me).
    destruct (IH (target p q) c1 s1 (mkMstatic (set_server (mt_server t) (Some (Some s1))) memory) c2 s2 sns eq_refl (good_target slack p q G T) Ts
      ltac:(intros pts' Y; rewrite Ep in Y; injection Y as <-; exact Me) P F2) as (memory' & l & Y & Rp).
    exists memory', ((TRAX_STATE, Some r) :: l). cbn [task_rounds]. rewrite X. cbn [obind]. rewrite Y. cbn [obind]. split; [reflexivity|].
    cbn [task_reports]. split; [reflexivity|]. split; [exists pts, r; auto|exact Rp].
Qed.

(** ---- The end ---- *)
Lemma quits_broke fuel slack s c t reason cut : ms_server (mt_server t) = Some (Some s) -> h_server s = true -> h_terminated s = false -> 1 <= md_channels (h_meta s) <= 7 -> ready (h_in s) [] ->
  h_terminated c = false -> no_error (o_sched (h_out c)) -> text_ok reason = true -> cutter cut ->
  task_ending (S fuel) slack c t reason cut = Ok (Broke (mkMstatic (mkMserver None (ms_lost (mt_server t)) (h_out s :: ms_closed (mt_server t))) (mt_memory t))).
Proof.
  intros Hs A B C D E F G H. destruct (client_quit_closes fuel slack (mt_server t) s c reason cut true Hs A B C D E F G H) as (c' & X & Y).
  unfold task_ending. rewrite X. cbn [obind snd]. unfold matlab_static_pass. cbn [mt_server mt_memory]. rewrite static_wait_same. rewrite Y. cbn [obind repeat].
  change (is_empty (MDouble 0 0 [])) with true. cbv iota. unfold matlab_static_quit.
  destruct (closed_quits (S fuel) slack (mkMserver None (ms_lost (mt_server t)) (h_out s :: ms_closed (mt_server t))) static_quit_call) as (outs & Z0 & _).
  - unfold is_open. cbn [ms_server]. intros N. now apply N.
  - eexists _, (str "quit"), _. split; reflexivity.
  - rewrite Z0. reflexivity.
Qed.

Lemma matlab_static_reports legacy fuel slack cut sched_s sched_c qs : cutter cut -> no_error sched_s -> no_error sched_c -> tasks_ok slack None qs ->
  exists s t h c c' t' l, matlab_static_start fuel slack (Some (mkStream [] [], mkO sched_s [] [])) = Ok (s, Some t) /\ handle_of s = Some h /\
    client_setup (mkStream [] (cut (o_bytes (h_out h)))) (mkO sched_c [] []) = Ok (Some c) /\ md_region (h_meta c) = 4 /\ md_image (h_meta c) = 13 /\
    task_rounds legacy slack c t qs = Ok (Some (c', t', l)) /\ task_reports None qs l /\
    forall fuel' reason cut', text_ok reason = true -> cutter cut' -> exists h' memory,
      handle_of (mt_server t') = Some h' /\ task_ending (S fuel') slack c' t' reason cut' = Ok (Broke (mkMstatic (mkMserver None [] [h_out h']) memory)).
Proof.
  intros Hcut Hs Hc T.
  assert (Hr : get_flags (chars (str "polygon")) get_region_code = done 4) by (vm_compute; reflexivity).
  assert (Hi : get_flags (texts [str "path"; str "memory"; str "buffer"]) get_image_code = done 13) by (vm_compute; reflexivity).
  destruct (setup_announces _ _ [] 4 13 (chars (str "setup")) ltac:(split; [constructor|reflexivity]) Hr Hi) as (a & m & Ea & Em & An & Ok1).
  pose proof An as (Ar & Ai & Ac & _). assert (Gn : good None) by (intros x X; discriminate X).
  pose proof (planned_ok slack qs None Gn T) as Pk.
  assert (Cr : Forall (cround_ok slack m) (map (fun r => crossed r (state_region r)) (planned None qs))).
  { apply Forall_map. apply (Forall_impl _ (P := mround_ok slack (md_region m) (md_image m))); [intros r X; exact (crossed_ok slack m r X Ac)|]. rewrite Ar, Ai. exact Pk. }
  assert (Hf : match map (fun r => crossed r (state_region r)) (planned None qs) with [] => True | r :: _ => cr_start r <> None end).
  { destruct qs as [|q qs]; [exact Logic.I|]. cbn [planned map crossed plan_round cr_start mr_start]. destruct T as [(_ & _ & _ & X & _) _]. destruct (tk_polygon q); [discriminate|now destruct X]. }
  set (rs := map (fun r => crossed r (state_region r)) (planned None qs)) in *.
  destruct (session_sides legacy slack m 0 cut sched_s sched_c (map to_round rs) Ok1 eq_refl Hcut Hs Hc (rounds_map slack m _ rs Cr 0%nat (le_S _ _ (le_n 0)) (or_intror Hf)))
    as (c & s & c' & s' & sns & n & Co & Cv & Ts & Pl & As & Sc & Ss).
  destruct (mot_play legacy slack m rs Cr 0%nat c s c' s' sns (or_intror Hf) (le_S _ _ (le_n 0)) Pl As) as (csns & F & G & _).
  unfold connect in Co. destruct (Handle.server_setup m (mkStream [] []) (mkO sched_s [] []) 0) as [h| | |] eqn:Sv; try discriminate. cbn [obind] in Co.
  destruct (client_setup _ _) as [oc| | |] eqn:Cl; try discriminate. cbn [obind] in Co. injection Co as Co. destruct oc as [oc|]; [|discriminate]. injection Co as -> ->.
  set (t := mkMstatic (replaced mserver0 (Some s)) (MDouble 1 4 (repeat (S754_zero false) 4))).
  destruct (tasks_play legacy slack m qs Ai Ac None c s t c' s' csns eq_refl Gn T ltac:(discriminate) F G) as (memory & l & R1 & R2).
  exists (replaced mserver0 (Some s)), t, s, c, c', (mkMstatic (set_server (mt_server t) (Some (Some s'))) memory), l.
  split.
  { unfold matlab_static_start. rewrite asks_setup by (eexists _, (str "setup"), _; split; reflexivity). unfold mex_setup. cbn [static_setup_call mc_prhs mc_nlhs mc_net List.length].
    change (Z.of_nat 3 <? 3) with false. change (1 <? 0) with false. cbv iota. cbn [pair_arrays flat_map] in Ea. rewrite Ea. unfold helped, done. cbn [obind]. rewrite Em. cbn [obind].
    unfold new_server. rewrite Sv. cbn [obind]. cbv zeta. unfold is_alive, alive. rewrite Ts. reflexivity. }
  split; [reflexivity|]. split; [exact Cl|]. destruct Cv as (B1 & B2 & _).
  split; [rewrite B1, Ar; reflexivity|]. split; [rewrite B2, Ai; reflexivity|]. split; [exact R1|]. split; [exact R2|].
  intros fuel' reason cut' Ht Hcut'. destruct Sc as (_ & C2 & _ & _ & _ & _ & _ & C8 & _). destruct Ss as (D1 & D2 & D3 & _ & _ & _ & _ & D8).
  exists s', memory. split; [reflexivity|].
  exact (quits_broke fuel' slack s' c' (mkMstatic (set_server (mt_server t) (Some (Some s'))) memory) reason cut' eq_refl D1 D2 ltac:(rewrite D3, Ac; unfold TRAX_CHANNEL_COLOR; lia) D8 C2 C8 Ht Hcut').
Qed.

(** ---- Examples ---- *)
Lemma colour_arrives : exists ims, images_arrive 0 TRAX_CHANNEL_COLOR 13 sample_colour ims /\ viewable_images ims.
Proof.
  exists sample_colour. split.
  - split; [reflexivity|]. split; [reflexivity|]. intros k Hk. destruct k as [|[|[|k]]]; [| | |lia].
    + eexists _, _. split; [vm_compute; reflexivity|]. split; [vm_compute; reflexivity|]. split; [|reflexivity]. eexists. split; [vm_compute; reflexivity|]. split; vm_compute; reflexivity.
    + reflexivity.
    + reflexivity.
  - intros im [X|[X|[X|[]]]]; try discriminate X. right. left. exists (str "/a b.jpg").
    split; [intros Y; cbn in Y; repeat destruct Y as [Y|Y]; try discriminate; destruct Y|]. vm_compute in X. injection X as <-. vm_compute. reflexivity.
Qed.
Lemma file_arrives : exists ims, images_arrive 0 TRAX_CHANNEL_COLOR 13 sample_file ims /\ viewable_images ims.
Proof.
  exists [Some (mkImage TRAX_IMAGE_BUFFER 7 1 TRAX_IMAGE_BUFFER_PNG (map Some [137; 80; 78; 71; 13; 10; 0]%N)); None; None]. split.
  - split; [reflexivity|]. split; [reflexivity|]. intros k Hk. destruct k as [|[|[|k]]]; [| | |lia].
    + eexists _, _. split; [vm_compute; reflexivity|]. split; [vm_compute; reflexivity|]. split; [|reflexivity]. eexists. split; [vm_compute; reflexivity|]. split; vm_compute; reflexivity.
    + reflexivity.
    + reflexivity.
  - intros im [X|[X|[X|[]]]]; try discriminate X. right. right. injection X as <-. exists (str "png"), [137; 80; 78; 71; 13; 10; 0]%N. split; [reflexivity|]. split; [now left|]. split; reflexivity.
Qed.
Lemma sample_tasks_ok : tasks_ok 0 None sample_tasks.
Proof.
  unfold sample_tasks, sample_corners. cbn [tasks_ok]. unfold task_ok, target. cbn [tk_polygon tk_images tk_props tk_cut1 tk_cut2].
  assert (P : forall x, In x [fl 1; fl 2; fl 30; fl 4; fl 50; fl 7; fl 8; fl 5] -> finite_float x).
  { intros x X. cbn [In] in X. repeat destruct X as [<-|X]; try fine. destruct X. }
  assert (F : forall x y, In x [fl 1; fl 2; fl 30; fl 4; fl 50; fl 7; fl 8; fl 5] -> In y [fl 1; fl 2; fl 30; fl 4; fl 50; fl 7; fl 8; fl 5] -> point_finite (x, y)) by (intros x y X Y; split; apply P; assumption).
  split; [|split; [|split; [|split; [|exact Logic.I]]]].
  - split; [apply byte_cutter|]. split; [apply whole_cutter|]. split; [exact colour_arrives|]. split; [|split; [apply clean_sample; reflexivity|reflexivity]].
    split; [cbn; lia|]. split; [reflexivity|]. repeat (apply Forall_cons; [apply F; cbn [In]; tauto|]). apply Forall_nil.
  - split; [apply whole_cutter|]. split; [apply byte_cutter|]. split; [exact file_arrives|]. split; [discriminate|split; [apply SessionProofs.clean_create|reflexivity]].
  - split; [apply byte_cutter|]. split; [apply byte_cutter|]. split; [exact colour_arrives|]. split; [|split; [apply SessionProofs.clean_create|reflexivity]].
    split; [cbn; lia|]. split; [reflexivity|]. repeat (apply Forall_cons; [apply F; cbn [In]; tauto|]). apply Forall_nil.
  - split; [apply whole_cutter|]. split; [apply whole_cutter|]. split; [exact colour_arrives|]. split; [discriminate|split; [apply clean_sample; reflexivity|reflexivity]].
Qed.
