(** Calls of the Matlab server function *)
From Coq Require Import Floats.SpecFloat.
From Verif Require Import CBase StrMap Props PropsSpec StrMapProofs PropsProofs Buffer BufferProofs Message MessageSpec MessageProofs MessageApi
  Num Region RegionGeom Image ImageProofs Formats FormatsSpec FormatsProofs GeomSpec GeomProofs Handle SessionSpec HandleProofs SessionProofs HandshakeProofs HistoryProofs SendableProofs
  ListsSpec ListsProofs PySessionProofs Matlab MatlabSpec MatlabProofs MatlabCallProofs MatlabClientProofs CppSession CppSessionSpec CppSessionProofs MatlabServer MatlabServerSpec.
Local Open Scope Z_scope.

(** ---- The operation ---- *)
Lemma operation fuel slack s c n t rest op : mc_prhs c = MChar 1 n t :: rest -> map to_lower (c_string t) = op ->
  mex_server fuel slack s c =
    (if bytes_eqb op (str "setup") then mex_setup s c else if bytes_eqb op (str "wait") then mex_wait fuel slack s c
     else if bytes_eqb op (str "status") then mex_status s c else if bytes_eqb op (str "quit") then mex_quit s c else failed s).
Proof.
  intros E L. unfold mex_server. rewrite E. unfold get_string. cbn [get_m]. change (negb (1 =? 1)) with false. cbv iota. unfold helped, done. cbn [obind]. rewrite L. reflexivity.
Qed.
Lemma asks_setup fuel slack s c : asks c (str "setup") -> mex_server fuel slack s c = mex_setup s c.
Proof. intros (n & t & rest & E & L). rewrite (operation fuel slack s c n t rest (str "setup") E (fold_lower _ _ L eq_refl)). reflexivity. Qed.
Lemma asks_wait fuel slack s c : asks c (str "wait") -> mex_server fuel slack s c = mex_wait fuel slack s c.
Proof. intros (n & t & rest & E & L). rewrite (operation fuel slack s c n t rest (str "wait") E (fold_lower _ _ L eq_refl)). reflexivity. Qed.
Lemma asks_status fuel slack s c : asks c (str "status") -> mex_server fuel slack s c = mex_status s c.
Proof. intros (n & t & rest & E & L). rewrite (operation fuel slack s c n t rest (str "status") E (fold_lower _ _ L eq_refl)). reflexivity. Qed.
Lemma asks_quit fuel slack s c : asks c (str "quit") -> mex_server fuel slack s c = mex_quit s c.
Proof. intros (n & t & rest & E & L). rewrite (operation fuel slack s c n t rest (str "quit") E (fold_lower _ _ L eq_refl)). reflexivity. Qed.

(** ---- Without a connection ---- *)
Lemma closed_refuses fuel slack s c : ~ is_open s -> asks c (str "wait") \/ asks c (str "status") -> refused fuel slack s c.
Proof.
  unfold is_open. intros N H. assert (E : ms_server s = None) by (destruct (ms_server s); [now elim N|reflexivity]). unfold refused.
  destruct H as [H|H]; [rewrite (asks_wait _ _ _ _ H); unfold mex_wait|rewrite (asks_status _ _ _ _ H); unfold mex_status]; now rewrite E.
Qed.
Lemma closed_quits fuel slack s c : ~ is_open s -> asks c (str "quit") -> exists outs, mex_server fuel slack s c = Ok (s, Some outs) /\ Forall (fun o => o = None) outs.
Proof.
  unfold is_open. intros N H. assert (E : ms_server s = None) by (destruct (ms_server s); [now elim N|reflexivity]).
  rewrite (asks_quit _ _ _ _ H). unfold mex_quit. rewrite E. eexists. split; [reflexivity|]. unfold wanted. destruct (Z.to_nat _) as [|n]; cbn [firstn]; [apply Forall_nil|]. apply Forall_cons; [reflexivity|]. destruct n; apply Forall_nil.
Qed.
Lemma unknown_refused fuel slack s c : ~ asks c (str "setup") -> ~ asks c (str "wait") -> ~ asks c (str "status") -> ~ asks c (str "quit") -> refused fuel slack s c.
Proof.
  intros A B C D. unfold refused, mex_server. destruct (mc_prhs c) as [|a rest] eqn:E; [reflexivity|]. destruct a as [r n t| | | | |]; try reflexivity.
  unfold get_string. cbn [get_m]. destruct (Z.eqb_spec r 1) as [->|]; cbn [negb]; [|reflexivity]. unfold helped, done. cbn [obind].
  assert (X : forall op, map to_lower op = op -> ~ asks c op -> bytes_eqb (map to_lower (c_string t)) op = false).
  { intros op Lo K. destruct (bytes_eqb _ op) eqn:Q; [|reflexivity]. elim K. exists n, t, rest. split; [exact E|]. unfold strcasecmp_eq. now rewrite Lo. }
  rewrite (X (str "setup") eq_refl A), (X (str "wait") eq_refl B), (X (str "status") eq_refl C), (X (str "quit") eq_refl D). reflexivity.
Qed.

(** ---- Quitting ---- *)
Lemma text_ok_no_nul t : text_ok t = true -> ~ In 0%N t.
Proof. intros H X. unfold text_ok in H. rewrite forallb_forall in H. specialize (H _ X). discriminate. Qed.
Lemma cleanup_dead h : h_terminated h = true -> cleanup h = Ok (h_out h).
Proof. intros T. unfold cleanup, terminate, alive. cbn [clear_error h_terminated]. rewrite T. reflexivity. Qed.
Lemma quit_closes fuel slack s c h reason : ms_server s = Some (Some h) -> h_terminated h = false -> no_error (o_sched (h_out h)) ->
  asks c (str "quit") -> List.tl (mc_prhs c) = [text_array reason] -> text_ok reason = true ->
  exists o p outs, mex_server fuel slack s c = Ok (mkMserver None (ms_lost s) (o :: ms_closed s), Some outs) /\
    sent (h_out h) o (wire MQuit [] (props_enum p)) /\ made p /\ (forall k, value_of p k = if bytes_eqb k (str "trax.reason") then Some reason else None).
Proof.
  intros E T Ho A P R. rewrite (asks_quit _ _ _ _ A). unfold mex_quit. rewrite E. destruct A as (n & t & rest & Ec & _). rewrite Ec in P |- *. cbn [List.tl] in P. subst rest.
  assert (Hz : ~ In 0%N reason) by (exact (text_ok_no_nul _ R)). rewrite (quit_reason (MChar 1 n t) reason Hz). unfold helped, done. cbn [obind].
  destruct (terminate_ok h (Some reason) T Ho R) as (p & h' & Et & Cl & Se & L). unfold cpp_terminate. rewrite (no_nul_c_string reason Hz), Et. cbn [obind fst snd deleted].
  assert (T' : h_terminated h' = true).
  { unfold terminate, alive in Et. cbn [clear_error h_terminated] in Et. rewrite T in Et. cbn [negb] in Et. destruct (set_optional _ _ _); try discriminate. cbn [obind] in Et.
    injection Et as <-. reflexivity. }
  rewrite (cleanup_dead h' T'). cbn [obind]. exists (h_out h'), p. eexists. split; [reflexivity|]. split; [exact Se|]. split; [exact (proj1 Cl)|].
  intros k. unfold value_of. rewrite (props_get_spec p k (made_ok p (proj1 Cl))), L. rewrite bytes_eqb_sym. reflexivity.
Qed.
Lemma mot_end_code result h images objs p x : mot_end result h images objs p = Ok x -> fst (fst (fst (fst x))) = result /\ h_terminated (snd (fst (fst (fst x)))) = h_terminated h.
Proof. unfold mot_end. destruct objs; [intros E; injection E as <-; auto|]. destruct (mot_objects _); try discriminate. cbn [obind]. intros E. injection E as <-. auto. Qed.
Lemma mot_failure_code h objs p x : mot_failure h objs p = Ok x -> fst (fst (fst (fst x))) = TRAX_ERROR.
Proof. unfold mot_failure. destruct (existsb _ _); [discriminate|]. intros E. now injection E as <-. Qed.
Definition good_code (x : mot_result) : Prop :=
  let code := fst (fst (fst (fst x))) in
  code = TRAX_ERROR \/ code = TRAX_INITIALIZE \/ code = TRAX_FRAME \/ code = TRAX_QUIT /\ h_terminated (snd (fst (fst (fst x)))) = true.
Lemma wait_loop_code slack n fuel : forall h images result objs p x, wait_mot_loop fuel slack n h images result objs p = Ok x -> good_code x.
Proof.
  assert (F : forall h objs p x, mot_failure h objs p = Ok x -> good_code x) by (intros h objs p x E; left; exact (mot_failure_code _ _ _ _ E)).
  induction fuel as [|fuel IH]; intros h images result objs p x E; cbn [wait_mot_loop] in E; [discriminate|].
  destruct (handle_read h) as [[r h']| | |]; try discriminate. cbn [obind] in E. destruct (rr_type r) as [[]|]; try (exact (IH _ _ _ _ _ _ E)); try (exact (F _ _ _ _ E)).
  - destruct (rr_args r) as [|a [|]]; try (exact (IH _ _ _ _ _ _ E)); try (exact (F _ _ _ _ E)).
    destruct (region_parse a) as [[[] reg]| | |]; try discriminate; cbn [obind] in E; [|exact (F _ _ _ _ E)].
    destruct (copy_properties _ _ _); try discriminate. cbn [obind] in E. exact (IH _ _ _ _ _ _ E).
  - destruct (_ && _); [exact (F _ _ _ _ E)|]. cbv zeta in E. destruct (negb (Z.of_nat _ =? n)); [exact (F _ _ _ _ E)|].
    destruct (decode_images _ _ _ _ _) as [[ims|]| | |]; try discriminate; cbn [obind] in E; [|exact (F _ _ _ _ E)].
    destruct (copy_out _ _ _); try discriminate. cbn [obind] in E. apply mot_end_code in E as [E _]. unfold good_code. rewrite E.
    destruct (Z.eqb_spec result TRAX_INITIALIZE) as [->|]; cbn [negb orb]; [destruct (0 <? _); auto|auto].
  - destruct (negb _); [exact (F _ _ _ _ E)|]. destruct (copy_out _ _ _); try discriminate. cbn [obind] in E. apply mot_end_code in E as [E T]. unfold good_code. rewrite E, T. auto.
Qed.
Lemma wait_code fuel slack h images p x : server_wait_mot fuel slack h images p = Ok x -> good_code x.
Proof.
  unfold server_wait_mot. destruct (negb (h_server h)); [discriminate|]. cbv zeta. destruct (negb (alive _)); [intros E; injection E as <-; now left|].
  destruct (image_list_count _); try discriminate. cbn [obind]. apply wait_loop_code.
Qed.

Lemma wait_quiet fuel slack h images p code h' l o q : server_wait_mot fuel slack h images p = Ok (code, h', l, o, q) -> h_out h' = h_out h.
Proof.
  unfold server_wait_mot. destruct (negb (h_server h)); [discriminate|]. cbv zeta. destruct (negb (alive _)); [intros E; now injection E as _ <- _ _ _|].
  destruct (image_list_count _); try discriminate. cbn [obind]. intros E. exact (proj1 (wait_mot_loop_quiet _ _ _ _ _ _ _ _ _ _ _ _ _ E)).
Qed.
(** The wait of the class Server *)
Lemma cpp_wait_code fuel slack h code h' ims reg p : cpp_server_wait fuel slack h None props_create = Ok (code, h', ims, reg, p) ->
  code = TRAX_ERROR \/ code = TRAX_INITIALIZE \/ code = TRAX_FRAME \/ code = TRAX_QUIT /\ h_terminated h' = true.
Proof.
  unfold cpp_server_wait. destruct (server_wait_mot _ _ _ _ _) as [x| | |] eqn:E; try discriminate. cbn [obind]. apply wait_code in E. unfold good_code in E.
  destruct x as [[[[result h1] images] objects] p']. cbn [fst snd] in E. intros W. destruct (single_object result h1 objects None (dictionary p')) as [y| | |] eqn:S1; try discriminate.
  cbn [obind] in W. destruct y as [[[r2 h2] reg'] p'']. injection W as -> -> _ _ _. unfold single_object in S1.
  destruct objects as [[|[rg q] [|]]|]; [injection S1 as <- <- _ _; exact E| |injection S1 as <- <- _ _; now left|injection S1 as <- <- _ _; exact E].
  destruct (region_clone rg); try discriminate. cbn [obind] in S1. destruct (props_append _ _ _); try discriminate. cbn [obind] in S1. injection S1 as <- <- _ _. exact E.
Qed.
Lemma cpp_wait_quiet fuel slack h code h' ims reg p : cpp_server_wait fuel slack h None props_create = Ok (code, h', ims, reg, p) -> h_out h' = h_out h.
Proof.
  unfold cpp_server_wait. destruct (server_wait_mot _ _ _ _ _) as [x| | |] eqn:E; try discriminate. cbn [obind].
  destruct x as [[[[result h1] images] objects] p']. apply wait_quiet in E. intros W. destruct (single_object result h1 objects None (dictionary p')) as [y| | |] eqn:S1; try discriminate.
  cbn [obind] in W. destruct y as [[[r2 h2] reg'] p'']. injection W as -> -> _ _ _. unfold single_object in S1.
  destruct objects as [[|[rg q] [|]]|]; [injection S1 as _ <- _ _; exact E| |injection S1 as _ <- _ _; exact E|injection S1 as _ <- _ _; exact E].
  destruct (region_clone rg); try discriminate. cbn [obind] in S1. destruct (props_append _ _ _); try discriminate. cbn [obind] in S1. injection S1 as _ <- _ _. exact E.
Qed.
Lemma wait_asks structured : asks (wait_call structured) (str "wait").
Proof. destruct structured; eexists _, (str "wait"), _; (split; [reflexivity|]); reflexivity. Qed.
(** A wait on which the client quits closes the connection, and nothing is sent any more *)
Lemma wait_quit fuel slack s h h' ims reg p structured : ms_server s = Some (Some h) -> cpp_server_wait fuel slack h None props_create = Ok (TRAX_QUIT, h', ims, reg, p) ->
  mex_server fuel slack s (wait_call structured) = Ok (mkMserver None (ms_lost s) (h_out h :: ms_closed s), Some (repeat (Some (MDouble 0 0 [])) 3)).
Proof.
  intros E W. rewrite asks_wait; [|exact (wait_asks structured)].
  unfold mex_wait. rewrite E.
  assert (A : Matlab.server_wait (mc_prhs (wait_call structured)) = done structured).
  { unfold wait_call. cbn [mc_prhs]. destruct structured; [exact (proj1 (wait_argument_ok _ _))|exact (proj2 (wait_argument_ok (text_array (str "wait")) (S754_zero false)))]. }
  rewrite A. unfold helped, done. cbn [obind wait_call mc_nlhs]. change (3 <? 3) with false. cbv iota. rewrite W. cbn [obind].
  change (TRAX_QUIT =? TRAX_INITIALIZE) with false. change (TRAX_QUIT =? TRAX_FRAME) with false. change (TRAX_QUIT =? TRAX_ERROR) with false. cbv iota.
  destruct (cpp_wait_code _ _ _ _ _ _ _ _ W) as [X|[X|[X|[_ T]]]]; try discriminate X. pose proof (cpp_wait_quiet _ _ _ _ _ _ _ _ W) as Q.
  unfold deleted. rewrite (cleanup_dead h' T), Q. reflexivity.
Qed.
(** A failed setup *)
Lemma dead_refuses fuel slack s c : ms_server s = Some None -> asks c (str "wait") \/ asks c (str "status") ->
  forall s' r, mex_server fuel slack s c = Ok (s', r) -> s' = s /\ r = None.
Proof.
  intros E H s' r R. destruct H as [H|H].
  - rewrite (asks_wait _ _ _ _ H) in R. unfold mex_wait in R. rewrite E in R. unfold helped in R. destruct (Matlab.server_wait _) as [[b|]| | |]; try discriminate; cbn [obind] in R.
    + destruct (3 <? mc_nlhs c); injection R as <- <-; auto.
    + injection R as <- <-. auto.
  - rewrite (asks_status _ _ _ _ H) in R. unfold mex_status in R. rewrite E in R. cbv zeta in R. destruct (3 <? _); [injection R as <- <-; auto|].
    destruct (_ <? 2); [injection R as <- <-; auto|]. destruct (1 <? _); [injection R as <- <-; auto|]. destruct (fetch _ _) as [a| | |]; try discriminate. cbn [obind] in R.
    unfold helped in R. destruct (array_to_region a) as [[reg|]| | |]; try discriminate; cbn [obind] in R; [|injection R as <- <-; auto].
    destruct (state_properties _) as [[p|]| | |]; try discriminate; cbn [obind] in R; injection R as <- <-; auto.
Qed.

(** ---- Lost connections ---- *)
Lemma deleted_lost s h s' : deleted s h = Ok s' -> ms_lost s' = ms_lost s.
Proof. unfold deleted. destruct h as [h|]; [destruct (cleanup h); try discriminate; cbn [obind]|]; intros E; now injection E as <-. Qed.
Lemma outputs_state s n b ims reg p s' r : request_outputs s n b ims reg p = Ok (s', r) -> s' = s.
Proof.
  unfold request_outputs, returned, helped. destruct (0 <? n); [|intros E; now injection E as <-]. destruct (images_to_array _); try discriminate. cbn [obind].
  destruct (1 <? n); [|intros E; now injection E as <-]. destruct reg as [[x|]| | |]; try discriminate; cbn [obind]; [|intros E; now injection E as <-].
  destruct (2 <? n); [|intros E; now injection E as <-]. destruct (shown_properties _ _); try discriminate. cbn [obind]. intros E. now injection E as <-.
Qed.
Lemma call_lost fuel slack s c s' r : mex_server fuel slack s c = Ok (s', r) -> ms_lost s' = ms_lost s \/
  asks c (str "setup") /\ is_open s.
Proof.
  intros E. unfold mex_server in E. destruct (mc_prhs c) as [|a rest] eqn:P; [injection E as <- _; now left|]. destruct a as [rw n t| | | | |]; try (injection E as <- _; now left).
  unfold helped in E. destruct (get_string (MChar rw n t)) as [[op|]| | |] eqn:G; try discriminate; cbn [obind] in E; [|injection E as <- _; now left].
  destruct (bytes_eqb (map to_lower op) (str "setup")) eqn:B1.
  { destruct (ms_server s) as [o|] eqn:M.
    - right. split; [|unfold is_open; rewrite M; discriminate]. exists n, t, rest. unfold get_string in G. cbn [get_m] in G. destruct (Z.eqb_spec rw 1) as [->|]; [|discriminate].
      cbn [negb] in G. injection G as <-. split; [exact P|]. exact B1.
    - left. unfold mex_setup in E. destruct (_ <? 3); [injection E as <- _; reflexivity|]. destruct (1 <? _); [injection E as <- _; reflexivity|]. unfold helped in E.
      destruct (Matlab.server_setup _) as [[x|]| | |]; try discriminate; cbn [obind] in E; [|injection E as <- _; reflexivity].
      destruct (setup_metadata x); try discriminate. cbn [obind] in E. destruct (new_server _ _) as [h| | |]; try discriminate. cbn [obind] in E.
      assert (L : ms_lost (replaced s h) = ms_lost s) by (unfold replaced; rewrite M; reflexivity).
      destruct h as [h|]; [destruct (is_alive h)|]; injection E as <- _; exact L. }
  left. destruct (bytes_eqb _ (str "wait")).
  { unfold mex_wait in E. destruct (ms_server s) as [o|]; [|injection E as <- _; reflexivity]. unfold helped in E.
    destruct (Matlab.server_wait _) as [[b|]| | |]; try discriminate; cbn [obind] in E; [|injection E as <- _; reflexivity].
    destruct (3 <? _); [injection E as <- _; reflexivity|]. destruct o as [h|]; [|injection E as <- _; reflexivity].
    destruct (cpp_server_wait _ _ _ _ _) as [[[[[ev h'] ims] reg] p]| | |]; try discriminate. cbn [obind] in E. cbv zeta in E.
    destruct (ev =? TRAX_INITIALIZE); [apply outputs_state in E; now subst|]. destruct (ev =? TRAX_FRAME); [apply outputs_state in E; now subst|].
    destruct (ev =? TRAX_ERROR); [injection E as <- _; reflexivity|]. destruct (deleted _ _) as [s2| | |] eqn:D; try discriminate. cbn [obind] in E. injection E as <- _.
    exact (deleted_lost _ _ _ D). }
  destruct (bytes_eqb _ (str "status")).
  { unfold mex_status in E. destruct (ms_server s) as [o|]; [|injection E as <- _; reflexivity]. cbv zeta in E. destruct (3 <? _); [injection E as <- _; reflexivity|].
    destruct (_ <? 2); [injection E as <- _; reflexivity|]. destruct (1 <? _); [injection E as <- _; reflexivity|]. destruct (fetch _ _) as [a| | |]; try discriminate. cbn [obind] in E.
    unfold helped in E. destruct (array_to_region a) as [[reg|]| | |]; try discriminate; cbn [obind] in E; [|injection E as <- _; reflexivity].
    destruct (state_properties _) as [[p|]| | |]; try discriminate; cbn [obind] in E; [|injection E as <- _; reflexivity].
    destruct o as [h|]; [|injection E as <- _; reflexivity]. destruct (cpp_reply _ _ _) as [[[code h'] q]| | |]; try discriminate. cbn [obind] in E.
    destruct (code =? TRAX_ERROR); injection E as <- _; reflexivity. }
  destruct (bytes_eqb _ (str "quit")); [|injection E as <- _; reflexivity].
  unfold mex_quit in E. destruct (ms_server s) as [o|]; [|injection E as <- _; reflexivity]. unfold helped in E.
  destruct (Matlab.server_quit _) as [[reason|]| | |]; try discriminate; cbn [obind] in E; [|injection E as <- _; reflexivity].
  destruct (match o with Some h => _ | None => Ok None end) as [h| | |]; try discriminate. cbn [obind] in E.
  destruct (deleted _ _) as [s2| | |] eqn:D; try discriminate. cbn [obind] in E. injection E as <- _. exact (deleted_lost _ _ _ D).
Qed.
Lemma run_lost fuel slack cs : forall s s' rs, apart fuel slack s cs -> mex_run fuel slack s cs = Ok (s', rs) -> ms_lost s' = ms_lost s.
Proof.
  induction cs as [|c cs IH]; intros s s' rs A E; cbn [mex_run] in E; [now injection E as <- _|]. destruct A as [A1 A2].
  destruct (mex_server fuel slack s c) as [[s1 r]| | |] eqn:C; try discriminate. cbn [obind] in E.
  destruct (mex_run fuel slack s1 cs) as [[s2 rs']| | |] eqn:R; try discriminate. cbn [obind] in E. injection E as <- _.
  rewrite (IH s1 s2 rs' (A2 s1 r eq_refl) R). destruct (call_lost _ _ _ _ _ _ C) as [L|[X Y]]; [exact L|]. elim (A1 X Y).
Qed.
