From Coq Require Import Lia.
From Verif Require Import CBase StrMap Props PropsSpec StrMapProofs PropsProofs Message MessageSpec MessageProofs MessageApi Num Region Image Formats FormatsSpec FormatsProofs Handle SessionSpec HistorySpec HistoryProofs CutSpec CutProofs.
From Verif Require Properties_Message.
Local Open Scope Z_scope.

Lemma reading_ends n h acc p result : delivers (h_in h) -> stream_bytes (h_in h) = [] -> h_type h = None \/ h_type h = Some MState -> (0 < n)%nat ->
  exists h', client_wait_loop n h acc p result = Ok (TRAX_ERROR, h', None, p).
Proof.
  intros Hd Hb Ht Hn. destruct n as [|n]; [lia|]. cbn [client_wait_loop].
  assert (He : at_end h) by (unfold at_end; rewrite (stream_empty _ Hd Hb); split; reflexivity).
  destruct (read_at_end h He) as (r & -> & Er & Ea). cbn [obind]. rewrite Er, Ea. destruct Ht as [->| ->]; eauto.
Qed.

Lemma copied (source : props) d : sm_ok source -> copy_properties source props_create ALL_OVERWRITE = Ok d ->
  forall k, props_get d k = props_get source k.
Proof.
  intros Hs E k. destruct (copy_all_spec 3 source props_create Hs props_create_ok (or_intror eq_refl)) as (r & Er & Hr & Hl).
  change ALL_OVERWRITE with 3 in E. rewrite E in Er. injection Er as <-. rewrite !props_get_spec by assumption. rewrite Hl. unfold over.
  destruct (sm_lookup source k); [reflexivity|]. unfold props_create. now rewrite sm_new_lookup.
Qed.
Lemma copies (source : props) : sm_ok source -> exists d, copy_properties source props_create ALL_OVERWRITE = Ok d.
Proof. intros Hs. destruct (copy_all_spec 3 source props_create Hs props_create_ok (or_intror eq_refl)) as (r & Er & _). exists r. exact Er. Qed.

(** A run of the loop on the whole answer that ends well has read each message as a state *)
Lemma whole_step n h acc p result code hf out pf :
  client_wait_loop (S n) h acc p result = Ok (code, hf, out, pf) -> code = TRAX_STATE -> forall r h', handle_read h = Ok (r, h') -> rr_type r = Some MState ->
  exists a reg c d, rr_args r = [a] /\ region_parse a = Ok (true, Some reg) /\ region_clone reg = Ok c /\
    copy_properties (rr_props r) props_create ALL_OVERWRITE = Ok d /\ client_wait_loop n h' (acc ++ [(c, d)]) p TRAX_STATE = Ok (code, hf, out, pf).
Proof.
  intros E Hc r h' Er Ht. cbn [client_wait_loop] in E. rewrite Er in E. cbn [obind] in E. rewrite Ht in E.
  destruct (rr_args r) as [|a [|b l]]; [exfalso; injection E as E _ _ _; rewrite Hc in E; discriminate E| |exfalso; injection E as E _ _ _; rewrite Hc in E; discriminate E].
  destruct (region_parse a) as [[[|] [reg|]]| | |] eqn:Ep; cbn [obind] in E; try discriminate E; try (exfalso; injection E as E _ _ _; rewrite Hc in E; discriminate E).
  destruct (region_clone reg) as [c| | |] eqn:Ecl; cbn [obind] in E; try discriminate E.
  destruct (copy_properties (rr_props r) props_create ALL_OVERWRITE) as [d| | |] eqn:Ed; cbn [obind] in E; try discriminate E.
  exists a, reg, c, d. split; [reflexivity|]. split; [exact Ep|]. split; [exact Ecl|]. split; [reflexivity|exact E].
Qed.

Lemma received_entries r m r' : receives r m -> receives r' m -> entries_of (rr_props r) (rr_props r').
Proof. intros (_ & _ & H) (_ & _ & H') k v E. rewrite H in E. now rewrite H'. Qed.

Lemma objects_app {A} (a b c d : list (A * props)) : objects_of a b -> objects_of c d -> objects_of (a ++ c) (b ++ d).
Proof. apply Forall2_app. Qed.

(** The bytes of the answer, message by message *)
Inductive answer_bytes : list msg -> list N -> Prop :=
| AnswerNil : answer_bytes [] []
| AnswerCons m ms q l : msg_ok m -> m_type m = MState -> props_run (m_hist m) = Ok q -> enumerates (props_enum q) (pm_run (m_hist m)) ->
    answer_bytes ms l -> answer_bytes (m :: ms) (wire (m_type m) (m_args m) (props_enum q) ++ l).

Lemma cut_loop ms : forall bytes, answer_bytes ms bytes -> forall h1 h2 acc1 acc2 p result code hf whole pf seen lost,
  bytes = seen ++ lost -> lost <> [] -> delivers (h_in h1) -> delivers (h_in h2) -> stream_bytes (h_in h1) = bytes -> stream_bytes (h_in h2) = seen ->
  h_type h2 = None \/ h_type h2 = Some MState ->
  client_wait_loop (List.length ms) h1 acc1 p result = Ok (code, hf, Some whole, pf) -> code = TRAX_STATE -> objects_of acc2 acc1 ->
  exists h' , (exists l, client_wait_loop (List.length ms) h2 acc2 p result = Ok (TRAX_ERROR, h', l, p)) \/
    (exists got, client_wait_loop (List.length ms) h2 acc2 p result = Ok (TRAX_STATE, h', Some got, p) /\ objects_of got whole).
Proof.
  intros bytes B. induction B as [|m ms q l Hm Ht Hq En B IH]; intros h1 h2 acc1 acc2 p result code hf whole pf seen lost E Hl D1 D2 B1 B2 Ty W Hc Ho.
  - exfalso. symmetry in E. apply app_eq_nil in E as [_ E]. contradiction.
  - cbn [List.length] in *.
    destruct (read_fed (h_type h1) (h_in h1) m q [] l Hq En Hm D1 (feeds_refl _) B1) as (r1 & E1 & R1 & S1 & D1' & _).
    assert (HR1 : handle_read h1 = Ok (r1, with_in h1 (rr_type r1) (rr_stream r1))) by (unfold handle_read; rewrite E1; reflexivity).
    assert (T1 : rr_type r1 = Some MState) by (rewrite (proj1 R1), Ht; reflexivity).
    destruct (whole_step _ _ _ _ _ _ _ _ _ W Hc r1 _ HR1 T1) as (a & reg & c & d & Ea & Ep & Ec & Ed & W'). clear W.
    assert (Am : m_args m = [a]) by (rewrite <- (proj1 (proj2 R1)); exact Ea).
    pose proof (read_props_ok _ _ _ E1) as P1.
    destruct (split_prefix _ _ _ _ E) as [(seen' & -> & E')|(y' & E' & Hy & _)].
    + destruct (read_fed (h_type h2) (h_in h2) m q [] seen' Hq En Hm D2 (feeds_refl _) B2) as (r2 & E2 & R2 & S2 & D2' & _).
      assert (HR2 : handle_read h2 = Ok (r2, with_in h2 (rr_type r2) (rr_stream r2))) by (unfold handle_read; rewrite E2; reflexivity).
      assert (T2 : rr_type r2 = Some MState) by (rewrite (proj1 R2), Ht; reflexivity).
      pose proof (read_props_ok _ _ _ E2) as P2. destruct (copies _ P2) as [d2 Ed2].
      cbn [client_wait_loop]. rewrite HR2. cbn [obind]. rewrite T2, (proj1 (proj2 R2)), Am. rewrite Ep. cbn [obind]. rewrite Ec. cbn [obind]. rewrite Ed2. cbn [obind].
      rewrite T1 in W'. refine (IH _ _ _ _ p TRAX_STATE code hf whole pf seen' lost E' Hl _ _ _ _ _ W' Hc _); cbn [h_in h_type with_in].
      * exact D1'.
      * exact D2'.
      * exact S1.
      * exact S2.
      * now right.
      * apply objects_app; [exact Ho|]. constructor; [|constructor]. cbn [fst snd]. split; [reflexivity|].
        intros k v. rewrite (copied _ _ P2 Ed2), (copied _ _ P1 Ed). exact (received_entries _ _ _ R2 R1 k v).
    + destruct (cut_message (h_type h2) m (props_enum q) seen y' (h_in h2) (proj1 Hm) (msg_kvs m q Hq Hm) (proj1 En) E' Hy D2 B2) as (r2 & E2 & C & D2' & S2).
      assert (HR2 : handle_read h2 = Ok (r2, with_in h2 (rr_type r2) (rr_stream r2))) by (unfold handle_read; rewrite E2; reflexivity).
      cbn [client_wait_loop]. rewrite HR2. cbn [obind].
      destruct C as [_ C2 C3 _|_ _ C2|_ C2|n Cp C2 C3 C4].
      * rewrite C2, C3. destruct Ty as [->| ->]; eexists; left; eexists; reflexivity.
      * rewrite C2. eexists. left. eexists. reflexivity.
      * rewrite C2. eexists. left. eexists. reflexivity.
      * rewrite C2, Ht, C3, Am. destruct n as [|n]; [cbn [firstn]; eexists; left; eexists; reflexivity|].
        replace (firstn (S n) [a]) with [a] by (destruct n; reflexivity). rewrite Ep. cbn [obind]. rewrite Ec. cbn [obind].
        pose proof (read_props_ok _ _ _ E2) as P2. destruct (copies _ P2) as [d2 Ed2]. rewrite Ed2. cbn [obind].
        destruct B as [|m2 ms q2 l2 Hm2 Ht2 Hq2 En2 B].
        -- cbn [List.length client_wait_loop] in *. injection W' as _ <- <- <-. eexists. right. eexists. split; [reflexivity|].
           apply objects_app; [exact Ho|]. constructor; [|constructor]. cbn [fst snd]. split; [reflexivity|].
           intros k v. rewrite (copied _ _ P2 Ed2), (copied _ _ P1 Ed). intros Hk. destruct (C4 k) as (o & Eo & Hin). rewrite Eo in Hk. injection Hk as ->.
           assert (I1 : In (k, v) (props_enum q)).
           { assert (I0 : In (k, v) (firstn (S n - List.length (m_args m)) (props_enum q))) by (now apply Hin).
             rewrite <- (firstn_skipn (S n - List.length (m_args m)) (props_enum q)). apply in_or_app. now left. }
           destruct R1 as (_ & _ & R1). rewrite R1. f_equal. now apply En.
        -- destruct (reading_ends (List.length (m2 :: ms)) (with_in h2 (Some MState) (rr_stream r2)) (acc2 ++ [(c, d2)]) p TRAX_STATE) as [h' Eh]; cbn [h_in h_type with_in].
           ++ exact D2'.
           ++ exact S2.
           ++ now right.
           ++ cbn [List.length]. lia.
           ++ exists h'. left. exists None. exact Eh.
Qed.

Lemma answer_sent ms : Forall msg_ok ms -> Forall (fun m => m_type m = MState) ms -> forall o, no_error (o_sched o) ->
  exists o' bytes, send_all o ms = Ok o' /\ o_bytes o' = o_bytes o ++ bytes /\ answer_bytes ms bytes.
Proof.
  intros H1 H2. revert H2. induction H1 as [|m ms Hm Hms IH]; intros H2 o Ho.
  - exists o, []. rewrite app_nil_r. split; [reflexivity|]. split; [reflexivity|constructor].
  - inversion_clear H2 as [|? ? Ht Hts]. destruct (send_wire o m Ho) as (q & o1 & Hq & En & Es & Ho1 & Hb & _).
    destruct (IH Hts o1 Ho1) as (o2 & bytes & E2 & Hb2 & A). exists o2. eexists. cbn [send_all]. rewrite Es. cbn [obind]. split; [exact E2|]. split; [|econstructor; eassumption].
    rewrite Hb2, Hb, <- app_assoc. reflexivity.
Qed.

Lemma cut_answer h p ms st st' sched o seen lost hf whole pf :
  h_server h = false -> is_alive h = true -> h_type h = None \/ h_type h = Some MState ->
  Forall msg_ok ms -> Forall (fun m => m_type m = MState) ms -> h_objects h = Z.of_nat (List.length ms) -> no_error sched ->
  send_all (mkO sched [] []) ms = Ok o -> o_bytes o = seen ++ lost -> lost <> [] ->
  delivers st -> stream_bytes st = o_bytes o -> delivers st' -> stream_bytes st' = seen ->
  client_wait (reading h st) p = Ok (TRAX_STATE, hf, Some whole, pf) ->
  exists h', (exists l, client_wait (reading h st') p = Ok (TRAX_ERROR, h', l, p)) \/
    (exists got, client_wait (reading h st') p = Ok (TRAX_STATE, h', Some got, p) /\ objects_of got whole).
Proof.
  intros Hs Ha Ty Hms Hst Hn Hsch Es Eb Hl D B D' B' W.
  destruct (answer_sent ms Hms Hst (mkO sched [] []) Hsch) as (o' & bytes & Es' & Hb & A). rewrite Es in Es'. injection Es' as <-. cbn [o_bytes app] in Hb.
  unfold client_wait in *. change (h_server (reading h st)) with (h_server h) in W. change (h_server (reading h st')) with (h_server h). rewrite Hs in *.
  change (alive (reading h st)) with (alive h) in W. change (alive (reading h st')) with (alive h).
  assert (Al : alive h = true) by exact Ha. rewrite Al in *. cbn [negb] in *.
  change (h_objects (reading h st)) with (h_objects h) in W. change (h_objects (reading h st')) with (h_objects h). rewrite Hn, Nat2Z.id in *.
  refine (cut_loop ms bytes A (reading h st) (reading h st') [] [] p TRAX_ERROR TRAX_STATE hf whole pf seen lost _ Hl D D' _ B' Ty W eq_refl _).
  - rewrite <- Hb. exact Eb.
  - rewrite <- Hb. exact B.
  - constructor.
Qed.

(** ---- A server that waits for the request about a single object ---- *)
Definition sot_body (slack : nat) (argument_count : Z) (r : read_result) (h' : handle) (images : option image_list) (reg : option region) (p : option props) : outcome sot_result :=
      let args := rr_args r in
      let n := Z.of_nat (List.length args) in
      match rr_type r with
      | Some MFrame =>
          if negb (n =? argument_count) then Ok (TRAX_ERROR, set_error h', None, None, p)
          else
            ims <- decode_images slack (md_channels (h_meta h')) (md_image (h_meta h')) channel_ids args ;;
            match ims with
            | None => Ok (TRAX_ERROR, h', None, None, p)
            | Some ims => p' <- copy_out (rr_props r) p ALL_OVERWRITE ;; Ok (TRAX_FRAME, h', Some ims, reg, p')
            end
      | Some MQuit =>
          if negb (n =? 0) then Ok (TRAX_ERROR, set_error h', None, None, p)
          else p' <- copy_out (rr_props r) p ALL_OVERWRITE ;; Ok (TRAX_QUIT, terminated h', images, reg, p')
      | Some MInitialize =>
          if negb (n =? argument_count + 1) then Ok (TRAX_ERROR, set_error h', None, None, p)
          else
            ims <- decode_images slack (md_channels (h_meta h')) (md_image (h_meta h')) channel_ids args ;;
            match ims with
            | None => Ok (TRAX_ERROR, h', None, None, p)
            | Some ims =>
                (* arguments->buffer[j]: j counts the images of the three known channels *)
                match nth_error args (List.length (filter (supports (md_channels (h_meta h'))) channel_ids)) with
                | None => UB
                | Some t =>
                    pr <- region_parse t ;;
                    match pr with
                    | (false, _) => Ok (TRAX_ERROR, h', None, None, p)
                    | (true, reg') =>
                        p' <- copy_out (rr_props r) p ALL_OVERWRITE ;; Ok (TRAX_INITIALIZE, set_objects h' 1, Some ims, reg', p')
                    end
                end
            end
      | _ => Ok (TRAX_ERROR, h', None, None, p)
      end.
Lemma sot_unfold slack h images reg p : h_server h = true -> is_alive h = true -> h_version h < 4 -> 1 <= md_channels (h_meta h) <= INT_MAX ->
  forall r, read_message (h_type h) (h_in h) props_create = Ok r ->
  server_wait_sot slack h images reg p =
    sot_body slack (Z.of_nat (popcount32 (md_channels (h_meta h)))) r (with_in (clear_error h) (rr_type r) (rr_stream r)) images reg p.
Proof.
  intros Hs Ha Hv Hc r Er. unfold server_wait_sot. rewrite Hs. change (alive (clear_error h)) with (is_alive h). rewrite Ha. cbn [negb].
  replace (is_version_4 (clear_error h)) with false by (unfold is_version_4; cbn; lia).
  change (h_meta (clear_error h)) with (h_meta h). rewrite image_list_count_ok by lia. cbn [obind].
  unfold handle_read. change (h_type (clear_error h)) with (h_type h). change (h_in (clear_error h)) with (h_in h). rewrite Er. cbn [obind]. reflexivity.
Qed.

Lemma copy_given q1 q2 p p1 : sm_ok q1 -> sm_ok q2 -> entries_of q2 q1 -> p = None \/ p = Some props_create -> copy_out q1 p ALL_OVERWRITE = Ok p1 ->
  exists p2, copy_out q2 p ALL_OVERWRITE = Ok p2 /\ given_entries p2 p1.
Proof.
  intros H1 H2 He [->| ->]; cbn [copy_out].
  - intros [= <-]. exists None. split; [reflexivity|exact Logic.I].
  - destruct (copies _ H2) as [d2 E2]. rewrite E2. cbn [obind]. destruct (copy_properties q1 props_create ALL_OVERWRITE) as [d1| | |] eqn:E1; try discriminate. cbn [obind].
    intros [= <-]. exists (Some d2). split; [reflexivity|]. intros k v. rewrite (copied _ _ H2 E2), (copied _ _ H1 E1). apply He.
Qed.

Lemma sot_body_same slack n r1 r2 h1 h2 images reg p code hf im rg pf : h_meta h1 = h_meta h2 -> rr_type r2 = rr_type r1 -> rr_args r2 = rr_args r1 ->
  sm_ok (rr_props r1) -> sm_ok (rr_props r2) -> entries_of (rr_props r2) (rr_props r1) -> p = None \/ p = Some props_create ->
  sot_body slack n r1 h1 images reg p = Ok (code, hf, im, rg, pf) -> code <> TRAX_ERROR ->
  exists h' p2, sot_body slack n r2 h2 images reg p = Ok (code, h', im, rg, p2) /\ given_entries p2 pf.
Proof.
  intros Hm Ht Ha H1 H2 He Hp E Hc. unfold sot_body in *. rewrite Ht, Ha. rewrite <- Hm. cbv zeta in *.
  destruct (rr_type r1) as [[]|]; try (injection E as <- _ _ _ _; congruence).
  - destruct (negb (Z.of_nat (List.length (rr_args r1)) =? n + 1)); [injection E as <- _ _ _ _; congruence|].
    destruct (decode_images _ _ _ _ _) as [[ims|]| | |]; cbn [obind] in *; try discriminate E; [|injection E as <- _ _ _ _; congruence].
    destruct (nth_error _ _) as [t|]; [|discriminate E]. destruct (region_parse t) as [[[|] reg']| | |]; cbn [obind] in *; try discriminate E; [|injection E as <- _ _ _ _; congruence].
    destruct (copy_out (rr_props r1) p ALL_OVERWRITE) as [p1| | |] eqn:E1; cbn [obind] in E; try discriminate E.
    destruct (copy_given _ _ _ _ H1 H2 He Hp E1) as (p2 & -> & Hg). cbn [obind]. injection E as <- _ <- <- <-. eexists _, _. split; [reflexivity|exact Hg].
  - destruct (negb (Z.of_nat (List.length (rr_args r1)) =? n)); [injection E as <- _ _ _ _; congruence|].
    destruct (decode_images _ _ _ _ _) as [[ims|]| | |]; cbn [obind] in *; try discriminate E; [|injection E as <- _ _ _ _; congruence].
    destruct (copy_out (rr_props r1) p ALL_OVERWRITE) as [p1| | |] eqn:E1; cbn [obind] in E; try discriminate E.
    destruct (copy_given _ _ _ _ H1 H2 He Hp E1) as (p2 & -> & Hg). cbn [obind]. injection E as <- _ <- <- <-. eexists _, _. split; [reflexivity|exact Hg].
  - destruct (negb (Z.of_nat (List.length (rr_args r1)) =? 0)); [injection E as <- _ _ _ _; congruence|].
    destruct (copy_out (rr_props r1) p ALL_OVERWRITE) as [p1| | |] eqn:E1; cbn [obind] in E; try discriminate E.
    destruct (copy_given _ _ _ _ H1 H2 He Hp E1) as (p2 & -> & Hg). cbn [obind]. injection E as <- _ <- <- <-. eexists _, _. split; [reflexivity|exact Hg].
Qed.

(** Fewer arguments are an error *)
Lemma sot_body_fewer slack n r1 r2 h1 h2 images reg p code hf im rg pf : rr_type r2 = rr_type r1 -> (List.length (rr_args r2) < List.length (rr_args r1))%nat ->
  sot_body slack n r1 h1 images reg p = Ok (code, hf, im, rg, pf) -> code <> TRAX_ERROR ->
  exists h' im2 rg2, sot_body slack n r2 h2 images reg p = Ok (TRAX_ERROR, h', im2, rg2, p).
Proof.
  intros Ht Hl E Hc. unfold sot_body in *. rewrite Ht. cbv zeta in *.
  destruct (rr_type r1) as [[]|]; try (injection E as <- _ _ _ _; congruence).
  - destruct (Z.of_nat (List.length (rr_args r1)) =? n + 1) eqn:X; cbn [negb] in E; [|injection E as <- _ _ _ _; congruence].
    replace (Z.of_nat (List.length (rr_args r2)) =? n + 1) with false by lia. cbn [negb]. eexists _, _, _. reflexivity.
  - destruct (Z.of_nat (List.length (rr_args r1)) =? n) eqn:X; cbn [negb] in E; [|injection E as <- _ _ _ _; congruence].
    replace (Z.of_nat (List.length (rr_args r2)) =? n) with false by lia. cbn [negb]. eexists _, _, _. reflexivity.
  - destruct (Z.of_nat (List.length (rr_args r1)) =? 0) eqn:X; cbn [negb] in E; [|injection E as <- _ _ _ _; congruence]. lia.
Qed.

Lemma cut_request slack h images reg p m sched o st st' seen lost code hf im rg pf :
  h_server h = true -> is_alive h = true -> h_version h < 4 -> 1 <= md_channels (h_meta h) <= INT_MAX -> h_type h <> Some MQuit ->
  p = None \/ p = Some props_create -> msg_ok m -> no_error sched ->
  send (mkO sched [] []) m = Ok o -> o_bytes o = seen ++ lost -> lost <> [] ->
  delivers st -> stream_bytes st = o_bytes o -> delivers st' -> stream_bytes st' = seen ->
  server_wait_sot slack (reading h st) images reg p = Ok (code, hf, im, rg, pf) -> code <> TRAX_ERROR ->
  (exists h' im2 rg2, server_wait_sot slack (reading h st') images reg p = Ok (TRAX_ERROR, h', im2, rg2, p)) \/
  (exists h' p2, server_wait_sot slack (reading h st') images reg p = Ok (code, h', im, rg, p2) /\ given_entries p2 pf).
Proof.
  intros Hs Ha Hv Hch Hty Hp Hm Hsch Es Eb Hl D B D' B' W Hc.
  destruct (send_wire (mkO sched [] []) m Hsch) as (q & o' & Hq & En & Es' & _ & Hb & _). rewrite Es in Es'. injection Es' as <-. cbn [o_bytes app] in Hb.
  assert (B1 : stream_bytes st = [] ++ wire (m_type m) (m_args m) (props_enum q) ++ []) by (rewrite app_nil_r, B, Hb; reflexivity).
  destruct (read_fed (h_type h) st m q [] [] Hq En Hm D (feeds_refl _) B1) as (r1 & E1 & R1 & _ & _ & _).
  assert (E' : wire (m_type m) (m_args m) (props_enum q) = seen ++ lost) by (rewrite <- Hb; exact Eb).
  destruct (cut_message (h_type h) m (props_enum q) seen lost st' (proj1 Hm) (msg_kvs m q Hq Hm) (proj1 En) E' Hl D' B') as (r2 & E2 & C & _).
  rewrite (sot_unfold slack (reading h st) images reg p Hs Ha Hv Hch r1 E1) in W.
  rewrite (sot_unfold slack (reading h st') images reg p Hs Ha Hv Hch r2 E2).
  pose proof (read_props_ok _ _ _ E1) as P1. pose proof (read_props_ok _ _ _ E2) as P2.
  change (md_channels (h_meta (reading h st))) with (md_channels (h_meta h)) in W. change (md_channels (h_meta (reading h st'))) with (md_channels (h_meta h)).
  pose proof (popcount_positive (md_channels (h_meta h)) ltac:(lia)) as Hpos.
  destruct C as [_ C2 C3 _|_ _ C2|_ C2|n Cp C2 C3 C4].
  - left. unfold sot_body. cbv zeta. rewrite C2, C3. cbn [List.length Z.of_nat].
    destruct (h_type h) as [[]|]; try congruence; try (eexists _, _, _; reflexivity).
    + replace (0 =? Z.of_nat (popcount32 (md_channels (h_meta h))) + 1) with false by lia. cbn [negb]. eexists _, _, _. reflexivity.
    + replace (0 =? Z.of_nat (popcount32 (md_channels (h_meta h)))) with false by lia. cbn [negb]. eexists _, _, _. reflexivity.
  - left. unfold sot_body. cbv zeta. rewrite C2. eexists _, _, _. reflexivity.
  - left. unfold sot_body. cbv zeta. rewrite C2. eexists _, _, _. reflexivity.
  - destruct R1 as (T1 & A1 & G1). assert (T2 : rr_type r2 = rr_type r1) by (rewrite C2, T1; reflexivity).
    destruct (Nat.lt_ge_cases n (List.length (m_args m))) as [Hn|Hn].
    + assert (Lt : (List.length (rr_args r2) < List.length (rr_args r1))%nat) by (rewrite C3, A1, firstn_length; lia).
      left. exact (sot_body_fewer slack _ r1 r2 _ _ images reg p code hf im rg pf T2 Lt W Hc).
    + right. rewrite (firstn_all2 _ Hn) in C3.
      apply (sot_body_same slack _ r1 r2 (with_in (clear_error (reading h st)) (rr_type r1) (rr_stream r1)) _ images reg p code hf im rg pf); [reflexivity|exact T2|now rewrite C3, A1|exact P1|exact P2| |exact Hp|exact W|exact Hc].
      intros k v Hk. destruct (C4 k) as (x & Ex & Hin). rewrite Ex in Hk. injection Hk as ->. rewrite G1. f_equal. apply En.
      rewrite <- (firstn_skipn (n - List.length (m_args m)) (props_enum q)). apply in_or_app. left. now apply Hin.
Qed.

(** ---- A server that waits for a request about several objects ---- *)
Lemma cut_hangs slack h images p m sched : h_server h = true -> is_alive h = true -> 0 <= md_channels (h_meta h) <= INT_MAX ->
  msg_ok m -> m_type m = MInitialize -> m_args m <> [] -> no_error sched ->
  exists o seen lost, send (mkO sched [] []) m = Ok o /\ o_bytes o = seen ++ lost /\ lost <> [] /\
    forall fuel st, delivers st -> stream_bytes st = seen -> server_wait_mot fuel slack (reading h st) images p = NoFuel.
Proof.
  intros Hs Ha Hc Hm Ht Hne Hsch. destruct (cut_accepted m sched (h_type h) Hm Hsch Hne) as (o & seen & lost & Es & Eb & Hl & C).
  exists o, seen, lost. split; [exact Es|]. split; [exact Eb|]. split; [exact Hl|]. intros fuel st D B.
  destruct (C st D B) as (r & Er & Tr & Ar & Sr & Dr). unfold server_wait_mot. change (h_server (reading h st)) with (h_server h). rewrite Hs.
  change (alive (clear_error (reading h st))) with (is_alive h). rewrite Ha. cbn [negb].
  change (h_meta (clear_error (reading h st))) with (h_meta h). rewrite image_list_count_ok by exact Hc. cbn [obind].
  destruct fuel as [|fuel]; [reflexivity|]. cbn [wait_mot_loop]. unfold handle_read.
  change (h_type (clear_error (reading h st))) with (h_type h). change (h_in (clear_error (reading h st))) with st. rewrite Er. cbn [obind].
  rewrite Tr, Ht, Ar. apply mot_hangs; [|reflexivity]. unfold at_end. cbn [h_in with_in]. rewrite (stream_empty _ Dr Sr). split; reflexivity.
Qed.

(** ---- Samples ---- *)
Lemma two_ok : Forall msg_ok [Properties_Message.example_msg; mkMsg MQuit [] []].
Proof. constructor; [exact Properties_Message.example_msg_ok|]. constructor; [|constructor]. split; [reflexivity|]. intros k v H. discriminate H. Qed.
Lemma some_writes : no_error [WAccept 1; WAccept 0; WAccept 2].
Proof. unfold no_error. repeat (apply Forall_cons; [discriminate|]). apply Forall_nil. Qed.

Lemma second_answer_ok : msg_ok second_answer.
Proof.
  split; [vm_compute; reflexivity|]. intros k v. unfold second_answer, pm_run. cbn [m_hist fold_left pm_step]. unfold pm_set, pm_empty.
  destruct (bytes_eqb (str "confidence") k) eqn:E; [|discriminate]. apply bytes_eqb_eq in E. subst k. intros [= <-]. vm_compute. reflexivity.
Qed.
Lemma second_cut : exists h1 h hf o seen1 lost1 hc d seen2 lost2 hd l first,
  client_send false sample_client true sample_images [sample_object] None = Ok (TRAX_OK, h1) /\
  client_wait (reading h1 (one_chunk first_answer)) None = Ok (TRAX_STATE, h, Some [first], None) /\
  send_all (mkO [] [] []) [second_answer] = Ok o /\
  client_wait (reading h (one_chunk (o_bytes o))) None = Ok (TRAX_STATE, hf, Some [(RRect (fl 1) (fl 2) (fl 3) (fl 4), d)], None) /\
  props_get d (str "confidence") = Ok (Some (str "1")) /\
  (o_bytes o = seen1 ++ lost1 /\ lost1 <> [] /\
   client_wait (reading h (one_chunk seen1)) None = Ok (TRAX_STATE, hc, Some [(RRect (fl 1) (fl 2) (fl 3) (fl 4), props_create)], None)) /\
  (o_bytes o = seen2 ++ lost2 /\ lost2 <> [] /\ client_wait (reading h (one_chunk seen2)) None = Ok (TRAX_ERROR, hd, l, None)) /\
  h_type h = Some MState /\ h_objects h = 1 /\ msg_ok second_answer /\ is_alive h = true /\ h_server h = false.
Proof.
  eexists. eexists. eexists. eexists. exists (str "@@TRAX:state ""1,2,3,4"" ""conf"), (str "idence=1"" " ++ [10%N]). eexists. eexists.
  exists (str "@@TRAX:state ""1,2,"), (str "3,4"" ""confidence=1"" " ++ [10%N]). eexists. eexists. eexists.
  split; [vm_compute; reflexivity|]. split; [vm_compute; reflexivity|]. split; [vm_compute; reflexivity|]. split; [vm_compute; reflexivity|].
  split; [vm_compute; reflexivity|]. split; [split; [vm_compute; reflexivity|]; split; [discriminate|]; vm_compute; reflexivity|].
  split; [split; [vm_compute; reflexivity|]; split; [discriminate|]; vm_compute; reflexivity|].
  split; [vm_compute; reflexivity|]. split; [vm_compute; reflexivity|]. split; [exact second_answer_ok|]. split; vm_compute; reflexivity.
Qed.

Lemma sample_request_ok : msg_ok sample_request.
Proof.
  split; [vm_compute; reflexivity|]. intros k v. unfold sample_request, pm_run. cbn [m_hist fold_left pm_step]. unfold pm_set, pm_empty.
  destruct (bytes_eqb (str "k") k) eqn:E; [|discriminate]. apply bytes_eqb_eq in E. subst k. intros [= <-]. vm_compute. reflexivity.
Qed.
Lemma sample_request_reads : exists h o hf im rg d, server_setup sample_metadata3 (mkStream [] []) (mkO [] [] []) 3 = Ok h /\
  h_server h = true /\ is_alive h = true /\ h_version h < 4 /\ 1 <= md_channels (h_meta h) <= INT_MAX /\ h_type h <> Some MQuit /\
  send (mkO [] [] []) sample_request = Ok o /\
  server_wait_sot 0 (reading h (one_chunk (o_bytes o))) None None (Some props_create) = Ok (TRAX_INITIALIZE, hf, im, rg, Some d).
Proof.
  eexists. eexists. eexists. eexists. eexists. eexists. split; [vm_compute; reflexivity|]. split; [vm_compute; reflexivity|]. split; [vm_compute; reflexivity|].
  split; [vm_compute; reflexivity|]. split; [cbn [h_meta md_channels]; unfold INT_MAX; lia|]. split; [cbn [h_type]; discriminate|]. split; [vm_compute; reflexivity|]. vm_compute; reflexivity.
Qed.
Lemma sample_server_waits : h_server sample_server = true /\ is_alive sample_server = true /\ 0 <= md_channels (h_meta sample_server) <= INT_MAX.
Proof. split; [vm_compute; reflexivity|]. split; [vm_compute; reflexivity|]. vm_compute. split; discriminate. Qed.
