(** Proofs about error texts *)
From Coq Require Import Lia.
From Verif Require Import CBase Buffer BufferSpec BufferProofs Num NumProofs Region RegionProofs Image Formats FormatsProofs Props Message Handle HandleProofs SessionSpec HistorySpec HistoryProofs Errors ErrorsSpec.
Local Open Scope Z_scope.

(** ---- The texts ---- *)
Lemma formatted_plain f cells : ~ In 37%N f -> formatted f cells = Ok f.
Proof.
  induction f as [|c f IH]; intros N; [reflexivity|]. cbn [formatted]. rewrite (proj2 (N.eqb_neq c 37)) by (intros ->; apply N; now left).
  rewrite IH by (intros H; apply N; now right). reflexivity.
Qed.
Lemma no_percent s : forallb (fun c => negb (c =? 37)%N) (str s) = true -> error_text (str s, []) = Ok (str s).
Proof.
  intros H. apply formatted_plain. intros I. rewrite forallb_forall in H. specialize (H _ I). discriminate H.
Qed.
Lemma channel_undefined id : error_text (str "Required image channel not provided (ID: %d)", [id]) = UB.
Proof. vm_compute. reflexivity. Qed.
Lemma arguments_undefined a b : error_text (arguments_report a b) = UB.
Proof. vm_compute. reflexivity. Qed.

(** ---- Channels ---- *)
Definition channel_report (id : Z) : report := (str "Required image channel not provided (ID: %d)", [id]).
Definition lacking (channels : Z) (s : nat) (images : image_list) (k : nat) : Prop := Z.testbit channels (Z.of_nat (s + k)) = true /\ nth_error images k = Some None.
Lemma arguments_from channels n : forall s images a, image_arguments channels (map (fun k => 2 ^ Z.of_nat k) (seq s n)) images = Ok a ->
  match a with
  | None => exists k, (k < n)%nat /\ lacking channels s images k /\ (forall j, (j < k)%nat -> ~ lacking channels s images j) /\
      missing_report channels (map (fun k => 2 ^ Z.of_nat k) (seq s n)) images = Some (channel_report (2 ^ Z.of_nat (s + k)))
  | Some _ => (forall k, (k < n)%nat -> ~ lacking channels s images k) /\ missing_report channels (map (fun k => 2 ^ Z.of_nat k) (seq s n)) images = None
  end.
Proof.
  induction n as [|n IH]; intros s images a E; cbn [seq map image_arguments missing_report] in *.
  - injection E as <-. split; [intros k Hk; lia|reflexivity].
  - destruct images as [|im images]; [discriminate|]. rewrite supports_bit in * by lia.
    assert (Shift : forall k, lacking channels s (im :: images) (S k) <-> lacking channels (S s) images k).
    { intros k. unfold lacking. cbn [nth_error]. now rewrite Nat.add_succ_r. }
    assert (Go : forall b, image_arguments channels (map (fun k => 2 ^ Z.of_nat k) (seq (S s) n)) images = Ok b -> ~ lacking channels s (im :: images) 0 ->
      match b with
      | None => exists k, (k < S n)%nat /\ lacking channels s (im :: images) k /\ (forall j, (j < k)%nat -> ~ lacking channels s (im :: images) j) /\
          missing_report channels (map (fun k => 2 ^ Z.of_nat k) (seq (S s) n)) images = Some (channel_report (2 ^ Z.of_nat (s + k)))
      | Some _ => (forall k, (k < S n)%nat -> ~ lacking channels s (im :: images) k) /\ missing_report channels (map (fun k => 2 ^ Z.of_nat k) (seq (S s) n)) images = None
      end).
    { intros b Eb N0. specialize (IH _ _ _ Eb). destruct b as [b|].
      - destruct IH as [IH1 IH2]. split; [|exact IH2]. intros [|k] Hk; [exact N0|]. rewrite Shift. apply IH1. lia.
      - destruct IH as (k & Hk & L & F & R). exists (S k). split; [lia|]. split; [now rewrite Shift|]. split; [intros [|j] Hj; [exact N0|rewrite Shift; apply F; lia]|].
        now rewrite Nat.add_succ_r. }
    destruct (Z.testbit channels (Z.of_nat s)) eqn:T.
    + destruct im as [im|].
      * destruct (image_encode im) as [t| | |]; try discriminate. cbn [obind] in E.
        destruct (image_arguments channels _ images) as [b| | |] eqn:Eb; try discriminate. cbn [obind] in E. injection E as <-.
        specialize (Go b eq_refl). destruct b as [b|]; cbn [option_map]; apply Go; intros [_ X]; discriminate X.
      * injection E as <-. exists 0%nat. split; [lia|]. split; [split; [now rewrite Nat.add_0_r|reflexivity]|]. split; [intros j Hj; lia|]. now rewrite Nat.add_0_r.
    + apply Go; [exact E|]. intros [X _]. rewrite Nat.add_0_r in X. congruence.
Qed.
Lemma channel_ids_powers : channel_ids = map (fun k => 2 ^ Z.of_nat k) (seq 0 3). Proof. reflexivity. Qed.
Lemma arguments_channels channels images a : image_arguments channels channel_ids images = Ok a ->
  match a with
  | None => exists id, no_image channels images id /\ missing_report channels channel_ids images = Some (channel_report id)
  | Some _ => (forall id, ~ no_image channels images id) /\ missing_report channels channel_ids images = None
  end.
Proof.
  rewrite channel_ids_powers. intros E. apply arguments_from in E. destruct a as [a|].
  - destruct E as [E1 E2]. split; [|exact E2]. intros id (k & Hk & _ & L & _). exact (E1 k Hk L).
  - destruct E as (k & Hk & L & F & R). exists (2 ^ Z.of_nat k). split; [|exact R]. exists k. split; [exact Hk|]. split; [reflexivity|]. split; [exact L|exact F].
Qed.

(** ---- Calls ---- *)
Lemma many_multi h : many h <-> multi h = true.
Proof.
  unfold many, multi. destruct (md_flags (h_meta h)) as [f|].
  - change (supports f TRAX_METADATA_MULTI_OBJECT) with (supports f (2 ^ 0)). rewrite supports_bit by lia. split; [intros (g & E & T); congruence|intros T; now exists f].
  - split; [intros (g & E & T); discriminate|discriminate].
Qed.
Lemma multi_outcome h m : is_multi_object h = Ok m -> m = multi h.
Proof. unfold is_multi_object, multi. destruct (md_flags (h_meta h)); [intros E; now injection E|discriminate]. Qed.
Lemma not_many h : multi h = false -> ~ many h. Proof. intros E M. apply many_multi in M. congruence. Qed.
(** How a call that sends goes *)
Definition verdict (h : handle) (c : call) (code : Z) (h' : handle) : Prop :=
  (code = TRAX_OK /\ h_error h' = false /\ call_report h c = None /\ forall k, ~ must_fail h c k) \/
  (code = TRAX_ERROR /\ h_error h' = true /\ exists k r, must_fail h c k /\ call_report h c = Some r /\ (~ image_problem k -> error_text r = Ok (complaint_text k))).
Lemma send_objects_error legacy l : forall h h', send_objects legacy h l = Ok h' -> h_error h' = h_error h.
Proof.
  induction l as [|[r p] l IH]; intros h h' E; cbn [send_objects] in E; [now injection E as <-|].
  destruct (region_argument _ _ _); try discriminate. cbn [obind] in E. apply IH in E. rewrite E. reflexivity.
Qed.
Lemma send_frame_error h images p code h' : h_error h = false -> send_frame h images p = Ok (code, h') ->
  (code = TRAX_OK /\ h_error h' = false /\ (forall id, ~ no_image (md_channels (h_meta h)) images id) /\ missing_report (md_channels (h_meta h)) channel_ids images = None) \/
  (code = TRAX_ERROR /\ h_error h' = true /\ exists id, no_image (md_channels (h_meta h)) images id /\ missing_report (md_channels (h_meta h)) channel_ids images = Some (channel_report id)).
Proof.
  intros He. unfold send_frame. destruct (image_arguments _ _ _) as [a| | |] eqn:Ea; try discriminate. cbn [obind]. apply arguments_channels in Ea. destruct a as [a|].
  - destruct (all_texts a); try discriminate. cbn [obind]. intros E. injection E as <- <-. left. destruct Ea as [E1 E2]. split; [reflexivity|]. split; [exact He|]. now split.
  - intros E. injection E as <- <-. right. split; [reflexivity|]. split; [reflexivity|exact Ea].
Qed.
Ltac says := intros _; apply no_percent; vm_compute; reflexivity.
Lemma alive_not h : negb (alive h) = h_terminated h. Proof. unfold alive. now rewrite negb_involutive. Qed.
Lemma frame_verdict legacy slack h images objects p code h' : run_call legacy slack h (CFrame images objects p) = Ok (code, h') -> verdict h (CFrame images objects p) code h'.
Proof.
  cbn [run_call]. unfold client_frame, verdict. destruct (h_server h); [discriminate|]. cbn [call_report]. unfold frame_report. rewrite !alive_not. change (h_terminated (clear_error h)) with (h_terminated h).
  change (is_version_4 (clear_error h)) with (is_version_4 h). change (h_objects (clear_error h)) with (h_objects h).
  cbv zeta. match goal with |- context [Z.of_nat (List.length ?o)] => assert (Cn : Z.of_nat (List.length o) = count objects) by (destruct objects; reflexivity); rewrite !Cn end.
  destruct (h_terminated h) eqn:T.
  { intros E. injection E as <- <-. right. split; [reflexivity|]. split; [reflexivity|]. exists (Dead true). eexists. split; [exact (f_dead h (CFrame images objects p) eq_refl T)|]. split; [reflexivity|says]. }
  destruct (is_version_4 h) eqn:V; unfold is_version_4 in V.
  - apply Z.leb_le in V. change (is_multi_object (clear_error h)) with (is_multi_object h).
    assert (M : forall b, (if 1 <? h_objects h + count objects then m <- is_multi_object h ;; Ok (negb m) else Ok false) = Ok b -> b = (1 <? h_objects h + count objects) && negb (multi h)).
    { intros b. destruct (1 <? h_objects h + count objects); [|intros E; injection E as <-; reflexivity]. destruct (is_multi_object h) as [m| | |] eqn:Em; try discriminate. cbn [obind].
      intros E. injection E as <-. now rewrite (multi_outcome h m Em). }
    destruct (if 1 <? h_objects h + count objects then _ else _) as [b| | |] eqn:Eb; try discriminate. specialize (M b eq_refl). clear Eb. cbn [obind]. rewrite <- M. destruct b.
    + intros E. injection E as <- <-. right. split; [reflexivity|]. split; [reflexivity|]. symmetry in M. apply andb_true_iff in M as [M1 M2]. apply negb_true_iff in M2. apply Z.ltb_lt in M1.
      exists WrongMode. eexists. split; [exact (f_add h images objects p T V (not_many h M2) M1)|]. split; [reflexivity|says].
    + destruct (send_objects _ _ _) as [h1| | |] eqn:Es; try discriminate. cbn [obind]. pose proof (send_objects_error _ _ _ _ Es) as He. apply send_objects_meta in Es. intros E.
      apply send_frame_error in E; [|exact He]. cbn [h_meta set_objects] in E. rewrite Es in E. cbn [h_meta clear_error] in E.
      destruct E as [(-> & H' & Ni & Mr)|(-> & H' & id & Ni & Mr)].
      * left. split; [reflexivity|]. split; [exact H'|]. split; [exact Mr|]. intros k F. inversion F; subst; try congruence; try lia; [|now apply (Ni id)].
        symmetry in M. apply andb_false_iff in M as [M|M]; [apply Z.ltb_ge in M; lia|]. apply negb_false_iff, many_multi in M. contradiction.
      * right. split; [reflexivity|]. split; [exact H'|]. exists (NoImage id), (channel_report id). split; [|split; [exact Mr|intros X; elim X; exact Logic.I]].
        apply f_image; [exact T| |exact Ni]. rewrite (proj2 (Z.ltb_ge (h_version h) 4) V).
        symmetry in M. apply andb_false_iff in M as [M|M]; [apply Z.ltb_ge in M; right; lia|]. apply negb_false_iff, many_multi in M. now left.
  - apply Z.leb_gt in V. destruct (0 <? count objects) eqn:C.
    + intros E. injection E as <- <-. right. apply Z.ltb_lt in C. split; [reflexivity|]. split; [reflexivity|]. exists NoNewObjects. eexists. split; [exact (f_add_old h images objects p T V C)|].
      split; [reflexivity|says].
    + apply Z.ltb_ge in C. assert (C0 : count objects = 0) by (unfold count in *; destruct objects; lia). intros E. apply send_frame_error in E; [|reflexivity]. cbn [h_meta clear_error] in E.
      destruct E as [(-> & H' & Ni & Mr)|(-> & H' & id & Ni & Mr)].
      * left. split; [reflexivity|]. split; [exact H'|]. split; [exact Mr|]. intros k F. inversion F; subst; try congruence; try lia. now apply (Ni id).
      * right. split; [reflexivity|]. split; [exact H'|]. exists (NoImage id), (channel_report id). split; [|split; [exact Mr|intros X; elim X; exact Logic.I]].
        apply f_image; [exact T| |exact Ni]. now rewrite (proj2 (Z.ltb_lt (h_version h) 4) V).
Qed.
Lemma initialize_verdict legacy slack h images objects p code h' : run_call legacy slack h (CInitialize images objects p) = Ok (code, h') -> verdict h (CInitialize images objects p) code h'.
Proof.
  cbn [run_call]. unfold client_initialize. destruct (h_server h) eqn:Hs; [discriminate|]. rewrite alive_not. change (h_terminated (clear_error h)) with (h_terminated h).
  change (is_version_4 (clear_error h)) with (is_version_4 h). change (h_objects (clear_error h)) with (h_objects h). change (is_multi_object (clear_error h)) with (is_multi_object h). cbv zeta.
  unfold verdict. cbn [call_report]. unfold initialize_report. rewrite alive_not.
  destruct (h_terminated h) eqn:T.
  { intros E. injection E as <- <-. right. split; [reflexivity|]. split; [reflexivity|]. exists (Dead true). eexists. split; [exact (f_dead h (CInitialize images objects p) eq_refl T)|]. split; [reflexivity|says]. }
  destruct (Z.of_nat (List.length objects) <? 1) eqn:L1.
  { intros E. injection E as <- <-. right. split; [reflexivity|]. split; [reflexivity|]. apply Z.ltb_lt in L1. destruct objects as [|o objects]; [|cbn [List.length] in L1; lia].
    exists NoObject. eexists. split; [exact (f_no_object h images p T)|]. split; [reflexivity|says]. }
  apply Z.ltb_ge in L1. assert (Ne : objects <> []) by (intros ->; cbn [List.length] in L1; lia).
  destruct (is_multi_object h) as [m| | |] eqn:Em; try discriminate. cbn [obind]. rewrite <- (multi_outcome h m Em). apply multi_outcome in Em.
  destruct (negb m && (1 <? Z.of_nat (List.length objects))) eqn:Tm.
  { intros E. injection E as <- <-. right. split; [reflexivity|]. split; [reflexivity|]. apply andb_true_iff in Tm as [M1 M2]. apply negb_true_iff in M1. apply Z.ltb_lt in M2. subst m.
    exists TooMany. eexists. split; [exact (f_too_many h images objects p T (not_many h M1) ltac:(lia))|]. split; [reflexivity|says]. }
  assert (Fit : many h \/ (List.length objects <= 1)%nat).
  { apply andb_false_iff in Tm as [M|M]; [left; apply negb_false_iff in M; apply many_multi; congruence|right; apply Z.ltb_ge in M; lia]. }
  destruct (is_version_4 h) eqn:V.
  - set (h1 := if 0 <? h_objects h then set_objects (handle_write (clear_error h) MInitialize [] None) 0 else clear_error h). intros E.
    assert (F : h_terminated h1 = false /\ h_version h1 = h_version h /\ h_meta h1 = h_meta h /\ h_objects h1 <= 0 /\
      frame_report (if 0 <? h_objects h then set_objects h 0 else h) images (Z.of_nat (List.length objects)) = frame_report h1 images (Z.of_nat (List.length objects))).
    { unfold h1. destruct (0 <? h_objects h) eqn:O; (split; [exact T|]); (split; [reflexivity|]); (split; [reflexivity|]); (split; [|reflexivity]); [reflexivity|]. cbn [h_objects clear_error]. apply Z.ltb_ge in O. exact O. }
    clearbody h1. destruct F as (F1 & F2 & F3 & F4 & ->). unfold is_version_4 in V. apply Z.leb_le in V.
    apply (frame_verdict legacy slack h1 images (Some objects) p) in E. unfold verdict in E. cbn [call_report count] in E.
    assert (Mm : many h1 <-> many h) by (unfold many; now rewrite F3).
    destruct E as [(-> & H' & R & N)|(-> & H' & k & r & K & R & W)].
    + left. split; [reflexivity|]. split; [exact H'|]. split; [exact R|]. intros k K. inversion K; subst; try congruence.
      * destruct Fit; [contradiction|lia].
      * apply (N (NoImage id)). apply f_image; [exact F1| |rewrite F3; assumption]. rewrite F2, (proj2 (Z.ltb_ge (h_version h) 4) V), Mm. cbn [count]. destruct Fit; [now left|right; lia].
    + right. split; [reflexivity|]. split; [exact H'|]. exists k, r. split; [|split; [exact R|exact W]]. inversion K; subst; try congruence; try lia.
      * cbn [count] in *. exfalso. destruct Fit as [Fit|Fit]; [apply Mm in Fit; contradiction|lia].
      * apply f_image_first; [exact T|exact Ne|exact Fit|]. rewrite <- F3. assumption.
  - assert (V' : h_version h < 4) by (unfold is_version_4 in V; apply Z.leb_gt in V; exact V). destruct objects as [|[r d] objects]; [congruence|]. destruct (region_bit r =? 1); [discriminate|].
    cbn [h_meta clear_error]. destruct (image_arguments _ _ _) as [a| | |] eqn:Ea; try discriminate. cbn [obind]. apply arguments_channels in Ea. destruct a as [a|].
    + destruct (region_argument _ _ _); try discriminate. cbn [obind]. destruct (all_texts a); try discriminate. cbn [obind]. intros E. injection E as <- <-. left. destruct Ea as [E1 E2].
      split; [reflexivity|]. split; [reflexivity|]. split; [exact E2|]. intros k K. inversion K; subst; try congruence; [destruct Fit; [contradiction|lia]|]. now apply (E1 id).
    + intros E. injection E as <- <-. right. destruct Ea as (id & Ni & Mr). split; [reflexivity|]. split; [reflexivity|]. exists (NoImage id), (channel_report id).
      split; [|split; [exact Mr|intros X; elim X; exact Logic.I]]. now apply f_image_first.
Qed.

(** ---- Replies ---- *)
Definition full (B : string_buffer) : Prop := exists l, buf_ok B l /\ l <> [].
Lemma full_append B l s B' : buf_ok B l -> l <> [] \/ s <> [] -> buffer_append B s = Ok B' -> full B'.
Proof.
  intros O N E. destruct (buffer_append_ok B l s O) as (B2 & E2 & O2). replace B' with B2 by congruence. exists (l ++ s). split; [exact O2|].
  intros X. apply app_eq_nil in X as [-> ->]. destruct N; congruence.
Qed.
Lemma full_more B s B' : full B -> buffer_append B s = Ok B' -> full B'.
Proof. intros (l & O & N) E. exact (full_append B l s B' O (or_introl N) E). Qed.
Lemma full_points pts : forall B B', full B -> append_points B false pts = Ok B' -> full B'.
Proof.
  induction pts as [|[x y] pts IH]; intros B B' F E; cbn [append_points] in E; [now injection E as <-|].
  destruct (buffer_append _ _) as [B1| | |] eqn:E1; try discriminate. cbn [obind] in E. apply (IH B1); [exact (full_more _ _ _ F E1)|exact E].
Qed.
Lemma full_rle n : forall B data count value B' c' v', full B -> rle_loop B data n count value = Ok (B', c', v') -> full B'.
Proof.
  induction n as [|n IH]; intros B data count value B' c' v' F E.
  - destruct data; cbn [rle_loop] in E; injection E as <- <- <-; exact F.
  - destruct data as [|d data]; cbn [rle_loop] in E; [discriminate|]. destruct (Bool.eqb _ _).
    + destruct (int_result (count + 1)); try discriminate. cbn [obind] in E. exact (IH _ _ _ _ _ _ _ F E).
    + destruct (buffer_append _ _) as [B1| | |] eqn:E1; try discriminate. cbn [obind] in E. exact (IH _ _ _ _ _ _ _ (full_more _ _ _ F E1) E).
Qed.
Lemma full_pixels B data n B' : full B -> append_pixels B data n = Ok B' -> full B'.
Proof.
  intros F E. unfold append_pixels in E. destruct data as [|d0 data]; [discriminate|].
  destruct (if negb (d0 =? 0)%N then buffer_append B (str ",0") else Ok B) as [B2| | |] eqn:E2; try discriminate. cbn [obind] in E.
  assert (F2 : full B2) by (destruct (negb (d0 =? 0)%N); [exact (full_more _ _ _ F E2)|injection E2 as <-; exact F]).
  destruct (rle_loop B2 (d0 :: data) n 0 (negb (d0 =? 0)%N)) as [[[B3 c3] v3]| | |] eqn:E3; try discriminate. cbn [obind] in E. apply full_rle in E3; [|exact F2].
  destruct (negb (c3 =? 0) && v3); [exact (full_more _ _ _ E3 E)|injection E as <-; exact E3].
Qed.
Lemma float_text_nonempty x y : format_point x y <> [].
Proof. unfold format_point. intros X. apply app_eq_nil in X as [_ X]. apply app_eq_nil in X as [X _]. discriminate X. Qed.
Lemma no_region_text r : region_string r = Ok None -> r = RPoly [].
Proof.
  unfold region_string. pose proof (buffer_create_ok 32) as O.
  assert (Fin : forall B, full B -> (if Nat.ltb 0 (b_pos B) then s <- buffer_extract B ;; t <- blk_string s ;; Ok (Some t) else Ok None) <> Ok (@None (list N))).
  { intros B (l & (_ & P & _) & N). rewrite P. destruct l as [|x l]; [congruence|]. cbn [List.length Nat.ltb Nat.leb]. destruct (buffer_extract B); try discriminate. cbn [obind]. destruct (blk_string _); discriminate. }
  destruct r as [code|x y w h|pts|x y w h data].
  - destruct (buffer_append _ _) as [B| | |] eqn:E; try discriminate. cbn [obind]. intros X. elim (Fin B (full_append _ _ _ _ O (or_intror (print_Z_nonempty code)) E) X).
  - destruct (buffer_append _ _) as [B| | |] eqn:E; try discriminate. cbn [obind]. intros X. elim (Fin B); [|exact X]. apply (full_append _ _ _ _ O) in E; [exact E|]. right. intros Y.
    apply app_eq_nil in Y as [Y _]. now apply float_text_nonempty in Y.
  - destruct pts as [|[x y] pts]; [reflexivity|]. cbn [append_points app]. destruct (buffer_append _ _) as [B1| | |] eqn:E1; try discriminate. cbn [obind].
    destruct (append_points B1 false pts) as [B| | |] eqn:E; try discriminate. cbn [obind]. intros X. elim (Fin B); [|exact X]. apply (full_points pts B1); [|exact E].
    apply (full_append _ _ _ _ O) in E1; [exact E1|]. right. apply float_text_nonempty.
  - destruct (int_result (w * h)); try discriminate. cbn [obind]. destruct (buffer_append _ _) as [B1| | |] eqn:E1; try discriminate. cbn [obind].
    destruct (append_pixels B1 data _) as [B| | |] eqn:E; try discriminate. cbn [obind]. intros X. elim (Fin B); [|exact X]. apply (full_pixels B1 data) in E; [exact E|].
    apply (full_append _ _ _ _ O) in E1; [exact E1|]. right. discriminate.
Qed.
Lemma reply_sot_verdict legacy slack h r p code h' : r <> RPoly [] -> run_call legacy slack h (CReplySot r p) = Ok (code, h') -> verdict h (CReplySot r p) code h'.
Proof.
  intros Nr. cbn [run_call]. unfold server_reply_sot, verdict. destruct (negb (h_server h)); [discriminate|]. cbn [call_report]. unfold reply_sot_report. rewrite !alive_not.
  change (h_terminated (clear_error h)) with (h_terminated h). change (is_version_4 (clear_error h)) with (is_version_4 h). cbv zeta. destruct (h_terminated h) eqn:T.
  { intros E. injection E as <- <-. right. split; [reflexivity|]. split; [reflexivity|]. exists (Dead false). eexists. split; [exact (f_dead h (CReplySot r p) eq_refl T)|]. split; [reflexivity|says]. }
  destruct (is_version_4 h) eqn:V; unfold is_version_4 in V.
  { apply Z.leb_le in V. intros E. injection E as <- <-. right. split; [reflexivity|]. split; [reflexivity|]. exists WrongMode. eexists. split; [exact (f_single h r p T V)|]. split; [reflexivity|says]. }
  apply Z.leb_gt in V. destruct (region_string r) as [[t|]| | |] eqn:Er; try discriminate; cbn [obind]; intros E; injection E as <- <-.
  - left. split; [reflexivity|]. split; [reflexivity|]. split; [reflexivity|]. intros k K. inversion K; subst; try congruence; lia.
  - elim Nr. now apply no_region_text.
Qed.
Lemma send_states_error l : forall h code h', Forall (fun o : region * props => fst o <> RPoly []) l -> send_states h l = Ok (code, h') -> code = TRAX_OK /\ h_error h' = h_error h.
Proof.
  induction l as [|[r p] l IH]; intros h code h' F E; cbn [send_states] in E; [injection E as <- <-; now split|]. inversion F; subst.
  destruct (region_string r) as [[t|]| | |] eqn:Er; try discriminate; cbn [obind] in E.
  - apply IH in E; [|assumption]. exact E.
  - apply no_region_text in Er. cbn [fst] in *. congruence.
Qed.
Lemma reply_mot_verdict legacy slack h objects code h' : Forall (fun o : region * props => fst o <> RPoly []) objects -> run_call legacy slack h (CReplyMot objects) = Ok (code, h') ->
  verdict h (CReplyMot objects) code h'.
Proof.
  intros Nr. cbn [run_call]. unfold server_reply_mot, verdict. destruct (negb (h_server h)); [discriminate|]. cbn [call_report]. unfold reply_mot_report. rewrite !alive_not.
  change (h_terminated (clear_error h)) with (h_terminated h). change (is_multi_object (clear_error h)) with (is_multi_object h). change (h_objects (clear_error h)) with (h_objects h). cbv zeta.
  destruct (h_terminated h) eqn:T.
  { intros E. injection E as <- <-. right. split; [reflexivity|]. split; [reflexivity|]. exists (Dead false). eexists. split; [exact (f_dead h (CReplyMot objects) eq_refl T)|]. split; [reflexivity|says]. }
  destruct (is_multi_object h) as [m| | |] eqn:Em; try discriminate. cbn [obind]. apply multi_outcome in Em. rewrite <- Em. destruct (negb m && negb (Z.of_nat (List.length objects) =? 1)) eqn:M.
  { intros E. injection E as <- <-. right. split; [reflexivity|]. split; [reflexivity|]. apply andb_true_iff in M as [M1 M2]. apply negb_true_iff in M1, M2. apply Z.eqb_neq in M2. rewrite Em in M1.
    exists WrongMode. eexists. split; [exact (f_single_many h objects T (not_many h M1) ltac:(lia))|]. split; [reflexivity|says]. }
  assert (Fit : many h \/ List.length objects = 1%nat).
  { apply andb_false_iff in M as [M|M]; apply negb_false_iff in M; [left; apply many_multi; congruence|right; apply Z.eqb_eq in M; lia]. }
  destruct (negb (Z.of_nat (List.length objects) =? h_objects h)) eqn:C.
  { intros E. injection E as <- <-. right. split; [reflexivity|]. split; [reflexivity|]. apply negb_true_iff, Z.eqb_neq in C.
    exists WrongCount. eexists. split; [exact (f_count h objects T Fit C)|]. split; [reflexivity|says]. }
  apply negb_false_iff, Z.eqb_eq in C. intros E. apply send_states_error in E as [-> E]; [|exact Nr]. left. split; [reflexivity|]. split; [exact E|]. split; [reflexivity|].
  intros k K. inversion K; subst; try congruence. destruct Fit; contradiction.
Qed.
Lemma send_verdict legacy slack h c code h' : sends c = true -> drawn c -> run_call legacy slack h c = Ok (code, h') -> verdict h c code h'.
Proof.
  intros S D E. destruct c; try discriminate S.
  - exact (frame_verdict _ _ _ _ _ _ _ _ E).
  - exact (initialize_verdict _ _ _ _ _ _ _ _ E).
  - exact (reply_sot_verdict _ _ _ _ _ _ _ D E).
  - exact (reply_mot_verdict _ _ _ _ _ _ D E).
Qed.

(** ---- Waiting ---- *)
Lemma read_error h r h' : handle_read h = Ok (r, h') -> h_error h' = h_error h.
Proof. unfold handle_read. destruct (read_message _ _) as [[]| | |]; try discriminate. cbn [obind]. intros E. injection E as <- <-. reflexivity. Qed.
Lemma failure_code h objs p code h' l o q : mot_failure h objs p = Ok (code, h', l, o, q) -> code = TRAX_ERROR.
Proof. unfold mot_failure. destruct (existsb _ _); [discriminate|]. intros E. now inv_ok E. Qed.
Lemma end_error result h images objs p code h' l o q : mot_end result h images objs p = Ok (code, h', l, o, q) -> h_error h' = h_error h.
Proof.
  unfold mot_end. destruct objs; [intros E; inv_ok E; auto|]. destruct (mot_objects _); try discriminate. cbn [obind]. intros E. inv_ok E. reflexivity.
Qed.
Lemma wait_mot_loop_error slack argc fuel : forall h images result objs p code h' l o q,
  wait_mot_loop fuel slack argc h images result objs p = Ok (code, h', l, o, q) -> code <> TRAX_ERROR -> h_error h' = h_error h.
Proof.
  induction fuel as [|fuel IH]; intros h images result objs p code h' l o q E Nc; cbn [wait_mot_loop] in E; [discriminate|].
  destruct (handle_read h) as [[r h1]| | |] eqn:Er; try discriminate. cbn [obind] in E. apply read_error in Er. rewrite <- Er.
  assert (Bad : forall hh objs p, mot_failure hh objs p = Ok (code, h', l, o, q) -> h_error h' = h_error h1) by (intros hh oo pp X; apply failure_code in X; contradiction).
  destruct (rr_type r) as [[| | | |]|].
  - exact (IH _ _ _ _ _ _ _ _ _ _ E Nc).
  - destruct (rr_args r) as [|a [|? ?]].
    + exact (IH _ _ _ _ _ _ _ _ _ _ E Nc).
    + destruct (region_parse a) as [[[|] reg]| | |]; try discriminate; cbn [obind] in E; [|exact (Bad _ _ _ E)].
      destruct (copy_properties _ _ _); try discriminate. cbn [obind] in E. exact (IH _ _ _ _ _ _ _ _ _ _ E Nc).
    + exact (Bad _ _ _ E).
  - destruct (_ && _); [exact (Bad _ _ _ E)|]. destruct (negb (_ =? argc)); [exact (Bad _ _ _ E)|].
    destruct (decode_images _ _ _ _ _) as [[ims|]| | |]; try discriminate; cbn [obind] in E; [|exact (Bad _ _ _ E)].
    destruct (copy_out _ _ _); try discriminate. cbn [obind] in E. exact (end_error _ _ _ _ _ _ _ _ _ _ E).
  - destruct (negb (_ =? 0)); [exact (Bad _ _ _ E)|]. destruct (copy_out _ _ _); try discriminate. cbn [obind] in E.
    apply end_error in E. exact E.
  - exact (IH _ _ _ _ _ _ _ _ _ _ E Nc).
  - exact (Bad _ _ _ E).
Qed.
Lemma wait_sot_error slack h images reg p code h' l o q : server_wait_sot slack h images reg p = Ok (code, h', l, o, q) -> code <> TRAX_ERROR -> h_error h' = false.
Proof.
  unfold server_wait_sot. destruct (negb (h_server h)); [discriminate|]. intros E Nc. cbv zeta in E. destruct (negb (alive (clear_error h))); [inv_ok E; congruence|].
  destruct (is_version_4 (clear_error h)); [inv_ok E; congruence|]. destruct (image_list_count _); try discriminate. cbn [obind] in E.
  destruct (handle_read (clear_error h)) as [[r h1]| | |] eqn:Er; try discriminate. cbn [obind] in E. apply read_error in Er. change (h_error h1 = false) in Er.
  destruct (rr_type r) as [[| | | |]|]; try (inv_ok E; congruence).
  - destruct (negb _); [inv_ok E; congruence|]. destruct (decode_images _ _ _ _ _) as [[ims|]| | |]; try discriminate; cbn [obind] in E; [|inv_ok E; congruence].
    destruct (nth_error _ _); [|discriminate]. destruct (region_parse _) as [[[|] ?]| | |]; try discriminate; cbn [obind] in E; [|inv_ok E; congruence].
    destruct (copy_out _ _ _); try discriminate. cbn [obind] in E. inv_ok E. exact Er.
  - destruct (negb _); [inv_ok E; congruence|]. destruct (decode_images _ _ _ _ _) as [[ims|]| | |]; try discriminate; cbn [obind] in E; [|inv_ok E; congruence].
    destruct (copy_out _ _ _); try discriminate. cbn [obind] in E. inv_ok E. exact Er.
  - destruct (negb _); [inv_ok E; congruence|]. destruct (copy_out _ _ _); try discriminate. cbn [obind] in E. inv_ok E. exact Er.
Qed.
Lemma send_states_kept l : forall h code h', send_states h l = Ok (code, h') -> h_error h' = h_error h.
Proof.
  induction l as [|[r p] l IH]; intros h code h' E; cbn [send_states] in E; [injection E as <- <-; reflexivity|].
  destruct (region_string r) as [[t|]| | |] eqn:Er; try discriminate; cbn [obind] in E; [apply IH in E; exact E|]. now injection E as <- <-.
Qed.
Lemma success_clears legacy slack h c code h' : waits_or_ends c = true \/ sends c = true -> run_call legacy slack h c = Ok (code, h') -> code <> TRAX_ERROR -> h_error h' = false.
Proof.
  intros S E Nc.
  assert (V : forall c', verdict h c' code h' -> h_error h' = false) by (intros c' [(_ & X & _)|(X & _)]; [exact X|contradiction]).
  destruct c; cbn [waits_or_ends sends] in S; try (destruct S; discriminate).
  - exact (V _ (frame_verdict _ _ _ _ _ _ _ _ E)).
  - exact (V _ (initialize_verdict _ _ _ _ _ _ _ _ E)).
  - cbn [run_call] in E. destruct (server_wait_sot _ _ _ _ _) as [[[[[code1 h1] l] o] q]| | |] eqn:E1; try discriminate. cbn [obind] in E. injection E as <- <-. exact (wait_sot_error _ _ _ _ _ _ _ _ _ _ E1 Nc).
  - cbn [run_call] in E. destruct (server_wait_mot _ _ _ _ _) as [[[[[code1 h1] l] o] q]| | |] eqn:E1; try discriminate. cbn [obind] in E. injection E as <- <-.
    unfold server_wait_mot in E1. destruct (negb (h_server h)); [discriminate|]. cbv zeta in E1. destruct (negb (alive (clear_error h))); [inv_ok E1; congruence|].
    destruct (image_list_count _); try discriminate. cbn [obind] in E1. apply wait_mot_loop_error in E1; [exact E1|exact Nc].
  - cbn [run_call] in E. unfold server_reply_sot in E. destruct (negb (h_server h)); [discriminate|]. cbv zeta in E. destruct (negb (alive _)); [inv_ok E; congruence|].
    destruct (is_version_4 _); [inv_ok E; congruence|]. destruct (region_string _) as [[t|]| | |]; try discriminate; cbn [obind] in E; inv_ok E; reflexivity.
  - cbn [run_call] in E. unfold server_reply_mot in E. destruct (negb (h_server h)); [discriminate|]. cbv zeta in E. destruct (negb (alive _)); [inv_ok E; congruence|].
    destruct (is_multi_object _) as [m| | |]; try discriminate. cbn [obind] in E. destruct (_ && _); [inv_ok E; congruence|]. destruct (negb _); [inv_ok E; congruence|].
    apply send_states_kept in E. exact E.
  - cbn [run_call] in E. unfold terminate in E. cbv zeta in E. destruct (negb (alive _)); [inv_ok E; reflexivity|]. destruct (set_optional _ _ _); try discriminate. cbn [obind] in E. inv_ok E. reflexivity.
Qed.
Lemma client_wait_loop_error n : forall h acc p result code h' l q, client_wait_loop n h acc p result = Ok (code, h', l, q) -> h_error h' = h_error h.
Proof.
  induction n as [|n IH]; intros h acc p result code h' l q E; cbn [client_wait_loop] in E; [inv_ok E; reflexivity|].
  destruct (handle_read h) as [[r h1]| | |] eqn:Er; try discriminate. cbn [obind] in E. apply read_error in Er. rewrite <- Er.
  destruct (rr_type r) as [[| | | |]|]; try (exact (IH _ _ _ _ _ _ _ _ E)).
  - destruct (rr_args r); try (inv_ok E; reflexivity). destruct (copy_out _ _ _); try discriminate. cbn [obind] in E. inv_ok E. reflexivity.
  - destruct (rr_args r) as [|a [|? ?]]; try (inv_ok E; reflexivity).
    destruct (region_parse a) as [[[|] [reg|]]| | |]; try discriminate; cbn [obind] in E; try (inv_ok E; reflexivity).
    destruct (region_clone reg); try discriminate. cbn [obind] in E. destruct (copy_properties _ _ _); try discriminate. cbn [obind] in E. exact (IH _ _ _ _ _ _ _ _ E).
  - inv_ok E. reflexivity.
Qed.
Lemma client_wait_stale legacy slack h p code h' : h_terminated h = false -> run_call legacy slack h (CClientWait p) = Ok (code, h') -> h_error h' = h_error h.
Proof.
  intros T E. cbn [run_call] in E. unfold client_wait in E. destruct (h_server h); [discriminate|]. rewrite alive_not, T in E.
  destruct (client_wait_loop _ _ _ _ _) as [[[[code1 h1] l] q]| | |] eqn:E1; try discriminate. cbn [obind] in E. injection E as <- <-. exact (client_wait_loop_error _ _ _ _ _ _ _ _ _ E1).
Qed.

(** ---- Results ---- *)
Lemma send_result legacy slack h c code h' : sends c = true -> drawn c -> run_call legacy slack h c = Ok (code, h') ->
  (code = TRAX_OK /\ h_error h' = false /\ (forall k, ~ must_fail h c k)) \/
  (code = TRAX_ERROR /\ h_error h' = true /\ exists k r, must_fail h c k /\ call_report h c = Some r /\ (~ image_problem k -> error_text r = Ok (complaint_text k))).
Proof. intros S D E. destruct (send_verdict _ _ _ _ _ _ S D E) as [(A & B & _ & C)|X]; [left; now split|right; exact X]. Qed.
Lemma sample_alive : h_terminated sample_client = false /\ h_terminated sample_server = false.
Proof. split; vm_compute; reflexivity. Qed.
Lemma sample_success : exists h', run_call false 0 sample_client (CInitialize sample_images [sample_object] None) = Ok (TRAX_OK, h').
Proof. eexists. vm_compute. reflexivity. Qed.
Lemma send_samples : drawn (CInitialize sample_images [] None) /\ must_fail sample_client (CInitialize sample_images [] None) NoObject /\
  (exists h', run_call false 0 sample_client (CInitialize sample_images [] None) = Ok (TRAX_ERROR, h') /\ h_error h' = true) /\
  drawn (CReplyMot [sample_object]) /\ must_fail sample_server (CReplyMot [sample_object]) WrongCount /\ (forall k, ~ must_fail sample_client (CInitialize sample_images [sample_object] None) k).
Proof.
  split; [exact Logic.I|]. split; [apply f_no_object; apply sample_alive|]. split; [eexists; split; vm_compute; reflexivity|]. split; [apply Forall_cons; [discriminate|apply Forall_nil]|].
  split; [apply f_count; [apply sample_alive|right; reflexivity|vm_compute; discriminate]|].
  destruct sample_success as (h' & E). destruct (send_result false 0%nat sample_client (CInitialize sample_images [sample_object] None) TRAX_OK h' eq_refl Logic.I E) as [(_ & _ & X)|(X & _)]; [exact X|discriminate X].
Qed.
Lemma missing_channel h c id : must_fail h c (NoImage id) -> exists images, call_report h c = missing_report (md_channels (h_meta h)) channel_ids images.
Proof.
  intros K. inversion K as [| | | | |images objects p i T M N|images objects p i T O M N| | |]; subst; exists images; cbn [call_report].
  - unfold frame_report. rewrite alive_not, T. unfold is_version_4. destruct (Z.ltb_spec (h_version h) 4).
    + rewrite (proj2 (Z.leb_gt 4 (h_version h))) by lia. rewrite M. reflexivity.
    + rewrite (proj2 (Z.leb_le 4 (h_version h))) by lia. destruct M as [M|M]; [apply many_multi in M; rewrite M, andb_false_r; reflexivity|].
      rewrite (proj2 (Z.ltb_ge 1 _)) by lia. reflexivity.
  - unfold initialize_report. rewrite alive_not, T. destruct objects as [|o objects]; [congruence|].
    rewrite (proj2 (Z.ltb_ge (Z.of_nat (List.length (o :: objects))) 1)) by (cbn [List.length]; lia).
    assert (Q : multi h = true \/ 1 <? Z.of_nat (List.length (o :: objects)) = false).
    { destruct M as [M|M]; [left; now apply many_multi|right; apply Z.ltb_ge; lia]. }
    destruct Q as [Q|Q]; rewrite Q; cbn [negb andb]; rewrite ?andb_false_r; (destruct (is_version_4 h) eqn:V; [|reflexivity]); unfold frame_report;
      destruct (Z.ltb_spec 0 (h_objects h)) as [P|P];
      rewrite ?alive_not; change (h_terminated (set_objects h 0)) with (h_terminated h); change (is_version_4 (set_objects h 0)) with (is_version_4 h);
      change (multi (set_objects h 0)) with (multi h); change (h_objects (set_objects h 0)) with 0; rewrite ?T, ?V, ?Q; cbn [negb]; rewrite ?andb_false_r; try reflexivity.
    + rewrite Z.add_0_l, Q. reflexivity.
    + apply Z.ltb_ge in Q. rewrite (proj2 (Z.ltb_ge 1 _)) by lia. reflexivity.
Qed.
Lemma missing_undefined channels : forall ids images r, missing_report channels ids images = Some r -> error_text r = UB.
Proof.
  induction ids as [|id ids IH]; intros [|im images] r E; cbn [missing_report] in E; try discriminate. destruct (supports channels id); [|exact (IH _ _ E)].
  destruct im; [exact (IH _ _ E)|]. injection E as <-. apply channel_undefined.
Qed.
Lemma number_texts : (forall h c id r, must_fail h c (NoImage id) -> call_report h c = Some r -> error_text r = UB) /\ (forall a b, error_text (arguments_report a b) = UB) /\
  exists h', run_call false 0 sample_client (CFrame sample_missing None None) = Ok (TRAX_ERROR, h') /\ must_fail sample_client (CFrame sample_missing None None) (NoImage 2).
Proof.
  split; [|split; [exact arguments_undefined|]].
  - intros h c id r K E. destruct (missing_channel h c id K) as (images & X). rewrite X in E. exact (missing_undefined _ _ _ _ E).
  - eexists. split; [vm_compute; reflexivity|]. apply f_image; [apply sample_alive| |].
    + vm_compute. right. discriminate.
    + exists 1%nat. split; [lia|]. split; [reflexivity|]. split; [split; vm_compute; reflexivity|]. intros [|j] J; [|lia]. intros [_ X]. vm_compute in X. discriminate X.
Qed.
Lemma stale_error : (forall legacy slack h p code h', h_terminated h = false -> run_call legacy slack h (CClientWait p) = Ok (code, h') -> h_error h' = h_error h) /\
  exists h', run_calls false 0 sample_client sample_stale = Ok ([TRAX_OK; TRAX_ERROR; TRAX_OK; TRAX_STATE], h') /\ h_error h' = true.
Proof. split; [exact client_wait_stale|]. eexists. split; vm_compute; reflexivity. Qed.
Lemma silent_failures :
  (exists h', run_call false 0 sample_server (CWaitMot 1 None None) = Ok (TRAX_ERROR, h') /\ h_error h' = false) /\
  (exists h', run_call false 0 (set_objects sample_server 1) (CReplyMot [(RPoly [], props_create)]) = Ok (TRAX_ERROR, h') /\ h_error h' = false) /\
  (exists h', run_calls false 0 sample_client sample_end = Ok ([TRAX_OK; TRAX_OK; TRAX_STATE; TRAX_ERROR], h') /\ h_error h' = false).
Proof.
  split; [|split]; eexists; (split; [vm_compute; reflexivity|]); vm_compute; reflexivity.
Qed.
