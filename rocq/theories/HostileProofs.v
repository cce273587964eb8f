(** Proofs for C130. *)
From Verif Require Import CBase StrMap Num NumSpec Props PropsSpec StrMapProofs PropsProofs Message MessageSpec MessageApi Region RegionSpec RegionGeom RegionProofs RegionSafeSpec RegionSafeProofs
  Formats FormatsProofs Image ImageSpec ImageProofs PropsNum Handle SessionSpec HistorySpec HandleProofs SessionProofs HistoryProofs HostileSpec.
Local Open Scope Z_scope.

(** ---- texts of regions ---- *)
Lemma parsed_mask t x y w h data : region_parse t = Ok (true, Some (RMask x y w h data)) ->
  exists d fx fy fw fh runs, splits t (Some Mask) d /\ nonempty_data d /\ all_numbers d /\ numbers d = fx :: fy :: fw :: fh :: runs /\ runs <> [] /\ w = whole fw /\ h = whole fh.
Proof.
  intros E. destruct (splits_total t) as (k & d & Hs). destruct (nonempty_dec d) as [N|N].
  - destruct (parse_start _ _ _ Hs N) as (c & t' & -> & Ep & Es & Le). unfold region_parse in E. rewrite Ep in E. cbv beta iota in E. rewrite Es in E. cbn [obind] in E. cbv zeta in E.
    rewrite length_zero, orb_false_r in E. pose proof (numbers_regular d) as G. destruct (is_valid_sequence (numbers d)) eqn:V; cbn [negb] in E.
    + destruct k as [[]|]; cbn [ptype] in E.
      * destruct (numbers d) as [|a0 [|b0 [|c0 [|x0 [|y0 l]]]]]; discriminate.
      * destruct (Nat.leb 6 (List.length (numbers d)) && Nat.eqb (List.length (numbers d) mod 2) 0); discriminate.
      * destruct (numbers d) as [|fx [|fy [|fw [|fh [|r0 runs]]]]] eqn:En; try discriminate.
        inversion G as [|? ? G1 G']; inversion G' as [|? ? G2 G'']; inversion G'' as [|? ? G3 G3']; inversion G3' as [|? ? G4 G5]; subst.
        destruct (int_of_float fx) as [zx| | |] eqn:Ex; try discriminate. destruct (int_of_float fy) as [zy| | |] eqn:Ey; try discriminate.
        destruct (int_of_float fw) as [zw| | |] eqn:Ew; try discriminate. destruct (int_fits fw zw G3 Ew) as [Fw ->].
        destruct (int_of_float fh) as [zh| | |] eqn:Eh; try discriminate. destruct (int_fits fh zh G4 Eh) as [Fh ->]. cbn [obind] in E.
        unfold int_result in E. destruct (in_int (whole fw * whole fh)); [|discriminate]. cbn [obind] in E.
        destruct (rle_decode (Z.to_nat (whole fw * whole fh)) (skipn 4 (fx :: fy :: fw :: fh :: r0 :: runs)) 0%N) as [l| | |]; try discriminate. cbn [obind] in E.
        exists d, fx, fy, fw, fh, (r0 :: runs). split; [exact Hs|]. split; [exact N|]. split; [unfold all_numbers; rewrite En; now apply valid_iff|]. split; [exact En|]. split; [discriminate|]. injection E as _ _ E3 E4 _. now split.
      * destruct (numbers d) as [|a0 [|b0 l]]; try discriminate. destruct (int_of_float a0); discriminate.
      * rewrite Le in E. destruct (Nat.eqb (n_fields d) 1).
        { destruct (numbers d) as [|a0 [|b0 l]]; try discriminate. destruct (int_of_float a0); discriminate. }
        destruct (Nat.eqb (n_fields d) 4).
        { destruct (numbers d) as [|a0 [|b0 [|c0 [|x0 [|y0 l]]]]]; discriminate. }
        destruct (Nat.leb 6 (n_fields d) && Nat.eqb (n_fields d mod 2) 0); discriminate.
    + destruct (numbers d) as [|d0 [|d1 [|d2 [|d3 [|? ?]]]]]; try discriminate. destruct (is_nan d3); [discriminate|].
      destruct (int_of_float d3) as [z| | |]; try discriminate. cbn [obind] in E. destruct (int_result (- z)); discriminate.
  - destruct t as [|c t].
    + discriminate.
    + unfold region_parse in E. rewrite (splits_parse _ _ _ Hs) in E. cbv beta iota in E. rewrite (sequence_overrun d N) in E. discriminate E.
Qed.
(** A text is dangerous, or rejected, or gives a region that can be cloned. *)
Lemma region_text t : (~ harmless t \/ flat_mask t) \/ region_parse t = Ok (false, None) \/ exists r, region_parse t = Ok (true, Some r) /\ region_clone r = Ok r.
Proof.
  destruct (region_parse t) as [[[] [r|]]| | |] eqn:E.
  - destruct r as [code|x y w h|pts|x y w h data].
    1-3: (right; right; eexists; split; reflexivity).
    pose proof (parsed_mask_full t _ E) as (Hi & Hl).
    destruct (Z.leb_spec w 0) as [Lw|Lw]; [|destruct (Z.leb_spec h 0) as [Lh|Lh]].
    + left. right. destruct (parsed_mask _ _ _ _ _ _ E) as (d & fx & fy & fw & fh & runs & A & A1 & A2 & B & B1 & -> & ->). exists d, fx, fy, fw, fh, runs. refine (conj A (conj A1 (conj A2 (conj B (conj B1 _))))). now left.
    + left. right. destruct (parsed_mask _ _ _ _ _ _ E) as (d & fx & fy & fw & fh & runs & A & A1 & A2 & B & B1 & -> & ->). exists d, fx, fy, fw, fh, runs. refine (conj A (conj A1 (conj A2 (conj B (conj B1 _))))). now right.
    + right. right. eexists. split; [reflexivity|]. unfold region_clone. cbn [type_of convert]. unfold create_mask, int_result. rewrite Hi.
      replace ((0 <? w) && (0 <? h)) with true by lia. cbn [obind]. rewrite Hl, Nat.leb_refl. cbn [obind]. do 2 f_equal. rewrite <- Hl. apply firstn_all.
  - left. left. intros H. apply safe_iff in H as (ok & r & E' & O). rewrite E in E'. injection E' as <- <-. destruct O as [O _]. exfalso. now apply O.
  - left. left. intros H. apply safe_iff in H as (ok & r' & E' & O). rewrite E in E'. injection E' as <- <-. destruct O as [_ O]. discriminate O. discriminate.
  - right. now left.
  - left. left. intros H. apply safe_iff in H as (ok & r' & E' & O). congruence.
  - left. left. intros H. apply safe_iff in H as (ok & r' & E' & O). congruence.
  - left. left. intros H. apply safe_iff in H as (ok & r' & E' & O). congruence.
Qed.
Lemma region_text' t : ~ harmless t \/ exists ok r, region_parse t = Ok (ok, r).
Proof.
  destruct (region_parse t) as [[ok r]| | |] eqn:E; [right; now exists ok, r| | |]; left; intros H; apply safe_iff in H as (ok & r & E' & _); congruence.
Qed.

(** ---- texts of images ---- *)
Lemma begins_with (a t : list N) : (exists r, t = a ++ r) \/ (forall r, t <> a ++ r).
Proof.
  revert t. induction a as [|x a IH]; intros t; [left; now exists t|]. destruct t as [|y t]; [right; discriminate|].
  destruct (N.eq_dec x y) as [->|Ne]; [|right; intros r E; injection E as E _; congruence].
  destruct (IH t) as [(r & ->)|H]; [left; now exists r|]. right. intros r E. injection E as E. exact (H r E).
Qed.
Definition irregular (b : list N) : Prop := b = [] \/ (List.length b mod 4 <> 0)%nat.
Lemma irregular_dec b : irregular b \/ ((List.length b mod 4 = 0)%nat /\ b <> []).
Proof.
  destruct b as [|x b]; [left; now left|]. destruct (Nat.eq_dec (List.length (x :: b) mod 4) 0) as [E|E]; [right; split; [exact E|discriminate]|left; now right].
Qed.
Lemma data_part (l : list N) : (exists t b, l = t ++ str ";" ++ b /\ irregular b) \/ (forall t b, l = t ++ str ";" ++ b -> (List.length b mod 4 = 0)%nat /\ b <> []).
Proof.
  change (str ";") with [59%N]. induction l as [|x l IH]; [right; intros [|]; discriminate|].
  destruct IH as [(t & b & -> & H)|IH]; [left; exists (x :: t), b; now split|].
  destruct (N.eq_dec x 59) as [->|Ne].
  - destruct (irregular_dec l) as [H|H]; [left; exists [], l; now split|]. right. intros [|y t] b E; [injection E as <-; exact H|]. injection E as _ E. exact (IH t b E).
  - right. intros [|y t] b E; [injection E as E _; congruence|]. injection E as _ E. exact (IH t b E).
Qed.
Lemma image_text slack t : no_nul t -> dangerous_image t \/ exists r, image_decode slack t = Ok r.
Proof.
  intros N0. destruct (begins_with (str "image:") t) as [H|H]; [left; now left|].
  destruct (begins_with (str "data:") t) as [(l & E)|H'].
  - destruct (data_part l) as [(ty & b & E' & Hi)|H']; [left; right; exists ty, b; split; [congruence|exact Hi]|].
    right. apply decode_safe; [exact N0|exact H|]. intros ty b E'. apply (H' ty b). rewrite E in E'. exact (app_inv_head _ _ _ E').
  - right. apply decode_safe; [exact N0|exact H|]. intros ty b E'. exfalso. exact (H' (ty ++ str ";" ++ b) E').
Qed.
Lemma images_text slack formats channels ids : forall args, Forall no_nul args -> (List.length (filter (supports channels) ids) <= List.length args)%nat ->
  (exists a, In a args /\ dangerous_image a) \/ exists ims, decode_images slack channels formats ids args = Ok ims.
Proof.
  induction ids as [|id ids IH]; intros args F L; cbn [decode_images filter] in *; [right; now eexists|]. destruct (supports channels id).
  - destruct args as [|a args]; [cbn [List.length] in L; lia|]. cbn [List.length] in L. inversion F as [|? ? Fa Fr]; subst.
    destruct (image_text slack a Fa) as [D|(r & ->)]; [left; exists a; split; [now left|exact D]|]. cbn [obind]. destruct r as [im|]; [|right; now eexists].
    destruct (supports formats (i_type im)); [|right; now eexists].
    destruct (IH args Fr ltac:(lia)) as [(b & Ib & D)|(ims & ->)]; [left; exists b; split; [now right|exact D]|]. right. now eexists.
  - destruct (IH args F L) as [D|(ims & ->)]; [now left|]. right. now eexists.
Qed.

(** ---- messages ---- *)
Lemma c_string_no_nul l : no_nul (c_string l).
Proof.
  unfold no_nul. induction l as [|x l IH]; cbn [c_string]; [intros []|]. destruct (N.eqb_spec x 0) as [->|Ne]; [intros []|]. intros [E|H]; [congruence|exact (IH H)].
Qed.
Lemma step_args s c : Forall no_nul (rd_args s) -> Forall no_nul (rd_args (step s c)).
Proof.
  intros F. assert (A : forall s', rd_args s' = rd_args s -> Forall no_nul (rd_args (append_arg s'))).
  { intros s' E. cbn [append_arg rd_args]. rewrite E. apply Forall_app. split; [exact F|]. constructor; [apply c_string_no_nul|constructor]. }
  unfold step. destruct (rd_state s); repeat match goal with |- context [if ?b then _ else _] => destruct b end;
    repeat match goal with |- context [match ?b with None => _ | Some _ => _ end] => destruct b end; first [exact F|exact (A s eq_refl)].
Qed.
Lemma loop_args fuel : forall st s log s' st' log', Forall no_nul (rd_args s) -> read_loop fuel st s log = Ok (s', st', log') -> Forall no_nul (rd_args s').
Proof.
  induction fuel as [|fuel IH]; intros st s log s' st' log' F E; cbn [read_loop] in E.
  - destruct (rd_complete s); [now injection E as <- _ _|discriminate].
  - destruct (rd_complete s); [now injection E as <- _ _|]. destruct (read_char st) as [[c|] st1].
    + eapply IH; [|exact E]. now apply step_args.
    + destruct (rd_type s); [|now injection E as <- _ _]. eapply IH; [|exact E]. now apply step_args.
Qed.
Lemma read_any t st : exists r, read_message t st props_create = Ok r /\ Forall no_nul (rr_args r) /\ made (rr_props r).
Proof.
  destruct (read_total t st []) as (p & r & c & E & Er & _). change (Ok props_create = Ok p) in E. assert (Hp : p = props_create) by congruence. subst p. exists r. split; [exact Er|].
  unfold read_message in Er. destruct (read_loop (S (S (stream_size st))) st (reader_start t) []) as [[[s st'] log]| | |] eqn:El; try discriminate. cbn [obind] in Er.
  pose proof (fun X => loop_args _ _ _ _ _ _ _ X El) as F. specialize (F ltac:(apply Forall_nil)).
  destruct (enum_into props_set (rd_sets s) props_create) as [p'| | |] eqn:Ep; try discriminate. cbn [obind] in Er.
  assert (Hr : r = mkRead (rd_type s) (rd_args s) p' st' log) by congruence. subst r. split; [exact F|]. exact (run_sets _ [] props_create p' eq_refl Ep).
Qed.

Lemma handle_read_any h : exists r, handle_read h = Ok (r, with_in h (rr_type r) (rr_stream r)) /\ read_message (h_type h) (h_in h) props_create = Ok r /\ Forall no_nul (rr_args r) /\ made (rr_props r).
Proof. destruct (read_any (h_type h) (h_in h)) as (r & E & F & M). exists r. unfold handle_read. rewrite E. now split. Qed.
Lemma incoming_first h r : read_message (h_type h) (h_in h) props_create = Ok r -> incoming h r.
Proof. intros E. exists 1%nat. cbn [read_many]. rewrite E. cbn [obind read_many fst snd]. eexists _, _. split; [reflexivity|now left]. Qed.
Lemma incoming_later h r h' r' : read_message (h_type h) (h_in h) props_create = Ok r -> h_type h' = rr_type r -> h_in h' = rr_stream r -> incoming h' r' -> incoming h r'.
Proof.
  intros E T I0 (n & rs & st & En & Hi). rewrite T, I0 in En. exists (S n), (r :: rs), st. cbn [read_many]. rewrite E. cbn [obind]. rewrite En. cbn [obind fst snd]. split; [reflexivity|now right].
Qed.
Lemma copy_usable src p flags : made src -> usable p -> flags = ALL_OVERWRITE \/ flags = EXTERNAL_OVERWRITE -> exists p', copy_out src p flags = Ok p'.
Proof.
  intros M U F. unfold copy_out. destruct p as [p|]; [|now eexists]. cbn [usable] in U. destruct F as [->| ->].
  - destruct (copy_all_spec ALL_OVERWRITE src p (made_ok _ M) (made_ok _ U) ltac:(now right)) as (q & -> & _). now eexists.
  - destruct (copy_external_spec src p (made_ok _ M) (made_ok _ U)) as (q & E & _). unfold EXTERNAL_OVERWRITE. rewrite E. now eexists.
Qed.

(** ---- the client waits ---- *)
Lemma client_loop_any n : forall h acc p result, usable p ->
  (exists res, client_wait_loop n h acc p result = Ok res) \/ exists r, incoming h r /\ dangerous_object MState r.
Proof.
  induction n as [|n IH]; intros h acc p result U; cbn [client_wait_loop]; [left; now eexists|].
  destruct (handle_read_any h) as (r & E & Er & F & M). rewrite E. cbn [obind].
  assert (Next : forall h' acc' result', h_type h' = rr_type r -> h_in h' = rr_stream r ->
    (exists res, client_wait_loop n h' acc' p result' = Ok res) \/ exists r', incoming h r' /\ dangerous_object MState r').
  { intros h' acc' result' T I0. destruct (IH h' acc' p result' U) as [H|(r' & I1 & D)]; [now left|]. right. exists r'. split; [exact (incoming_later h r h' r' Er T I0 I1)|exact D]. }
  destruct (rr_type r) as [[]|] eqn:Et.
  - apply Next; reflexivity.
  - apply Next; reflexivity.
  - apply Next; reflexivity.
  - destruct (rr_args r) as [|? ?]; [|left; now eexists]. destruct (copy_usable (rr_props r) p ALL_OVERWRITE M U (or_introl eq_refl)) as (p' & ->). cbn [obind]. left. now eexists.
  - destruct (rr_args r) as [|a [|b l]] eqn:Ea; [left; now eexists| |left; now eexists].
    destruct (region_text a) as [D|[Ep|(reg & Ep & Ec)]].
    + right. exists r. split; [exact (incoming_first h r Er)|]. split; [exact Et|]. exists a. now split.
    + rewrite Ep. cbn [obind]. left. now eexists.
    + rewrite Ep. cbn [obind]. rewrite Ec. cbn [obind]. destruct (copy_new (rr_props r) ALL_OVERWRITE M ltac:(now right)) as (d & -> & _). cbn [obind]. apply Next; reflexivity.
  - left. now eexists.
Qed.
Lemma client_any h p : h_server h = false -> usable p -> (exists res, client_wait h p = Ok res) \/ exists r, incoming h r /\ dangerous_object MState r.
Proof. intros S0 U. unfold client_wait. rewrite S0. destruct (negb (alive h)); [left; now eexists|]. now apply client_loop_any. Qed.

(** ---- a server waits ---- *)
Lemma sot_any slack h images reg p : h_server h = true -> 1 <= md_channels (h_meta h) <= 7 -> usable p ->
  (exists res, server_wait_sot slack h images reg p = Ok res) \/ exists r t, incoming h r /\ dangerous_request t r.
Proof.
  intros S0 Ch U. unfold server_wait_sot. rewrite S0. cbn [negb]. cbv zeta. destruct (negb (alive (clear_error h))); [left; now eexists|].
  destruct (is_version_4 (clear_error h)); [left; now eexists|]. change (h_meta (clear_error h)) with (h_meta h). rewrite (count_channels _ Ch). cbn [obind].
  destruct (handle_read_any (clear_error h)) as (r & E & Er & F & M). rewrite E. cbn [obind]. change (h_meta (with_in (clear_error h) (rr_type r) (rr_stream r))) with (h_meta h).
  assert (Ir : incoming h r) by exact (incoming_first h r Er). set (k := List.length (filter (supports (md_channels (h_meta h))) channel_ids)).
  destruct (rr_type r) as [[]|] eqn:Et; try (left; now eexists).
  - destruct (Z.eqb_spec (Z.of_nat (List.length (rr_args r))) (Z.of_nat k + 1)) as [L|L]; cbn [negb]; [|left; now eexists].
    destruct (images_text slack (md_image (h_meta h)) (md_channels (h_meta h)) channel_ids (rr_args r) F) as [D|(ims & Ei)]; [fold k; lia|right; exists r, MInitialize; split; [exact Ir|]; split; [exact Et|now left]|].
    rewrite Ei. cbn [obind]. destruct ims as [ims|]; [|left; now eexists].
    destruct (nth_error (rr_args r) k) as [a|] eqn:En; [|apply nth_error_None in En; lia].
    destruct (region_text' a) as [D|(ok & rg & Ep)].
    { right. exists r, MInitialize. split; [exact Ir|]. split; [exact Et|]. right. split; [reflexivity|]. exists a. split; [exact (nth_error_In _ _ En)|exact D]. }
    rewrite Ep. cbn [obind]. destruct ok; [|left; now eexists]. destruct (copy_usable (rr_props r) p ALL_OVERWRITE M U (or_introl eq_refl)) as (p' & ->). cbn [obind]. left. now eexists.
  - destruct (Z.eqb_spec (Z.of_nat (List.length (rr_args r))) (Z.of_nat k)) as [L|L]; cbn [negb]; [|left; now eexists].
    destruct (images_text slack (md_image (h_meta h)) (md_channels (h_meta h)) channel_ids (rr_args r) F) as [D|(ims & Ei)]; [fold k; lia|right; exists r, MFrame; split; [exact Ir|]; split; [exact Et|now left]|].
    rewrite Ei. cbn [obind]. destruct ims as [ims|]; [|left; now eexists]. destruct (copy_usable (rr_props r) p ALL_OVERWRITE M U (or_introl eq_refl)) as (p' & ->). cbn [obind]. left. now eexists.
  - destruct (negb (Z.of_nat (List.length (rr_args r)) =? 0)); [left; now eexists|]. destruct (copy_usable (rr_props r) p ALL_OVERWRITE M U (or_introl eq_refl)) as (p' & ->). cbn [obind]. left. now eexists.
Qed.

Definition good_object (o : option region * props) : Prop := (exists r, fst o = Some r /\ region_clone r = Ok r) /\ made (snd o).
Lemma failure_any h objs p : Forall good_object objs -> exists res, mot_failure h objs p = Ok res.
Proof.
  intros G. unfold mot_failure. replace (existsb _ objs) with false; [now eexists|]. symmetry. induction G as [|[r d] l ((x & E & _) & _) _ IH]; [reflexivity|]. cbn [fst] in E. subst r. exact IH.
Qed.
Lemma end_any result h images objs p : Forall good_object objs -> exists res, mot_end result h images objs p = Ok res.
Proof.
  intros G. assert (H : exists l, mot_objects objs = Ok l).
  { induction G as [|[r d] l ((x & E & C) & M) _ (l' & IH)]; [now eexists|]. cbn [fst snd] in *. subst r. cbn [mot_objects]. rewrite C. cbn [obind].
    destruct (copy_new d ALL_OVERWRITE M ltac:(now right)) as (d' & -> & _). cbn [obind]. rewrite IH. now eexists. }
  destruct H as (l & H). unfold mot_end. destruct objs; [now eexists|]. rewrite H. now eexists.
Qed.
Lemma mot_loop_any slack fuel : forall h images result objs p, 1 <= md_channels (h_meta h) <= 7 -> usable p -> Forall good_object objs ->
  (exists res, wait_mot_loop fuel slack (Z.of_nat (List.length (filter (supports (md_channels (h_meta h))) channel_ids))) h images result objs p = Ok res) \/
  wait_mot_loop fuel slack (Z.of_nat (List.length (filter (supports (md_channels (h_meta h))) channel_ids))) h images result objs p = NoFuel \/
  exists r, incoming h r /\ (dangerous_object MInitialize r \/ dangerous_request MFrame r).
Proof.
  induction fuel as [|fuel IH]; intros h images result objs p Ch U G; cbn [wait_mot_loop]; [right; now left|].
  destruct (handle_read_any h) as (r & E & Er & F & M). rewrite E. cbn [obind]. change (h_meta (with_in h (rr_type r) (rr_stream r))) with (h_meta h).
  assert (Ir : incoming h r) by exact (incoming_first h r Er). set (k := List.length (filter (supports (md_channels (h_meta h))) channel_ids)) in *.
  assert (Fa : forall h', exists res, mot_failure h' objs p = Ok res) by (intros h'; now apply failure_any).
  assert (Next : forall h' result' objs', h_meta h' = h_meta h -> h_type h' = rr_type r -> h_in h' = rr_stream r -> Forall good_object objs' ->
    (exists res, wait_mot_loop fuel slack (Z.of_nat k) h' images result' objs' p = Ok res) \/ wait_mot_loop fuel slack (Z.of_nat k) h' images result' objs' p = NoFuel \/
    exists r', incoming h r' /\ (dangerous_object MInitialize r' \/ dangerous_request MFrame r')).
  { intros h' result' objs' Hm T I0 G'. specialize (IH h' images result' objs' p). rewrite Hm in IH. fold k in IH. destruct (IH Ch U G') as [H|[H|(r' & I1 & D)]]; [now left|right; now left|].
    right. right. exists r'. split; [exact (incoming_later h r h' r' Er T I0 I1)|exact D]. }
  destruct (rr_type r) as [[]|] eqn:Et.
  - apply Next; [reflexivity|reflexivity|reflexivity|exact G].
  - destruct (rr_args r) as [|a [|b l]] eqn:Ea.
    + apply Next; [reflexivity|reflexivity|reflexivity|exact G].
    + destruct (region_text a) as [D|[Ep|(reg & Ep & Ec)]].
      * right. right. exists r. split; [exact Ir|]. left. split; [exact Et|]. exists a. now split.
      * rewrite Ep. cbn [obind]. left. apply Fa.
      * rewrite Ep. cbn [obind]. destruct (copy_new (rr_props r) ALL_OVERWRITE M ltac:(now right)) as (d & -> & _ & Md). cbn [obind].
        apply Next; [reflexivity|reflexivity|reflexivity|]. apply Forall_app. split; [exact G|]. constructor; [|constructor]. split; [exists reg; now split|exact Md].
    + left. apply Fa.
  - destruct ((result =? TRAX_INITIALIZE) && Nat.eqb (List.length objs) 0); [left; apply Fa|].
    destruct (Z.eqb_spec (Z.of_nat (List.length (rr_args r))) (Z.of_nat k)) as [L|L]; cbn [negb]; [|left; apply Fa].
    destruct (images_text slack (md_image (h_meta h)) (md_channels (h_meta h)) channel_ids (rr_args r) F) as [D|(ims & Ei)]; [fold k; lia|right; right; exists r; split; [exact Ir|]; right; split; [exact Et|now left]|].
    rewrite Ei. cbn [obind]. destruct ims as [ims|]; [|left; apply Fa]. destruct (copy_usable (rr_props r) p ALL_OVERWRITE M U (or_introl eq_refl)) as (p' & ->). cbn [obind]. left. now apply end_any.
  - destruct (negb (Z.of_nat (List.length (rr_args r)) =? 0)); [left; apply Fa|]. destruct (copy_usable (rr_props r) p EXTERNAL_OVERWRITE M U (or_intror eq_refl)) as (p' & ->). cbn [obind]. left. now apply end_any.
  - apply Next; [reflexivity|reflexivity|reflexivity|exact G].
  - left. apply Fa.
Qed.
Lemma mot_any fuel slack h images p : h_server h = true -> 1 <= md_channels (h_meta h) <= 7 -> usable p ->
  (exists res, server_wait_mot fuel slack h images p = Ok res) \/ server_wait_mot fuel slack h images p = NoFuel \/
  exists r, incoming h r /\ (dangerous_object MInitialize r \/ dangerous_request MFrame r).
Proof.
  intros S0 Ch U. unfold server_wait_mot. rewrite S0. cbn [negb]. cbv zeta. destruct (negb (alive (clear_error h))); [left; now eexists|].
  change (h_meta (clear_error h)) with (h_meta h). rewrite (count_channels _ Ch). cbn [obind]. exact (mot_loop_any slack fuel (clear_error h) images TRAX_ERROR [] p Ch U (Forall_nil _)).
Qed.

(** ---- a server that waits for ever ---- *)
Lemma read_char_less st v st' : read_char st = (v, st') -> (st_buf st = [] /\ st_script st = []) \/ (stream_size st' < stream_size st)%nat.
Proof.
  destruct st as [[|c b] [|[|x ch] sc]]; unfold read_char, stream_size; cbn [st_buf st_script]; intros E; injection E as _ <-; cbn [st_buf st_script script_size fold_right List.length];
    first [left; split; reflexivity|right; lia].
Qed.
Lemma loop_size fuel : forall st s log s' st' log', read_loop fuel st s log = Ok (s', st', log') -> (stream_size st' <= stream_size st)%nat.
Proof.
  induction fuel as [|fuel IH]; intros st s log s' st' log' E; cbn [read_loop] in E.
  - destruct (rd_complete s); [injection E as _ <- _; lia|discriminate].
  - destruct (rd_complete s); [injection E as _ <- _; lia|]. destruct (read_char st) as [v st1] eqn:Er. pose proof (proj2 (read_char_any _ _ _ Er)) as L.
    destruct v as [c|]; [specialize (IH _ _ _ _ _ _ E); lia|]. destruct (rd_type s); [specialize (IH _ _ _ _ _ _ E); lia|injection E as _ <- _; lia].
Qed.
Lemma read_less t st r : read_message t st props_create = Ok r -> (st_buf st = [] /\ st_script st = []) \/ (stream_size (rr_stream r) < stream_size st)%nat.
Proof.
  unfold read_message. intros E. destruct (read_loop (S (S (stream_size st))) st (reader_start t) []) as [[[s st'] log]| | |] eqn:El; try discriminate. cbn [obind] in E.
  destruct (enum_into props_set (rd_sets s) props_create) as [p'| | |]; try discriminate. cbn [obind] in E. assert (Hr : rr_stream r = st') by (injection E as <-; reflexivity). rewrite Hr. clear E Hr r p'.
  remember (S (stream_size st)) as fuel. cbn [read_loop] in El. change (rd_complete (reader_start t)) with false in El. cbv iota in El. change (rd_type (reader_start t)) with t in El. destruct (read_char st) as [v st1] eqn:Er.
  destruct (read_char_less _ _ _ Er) as [H|L]; [now left|]. right. destruct v as [c|]; [pose proof (loop_size _ _ _ _ _ _ _ El); lia|].
  destruct t; [pose proof (loop_size _ _ _ _ _ _ _ El); lia|injection El as _ <- _; lia].
Qed.
Lemma mot_stuck fuel slack argc : forall h images result objs p, at_end h -> passed_over (h_type h) -> wait_mot_loop fuel slack argc h images result objs p = NoFuel.
Proof.
  induction fuel as [|fuel IH]; intros h images result objs p He Ht; [reflexivity|]. cbn [wait_mot_loop].
  destruct (read_at_end h He) as (r & -> & Er & Ea). cbn [obind]. rewrite Er, Ea. destruct Ht as [Ht|[Ht|Ht]]; rewrite Ht; (apply IH; [exact He|]); [now left|right; now left|right; now right].
Qed.
Lemma stuck_now h : at_end h -> passed_over (h_type h) -> stuck h.
Proof. intros [B C] P. exists 0%nat, [], (h_type h), (h_in h). split; [reflexivity|]. split; [reflexivity|]. split; [exact P|]. unfold stream_bytes. now rewrite B, C. Qed.
Lemma last_shift {A} (l : list A) : forall x d, last (x :: l) d = last l x.
Proof.
  induction l as [|y l IH]; intros x d; [reflexivity|]. change (last (y :: l) d = last (y :: l) x). now rewrite !IH.
Qed.
Lemma stuck_later h r h' : read_message (h_type h) (h_in h) props_create = Ok r -> h_type h' = rr_type r -> h_in h' = rr_stream r -> stuck h' -> stuck h.
Proof.
  intros E T I0 (n & rs & t & st & En & Et & P & B). rewrite T, I0 in En. exists (S n), (r :: rs), t, st. cbn [read_many]. rewrite E. cbn [obind]. rewrite En. cbn [obind fst snd]. split; [reflexivity|].
  split; [|split; [exact P|exact B]]. cbn [map]. rewrite last_shift, <- T. exact Et.
Qed.
(** The body of the loop, after the read *)
Definition mot_body (fuel' slack : nat) (argument_count : Z) (r : read_result) (h' : handle) (images : option image_list) (result : Z)
    (objs : list (option region * props)) (p : option props) : outcome mot_result :=
      let args := rr_args r in
      let n := Z.of_nat (List.length args) in
      match rr_type r with
      | None => mot_failure h' objs p
      | Some MQuit =>
          if negb (n =? 0) then mot_failure (set_error h') objs p
          else p' <- copy_out (rr_props r) p EXTERNAL_OVERWRITE ;; mot_end TRAX_QUIT (terminated h') images objs p'
      | Some MFrame =>
          if (result =? TRAX_INITIALIZE) && (Nat.eqb (List.length objs) 0) then mot_failure (set_error h') objs p
          else
            let result' := if negb (result =? TRAX_INITIALIZE) || (0 <? h_objects h') then TRAX_FRAME else result in
            if negb (n =? argument_count) then mot_failure (set_error h') objs p
            else
              ims <- decode_images slack (md_channels (h_meta h')) (md_image (h_meta h')) channel_ids args ;;
              match ims with
              | None => mot_failure h' objs p
              | Some ims => p' <- copy_out (rr_props r) p ALL_OVERWRITE ;; mot_end result' h' (Some ims) objs p'
              end
      | Some MInitialize =>
          match args with
          | [] => wait_mot_loop fuel' slack argument_count (set_objects h' 0) images TRAX_INITIALIZE objs p
          | [a] =>
              pr <- region_parse a ;;
              match pr with
              | (false, _) => mot_failure h' objs p
              | (true, reg) =>
                  d <- copy_properties (rr_props r) props_create ALL_OVERWRITE ;;
                  wait_mot_loop fuel' slack argument_count h' images TRAX_INITIALIZE (objs ++ [(reg, d)]) p
              end
          | _ => mot_failure (set_error h') objs p
          end
      | Some _ => wait_mot_loop fuel' slack argument_count h' images result objs p
      end.
Lemma mot_step slack h images result objs p : 1 <= md_channels (h_meta h) <= 7 -> usable p -> Forall good_object objs ->
  let argc := Z.of_nat (List.length (filter (supports (md_channels (h_meta h))) channel_ids)) in
  exists r, read_message (h_type h) (h_in h) props_create = Ok r /\
  ((exists res, forall fuel, wait_mot_loop (S fuel) slack argc h images result objs p = Ok res) \/
   (dangerous_object MInitialize r \/ dangerous_request MFrame r) \/
   exists h' result' objs', (forall fuel, wait_mot_loop (S fuel) slack argc h images result objs p = wait_mot_loop fuel slack argc h' images result' objs' p) /\
     h_meta h' = h_meta h /\ h_type h' = rr_type r /\ h_in h' = rr_stream r /\ Forall good_object objs' /\ passed_over (rr_type r)).
Proof.
  intros Ch U G. cbv zeta. set (k := List.length (filter (supports (md_channels (h_meta h))) channel_ids)).
  destruct (handle_read_any h) as (r & E & Er & F & M). exists r. split; [exact Er|].
  assert (Fa : forall h', exists res, mot_failure h' objs p = Ok res) by (intros h'; now apply failure_any).
  assert (Un : forall fuel, wait_mot_loop (S fuel) slack (Z.of_nat k) h images result objs p = mot_body fuel slack (Z.of_nat k) r (with_in h (rr_type r) (rr_stream r)) images result objs p).
  { intros fuel. cbn [wait_mot_loop]. rewrite E. reflexivity. }
  unfold mot_body in Un. change (h_meta (with_in h (rr_type r) (rr_stream r))) with (h_meta h) in Un.
  set (h1 := with_in h (rr_type r) (rr_stream r)) in *.
  assert (T1 : h_type h1 = rr_type r) by reflexivity. assert (I1 : h_in h1 = rr_stream r) by reflexivity. assert (M1 : h_meta h1 = h_meta h) by reflexivity.
  destruct (rr_type r) as [[]|] eqn:Et.
  - right. right. exists h1, result, objs. split; [exact Un|]. refine (conj M1 (conj T1 (conj I1 (conj G _)))). right; now left.
  - destruct (rr_args r) as [|a [|b l]] eqn:Ea.
    + right. right. exists (set_objects h1 0), TRAX_INITIALIZE, objs. split; [exact Un|]. refine (conj M1 (conj T1 (conj I1 (conj G _)))). now left.
    + destruct (region_text a) as [D|[Ep|(reg & Ep & Ec)]].
      * right. left. left. split; [exact Et|]. exists a. now split.
      * rewrite Ep in Un. cbn [obind] in Un. left. destruct (Fa h1) as (res & X). exists res. intros fuel. rewrite Un. exact X.
      * rewrite Ep in Un. cbn [obind] in Un. destruct (copy_new (rr_props r) ALL_OVERWRITE M ltac:(now right)) as (d & Ed & _ & Md). rewrite Ed in Un. cbn [obind] in Un.
        right. right. exists h1, TRAX_INITIALIZE, (objs ++ [(Some reg, d)]). split; [exact Un|]. refine (conj M1 (conj T1 (conj I1 (conj _ _)))); [|now left].
        apply Forall_app. split; [exact G|]. constructor; [|constructor]. split; [exists reg; now split|exact Md].
    + left. destruct (Fa (set_error h1)) as (res & X). exists res. intros fuel. rewrite Un. exact X.
  - destruct ((result =? TRAX_INITIALIZE) && Nat.eqb (List.length objs) 0).
    { left. destruct (Fa (set_error h1)) as (res & X). exists res. intros fuel. rewrite Un. exact X. }
    destruct (Z.eqb_spec (Z.of_nat (List.length (rr_args r))) (Z.of_nat k)) as [L|L]; cbn [negb] in Un.
    2:{ left. destruct (Fa (set_error h1)) as (res & X). exists res. intros fuel. rewrite Un. exact X. }
    destruct (images_text slack (md_image (h_meta h)) (md_channels (h_meta h)) channel_ids (rr_args r) F) as [D|(ims & Ei)]; [fold k; lia|right; left; right; split; [exact Et|now left]|].
    rewrite Ei in Un. cbn [obind] in Un. left. destruct ims as [ims|].
    2:{ destruct (Fa h1) as (res & X). exists res. intros fuel. rewrite Un. exact X. }
    destruct (copy_usable (rr_props r) p ALL_OVERWRITE M U (or_introl eq_refl)) as (p' & Ec). rewrite Ec in Un. cbn [obind] in Un.
    match type of Un with forall _, _ = mot_end ?a ?b ?c _ _ => destruct (end_any a b c objs p' G) as (res & X) end. exists res. intros fuel. rewrite Un. exact X.
  - left. destruct (negb (Z.of_nat (List.length (rr_args r)) =? 0)).
    { destruct (Fa (set_error h1)) as (res & X). exists res. intros fuel. rewrite Un. exact X. }
    destruct (copy_usable (rr_props r) p EXTERNAL_OVERWRITE M U (or_intror eq_refl)) as (p' & Ec). rewrite Ec in Un. cbn [obind] in Un.
    destruct (end_any TRAX_QUIT (terminated h1) images objs p' G) as (res & X). exists res. intros fuel. rewrite Un. exact X.
  - right. right. exists h1, result, objs. split; [exact Un|]. refine (conj M1 (conj T1 (conj I1 (conj G _)))). right; now right.
  - left. destruct (Fa h1) as (res & X). exists res. intros fuel. rewrite Un. exact X.
Qed.
Lemma mot_fate slack size : forall h images result objs p, (stream_size (h_in h) < size)%nat -> 1 <= md_channels (h_meta h) <= 7 -> usable p -> Forall good_object objs ->
  let argc := Z.of_nat (List.length (filter (supports (md_channels (h_meta h))) channel_ids)) in
  (exists n res, forall fuel, (n <= fuel)%nat -> wait_mot_loop fuel slack argc h images result objs p = Ok res) \/
  (exists r, incoming h r /\ (dangerous_object MInitialize r \/ dangerous_request MFrame r)) \/
  ((forall fuel, wait_mot_loop fuel slack argc h images result objs p = NoFuel) /\ stuck h).
Proof.
  induction size as [|size IH]; intros h images result objs p L Ch U G; [lia|]. cbv zeta.
  destruct (mot_step slack h images result objs p Ch U G) as (r & Er & [(res & X)|[D|(h' & result' & objs' & X & Hm & Ht & Hi & G' & P)]]).
  - left. exists 1%nat, res. intros [|fuel] Lf; [lia|]. apply X.
  - right. left. exists r. split; [exact (incoming_first h r Er)|exact D].
  - destruct (read_less _ _ _ Er) as [[B C]|Ls].
    + assert (He : at_end h) by now split. destruct (read_at_end h He) as (r' & E' & T' & _). unfold handle_read in E'. rewrite Er in E'. cbn [obind] in E'.
      assert (Er' : r' = r) by (injection E' as E' _; now symmetry). subst r'. rewrite T' in P. right. right. split; [intros fuel; now apply mot_stuck|now apply stuck_now].
    + specialize (IH h' images result' objs' p). rewrite Hm, Hi in IH. cbv zeta in IH. destruct (IH ltac:(lia) Ch U G') as [(n & res & Y)|[(r' & I1 & D)|(Y & S1)]].
      * left. exists (S n), res. intros [|fuel] Lf; [lia|]. rewrite X. apply Y. lia.
      * right. left. exists r'. split; [exact (incoming_later h r h' r' Er Ht Hi I1)|exact D].
      * right. right. split; [|exact (stuck_later h r h' Er Ht Hi S1)]. intros [|fuel]; [reflexivity|]. rewrite X. apply Y.
Qed.
Lemma mot_finally slack h images p : h_server h = true -> 1 <= md_channels (h_meta h) <= 7 -> usable p ->
  (exists n res, forall fuel, (n <= fuel)%nat -> server_wait_mot fuel slack h images p = Ok res) \/
  (exists r, incoming h r /\ (dangerous_object MInitialize r \/ dangerous_request MFrame r)) \/
  ((forall fuel, server_wait_mot fuel slack h images p = NoFuel) /\ stuck h).
Proof.
  intros S0 Ch U. destruct (alive h) eqn:A.
  - assert (X : forall fuel, server_wait_mot fuel slack h images p = wait_mot_loop fuel slack (Z.of_nat (List.length (filter (supports (md_channels (h_meta h))) channel_ids))) (clear_error h) images TRAX_ERROR [] p).
    { intros fuel. unfold server_wait_mot. rewrite S0. cbn [negb]. cbv zeta. change (alive (clear_error h)) with (alive h). rewrite A. cbn [negb].
      change (h_meta (clear_error h)) with (h_meta h). rewrite (count_channels _ Ch). reflexivity. }
    destruct (mot_fate slack (S (stream_size (h_in h))) (clear_error h) images TRAX_ERROR [] p ltac:(apply Nat.lt_succ_diag_r) Ch U (Forall_nil _)) as [(n & res & Y)|[D|(Y & S1)]].
    + left. exists n, res. intros fuel L. rewrite X. now apply Y.
    + right. now left.
    + right. right. split; [|exact S1]. intros fuel. rewrite X. apply Y.
  - left. exists 0%nat. eexists. intros fuel _. unfold server_wait_mot. rewrite S0. cbn [negb]. cbv zeta. change (alive (clear_error h)) with (alive h). rewrite A. reflexivity.
Qed.

(** ---- a client connects ---- *)
Lemma truncated_same m e : trunc_pos (Z.pos m) e = truncated m e.
Proof.
  unfold trunc_pos, truncated. destruct (Z.leb_spec 0 e).
  - rewrite Z.max_r, Z.max_l by lia. rewrite Z.pow_0_r, Z.div_1_r. reflexivity.
  - rewrite Z.max_l, Z.max_r by lia. rewrite Z.pow_0_r, Z.mul_1_r. reflexivity.
Qed.
Lemma cast_any d : beyond_int d \/ exists z, int_of_float d = Ok z.
Proof.
  destruct d as [s|s| |s m e]; cbn [beyond_int int_of_float]; try (left; exact Logic.I); [right; now eexists|]. cbv zeta. rewrite truncated_same.
  set (z := if s then - truncated m e else truncated m e). destruct (in_int z) eqn:I0; [right; now eexists|]. left. unfold in_int in I0. lia.
Qed.
Lemma get_any p k : made p -> exists v, props_get p k = Ok v.
Proof. intros M. rewrite (props_get_spec p k (made_ok p M)). now eexists. Qed.
Lemma get_int_any p k def : made p -> wild_integer p k \/ exists z, props_get_int p k def = Ok z.
Proof.
  intros M. unfold props_get_int. destruct (get_any p k M) as (v & E). rewrite E. cbn [obind]. destruct v as [[|c v]|]; [left; exists []; split; [exact E|now left]| |right; now eexists].
  destruct (strtod (c :: v)) as [[d rest]|] eqn:Es; [|right; now eexists].
  destruct (cast_any d) as [B|(z & ->)]; [left; exists (c :: v); split; [exact E|]; right; exists d, rest; now split|]. cbn [obind]. right. destruct rest; now eexists.
Qed.
Lemma skip_shorter delims l : (List.length (skip_delims delims l) <= List.length l)%nat.
Proof. induction l as [|c l IH]; cbn [skip_delims]; [lia|]. destruct (existsb _ _); cbn [List.length]; lia. Qed.
Lemma take_shorter delims l t r : take_token delims l = (t, r) -> (List.length t + List.length r <= List.length l)%nat.
Proof.
  revert t r. induction l as [|c l IH]; intros t r E; cbn [take_token] in E; [injection E as <- <-; cbn [List.length]; lia|].
  destruct (existsb _ _); [injection E as <- <-; cbn [List.length]; lia|]. destruct (take_token delims l) as [t' r'] eqn:E'. injection E as <- <-. specialize (IH _ _ eq_refl). cbn [List.length]. lia.
Qed.
Lemma skip_head delims l c l' : skip_delims delims l = c :: l' -> existsb (N.eqb c) delims = false.
Proof. induction l as [|x l IH]; cbn [skip_delims]; [discriminate|]. destruct (existsb (N.eqb x) delims) eqn:E; [exact IH|]. intros X. injection X as -> _. exact E. Qed.
Lemma names_any names s : exists z, names_decode names (Some s) = Ok z.
Proof.
  unfold names_decode. unfold strtok at 1. pose proof (skip_shorter (str " ;") s) as L. destruct (skip_delims (str " ;") s) as [|c l] eqn:E; [now eexists|].
  pose proof (skip_head _ _ _ _ E) as H. pose proof (take_shorter (str " ;") (c :: l)) as T. cbn [take_token] in *. rewrite H in *.
  destruct (take_token (str " ;") l) as [t r]. specialize (T _ _ eq_refl). cbn [List.length] in *. cbn [decode_loop]. destruct (lookup_name names (c :: t)) as [b|]; [|now eexists].
  destruct (decode_loop_names names (List.length s) r (Z.lor 0 b) ltac:(lia)) as [(_ & ->)|(_ & ->)]; now eexists.
Qed.
Lemma hello_any p : made p -> (wild_integer p (str "trax.version") \/ props_get p (str "trax.region") = Ok None \/ props_get p (str "trax.image") = Ok None \/
   (announced_at_least 2 p /\ props_get p (str "trax.channels") = Ok None) \/ (announced_at_least 4 p /\ wild_integer p (str "trax.multiobject"))) \/ exists m, hello_metadata p = Ok m.
Proof.
  intros M. unfold hello_metadata. destruct (get_int_any p (str "trax.version") 1 M) as [W|(version & Ev)]; [left; now left|]. rewrite Ev. cbn [obind].
  assert (Names : forall k names, props_get p k = Ok None \/ exists v z, props_get p k = Ok v /\ names_decode names v = Ok z).
  { intros k names. destruct (get_any p k M) as (v & E). destruct v as [v|]; [|now left]. right. destruct (names_any names v) as (z & En). now exists (Some v), z. }
  destruct (Names (str "trax.region") region_names) as [D|(v1 & z1 & -> & E1)]; [left; right; now left|]. cbn [obind]. unfold region_formats_decode. rewrite E1. cbn [obind].
  destruct (Names (str "trax.image") image_names) as [D|(v2 & z2 & -> & E2)]; [left; right; right; now left|]. cbn [obind]. unfold image_formats_decode. rewrite E2. cbn [obind].
  assert (Chan : (announced_at_least 2 p /\ props_get p (str "trax.channels") = Ok None) \/ exists ch, ch <> 0 /\
    (if version <? 2 then Ok TRAX_CHANNEL_COLOR else c <- props_get p (str "trax.channels") ;; n <- channels_decode c ;; Ok (if n =? 0 then TRAX_CHANNEL_COLOR else n)) = Ok ch).
  { destruct (Z.ltb_spec version 2); [right; exists TRAX_CHANNEL_COLOR; split; [discriminate|reflexivity]|].
    destruct (Names (str "trax.channels") channel_names) as [D|(v3 & z3 & -> & E3)]; [left; split; [exists version; now split|exact D]|]. cbn [obind]. unfold channels_decode. rewrite E3. cbn [obind].
    right. destruct (Z.eqb_spec z3 0); [exists TRAX_CHANNEL_COLOR; split; [discriminate|reflexivity]|exists z3; now split]. }
  destruct Chan as [D|(ch & Nch & ->)]; [left; right; right; right; now left|]. cbn [obind].
  destruct (get_any p (str "trax.name") M) as (n1 & ->). destruct (get_any p (str "trax.description") M) as (n2 & ->). destruct (get_any p (str "trax.family") M) as (n3 & ->). cbn [obind].
  assert (Flag : (announced_at_least 4 p /\ wild_integer p (str "trax.multiobject")) \/ exists f, (if 3 <? version
            then m <- props_get_int p (str "trax.multiobject") 0 ;; Ok (if truth m then TRAX_METADATA_MULTI_OBJECT else 0) else Ok 0) = Ok f).
  { destruct (Z.ltb_spec 3 version); [|right; now eexists]. destruct (get_int_any p (str "trax.multiobject") 0 M) as [W|(z & ->)]; [left; split; [exists version; split; [exact Ev|lia]|exact W]|]. cbn [obind]. right. now eexists. }
  destruct Flag as [W|(f & ->)]; [left; right; right; right; now right|]. cbn [obind]. unfold metadata_create. replace (ch =? 0) with false by lia. cbn [obind md_custom].
  destruct (copy_external_spec p props_create (made_ok _ M) props_create_ok) as (q & E & _). rewrite E. cbn [obind]. right. now eexists.
Qed.
Lemma setup_any st o : (exists c, client_setup st o = Ok c) \/ exists r, read_message None st props_create = Ok r /\ dangerous_hello r.
Proof.
  unfold client_setup. destruct (read_any None st) as (r & E & _ & M). rewrite E. cbn [obind]. destruct (rr_type r) as [[]|] eqn:Et; try (left; now eexists).
  destruct (rr_args r) eqn:Ea; [|left; now eexists]. destruct (hello_any (rr_props r) M) as [D|(m & ->)]; [|cbn [obind]; left; now eexists].
  right. exists r. split; [reflexivity|]. split; [exact Et|]. now split.
Qed.

(** ---- harm done ---- *)
Lemma parse_false t r : region_parse t = Ok (false, r) -> r = None.
Proof.
  intros E. destruct (splits_total t) as (k & d & Hs). destruct (nonempty_dec d) as [N|N].
  - destruct (parse_start _ _ _ Hs N) as (c & t' & -> & Ep & Es & Le). unfold region_parse in E. rewrite Ep in E. cbv beta iota in E. rewrite Es in E. cbn [obind] in E. cbv zeta in E.
    rewrite length_zero, orb_false_r in E. destruct (is_valid_sequence (numbers d)) eqn:V; cbn [negb] in E.
    + destruct k as [[]|]; cbn [ptype] in E.
      * destruct (numbers d) as [|a0 [|b0 [|c0 [|x0 [|y0 l]]]]]; congruence.
      * destruct (Nat.leb 6 (List.length (numbers d)) && Nat.eqb (List.length (numbers d) mod 2) 0); congruence.
      * destruct (numbers d) as [|fx [|fy [|fw [|fh [|r0 runs]]]]]; try congruence.
        destruct (int_of_float fx) as [zx| | |]; try discriminate. destruct (int_of_float fy) as [zy| | |]; try discriminate.
        destruct (int_of_float fw) as [zw| | |]; try discriminate. destruct (int_of_float fh) as [zh| | |]; try discriminate. cbn [obind] in E.
        unfold int_result in E. destruct (in_int (zw * zh)); [|discriminate]. cbn [obind] in E.
        destruct (rle_decode (Z.to_nat (zw * zh)) (skipn 4 (fx :: fy :: fw :: fh :: r0 :: runs)) 0%N) as [l| | |]; try discriminate.
      * destruct (numbers d) as [|a0 [|b0 l]]; try congruence. destruct (int_of_float a0); discriminate.
      * rewrite Le in E. destruct (Nat.eqb (n_fields d) 1).
        { destruct (numbers d) as [|a0 [|b0 l]]; try congruence. destruct (int_of_float a0); discriminate. }
        destruct (Nat.eqb (n_fields d) 4).
        { destruct (numbers d) as [|a0 [|b0 [|c0 [|x0 [|y0 l]]]]]; congruence. }
        destruct (Nat.leb 6 (n_fields d) && Nat.eqb (n_fields d mod 2) 0); congruence.
    + destruct (numbers d) as [|d0 [|d1 [|d2 [|d3 [|? ?]]]]]; try congruence. destruct (is_nan d3); [congruence|].
      destruct (int_of_float d3) as [z| | |]; try discriminate. cbn [obind] in E. destruct (int_result (- z)); try discriminate; congruence.
  - destruct t as [|c t]; [discriminate|]. unfold region_parse in E. rewrite (splits_parse _ _ _ Hs) in E. cbv beta iota in E. rewrite (sequence_overrun d N) in E. discriminate E.
Qed.
Lemma flat_parsed t : flat_mask t -> (forall x, region_parse t <> Ok x) \/ exists x y w h data, region_parse t = Ok (true, Some (RMask x y w h data)) /\ (w <= 0 \/ h <= 0).
Proof.
  intros (d & fx & fy & fw & fh & runs & Hs & N & V & En & R & W).
  destruct (parse_start _ _ _ Hs N) as (c & t' & -> & Ep & Es & Le). unfold region_parse. rewrite Ep. cbv beta iota. rewrite Es. cbn [obind]. cbv zeta.
  rewrite length_zero, orb_false_r. replace (is_valid_sequence (numbers d)) with true by (symmetry; now apply valid_iff). cbn [negb ptype].
  pose proof (numbers_regular d) as G. rewrite En in *. destruct runs as [|r0 runs]; [now destruct R|].
  inversion G as [|? ? G1 G']; inversion G' as [|? ? G2 G'']; inversion G'' as [|? ? G3 G3']; inversion G3' as [|? ? G4 G5]; subst.
  destruct (int_of_float fx) as [zx| | |] eqn:Ex; try (left; discriminate). destruct (int_of_float fy) as [zy| | |] eqn:Ey; try (left; discriminate).
  destruct (int_of_float fw) as [zw| | |] eqn:Ew; try (left; discriminate). destruct (int_fits fw zw G3 Ew) as [Fw ->].
  destruct (int_of_float fh) as [zh| | |] eqn:Eh; try (left; discriminate). destruct (int_fits fh zh G4 Eh) as [Fh ->]. cbn [obind].
  unfold int_result. destruct (in_int (whole fw * whole fh)); [|left; discriminate]. cbn [obind].
  destruct (rle_decode (Z.to_nat (whole fw * whole fh)) (skipn 4 (fx :: fy :: fw :: fh :: r0 :: runs)) 0%N) as [l| | |]; try (left; discriminate). cbn [obind].
  right. eexists _, _, _, _, _. split; [reflexivity|exact W].
Qed.
Lemma flat_clone x y w h data : w <= 0 \/ h <= 0 -> region_clone (RMask x y w h data) = Abort.
Proof. intros H. unfold region_clone. cbn [type_of convert]. unfold create_mask. replace ((0 <? w) && (0 <? h)) with false by lia. reflexivity. Qed.
Lemma harmful_state h p r : h_server h = false -> alive h = true -> 0 < h_objects h -> read_message (h_type h) (h_in h) props_create = Ok r ->
  dangerous_object MState r -> forall res, client_wait h p <> Ok res.
Proof.
  intros S0 A O Er (Et & a & Ea & H) res E. unfold client_wait in E. rewrite S0, A in E. cbn [negb] in E. destruct (Z.to_nat (h_objects h)) as [|n] eqn:En; [lia|]. cbn [client_wait_loop] in E.
  unfold handle_read in E. rewrite Er in E. cbn [obind] in E. rewrite Et, Ea in E. destruct H as [H|H].
  - destruct (region_parse a) as [[[] rg]| | |] eqn:Ep; cbn [obind] in E; try discriminate.
    + destruct rg as [rg|]; [|discriminate]. apply H. apply safe_iff. exists true, (Some rg). split; [exact Ep|]. split; [discriminate|reflexivity].
    + pose proof (parse_false _ _ Ep) as ->. apply H. apply safe_iff. exists false, None. split; [exact Ep|]. split; [discriminate|congruence].
  - destruct (flat_parsed a H) as [X|(x & y & w & h0 & data & Ep & W)].
    + destruct (region_parse a) as [q| | |]; [exact (X q eq_refl)|discriminate|discriminate|discriminate].
    + rewrite Ep in E. cbn [obind] in E. rewrite (flat_clone _ _ _ _ _ W) in E. discriminate E.
Qed.
Lemma beyond_cast d z : beyond_int d -> int_of_float d <> Ok z.
Proof.
  destruct d as [s|s| |s m e]; cbn [beyond_int int_of_float]; try discriminate; [intros []|]. cbv zeta. rewrite truncated_same. set (w := if s then - truncated m e else truncated m e). intros H.
  unfold in_int. replace ((INT_MIN <=? w) && (w <=? INT_MAX)) with false by lia. discriminate.
Qed.
Lemma wild_get p k def z : wild_integer p k -> props_get_int p k def <> Ok z.
Proof.
  intros (v & E & H). unfold props_get_int. rewrite E. cbn [obind]. destruct H as [->|(d & rest & Es & B)]; [discriminate|]. destruct v as [|c v]; [discriminate|]. rewrite Es.
  destruct (int_of_float d) as [y| | |] eqn:Ei; cbn [obind]; try discriminate. exfalso. exact (beyond_cast d y B Ei).
Qed.
Lemma harmful_hello st o r : read_message None st props_create = Ok r -> dangerous_hello r -> forall res, client_setup st o <> Ok res.
Proof.
  intros Er (Et & Ea & H) res. cbv zeta in H. unfold client_setup. rewrite Er. cbn [obind]. rewrite Et, Ea. unfold hello_metadata.
  destruct (props_get_int (rr_props r) (str "trax.version") 1) as [v| | |] eqn:Ev; cbn [obind]; try discriminate. destruct H as [W|H]; [exfalso; exact (wild_get _ _ _ _ W Ev)|].
  destruct (props_get (rr_props r) (str "trax.region")) as [[t|]| | |]; cbn [obind]; try discriminate. destruct H as [H|H]; [discriminate H|].
  destruct (region_formats_decode (Some t)); cbn [obind]; try discriminate.
  destruct (props_get (rr_props r) (str "trax.image")) as [[t'|]| | |]; cbn [obind]; try discriminate. destruct H as [H|H]; [discriminate H|].
  destruct (image_formats_decode (Some t')); cbn [obind]; try discriminate. destruct H as [((v' & E & L) & H)|((v' & E & L) & H)]; rewrite Ev in E; assert (v' = v) by congruence; subst v'; clear E.
  - destruct (Z.ltb_spec v 2); [lia|]. rewrite H. cbn [obind]. discriminate.
  - match goal with |- context [obind (if v <? 2 then ?a else ?b) _] => destruct (if v <? 2 then a else b); cbn [obind]; try discriminate end.
    destruct (props_get (rr_props r) (str "trax.name")); cbn [obind]; try discriminate. destruct (props_get (rr_props r) (str "trax.description")); cbn [obind]; try discriminate.
    destruct (props_get (rr_props r) (str "trax.family")); cbn [obind]; try discriminate. destruct (Z.ltb_spec 3 v); [|lia].
    destruct (props_get_int (rr_props r) (str "trax.multiobject") 0) as [m| | |] eqn:Em; cbn [obind]; try discriminate. exfalso. exact (wild_get _ _ _ _ H Em).
Qed.

(** ---- examples ---- *)
Lemma made_empty : usable (Some props_create).
Proof. exact made_create. Qed.
Lemma example_state : let h := faced waiting_client (line (str "state") [str "x:1,2"]) in
  h_server h = false /\ alive h = true /\ 0 < h_objects h /\ ~ harmless (str "x:1,2") /\ client_wait h None = Abort.
Proof.
  cbv zeta. split; [vm_compute; reflexivity|]. split; [vm_compute; reflexivity|]. split; [vm_compute; reflexivity|]. split; [|vm_compute; reflexivity].
  intros H. apply safe_iff in H as (ok & r & E & _). assert (X : region_parse (str "x:1,2") = Abort) by (vm_compute; reflexivity). rewrite X in E. discriminate E.
Qed.
Lemma example_mask : flat_mask (str "mask:0,0,0,5,1") /\ harmless (str "mask:0,0,0,5,1") /\
  client_wait (faced waiting_client (line (str "state") [str "mask:0,0,0,5,1"])) None = Abort /\
  server_wait_mot 5 0 (faced sample_server (line (str "initialize") [str "mask:0,0,0,5,1"] ++ line (str "frame") two_files)) None None = Abort.
Proof.
  assert (E : region_parse (str "mask:0,0,0,5,1") = Ok (true, Some (RMask 0 0 0 5 []))) by (vm_compute; reflexivity).
  split; [|split; [|split; [vm_compute; reflexivity|vm_compute; reflexivity]]].
  - destruct (parsed_mask _ _ _ _ _ _ E) as (d & fx & fy & fw & fh & runs & A & A1 & A2 & B & B1 & Ew & _). exists d, fx, fy, fw, fh, runs. refine (conj A (conj A1 (conj A2 (conj B (conj B1 _))))). left. rewrite <- Ew. reflexivity || discriminate.
  - apply safe_iff. exists true, (Some (RMask 0 0 0 5 [])). split; [exact E|]. split; [discriminate|reflexivity].
Qed.
Lemma example_images t : In t [str "image:2;1;rgb;"; str "data:image/png;"] -> dangerous_image t /\
  server_wait_sot 0 (faced single_server (line (str "frame") [str "file:///a"; t])) None None None = UB /\
  server_wait_mot 5 0 (faced sample_server (line (str "initialize") [str "1,2,3,4"] ++ line (str "frame") [str "file:///a"; t])) None None = UB.
Proof.
  intros [E|[E|[]]]; subst t; (split; [|split; vm_compute; reflexivity]).
  - left. exists (str "2;1;rgb;"). vm_compute. reflexivity.
  - right. exists (str "image/png"), []. split; [vm_compute; reflexivity|now left].
Qed.
Lemma example_hello : exists r, read_message None (mkStream [] [line (str "hello") [str "trax.version=4"]]) props_create = Ok r /\
  rr_type r = Some MHello /\ rr_args r = [] /\ props_get (rr_props r) (str "trax.region") = Ok None /\
  client_setup (mkStream [] [line (str "hello") [str "trax.version=4"]]) (mkO [] [] []) = UB.
Proof. eexists. split; [vm_compute; reflexivity|]. split; [vm_compute; reflexivity|]. split; [vm_compute; reflexivity|]. split; vm_compute; reflexivity. Qed.
Lemma stuck_server fuel slack h images p : h_server h = true -> alive h = true -> 1 <= md_channels (h_meta h) <= 7 -> stream_bytes (h_in h) = [] -> delivers (h_in h) -> passed_over (h_type h) ->
  server_wait_mot fuel slack h images p = NoFuel.
Proof.
  intros S0 A Ch B D P. unfold server_wait_mot. rewrite S0. cbn [negb]. cbv zeta. change (alive (clear_error h)) with (alive h). rewrite A. cbn [negb].
  change (h_meta (clear_error h)) with (h_meta h). rewrite (count_channels _ Ch). cbn [obind]. apply mot_stuck; [|exact P].
  unfold stream_bytes in B. apply app_eq_nil in B as [B C]. unfold delivers in D. split; [exact B|]. change (h_in (clear_error h)) with (h_in h).
  destruct (st_script (h_in h)) as [|ch sc]; [reflexivity|]. inversion D as [|? ? N _]; subst. cbn [concat] in C. apply app_eq_nil in C as [C _]. now destruct N.
Qed.
(** A tracker that is sent the state of another one before the stream ends *)
Lemma example_forever fuel : server_wait_mot fuel 0 (faced sample_server (line (str "state") [str "1"])) None None = NoFuel.
Proof.
  unfold server_wait_mot. replace (h_server (faced sample_server (line (str "state") [str "1"]))) with true by (vm_compute; reflexivity). cbn [negb]. cbv zeta.
  replace (alive (clear_error (faced sample_server (line (str "state") [str "1"])))) with true by (vm_compute; reflexivity). cbn [negb].
  replace (image_list_count (md_channels (h_meta (clear_error (faced sample_server (line (str "state") [str "1"])))))) with (@Ok Z 2) by (vm_compute; reflexivity). cbn [obind].
  destruct fuel as [|fuel]; [reflexivity|]. cbn [wait_mot_loop].
  destruct (handle_read (clear_error (faced sample_server (line (str "state") [str "1"])))) as [[r h1]| | |] eqn:E; [|vm_compute in E; discriminate|vm_compute in E; discriminate|vm_compute in E; discriminate].
  assert (T : rr_type r = Some MState) by (vm_compute in E; injection E as <- <-; reflexivity).
  assert (H : at_end h1 /\ h_type h1 = Some MState) by (vm_compute in E; injection E as <- <-; split; [split; reflexivity|reflexivity]).
  cbn [obind]. rewrite T. apply mot_stuck; [exact (proj1 H)|]. right. right. exact (proj2 H).
Qed.
