(** Basic facts about handles: dictionaries, texts of regions, reading and writing one message. *)
From Verif Require Import CBase StrMap Props PropsSpec StrMapProofs PropsProofs Buffer BufferProofs Message MessageSpec MessageProofs MessageApi
  Num NumProofs Region RegionSpec RegionProofs RegionGeom Image Formats FormatsSpec FormatsProofs Handle SessionSpec.
Local Open Scope Z_scope.

(** ---- dictionaries ---- *)
Lemma made_ok p : made p -> sm_ok p.
Proof. intros (h & E). destruct (props_run_spec h) as (m & E' & H & _). rewrite E in E'. now injection E' as <-. Qed.
Lemma made_create : made props_create.
Proof. now exists []. Qed.

Lemma run_sets l : forall hist p r, props_run hist = Ok p -> enum_into props_set l p = Ok r -> made r.
Proof.
  induction l as [|[k v] l IH]; intros hist p r E Er; cbn [enum_into] in Er.
  - injection Er as <-. now exists hist.
  - destruct (props_set p k v) as [p'| | |] eqn:Ep; try discriminate. cbn [obind] in Er.
    apply (IH (hist ++ [PSet k v]) p' r); [|exact Er]. unfold props_run. rewrite fold_left_app. cbn [fold_left].
    change (fold_left props_step hist (Ok props_create)) with (props_run hist). rewrite E. exact Ep.
Qed.

Lemma clean_kvs p : clean p -> forallb kv_ok (props_enum p) = true.
Proof.
  intros (Hm & H). pose proof (made_ok p Hm) as Hok. apply forallb_forall. intros [k v] Hin.
  apply H. rewrite props_get_spec by exact Hok. f_equal. now apply (proj2 (enum_enumerates p Hok)).
Qed.

Lemma same_props_lookup a b : sm_ok a -> sm_ok b -> (same_props a b <-> forall k, sm_lookup a k = sm_lookup b k).
Proof.
  intros Ha Hb. split; intros H k; specialize (H k).
  - rewrite !props_get_spec in H by assumption. now injection H.
  - now rewrite !props_get_spec, H by assumption.
Qed.
Lemma same_props_trans a b c : same_props a b -> same_props b c -> same_props a c.
Proof. intros H1 H2 k. now rewrite H1. Qed.

(** Copying everything into a new dictionary *)
Lemma copy_new p flags : made p -> flags = 1 \/ flags = 3 ->
  exists r, copy_properties p props_create flags = Ok r /\ same_props r p /\ made r.
Proof.
  intros Hm Hf. pose proof (made_ok p Hm) as Hok.
  destruct (copy_all_spec flags p props_create Hok props_create_ok Hf) as (r & Er & Hr & Hl).
  exists r. split; [exact Er|]. split.
  - apply same_props_lookup; [assumption..|]. intros k. rewrite Hl. unfold over. destruct (sm_lookup p k); [reflexivity|].
    apply sm_new_lookup.
  - unfold copy_properties in Er. replace (copy_callback flags) with props_set in Er by (destruct Hf; subst flags; reflexivity).
    now apply (run_sets (props_enum p) [] props_create r).
Qed.

(** ---- one message on a handle ---- *)
Definition ready (st : istream) (bytes : list N) : Prop := stream_bytes st = bytes /\ delivers st.

Lemma handle_read_wire h t args p rest : clean p -> forallb arg_ok args = true ->
  ready (h_in h) (wire t args (props_enum p) ++ rest) ->
  exists r st', handle_read h = Ok (r, with_in h (Some t) st') /\ rr_type r = Some t /\ rr_args r = args /\
    made (rr_props r) /\ same_props (rr_props r) p /\ ready st' rest.
Proof.
  intros Hp Ha (Hb & Hd). pose proof (made_ok p (proj1 Hp)) as Hok. pose proof (enum_enumerates p Hok) as En.
  destruct (read_message_run (h_type h) (h_in h) props_create Hd) as (st' & Hd' & Er & Hst').
  rewrite Hb in Er, Hst'.
  destruct (feeds_wire (h_type h) t args (props_enum p) [] [] Ha (clean_kvs p Hp)) as (k & v & Hw).
  pose proof (feeds_app _ _ _ _ _ (feeds_nil (reader_start (h_type h))) Hw rest) as HF.
  cbn [app] in HF. unfold reader_start in HF. unfold reader_start in Er, Hst'. rewrite HF in Er, Hst'.
  rewrite run_complete in Er, Hst' by reflexivity. cbn [fst snd rd_sets rd_type rd_args app] in Er, Hst'.
  destruct (props_set_all (props_enum p) (proj1 En) props_create props_create_ok) as (d & Ed & Hdok & Hdl).
  rewrite Ed in Er. cbn [obind] in Er.
  eexists. exists st'. unfold handle_read. rewrite Er. cbn [obind rr_type rr_stream]. split; [reflexivity|].
  cbn [rr_args rr_props rr_type]. split; [reflexivity|]. split; [reflexivity|].
  split; [now apply (run_sets (props_enum p) [] props_create d)|].
  split; [|split; assumption].
  apply same_props_lookup; [assumption..|]. intros key. rewrite Hdl. unfold over.
  rewrite (pm_assoc_enumerates _ _ En). destruct (sm_lookup p key); [reflexivity|]. apply sm_new_lookup.
Qed.

Definition sent (o o' : ostate) (bytes : list N) : Prop := o_bytes o' = o_bytes o ++ bytes /\ no_error (o_sched o').
Lemma handle_write_sent h t args p : no_error (o_sched (h_out h)) ->
  sent (h_out h) (h_out (handle_write h t args p)) (wire t args (props_enum (given p))).
Proof.
  intros H. unfold handle_write, with_out. cbn [h_out].
  change (match p with Some p0 => p0 | None => props_create end) with (given p).
  destruct (write_message_ok (h_out h) t args (given p) H) as (A & B & _). now split.
Qed.
Lemma sent_trans a b c x y : sent a b x -> sent b c y -> sent a c (x ++ y).
Proof. intros (A & _) (B & C). split; [now rewrite B, A, app_assoc|exact C]. Qed.
Lemma sent_nil a : no_error (o_sched a) -> sent a a [].
Proof. intros H. split; [now rewrite app_nil_r|exact H]. Qed.
Lemma sent_written h h' x : sent (h_out h) (h_out h') x -> written h h' = x.
Proof. intros (A & _). unfold written. rewrite A, skipn_app, skipn_all, Nat.sub_diag. reflexivity. Qed.

Lemma arrive_ready cut bytes h : cutter cut -> ready (h_in h) [] -> ready (h_in (arrive cut bytes h)) bytes.
Proof.
  intros Hc (Hb & Hd). unfold arrive, with_in, ready, stream_bytes, delivers in *. cbn [h_in st_buf st_script].
  destruct (Hc bytes) as (A & B). apply app_eq_nil in Hb as (-> & Hb). rewrite concat_app, Hb, A. split; [reflexivity|].
  apply Forall_app. now split.
Qed.

(** ---- texts of regions are plain arguments ---- *)
Definition plain_char (c : N) : bool := (is_digit c || is_lower c || (c =? 44) || (c =? 45) || (c =? 46) || (c =? 58))%N.
Definition plain (l : list N) : Prop := forallb plain_char l = true.
Lemma plain_app a b : plain a -> plain b -> plain (a ++ b).
Proof. unfold plain. intros. now rewrite forallb_app, H, H0. Qed.
Lemma digits_plain l : forallb is_digit l = true -> plain l.
Proof.
  unfold plain. rewrite !forallb_forall. intros H c Hc. unfold plain_char. now rewrite (H c Hc).
Qed.
Lemma print_Z_plain z : plain (print_Z z).
Proof.
  unfold print_Z. destruct (z <? 0); [apply (plain_app [45%N]); [reflexivity|]|]; apply digits_plain, print_N_digits.
Qed.
Lemma print_float_plain k x : plain (print_float k x).
Proof.
  assert (F : forall s n, plain (print_fixed k s n)).
  { intros s n. unfold print_fixed. apply plain_app; [destruct s; reflexivity|].
    apply plain_app; [apply digits_plain, print_N_digits|]. apply (plain_app [46%N]); [reflexivity|].
    destruct (pad_digits_spec k (Z.to_N n mod 10 ^ N.of_nat k)%N []) as (ds & -> & _ & Hd & _).
    - apply N.mod_lt. apply N.pow_nonzero. lia.
    - rewrite app_nil_r. now apply digits_plain. }
  destruct x as [s|s| |s m e]; cbn [print_float]; [apply F| |reflexivity|apply F]. destruct s; reflexivity.
Qed.

Lemma append_plain B l s : buf_ok B l -> plain l -> plain s ->
  exists B', buffer_append B s = Ok B' /\ buf_ok B' (l ++ s) /\ plain (l ++ s).
Proof. intros H Hl Hs. destruct (append_text B l s H) as (B' & E & HB). exists B'. auto using plain_app. Qed.

Lemma format_point_plain x y : plain (format_point x y).
Proof. unfold format_point. repeat apply plain_app; try apply print_float_plain. reflexivity. Qed.

Lemma append_points_plain pts : forall B l first B', buf_ok B l -> plain l -> append_points B first pts = Ok B' ->
  exists l', buf_ok B' l' /\ plain l'.
Proof.
  induction pts as [|[x y] pts IH]; intros B l first B' H Hl E; cbn [append_points] in E.
  - injection E as <-. eauto.
  - destruct (append_plain B l ((if first then [] else c_comma) ++ format_point x y) H Hl) as (B1 & E1 & H1 & P1).
    { apply plain_app; [destruct first; reflexivity|apply format_point_plain]. }
    rewrite E1 in E. cbn [obind] in E. eauto.
Qed.
Lemma comma_int_plain z : plain (44%N :: print_Z z).
Proof. apply (plain_app [44%N]); [reflexivity|apply print_Z_plain]. Qed.
Lemma rle_loop_plain n : forall B l data count value B' c' v', buf_ok B l -> plain l ->
  rle_loop B data n count value = Ok (B', c', v') -> exists l', buf_ok B' l' /\ plain l'.
Proof.
  induction n as [|n IH]; intros B l data count value B' c' v' H Hl E.
  - destruct data; cbn [rle_loop] in E; injection E as <- <- <-; eauto.
  - destruct data as [|d data]; cbn [rle_loop] in E; [discriminate|]. destruct (Bool.eqb _ _).
    + destruct (int_result (count + 1)); try discriminate. cbn [obind] in E. eauto.
    + destruct (append_plain B l (44%N :: print_Z count) H Hl (comma_int_plain count)) as (B1 & E1 & H1 & P1).
      rewrite E1 in E. cbn [obind] in E. eauto.
Qed.
Lemma append_pixels_plain B l data n B' : buf_ok B l -> plain l -> append_pixels B data n = Ok B' -> exists l', buf_ok B' l' /\ plain l'.
Proof.
  intros H Hl E. unfold append_pixels in E. destruct data as [|d0 data]; [discriminate|].
  assert (exists B2 l2, (if negb (d0 =? 0)%N then buffer_append B (str ",0") else Ok B) = Ok B2 /\ buf_ok B2 l2 /\ plain l2) as (B2 & l2 & E2 & H2 & P2).
  { destruct (negb (d0 =? 0)%N); [|exists B, l; auto].
    destruct (append_plain B l (str ",0") H Hl eq_refl) as (B1 & E1 & H1 & P1). eauto. }
  rewrite E2 in E. cbn [obind] in E.
  destruct (rle_loop B2 (d0 :: data) n 0 (negb (d0 =? 0)%N)) as [[[B3 c3] v3]| | |] eqn:E3; try discriminate. cbn [obind] in E.
  destruct (rle_loop_plain _ _ _ _ _ _ _ _ _ H2 P2 E3) as (l3 & H3 & P3).
  destruct (negb (c3 =? 0) && v3).
  - destruct (append_plain B3 l3 (44%N :: print_Z c3) H3 P3 (comma_int_plain c3)) as (B4 & E4 & H4 & P4).
    rewrite E4 in E. injection E as <-. eauto.
  - injection E as <-. eauto.
Qed.

Lemma plain_no_nul l : plain l -> no_nul l.
Proof.
  unfold plain, no_nul. rewrite !forallb_forall. intros H c Hc. specialize (H c Hc).
  unfold plain_char, is_digit, is_lower in H. lia.
Qed.
Lemma plain_arg l : plain l -> arg_ok l = true.
Proof.
  intros H. unfold arg_ok. apply andb_true_iff. split.
  - unfold text_ok. apply forallb_forall. intros c Hc. unfold plain in H. rewrite forallb_forall in H. specialize (H c Hc).
    unfold plain_char, is_digit, is_lower in H. unfold text_char. lia.
  - replace (before_eq l) with (@None (list N)); [reflexivity|]. symmetry. induction l as [|c l IH]; [reflexivity|].
    unfold plain in H. cbn [forallb] in H. apply andb_true_iff in H as (Hc & H). cbn [before_eq].
    replace (c =? 61)%N with false by (unfold plain_char, is_digit, is_lower in Hc; lia). now rewrite (IH H).
Qed.

Lemma region_text_plain r t : region_string r = Ok (Some t) -> plain t.
Proof.
  intros E. unfold region_string in E.
  assert (F : forall B l, buf_ok B l -> plain l ->
    (if Nat.ltb 0 (b_pos B) then s <- buffer_extract B ;; t <- blk_string s ;; Ok (Some t) else Ok None) = Ok (Some t) -> plain t).
  { intros B l HB Hl Et. destruct l as [|c l].
    - destruct HB as (_ & Hp & _). rewrite Hp in Et. discriminate.
    - rewrite (extract_text B (c :: l) HB (plain_no_nul _ Hl) ltac:(discriminate)) in Et. now injection Et as <-. }
  destruct r as [code|x y w h|pts|x y w h data].
  - destruct (append_plain (buffer_create 32) [] (print_Z code) (buffer_create_ok 32) eq_refl (print_Z_plain code)) as (B & EB & HB & HP).
    rewrite EB in E. cbn [obind] in E. exact (F B _ HB HP E).
  - destruct (append_plain (buffer_create 32) [] (format_point x y ++ c_comma ++ format_point w h) (buffer_create_ok 32) eq_refl) as (B & EB & HB & HP).
    { apply plain_app; [apply format_point_plain|]. apply plain_app; [reflexivity|apply format_point_plain]. }
    rewrite EB in E. cbn [obind] in E. exact (F B _ HB HP E).
  - destruct (append_points (buffer_create 32) true pts) as [B| | |] eqn:EB; try discriminate. cbn [obind] in E.
    destruct (append_points_plain pts _ [] true B (buffer_create_ok 32) eq_refl EB) as (l & HB & HP). exact (F B _ HB HP E).
  - destruct (int_result (w * h)) as [len| | |]; try discriminate. cbn [obind] in E.
    match type of E with obind (obind (buffer_append _ ?text) _) _ = _ =>
      destruct (append_plain (buffer_create 32) [] text (buffer_create_ok 32) eq_refl) as (B1 & EB1 & HB1 & HP1);
      [repeat (apply plain_app; [solve [reflexivity|apply print_Z_plain]|]); apply print_Z_plain|] end.
    rewrite EB1 in E. cbn [obind] in E.
    destruct (append_pixels B1 data (Z.to_nat len)) as [B| | |] eqn:EB; try discriminate. cbn [obind] in E.
    destruct (append_pixels_plain _ _ _ _ _ HB1 HP1 EB) as (l & HB & HP). exact (F B _ HB HP E).
Qed.
Lemma region_text_arg r t : region_string r = Ok (Some t) -> arg_ok t = true.
Proof. intros E. apply plain_arg. now apply region_text_plain in E. Qed.

(** ---- cloning a decoded region ---- *)
Lemma rle_fill_length room : forall c v l r, rle_fill room c v = Ok (l, r) -> (List.length l + r = room)%nat.
Proof.
  induction room as [|room IH]; intros c v l r E; cbn [rle_fill] in E; [injection E as <- <-; reflexivity|].
  destruct (c =? 0); [injection E as <- <-; reflexivity|].
  destruct (int_result (c - 1)) as [c'| | |]; try discriminate. cbn [obind] in E.
  destruct (rle_fill room c' v) as [[a b]| | |] eqn:Ef; try discriminate. cbn [obind fst snd] in E. injection E as <- <-.
  apply IH in Ef. cbn [List.length]. lia.
Qed.
Lemma rle_decode_length cs : forall room v l, rle_decode room cs v = Ok l -> List.length l = room.
Proof.
  induction cs as [|x cs IH]; intros room v l E; cbn [rle_decode] in E.
  - injection E as <-. apply repeat_length.
  - destruct (int_of_float x) as [n| | |]; try discriminate. cbn [obind] in E.
    destruct (rle_fill room n v) as [[a b]| | |] eqn:Ef; try discriminate. cbn [obind fst snd] in E.
    destruct (rle_decode b cs _) as [rest| | |] eqn:Er; try discriminate. cbn [obind] in E. injection E as <-.
    rewrite app_length, (IH _ _ _ Er). now apply rle_fill_length in Ef.
Qed.

Definition mask_full (r : region) : Prop :=
  match r with RMask _ _ w h data => in_int (w * h) = true /\ List.length data = Z.to_nat (w * h) | _ => True end.

Lemma parsed_mask_full t r : region_parse t = Ok (true, Some r) -> mask_full r.
Proof.
  intros E. destruct r as [code|x y w h|pts|x y w h data]; try exact I.
  unfold region_parse in E. destruct t as [|c t]; [discriminate|].
  destruct (parse_uri_prefix (c :: t)) as [pt sd]. destruct (parse_sequence sd) as [l| | |]; try discriminate. cbn [obind] in E.
  destruct (negb (is_valid_sequence l) || Nat.eqb (List.length l) 0).
  { destruct l as [|d0 [|d1 [|d2 [|d3 [|? ?]]]]]; try discriminate. destruct (is_nan d3); [discriminate|].
    destruct (int_of_float d3) as [z| | |]; try discriminate. cbn [obind] in E. destruct (int_result (- z)); discriminate. }
  set (ty := match pt with EMPTY => _ | t => t end) in E. clearbody ty. destruct ty; try discriminate.
  - destruct l as [|d0 [|? ?]]; try discriminate. destruct (int_of_float d0); discriminate.
  - destruct l as [|d0 [|d1 [|d2 [|d3 [|? ?]]]]]; discriminate.
  - destruct (_ && _); discriminate.
  - destruct l as [|d0 [|d1 [|d2 [|d3 [|d4 l]]]]]; try discriminate.
    destruct (int_of_float d0) as [z0| | |]; try discriminate. destruct (int_of_float d1) as [z1| | |]; try discriminate.
    destruct (int_of_float d2) as [z2| | |]; try discriminate. destruct (int_of_float d3) as [z3| | |]; try discriminate.
    cbn [obind] in E. unfold int_result in E. destruct (in_int (z2 * z3)) eqn:Ei; try discriminate. cbn [obind] in E.
    destruct (rle_decode (Z.to_nat (z2 * z3)) _ _) as [px| | |] eqn:Er; try discriminate. cbn [obind] in E.
    injection E as <- <- <- <- <-. split; [exact Ei|]. now apply rle_decode_length in Er.
Qed.

Lemma clone_arrives r r' : region_arrives r r' -> region_clone r' = Ok r'.
Proof.
  intros (t & _ & Ep & Hs). pose proof (parsed_mask_full t r' Ep) as Hf.
  destruct r' as [code|x y w h|pts|x y w h data]; try reflexivity.
  cbn [solid mask_full] in Hs, Hf. destruct Hs as (Hw & Hh), Hf as (Hi & Hl).
  unfold region_clone. cbn [type_of convert]. unfold create_mask, int_result. rewrite Hi.
  replace ((0 <? w) && (0 <? h)) with true by lia. cbn [obind].
  rewrite Hl, Nat.leb_refl. cbn [obind]. do 2 f_equal. rewrite <- Hl. apply firstn_all.
Qed.
