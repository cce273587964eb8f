(** Sessions: every round delivers what was sent. *)
From Verif Require Import CBase StrMap Props PropsSpec StrMapProofs PropsProofs Buffer BufferProofs Message MessageSpec MessageProofs MessageApi
  Num Region RegionGeom Image Formats FormatsSpec FormatsProofs Handle SessionSpec HandleProofs.
Local Open Scope Z_scope.

(** ---- images ---- *)
Inductive channels_rel (slack : nat) (ch fmt : Z) : list Z -> image_list -> image_list -> Prop :=
| rel_nil : channels_rel slack ch fmt [] [] []
| rel_image id ids i i' a b : supports ch id = true -> image_arrives slack i i' -> supports fmt (i_type i') = true ->
    channels_rel slack ch fmt ids a b -> channels_rel slack ch fmt (id :: ids) (Some i :: a) (Some i' :: b)
| rel_none id ids x a b : supports ch id = false -> channels_rel slack ch fmt ids a b ->
    channels_rel slack ch fmt (id :: ids) (x :: a) (None :: b).

Lemma channels_exchange slack ch fmt ids a b : channels_rel slack ch fmt ids a b ->
  exists texts, image_arguments ch ids a = Ok (Some (map Some texts)) /\ forallb arg_ok texts = true /\
    List.length (filter (supports ch) ids) = List.length texts /\
    forall extra, decode_images slack ch fmt ids (texts ++ extra) = Ok (Some b).
Proof.
  induction 1 as [|id ids i i' a b Hs (t & Ee & Ea & Ed) Hf _ (ts & E & A & L & D)|id ids x a b Hs _ (ts & E & A & L & D)].
  - exists []. repeat match goal with |- _ /\ _ => split end; reflexivity.
  - exists (t :: ts). cbn [image_arguments filter forallb decode_images app map]. rewrite Hs, Ee, E. cbn [obind option_map List.length].
    split; [reflexivity|]. split; [now rewrite Ea, A|]. split; [now rewrite L|]. intros extra. rewrite Ed. cbn [obind].
    rewrite Hf, D. reflexivity.
  - exists ts. cbn [image_arguments filter decode_images]. rewrite Hs. split; [exact E|]. split; [exact A|]. split; [exact L|].
    intros extra. rewrite D. reflexivity.
Qed.

Lemma images_rel slack ch fmt a b : images_arrive slack ch fmt a b -> channels_rel slack ch fmt channel_ids a b.
Proof.
  intros (Ha & Hb & H).
  destruct a as [|a0 [|a1 [|a2 [|? ?]]]]; try discriminate. destruct b as [|b0 [|b1 [|b2 [|? ?]]]]; try discriminate.
  assert (S : forall k id x y ids l l', (k < 3)%nat -> id = 2 ^ Z.of_nat k -> nth k [a0; a1; a2] None = x -> nth k [b0; b1; b2] None = y ->
    channels_rel slack ch fmt ids l l' -> channels_rel slack ch fmt (id :: ids) (x :: l) (y :: l')).
  { intros k id x y ids l l' Hk -> Ex Ey Hr. specialize (H k Hk). rewrite Ex, Ey in H.
    pose proof (supports_bit ch (Z.of_nat k) ltac:(lia)) as Hb'. destruct (Z.testbit ch (Z.of_nat k)).
    - destruct H as (i & i' & -> & -> & Hi & Hf). now apply rel_image.
    - rewrite H. now apply rel_none. }
  unfold channel_ids.
  apply (S 0%nat); [lia|reflexivity..|]. apply (S 1%nat); [lia|reflexivity..|]. apply (S 2%nat); [lia|reflexivity..|]. apply rel_nil.
Qed.

Lemma count_channels ch : 1 <= ch <= 7 -> image_list_count ch = Ok (Z.of_nat (List.length (filter (supports ch) channel_ids))).
Proof.
  intros H. assert (Hc : ch = 1 \/ ch = 2 \/ ch = 3 \/ ch = 4 \/ ch = 5 \/ ch = 6 \/ ch = 7) by lia.
  repeat destruct Hc as [Hc|Hc]; subst ch; reflexivity.
Qed.

Lemma images_exchange slack ch fmt a b : 1 <= ch <= 7 -> images_arrive slack ch fmt a b ->
  exists texts, image_arguments ch channel_ids a = Ok (Some (map Some texts)) /\ forallb arg_ok texts = true /\
    image_list_count ch = Ok (Z.of_nat (List.length texts)) /\ List.length (filter (supports ch) channel_ids) = List.length texts /\
    forall extra, decode_images slack ch fmt channel_ids (texts ++ extra) = Ok (Some b).
Proof.
  intros Hch H. destruct (channels_exchange _ _ _ _ _ _ (images_rel _ _ _ _ _ H)) as (ts & E & A & L & D).
  exists ts. split; [exact E|]. split; [exact A|]. split; [now rewrite count_channels, L|]. now split.
Qed.
Lemma all_texts_some l : all_texts (map Some l) = Ok l.
Proof. induction l as [|t l IH]; [reflexivity|]. cbn [map all_texts]. now rewrite IH. Qed.

(** ---- objects on the wire ---- *)
Definition region_text (r : region) : list N := match region_string r with Ok (Some t) => t | _ => [] end.
Definition objects_wire (t : mtype) (l : object_list) : list N :=
  flat_map (fun o => wire t [region_text (fst o)] (props_enum (snd o))) l.

Lemma arrives_text r r' : region_arrives r r' -> region_string r = Ok (Some (region_text r)) /\ arg_ok (region_text r) = true /\
  region_parse (region_text r) = Ok (true, Some r').
Proof.
  intros (t & E & P & _). unfold region_text. rewrite E. split; [reflexivity|]. split; [now apply (region_text_arg r)|exact P].
Qed.
Lemma arrives_unique r a b : region_arrives r a -> region_arrives r b -> a = b.
Proof. intros (t & E & P & _) (t' & E' & P' & _). rewrite E in E'. injection E' as <-. rewrite P in P'. now injection P'. Qed.

Lemma supports_announced z r : (forall c, r <> RSpecial c) -> supports (Z.land z 14) (region_bit r) = supports z (region_bit r).
Proof.
  intros H. unfold supports. rewrite <- Z.land_assoc. destruct r as [c| | |]; [now elim (H c)| | |]; reflexivity.
Qed.

Lemma send_objects_ok legacy z l : Forall (object_sendable z) l -> forall h, md_region (h_meta h) = Z.land z 14 ->
  no_error (o_sched (h_out h)) ->
  exists o, send_objects legacy h l = Ok (with_out h o) /\ sent (h_out h) o (objects_wire MInitialize l).
Proof.
  induction 1 as [|[r p] l (Hs & Hf & (r' & Ha) & Hp) _ IH]; intros h Hm Hn.
  - exists (h_out h). split; [now destruct h|]. now apply sent_nil.
  - cbn [fst snd] in *. cbn [send_objects]. unfold region_argument. rewrite Hm, supports_announced, Hf by exact Hs. cbn [negb].
    destruct (arrives_text r r' Ha) as (E & _ & _). rewrite E. cbn [obind].
    destruct (IH (handle_write h MInitialize [region_text r] (Some p)) Hm) as (o & Eo & So).
    + apply (handle_write_sent h MInitialize [region_text r] (Some p) Hn).
    + exists o. split; [exact Eo|]. cbn [objects_wire flat_map fst snd].
      eapply sent_trans; [|exact So]. apply (handle_write_sent h MInitialize [region_text r] (Some p) Hn).
Qed.

Lemma send_states_ok l : Forall state_sendable l -> forall h, no_error (o_sched (h_out h)) ->
  exists o, send_states h l = Ok (TRAX_OK, with_out h o) /\ sent (h_out h) o (objects_wire MState l).
Proof.
  induction 1 as [|[r p] l ((r' & Ha) & Hp) _ IH]; intros h Hn.
  - exists (h_out h). split; [now destruct h|]. now apply sent_nil.
  - cbn [fst snd] in *. cbn [send_states]. destruct (arrives_text r r' Ha) as (E & _ & _). rewrite E. cbn [obind].
    destruct (IH (handle_write h MState [region_text r] (Some p))) as (o & Eo & So).
    + apply (handle_write_sent h MState [region_text r] (Some p) Hn).
    + exists o. split; [exact Eo|]. cbn [objects_wire flat_map fst snd].
      eapply sent_trans; [|exact So]. apply (handle_write_sent h MState [region_text r] (Some p) Hn).
Qed.

(** ---- the server collects objects ---- *)
Definition collected (l : object_list) : list (option region * props) := map (fun o => (Some (fst o), snd o)) l.

Lemma wait_objects slack argc l : Forall state_sendable l -> forall fuel h images result acc p rest,
  ready (h_in h) (objects_wire MInitialize l ++ rest) ->
  exists l' t st, wait_mot_loop (List.length l + fuel) slack argc h images result acc p =
      wait_mot_loop fuel slack argc (with_in h t st) images (match l with [] => result | _ => TRAX_INITIALIZE end) (acc ++ collected l') p /\
    objects_arrive l l' /\ ready st rest.
Proof.
  induction 1 as [|[r q] l ((r' & Ha) & Hq) _ IH]; intros fuel h images result acc p rest Hr.
  - exists [], (h_type h), (h_in h). split; [|split; [constructor|exact Hr]]. cbn. rewrite app_nil_r. now destruct h.
  - cbn [fst snd] in *. destruct (arrives_text r r' Ha) as (_ & Ea & Ep).
    cbn [objects_wire flat_map fst snd] in Hr. rewrite <- app_assoc in Hr.
    destruct (handle_read_wire h MInitialize [region_text r] q _ Hq ltac:(cbn; now rewrite Ea) Hr) as (rr & st & Er & Et & Eg & Hm & Hsp & Hr').
    cbn [List.length plus wait_mot_loop]. rewrite Er. cbn [obind]. rewrite Et, Eg. rewrite Ep. cbn [obind].
    destruct (copy_new (rr_props rr) ALL_OVERWRITE Hm ltac:(now right)) as (d & Ed & Hd & Hdm). rewrite Ed. cbn [obind].
    destruct (IH fuel (with_in h (Some MInitialize) st) images TRAX_INITIALIZE (acc ++ [(Some r', d)]) p rest Hr') as (l' & t & st' & E & Hl & Hst).
    exists ((r', d) :: l'), t, st'. split; [|split; [|exact Hst]].
    + rewrite E. cbn [collected map fst snd]. rewrite <- app_assoc. cbn [app]. destruct l; reflexivity.
    + constructor; [|exact Hl]. split; [exact Ha|]. cbn [fst snd]. split; [|exact Hdm]. now apply (same_props_trans _ (rr_props rr)).
Qed.

Lemma mot_objects_ok l l' : objects_arrive l l' -> exists l'', mot_objects (collected l') = Ok l'' /\ objects_arrive l l''.
Proof.
  induction 1 as [|[r p] [r' p'] l l' (Ha & Hs & Hm) _ (l'' & E & H)]; [exists []; split; [reflexivity|constructor]|].
  cbn [fst snd] in *. cbn [collected map mot_objects fst snd]. rewrite (clone_arrives r r' Ha). cbn [obind].
  destruct (copy_new p' ALL_OVERWRITE Hm ltac:(now right)) as (d & Ed & Hd & Hdm). rewrite Ed. cbn [obind].
  fold (collected l'). rewrite E. cbn [obind]. exists ((r', d) :: l''). split; [reflexivity|]. constructor; [|exact H].
  split; [exact Ha|]. cbn [fst snd]. split; [|exact Hdm]. now apply (same_props_trans _ p').
Qed.

(** ---- the client collects states ---- *)
Lemma client_states l : Forall state_sendable l -> forall h acc p result rest, ready (h_in h) (objects_wire MState l ++ rest) ->
  exists l' t st, client_wait_loop (List.length l) h acc p result =
      Ok (match l with [] => result | _ => TRAX_STATE end, with_in h t st, Some (acc ++ l'), p) /\
    objects_arrive l l' /\ ready st rest.
Proof.
  induction 1 as [|[r q] l ((r' & Ha) & Hq) _ IH]; intros h acc p result rest Hr.
  - exists [], (h_type h), (h_in h). split; [|split; [constructor|exact Hr]]. cbn. rewrite app_nil_r. now destruct h.
  - cbn [fst snd] in *. destruct (arrives_text r r' Ha) as (_ & Ea & Ep).
    cbn [objects_wire flat_map fst snd] in Hr. rewrite <- app_assoc in Hr.
    destruct (handle_read_wire h MState [region_text r] q _ Hq ltac:(cbn; now rewrite Ea) Hr) as (rr & st & Er & Et & Eg & Hm & Hsp & Hr').
    cbn [List.length client_wait_loop]. rewrite Er. cbn [obind]. rewrite Et, Eg, Ep. cbn [obind].
    rewrite (clone_arrives r r' Ha). cbn [obind].
    destruct (copy_new (rr_props rr) ALL_OVERWRITE Hm ltac:(now right)) as (d & Ed & Hd & Hdm). rewrite Ed. cbn [obind].
    destruct (IH (with_in h (Some MState) st) (acc ++ [(r', d)]) p TRAX_STATE rest Hr') as (l' & t & st' & E & Hl & Hst).
    exists ((r', d) :: l'), t, st'. split; [|split; [|exact Hst]].
    + rewrite E, <- app_assoc. cbn [app]. destruct l; reflexivity.
    + constructor; [|exact Hl]. split; [exact Ha|]. cbn [fst snd]. split; [|exact Hdm]. now apply (same_props_trans _ (rr_props rr)).
Qed.

(** ---- one round ---- *)
Definition client_side (m : metadata) (multi : bool) (n : nat) (c : handle) : Prop :=
  h_server c = false /\ h_terminated c = false /\ is_version_4 c = true /\ md_region (h_meta c) = Z.land (md_region m) 14 /\
  md_channels (h_meta c) = md_channels m /\ is_multi_object c = Ok multi /\ h_objects c = Z.of_nat n /\
  no_error (o_sched (h_out c)) /\ ready (h_in c) [].
Definition server_side (m : metadata) (multi : bool) (n : nat) (s : handle) : Prop :=
  h_server s = true /\ h_terminated s = false /\ md_channels (h_meta s) = md_channels m /\ md_image (h_meta s) = md_image m /\
  is_multi_object s = Ok multi /\ h_objects s = Z.of_nat n /\ no_error (o_sched (h_out s)) /\ ready (h_in s) [].

Lemma clean_create : clean props_create.
Proof.
  split; [apply made_create|]. intros k v E. rewrite props_get_spec in E by apply props_create_ok.
  unfold props_create in E. rewrite sm_new_lookup in E. discriminate.
Qed.
Lemma clean_given p : match p with Some p => clean p | None => True end -> clean (given p).
Proof. destruct p; [auto|intros _; apply clean_create]. Qed.

Definition frame_bytes (objs : object_list) (texts : list (list N)) (p : option props) : list N :=
  objects_wire MInitialize objs ++ wire MFrame texts (props_enum (given p)).

Lemma client_frame_ok legacy slack m multi n c images ims objs p : client_side m multi n c ->
  1 <= md_channels m <= 7 -> images_arrive slack (md_channels m) (md_image m) images ims ->
  Forall (object_sendable (md_region m)) objs -> (multi = false -> (n + List.length objs <= 1)%nat) ->
  exists texts o, client_frame legacy c images (Some objs) p = Ok (TRAX_OK, with_out (set_objects (clear_error c) (Z.of_nat (n + List.length objs))) o) /\
    sent (h_out c) o (frame_bytes objs texts p) /\ forallb arg_ok texts = true /\
    image_list_count (md_channels m) = Ok (Z.of_nat (List.length texts)) /\
    decode_images slack (md_channels m) (md_image m) channel_ids texts = Ok (Some ims).
Proof.
  intros (Hs & Ht & Hv & Hr & Hc & Hm & Hn & Ho & _) Hch Him Hobj Hmul.
  destruct (images_exchange slack (md_channels m) (md_image m) images ims Hch Him) as (texts & Ei & Ea & En & _ & Ed).
  unfold client_frame. rewrite Hs. unfold alive. cbn [clear_error h_terminated]. rewrite Ht. cbn [negb].
  change (is_version_4 (clear_error c)) with (is_version_4 c). rewrite Hv.
  change (is_multi_object (clear_error c)) with (is_multi_object c). rewrite Hm.
  cbn [h_objects clear_error]. rewrite Hn. cbn [obind].
  assert (Em : (if 1 <? Z.of_nat n + Z.of_nat (List.length objs) then Ok (negb multi) else Ok false) = Ok false).
  { destruct multi; [now destruct (1 <? _)|]. specialize (Hmul eq_refl). now replace (1 <? _) with false by lia. }
  rewrite Em. cbn [obind].
  destruct (send_objects_ok legacy (md_region m) objs Hobj (clear_error c) Hr Ho) as (o1 & E1 & S1).
  rewrite E1. cbn [obind]. unfold send_frame.
  set (h2 := set_objects _ _). replace (md_channels (h_meta h2)) with (md_channels m) by (symmetry; exact Hc).
  rewrite Ei. cbn [obind]. rewrite all_texts_some. cbn [obind].
  pose proof (handle_write_sent h2 MFrame texts p (proj2 S1)) as S2.
  exists texts, (h_out (handle_write h2 MFrame texts p)). split.
  - do 3 f_equal. unfold handle_write, with_out, h2, set_objects, clear_error. cbn [h_server h_terminated h_version h_meta h_objects h_error h_type h_in h_out with_out].
    f_equal. rewrite Hn. lia.
  - split; [|split; [exact Ea|split; [exact En|]]].
    + unfold frame_bytes. eapply sent_trans; [exact S1|exact S2].
    + specialize (Ed []). now rewrite app_nil_r in Ed.
Qed.

Lemma read_frame slack m texts q ims fuel h images result acc : clean q -> forallb arg_ok texts = true ->
  md_channels (h_meta h) = md_channels m -> md_image (h_meta h) = md_image m ->
  decode_images slack (md_channels m) (md_image m) channel_ids texts = Ok (Some ims) ->
  result = TRAX_ERROR \/ (result = TRAX_INITIALIZE /\ acc <> []) ->
  ready (h_in h) (wire MFrame texts (props_enum q)) ->
  exists st d, wait_mot_loop (S fuel) slack (Z.of_nat (List.length texts)) h images result acc (Some props_create) =
      mot_end (if negb (result =? TRAX_INITIALIZE) || (0 <? h_objects h) then TRAX_FRAME else result)
        (with_in h (Some MFrame) st) (Some ims) acc (Some d) /\
    ready st [] /\ same_props d q.
Proof.
  intros Hq Ha Hc Hi Hd Hres Hr. rewrite <- (app_nil_r (wire _ _ _)) in Hr.
  destruct (handle_read_wire h MFrame texts q [] Hq Ha Hr) as (rr & st & Er & Et & Eg & Hm & Hsp & Hr').
  cbn [wait_mot_loop]. rewrite Er. cbn [obind]. rewrite Et, Eg.
  replace ((result =? TRAX_INITIALIZE) && (List.length acc =? 0)%nat) with false
    by (destruct Hres as [->|(-> & Hacc)]; [reflexivity|destruct acc; [now elim Hacc|reflexivity]]).
  rewrite Z.eqb_refl. cbn [negb h_meta with_in h_objects]. rewrite Hc, Hi, Hd. cbn [obind].
  destruct (copy_new (rr_props rr) ALL_OVERWRITE Hm ltac:(now right)) as (d & Ed & Hd' & Hdm).
  unfold copy_out. rewrite Ed. cbn [obind]. exists st, d. split; [reflexivity|]. split; [exact Hr'|].
  now apply (same_props_trans _ (rr_props rr)).
Qed.

Definition server_core (m : metadata) (multi : bool) (n : nat) (s : handle) : Prop :=
  h_server s = true /\ h_terminated s = false /\ md_channels (h_meta s) = md_channels m /\ md_image (h_meta s) = md_image m /\
  is_multi_object s = Ok multi /\ h_objects s = Z.of_nat n /\ no_error (o_sched (h_out s)).

Lemma sendable_state z objs : Forall (object_sendable z) objs -> Forall state_sendable objs.
Proof. apply Forall_impl. intros o (_ & _ & H & Hc). now split. Qed.
Lemma collected_nil l : collected l = [] -> l = [].
Proof. now destruct l. Qed.

(** The objects and the frame message, [result] being TRAX_INITIALIZE after an empty initialize message. *)
Lemma server_collect slack m multi n s objs texts p ims fuel images result : server_core m multi n s ->
  forallb arg_ok texts = true -> decode_images slack (md_channels m) (md_image m) channel_ids texts = Ok (Some ims) ->
  Forall state_sendable objs -> clean (given p) -> result = TRAX_ERROR \/ (result = TRAX_INITIALIZE /\ objs <> []) ->
  (1 <= n + List.length objs)%nat ->
  ready (h_in s) (frame_bytes objs texts p) ->
  exists s' l d, wait_mot_loop (List.length objs + S fuel) slack (Z.of_nat (List.length texts)) s images result [] (Some props_create) =
      Ok (if Nat.eqb n 0 then TRAX_INITIALIZE else TRAX_FRAME, s', Some ims, match objs with [] => None | _ => Some l end, Some d) /\
    objects_arrive objs l /\ same_props d (given p) /\ server_core m multi (n + List.length objs) s' /\ ready (h_in s') [] /\ h_out s' = h_out s.
Proof.
  intros (Hs & Ht & Hc & Hi & Hm & Hn & Ho) Ha Hd Hobj Hp Hres H1 Hr. unfold frame_bytes in Hr.
  destruct (wait_objects slack (Z.of_nat (List.length texts)) objs Hobj (S fuel) s images result [] (Some props_create) _ Hr)
    as (l' & t & st & E & Hl & Hst). rewrite E. cbn [app].
  assert (Hres' : match objs with [] => result | _ => TRAX_INITIALIZE end = TRAX_ERROR \/
    (match objs with [] => result | _ => TRAX_INITIALIZE end = TRAX_INITIALIZE /\ collected l' <> [])).
  { destruct objs as [|o objs].
    - destruct Hres as [->|(_ & H)]; [now left|now elim H].
    - right. split; [reflexivity|]. inversion Hl; subst. discriminate. }
  destruct (read_frame slack m texts (given p) ims fuel (with_in s t st) images _ (collected l') Hp Ha Hc Hi Hd Hres' Hst)
    as (st' & d & E' & Hst' & Hsd). rewrite E'. clear E E' Hres'.
  destruct (mot_objects_ok objs l' Hl) as (l & El & Hl'). unfold mot_end.
  assert (Hlen : List.length (collected l') = List.length objs).
  { unfold collected. rewrite map_length. symmetry. exact (Forall2_length _ _ _ Hl). }
  destruct objs as [|o objs].
  - inversion Hl; subst. cbn [collected map] in *. inversion Hl'; subst.
    eexists. exists [], d. split; [|split; [constructor|split; [exact Hsd|]]].
    + cbn [List.length] in H1. do 5 f_equal. destruct Hres as [->|(-> & H)]; [|now elim H]. cbn.
      now replace (n =? 0)%nat with false by (symmetry; apply Nat.eqb_neq; lia).
    + cbn [List.length]. rewrite Nat.add_0_r. split; [|split; [exact Hst'|reflexivity]].
      unfold server_core; repeat match goal with |- _ /\ _ => split end; assumption.
  - destruct (collected l') as [|c0 cs] eqn:Ec; [discriminate|]. rewrite El. cbn [obind].
    eexists. exists l, d. split; [|split; [exact Hl'|split; [exact Hsd|]]].
    + cbn [h_objects with_in]. rewrite Hn. do 4 f_equal.
      destruct n; [reflexivity|]. rewrite Bool.orb_true_intro; [reflexivity|]. right. lia.
    + rewrite Hlen. split; [|split; [exact Hst'|reflexivity]].
      unfold server_core; repeat match goal with |- _ /\ _ => split end; try assumption. cbn [h_objects set_objects]. lia.
Qed.

Definition reset_bytes (reset : bool) : list N := if reset then wire MInitialize [] (props_enum props_create) else [].

Lemma server_wait_ok slack m multi n s (reset : bool) objs texts p ims : server_core m multi n s ->
  image_list_count (md_channels m) = Ok (Z.of_nat (List.length texts)) ->
  forallb arg_ok texts = true -> decode_images slack (md_channels m) (md_image m) channel_ids texts = Ok (Some ims) ->
  Forall state_sendable objs -> clean (given p) -> (reset = true -> objs <> []) ->
  (1 <= (if reset then 0 else n) + List.length objs)%nat ->
  ready (h_in s) (reset_bytes reset ++ frame_bytes objs texts p) ->
  exists s' l d, server_wait_mot (3 + List.length objs) slack s None (Some props_create) =
      Ok (if reset || Nat.eqb n 0 then TRAX_INITIALIZE else TRAX_FRAME, s', Some ims, match objs with [] => None | _ => Some l end, Some d) /\
    objects_arrive objs l /\ same_props d (given p) /\ server_core m multi ((if reset then 0 else n) + List.length objs) s' /\
    ready (h_in s') [] /\ h_out s' = h_out s.
Proof.
  intros Hcore Hcnt Ha Hd Hobj Hp Hne H1 Hr. pose proof Hcore as (Hs & Ht & Hc & Hi & Hm & Hn & Ho).
  assert (Ew : server_wait_mot (3 + List.length objs) slack s None (Some props_create) =
    wait_mot_loop (3 + List.length objs) slack (Z.of_nat (List.length texts)) (clear_error s) None TRAX_ERROR [] (Some props_create)).
  { unfold server_wait_mot. rewrite Hs. cbn [negb]. unfold alive. cbn [h_terminated clear_error]. rewrite Ht. cbn [negb h_meta clear_error].
    rewrite Hc, Hcnt. reflexivity. }
  rewrite Ew. clear Ew. destruct reset; cbn [orb reset_bytes] in *.
  - change (ready (h_in (clear_error s)) (wire MInitialize [] (props_enum props_create) ++ frame_bytes objs texts p)) in Hr.
    destruct (handle_read_wire (clear_error s) MInitialize [] props_create _ clean_create eq_refl Hr) as (rr & st & Er & Et & Eg & _ & _ & Hr').
    change (3 + List.length objs)%nat with (S (2 + List.length objs)). cbn [wait_mot_loop]. rewrite Er. cbn [obind]. rewrite Et, Eg. cbn [List.length].
    set (s1 := set_objects (with_in (clear_error s) (Some MInitialize) st) 0).
    assert (Hc1 : server_core m multi 0 s1) by (unfold server_core; repeat match goal with |- _ /\ _ => split end; assumption || reflexivity).
    replace (2 + List.length objs)%nat with (List.length objs + 2)%nat by lia.
    destruct (server_collect slack m multi 0 s1 objs texts p ims 1 None TRAX_INITIALIZE Hc1 Ha Hd Hobj Hp) as (s' & l & d & E & HH).
    + right. auto.
    + exact H1.
    + exact Hr'.
    + exists s', l, d. split; [exact E|exact HH].
  - assert (Hc1 : server_core m multi n (clear_error s)) by (unfold server_core; repeat match goal with |- _ /\ _ => split end; assumption).
    replace (3 + List.length objs)%nat with (List.length objs + 3)%nat by lia.
    destruct (server_collect slack m multi n (clear_error s) objs texts p ims 2 None TRAX_ERROR Hc1 Ha Hd Hobj Hp) as (s' & l & d & E & HH).
    + now left.
    + exact H1.
    + exact Hr.
    + exists s', l, d. split; [exact E|exact HH].
Qed.

Definition client_core (m : metadata) (multi : bool) (n : nat) (c : handle) : Prop :=
  h_server c = false /\ h_terminated c = false /\ is_version_4 c = true /\ md_region (h_meta c) = Z.land (md_region m) 14 /\
  md_channels (h_meta c) = md_channels m /\ is_multi_object c = Ok multi /\ h_objects c = Z.of_nat n /\
  no_error (o_sched (h_out c)).

Lemma client_send_ok legacy slack m multi n c r ims : client_side m multi n c -> 1 <= md_channels m <= 7 ->
  images_arrive slack (md_channels m) (md_image m) (rd_images r) ims ->
  Forall (object_sendable (md_region m)) (rd_objects r) -> (rd_init r = true -> rd_objects r <> []) ->
  (multi = false -> (tracked n r <= 1)%nat) ->
  exists texts c', (if rd_init r then client_initialize legacy c (rd_images r) (rd_objects r) (rd_props r)
        else client_frame legacy c (rd_images r) (Some (rd_objects r)) (rd_props r)) = Ok (TRAX_OK, c') /\
    client_core m multi (tracked n r) c' /\ h_in c' = h_in c /\ h_type c' = h_type c /\
    sent (h_out c) (h_out c') (reset_bytes (rd_init r && negb (Nat.eqb n 0)) ++ frame_bytes (rd_objects r) texts (rd_props r)) /\
    forallb arg_ok texts = true /\
    image_list_count (md_channels m) = Ok (Z.of_nat (List.length texts)) /\
    decode_images slack (md_channels m) (md_image m) channel_ids texts = Ok (Some ims).
Proof.
  intros Hside Hch Him Hobj Hne Hmul. pose proof Hside as (Hs & Ht & Hv & Hr & Hc & Hm & Hn & Ho & Hin).
  unfold tracked in *. destruct (rd_init r); cbn [andb].
  - specialize (Hne eq_refl).
    assert (Hl : (1 <= List.length (rd_objects r))%nat) by (destruct (rd_objects r); [now elim Hne|cbn [List.length]; lia]).
    unfold client_initialize. rewrite Hs. unfold alive. cbn [clear_error h_terminated]. rewrite Ht. cbn [negb].
    replace (Z.of_nat (List.length (rd_objects r)) <? 1) with false by lia.
    change (is_multi_object (clear_error c)) with (is_multi_object c). rewrite Hm. cbn [obind].
    replace (negb multi && (1 <? Z.of_nat (List.length (rd_objects r)))) with false
      by (destruct multi; [reflexivity|]; specialize (Hmul eq_refl); cbn; lia).
    change (is_version_4 (clear_error c)) with (is_version_4 c). rewrite Hv.
    set (h1 := if 0 <? _ then _ else _).
    assert (Hh1 : client_side m multi 0 h1 /\ sent (h_out c) (h_out h1) (reset_bytes (negb (Nat.eqb n 0))) /\
      h_in h1 = h_in c /\ h_type h1 = h_type c).
    { unfold h1. cbn [h_objects clear_error]. rewrite Hn. destruct n as [|n].
      - cbn [Nat.eqb negb reset_bytes]. replace (0 <? Z.of_nat 0) with false by reflexivity.
        split; [|split; [now apply sent_nil|now split]]. unfold client_side.
        repeat match goal with |- _ /\ _ => split end; assumption.
      - cbn [Nat.eqb negb reset_bytes]. replace (0 <? Z.of_nat (S n)) with true by lia.
        pose proof (handle_write_sent (clear_error c) MInitialize [] None Ho) as HS.
        split; [|split; [exact HS|now split]]. unfold client_side.
        repeat match goal with |- _ /\ _ => split end; try assumption; try reflexivity. exact (proj2 HS). }
    destruct Hh1 as (Hside1 & S1 & I1 & T1).
    destruct (client_frame_ok legacy slack m multi 0 h1 (rd_images r) ims (rd_objects r) (rd_props r) Hside1 Hch Him Hobj)
      as (texts & o & E & So & A & B & C); [intros HH; specialize (Hmul HH); lia|].
    exists texts. eexists. split; [exact E|].
    split; [|split; [exact I1|split; [exact T1|split; [eapply sent_trans; [exact S1|exact So]|auto]]]].
    destruct Hside1 as (? & ? & ? & ? & ? & ? & ? & ? & ?). unfold client_core.
    repeat match goal with |- _ /\ _ => split end; try assumption; try reflexivity. exact (proj2 So).
  - destruct (client_frame_ok legacy slack m multi n c (rd_images r) ims (rd_objects r) (rd_props r) Hside Hch Him Hobj Hmul)
      as (texts & o & E & So & A & B & C).
    exists texts. eexists. split; [exact E|]. cbn [reset_bytes app].
    split; [|split; [reflexivity|split; [reflexivity|split; [exact So|auto]]]]. unfold client_core.
    repeat match goal with |- _ /\ _ => split end; try assumption; try reflexivity. exact (proj2 So).
Qed.

Lemma reply_ok m multi n s l : server_core m multi n s -> List.length l = n -> (multi = false -> n = 1%nat) -> Forall state_sendable l ->
  exists o, server_reply_mot s l = Ok (TRAX_OK, with_out (clear_error s) o) /\ sent (h_out s) o (objects_wire MState l).
Proof.
  intros (Hs & Ht & Hc & Hi & Hm & Hn & Ho) Hl Hmul Hst. unfold server_reply_mot. rewrite Hs. cbn [negb].
  unfold alive. cbn [clear_error h_terminated]. rewrite Ht. cbn [negb].
  change (is_multi_object (clear_error s)) with (is_multi_object s). rewrite Hm. cbn [obind h_objects clear_error]. rewrite Hn, Hl, Z.eqb_refl.
  replace (negb multi && negb (Z.of_nat n =? 1)) with false by (destruct multi; [reflexivity|]; rewrite Hmul by reflexivity; reflexivity).
  cbn [negb]. exact (send_states_ok l Hst (clear_error s) Ho).
Qed.

Lemma round_delivers legacy slack m multi n c s r : client_side m multi n c -> server_side m multi n s ->
  1 <= md_channels m <= 7 -> round_ok slack m multi n r ->
  exists c' s' sn, play_round legacy slack c s r = Ok (c', s', sn) /\ client_side m multi (tracked n r) c' /\
    server_side m multi (tracked n r) s' /\ seen_ok slack m n r sn.
Proof.
  intros Hcs Hss Hch (Hcut1 & Hcut2 & (ims & Him) & Hobj & Hp & Hne & Htr & Hmul & Hlen & Hst).
  destruct Hss as (Hs & Ht & Hc & Hi & Hm & Hn & Ho & Hin).
  destruct (client_send_ok legacy slack m multi n c r ims Hcs Hch Him Hobj Hne Hmul) as (texts & c1 & E1 & Hc1 & I1 & T1 & S1 & A & B & D).
  unfold play_round. rewrite E1. cbn [obind]. rewrite (sent_written c c1 _ S1).
  set (reset := rd_init r && negb (n =? 0)%nat) in *. set (bytes := reset_bytes reset ++ _) in *.
  set (s0 := arrive (rd_cut1 r) bytes s).
  assert (Hs0 : server_core m multi n s0) by (unfold server_core; repeat match goal with |- _ /\ _ => split end; assumption).
  assert (Hr0 : ready (h_in s0) bytes) by (now apply arrive_ready).
  assert (Htr' : ((if reset then 0 else n) + List.length (rd_objects r))%nat = tracked n r).
  { unfold reset, tracked. destruct (rd_init r); [|reflexivity]. destruct n; reflexivity. }
  destruct (server_wait_ok slack m multi n s0 reset (rd_objects r) texts (rd_props r) ims Hs0 B A D (sendable_state _ _ Hobj) (clean_given _ Hp))
    as (s1 & l & d & E2 & Hl & Hd & Hs1 & Hr1 & O1); [| rewrite Htr'; exact Htr | exact Hr0 |].
  { unfold reset. intros Hx. apply andb_true_iff in Hx. now apply Hne. }
  rewrite Htr' in Hs1. rewrite E2. cbn [obind].
  destruct (reply_ok m multi (tracked n r) s1 (rd_reply r) Hs1 Hlen) as (o2 & E3 & S3); [intros Hx; specialize (Hmul Hx); lia|exact Hst|].
  rewrite E3. cbn [obind].
  set (s2 := with_out (clear_error s1) o2). rewrite (sent_written s1 s2 (objects_wire MState (rd_reply r)) S3).
  set (c2 := arrive (rd_cut2 r) _ c1).
  assert (Hr2 : ready (h_in c2) (objects_wire MState (rd_reply r) ++ [])).
  { rewrite app_nil_r. apply arrive_ready; [exact Hcut2|]. rewrite I1. apply Hcs. }
  destruct (client_states (rd_reply r) Hst c2 [] (Some props_create) TRAX_ERROR [] Hr2) as (lr & t & st & E4 & Hlr & Hr3).
  assert (E5 : client_wait c2 (Some props_create) = Ok (TRAX_STATE, with_in c2 t st, Some lr, Some props_create)).
  { destruct Hc1 as (K1 & K2 & _ & _ & _ & _ & K3 & _). unfold client_wait, alive. cbn [h_server h_terminated c2 arrive with_in].
    rewrite K1, K2. cbn [negb]. replace (Z.to_nat (h_objects c2)) with (List.length (rd_reply r)).
    - rewrite E4. destruct (rd_reply r); [exfalso; cbn [List.length] in Hlen; lia|reflexivity].
    - change (h_objects c2) with (h_objects c1). rewrite K3, Nat2Z.id. exact Hlen. }
  rewrite E5. cbn [obind]. eexists. eexists. eexists. split; [reflexivity|].
  destruct Hc1 as (K1 & K2 & K3 & K4 & K5 & K6 & K7 & K8). destruct Hs1 as (L1 & L2 & L3 & L4 & L5 & L6 & L7).
  split; [unfold client_side; repeat match goal with |- _ /\ _ => split end; assumption|].
  split; [unfold server_side; repeat match goal with |- _ /\ _ => split end; try assumption; exact (proj2 S3)|].
  unfold seen_ok. cbn [sn_sent sn_event sn_images sn_objects sn_props sn_replied sn_state sn_result].
  split; [reflexivity|]. split; [unfold reset; destruct (rd_init r), n; reflexivity|].
  split; [exists ims; split; [reflexivity|exact Him]|].
  split; [destruct (rd_objects r); [reflexivity|now exists l]|].
  split; [now exists d|]. split; [reflexivity|]. split; [reflexivity|]. now exists lr.
Qed.

Lemma play_delivers legacy slack m multi : 1 <= md_channels m <= 7 -> forall rs n c s, client_side m multi n c -> server_side m multi n s ->
  rounds_ok slack m multi n rs ->
  exists c' s' sns, play legacy slack c s rs = Ok (c', s', sns) /\ client_side m multi (tracked_all n rs) c' /\
    server_side m multi (tracked_all n rs) s' /\ all_seen slack m n rs sns.
Proof.
  intros Hch. induction rs as [|r rs IH]; intros n c s Hc Hs H; cbn [rounds_ok play] in *.
  - exists c, s, []. cbn [tracked_all all_seen]. auto.
  - destruct H as (Hr & Hrs). destruct (round_delivers legacy slack m multi n c s r Hc Hs Hch Hr) as (c1 & s1 & sn & E & Hc1 & Hs1 & Hsn).
    rewrite E. cbn [obind]. destruct (IH _ _ _ Hc1 Hs1 Hrs) as (c2 & s2 & sns & E' & Hc2 & Hs2 & Hsns). rewrite E'. cbn [obind].
    exists c2, s2, (sn :: sns). cbn [tracked_all all_seen]. auto.
Qed.

(** ---- versions 1 to 3 ---- *)
Definition sclient (m : metadata) (n : Z) (c : handle) : Prop :=
  h_server c = false /\ h_terminated c = false /\ is_version_4 c = false /\ md_region (h_meta c) = Z.land (md_region m) 14 /\
  md_channels (h_meta c) = md_channels m /\ is_multi_object c = Ok false /\ h_objects c = n /\
  no_error (o_sched (h_out c)) /\ ready (h_in c) [].
Definition sserver (m : metadata) (s : handle) : Prop :=
  h_server s = true /\ h_terminated s = false /\ is_version_4 s = false /\ md_channels (h_meta s) = md_channels m /\ md_image (h_meta s) = md_image m /\
  no_error (o_sched (h_out s)) /\ ready (h_in s) [].

Lemma sclient_frame_ok legacy slack m c images ims p : sclient m 1 c -> 1 <= md_channels m <= 7 ->
  images_arrive slack (md_channels m) (md_image m) images ims ->
  exists texts o, client_frame legacy c images None p = Ok (TRAX_OK, with_out (clear_error c) o) /\
    sent (h_out c) o (wire MFrame texts (props_enum (given p))) /\ forallb arg_ok texts = true /\
    image_list_count (md_channels m) = Ok (Z.of_nat (List.length texts)) /\
    decode_images slack (md_channels m) (md_image m) channel_ids texts = Ok (Some ims).
Proof.
  intros (Hs & Ht & Hv & Hr & Hc & Hm & Hn & Ho & _) Hch Him.
  destruct (images_exchange slack (md_channels m) (md_image m) images ims Hch Him) as (texts & Ei & Ea & En & _ & Ed).
  unfold client_frame. rewrite Hs. unfold alive. cbn [clear_error h_terminated]. rewrite Ht. cbn [negb].
  change (is_version_4 (clear_error c)) with (is_version_4 c). rewrite Hv. cbn [List.length]. change (0 <? Z.of_nat 0) with false. cbn iota.
  unfold send_frame. change (h_meta (clear_error c)) with (h_meta c). rewrite Hc, Ei. cbn [obind]. rewrite all_texts_some. cbn [obind].
  pose proof (handle_write_sent (clear_error c) MFrame texts p Ho) as S2.
  exists texts, (h_out (handle_write (clear_error c) MFrame texts p)). split; [reflexivity|]. split; [exact S2|].
  split; [exact Ea|]. split; [exact En|]. specialize (Ed []). now rewrite app_nil_r in Ed.
Qed.

Lemma sclient_init_ok legacy slack m n c images ims reg reg' p : sclient m n c -> 1 <= md_channels m <= 7 ->
  images_arrive slack (md_channels m) (md_image m) images ims ->
  (forall code, reg <> RSpecial code) -> supports (md_region m) (region_bit reg) = true -> region_arrives reg reg' ->
  exists texts o, client_initialize legacy c images [(reg, props_create)] p = Ok (TRAX_OK, with_out (set_objects (clear_error c) 1) o) /\
    sent (h_out c) o (wire MInitialize (texts ++ [region_text reg]) (props_enum (given p))) /\ forallb arg_ok (texts ++ [region_text reg]) = true /\
    image_list_count (md_channels m) = Ok (Z.of_nat (List.length texts)) /\
    List.length (filter (supports (md_channels m)) channel_ids) = List.length texts /\
    decode_images slack (md_channels m) (md_image m) channel_ids (texts ++ [region_text reg]) = Ok (Some ims).
Proof.
  intros (Hs & Ht & Hv & Hr & Hc & Hm & Hn & Ho & _) Hch Him Hsp Hsup Harr.
  destruct (images_exchange slack (md_channels m) (md_image m) images ims Hch Him) as (texts & Ei & Ea & En & El & Ed).
  destruct (arrives_text reg reg' Harr) as (Er & Era & _).
  unfold client_initialize. rewrite Hs. unfold alive. cbn [clear_error h_terminated]. rewrite Ht. cbn [negb List.length].
  change (Z.of_nat 1 <? 1) with false. cbn iota. change (is_multi_object (clear_error c)) with (is_multi_object c). rewrite Hm. cbn [obind negb].
  change (true && (1 <? Z.of_nat 1)) with false. cbn iota. change (is_version_4 (clear_error c)) with (is_version_4 c). rewrite Hv.
  replace (region_bit reg =? 1) with false by (destruct reg; [now elim (Hsp code)|reflexivity..]).
  change (h_meta (clear_error c)) with (h_meta c). rewrite Hc, Ei. cbn [obind].
  unfold region_argument. rewrite Hr, supports_announced, Hsup by exact Hsp. cbn [negb]. rewrite Er. cbn [obind].
  rewrite all_texts_some. cbn [obind].
  pose proof (handle_write_sent (clear_error c) MInitialize (texts ++ [region_text reg]) p Ho) as S2.
  exists texts, (h_out (handle_write (clear_error c) MInitialize (texts ++ [region_text reg]) p)). split; [reflexivity|]. split; [exact S2|].
  split; [rewrite forallb_app, Ea; cbn [forallb]; now rewrite Era|]. split; [exact En|]. split; [exact El|]. apply Ed.
Qed.

Lemma sround_delivers legacy slack m n c s r : sclient m n c -> sserver m s -> 1 <= md_channels m <= 7 ->
  sround_ok slack m r -> n = 1 \/ sr_object r <> None ->
  exists c' s' sn, play_sround legacy slack c s r = Ok (c', s', sn) /\ sclient m 1 c' /\ sserver m s' /\ sseen_ok slack m r sn.
Proof.
  intros Hcs Hss Hch (Hcut1 & Hcut2 & (ims & Him) & Hobj & Hp & (Hrep & Hrp)) Hn.
  destruct Hss as (Hs & Ht & Hv & Hc & Hi & Ho & Hin). destruct r as [obj images p [q d] cut1 cut2].
  cbn [sr_object sr_images sr_props sr_reply sr_cut1 sr_cut2 fst snd] in *.
  (* the request *)
  assert (exists c1 ty args texts, match obj with
      | Some reg => client_initialize legacy c images [(reg, props_create)] p
      | None => client_frame legacy c images None p end = Ok (TRAX_OK, c1) /\
    sclient m 1 c1 /\ h_in c1 = h_in c /\ sent (h_out c) (h_out c1) (wire ty args (props_enum (given p))) /\
    image_list_count (md_channels m) = Ok (Z.of_nat (List.length texts)) /\ forallb arg_ok args = true /\
    decode_images slack (md_channels m) (md_image m) channel_ids args = Ok (Some ims) /\
    List.length (filter (supports (md_channels m)) channel_ids) = List.length texts /\
    match obj with Some reg => ty = MInitialize /\ args = texts ++ [region_text reg] | None => ty = MFrame /\ args = texts end)
    as (c1 & ty & args & texts & E1 & Hc1 & I1 & S1 & B & A & D & F & Hty).
  { destruct obj as [reg|].
    - destruct Hobj as (Hsp & Hsup & reg' & Harr).
      destruct (sclient_init_ok legacy slack m n c images ims reg reg' p Hcs Hch Him Hsp Hsup Harr) as (texts & o & E & S & A & B & F & D).
      eexists. exists MInitialize, (texts ++ [region_text reg]), texts. split; [exact E|].
      destruct Hcs as (K1 & K2 & K3 & K4 & K5 & K6 & K7 & K8 & K9).
      split; [|split; [reflexivity|split; [exact S|auto 10]]]. unfold sclient. repeat match goal with |- _ /\ _ => split end; try assumption; try reflexivity.
      exact (proj2 S).
    - destruct Hn as [->|Hn]; [|now elim Hn].
      destruct (sclient_frame_ok legacy slack m c images ims p Hcs Hch Him) as (texts & o & E & S & A & B & D).
      eexists. exists MFrame, texts, texts. split; [exact E|].
      destruct Hcs as (K1 & K2 & K3 & K4 & K5 & K6 & K7 & K8 & K9).
      split; [|split; [reflexivity|split; [exact S|split; [exact B|split; [exact A|split; [exact D|split; [|auto]]]]]]].
      + unfold sclient. repeat match goal with |- _ /\ _ => split end; try assumption; try reflexivity. exact (proj2 S).
      + rewrite count_channels in B by exact Hch. apply Nat2Z.inj. congruence. }
  unfold play_sround. cbn [sr_object sr_images sr_props sr_reply sr_cut1 sr_cut2 fst snd]. rewrite E1. cbn [obind].
  rewrite (sent_written c c1 _ S1). set (s0 := arrive cut1 _ s).
  assert (Hr0 : ready (h_in s0) (wire ty args (props_enum (given p)) ++ [])) by (rewrite app_nil_r; now apply arrive_ready).
  destruct (handle_read_wire (clear_error s0) ty args (given p) [] (clean_given _ Hp) A Hr0) as (rr & st & Er & Et & Eg & Hm & Hsp & Hr1).
  destruct (copy_new (rr_props rr) ALL_OVERWRITE Hm ltac:(now right)) as (dd & Ed & Hd' & _).
  set (s1 := with_in (clear_error s0) (Some ty) st) in *.
  assert (exists s2, server_wait_sot slack s0 None None (Some props_create) =
      Ok (match obj with Some _ => TRAX_INITIALIZE | None => TRAX_FRAME end, s2, Some ims,
          match obj with Some reg => match region_parse (region_text reg) with Ok (_, x) => x | _ => None end | None => None end, Some dd) /\
      h_server s2 = true /\ h_terminated s2 = false /\ is_version_4 s2 = false /\ h_meta s2 = h_meta s /\ h_out s2 = h_out s /\ h_in s2 = st)
    as (s2 & E2 & L1 & L2 & L3 & L4 & L5 & L6).
  { unfold server_wait_sot. change (h_server s0) with (h_server s). rewrite Hs. cbn [negb]. unfold alive.
    change (h_terminated (clear_error s0)) with (h_terminated s). rewrite Ht. cbn [negb].
    change (is_version_4 (clear_error s0)) with (is_version_4 s). rewrite Hv.
    change (md_channels (h_meta (clear_error s0))) with (md_channels (h_meta s)). rewrite Hc, B. cbn [obind]. rewrite Er. cbn [obind].
    rewrite Et, Eg. change (md_channels (h_meta s1)) with (md_channels (h_meta s)). change (md_image (h_meta s1)) with (md_image (h_meta s)).
    rewrite Hc, Hi. destruct obj as [reg|].
    - destruct Hty as (-> & ->). rewrite app_length. cbn [List.length].
      replace (Z.of_nat (List.length texts + 1) =? Z.of_nat (List.length texts) + 1) with true by lia. cbn [negb]. rewrite D. cbn [obind].
      rewrite F, nth_error_app2, Nat.sub_diag by lia. cbn [nth_error]. destruct Hobj as (_ & _ & reg' & Harr).
      destruct (arrives_text reg reg' Harr) as (_ & _ & Pr). rewrite Pr. cbn [obind]. unfold copy_out. rewrite Ed. cbn [obind].
      eexists. split; [reflexivity|]. repeat match goal with |- _ /\ _ => split end; assumption || reflexivity.
    - destruct Hty as (-> & ->). rewrite Z.eqb_refl. cbn [negb]. rewrite D. cbn [obind]. unfold copy_out. rewrite Ed. cbn [obind].
      eexists. split; [reflexivity|]. repeat match goal with |- _ /\ _ => split end; assumption || reflexivity. }
  rewrite E2. cbn [obind].
  destruct Hrep as (q' & Hq'). destruct (arrives_text q q' Hq') as (Eq & Aq & Pq).
  assert (E3 : server_reply_sot s2 q (Some d) = Ok (TRAX_OK, handle_write (clear_error s2) MState [region_text q] (Some d))).
  { unfold server_reply_sot. rewrite L1. cbn [negb]. unfold alive. change (h_terminated (clear_error s2)) with (h_terminated s2). rewrite L2. cbn [negb].
    change (is_version_4 (clear_error s2)) with (is_version_4 s2). rewrite L3, Eq. reflexivity. }
  rewrite E3. cbn [obind]. pose proof (handle_write_sent (clear_error s2) MState [region_text q] (Some d)) as S3.
  change (h_out (clear_error s2)) with (h_out s2) in S3. rewrite L5 in S3. specialize (S3 Ho). rewrite <- L5 in S3.
  rewrite (sent_written s2 _ _ S3). cbn [given]. set (c2 := arrive cut2 _ c1).
  destruct Hc1 as (K1 & K2 & K3 & K4 & K5 & K6 & K7 & K8 & K9).
  assert (Hr2 : ready (h_in c2) (objects_wire MState [(q, d)] ++ [])).
  { cbn [objects_wire flat_map fst snd]. rewrite !app_nil_r. now apply arrive_ready. }
  destruct (client_states [(q, d)] ltac:(constructor; [split; [now exists q'|exact Hrp]|constructor]) c2 [] (Some props_create) TRAX_ERROR [] Hr2)
    as (lr & t & st' & E4 & Hlr & Hr3).
  assert (E5 : client_wait c2 (Some props_create) = Ok (TRAX_STATE, with_in c2 t st', Some lr, Some props_create)).
  { unfold client_wait, alive. change (h_server c2) with (h_server c1). change (h_terminated c2) with (h_terminated c1).
    rewrite K1, K2. cbn [negb]. change (h_objects c2) with (h_objects c1). rewrite K7. exact E4. }
  rewrite E5. cbn [obind]. eexists. eexists. eexists. split; [reflexivity|].
  split; [unfold sclient; repeat match goal with |- _ /\ _ => split end; assumption|].
  split.
  { unfold sserver. cbn [handle_write with_out clear_error h_server h_terminated is_version_4 h_version h_meta h_in]. rewrite L4, L6.
    repeat match goal with |- _ /\ _ => split end; try assumption. exact (proj2 S3). }
  unfold sseen_ok. cbn [ss_sent ss_event ss_images ss_region ss_props ss_replied ss_state ss_result sr_object sr_images sr_props sr_reply].
  split; [reflexivity|]. split; [reflexivity|]. split; [exists ims; split; [reflexivity|exact Him]|].
  split.
  { destruct obj as [reg|]; [|reflexivity]. destruct Hobj as (_ & _ & reg' & Harr). destruct (arrives_text reg reg' Harr) as (_ & _ & Pr).
    rewrite Pr. now exists reg'. }
  split; [exists dd; split; [reflexivity|now apply (same_props_trans _ (rr_props rr))]|]. split; [reflexivity|]. split; [reflexivity|]. now exists lr.
Qed.

Lemma splay_delivers legacy slack m : 1 <= md_channels m <= 7 -> forall rs n c s, sclient m n c -> sserver m s ->
  Forall (sround_ok slack m) rs -> n = 1 \/ match rs with [] => True | r :: _ => sr_object r <> None end ->
  exists c' s' sns, splay legacy slack c s rs = Ok (c', s', sns) /\ Forall2 (sseen_ok slack m) rs sns.
Proof.
  intros Hch. induction rs as [|r rs IH]; intros n c s Hc Hs H Hn; cbn [splay].
  - exists c, s, []. now split.
  - inversion H as [|? ? Hr Hrs]; subst.
    destruct (sround_delivers legacy slack m n c s r Hc Hs Hch Hr Hn) as (c1 & s1 & sn & E & Hc1 & Hs1 & Hsn).
    rewrite E. cbn [obind]. destruct (IH 1 c1 s1 Hc1 Hs1 Hrs ltac:(now left)) as (c2 & s2 & sns & E' & Hsns). rewrite E'. cbn [obind].
    exists c2, s2, (sn :: sns). split; [reflexivity|]. now constructor.
Qed.
