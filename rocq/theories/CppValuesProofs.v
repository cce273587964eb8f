(** Proofs for C113 and C114. *)
From Coq Require Import Sorted.
From Verif Require Import CBase StrMap Props PropsSpec StrMapProofs PropsProofs Message MessageSpec Num NumSpec NumProofs DecimalProofs Decimal6Proofs PropsNum PropsNumProofs
  Formats Image ImageSpec ImageProofs Handle SessionSpec HandleProofs HandshakeProofs SendableProofs Matlab MatlabSpec MatlabProofs CppValues CppValuesSpec.
Local Open Scope Z_scope.

Lemma plain_c t : text_without_nul t -> c_string t = t.
Proof. exact (no_nul_c_string t). Qed.
Lemma bytes_refl k : bytes_eqb k k = true.
Proof. now apply bytes_eqb_eq. Qed.
Lemma text_plain t : text_ok t = true -> text_without_nul t.
Proof. intros H X. unfold text_ok in H. rewrite forallb_forall in H. specialize (H _ X). discriminate. Qed.
Lemma key_plain k : key_ok k = true -> text_without_nul k.
Proof. intros H X. unfold key_ok in H. apply Bool.andb_true_iff in H as [_ H]. rewrite forallb_forall in H. specialize (H _ X). discriminate. Qed.

(** ---- C113 ---- *)
Definition last_from (l : list (list N * list N)) (k : list N) (r : option (list N)) : option (list N) :=
  fold_left (fun r kv => if bytes_eqb (fst kv) k then Some (snd kv) else r) l r.
Lemma last_from_default l k : forall r, last_from l k r = match last_from l k None with Some v => Some v | None => r end.
Proof.
  induction l as [|kv l IH]; intros r; [reflexivity|]. unfold last_from in *. cbn [fold_left].
  destruct (bytes_eqb (fst kv) k); [|apply IH]. rewrite (IH (Some (snd kv))). destruct (fold_left _ l None); reflexivity.
Qed.
Lemma last_value_cons k' v l k : last_value ((k', v) :: l) k =
  match last_value l k with Some w => Some w | None => if bytes_eqb k' k then Some v else None end.
Proof. unfold last_value. cbn [fold_left fst snd]. exact (last_from_default l k _). Qed.
Lemma last_value_in l k v : last_value l k = Some v -> In (k, v) l.
Proof.
  induction l as [|[k' w] l IH]; intros H; [discriminate|]. rewrite last_value_cons in H. destruct (last_value l k) as [u|].
  - right. apply IH. exact H.
  - destruct (bytes_eqb k' k) eqn:B; [|discriminate]. apply bytes_eqb_eq in B. injection H as ->. subst. now left.
Qed.

Lemma customs_ok l : Forall (fun kv => text_without_nul (fst kv) /\ text_without_nul (snd kv)) l -> forall m, made (md_custom m) ->
  exists q, cm_set_customs m l = Ok (mkMeta (md_region m) (md_image m) (md_channels m) (md_name m) (md_description m) (md_family m) q (md_flags m)) /\
    made q /\ forall k, sm_lookup q k = match last_value l k with Some v => Some v | None => sm_lookup (md_custom m) k end.
Proof.
  induction 1 as [|[k v] l [Hk Hv] _ IH]; intros m M; cbn [cm_set_customs].
  - exists (md_custom m). split; [now destruct m|]. split; [exact M|]. reflexivity.
  - cbn [fst snd] in Hk, Hv. unfold cm_set_custom. rewrite (plain_c k Hk), (plain_c v Hv). destruct (made_set (md_custom m) k v M) as (p & E & Mp & L). rewrite E. cbn [obind].
    destruct (IH (mkMeta (md_region m) (md_image m) (md_channels m) (md_name m) (md_description m) (md_family m) p (md_flags m)) Mp) as (q & Eq & Mq & Lq).
    exists q. split; [exact Eq|]. split; [exact Mq|]. intros k'. rewrite Lq, last_value_cons. cbn [md_custom]. rewrite L. unfold pm_set.
    destruct (last_value l k'); [reflexivity|]. destruct (bytes_eqb k k'); reflexivity.
Qed.

Lemma null_text t : text_ok t = true -> text_of_null (text_or_null t) = t.
Proof. intros H. destruct t as [|c t]; [reflexivity|]. unfold text_or_null. rewrite (plain_c _ (text_plain _ H)). reflexivity. Qed.
Lemma null_ok t : text_ok t = true -> match text_or_null t with Some t => text_ok t = true | None => True end.
Proof. intros H. destruct t as [|c t]; [exact Logic.I|]. unfold text_or_null. rewrite (plain_c _ (text_plain _ H)). exact H. Qed.

Lemma announced a : announce_ok a -> exists q,
  announced_by a = Ok (mkMeta (an_region a) (an_image a) (an_channels a) (text_or_null (an_name a)) (text_or_null (an_description a)) (text_or_null (an_family a)) q
    (Some (if an_multi a then TRAX_METADATA_MULTI_OBJECT else 0))) /\ made q /\ forall k, props_get q k = Ok (last_value (an_custom a) k).
Proof.
  intros (Hc & Ht & Hk). unfold announced_by, cm_make, metadata_create. replace (an_channels a =? 0) with false by lia. cbn [obind].
  destruct (customs_ok (an_custom a)) with (m := mkMeta (an_region a) (an_image a) (an_channels a) (text_or_null (an_name a)) (text_or_null (an_description a))
    (text_or_null (an_family a)) props_create (Some (if an_multi a then TRAX_METADATA_MULTI_OBJECT else 0))) as (q & E & M & L).
  - eapply Forall_impl; [|exact Hk]. intros kv [A _]. apply Bool.andb_true_iff in A as [A B]. split; [now apply key_plain|now apply text_plain].
  - exact made_create.
  - exists q. split; [exact E|]. split; [exact M|]. intros k. rewrite (props_get_spec q k (made_ok q M)), L. cbn [md_custom].
    replace (sm_lookup props_create k) with (@None (list N)) by (symmetry; apply sm_new_lookup). destruct (last_value (an_custom a) k); reflexivity.
Qed.

Lemma announced_metadata a version m : announce_ok a -> version <= 4 -> announced_by a = Ok m -> metadata_ok m version.
Proof.
  intros H V E. pose proof H as (Hc & Ht & Hk). destruct (announced a H) as (q & E' & M & L). rewrite E in E'. injection E' as ->.
  unfold metadata_ok. cbn [md_custom md_name md_description md_family md_channels md_flags].
  assert (Z : forall k v, props_get q k = Ok (Some v) -> kv_ok (k, v) = true /\ starts_with (str "trax.") k = false).
  { intros k v G. rewrite L in G. injection G as G. apply last_value_in in G. rewrite Forall_forall in Hk. exact (Hk _ G). }
  split; [exact V|]. split; [split; [exact M|intros k v G; apply (Z k v G)]|]. split; [intros k v G; apply (Z k v G)|].
  split; [|split; [exact Hc|discriminate]].
  inversion Ht as [|x l A1 Ht1]; subst. inversion Ht1 as [|x l A2 Ht2]; subst. inversion Ht2 as [|x l A3 _]; subst.
  repeat (apply Forall_cons; [now apply null_ok|]). apply Forall_nil.
Qed.

Lemma metadata_object a : announce_ok a -> exists m, announced_by a = Ok m /\ shows m (an_region a) (an_image a) (an_channels a) a /\ shows_custom m a.
Proof.
  intros H. destruct (announced a H) as (q & E & M & L). eexists. split; [exact E|]. destruct H as (_ & Ht & _).
  inversion Ht as [|x l A1 Ht1]; subst. inversion Ht1 as [|x l A2 Ht2]; subst. inversion Ht2 as [|x l A3 _]; subst. split.
  - unfold shows, cm_name, cm_description, cm_family. cbn [md_region md_image md_channels md_name md_description md_family]. rewrite !null_text by assumption.
    exact (conj eq_refl (conj eq_refl (conj eq_refl (conj eq_refl (conj eq_refl eq_refl))))).
  - intros k Hk. unfold cm_get_custom. cbn [md_custom]. rewrite (plain_c k Hk), L. cbn [obind]. destruct (last_value (an_custom a) k); reflexivity.
Qed.

Lemma client_metadata a version m cut sched_s sched_c : announce_ok a -> version <= 4 -> announced_by a = Ok m -> cutter cut -> no_error sched_s -> no_error sched_c ->
  exists c s mc, connect m version cut sched_s sched_c = Ok (Some (c, s)) /\ handle_metadata (Some c) = Ok mc /\
    md_flags mc = Some (if an_multi a && (spoken version =? 4) then TRAX_METADATA_MULTI_OBJECT else 0) /\
    shows mc (Z.land (an_region a) 14) (Z.land (an_image a) 15) (if spoken version =? 1 then TRAX_CHANNEL_COLOR else an_channels a) a.
Proof.
  intros H V E C Ss Sc. pose proof (announced_metadata a version m H V E) as Mok.
  destruct (connect_ok m version cut sched_s sched_c Mok C Ss Sc) as (c & s & Ec & _ & _ & (C1 & C2 & C3 & C4 & C5 & C6 & _ & C7) & _).
  destruct (metadata_object a H) as (m' & E' & (S1 & S2 & S3 & S4 & S5 & S6) & _). rewrite E in E'. injection E' as <-.
  unfold handle_metadata, cm_copy, metadata_create. 
  assert (N0 : (md_channels (h_meta c) =? 0) = false).
  { rewrite C3. destruct H as (Hc & _). rewrite <- S3 in Hc. destruct (spoken version =? 1); [reflexivity|lia]. }
  exists c, s. rewrite C7, N0. eexists. split; [exact Ec|]. split; [reflexivity|].
  split. { cbn [md_flags]. f_equal. unfold multi_object. destruct (announced a H) as (q & E' & _). rewrite E in E'. injection E' as ->. cbn [md_flags]. rewrite andb_comm. now destruct (an_multi a). }
  unfold shows, cm_name, cm_description, cm_family in *. cbn [md_region md_image md_channels md_name md_description md_family].
  rewrite C1, C2, C3, C4, C5, C6, S1, S2, S3, S4, S5, S6. exact (conj eq_refl (conj eq_refl (conj eq_refl (conj eq_refl (conj eq_refl eq_refl))))).
Qed.

Lemma copy_forgets m mc : cm_copy m = Ok mc -> forall k, cm_get_custom mc k = Ok [].
Proof.
  intros E k. unfold cm_copy, metadata_create in E. destruct (md_flags m); [|discriminate]. destruct (md_channels m =? 0); [discriminate|]. injection E as <-.
  unfold cm_get_custom. cbn [md_custom]. rewrite (props_get_spec _ _ props_create_ok). replace (sm_lookup props_create (c_string k)) with (@None (list N)) by (symmetry; apply sm_new_lookup).
  reflexivity.
Qed.
Lemma handle_forgets h mc : handle_metadata (Some h) = Ok mc -> forall k, cm_get_custom mc k = Ok [].
Proof. exact (copy_forgets (h_meta h) mc). Qed.

Lemma sample_announce_ok : announce_ok sample_announce.
Proof.
  split; [cbn; lia|]. split.
  - repeat (apply Forall_cons; [vm_compute; reflexivity|]). apply Forall_nil.
  - repeat (apply Forall_cons; [split; vm_compute; reflexivity|]). apply Forall_nil.
Qed.
Lemma unset_metadata : exists m, handle_metadata None = Ok m /\ shows m 0 0 TRAX_CHANNEL_COLOR (mkAnnounce 0 0 TRAX_CHANNEL_COLOR [] [] [] false []) /\
  md_flags m = Some 0 /\ forall k, cm_get_custom m k = Ok [].
Proof.
  eexists. split; [vm_compute; reflexivity|]. split; [vm_compute; tauto|]. split; [reflexivity|]. intros k. unfold cm_get_custom. cbn [md_custom].
  change (obind (props_get props_create (c_string k)) (fun v => match v with Some t => Ok t | None => Ok [] end) = Ok []).
  rewrite (props_get_spec _ _ props_create_ok). replace (sm_lookup props_create (c_string k)) with (@None (list N)) by (symmetry; apply sm_new_lookup). reflexivity.
Qed.
Lemma custom_lost : exists m c s mc, announced_by sample_announce = Ok m /\ connect m 0 byte_cut [] [] = Ok (Some (c, s)) /\ handle_metadata (Some c) = Ok mc /\
  ~ shows_custom mc sample_announce.
Proof.
  destruct (metadata_object _ sample_announce_ok) as (m & E & _).
  destruct (client_metadata _ 0 m byte_cut [] [] sample_announce_ok ltac:(lia) E byte_cutter (Forall_nil _) (Forall_nil _)) as (c & s & mc & Ec & Em & _).
  exists m, c, s, mc. split; [exact E|]. split; [exact Ec|]. split; [exact Em|]. intros X.
  specialize (X (str "vot") (text_plain (str "vot") eq_refl)). rewrite (handle_forgets c mc Em) in X. vm_compute in X. discriminate.
Qed.

(** ---- C114 ---- *)
(** The history of a dictionary as texts *)
Definition vtext (v : cval) : list N := match v with VText t => t | VInt n => print_Z n | VFloat x => print_float 6 x end.
Definition pops (o : cop) : list pop :=
  match o with
  | CText k v => [PSet k v]
  | CInt k n => [PSet k (print_Z n)]
  | CFloat k x => [PSet k (print_float 6 x)]
  | CClear => [PClear]
  | CMap m => map (fun kv => PSet (fst kv) (snd kv)) m
  end.
Definition represents (p : cprops) (hist : list pop) : Prop :=
  match p with None => forall k, pm_run hist k = None | Some q => props_run hist = Ok q end.
Lemma pm_run_app a b k : pm_run (a ++ b) k = fold_left pm_step b (pm_run a) k.
Proof. unfold pm_run. now rewrite fold_left_app. Qed.
Lemma props_run_app a b q : props_run a = Ok q -> props_run (a ++ b) = fold_left props_step b (Ok q).
Proof. intros E. unfold props_run in *. rewrite fold_left_app, E. reflexivity. Qed.

(** A NULL dictionary stands for any history that leaves nothing: use the empty one *)
Lemma unique_represents p hist : represents p hist -> exists h', props_run h' = Ok (cp_unique p) /\ forall k, pm_run h' k = pm_run hist k.
Proof. destruct p as [q|]; intros R; [exists hist; now split|]. exists []. split; [reflexivity|]. intros k. cbn [represents] in R. rewrite R. reflexivity. Qed.

(** What a dictionary holds *)
Definition has_map (p : cprops) (f : list N -> option (list N)) : Prop :=
  exists hist, represents p hist /\ forall k, pm_run hist k = f k.

Lemma set_map p f k v : has_map p f -> exists q, props_set (cp_unique p) k v = Ok q /\ has_map (Some q) (fun k' => if bytes_eqb k k' then Some v else f k').
Proof.
  intros (hist & R & F). destruct (unique_represents p hist R) as (h & E & L). destruct (made_set (cp_unique p) k v (ex_intro _ h E)) as (q & Eq & _ & _).
  exists q. split; [exact Eq|]. exists (h ++ [PSet k v]). split.
  - cbn [represents]. rewrite (props_run_app _ _ _ E). cbn [fold_left props_step obind]. exact Eq.
  - intros k'. rewrite pm_run_app. cbn [fold_left pm_step]. unfold pm_set. destruct (bytes_eqb k k'); [reflexivity|]. now rewrite L, F.
Qed.

Lemma has_ext p f g : has_map p f -> (forall k, f k = g k) -> has_map p g.
Proof. intros (h & R & F) H. exists h. split; [exact R|]. intros k. now rewrite F, H. Qed.

Lemma from_map_ok m : Forall (fun kv => text_without_nul (fst kv) /\ text_without_nul (snd kv)) m -> forall p f, has_map p f ->
  exists q, cp_from_map p m = Ok q /\ has_map q (fun k => match last_value m k with Some v => Some v | None => f k end).
Proof.
  induction 1 as [|[k v] m [Hk Hv] _ IH]; intros p f H; cbn [cp_from_map].
  - exists p. split; [reflexivity|exact H].
  - cbn [fst snd] in Hk, Hv. unfold cp_set. rewrite (plain_c k Hk), (plain_c v Hv). destruct (set_map p f k v H) as (q & E & Hq). rewrite E. cbn [obind].
    destruct (IH (Some q) _ Hq) as (r & Er & Hr). exists r. split; [exact Er|]. apply (has_ext _ _ _ Hr). intros k'. rewrite last_value_cons.
    destruct (last_value m k'); [reflexivity|]. destruct (bytes_eqb k k'); reflexivity.
Qed.

Lemma step_map o p f : cop_ok o -> has_map p (fun k => option_map vtext (f k)) ->
  exists q, cstep (Ok p) o = Ok q /\ has_map q (fun k => option_map vtext (cmeaning f o k)).
Proof.
  intros Ho H. unfold cstep. cbn [obind]. destruct o as [k v|k n|k x| |m]; cbn [cop_ok cmeaning] in *.
  - destruct Ho as [Hk Hv]. unfold cp_set. rewrite (plain_c k Hk), (plain_c v Hv). destruct (set_map p _ k v H) as (q & E & Hq). rewrite E. cbn [obind].
    exists (Some q). split; [reflexivity|]. apply (has_ext _ _ _ Hq). intros k'. unfold cput. destruct (bytes_eqb k k'); reflexivity.
  - destruct Ho as [Hk Hn]. unfold cp_set_int. rewrite (plain_c k Hk). destruct (set_map p _ k (print_Z n) H) as (q & E & Hq).
    assert (Es : props_set_int (cp_unique p) k n = Ok q).
    { destruct H as (hist & R & _). destruct (unique_represents p hist R) as (h & Eh & _). destruct (int_round_trip h (cp_unique p) k n 0 Eh Hn) as (q' & Eq' & _).
      unfold props_set_int in *. destruct (sprintf_tmp (print_Z n)) as [t| | |] eqn:T; try discriminate. unfold sprintf_tmp in T.
      destruct (Nat.leb (S (List.length (print_Z n))) 128); [|discriminate]. injection T as <-. exact E. }
    rewrite Es. cbn [obind]. exists (Some q). split; [reflexivity|]. apply (has_ext _ _ _ Hq). intros k'. unfold cput. destruct (bytes_eqb k k'); reflexivity.
  - destruct Ho as [Hk Hn]. unfold cp_set_float. rewrite (plain_c k Hk). destruct (set_map p _ k (print_float 6 x) H) as (q & E & Hq).
    assert (Es : props_set_float (cp_unique p) k x = Ok q).
    { destruct H as (hist & R & _). destruct (unique_represents p hist R) as (h & Eh & _). destruct (PropsNumProofs.float_round_trip h (cp_unique p) k x x Eh Hn) as (q' & y' & Eq' & _).
      unfold props_set_float in *. destruct (sprintf_tmp (print_float 6 x)) as [t| | |] eqn:T; try discriminate. unfold sprintf_tmp in T.
      destruct (Nat.leb (S (List.length (print_float 6 x))) 128); [|discriminate]. injection T as <-. exact E. }
    rewrite Es. cbn [obind]. exists (Some q). split; [reflexivity|]. apply (has_ext _ _ _ Hq). intros k'. unfold cput. destruct (bytes_eqb k k'); reflexivity.
  - eexists. split; [reflexivity|]. destruct H as (hist & R & F). destruct p as [q|]; cbn [cp_clear option_map].
    + exists (hist ++ [PClear]). split; [|intros k; now rewrite pm_run_app]. cbn [represents] in *. rewrite (props_run_app _ _ _ R). reflexivity.
    + exists []. split; [intros k; reflexivity|]. reflexivity.
  - destruct (from_map_ok m Ho p _ H) as (q & E & Hq). exists q. split; [exact E|]. apply (has_ext _ _ _ Hq). intros k. destruct (last_value m k); reflexivity.
Qed.

Lemma run_map ops : Forall cop_ok ops -> exists p, crun ops = Ok p /\ has_map p (fun k => option_map vtext (cmeans ops k)).
Proof.
  intros H. unfold crun, cmeans.
  assert (G : forall p f, has_map p (fun k => option_map vtext (f k)) ->
    exists q, fold_left cstep ops (Ok p) = Ok q /\ has_map q (fun k => option_map vtext (fold_left cmeaning ops f k))).
  { induction H as [|o ops Ho _ IH]; intros p f Hf; cbn [fold_left]; [exists p; now split|].
    destruct (step_map o p f Ho Hf) as (q & E & Hq). rewrite E. exact (IH q _ Hq). }
  apply G. exists []. split; [intros k; reflexivity|]. reflexivity.
Qed.

(** ---- getters ---- *)
Lemma get_map p f k : has_map p f -> match p with Some q => props_get q k = Ok (f k) | None => f k = None end.
Proof.
  intros (hist & R & F). destruct p as [q|]; cbn [represents] in R; [|now rewrite <- F].
  destruct (props_api hist) as (m & E & G & _). rewrite R in E. injection E as <-. now rewrite G, F.
Qed.

Lemma get_text p f k d : has_map p f -> text_without_nul k -> cp_get p k d = Ok (match f k with Some t => t | None => d end).
Proof.
  intros H Hk. pose proof (get_map p f k H) as G. unfold cp_get. rewrite (plain_c k Hk). destruct p as [q|]; rewrite G; [|reflexivity]. cbn [obind]. destruct (f k); reflexivity.
Qed.

Lemma double_same s m e : Z.pos m < 2 ^ 24 -> -149 <= e <= 104 -> units (double_of_float (S754_finite s m e)) = units (S754_finite s m e).
Proof.
  intros Hm He. cbn [double_of_float]. unfold to_double.
  destruct (round_ratio_exact 53 1024 s (Z.pos m * 2 ^ Z.max 0 e) (2 ^ Z.max 0 (- e)) (Z.pos m) e) as (m1 & e1 & E1 & E2 & E3 & _);
    try (unfold fmin, SH; lia).
  - rewrite finite_ratio by (unfold SH; lia). reflexivity.
  - rewrite E1. cbn [units]. unfold SH in E2. rewrite E2. reflexivity.
Qed.
Lemma double_units d : finite (float_of_double d) = true -> units (double_of_float (float_of_double d)) = units (float_of_double d).
Proof.
  intros F. destruct (float_of_double d) as [s| | |s m e] eqn:E; try discriminate; [reflexivity|]. destruct d as [| | |s0 m0 e0]; try discriminate.
  cbn [float_of_double] in E. apply round_ratio_valid in E as (_ & He & Hm & _); [|lia|unfold fmin, SH; lia| |apply Z.pow_pos_nonneg; lia].
  - unfold fmin in He. apply double_same; lia.
  - apply Z.mul_pos_pos; [lia|]. apply Z.pow_pos_nonneg; lia.
Qed.

Lemma float_text x : finite_float x -> exists y, float_back x y /\ units (double_of_float y) = units y /\
  forall q k d, props_get q k = Ok (Some (print_float 6 x)) -> props_get_float q k d = Ok y.
Proof.
  intros Hx. destruct (print_float6_length x Hx) as [L NE]. destruct Hx as [HV HF]. assert (F : finite x = true) by (destruct x; try contradiction; reflexivity).
  pose proof (reread6_spec x [] HV F eq_refl) as R. cbv zeta in R. rewrite app_nil_r in R.
  exists (float_of_double (atof (print_float 6 x))). destruct R as (R1 & R2 & R3 & R4). split; [|split].
  - split; [exact R3|]. intros A. apply R4. replace (2 ^ (4 + SH)) with (16 * 2 ^ 1074); [exact A|]. rewrite Z.pow_add_r by (unfold SH; lia). reflexivity.
  - apply double_units. exact R1.
  - intros q k d G. unfold props_get_float. rewrite G. cbn [obind]. rewrite strtod_print_float by exact F. destruct (print_float 6 x); [congruence|reflexivity].
Qed.

Lemma int_read q k n d : in_int n = true -> made q -> props_get q k = Ok (Some (print_Z n)) -> props_get_int q k d = Ok n.
Proof.
  intros Hn (hist & E) G. apply (int_of_text hist q k (print_Z n) n d E); [|apply print_Z_int_text|exact Hn].
  destruct (props_api hist) as (m & E' & G' & _). rewrite E in E'. injection E' as <-. rewrite G' in G. now injection G as ->.
Qed.

(** Every int and float that was set is within its range *)
Definition val_ok (v : cval) : Prop := match v with VText _ => True | VInt n => in_int n = true | VFloat x => finite_float x end.
Lemma means_ok ops : Forall cop_ok ops -> forall k v, cmeans ops k = Some v -> val_ok v.
Proof.
  unfold cmeans. intros H. assert (G : forall f, (forall k v, f k = Some v -> val_ok v) -> forall k v, fold_left cmeaning ops f k = Some v -> val_ok v).
  { induction H as [|o ops Ho _ IH]; intros f Hf; cbn [fold_left]; [exact Hf|]. apply IH. intros k v E.
    destruct o as [k' t|k' n|k' x| |m]; cbn [cmeaning cop_ok] in *; unfold cput in *; try discriminate;
      try (destruct (bytes_eqb k' k); [injection E as <-; cbn [val_ok]; solve [exact Logic.I|apply Ho]|now apply (Hf k)]).
    destruct (last_value m k); [injection E as <-; exact Logic.I|now apply (Hf k)]. }
  apply G. discriminate.
Qed.

Lemma getters ops p : Forall cop_ok ops -> crun ops = Ok p -> forall k, text_without_nul k -> gets p k (cmeans ops k).
Proof.
  intros H E k Hk. destruct (run_map ops H) as (p' & E' & M). rewrite E in E'. injection E' as <-.
  pose proof (fun d => get_text p _ k d M Hk) as T. pose proof (get_map p _ k M) as G. cbn beta in T, G.
  pose proof (means_ok ops H k) as V. destruct (cmeans ops k) as [v|]; cbn [option_map] in *.
  - destruct p as [q|]; [|discriminate]. specialize (V v eq_refl).
    assert (Mq : made q) by (destruct M as (hist & R & _); exists hist; exact R).
    destruct v as [t|n|x]; cbn [gets vtext val_ok] in *.
    + split; [exact T|]. intros d. apply T.
    + split; [exists (print_Z n); split; [apply print_Z_int_text|]; split; [exact T|]; intros d; apply T|].
      assert (I0 : forall d, props_get_int q k d = Ok n) by (intros d; now apply int_read).
      split; intros d; [unfold cp_get_int; rewrite (plain_c k Hk); apply I0|]. unfold cp_get_bool. rewrite (plain_c k Hk), I0. reflexivity.
    + destruct (float_text x V) as (y & Fb & Du & Gy). exists y. split; [exact Fb|].
      assert (F0 : forall d, cp_get_float (Some q) k d = Ok y) by (intros d; unfold cp_get_float; rewrite (plain_c k Hk); now apply Gy).
      split; [exact F0|]. intros d. exists (double_of_float y). split; [|exact Du]. unfold cp_get_double. rewrite F0. reflexivity.
  - cbn [gets]. split; [exact T|]. split; [intros d Hd; unfold cp_get_chars; rewrite (plain_c d Hd); apply T|]. split; [apply T|].
    unfold cp_get_int, cp_get_float, cp_get_bool. rewrite (plain_c k Hk). destruct p as [q|]; [|split; [|split]; reflexivity].
    unfold props_get_int, props_get_float. rewrite G. cbn [obind]. split; [|split]; intros d; try reflexivity. destruct d; reflexivity.
Qed.

(** ---- lists ---- *)
Lemma pairs_map p f : has_map p f -> NoDup (map fst (cp_pairs p)) /\ (forall k v, In (k, v) (cp_pairs p) <-> f k = Some v) /\ cp_size p = List.length (cp_pairs p).
Proof.
  intros (hist & R & F). destruct p as [q|]; cbn [represents cp_pairs cp_size] in *.
  - destruct (props_api hist) as (m & E & _ & _ & [N1 N2] & C). rewrite R in E. injection E as <-. split; [exact N1|]. split; [|exact C].
    intros k v. rewrite N2, F. reflexivity.
  - split; [constructor|]. split; [|reflexivity]. intros k v. rewrite <- F, R. split; [intros []|discriminate].
Qed.

Lemma listing ops p : Forall cop_ok ops -> crun ops = Ok p -> exists l, NoDup (map fst l) /\ (forall k, In k (map fst l) <-> cmeans ops k <> None) /\
  (forall k v, In (k, v) l -> text_without_nul k -> forall d, cp_get p k d = Ok v) /\
  cp_size p = List.length l /\ (forall v, cp_to_vector p v = v ++ map fst l) /\
  cp_print p = flat_map (fun kv => fst kv ++ str "=" ++ snd kv ++ [10%N]) l.
Proof.
  intros H E. destruct (run_map ops H) as (p' & E' & M). rewrite E in E'. injection E' as <-.
  destruct (pairs_map p _ M) as (N1 & N2 & N3). exists (cp_pairs p). split; [exact N1|]. split; [|split; [|split; [exact N3|split; [reflexivity|reflexivity]]]].
  - intros k. rewrite in_map_iff. split.
    + intros ([k' v] & <- & X) Y. apply N2 in X. cbn [fst] in Y. rewrite Y in X. discriminate.
    + intros X. destruct (cmeans ops k) as [v|] eqn:Ev; [|congruence]. exists (k, vtext v). split; [reflexivity|]. apply N2. now rewrite Ev.
  - intros k v X Hk d. apply N2 in X. rewrite (get_text p _ k d M Hk), X. reflexivity.
Qed.

(** ---- maps ---- *)
Lemma compare_spec a : forall b, CompareSpec (a = b) (text_less a b) (text_less b a) (text_compare a b).
Proof.
  induction a as [|x a IH]; intros [|y b]; cbn [text_compare]; try (constructor; try reflexivity; constructor).
  destruct (N.compare_spec x y) as [->|L|L]; [|constructor; now constructor|constructor; now constructor].
  destruct (IH b) as [->|L|L]; constructor; try reflexivity; now constructor.
Qed.
Lemma less_trans a : forall b c, text_less a b -> text_less b c -> text_less a c.
Proof.
  induction a as [|x a IH]; intros b c H1 H2.
  - inversion H1; subst. inversion H2; subst; constructor.
  - inversion H1; subst; inversion H2; subst; try (apply less_head; lia). apply less_tail. now apply (IH b0).
Qed.
Lemma less_irrefl a : ~ text_less a a.
Proof. induction a as [|x a IH]; intros H; inversion H; subst; [lia|now apply IH]. Qed.

Lemma put_in m k v : is_map m -> is_map (map_put m k v) /\ (forall k' w, In (k', w) (map_put m k v) <-> (k' = k /\ w = v) \/ (k' <> k /\ In (k', w) m)).
Proof.
  unfold is_map. induction 1 as [|[k0 v0] m Hm IH HF]; cbn [map_put].
  - split; [constructor; constructor|]. intros k' w. cbn [In]. split; [intros [E|[]]; injection E as <- <-; now left|intros [[-> ->]|[_ []]]; now left].
  - destruct IH as [IS II]. rewrite Forall_forall in HF. destruct (compare_spec k k0) as [->|L|L].
    + split.
      * constructor; [exact Hm|]. apply Forall_forall. intros [a b] X. exact (HF _ X).
      * intros k' w. cbn [In]. split.
        -- intros [E|X]; [injection E as <- <-; now left|]. right. split; [|now right]. intros ->. apply (less_irrefl k0). exact (HF _ X).
        -- intros [[-> ->]|[N0 [E|X]]]; [now left|injection E as -> ->; congruence|now right].
    + split.
      * constructor; [constructor; [exact Hm|apply Forall_forall; exact HF]|]. apply Forall_cons; [exact L|]. apply Forall_forall. intros x X. cbn [fst]. apply (less_trans _ k0); [exact L|]. exact (HF _ X).
      * intros k' w. cbn [In]. split.
        -- intros [E|[E|X]]; [injection E as <- <-; now left| |].
           ++ injection E as <- <-. right. split; [|now left]. intros ->. now apply (less_irrefl k).
           ++ right. split; [|now right]. intros ->. apply (less_irrefl k). apply (less_trans _ k0); [exact L|]. exact (HF _ X).
        -- intros [[-> ->]|[N0 [E|X]]]; [now left|right; left; exact E|right; right; exact X].
    + split.
      * constructor; [exact IS|]. apply Forall_forall. intros [a b] X. apply II in X as [[-> ->]|[_ X]]; [exact L|]. exact (HF _ X).
      * intros k' w. cbn [In]. rewrite II. split.
        -- intros [E|[X|[N0 X]]]; [|now left|right; split; [exact N0|now right]].
           injection E as <- <-. right. split; [|now left]. intros ->. now apply (less_irrefl k).
        -- intros [X|[N0 [E|X]]]; [right; now left|now left|right; right; now split].
Qed.

Lemma puts_in l : NoDup (map fst l) -> forall m, is_map m -> let r := fold_left (fun m kv => map_put m (fst kv) (snd kv)) l m in
  is_map r /\ (forall k w, In (k, w) r <-> In (k, w) l \/ (~ In k (map fst l) /\ In (k, w) m)).
Proof.
  induction l as [|[k v] l IH]; intros N0 m Hm; cbn [fold_left map fst snd] in *.
  - split; [exact Hm|]. intros k w. cbn [In]. tauto.
  - inversion N0 as [|x y N1 N2]; subst. destruct (put_in m k v Hm) as [P1 P2]. destruct (IH N2 _ P1) as [R1 R2]. split; [exact R1|].
    intros k' w. rewrite R2, P2. cbn [In]. split.
    + intros [X|[X [[-> ->]|[Y Z]]]]; [left; now right|left; now left|]. right. split; [|exact Z]. intros [->|W]; [now apply Y|now apply X].
    + intros [[E|X]|[X Y]]; [injection E as <- <-; right; split; [exact N1|now left]|now left|]. right. split; [intros W; apply X; now right|].
      right. split; [|exact Y]. intros ->. apply X. now left.
Qed.

Lemma map_taken ops p m : Forall cop_ok ops -> crun ops = Ok p -> is_map m -> is_map (cp_to_map p m) /\
  (forall k v, text_without_nul k -> In (k, v) (cp_to_map p m) <-> (if cmeans ops k then cp_get p k [] = Ok v else In (k, v) m)).
Proof.
  intros H E Hm. destruct (run_map ops H) as (p' & E' & M). rewrite E in E'. injection E' as <-.
  destruct (pairs_map p _ M) as (N1 & N2 & _). unfold cp_to_map. destruct (puts_in (cp_pairs p) N1 m Hm) as [R1 R2]. split; [exact R1|].
  intros k v Hk. rewrite R2, N2, (get_text p _ k [] M Hk). destruct (cmeans ops k) as [w|] eqn:Ev; cbn [option_map].
  - split; [intros [X|[X _]]; [now injection X as ->|]|intros X; left; now injection X as ->].
    exfalso. apply X. apply in_map_iff. exists (k, vtext w). split; [reflexivity|]. apply N2. now rewrite Ev.
  - split; [intros [X|[_ X]]; [discriminate|exact X]|]. intros X. right. split; [|exact X]. intros Y. apply in_map_iff in Y as ([k' w] & <- & Y).
    apply N2 in Y. cbn [fst] in Ev. rewrite Ev in Y. discriminate.
Qed.

Lemma map_unique a : is_map a -> forall b, is_map b -> (forall k v, In (k, v) a <-> In (k, v) b) -> a = b.
Proof.
  unfold is_map. induction 1 as [|[k v] a Ha IH Fa]; intros b Hb E.
  - destruct b as [|[k v] b]; [reflexivity|]. destruct (proj2 (E k v) (or_introl eq_refl)).
  - inversion Hb as [|[k' v'] b' Hb' Fb]; subst; [destruct (proj1 (E k v) (or_introl eq_refl))|]. rewrite Forall_forall in Fa, Fb.
    assert (Q : (k, v) = (k', v')).
    { destruct (proj1 (E k v) (or_introl eq_refl)) as [X|X]; [now symmetry|]. destruct (proj2 (E k' v') (or_introl eq_refl)) as [Y|Y]; [exact Y|].
      exfalso. apply (less_irrefl k). apply (less_trans _ k'); [exact (Fa _ Y)|exact (Fb _ X)]. }
    injection Q as <- <-. f_equal. apply IH; [exact Hb'|]. intros k' v'. split; intros X.
    + destruct (proj1 (E k' v') (or_intror X)) as [Y|Y]; [|exact Y]. injection Y as <- <-. exfalso. apply (less_irrefl k). exact (Fa _ X).
    + destruct (proj2 (E k' v') (or_intror X)) as [Y|Y]; [|exact Y]. injection Y as <- <-. exfalso. apply (less_irrefl k). exact (Fb _ X).
Qed.

Lemma map_last m : is_map m -> forall k v, last_value m k = Some v <-> In (k, v) m.
Proof.
  unfold is_map. induction 1 as [|[k0 v0] m Hm IH HF]; intros k v; [split; [discriminate|intros []]|]. rewrite Forall_forall in HF. rewrite last_value_cons.
  destruct (last_value m k) as [w|] eqn:W.
  - apply IH in W. split; [intros X; injection X as <-; now right|]. intros [X|X].
    + injection X as -> ->. exfalso. apply (less_irrefl k). exact (HF _ W).
    + apply IH in X. apply IH in W. congruence.
  - destruct (bytes_eqb k0 k) eqn:B.
    + apply bytes_eqb_eq in B as ->. split; [intros X; injection X as ->; now left|]. intros [X|X]; [now injection X as ->|]. apply IH in X. congruence.
    + split; [discriminate|]. intros [X|X]; [injection X as -> ->; rewrite bytes_refl in B; discriminate|]. apply IH in X. congruence.
Qed.

Lemma map_there_and_back m : is_map m -> Forall (fun kv => text_without_nul (fst kv) /\ text_without_nul (snd kv)) m ->
  exists p, cp_from_map cp_new m = Ok p /\ cp_to_map p [] = m.
Proof.
  intros Hm Hn. destruct (from_map_ok m Hn cp_new (fun _ => None)) as (p & E & H); [exists []; split; [intros k; reflexivity|reflexivity]|].
  exists p. split; [exact E|]. destruct (pairs_map p _ H) as (N1 & N2 & _). destruct (puts_in (cp_pairs p) N1 [] ltac:(constructor)) as [R1 R2].
  apply map_unique; [exact R1|exact Hm|]. intros k v. unfold cp_to_map. rewrite R2, N2. rewrite <- (map_last m Hm). split.
  - intros [X|[_ []]]. destruct (last_value m k); [exact X|discriminate].
  - intros X. left. now rewrite X.
Qed.

(** ---- the default of get with a double ---- *)
Lemma double_default ops p k x : Forall cop_ok ops -> crun ops = Ok p -> text_without_nul k -> cmeans ops k = None -> single x ->
  cp_get_double p k (double_of_float x) = Ok (double_of_float x).
Proof.
  intros H E Hk N0 Hx. pose proof (getters ops p H E k Hk) as G. rewrite N0 in G. destruct G as (_ & _ & _ & _ & G & _).
  unfold cp_get_double. rewrite G. cbn [obind]. now rewrite MatlabProofs.float_round_trip.
Qed.
Lemma double_default_rounded : exists d, cp_get_double cp_new (str "k") d <> Ok d /\ d = SpecFloat.SFdiv 53 1024 (double_of_int 1) (double_of_int 10).
Proof. eexists. split; [|reflexivity]. vm_compute. discriminate. Qed.
Lemma nul_cut : exists p, crun [CText (str "k") [97%N; 0%N; 98%N]] = Ok p /\ cp_get p (str "k") [] = Ok [97%N].
Proof. eexists. split; [vm_compute; reflexivity|]. vm_compute. reflexivity. Qed.

Lemma sample_cops_ok : Forall cop_ok sample_cops.
Proof.
  assert (T : forall t, text_ok t = true -> text_without_nul t) by exact text_plain.
  unfold sample_cops.
  apply Forall_cons; [split; apply T; reflexivity|]. apply Forall_cons; [split; [apply T; reflexivity|reflexivity]|]. apply Forall_cons; [exact Logic.I|].
  apply Forall_cons; [split; [apply T; reflexivity|split; [vm_compute; reflexivity|vm_compute; exact Logic.I]]|].
  apply Forall_cons; [|apply Forall_cons; [split; [apply T; reflexivity|reflexivity]|apply Forall_cons; [split; apply T; reflexivity|apply Forall_nil]]].
  cbn [cop_ok]. repeat (apply Forall_cons; [split; apply T; reflexivity|]). apply Forall_nil.
Qed.
