(** Lemmas about the Matlab client *)
From Coq Require Import Floats.SpecFloat.
From Verif Require Import CBase StrMap StrMapProofs Props PropsSpec PropsProofs Num Region RegionGeom GeomProofs Image ImageProofs Formats FormatsProofs Matlab MatlabSpec MatlabProofs MatlabCallProofs MatlabClient MatlabClientSpec.
Local Open Scope Z_scope.

(** ---- Arguments ---- *)
Lemma whole_int x n : whole x n -> in_int n = true -> int_of_float x = Ok n.
Proof.
  destruct x as [s|s| |s m e]; cbn [whole]; try contradiction; intros H I; [now subst|]. unfold int_of_float. cbv zeta.
  replace (trunc_pos (Z.pos m) e) with (Z.pos m * 2 ^ Z.max 0 e / 2 ^ Z.max 0 (- e)).
  - destruct s; (replace n with (- (Z.pos m * 2 ^ Z.max 0 e / 2 ^ Z.max 0 (- e))) in I by lia) || (replace n with (Z.pos m * 2 ^ Z.max 0 e / 2 ^ Z.max 0 (- e)) in I by lia); rewrite I; f_equal; lia.
  - unfold trunc_pos. destruct (Z.leb_spec 0 e) as [P|P].
    + rewrite (Z.max_r 0 e) by lia. rewrite (Z.max_l 0 (- e)) by lia. rewrite Z.pow_0_r. apply Z.div_1_r.
    + rewrite (Z.max_l 0 e) by lia. rewrite (Z.max_r 0 (- e)) by lia. rewrite Z.pow_0_r, Z.mul_1_r. reflexivity.
Qed.
Lemma fold_lower s name : strcasecmp_eq s name = true -> map to_lower name = name -> map to_lower s = name.
Proof. unfold strcasecmp_eq. intros E L. apply bytes_eqb_eq in E. congruence. Qed.
Lemma connection_mode s c : strcasecmp_eq s (connection_name c) = true -> get_connection_mode s = done c.
Proof.
  intros E. unfold get_connection_mode. cbv zeta. rewrite (fold_lower s (connection_name c) E) by (destruct c; vm_compute; reflexivity). destruct c; vm_compute; reflexivity.
Qed.
Definition add_variables (vars env : list (list N * list N)) : list (list N * list N) := fold_left (fun e kv => set_custom e (fst kv) (snd kv)) vars env.
Lemma env_loop_ok vars : Forall (fun kv => ~ In 0%N (fst kv) /\ ~ In 0%N (snd kv)) vars -> forall env,
  env_loop (map (fun kv => (fst kv, text_array (snd kv))) vars) env = done (add_variables vars env).
Proof.
  induction 1 as [|[k v] vars (Hk & Hv) _ IH]; intros env; [reflexivity|]. cbn [map env_loop fst snd]. unfold text_array at 1. fold (text_array v). rewrite (text_string v Hv).
  unfold mbind, done. cbn [obind]. cbn [fst snd] in Hk. rewrite (no_nul_c_string k Hk). exact (IH _).
Qed.
Definition effect (o : options) (w : wish) : options :=
  match w with
  | WDebug x => mkOptions (if nonzero x then Debug else Normal) (p_timeout o) (p_connection o) (p_environment o) (p_data o) (p_directory o) (p_log o)
  | WTimeout n _ => mkOptions (p_verbosity o) n (p_connection o) (p_environment o) (p_data o) (p_directory o) (p_log o)
  | WConnection c _ => mkOptions (p_verbosity o) (p_timeout o) c (p_environment o) (p_data o) (p_directory o) (p_log o)
  | WEnvironment vars => mkOptions (p_verbosity o) (p_timeout o) (p_connection o) (add_variables vars (p_environment o)) (p_data o) (p_directory o) (p_log o)
  | WData d => mkOptions (p_verbosity o) (p_timeout o) (p_connection o) (p_environment o) (Some d) (p_directory o) (p_log o)
  | WDirectory s => mkOptions (p_verbosity o) (p_timeout o) (p_connection o) (p_environment o) (p_data o) s (p_log o)
  | WLog s => mkOptions (p_verbosity o) (p_timeout o) (p_connection o) (p_environment o) (p_data o) (p_directory o) s
  end.
Lemma argument_ok prhs i o kw : proper_option kw -> fetch prhs i = Ok (text_array (fst kw)) -> fetch prhs (i + 1) = Ok (wish_value (snd kw)) ->
  client_argument prhs i o = done (effect o (snd kw)).
Proof.
  destruct kw as [k w]. intros [En Pw] F1 F2. cbn [fst snd] in *. unfold client_argument. rewrite F1. cbn [obind].
  assert (Nk : ~ In 0%N k).
  { apply (lower_nul k (wish_name w) En). destruct w; vm_compute; intuition discriminate. }
  rewrite (text_string k Nk). unfold mbind at 1, done. cbn [obind]. unfold get_argument_code.
  rewrite (fold_lower k (wish_name w) En) by (destruct w; vm_compute; reflexivity).
  destruct w as [x|n x|c s|vars|d|s|s]; cbn [wish_name];
    match goal with |- context [argument_of argument_names ?t] => let v := eval vm_compute in (argument_of argument_names t) in change (argument_of argument_names t) with v end;
    unfold mbind at 1; cbn [obind]; rewrite F2; cbn [obind wish_value effect proper_wish] in *.
  - reflexivity.
  - cbn [get_scalar obind]. destruct Pw as [W I]. rewrite (whole_int x n W I). reflexivity.
  - assert (Ns : ~ In 0%N s). { apply (lower_nul s (connection_name c) Pw). destruct c; vm_compute; intuition discriminate. }
    rewrite (text_string s Ns). unfold mbind, done. cbn [obind]. rewrite (connection_mode s c Pw). reflexivity.
  - unfold struct_to_env. rewrite (env_loop_ok vars Pw). reflexivity.
  - reflexivity.
  - rewrite (text_string s Pw). reflexivity.
  - rewrite (text_string s Pw). reflexivity.
Qed.
Lemma options_loop prhs kws : Forall proper_option kws -> forall n i limit o,
  (forall j kw, nth_error kws j = Some kw -> fetch prhs (i + 2 * Z.of_nat j) = Ok (text_array (fst kw)) /\ fetch prhs (i + 2 * Z.of_nat j + 1) = Ok (wish_value (snd kw))) ->
  limit = i + 2 * Z.of_nat (List.length kws) -> (List.length kws <= n)%nat -> pairs_loop n i limit (client_argument prhs) o = done (fold_left effect (map snd kws) o).
Proof.
  induction 1 as [|kw kws P _ IH]; intros n i limit o F L N.
  - destruct n; cbn [pairs_loop]; [reflexivity|]. rewrite (proj2 (Z.ltb_ge i limit)) by (cbn [List.length] in L; lia). reflexivity.
  - destruct n as [|n]; [cbn [List.length] in N; lia|]. cbn [pairs_loop]. rewrite (proj2 (Z.ltb_lt i limit)) by (cbn [List.length] in L; lia).
    destruct (F 0%nat kw eq_refl) as [F1 F2]. cbn [Z.of_nat] in F1, F2. rewrite Z.mul_0_r, Z.add_0_r in F1, F2.
    rewrite (argument_ok prhs i o kw P F1 F2). unfold mbind, done. cbn [obind map fold_left]. apply IH.
    + intros j k Hj. destruct (F (S j) k Hj) as [G1 G2]. replace (i + 2 + 2 * Z.of_nat j) with (i + 2 * Z.of_nat (S j)) by lia. now split.
    + cbn [List.length] in L. lia.
    + cbn [List.length] in N. lia.
Qed.
Lemma written_length kws : List.length (flat_map written kws) = (2 * List.length kws)%nat.
Proof. induction kws as [|kw kws IH]; [reflexivity|]. cbn [flat_map written app List.length]. rewrite IH. lia. Qed.
Lemma written_split kws j kw : nth_error kws j = Some kw ->
  exists a b, flat_map written kws = a ++ text_array (fst kw) :: wish_value (snd kw) :: b /\ List.length a = (2 * j)%nat.
Proof.
  revert j. induction kws as [|k kws IH]; intros [|j] E; cbn [nth_error] in E; try discriminate.
  - injection E as ->. exists [], (flat_map written kws). split; reflexivity.
  - destruct (IH j E) as (a & b & Q & L). exists (written k ++ a), b. split; [cbn [flat_map]; rewrite Q; reflexivity|]. cbn [written app List.length]. lia.
Qed.
Lemma effect_last ws : forall o,
  let t := fold_left effect ws o in
  p_verbosity t = last_some debugging ws (p_verbosity o) /\ p_timeout t = last_some seconds_of ws (p_timeout o) /\ p_connection t = last_some connected ws (p_connection o) /\
  p_environment t = add_variables (variables ws) (p_environment o) /\ p_data t = last_some data_of ws (p_data o) /\
  p_directory t = last_some directory_of ws (p_directory o) /\ p_log t = last_some log_of ws (p_log o).
Proof.
  induction ws as [|w ws IH]; intros o; [cbn; repeat split|]. cbn [fold_left]. destruct (IH (effect o w)) as (A & B & C & D & E & F & G). cbv zeta in *.
  rewrite A, B, C, D, E, F, G. cbn [last_some]. unfold variables. cbn [flat_map]. unfold add_variables. rewrite fold_left_app.
  destruct w as [x|n x|c s|vars|d|s|s]; cbn [effect debugging seconds_of connected data_of directory_of log_of p_verbosity p_timeout p_connection p_environment p_data p_directory p_log fold_left];
    refine (conj _ (conj eq_refl (conj eq_refl (conj eq_refl (conj eq_refl (conj eq_refl eq_refl)))))); [destruct x|..]; reflexivity.
Qed.
Lemma set_custom_in c key value k v : In (k, v) (set_custom c key value) <-> (k = key /\ v = value) \/ (k <> key /\ In (k, v) c).
Proof.
  unfold set_custom. cbn [In]. rewrite filter_In. cbn [fst]. split.
  - intros [E|[I E]]; [injection E as <- <-; left; now split|]. right. apply negb_true_iff in E. split; [|exact I]. intros ->. rewrite bytes_eqb_refl in E. discriminate.
  - intros [[-> ->]|[N I]]; [left; reflexivity|right]. split; [exact I|]. apply negb_true_iff. destruct (bytes_eqb k key) eqn:E; [|reflexivity]. apply bytes_eqb_eq in E. contradiction.
Qed.
Lemma add_variables_in k vars : forall env acc, (forall v, In (k, v) env <-> acc = Some v) ->
  forall v, In (k, v) (add_variables vars env) <-> fold_left (fun acc kv => if bytes_eqb k (fst kv) then Some (snd kv) else acc) vars acc = Some v.
Proof.
  induction vars as [|[k' v'] vars IH]; intros env acc H; [exact H|]. unfold add_variables. cbn [fold_left fst snd]. apply IH. intros v. rewrite set_custom_in.
  destruct (bytes_eqb k k') eqn:E.
  - apply bytes_eqb_eq in E as ->. split; [intros [[_ ->]|[N _]]; [reflexivity|contradiction]|intros X; injection X as ->; left; now split].
  - assert (N : k <> k') by (intros ->; rewrite bytes_eqb_refl in E; discriminate). rewrite <- H. split; [intros [[X _]|[_ X]]; [contradiction|exact X]|intros X; right; now split].
Qed.
Lemma arguments_ok command f kws rest : ~ In 0%N command -> Forall proper_option kws -> (List.length rest <= 1)%nat -> in_int (4 + 2 * Z.of_nat (List.length kws)) = true ->
  let ws := map snd kws in
  exists o, client_arguments (text_array command :: f :: flat_map written kws ++ rest) = done (o, command) /\
    p_verbosity o = last_some debugging ws Silent /\ p_timeout o = last_some seconds_of ws 30 /\ p_connection o = last_some connected ws Standard /\
    p_data o = last_some data_of ws None /\ p_directory o = last_some directory_of ws [] /\ p_log o = last_some log_of ws [] /\
    forall k v, In (k, v) (p_environment o) <-> last_option (bytes_eqb k) (variables ws) = Some v.
Proof.
  intros Nc P R I ws. exists (fold_left effect ws no_options). destruct (effect_last ws no_options) as (A & B & C & D & E & F & G). cbv zeta in *. split.
  - unfold client_arguments. cbv zeta. cbn [List.length]. rewrite app_length, written_length.
    rewrite (proj2 (Z.ltb_ge _ 2)) by lia.
    change (fetch (text_array command :: f :: flat_map written kws ++ rest) 0) with (Ok (text_array command)). cbn [obind]. unfold text_array at 1. fold (text_array command).
    unfold pairs. rewrite (options_loop _ kws P _ 2 _ no_options).
    + unfold mbind, done. cbn [obind].
      rewrite (text_string command Nc). reflexivity.
    + intros j kw Hj. destruct (written_split kws j kw Hj) as (a & b & Q & L). rewrite Q.
      assert (Bd : (j < List.length kws)%nat) by (apply nth_error_Some; congruence).
      assert (In1 : in_int (2 + 2 * Z.of_nat j) = true /\ in_int (2 + 2 * Z.of_nat j + 1) = true).
      { split; apply (int_le _ _ I); lia. }
      split.
      * replace (text_array command :: f :: (a ++ text_array (fst kw) :: wish_value (snd kw) :: b) ++ rest)
          with ((text_array command :: f :: a) ++ text_array (fst kw) :: (wish_value (snd kw) :: b ++ rest)) by (cbn [app]; now rewrite <- app_assoc).
        apply fetch_app; [cbn [List.length]; lia|apply In1].
      * replace (text_array command :: f :: (a ++ text_array (fst kw) :: wish_value (snd kw) :: b) ++ rest)
          with ((text_array command :: f :: a ++ [text_array (fst kw)]) ++ wish_value (snd kw) :: (b ++ rest)) by (cbn [app]; rewrite <- !app_assoc; reflexivity).
        apply fetch_app; [cbn [List.length]; rewrite app_length; cbn [List.length]; lia|apply In1].
    + cbn [app]. assert (X : (List.length rest = 0 \/ List.length rest = 1)%nat) by lia.
      destruct X as [-> | ->]; zify; Z.to_euclidean_division_equations; lia.
    + lia.
  - rewrite A, B, C, E, F, G. refine (conj eq_refl (conj eq_refl (conj eq_refl (conj eq_refl (conj eq_refl (conj eq_refl _)))))).
    intros k v. rewrite D. apply add_variables_in. intros x. cbn [no_options p_environment In]. split; [contradiction|discriminate].
Qed.

Lemma other_lower k w : other_name k -> bytes_eqb (map to_lower k) (wish_name w) = false.
Proof. intros O. rewrite <- (O w). unfold strcasecmp_eq. f_equal. destruct w; vm_compute; reflexivity. Qed.
Lemma unknown_argument prhs i o k v : ~ In 0%N k -> other_name k -> fetch prhs i = Ok (text_array k) -> fetch prhs (i + 1) = Ok v -> client_argument prhs i o = mex_error.
Proof.
  intros Nk O F1 F2. unfold client_argument. rewrite F1. cbn [obind]. rewrite (text_string k Nk). unfold mbind at 1, done. cbn [obind]. unfold get_argument_code.
  pose proof (other_lower k (WDebug (S754_zero false)) O) as O1. pose proof (other_lower k (WTimeout 0 (S754_zero false)) O) as O2.
  pose proof (other_lower k (WConnection Standard []) O) as O3. pose proof (other_lower k (WEnvironment []) O) as O4.
  pose proof (other_lower k (WData (MStruct [])) O) as O5. pose proof (other_lower k (WDirectory []) O) as O6. pose proof (other_lower k (WLog []) O) as O7.
  cbn [wish_name] in *. unfold argument_names. cbn [argument_of]. rewrite O1, O2, O3, O4, O5, O6, O7.
  repeat match goal with |- context [bytes_eqb ?a ?b] => destruct (bytes_eqb a b); [unfold mbind; cbn [obind]; rewrite F2; reflexivity|] end.
  destruct (is_property_name (map to_lower k)); unfold mbind; cbn [obind]; [rewrite F2|]; reflexivity.
Qed.
Lemma arguments_unknown command f k v rest : ~ In 0%N k -> other_name k -> client_arguments (text_array command :: f :: text_array k :: v :: rest) = mex_error.
Proof.
  intros Nk O. unfold client_arguments. cbv zeta. cbn [List.length]. rewrite (proj2 (Z.ltb_ge _ 2)) by lia.
  change (fetch (text_array command :: f :: text_array k :: v :: rest) 0) with (Ok (text_array command)). cbn [obind]. unfold text_array at 1. fold (text_array command).
  unfold pairs. rewrite Nat2Z.id. cbn [pairs_loop]. rewrite (proj2 (Z.ltb_lt 2 _)) by (zify; Z.to_euclidean_division_equations; lia).
  rewrite (unknown_argument (text_array command :: f :: text_array k :: v :: rest) 2 no_options k v Nk O eq_refl eq_refl). reflexivity.
Qed.

(** ---- Commands ---- *)
Lemma zero_product d : existsb (fun n => n =? 0) d = true <-> fold_right Z.mul 1 d = 0.
Proof.
  induction d as [|n d IH]; cbn [existsb fold_right]; [split; discriminate|]. rewrite orb_true_iff, IH, Z.eqb_eq, Z.mul_eq_0. tauto.
Qed.
Lemma empty_nothing a : is_empty a = true <-> nothing a.
Proof.
  destruct a; cbn [is_empty nothing]; try (rewrite orb_true_iff, !Z.eqb_eq, Z.mul_eq_0; tauto); try apply zero_product. split; [discriminate|contradiction].
Qed.
Lemma nonempty_nothing a : is_empty a = false -> ~ nothing a.
Proof. intros E H. apply empty_nothing in H. congruence. Qed.
Lemma images_wanted channels i images : wanted_images channels i = done images <-> (nothing i /\ images = no_images) \/ (~ nothing i /\ array_to_images i channels = done images).
Proof.
  unfold wanted_images. destruct (is_empty i) eqn:X.
  - apply empty_nothing in X. unfold done. split; [intros E; left; split; [exact X|congruence]|]. intros [[_ ->]|[N _]]; [reflexivity|now elim N].
  - apply nonempty_nothing in X. split; [intros E; now right|]. intros [[N _]|[_ E]]; [now elim X|exact E].
Qed.
Lemma region_wanted r reg : wanted_region r = done reg <-> (nothing r /\ reg = None) \/ (~ nothing r /\ exists x, reg = Some x /\ array_to_region r = done x).
Proof.
  unfold wanted_region. destruct (is_empty r) eqn:X.
  - apply empty_nothing in X. unfold done. split; [intros E; left; split; [exact X|congruence]|]. intros [[_ ->]|[N _]]; [reflexivity|now elim N].
  - apply nonempty_nothing in X. unfold mbind, done. split.
    + intros E. right. split; [exact X|]. destruct (array_to_region r) as [[x|]| | |]; try discriminate. cbn [obind] in E. exists x. split; [congruence|reflexivity].
    + intros [[N _]|[_ (x & -> & ->)]]; [now elim X|reflexivity].
Qed.
Lemma parameters_wanted p parameters : wanted_parameters p = done parameters <->
  match p with
  | MStruct _ => struct_to_parameters p = done parameters
  | MCell _ _ _ => (nothing p /\ parameters = props_create) \/ (~ nothing p /\ cell_to_parameters p = done parameters)
  | _ => parameters = props_create
  end.
Proof.
  unfold wanted_parameters. destruct p as [r0 c0 t0|d0 t0|d0 t0|r0 c0 t0|rows cols cells|fields]; try (unfold done; destruct (is_empty _); split; congruence); [|cbn [is_empty]; tauto].
  destruct (is_empty (MCell rows cols cells)) eqn:X.
  - apply empty_nothing in X. unfold done. split; [intros E; left; split; [exact X|congruence]|]. intros [[_ ->]|[N _]]; [reflexivity|now elim N].
  - apply nonempty_nothing in X. split; [intros E; now right|]. intros [[N _]|[_ E]]; [now elim X|exact E].
Qed.
Lemma command_asks m i r p c : get_command (m_channels m) i r p = done c -> asks m i r p (k_images c) (k_region c) (k_parameters c).
Proof.
  unfold get_command, mbind, done. intros E.
  destruct (wanted_images (m_channels m) i) as [[images|]| | |] eqn:E1; try discriminate. cbn [obind] in E.
  destruct (wanted_region r) as [[reg|]| | |] eqn:E2; try discriminate. cbn [obind] in E.
  destruct (wanted_parameters p) as [[q|]| | |] eqn:E3; try discriminate. cbn [obind] in E. injection E as <-. cbn [k_images k_region k_parameters].
  split; [|split]; [apply images_wanted; exact E1|apply region_wanted; exact E2|apply parameters_wanted; exact E3].
Qed.
Lemma command_unclear m i r p : get_command (m_channels m) i r p = mex_error -> forall images reg parameters, ~ asks m i r p images reg parameters.
Proof.
  unfold get_command, mbind, done, mex_error. intros E images reg parameters (A & B & C).
  apply images_wanted in A. apply region_wanted in B. apply parameters_wanted in C. rewrite A in E. unfold done in E. cbn [obind] in E. rewrite B in E. unfold done in E. cbn [obind] in E.
  rewrite C in E. discriminate.
Qed.
Lemma size_zero l : list_size l = 0 <-> no_image l.
Proof.
  unfold list_size, no_image. rewrite Forall_forall. split.
  - intros H im I. destruct im as [x|]; [|reflexivity]. exfalso. assert (X : In (Some x) (filter (fun im : option image => match im with Some _ => true | None => false end) l)) by now apply filter_In.
    destruct (filter _ l); [destruct X|]. cbn [List.length] in H. lia.
  - intros H. replace (filter _ l) with (@nil (option image)); [reflexivity|]. symmetry. induction l as [|im l IH]; [reflexivity|]. cbn [filter]. rewrite (H im) by now left. apply IH. intros x I. apply H. now right.
Qed.

(** ---- Statuses ---- *)
Lemma flags_listed table f : NoDup (map fst table) -> (forall n c, In (n, c) table -> set_string n = text_array n) -> lists_flags table f (decode_names table f).
Proof.
  intros Nd St. exists (map fst (filter (fun n => supports f (snd n)) table)). split; [|split].
  - unfold decode_names, row_of_texts. cbv zeta. rewrite !map_length. f_equal. rewrite map_map. apply map_ext_in. intros [n c] I. apply filter_In in I as [I _]. cbn [fst]. now rewrite (St n c I).
  - clear St. induction table as [|[n c] table IH]; [constructor|]. cbn [map fst] in Nd. inversion Nd as [|? ? Hn Ht]; subst. cbn [filter snd]. destruct (supports f c); [|now apply IH].
    cbn [map fst]. constructor; [|now apply IH]. intros I. apply Hn. apply in_map_iff in I as (x & <- & I). apply filter_In in I as [I _]. now apply in_map.
  - intros n. rewrite in_map_iff. split.
    + intros ([n' c] & <- & I). apply filter_In in I as [I S]. exists c. split; [exact I|]. unfold supports in S. cbn [snd] in S. apply negb_true_iff, Z.eqb_neq in S. exact S.
    + intros (c & I & S). exists (n, c). split; [reflexivity|]. apply filter_In. split; [exact I|]. unfold supports. cbn [snd]. apply negb_true_iff, Z.eqb_neq. exact S.
Qed.
Lemma field_text_name k : field_name k = field_text k.
Proof.
  destruct k; reflexivity.
Qed.
(** The properties of a status are those of a map *)
Definition holds_map (p : props) (pm : pmap) : Prop := sm_ok p /\ (forall k, sm_lookup p k = pm k) /\ c_strings pm.
Lemma struct_shown p pm : holds_map p pm -> exists fields, parameters_to_struct p = MStruct fields /\
  forall n a, In (n, a) fields <-> exists key value, pm key = Some value /\ n = field_text key /\ a = text_array value.
Proof.
  intros (O & L & C). eexists. split; [reflexivity|]. intros n a. rewrite in_map_iff. destruct (enum_enumerates p O) as [_ En]. split.
  - intros ([k v] & E & I). cbn [fst snd] in E. apply En in I. rewrite L in I. destruct (C k v I) as [Hk Hv]. exists k, v. split; [exact I|].
    rewrite (no_nul_c_string k Hk), (set_string_text v Hv), field_text_name in E. injection E as <- <-. now split.
  - intros (k & v & I & -> & ->). destruct (C k v I) as [Hk Hv]. exists (k, v). cbn [fst snd]. rewrite (no_nul_c_string k Hk), (set_string_text v Hv), field_text_name. split; [reflexivity|].
    apply En. now rewrite L.
Qed.
Definition knows (s : status) (k : knowledge) : Prop := let '(r, time, pm) := k in st_region s = r /\ st_time s = time /\ holds_map (st_properties s) pm.
Lemma status_shown m s k v : sane_meta m -> knows s k -> status_struct m s = done v -> shows m k v.
Proof.
  destruct k as [[r time] pm]. intros (N1 & N2 & N3) (Kr & Kt & Kp) E. unfold status_struct, mbind, done in E.
  destruct (region_field (st_region s)) as [[a|]| | |] eqn:Er; try discriminate. cbn [obind] in E. injection E as <-. destruct (struct_shown _ _ Kp) as (fields & -> & Sf).
  exists a, fields. eexists _, _, _. rewrite Kt, !set_string_text by assumption. split; [reflexivity|]. split; [|split; [exact Sf|split; [|split]]].
  - rewrite Kr in Er. destruct r as [x|]; [exact Er|]. cbn [region_field] in Er. injection Er as <-. reflexivity.
  - apply flags_listed.
    + cbn [map fst]. repeat (apply NoDup_cons; [vm_compute; intuition discriminate|]). apply NoDup_nil.
    + intros n c I. cbn [In] in I. repeat (destruct I as [I|I]; [injection I as <- <-; vm_compute; reflexivity|]). destruct I.
  - destruct (flags_listed [(str "path", TRAX_IMAGE_PATH); (str "url", TRAX_IMAGE_URL); (str "buffer", TRAX_IMAGE_BUFFER); (str "memory", TRAX_IMAGE_MEMORY)] (m_images m)) as (names & A & B & C).
    + cbn [map fst]. repeat (apply NoDup_cons; [vm_compute; intuition discriminate|]). apply NoDup_nil.
    + intros n c I. cbn [In] in I. repeat (destruct I as [I|I]; [injection I as <- <-; vm_compute; reflexivity|]). destruct I.
    + exists names. split; [exact A|]. split; [exact B|]. intros n. rewrite C. cbn [image_table In]. unfold TRAX_IMAGE_PATH, TRAX_IMAGE_URL, TRAX_IMAGE_BUFFER, TRAX_IMAGE_MEMORY.
      split; intros (c & I & S); exists c; (split; [tauto|exact S]).
  - apply flags_listed.
    + cbn [map fst]. repeat (apply NoDup_cons; [vm_compute; intuition discriminate|]). apply NoDup_nil.
    + intros n c I. cbn [In] in I. repeat (destruct I as [I|I]; [injection I as <- <-; vm_compute; reflexivity|]). destruct I.
Qed.

(** ---- Sessions ---- *)
Lemma requests_sent running c : finished running c = false -> ~ no_image (k_images c) /\ sends running (k_images c) (k_region c) (k_parameters c) (requests running c).
Proof.
  unfold finished. intros F. apply orb_false_iff in F as [F1 F2]. apply Z.eqb_neq in F1. split; [intros X; apply F1; now apply size_zero|]. unfold requests.
  destruct (k_region c) as [r|]; [destruct running; constructor|]. apply negb_false_iff in F2 as ->. constructor.
Qed.
Lemma elapsed_seconds micros : 0 <= micros -> seconds micros (elapsed micros).
Proof. intros H. unfold elapsed, seconds. destruct (Z.eqb_spec micros 0); [now left|right; split; [lia|reflexivity]]. Qed.
Definition keys (pm : pmap) (key : list N) : Prop := exists v, pm key = Some v.
Lemma lasting_ext (ts : list turn) : forall f g : list N -> Prop, (forall k, f k -> g k) -> lasting g ts -> lasting f ts.
Proof.
  induction ts as [|t ts IH]; intros f g H L; [exact Logic.I|]. cbn [lasting] in *. destruct (t_answer t) as [[r p]|]; [|exact (IH f g H L)]. destruct L as [A B]. split; [intros k K; apply A, H, K|exact B].
Qed.
Lemma session_talks m ts : sane_meta m -> forall running s k data events result, Forall sane_answer ts -> knows s k -> lasting (keys (snd k)) ts ->
  session m ts running s data = (events, Ok result) -> conversation m running k data ts events result.
Proof.
  intros M. induction ts as [|t ts IH]; intros running s k data events result A K L E; cbn [session] in E; [discriminate|].
  inversion A as [|? ? [At Ap] A']; subst.
  destruct (t_interrupted t || negb (t_ready t)) eqn:X.
  { injection E as <- <-. apply c_over. apply orb_true_iff in X as [X|X]; [now left|right; now apply negb_true_iff]. }
  destruct (status_struct m s) as [[v|]| | |] eqn:Es; cbn [proceed] in E; try discriminate.
  2: { injection E as <- <-. destruct k as [[r time] pm]. destruct K as (Kr & _). unfold status_struct, mbind in Es. rewrite Kr in Es. destruct r as [x|]; [|discriminate].
       cbn [region_field] in Es. apply c_hidden. destruct (region_to_array x) as [[a|]| | |]; try discriminate. reflexivity. }
  apply (status_shown m s k v M K) in Es. unfold before in E. cbn [fst snd] in E.
  destruct (t_callback t v data) as [[[[i r] p] data']|] eqn:Ec.
  2: { injection E as <- <-. exact (c_error m running k data t ts v Es Ec). }
  destruct (get_command (m_channels m) i r p) as [[c|]| | |] eqn:Eg; cbn [proceed fst snd stop] in E; try discriminate.
  2: { injection E as <- <-. exact (c_unclear m running k data t ts v i r p data' Es Ec (command_unclear m i r p Eg)). }
  apply command_asks in Eg. destruct (finished running c) eqn:F.
  { injection E as <- <-. apply (c_end m running k data t ts v i r p data' _ _ _ Es Ec Eg). unfold finished in F. apply orb_true_iff in F as [F|F].
    - left. apply size_zero. now apply Z.eqb_eq.
    - right. destruct (k_region c); [discriminate|]. now apply negb_true_iff in F. }
  apply requests_sent in F as [N S]. cbn [fst snd] in E. destruct (t_accepted t) eqn:Ta; cbn [negb] in E.
  2: { injection E as <- <-. rewrite app_nil_r. exact (c_lost m running k data t ts v i r p data' _ _ _ _ Es Ec Eg N S (or_introl Ta)). }
  destruct (t_answer t) as [[a q]|] eqn:Tn.
  2: { injection E as <- <-. rewrite app_nil_r. exact (c_lost m running k data t ts v i r p data' _ _ _ _ Es Ec Eg N S (or_intror Tn)). }
  destruct Ap as (ops & Rq & Cq). destruct (props_run_spec ops) as (q' & Rq' & Oq & Lq). rewrite Rq in Rq'. injection Rq' as <-.
  destruct k as [[kr kt] pm]. destruct K as (Kr & Kt & (Ko & Kl & Kc)). cbn [lasting snd] in L. rewrite Tn in L. destruct L as [L1 L2].
  destruct (copy_all_spec 1 q (st_properties s) Oq Ko (or_introl eq_refl)) as (w & Ew & Ow & Lw).
  unfold answered in E. unfold props_append in E. change (copy_properties q (st_properties s) COPY_ALL) with (copy_properties q (st_properties s) 1) in E. rewrite Ew in E. cbn [obind proceed done] in E.
  assert (Hm : forall key, sm_lookup w key = pm_run ops key).
  { intros key. rewrite Lw. unfold over. rewrite Lq, Kl. destruct (pm_run ops key) eqn:X1; [reflexivity|]. destruct (pm key) as [x|] eqn:X2; [|reflexivity].
    destruct (L1 key (ex_intro _ x X2)) as (y & Y). rewrite props_get_spec, Lq, X1 in Y by exact Oq. discriminate. }
  apply pair_equal_spec in E as [E1 E2].
  destruct (session m ts true (mkStatus (Some a) (elapsed (t_micros t)) w) data') as [ev res] eqn:Er. cbn [fst snd] in E1, E2. subst events. rewrite E2 in Er.
  cbn [app]. refine (c_next m running _ data t ts v i r p data' _ _ _ _ a q (elapsed (t_micros t)) (pm_run ops) ev result Es Ec Eg N S Ta Tn (elapsed_seconds _ At) _ _).
  - intros key. rewrite props_get_spec, Lq by exact Oq. reflexivity.
  - apply (IH true (mkStatus (Some a) (elapsed (t_micros t)) w) (Some a, elapsed (t_micros t), pm_run ops) data' ev result A'); [| |exact Er].
    + refine (conj eq_refl (conj eq_refl (conj Ow (conj Hm Cq)))).
    + cbn [snd]. apply (lasting_ext ts _ (has q)); [|exact L2]. intros key (x & Hx). exists x. now rewrite props_get_spec, Lq, Hx by exact Oq.
Qed.
Lemma client_talks m ts data events result : sane_meta m -> Forall sane_answer ts -> lasting (fun _ => False) ts -> client m ts (Some data) = (events, Ok result) ->
  conversation m false (None, S754_zero false, pm_empty) data ts events result.
Proof.
  intros M A L E. apply (session_talks m ts M false (mkStatus None (S754_zero false) props_create) _ data events result A); [| |exact E].
  - refine (conj eq_refl (conj eq_refl (conj props_create_ok (conj _ _)))); [intros k; apply sm_new_lookup|]. intros k v X. discriminate.
  - apply (lasting_ext ts _ (fun _ => False)); [|exact L]. intros k (v & X). discriminate.
Qed.

(** ---- The order of events ---- *)
Lemma session_order m ts : forall running s data events result, session m ts running s data = (events, result) ->
  regular running events /\ forall d, result = done d -> calls events = S (sent events).
Proof.
  induction ts as [|t ts IH]; intros running s data events result E; cbn [session] in E; [injection E as <- <-; split; [constructor|discriminate]|].
  destruct (t_interrupted t || negb (t_ready t)); [injection E as <- <-; split; [constructor|discriminate]|].
  destruct (status_struct m s) as [[v|]| | |]; cbn [proceed] in E; try (injection E as <- <-; split; [constructor|discriminate]). unfold before in E. cbn [fst snd] in E.
  destruct (t_callback t v data) as [[[[i r] p] data']|]; [|injection E as <- <-; split; [constructor|discriminate]].
  destruct (get_command (m_channels m) i r p) as [[c|]| | |]; cbn [proceed fst snd stop] in E; try (injection E as <- <-; split; [constructor|discriminate]).
  destruct (finished running c) eqn:F; [injection E as <- <-; split; [constructor|reflexivity]|].
  apply requests_sent in F as [_ Sn]. cbn [fst snd] in E.
  assert (K : forall ev (res : Matlab.result mx), regular true ev -> (forall d, res = done d -> calls ev = S (sent ev)) ->
    regular running ([Called v data] ++ requests running c ++ ev) /\ forall d, res = done d -> calls ([Called v data] ++ requests running c ++ ev) = S (sent ([Called v data] ++ requests running c ++ ev))).
  { intros ev res R1 R2. split; [inversion Sn; subst; cbn [app]; constructor; exact R1|]. intros d Ed. specialize (R2 d Ed). unfold calls, sent in *.
    inversion Sn; subst; cbn [app filter List.length]; now rewrite R2. }
  destruct (t_accepted t); cbn [negb] in E; [|injection E as <- <-; apply K; [constructor|discriminate]].
  destruct (t_answer t) as [[a q]|]; [|injection E as <- <-; apply K; [constructor|discriminate]].
  destruct (answered s a q (t_micros t)) as [[s'|]| | |]; cbn [proceed fst snd stop] in E; try (injection E as <- <-; apply K; [constructor|discriminate]).
  destruct (session m ts true s' data') as [ev res] eqn:Er. cbn [fst snd] in E. injection E as <- <-. destruct (IH _ _ _ _ _ Er) as [R1 R2]. exact (K ev res R1 R2).
Qed.
Lemma client_order m ts data events result : client m ts data = (events, result) -> regular false events /\ forall d, result = done d -> calls events = S (sent events).
Proof. apply session_order. Qed.

(** ---- Violations ---- *)
Lemma timeout_ub command f x : x = S754_nan \/ (exists s, x = S754_infinity s) -> client_arguments [text_array command; f; text_array (str "timeout"); MDouble 1 1 [x]] = UB.
Proof. intros [->|[s ->]]; reflexivity. Qed.

(** ---- Examples ---- *)
Definition sample_meta : meta := mkMeta (str "name") (str "about") (str "family") 6 1 1.
Definition two : spec_float := S754_finite false 4503599627370496 (-51).
Definition sample_box : region := RRect (S754_zero false) (S754_zero false) (S754_finite false 8388608 (-22)) (S754_finite false 8388608 (-22)).
Definition box_array : mx := MDouble 1 4 [S754_zero false; S754_zero false; two; two].
Definition none_array : mx := MDouble 0 0 [].
Definition score : props := match props_run [PSet (str "score") (str "1")] with Ok p => p | _ => props_create end.
(** Starts with a box, sends a frame, then ends; the data are left *)
Definition first_turn (p : props) : turn := mkTurn false true (fun _ d => Some (text_array (str "1.jpg"), box_array, none_array, d)) true (Some (sample_box, p)) 2.
Definition frame_turn (p : props) : turn := mkTurn false true (fun _ d => Some (text_array (str "2.jpg"), none_array, none_array, d)) true (Some (sample_box, p)) 2.
Definition last_turn : turn := mkTurn false true (fun _ d => Some (none_array, none_array, none_array, d)) true None 0.
Definition score_map : pmap := pm_run [PSet (str "score") (str "1")].
Lemma score_sane : exists ops, props_run ops = Ok score /\ c_strings (pm_run ops).
Proof.
  exists [PSet (str "score") (str "1")]. split; [vm_compute; reflexivity|]. intros k v E. unfold pm_run in E. cbn [fold_left pm_step] in E. unfold pm_set, pm_empty in E.
  destruct (bytes_eqb (str "score") k) eqn:B; [|discriminate]. apply bytes_eqb_eq in B. subst k. injection E as <-. split; vm_compute; intuition discriminate.
Qed.
Lemma none_sane : exists ops, props_run ops = Ok props_create /\ c_strings (pm_run ops).
Proof. exists []. split; [reflexivity|]. intros k v E. discriminate. Qed.
Lemma sample_turns : Forall sane_answer [first_turn props_create; frame_turn score; last_turn] /\ sane_meta sample_meta /\ lasting (fun _ => False) [first_turn props_create; frame_turn score; last_turn].
Proof.
  split; [|split].
  - apply Forall_cons; [split; [cbn; discriminate|exact none_sane]|]. apply Forall_cons; [split; [cbn; discriminate|exact score_sane]|]. apply Forall_cons; [split; [cbn; discriminate|exact Logic.I]|]. apply Forall_nil.
  - split; [|split]; vm_compute; intuition discriminate.
  - cbn [lasting first_turn frame_turn last_turn t_answer]. split; [intros k []|]. split; [|exact Logic.I]. intros k [v H]. rewrite (props_get_spec _ _ props_create_ok) in H. unfold props_create in H. rewrite sm_new_lookup in H. discriminate.
Qed.
Lemma stale_shown : exists m start frame final r p events v d, sane_meta m /\ Forall sane_answer [start; frame; final] /\
  t_answer frame = Some (r, p) /\ (forall key, ~ has p key) /\
  client m [start; frame; final] None = (events ++ [Called v d], done d) /\ showing v (str "score") (text_array (str "1")).
Proof.
  exists sample_meta, (first_turn score), (frame_turn props_create), last_turn, sample_box, props_create. eexists [_; _; _; _], _, _. split; [apply sample_turns|].
  split; [apply Forall_cons; [split; [cbn; discriminate|exact score_sane]|]; apply Forall_cons; [split; [cbn; discriminate|exact none_sane]|]; apply Forall_cons; [split; [cbn; discriminate|exact Logic.I]|]; apply Forall_nil|].
  split; [reflexivity|]. split.
  { intros k [v H]. rewrite (props_get_spec _ _ props_create_ok) in H. unfold props_create in H. rewrite sm_new_lookup in H. discriminate. }
  split; [vm_compute; reflexivity|]. eexists _, _. split; [reflexivity|]. split; [right; right; left; vm_compute; reflexivity|]. left. vm_compute. reflexivity.
Qed.
(** Options for the example *)
Definition sample_options : list (list N * wish) :=
  [(str "Timeout", WTimeout 2 two); (str "environment", WEnvironment [(str "A", str "1"); (str "B", str "2")]); (str "debug", WDebug two);
   (str "environment", WEnvironment [(str "A", str "3")])].
Lemma sample_options_proper : Forall proper_option sample_options.
Proof.
  unfold sample_options.
  repeat (apply Forall_cons; [split; [vm_compute; reflexivity|]|]); try apply Forall_nil; cbn [snd proper_wish]; try exact Logic.I.
  - split; vm_compute; reflexivity.
  - repeat (apply Forall_cons; [split; vm_compute; intuition discriminate|]). apply Forall_nil.
  - repeat (apply Forall_cons; [split; vm_compute; intuition discriminate|]). apply Forall_nil.
Qed.
