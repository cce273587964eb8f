(** Proofs about texts, properties, names, lists of images and arguments of the Matlab functions *)
From Coq Require Import Floats.SpecFloat.
From Verif Require Import CBase StrMap StrMapProofs Props PropsSpec PropsProofs Buffer BufferProofs Num PropsNum Region RegionGeom GeomProofs OverlapProofs
  Image ImageSpec ImageProofs Formats FormatsProofs Lists Matlab MatlabSpec MatlabProofs.
Local Open Scope Z_scope.

Lemma get_set_string s : ~ In 0%N s -> get_string (set_string s) = done s.
Proof.
  intros H. unfold set_string, get_string. cbn [get_m]. rewrite (no_nul_c_string s H). change (1 =? 1) with true. cbn [negb].
  now rewrite (no_nul_c_string s H).
Qed.
Lemma set_string_text s : ~ In 0%N s -> set_string s = text_array s.
Proof. intros H. unfold set_string, text_array. now rewrite (no_nul_c_string s H). Qed.

(** ---- Paths ---- *)
Lemma path_exchanged p : ~ In 0%N p -> exists im, image_create_path p = Ok im /\
  image_to_array (Some im) = Ok (Some (text_array p)) /\ array_to_image (text_array p) = done im.
Proof.
  intros H. eexists. split; [apply ImageProofs.path_image|]. split.
  - unfold image_to_array, image_get_path. cbn [i_type i_data]. change (TRAX_IMAGE_PATH =? TRAX_IMAGE_PATH) with true. cbv iota.
    rewrite blk_string_copy by exact H. cbn [obind]. now rewrite set_string_text.
  - rewrite <- set_string_text by exact H. unfold array_to_image, set_string at 1. change (negb (1 =? 1)) with false. cbv iota.
    rewrite get_set_string by exact H. unfold mbind, done at 1. cbn [obind]. unfold lift. rewrite ImageProofs.path_image. reflexivity.
Qed.
Lemma url_aborts u im : image_create_url u = Ok im -> image_to_array (Some im) = Abort.
Proof. rewrite url_image. intros E. injection E as <-. reflexivity. Qed.
Lemma empty_aborts w : 0 <= w -> array_to_image (MU8 [0; w] []) = Abort.
Proof.
  intros Hw. unfold array_to_image, fill_image, image_create_memory, memory_size. rewrite !Z.mul_0_r.
  change (int_result 0) with (@Ok Z 0). reflexivity.
Qed.

(** ---- Lists of images ---- *)
Lemma image_exchanged im : memory_image im \/ MatlabSpec.path_image im ->
  exists a, image_to_array (Some im) = Ok (Some a) /\ array_to_image a = done im /\ forall r c l, a <> MCell r c l.
Proof.
  intros [H|(p & Hp & H)].
  - destruct (memory_round_trip im H) as (a & E1 & S1 & E2). exists a. split; [exact E1|]. split; [exact E2|].
    intros r c l ->. discriminate E2.
  - destruct (path_exchanged p Hp) as (im' & E & E1 & E2). rewrite H in E. injection E as <-. exists (text_array p).
    split; [exact E1|]. split; [exact E2|]. discriminate.
Qed.
Opaque image_to_array array_to_image.
Lemma list_exchanged l : List.length l = 3%nat -> (forall im, In (Some im) l -> memory_image im \/ MatlabSpec.path_image im) ->
  channels_of l <> 0 ->
  exists cells, images_to_array l = Ok (MCell 1 (Z.of_nat (List.length cells)) (map Some cells)) /\
    map (fun im => image_to_array (Some im)) (flat_map (fun im => match im with Some im => [im] | None => [] end) l) = map (fun a => Ok (Some a)) cells /\
    array_to_images (MCell 1 (Z.of_nat (List.length cells)) (map Some cells)) (channels_of l) = done l.
Proof.
  intros L H C. destruct l as [|c [|d [|i [|]]]]; try discriminate L. clear L.
  assert (X : forall im, In (Some im) [c; d; i] -> exists a, image_to_array (Some im) = Ok (Some a) /\ array_to_image a = done im).
  { intros im Him. destruct (image_exchanged im (H im Him)) as (a & E1 & E2 & _). exists a. auto. }
  clear H. destruct c as [c|], d as [d|], i as [i|]; cbn [channels_of] in *; try (exfalso; apply C; reflexivity); clear C;
    try (destruct (X c) as (ac & Ec1 & Ec2); [cbn [In]; tauto|]);
    try (destruct (X d) as (ad & Ed1 & Ed2); [cbn [In]; tauto|]);
    try (destruct (X i) as (ai & Ei1 & Ei2); [cbn [In]; tauto|]); clear X;
    [exists [ac; ad; ai]|exists [ac; ad]|exists [ac; ai]|exists [ac]|exists [ad; ai]|exists [ad]|exists [ai]];
    (split; [|split]);
    try (cbn [flat_map app map]; rewrite ?Ec1, ?Ed1, ?Ei1; reflexivity);
    try (unfold images_to_array, image_to_cell, list_has, list_get, list_size;
         repeat (progress (cbn; change (Pos.to_nat 1) with 1%nat; change (Pos.to_nat 2) with 2%nat; change (Pos.to_nat 3) with 3%nat; rewrite ?Ec1, ?Ed1, ?Ei1)); reflexivity);
    try (unfold array_to_images, cell_to_image, list_set, mbind; repeat (progress (cbn; change (Pos.to_nat 1) with 1%nat; change (Pos.to_nat 2) with 2%nat; change (Pos.to_nat 3) with 3%nat; rewrite ?Ec2, ?Ed2, ?Ei2)); reflexivity).
Qed.
Transparent image_to_array array_to_image.
(** One image without a cell array *)
Lemma single_image a im : array_to_image a = done im ->
  array_to_images a 1 = done [Some im; None; None] /\ array_to_images a 2 = done [None; Some im; None] /\
  array_to_images a 4 = done [None; None; Some im].
Proof.
  intros E. assert (N : forall r c l, a <> MCell r c l) by (intros r c l ->; discriminate E).
  unfold array_to_images. destruct a; try (exfalso; eapply N; reflexivity); (rewrite E; split; [reflexivity|]; split; reflexivity).
Qed.
(** The number of cells and of channels differ *)
Lemma wrong_count rows cols cells channels : 0 <= channels <= INT_MAX -> Z.max rows cols <> Z.of_nat (FormatsSpec.popcount32 channels) ->
  array_to_images (MCell rows cols cells) channels = mex_error.
Proof.
  intros Hc Hn. unfold array_to_images. rewrite image_list_count_ok by exact Hc.
  cbn [obind]. destruct (negb (Z.min rows cols =? 1)); [reflexivity|].
  replace (Z.max rows cols =? Z.of_nat (FormatsSpec.popcount32 channels)) with false by lia. reflexivity.
Qed.

(** One array for several channels *)
Lemma single_wrong_count a channels : 0 <= channels <= INT_MAX -> FormatsSpec.popcount32 channels <> 1%nat -> (forall r c l, a <> MCell r c l) ->
  array_to_images a channels = mex_error.
Proof.
  intros Hc Hn N. unfold array_to_images. rewrite image_list_count_ok by exact Hc.
  cbn [obind]. replace (Z.of_nat (FormatsSpec.popcount32 channels) =? 1) with false by lia.
  destruct a; try (exfalso; eapply N; reflexivity); reflexivity.
Qed.

(** ---- Properties ---- *)
Definition key_cells (kvs : list (list N * list N)) : list (option mx) :=
  map (fun kv => Some (set_string (fst kv))) kvs ++ map (fun kv => Some (set_string (snd kv))) kvs.
Lemma set_cell_app {A} (a b : list A) v w : set_cell (a ++ v :: b) (List.length a) w = Ok (a ++ w :: b).
Proof. induction a as [|x a IH]; [reflexivity|]. cbn [app List.length set_cell]. rewrite IH. reflexivity. Qed.
Lemma put_app {A} (a b : list A) v w i : i = Z.of_nat (List.length a) -> in_int i = true -> put (a ++ v :: b) i w = Ok (a ++ w :: b).
Proof.
  intros -> Hi. unfold put, int_result. rewrite Hi. cbn [obind]. unfold put_cell. replace (Z.of_nat (List.length a) <? 0) with false by lia.
  rewrite Nat2Z.id. apply set_cell_app.
Qed.
Lemma cell_enumerate_ok kvs : forall before n, n = (List.length before + List.length kvs)%nat -> in_int (2 * Z.of_nat n) = true ->
  cell_enumerate kvs (Z.of_nat n) (Z.of_nat (List.length before))
    (map (fun kv => Some (set_string (fst kv))) before ++ repeat None (List.length kvs) ++
     map (fun kv => Some (set_string (snd kv))) before ++ repeat None (List.length kvs)) = Ok (key_cells (before ++ kvs)).
Proof.
  induction kvs as [|[k v] kvs IH]; intros before n Hn Hi.
  - cbn [cell_enumerate List.length repeat app]. unfold key_cells. now rewrite !app_nil_r.
  - cbn [cell_enumerate List.length repeat]. cbn [List.length] in Hn.
    assert (I1 : in_int (Z.of_nat (List.length before)) = true) by (apply (int_le _ _ Hi); lia).
    assert (I2 : in_int (Z.of_nat (List.length before) + Z.of_nat n) = true) by (apply (int_le _ _ Hi); lia).
    rewrite <- app_comm_cons. rewrite (put_app _ _ _ _ _); [|now rewrite map_length|exact I1]. cbn [obind].
    set (K := map (fun kv => Some (set_string (fst kv))) before). set (V := map (fun kv => Some (set_string (snd kv))) before).
    replace (K ++ Some (set_string k) :: repeat None (List.length kvs) ++ V ++ None :: repeat None (List.length kvs))
      with ((K ++ Some (set_string k) :: repeat None (List.length kvs) ++ V) ++ None :: repeat None (List.length kvs))
      by (rewrite <- !app_assoc, <- app_comm_cons, <- !app_assoc; reflexivity).
    rewrite put_app; [|rewrite app_length; cbn [List.length]; rewrite app_length, repeat_length; unfold K, V; rewrite !map_length; lia|exact I2].
    cbn [obind]. specialize (IH (before ++ [(k, v)]) n).
    rewrite !app_length in IH. cbn [List.length] in IH. rewrite <- app_assoc in IH. cbn [app] in IH.
    replace (Z.of_nat (List.length before) + 1) with (Z.of_nat (List.length before + 1)) by lia.
    rewrite <- IH; [|lia|exact Hi]. f_equal. unfold K, V. rewrite !map_app. cbn [map fst snd]. rewrite <- !app_assoc. cbn [app].
    rewrite <- !app_assoc. reflexivity.
Qed.
Lemma parameters_to_cell_ok p : in_int (2 * Z.of_nat (List.length (props_enum p))) = true ->
  parameters_to_cell p = Ok (MCell (Z.of_nat (List.length (props_enum p))) 2 (key_cells (props_enum p))).
Proof.
  intros Hi. unfold parameters_to_cell. pose proof (cell_enumerate_ok (props_enum p) [] _ eq_refl Hi) as E.
  cbn [map List.length app] in E. replace (repeat None (2 * List.length (props_enum p))) with
    (repeat (@None mx) (List.length (props_enum p)) ++ repeat None (List.length (props_enum p)))
    by (rewrite <- repeat_app; f_equal; lia).
  change (0 + List.length (props_enum p))%nat with (List.length (props_enum p)) in E. change (Z.of_nat 0) with 0 in E. rewrite E. reflexivity.
Qed.
Lemma key_cells_text kvs i k v : nth_error kvs i = Some (k, v) -> ~ In 0%N k -> ~ In 0%N v ->
  cell_text (key_cells kvs) (List.length kvs) i 0 = Some k /\ cell_text (key_cells kvs) (List.length kvs) i 1 = Some v.
Proof.
  intros E Hk Hv. assert (Li : (i < List.length kvs)%nat) by (apply nth_error_Some; congruence).
  unfold cell_text, key_cells. split.
  - rewrite app_nth1 by (rewrite map_length; lia). replace (i + List.length kvs * 0)%nat with i by lia.
    rewrite (nth_error_nth _ i None (x := Some (set_string k))) by (rewrite nth_error_map, E; reflexivity).
    rewrite set_string_text by exact Hk. reflexivity.
  - rewrite app_nth2 by (rewrite map_length; lia). rewrite map_length. replace (i + List.length kvs * 1 - List.length kvs)%nat with i by lia.
    rewrite (nth_error_nth _ i None (x := Some (set_string v))) by (rewrite nth_error_map, E; reflexivity).
    rewrite set_string_text by exact Hv. reflexivity.
Qed.
Lemma cell_shows ops p : props_run ops = Ok p -> c_strings (pm_run ops) -> in_int (2 * Z.of_nat (props_count p)) = true ->
  exists rows cells, parameters_to_cell p = Ok (MCell (Z.of_nat (List.length rows)) 2 cells) /\ enumerates rows (pm_run ops) /\
    forall i k v, nth_error rows i = Some (k, v) ->
      cell_text cells (List.length rows) i 0 = Some k /\ cell_text cells (List.length rows) i 1 = Some v.
Proof.
  intros R C Hi. destruct (props_api ops) as (m & Rm & _ & _ & En & Cn). rewrite R in Rm. injection Rm as <-. rewrite Cn in Hi.
  exists (props_enum p), (key_cells (props_enum p)). split; [apply parameters_to_cell_ok; exact Hi|]. split; [exact En|].
  intros i k v E. destruct (C k v) as [Hk Hv]; [apply (proj2 En); apply (nth_error_In _ _ E)|]. apply key_cells_text; assumption.
Qed.
Lemma cell_refused ops p : props_run ops = Ok p -> in_int (2 * Z.of_nat (props_count p)) = true -> props_count p <> 1%nat ->
  exists a, parameters_to_cell p = Ok a /\ cell_to_parameters a = mex_error.
Proof.
  intros R Hi H1. destruct (props_api ops) as (m & Rm & _ & _ & En & Cn). rewrite R in Rm. injection Rm as <-. rewrite Cn in Hi, H1.
  eexists. split; [apply parameters_to_cell_ok; exact Hi|]. cbn [cell_to_parameters].
  replace (Z.min (Z.of_nat (List.length (props_enum p))) 2 =? 1) with false by lia. reflexivity.
Qed.
Lemma set_text p k v : ~ In 0%N k -> ~ In 0%N v -> set_parameter p k (set_string v) = lift (props_set p k v).
Proof.
  intros Hk Hv. rewrite set_string_text by exact Hv. unfold set_parameter, text_array. fold (text_array v).
  rewrite <- set_string_text by exact Hv. rewrite get_set_string by exact Hv. unfold mbind, done. cbn [obind].
  now rewrite (no_nul_c_string k Hk).
Qed.
Lemma cell_one ops p : props_run ops = Ok p -> c_strings (pm_run ops) -> props_count p = 1%nat ->
  exists a q, parameters_to_cell p = Ok a /\ cell_to_parameters a = done q /\ forall k, props_get q k = Ok (pm_run ops k).
Proof.
  intros R C H1. destruct (props_api ops) as (m & Rm & _ & _ & En & Cn). rewrite R in Rm. injection Rm as <-. rewrite Cn in H1.
  destruct (props_enum p) as [|[k v] [|]] eqn:E; try discriminate H1.
  destruct (C k v) as [Hk Hv]; [apply (proj2 En); now left|].
  destruct (sm_put_spec props_create k v props_create_ok) as (q & Eq & Okq & _ & Lq).
  eexists. exists q. split; [rewrite parameters_to_cell_ok; rewrite E; reflexivity|]. split.
  - unfold key_cells. cbn [map app fst snd List.length]. unfold cell_to_parameters. change (Z.of_nat 1) with 1. change (negb (Z.min 1 2 =? 1)) with false. cbv iota.
    change (Z.to_nat 1) with 1%nat. cbn [for_result]. unfold cell_to_parameter, get_cell_at. change (0 <? 0) with false. change (0 + 1 <? 0) with false.
    change (Z.to_nat 0) with O. change (Z.to_nat (0 + 1)) with 1%nat. cbn [nth non_null obind].
    rewrite get_set_string by exact Hk. unfold mbind at 2. unfold done at 1. cbn [obind]. rewrite set_text by assumption.
    unfold props_set. rewrite Eq. reflexivity.
  - intros k'. rewrite props_get_spec by exact Okq. rewrite Lq. f_equal. unfold pm_set.
    replace (sm_lookup props_create k') with (@None (list N)) by (symmetry; apply sm_new_lookup).
    destruct (bytes_eqb k k') eqn:B.
    + apply bytes_eqb_eq in B. subst k'. symmetry. apply (proj2 En). now left.
    + destruct (pm_run ops k') as [v'|] eqn:P; [|reflexivity]. exfalso. apply (proj2 En) in P. destruct P as [P|[]].
      injection P as -> ->. rewrite bytes_eqb_refl in B. discriminate.
Qed.
(** Structures *)
Lemma field_name_safe k : field_safe k -> field_name k = k.
Proof.
  destruct k as [|c k]; [reflexivity|]. unfold field_safe. cbn [List.tl field_name]. intros H. f_equal.
  induction k as [|d k IH]; [reflexivity|]. cbn [map]. rewrite IH by (intros e He; apply H; now right). f_equal.
  unfold field_char. specialize (H d (or_introl eq_refl)). unfold name_char in H. unfold is_alnum, is_digit, is_upper, is_lower.
  destruct ((48 <=? d) && (d <=? 57) || (65 <=? d) && (d <=? 90) || (97 <=? d) && (d <=? 122) || (d =? 95))%N eqn:E; [reflexivity|lia].
Qed.
Lemma struct_loop_copy kvs : (forall k v, In (k, v) kvs -> field_safe k /\ ~ In 0%N k /\ ~ In 0%N v) -> forall p,
  struct_loop (map (fun kv => (field_name (c_string (fst kv)), set_string (snd kv))) kvs) p = lift (enum_into copy_property_overwrite kvs p).
Proof.
  induction kvs as [|[k v] kvs IH]; intros H p; [reflexivity|]. cbn [map struct_loop enum_into fst snd].
  destruct (H k v (or_introl eq_refl)) as (F & Hk & Hv). rewrite (no_nul_c_string k Hk), (field_name_safe k F), set_text by assumption.
  unfold copy_property_overwrite at 1. destruct (props_set p k v) as [q| | |]; unfold lift, mbind; cbn [obind]; try reflexivity.
  rewrite IH by (intros k' v' H'; apply H; now right). reflexivity.
Qed.
Lemma struct_exchanged ops p : props_run ops = Ok p -> c_strings (pm_run ops) -> (forall k v, pm_run ops k = Some v -> field_safe k) ->
  exists q, struct_to_parameters (parameters_to_struct p) = done q /\ forall k, props_get q k = Ok (pm_run ops k).
Proof.
  intros R C F. destruct (props_api ops) as (m & Rm & _ & _ & En & _). rewrite R in Rm. injection Rm as <-.
  destruct (copy_api ops) as (s & r & Rs & Er & G). rewrite R in Rs. injection Rs as <-.
  exists r. split; [|exact G]. unfold parameters_to_struct, struct_to_parameters. rewrite struct_loop_copy.
  - unfold props_copy, copy_properties in Er. change (copy_callback COPY_ALL) with copy_property_overwrite in Er. rewrite Er. reflexivity.
  - intros k v H. apply (proj2 En) in H. split; [apply (F k v H)|apply (C k v H)].
Qed.
Lemma struct_fields ops p k v : props_run ops = Ok p -> c_strings (pm_run ops) -> pm_run ops k = Some v ->
  exists fields, parameters_to_struct p = MStruct fields /\
    exists name, In (name, text_array v) fields /\ List.length name = List.length k /\ List.hd_error name = List.hd_error k /\
      (forall c, In c (List.tl name) -> name_char c) /\
      forall i c, nth_error k (S i) = Some c -> name_char c -> nth_error name (S i) = Some c.
Proof.
  intros R C E. destruct (props_api ops) as (m & Rm & _ & _ & En & _). rewrite R in Rm. injection Rm as <-.
  eexists. split; [reflexivity|]. exists (field_name k). destruct (C k v E) as [Hk Hv].
  assert (FC : forall c, name_char (field_char c) /\ (name_char c -> field_char c = c)).
  { intros c. unfold field_char, name_char, is_alnum, is_digit, is_upper, is_lower.
    destruct ((48 <=? c) && (c <=? 57) || (65 <=? c) && (c <=? 90) || (97 <=? c) && (c <=? 122) || (c =? 95))%N eqn:D; lia. }
  split.
  { apply in_map_iff. exists (k, v). cbn [fst snd]. split; [now rewrite (no_nul_c_string k Hk), set_string_text|]. apply (proj2 En). exact E. }
  destruct k as [|c k]; cbn [field_name].
  - split; [reflexivity|]. split; [reflexivity|]. split; [intros c []|]. intros i c X. discriminate X.
  - split; [cbn [List.length]; now rewrite map_length|]. split; [reflexivity|]. cbn [List.tl nth_error]. split.
    + intros d Hd. apply in_map_iff in Hd as (e & <- & _). apply FC.
    + intros i d Hd Nd. rewrite nth_error_map, Hd. cbn [option_map]. f_equal. now apply FC.
Qed.

(** ---- Names of formats ---- *)
Lemma code_of_in T : NoDup (map fst T) -> forall s name code, In (name, code) T -> bytes_eqb s name = true -> Matlab.code_of T s = Some code.
Proof.
  induction T as [|[n c] T IH]; intros N s name code H E; [destruct H|]. inversion N as [|? ? Nn N']; subst. cbn [Matlab.code_of].
  destruct H as [H|H].
  - injection H as -> ->. rewrite E. reflexivity.
  - destruct (bytes_eqb s n) eqn:B; [|apply (IH N' _ _ _ H E)]. exfalso. apply Nn. apply bytes_eqb_eq in B, E. subst s. subst n.
    apply (in_map fst) in H. exact H.
Qed.
Lemma code_of_out T s : (forall name code, In (name, code) T -> bytes_eqb s name = false) -> Matlab.code_of T s = None.
Proof.
  induction T as [|[n c] T IH]; intros H; [reflexivity|]. cbn [Matlab.code_of]. rewrite (H n c (or_introl eq_refl)). apply IH. intros name code H'. apply (H name code). now right.
Qed.
Definition parses (parser : list N -> result Z) (table : list (list N * Z)) : Prop :=
  forall s, (forall code, names_code table s code -> parser s = done code /\ ~ In 0%N s) /\
            ((forall code, ~ names_code table s code) -> parser s = mex_error) /\ exists r, parser s = Ok r.
Lemma lower_nul s name : strcasecmp_eq s name = true -> ~ In 0%N name -> ~ In 0%N s.
Proof.
  unfold strcasecmp_eq. intros E H X. apply bytes_eqb_eq in E. apply H. clear H.
  assert (M : In 0%N (map to_lower name)) by (rewrite <- E; apply in_map_iff; exists 0%N; split; [reflexivity|exact X]).
  apply in_map_iff in M as (c & Ec & Hc). unfold to_lower in Ec. destruct (is_upper c); [lia|subst c; exact Hc].
Qed.
Lemma parses_table T T' parser : (forall s, parser s = Ok (Matlab.code_of T' (map to_lower s))) -> NoDup (map fst T') ->
  (forall x, In x T <-> In x T') -> Forall (fun n => map to_lower (fst n) = fst n /\ ~ In 0%N (fst n)) T -> parses parser T.
Proof.
  intros P N I L s. rewrite P. rewrite Forall_forall in L. split; [|split; [|eexists; reflexivity]].
  - intros code (name & H & E). destruct (L _ H) as [Ln Zn]. cbn [fst] in Ln, Zn. split; [|exact (lower_nul s name E Zn)].
    unfold strcasecmp_eq in E. rewrite Ln in E. rewrite (code_of_in T' N _ name code); [reflexivity|now apply I|exact E].
  - intros H. rewrite code_of_out; [reflexivity|]. intros name code Hn. apply I in Hn. destruct (bytes_eqb (map to_lower s) name) eqn:E; [|reflexivity].
    exfalso. apply (H code). exists name. split; [exact Hn|]. unfold strcasecmp_eq. destruct (L _ Hn) as [Ln _]. cbn [fst] in Ln. rewrite Ln. exact E.
Qed.
Ltac table_done T :=
  apply parses_table with (T' := T);
  [reflexivity
  |repeat constructor; cbn; intuition discriminate
  |intros [n c]; cbn; intuition
  |repeat constructor; cbn; intuition discriminate].
Lemma region_parses : parses get_region_code region_table.
Proof. table_done region_table. Qed.
Lemma image_parses : parses get_image_code image_table.
Proof. table_done [(str "path", 1); (str "url", 2); (str "buffer", 8); (str "memory", 4)]. Qed.
Lemma channel_parses : parses get_channel_code channel_table.
Proof. table_done channel_table. Qed.

Definition text_cells (names : list (list N)) : list (option mx) := map (fun s => Some (text_array s)) names.
Lemma text_string s : ~ In 0%N s -> get_string (text_array s) = done s.
Proof. intros H. rewrite <- set_string_text by exact H. now apply get_set_string. Qed.
Lemma text_cell before s rest : get_cell_at (text_cells (before ++ s :: rest)) (Z.of_nat (List.length before)) = Some (text_array s).
Proof.
  unfold get_cell_at. replace (Z.of_nat (List.length before) <? 0) with false by lia. rewrite Nat2Z.id. unfold text_cells. rewrite map_app.
  rewrite app_nth2 by (rewrite map_length; lia). rewrite map_length, Nat.sub_diag. reflexivity.
Qed.
Lemma flags_loop parser table : parses parser table -> forall rest codes, Forall2 (names_code table) rest codes -> forall before acc,
  for_result (List.length rest) (Z.of_nat (List.length before)) (add_flag parser (text_cells (before ++ rest))) acc = done (fold_left Z.lor codes acc).
Proof.
  intros P rest codes F. induction F as [|s code rest codes H F IH]; intros before acc; [reflexivity|].
  cbn [List.length for_result fold_left]. unfold add_flag at 1. rewrite text_cell. cbn [non_null obind].
  destruct (proj1 (P s) code H) as [E Hs]. rewrite (text_string s Hs). unfold mbind, done. cbn [obind]. rewrite E. unfold done. cbn [obind].
  specialize (IH (before ++ [s]) (Z.lor acc code)). rewrite <- app_assoc in IH. cbn [app] in IH. rewrite app_length in IH. cbn [List.length] in IH.
  replace (Z.of_nat (List.length before) + 1) with (Z.of_nat (List.length before + 1)) by lia. exact IH.
Qed.
Lemma fold_lor codes : forall acc, fold_left Z.lor codes acc = Z.lor acc (fold_right Z.lor 0 codes).
Proof.
  induction codes as [|c codes IH]; intros acc; cbn [fold_left fold_right]; [now rewrite Z.lor_0_r|]. now rewrite IH, Z.lor_assoc.
Qed.
Lemma flags_union parser table : parses parser table -> forall names codes, names <> [] -> Forall2 (names_code table) names codes ->
  get_flags (row_of_texts names) parser = done (fold_right Z.lor 0 codes) /\
  get_flags (column_of_texts names) parser = done (fold_right Z.lor 0 codes).
Proof.
  intros P names codes N F. assert (L : 1 <= Z.of_nat (List.length names)) by (destruct names; [congruence|cbn [List.length]; lia]).
  pose proof (flags_loop parser table P names codes F [] 0) as E. rewrite fold_lor, Z.lor_0_l in E. cbn [List.length app] in E.
  unfold row_of_texts, column_of_texts, get_flags. change (map (fun s => Some (MChar 1 (Z.of_nat (List.length s)) s)) names) with (text_cells names).
  replace (negb (Z.min 1 (Z.of_nat (List.length names)) =? 1)) with false by lia.
  replace (negb (Z.min (Z.of_nat (List.length names)) 1 =? 1)) with false by lia.
  replace (Z.to_nat (Z.max 1 (Z.of_nat (List.length names)))) with (List.length names) by lia.
  replace (Z.to_nat (Z.max (Z.of_nat (List.length names)) 1)) with (List.length names) by lia. split; exact E.
Qed.
Lemma flags_unknown parser table : parses parser table -> forall rest before acc, Forall (fun s => ~ In 0%N s) rest ->
  Exists (fun s => forall code, ~ names_code table s code) rest ->
  for_result (List.length rest) (Z.of_nat (List.length before)) (add_flag parser (text_cells (before ++ rest))) acc = mex_error.
Proof.
  intros P rest. induction rest as [|s rest IH]; intros before acc Z0 X; [inversion X|]. inversion Z0 as [|? ? Hs Z1]; subst.
  cbn [List.length for_result]. unfold add_flag at 1. rewrite text_cell. cbn [non_null obind]. rewrite (text_string s Hs). unfold mbind at 2. unfold done at 1. cbn [obind].
  destruct (parser s) as [[code|]| | |] eqn:E.
  - unfold mbind, done. cbn [obind]. specialize (IH (before ++ [s]) (Z.lor acc code)). rewrite <- app_assoc in IH. cbn [app] in IH.
    rewrite app_length in IH. cbn [List.length] in IH. replace (Z.of_nat (List.length before) + 1) with (Z.of_nat (List.length before + 1)) by lia.
    apply IH; [exact Z1|]. inversion X as [? ? Xs|? ? Xr]; subst; [|exact Xr]. rewrite (proj1 (proj2 (P s)) Xs) in E. discriminate E.
  - reflexivity.
  - exfalso. destruct (proj2 (proj2 (P s))) as [r Er]. congruence.
  - exfalso. destruct (proj2 (proj2 (P s))) as [r Er]. congruence.
  - exfalso. destruct (proj2 (proj2 (P s))) as [r Er]. congruence.
Qed.
Lemma flags_refused parser table : parses parser table -> forall names, Forall (fun s => ~ In 0%N s) names ->
  Exists (fun s => forall code, ~ names_code table s code) names ->
  get_flags (row_of_texts names) parser = mex_error /\ get_flags (column_of_texts names) parser = mex_error.
Proof.
  intros P names Z0 X. assert (L : 1 <= Z.of_nat (List.length names)) by (destruct names; [inversion X|cbn [List.length]; lia]).
  pose proof (flags_unknown parser table P names [] 0 Z0 X) as E. cbn [List.length app] in E.
  unfold row_of_texts, column_of_texts, get_flags. change (map (fun s => Some (MChar 1 (Z.of_nat (List.length s)) s)) names) with (text_cells names).
  replace (negb (Z.min 1 (Z.of_nat (List.length names)) =? 1)) with false by lia.
  replace (negb (Z.min (Z.of_nat (List.length names)) 1 =? 1)) with false by lia.
  replace (Z.to_nat (Z.max 1 (Z.of_nat (List.length names)))) with (List.length names) by lia.
  replace (Z.to_nat (Z.max (Z.of_nat (List.length names)) 1)) with (List.length names) by lia. split; exact E.
Qed.
Lemma flag_single parser table : parses parser table -> forall s,
  (forall code, names_code table s code -> get_flags (text_array s) parser = done code) /\
  (~ In 0%N s -> (forall code, ~ names_code table s code) -> get_flags (text_array s) parser = mex_error).
Proof.
  intros P s. change (get_flags (text_array s) parser) with (mbind (get_string (text_array s)) parser). split.
  - intros code H. destruct (proj1 (P s) code H) as [E Hs]. rewrite (text_string s Hs). unfold mbind, done at 1. cbn [obind]. exact E.
  - intros Hs H. rewrite (text_string s Hs). unfold mbind, done at 1. cbn [obind]. exact (proj1 (proj2 (P s)) H).
Qed.
(** The lists that are shown are understood *)
Lemma region_flags f : get_flags (decode_region f) get_region_code = if Z.land f 14 =? 0 then mex_error else done (Z.land f 14).
Proof.
  rewrite <- some_bits_land14. unfold decode_region, decode_names. cbn [filter snd]. change TRAX_REGION_RECTANGLE with 2. change TRAX_REGION_POLYGON with 4.
  change TRAX_REGION_MASK with 8. rewrite bit1, bit2, bit3. destruct (Z.testbit f 1), (Z.testbit f 2), (Z.testbit f 3); vm_compute; reflexivity.
Qed.
Lemma image_flags f : get_flags (decode_image f) get_image_code = if Z.land f 15 =? 0 then mex_error else done (Z.land f 15).
Proof.
  rewrite <- some_bits_land. unfold decode_image, decode_names. cbn [filter snd]. change TRAX_IMAGE_PATH with 1. change TRAX_IMAGE_URL with 2. change TRAX_IMAGE_MEMORY with 4.
  change TRAX_IMAGE_BUFFER with 8. rewrite bit0, bit1, bit2, bit3. destruct (Z.testbit f 0), (Z.testbit f 1), (Z.testbit f 2), (Z.testbit f 3); vm_compute; reflexivity.
Qed.
Lemma channel_flags f : get_flags (decode_channels f) get_channel_code = if Z.land f 7 =? 0 then mex_error else done (Z.land f 7).
Proof.
  rewrite <- some_bits_land3. unfold decode_channels, decode_names. cbn [filter snd]. change TRAX_CHANNEL_COLOR with 1. change TRAX_CHANNEL_DEPTH with 2.
  change TRAX_CHANNEL_IR with 4. rewrite bit0, bit1, bit2. destruct (Z.testbit f 0), (Z.testbit f 1), (Z.testbit f 2); vm_compute; reflexivity.
Qed.

(** ---- Arguments ---- *)
Lemma fetch_app {A} (l : list A) x r i : i = Z.of_nat (List.length l) -> in_int i = true -> fetch (l ++ x :: r) i = Ok x.
Proof.
  intros -> H. unfold fetch, int_result. rewrite H. cbn [obind]. replace (0 <=? Z.of_nat (List.length l)) with true by lia.
  rewrite Nat2Z.id, nth_error_app2 by lia. rewrite Nat.sub_diag. reflexivity.
Qed.
Lemma fetch_beyond {A} (l : list A) i : Z.of_nat (List.length l) <= i -> fetch l i = UB.
Proof.
  intros H. unfold fetch, int_result. destruct (in_int i); [|reflexivity]. cbn [obind]. replace (0 <=? i) with true by lia.
  rewrite (proj2 (nth_error_None _ _)); [reflexivity|lia].
Qed.
Definition is_name (n : string) (k : list N) : bool := strcasecmp_eq k (str n).
Definition given (s : setup) (kv : list N * list N) : setup :=
  let '(k, v) := kv in
  if is_name "name" k then mkSetup v (s_description s) (s_family s) (s_channels s) (s_custom s)
  else if is_name "description" k then mkSetup (s_name s) v (s_family s) (s_channels s) (s_custom s)
  else if is_name "family" k then mkSetup (s_name s) (s_description s) v (s_channels s) (s_custom s)
  else mkSetup (s_name s) (s_description s) (s_family s) (s_channels s) (set_custom (s_custom s) k v).
Definition good_key (k : list N) : Prop := custom_key k \/ described_key k.
Lemma custom_chars k : (forall c, In c k -> name_char c \/ c = 46%N) -> ~ In 0%N k /\ is_property_name (map to_lower k) = true.
Proof.
  intros H. split; [intros X; destruct (H _ X) as [Y|Y]; [unfold name_char in Y; lia|discriminate]|].
  unfold is_property_name. apply forallb_forall. intros c Hc. apply in_map_iff in Hc as (d & <- & Hd). specialize (H d Hd).
  unfold name_char in H. unfold to_lower, is_alnum, is_digit, is_upper, is_lower. destruct ((65 <=? d) && (d <=? 90))%N eqn:B; lia.
Qed.
Lemma not_other k : (forall n, In n (other_names ++ described) -> strcasecmp_eq k n = false) ->
  argument_of argument_names (map to_lower k) = if is_property_name (map to_lower k) then Some ArgCustom else None.
Proof.
  intros H. unfold argument_names. cbn [argument_of].
  assert (B : forall n, In n (other_names ++ described) -> map to_lower n = n -> bytes_eqb (map to_lower k) n = false).
  { intros n Hn Ln. specialize (H n Hn). unfold strcasecmp_eq in H. rewrite Ln in H. exact H. }
  rewrite !B by (first [reflexivity|vm_compute; tauto]). reflexivity.
Qed.
Lemma good_no_nul k : good_key k -> ~ In 0%N k.
Proof.
  intros [(C & _)|(n & Hn & E)]; [apply (custom_chars k C)|]. apply (lower_nul k n E). cbn in Hn. intros X.
  destruct Hn as [<-|[<-|[<-|[]]]]; vm_compute in X; intuition discriminate.
Qed.
Lemma setup_given prhs i s k v : fetch prhs i = Ok (text_array k) -> fetch prhs (i + 1) = Ok (text_array v) -> good_key k -> ~ In 0%N v ->
  setup_argument prhs i s = done (given s (k, v)).
Proof.
  intros Fk Fv G Hv. unfold setup_argument. rewrite Fk. cbn [obind]. rewrite (text_string k (good_no_nul k G)). unfold mbind at 1. unfold done at 1. cbn [obind].
  destruct G as [(C & S0 & O)|(n & Hn & E)].
  - unfold get_argument_code. rewrite (not_other k O), (proj2 (custom_chars k C)). unfold mbind at 1. cbn [obind]. rewrite S0, Fv. cbn [obind].
    rewrite (text_string v Hv). unfold mbind, done. cbn [obind]. unfold given, is_name. rewrite !O by (vm_compute; tauto). reflexivity.
  - unfold get_argument_code. unfold given, is_name. unfold strcasecmp_eq in E. apply bytes_eqb_eq in E. unfold strcasecmp_eq.
    cbn in Hn. destruct Hn as [<-|[<-|[<-|[]]]]; rewrite E.
    + match goal with |- context [argument_of ?a ?b] => let r := eval vm_compute in (argument_of a b) in change (argument_of a b) with r end.
      unfold mbind at 1. cbn [obind]. rewrite Fv. cbn [obind]. rewrite (text_string v Hv). reflexivity.
    + match goal with |- context [argument_of ?a ?b] => let r := eval vm_compute in (argument_of a b) in change (argument_of a b) with r end.
      unfold mbind at 1. cbn [obind]. rewrite Fv. cbn [obind]. rewrite (text_string v Hv). reflexivity.
    + match goal with |- context [argument_of ?a ?b] => let r := eval vm_compute in (argument_of a b) in change (argument_of a b) with r end.
      unfold mbind at 1. cbn [obind]. rewrite Fv. cbn [obind]. rewrite (text_string v Hv). reflexivity.
Qed.
Lemma setup_unpaired prhs i s k : fetch prhs i = Ok (text_array k) -> fetch prhs (i + 1) = UB -> good_key k -> setup_argument prhs i s = UB.
Proof.
  intros Fk Fv G. unfold setup_argument. rewrite Fk. cbn [obind]. rewrite (text_string k (good_no_nul k G)). unfold mbind at 1. unfold done at 1. cbn [obind].
  destruct G as [(C & S0 & O)|(n & Hn & E)].
  - unfold get_argument_code. rewrite (not_other k O), (proj2 (custom_chars k C)). unfold mbind at 1. cbn [obind]. rewrite S0, Fv. reflexivity.
  - unfold get_argument_code. unfold strcasecmp_eq in E. apply bytes_eqb_eq in E.
    cbn in Hn. destruct Hn as [<-|[<-|[<-|[]]]]; rewrite E;
    match goal with |- context [argument_of ?a ?b] => let r := eval vm_compute in (argument_of a b) in change (argument_of a b) with r end;
    unfold mbind at 1; cbn [obind]; rewrite Fv; reflexivity.
Qed.
Lemma starts_with_split p : forall s, starts_with p s = true -> exists r, s = p ++ r.
Proof.
  induction p as [|x p IH]; intros s E; [exists s; reflexivity|]. destruct s as [|y s]; [discriminate E|]. cbn [starts_with] in E.
  apply andb_prop in E as [E1 E2]. apply N.eqb_eq in E1. subst y. destruct (IH s E2) as [r ->]. exists r. reflexivity.
Qed.
Lemma setup_reserved prhs i s k : fetch prhs i = Ok (text_array k) -> (forall c, In c k -> name_char c \/ c = 46%N) -> starts_with (str "trax.") k = true ->
  setup_argument prhs i s = mex_error.
Proof.
  intros Fk C S0. unfold setup_argument. rewrite Fk. cbn [obind]. rewrite (text_string k (proj1 (custom_chars k C))). unfold mbind at 1. unfold done at 1. cbn [obind].
  unfold get_argument_code. rewrite not_other.
  - rewrite (proj2 (custom_chars k C)). unfold mbind at 1. cbn [obind]. rewrite S0. reflexivity.
  - intros n Hn. destruct (strcasecmp_eq k n) eqn:E; [|reflexivity]. exfalso. unfold strcasecmp_eq in E. apply bytes_eqb_eq in E.
    destruct (starts_with_split _ _ S0) as [r ->].
    cbn in Hn. repeat (destruct Hn as [<-|Hn]; [discriminate E|]). destruct Hn.
Qed.
Lemma pairs_prefix body kvs : forall n i limit s s', i + 2 * Z.of_nat (List.length kvs) <= limit + 1 -> (List.length kvs <= n)%nat -> s' = fold_left given kvs s ->
  (forall j kv t, nth_error kvs j = Some kv -> body (i + 2 * Z.of_nat j) t = done (given t kv)) ->
  pairs_loop n i limit body s = pairs_loop (n - List.length kvs) (i + 2 * Z.of_nat (List.length kvs)) limit body s'.
Proof.
  induction kvs as [|kv kvs IH]; intros n i limit s s' L Ln -> B.
  - cbn [List.length fold_left]. rewrite Nat.sub_0_r. replace (i + 2 * Z.of_nat 0) with i by lia. reflexivity.
  - cbn [List.length] in *. destruct n as [|n]; [lia|]. cbn [pairs_loop]. replace (i <? limit) with true by lia.
    pose proof (B O kv s eq_refl) as E. replace (i + 2 * Z.of_nat 0) with i in E by lia. rewrite E. unfold mbind at 1, done at 1. cbn [obind fold_left].
    rewrite (IH n (i + 2) limit (given s kv) (fold_left given kvs (given s kv))); [|lia|lia|reflexivity|].
    + replace (S n - S (List.length kvs))%nat with (n - List.length kvs)%nat by lia.
      replace (i + 2 + 2 * Z.of_nat (List.length kvs)) with (i + 2 * Z.of_nat (S (List.length kvs))) by lia. reflexivity.
    + intros j kv' t H. specialize (B (S j) kv' t H). replace (i + 2 + 2 * Z.of_nat j) with (i + 2 * Z.of_nat (S j)) by lia. exact B.
Qed.
Lemma pair_arrays_length kvs : List.length (pair_arrays kvs) = (2 * List.length kvs)%nat.
Proof. induction kvs as [|kv kvs IH]; [reflexivity|]. unfold pair_arrays in *. cbn [flat_map app List.length]. rewrite IH. lia. Qed.
Lemma pair_arrays_split kvs j k v : nth_error kvs j = Some (k, v) ->
  exists a b, pair_arrays kvs = a ++ text_array k :: text_array v :: b /\ List.length a = (2 * j)%nat.
Proof.
  revert j. induction kvs as [|kv kvs IH]; intros [|j] E; cbn [nth_error] in E; try discriminate.
  - injection E as ->. exists [], (pair_arrays kvs). split; reflexivity.
  - destruct (IH j E) as (a & b & Ea & La). exists (text_array (fst kv) :: text_array (snd kv) :: a), b. split; [|cbn [List.length]; lia].
    unfold pair_arrays in *. cbn [flat_map app]. rewrite Ea. reflexivity.
Qed.
Definition good_pair (kv : list N * list N) : Prop := good_key (fst kv) /\ ~ In 0%N (snd kv).
Lemma pair_bodies op r i kvs rest : Forall good_pair kvs -> in_int (4 + 2 * Z.of_nat (List.length kvs)) = true ->
  forall j kv t, nth_error kvs j = Some kv ->
    setup_argument (op :: r :: i :: pair_arrays kvs ++ rest) (3 + 2 * Z.of_nat j) t = done (given t kv).
Proof.
  intros G In1 j [k v] t E. assert (Lj : (j < List.length kvs)%nat) by (apply nth_error_Some; congruence).
  rewrite Forall_forall in G. destruct (G _ (nth_error_In _ _ E)) as [Gk Gv]. cbn [fst snd] in Gk, Gv.
  destruct (pair_arrays_split kvs j k v E) as (a & b & Ea & La). rewrite Ea.
  replace (op :: r :: i :: (a ++ text_array k :: text_array v :: b) ++ rest) with ((op :: r :: i :: a) ++ text_array k :: text_array v :: b ++ rest)
    by (cbn [app]; rewrite <- app_assoc; reflexivity).
  apply setup_given; [| |exact Gk|exact Gv].
  - apply fetch_app; [cbn [List.length]; lia|apply (int_le _ _ In1); lia].
  - replace ((op :: r :: i :: a) ++ text_array k :: text_array v :: b ++ rest) with ((op :: r :: i :: a ++ [text_array k]) ++ text_array v :: b ++ rest)
      by (cbn [app]; rewrite <- app_assoc; reflexivity).
    apply fetch_app; [cbn [List.length]; rewrite app_length; cbn [List.length]; lia|apply (int_le _ _ In1); lia].
Qed.
Lemma setup_all op r i kvs regions images : Forall good_pair kvs -> in_int (4 + 2 * Z.of_nat (List.length kvs)) = true ->
  get_flags r get_region_code = done regions -> get_flags i get_image_code = done images ->
  server_setup (op :: r :: i :: pair_arrays kvs) = done (fold_left given kvs no_setup, regions, images).
Proof.
  intros G In1 Er Ei. unfold server_setup. cbn [List.length]. rewrite pair_arrays_length.
  replace (Z.of_nat (S (S (S (2 * List.length kvs)))) <? 3) with false by lia. unfold pairs.
  replace (Z.of_nat (S (S (S (2 * List.length kvs)))) / 2 * 2) with (2 + 2 * Z.of_nat (List.length kvs))
    by (replace (Z.of_nat (S (S (S (2 * List.length kvs))))) with (1 + (1 + Z.of_nat (List.length kvs)) * 2) by lia; rewrite Z.div_add by lia; change (1 / 2) with 0; lia).
  rewrite (pairs_prefix _ kvs _ 3 _ no_setup (fold_left given kvs no_setup)); [|lia|lia|reflexivity|].
  - destruct (Z.to_nat (Z.of_nat (S (S (S (2 * List.length kvs))))) - List.length kvs)%nat as [|n0]; cbn [pairs_loop].
    + unfold mbind at 1, done at 1. cbn [obind]. change (fetch (op :: r :: i :: pair_arrays kvs) 1) with (Ok r). change (fetch (op :: r :: i :: pair_arrays kvs) 2) with (Ok i).
      cbn [obind]. rewrite Er. unfold mbind at 1, done at 1. cbn [obind]. rewrite Ei. reflexivity.
    + replace (3 + 2 * Z.of_nat (List.length kvs) <? 2 + 2 * Z.of_nat (List.length kvs)) with false by lia.
      unfold mbind at 1, done at 1. cbn [obind]. change (fetch (op :: r :: i :: pair_arrays kvs) 1) with (Ok r). change (fetch (op :: r :: i :: pair_arrays kvs) 2) with (Ok i).
      cbn [obind]. rewrite Er. unfold mbind at 1, done at 1. cbn [obind]. rewrite Ei. reflexivity.
  - pose proof (pair_bodies op r i kvs [] G In1) as B. rewrite app_nil_r in B. exact B.
Qed.
Lemma setup_odd op r i kvs k : Forall good_pair kvs -> in_int (4 + 2 * Z.of_nat (List.length kvs)) = true -> good_key k ->
  server_setup (op :: r :: i :: pair_arrays kvs ++ [text_array k]) = UB.
Proof.
  intros G In1 Gk. unfold server_setup. cbn [List.length]. rewrite app_length, pair_arrays_length. cbn [List.length].
  replace (Z.of_nat (S (S (S (2 * List.length kvs + 1)))) <? 3) with false by lia. unfold pairs.
  replace (Z.of_nat (S (S (S (2 * List.length kvs + 1)))) / 2 * 2) with (4 + 2 * Z.of_nat (List.length kvs))
    by (replace (Z.of_nat (S (S (S (2 * List.length kvs + 1))))) with (0 + (2 + Z.of_nat (List.length kvs)) * 2) by lia; rewrite Z.div_add by lia; change (0 / 2) with 0; lia).
  rewrite (pairs_prefix _ kvs _ 3 _ no_setup (fold_left given kvs no_setup)); [|lia|lia|reflexivity|exact (pair_bodies op r i kvs _ G In1)].
  replace (Z.to_nat (Z.of_nat (S (S (S (2 * List.length kvs + 1))))) - List.length kvs)%nat with (S (List.length kvs + 3)) by lia. cbn [pairs_loop].
  replace (3 + 2 * Z.of_nat (List.length kvs) <? 4 + 2 * Z.of_nat (List.length kvs)) with true by lia.
  rewrite (setup_unpaired _ _ _ k); [reflexivity| | |exact Gk].
  - change (op :: r :: i :: pair_arrays kvs ++ [text_array k]) with ((op :: r :: i :: pair_arrays kvs) ++ text_array k :: []).
    apply fetch_app; [cbn [List.length]; rewrite pair_arrays_length; lia|apply (int_le _ _ In1); lia].
  - apply fetch_beyond. cbn [List.length]. rewrite app_length, pair_arrays_length. cbn [List.length]. lia.
Qed.
Lemma setup_trax op r i kvs k v rest : Forall good_pair kvs -> in_int (4 + 2 * Z.of_nat (List.length kvs)) = true ->
  (forall c, In c k -> name_char c \/ c = 46%N) -> starts_with (str "trax.") k = true ->
  server_setup (op :: r :: i :: pair_arrays (kvs ++ (k, v) :: rest)) = mex_error.
Proof.
  intros G In1 C S0. unfold server_setup. cbn [List.length]. rewrite pair_arrays_length. rewrite app_length. cbn [List.length].
  set (m := (List.length kvs + S (List.length rest))%nat).
  replace (Z.of_nat (S (S (S (2 * m)))) <? 3) with false by lia. unfold pairs.
  replace (Z.of_nat (S (S (S (2 * m)))) / 2 * 2) with (2 + 2 * Z.of_nat m)
    by (replace (Z.of_nat (S (S (S (2 * m))))) with (1 + (1 + Z.of_nat m) * 2) by lia; rewrite Z.div_add by lia; change (1 / 2) with 0; lia).
  assert (A : pair_arrays (kvs ++ (k, v) :: rest) = pair_arrays kvs ++ pair_arrays ((k, v) :: rest)) by (unfold pair_arrays; apply flat_map_app).
  rewrite A. rewrite (pairs_prefix _ kvs _ 3 _ no_setup (fold_left given kvs no_setup)); [|unfold m; lia|unfold m; lia|reflexivity|exact (pair_bodies op r i kvs _ G In1)].
  replace (Z.to_nat (Z.of_nat (S (S (S (2 * m))))) - List.length kvs)%nat with (S (m + S (S (S (List.length rest))))) by (unfold m; lia). cbn [pairs_loop].
  replace (3 + 2 * Z.of_nat (List.length kvs) <? 2 + 2 * Z.of_nat m) with true by (unfold m; lia).
  rewrite (setup_reserved _ _ _ k); [reflexivity| |exact C|exact S0].
  unfold pair_arrays at 2. cbn [flat_map fst snd app].
  match goal with |- fetch (_ :: _ :: _ :: pair_arrays kvs ++ text_array k :: ?t) _ = _ =>
    change (op :: r :: i :: pair_arrays kvs ++ text_array k :: t) with ((op :: r :: i :: pair_arrays kvs) ++ text_array k :: t) end.
  apply fetch_app; [cbn [List.length]; rewrite pair_arrays_length; lia|apply (int_le _ _ In1); lia].
Qed.
(** What the arguments amount to *)
Lemma given_fields kvs : forall s, let t := fold_left given kvs s in
  s_name t = last_of (is_name "name") kvs (s_name s) /\
  s_description t = last_of (is_name "description") kvs (s_description s) /\
  s_family t = last_of (is_name "family") kvs (s_family s) /\ s_channels t = s_channels s.
Proof.
  induction kvs as [|[k v] kvs IH]; intros s; [cbn; tauto|]. cbn [fold_left]. specialize (IH (given s (k, v))). cbv zeta in *.
  destruct IH as (A & B & C & D). unfold last_of in *. cbn [fold_left fst snd]. rewrite A, B, C, D. clear A B C D.
  assert (X : forall a b, a <> b -> map to_lower (str a) <> map to_lower (str b) -> is_name a k = true -> is_name b k = false).
  { intros a b _ N E. unfold is_name, strcasecmp_eq in *. apply bytes_eqb_eq in E. destruct (bytes_eqb _ (map to_lower (str b))) eqn:F; [|reflexivity].
    apply bytes_eqb_eq in F. congruence. }
  unfold given. destruct (is_name "name" k) eqn:E1.
  - rewrite (X "name" "description" ltac:(discriminate) ltac:(discriminate) E1)%string, (X "name" "family" ltac:(discriminate) ltac:(discriminate) E1)%string.
    refine (conj _ (conj _ (conj _ _))); reflexivity.
  - destruct (is_name "description" k) eqn:E2.
    + rewrite (X "description" "family" ltac:(discriminate) ltac:(discriminate) E2)%string. refine (conj _ (conj _ (conj _ _))); reflexivity.
    + destruct (is_name "family" k) eqn:E3; refine (conj _ (conj _ (conj _ _))); reflexivity.
Qed.
Definition plain_key (k : list N) : bool := negb (is_name "name" k || is_name "description" k || is_name "family" k).
Lemma given_custom kvs : forall s, let t := fold_left given kvs s in forall k v,
  In (k, v) (s_custom t) <->
  match fold_left (fun acc kv => if bytes_eqb (fst kv) k && plain_key (fst kv) then Some (snd kv) else acc) kvs None with
  | Some w => v = w
  | None => In (k, v) (s_custom s)
  end.
Proof.
  assert (F : forall k kvs (a : option (list N)), fold_left (fun acc kv => if bytes_eqb (fst kv) k && plain_key (fst kv) then Some (snd kv) else acc) kvs a =
     match fold_left (fun acc kv => if bytes_eqb (fst kv) k && plain_key (fst kv) then Some (snd kv) else acc) kvs None with Some w => Some w | None => a end).
  { intros k l. induction l as [|kv l IH]; intros a; [reflexivity|]. cbn [fold_left]. destruct (bytes_eqb (fst kv) k && plain_key (fst kv)).
    - rewrite (IH (Some (snd kv))). destruct (fold_left _ l None); reflexivity.
    - apply IH. }
  induction kvs as [|[k0 v0] kvs IH]; intros s; [cbn; tauto|]. cbn [fold_left]. cbv zeta. intros k v. rewrite IH. clear IH. cbn [fst snd].
  rewrite (F k kvs (if bytes_eqb k0 k && plain_key k0 then Some v0 else None)).
  destruct (fold_left _ kvs None) as [w|]; [reflexivity|].
  unfold given, plain_key. destruct (is_name "name" k0); [cbn; rewrite andb_false_r; tauto|].
  destruct (is_name "description" k0); [cbn; rewrite andb_false_r; tauto|]. destruct (is_name "family" k0); [cbn; rewrite andb_false_r; tauto|].
  cbn [orb negb s_custom]. rewrite andb_true_r. unfold set_custom. cbn [In]. rewrite filter_In. cbn [fst].
  destruct (bytes_eqb k0 k) eqn:B.
  - apply bytes_eqb_eq in B. subst k0. rewrite bytes_eqb_refl. cbn [negb]. split.
    + intros [H|[_ H]]; [now injection H|discriminate].
    + intros ->. now left.
  - destruct (bytes_eqb k k0) eqn:B'; [apply bytes_eqb_eq in B'; subst k0; rewrite bytes_eqb_refl in B; discriminate|]. cbn [negb]. split.
    + intros [H|[H _]]; [|exact H]. injection H as -> ->. rewrite bytes_eqb_refl in B. discriminate.
    + intros H. right. split; [exact H|reflexivity].
Qed.
Lemma given_last kvs k v : Forall good_pair kvs ->
  In (k, v) (s_custom (fold_left given kvs no_setup)) <-> custom_key k /\ last_option (bytes_eqb k) kvs = Some v.
Proof.
  intros G. rewrite (given_custom kvs no_setup k v). cbn [s_custom no_setup]. unfold last_option.
  assert (P : forall k', custom_key k' -> plain_key k' = true).
  { intros k' (_ & _ & O). unfold plain_key, is_name. rewrite !O by (vm_compute; tauto). reflexivity. }
  assert (Q : forall k', described_key k' -> plain_key k' = false).
  { intros k' (n & Hn & E). unfold plain_key, is_name. unfold described in Hn. cbn [map In] in Hn. destruct Hn as [<-|[<-|[<-|[]]]]; rewrite E, ?orb_true_r; reflexivity. }
  destruct (plain_key k) eqn:Ek.
  - (* only custom keys are plain *)
    assert (E : fold_left (fun acc kv => if bytes_eqb (fst kv) k && plain_key (fst kv) then Some (snd kv) else acc) kvs None =
                fold_left (fun acc kv => if bytes_eqb k (fst kv) then Some (snd kv) else acc) kvs (@None (list N))).
    { clear G. generalize (@None (list N)). induction kvs as [|kv kvs IH]; intros a; [reflexivity|]. cbn [fold_left]. rewrite IH. f_equal.
      destruct (bytes_eqb k (fst kv)) eqn:B.
      - apply bytes_eqb_eq in B. rewrite <- B, bytes_eqb_refl, Ek. reflexivity.
      - destruct (bytes_eqb (fst kv) k) eqn:B'; [apply bytes_eqb_eq in B'; rewrite B', bytes_eqb_refl in B; discriminate|reflexivity]. }
    rewrite E. clear E.
    assert (C : forall w, fold_left (fun acc kv => if bytes_eqb k (fst kv) then Some (snd kv) else acc) kvs (@None (list N)) = Some w -> custom_key k).
    { intros w. assert (X : forall a : option (list N), fold_left (fun acc kv => if bytes_eqb k (fst kv) then Some (snd kv) else acc) kvs a = Some w ->
        a = Some w \/ custom_key k).
      { induction G as [|kv l [Gk _] G IH]; intros a E; cbn [fold_left] in E; [now left|]. destruct (IH _ E) as [Ea|Ea]; [|now right].
        destruct (bytes_eqb k (fst kv)) eqn:B; [|now left]. right. apply bytes_eqb_eq in B. subst k. destruct Gk as [Gk|Gk]; [exact Gk|]. rewrite (Q _ Gk) in Ek. discriminate. }
      intros E. destruct (X None E) as [Y|Y]; [discriminate|exact Y]. }
    destruct (fold_left _ kvs None) as [w|] eqn:E.
    + split; [intros ->; split; [apply (C w eq_refl)|reflexivity]|intros [_ H]; congruence].
    + split; [intros []|intros [_ H]; discriminate].
  - assert (E : fold_left (fun acc kv => if bytes_eqb (fst kv) k && plain_key (fst kv) then Some (snd kv) else acc) kvs (@None (list N)) = None).
    { clear G. induction kvs as [|kv kvs IH]; [reflexivity|]. cbn [fold_left]. destruct (bytes_eqb (fst kv) k) eqn:B; [|exact IH].
      apply bytes_eqb_eq in B. rewrite B, Ek. exact IH. }
    rewrite E. split; [intros []|]. intros [H _]. rewrite (P _ H) in Ek. discriminate.
Qed.
Lemma setup_described op r i kvs regions images : Forall good_pair kvs -> in_int (4 + 2 * Z.of_nat (List.length kvs)) = true ->
  get_flags r get_region_code = done regions -> get_flags i get_image_code = done images ->
  exists s, server_setup (op :: r :: i :: pair_arrays kvs) = done (s, regions, images) /\
    s_name s = last_of (fun k => strcasecmp_eq k (str "name")) kvs [] /\
    s_description s = last_of (fun k => strcasecmp_eq k (str "description")) kvs [] /\
    s_family s = last_of (fun k => strcasecmp_eq k (str "family")) kvs [] /\ s_channels s = 1 /\
    forall k v, In (k, v) (s_custom s) <-> custom_key k /\ last_option (bytes_eqb k) kvs = Some v.
Proof.
  intros G In1 Er Ei. exists (fold_left given kvs no_setup). split; [now apply setup_all|]. destruct (given_fields kvs no_setup) as (A & B & C & D).
  refine (conj A (conj B (conj C (conj D _)))). intros k v. now apply given_last.
Qed.
Lemma wait_structure op x : server_wait [op; text_array (str "propstruct"); MDouble 1 1 [x]] = done (scalar_positive x).
Proof. vm_compute. destruct x as [[]|[]| |[]]; reflexivity. Qed.
Lemma quit_reason op s : ~ In 0%N s -> server_quit [op; text_array s] = done s.
Proof. intros H. exact (text_string s H). Qed.
Lemma wait_argument_ok op x : server_wait [op; text_array (str "propstruct"); MDouble 1 1 [x]] = done (scalar_positive x) /\ server_wait [op] = done false.
Proof. split; [apply wait_structure|vm_compute; reflexivity]. Qed.

(** ---- Several statements in one ---- *)
Lemma names_union names codes : names <> [] ->
  (Forall2 (names_code region_table) names codes ->
     get_flags (row_of_texts names) get_region_code = done (fold_right Z.lor 0 codes) /\
     get_flags (column_of_texts names) get_region_code = done (fold_right Z.lor 0 codes)) /\
  (Forall2 (names_code image_table) names codes ->
     get_flags (row_of_texts names) get_image_code = done (fold_right Z.lor 0 codes) /\
     get_flags (column_of_texts names) get_image_code = done (fold_right Z.lor 0 codes)) /\
  (Forall2 (names_code channel_table) names codes ->
     get_flags (row_of_texts names) get_channel_code = done (fold_right Z.lor 0 codes) /\
     get_flags (column_of_texts names) get_channel_code = done (fold_right Z.lor 0 codes)).
Proof.
  intros N. split; [|split]; intros F.
  - now apply (flags_union _ _ region_parses).
  - now apply (flags_union _ _ image_parses).
  - now apply (flags_union _ _ channel_parses).
Qed.
Lemma name_single s code :
  (names_code region_table s code -> get_flags (text_array s) get_region_code = done code) /\
  (names_code image_table s code -> get_flags (text_array s) get_image_code = done code) /\
  (names_code channel_table s code -> get_flags (text_array s) get_channel_code = done code).
Proof.
  split; [|split]; intros F.
  - now apply (flag_single _ _ region_parses).
  - now apply (flag_single _ _ image_parses).
  - now apply (flag_single _ _ channel_parses).
Qed.
Lemma names_unknown names : Forall (fun s => ~ In 0%N s) names ->
  (Exists (fun s => forall code, ~ names_code region_table s code) names ->
     get_flags (row_of_texts names) get_region_code = mex_error /\ get_flags (column_of_texts names) get_region_code = mex_error) /\
  (Exists (fun s => forall code, ~ names_code image_table s code) names ->
     get_flags (row_of_texts names) get_image_code = mex_error /\ get_flags (column_of_texts names) get_image_code = mex_error) /\
  (Exists (fun s => forall code, ~ names_code channel_table s code) names ->
     get_flags (row_of_texts names) get_channel_code = mex_error /\ get_flags (column_of_texts names) get_channel_code = mex_error).
Proof.
  intros N. split; [|split]; intros F.
  - now apply (flags_refused _ _ region_parses).
  - now apply (flags_refused _ _ image_parses).
  - now apply (flags_refused _ _ channel_parses).
Qed.
Lemma formats_shown f :
  get_flags (decode_region f) get_region_code = (if Z.land f 14 =? 0 then mex_error else done (Z.land f 14)) /\
  get_flags (decode_image f) get_image_code = (if Z.land f 15 =? 0 then mex_error else done (Z.land f 15)) /\
  get_flags (decode_channels f) get_channel_code = (if Z.land f 7 =? 0 then mex_error else done (Z.land f 7)).
Proof. split; [apply region_flags|]. split; [apply image_flags|apply channel_flags]. Qed.
Lemma mask_array_and_back h w data : 0 < h -> 0 < w -> in_int (w * h) = true -> List.length data = Z.to_nat (w * h) ->
  exists mask, array_to_region (MU8 [h; w] data) = done (RMask 0 0 w h mask) /\
    (forall X Y, 0 <= X < w -> 0 <= Y < h -> GeomSpec.value_at 0 0 w h mask X Y = element h w data Y X 0) /\
    region_to_array (RMask 0 0 w h mask) = done (MU8 [h; w] data).
Proof.
  intros Hh Hw Hi L. destruct (mask_array h w data Hh Hw Hi L) as (mask & E & _ & V).
  destruct (mask_array_round_trip h w data Hh Hw Hi L) as (mask' & E' & R). rewrite E in E'. unfold done in E'.
  assert (M : mask = mask') by congruence. subst mask'. exists mask. auto.
Qed.
(** Regions that are not understood *)
Lemma special_refused code : exists a, region_to_array (RSpecial code) = done a /\ array_to_region a = mex_error.
Proof. eexists. split; reflexivity. Qed.
Lemma two_rows x y w h x' y' w' h' : array_to_region (MDouble 2 4 [x; x'; y; y'; w; w'; h; h']) =
  done (RRect (float_of_double x) (float_of_double x') (float_of_double y) (float_of_double y')).
Proof. reflexivity. Qed.
Lemma no_rows : array_to_region (MDouble 0 4 []) = UB /\ forall n, 3 <= n -> array_to_region (MDouble 0 (n * 2) []) = UB.
Proof.
  split; [reflexivity|]. intros n Hn. cbn [array_to_region]. replace ((n * 2 mod 2 =? 0) && (6 <=? n * 2)) with true by (rewrite Z.mod_mul by lia; lia).
  rewrite Z.div_mul by lia. destruct (Z.to_nat n) as [|m] eqn:E; [lia|]. cbn [for_range]. reflexivity.
Qed.
Lemma cell_column k n : ~ In 0%N k -> 0 < n -> cell_to_parameters (MCell n 1 (repeat (Some (text_array k)) (Z.to_nat n))) = UB.
Proof.
  intros Hk Hn. unfold cell_to_parameters. replace (negb (Z.min n 1 =? 1)) with false by lia.
  destruct (Z.to_nat n) as [|m] eqn:E; [lia|]. cbn [for_result]. unfold cell_to_parameter at 1. unfold get_cell_at. change (0 <? 0) with false.
  replace (0 + n <? 0) with false by lia. rewrite (nth_overflow (repeat _ (S m)) None (n := Z.to_nat (0 + n))) by (rewrite repeat_length; lia).
  change (Z.to_nat 0) with O. cbn [repeat nth non_null obind]. rewrite (text_string k Hk). reflexivity.
Qed.
Lemma buffer_refused im a : i_type im = 8 -> image_to_array (Some im) = Ok (Some a) -> array_to_image a = mex_error.
Proof.
  intros T E. unfold image_to_array in E. rewrite T in E. change (8 =? TRAX_IMAGE_PATH) with false in E. change (8 =? TRAX_IMAGE_URL) with false in E.
  change (8 =? TRAX_IMAGE_MEMORY) with false in E. change (8 =? TRAX_IMAGE_BUFFER) with true in E. cbv iota in E.
  destruct (image_get_buffer im) as [[[l f] b]| | |]; cbn [obind] in E; try discriminate E. injection E as <-. reflexivity.
Qed.
