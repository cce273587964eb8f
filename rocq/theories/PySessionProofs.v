From Verif Require Import CBase StrMap Props PropsSpec StrMapProofs PropsProofs Message MessageSpec Num Region Image Formats FormatsSpec FormatsProofs
  Handle SessionSpec HandleProofs SessionProofs HandshakeProofs SendableProofs ListsSpec ListsProofs PyText PyTextSpec PyTextProofs PySession PySessionSpec.
Local Open Scope Z_scope.

(** ---- Texts and dictionaries ---- *)

Lemma encode_7bit s : text_ok s = true -> utf8_encode s = Some s.
Proof.
  induction s as [|c s IH]; intros H; [reflexivity|]. cbn [text_ok forallb] in H. apply andb_true_iff in H as [H1 H2].
  unfold text_char in H1. apply andb_true_iff in H1 as [_ H1]. cbn [utf8_encode]. unfold encode_char. rewrite H1, (IH H2). reflexivity.
Qed.
Lemma enc_7bit s : text_ok s = true -> enc s = s.
Proof. intros H. unfold enc. now rewrite encode_7bit. Qed.
Lemma plain_7bit s : text_ok s = true -> plain s.
Proof.
  intros H. unfold text_ok in H. rewrite forallb_forall in H. apply Forall_forall. intros c Hc. specialize (H c Hc).
  unfold text_char in H. apply andb_true_iff in H as [A B]. apply N.ltb_lt in A, B. unfold scalar. split; [left|]; lia.
Qed.
Lemma c_string_7bit s : text_ok s = true -> c_string s = s.
Proof.
  intros H. apply c_string_no_nul. intros Hin. unfold text_ok in H. rewrite forallb_forall in H. specialize (H _ Hin). discriminate.
Qed.
Lemma key_text k : key_ok k = true -> text_ok k = true.
Proof.
  intros H. unfold key_ok in H. apply andb_true_iff in H as [_ H]. rewrite forallb_forall in H. unfold text_ok. apply forallb_forall.
  intros c Hc. specialize (H c Hc). unfold text_char, is_digit, is_upper, is_lower in *.
  rewrite !orb_true_iff, !andb_true_iff, !N.leb_le, !N.eqb_eq in H. apply andb_true_iff. rewrite !N.ltb_lt. lia.
Qed.
Lemma sendable_plain d : sendable_dict d -> Forall plain_pair d.
Proof.
  intros [_ H]. apply Forall_forall. intros [k v] Hin. specialize (H k v Hin). unfold kv_ok in H. cbn [fst snd] in H.
  apply andb_true_iff in H as [A B]. split; apply plain_7bit; [now apply key_text|exact B].
Qed.

Lemma set_items_made sets : Forall plain_pair sets -> forall p p', made p -> set_items sets p = ret p' -> made p'.
Proof.
  induction 1 as [|[k v] sets [Pk Pv] F IH]; intros p p' Hm E; cbn [set_items] in E.
  - unfold ret in E. injection E as <-. exact Hm.
  - rewrite properties_set_plain in E by assumption.
    destruct (made_set p (enc k) (enc v) Hm) as (p1 & E1 & M1 & _).
    unfold lift, pbind in E. rewrite E1 in E. cbn [obind] in E. exact (IH p1 p' M1 E).
Qed.
(** A dictionary of the C library with the pairs of a Python dictionary *)
Definition carries (p : props) (d : dict) : Prop := made p /\ holds_sets p d.
Lemma carries_same p q d : carries p d -> made q -> same_props q p -> carries q d.
Proof.
  intros [Mp [Op L]] Mq S0. split; [exact Mq|]. pose proof (made_ok q Mq) as Oq. split; [exact Oq|].
  intros kb. rewrite <- L. revert kb. now apply same_props_lookup.
Qed.
Lemma carries_lookup p d k v : sendable_dict d -> carries p d -> sm_lookup p k = Some v -> In (k, v) d.
Proof.
  intros Hd [_ [_ L]] E. rewrite L, sets_lookup in E by now apply sendable_plain.
  destruct (utf8_decode k) as [t|] eqn:D; [|discriminate]. destruct (latest d t) as [w|] eqn:W; [|discriminate]. injection E as <-.
  apply latest_in in W. destruct Hd as [_ Hd]. specialize (Hd _ _ W). unfold kv_ok in Hd. cbn [fst snd] in Hd.
  apply andb_true_iff in Hd as [A B]. apply key_text in A. rewrite (enc_7bit w B).
  apply decode_encode in D. rewrite (encode_7bit t A) in D. injection D as <-. exact W.
Qed.
Lemma carries_clean p d : sendable_dict d -> carries p d -> clean p.
Proof.
  intros Hd Hc. pose proof Hc as [Mp [Op _]]. split; [exact Mp|]. intros k v E. rewrite props_get_spec in E by exact Op. injection E as E.
  apply (proj2 Hd). now apply (carries_lookup p d).
Qed.
Lemma carries_dict p d : sendable_dict d -> carries p d -> same_dict d (properties_dict p).
Proof.
  intros Hd [_ Hh]. destruct (holds_dict p d (sendable_plain d Hd) Hh) as [A B]. split; [exact A|].
  intros k v. rewrite B. symmetry. apply latest_nodup. apply Hd.
Qed.
Lemma carries_create : carries props_create [].
Proof. split; [apply made_create|apply create_holds]. Qed.
Lemma items_ok d : sendable_dict d -> exists p, set_items d props_create = ret p /\ carries p d.
Proof.
  intros Hd. destruct (set_items_holds [] d props_create (sendable_plain d Hd) create_holds) as (p & E & H). cbn [app] in H.
  exists p. split; [exact E|]. split; [|exact H]. exact (set_items_made d (sendable_plain d Hd) props_create p made_create E).
Qed.
Lemma init_ok d : sendable_dict d -> exists p, properties_init (DDict d) = ret (Some p) /\ carries p d.
Proof.
  intros Hd. destruct (items_ok d Hd) as (p & E & H). exists p. split; [|exact H]. unfold properties_init. destruct d as [|kv d].
  - cbn [set_items] in E. unfold ret in *. injection E as <-. reflexivity.
  - rewrite E. reflexivity.
Qed.

(** ---- Names ---- *)

Lemma supports_bit z j : 0 <= j -> supports z (2 ^ j) = Z.testbit z j.
Proof.
  intros Hj. unfold supports, truth. destruct (Z.testbit z j) eqn:B.
  - destruct (Z.land z (2 ^ j) =? 0) eqn:E; [|reflexivity]. apply Z.eqb_eq in E.
    assert (Z.testbit (Z.land z (2 ^ j)) j = true) by (rewrite Z.land_spec, B, Z.pow2_bits_true by lia; reflexivity).
    rewrite E, Z.bits_0 in H. discriminate.
  - replace (Z.land z (2 ^ j)) with 0; [reflexivity|]. symmetry. apply Z.bits_inj'. intros i Hi. rewrite Z.land_spec, Z.bits_0.
    destruct (Z.eq_dec i j) as [->|N0]; [now rewrite B|]. rewrite Z.pow2_bits_false by lia. apply andb_false_r.
Qed.

(** A table of names: distinct names, distinct powers of two *)
Definition table (w : Z) (codes : list (text * Z)) : Prop :=
  0 < w /\
  NoDup (map fst codes) /\ NoDup (map snd codes) /\ Forall (fun nc => exists j, 0 <= j < w /\ snd nc = 2 ^ j) codes.
Lemma find_name (codes : list (text * Z)) n : In n (map fst codes) -> NoDup (map fst codes) ->
  exists c, find (fun nc => bytes_eqb (fst nc) n) codes = Some (n, c) /\ In (n, c) codes.
Proof.
  induction codes as [|[m c] codes IH]; intros H N0; [destruct H|]. cbn [map fst find] in *. inversion N0 as [|? ? N1 N2]; subst.
  destruct (bytes_eqb m n) eqn:B.
  - apply bytes_eqb_eq in B. subst. exists c. cbn. auto.
  - destruct H as [->|H]; [rewrite bytes_eqb_refl in B; discriminate|]. destruct (IH H N2) as (d & E & J). exists d. cbn. auto.
Qed.
Lemma table_name w (codes : list (text * Z)) n n' c : table w codes -> In (n, c) codes -> In (n', c) codes -> n = n'.
Proof.
  intros (_ & _ & N0 & _) A B. induction codes as [|[m d] codes IH]; [destruct A|]. cbn [map snd] in N0. inversion N0 as [|? ? N1 N2]; subst.
  destruct A as [A|A], B as [B|B].
  - congruence.
  - injection A as -> ->. exfalso. apply N1. apply in_map_iff. exists (n', c). auto.
  - injection B as -> ->. exfalso. apply N1. apply in_map_iff. exists (n, c). auto.
  - auto.
Qed.
Lemma encode_names_from w codes l : table w codes -> incl l (map fst codes) -> forall acc, 0 <= acc < 2 ^ w ->
  exists z, encode_names codes l acc = ret z /\ 0 <= z < 2 ^ w /\
    forall n c, In (n, c) codes -> supports z c = true <-> In n l \/ supports acc c = true.
Proof.
  intros T. induction l as [|s l IH]; intros Hin acc Ha; cbn [encode_names].
  - exists acc. split; [reflexivity|]. split; [exact Ha|]. intros n c _. cbn. tauto.
  - pose proof T as (W0 & N1 & N2 & P).
    destruct (find_name codes s (Hin s (or_introl eq_refl)) N1) as (c & E & J). unfold encode_name. rewrite E.
    unfold ret, pbind. cbn [obind snd].
    rewrite Forall_forall in P. destruct (P _ J) as (j & Hj & Ej). cbn [snd] in Ej.
    assert (Hb : 0 <= Z.lor acc c < 2 ^ w).
    { assert (0 < c < 2 ^ w) by (rewrite Ej; split; [apply Z.pow_pos_nonneg; lia|apply Z.pow_lt_mono_r; lia]).
      assert (0 <= Z.lor acc c) by (apply Z.lor_nonneg; lia). split; [assumption|].
      destruct (Z.eq_dec (Z.lor acc c) 0) as [->|Hz]; [lia|].
      apply Z.log2_lt_pow2; [lia|]. rewrite Z.log2_lor by lia.
      assert (Z.log2 acc < w) by (destruct (Z.eq_dec acc 0) as [->|]; [exact W0|]; apply Z.log2_lt_pow2; lia).
      assert (Z.log2 c < w) by (apply Z.log2_lt_pow2; lia). lia. }
    destruct (IH (fun x h => Hin x (or_intror h)) (Z.lor acc c) Hb) as (z & Ez & Hz & B). exists z. split; [exact Ez|]. split; [exact Hz|].
    intros n d K. rewrite (B n d K). cbn [In]. destruct (P _ K) as (i & Hi & Ei). cbn [snd] in Ei. subst c d.
    rewrite !supports_bit, Z.lor_spec, orb_true_iff by lia. rewrite Z.pow2_bits_eqb by lia. rewrite Z.eqb_eq. split.
    + intros [H|[H|H]]; [tauto|tauto|]. subst j. left. left. exact (table_name w codes s n _ T J K).
    + intros [[->|H]|H]; [|tauto|tauto]. right. right. destruct (find_name codes n (in_map fst _ _ J) N1) as (c1 & E1 & _).
      assert (Q : forall c2, In (n, c2) codes -> c2 = c1).
      { clear - N1 E1. intros c2. revert N1 E1. induction codes as [|[m d] codes IH]; intros N1 E1 H; [destruct H|].
        cbn [map fst find] in *. inversion N1 as [|? ? A B]; subst. destruct (bytes_eqb m n) eqn:Bq.
        - injection E1 as -> ->. destruct H as [H|H]; [now injection H as <-|]. exfalso. apply A. apply in_map_iff. exists (n, c2). auto.
        - destruct H as [H|H]; [injection H as -> ->; rewrite bytes_eqb_refl in Bq; discriminate|]. auto. }
      pose proof (Q _ J) as Q1. pose proof (Q _ K) as Q2. rewrite <- Q2 in Q1. apply Z.pow_inj_r in Q1; lia.
Qed.
Lemma encode_names_ok w codes l : table w codes -> incl l (map fst codes) ->
  exists z, encode_names codes l 0 = ret z /\ 0 <= z < 2 ^ w /\ forall n c, In (n, c) codes -> supports z c = true <-> In n l.
Proof.
  intros T H. assert (0 < 2 ^ w) by (apply Z.pow_pos_nonneg; [lia|]; destruct T; lia).
  destruct (encode_names_from w codes l T H 0 ltac:(lia)) as (z & E & B & P). exists z. split; [exact E|]. split; [exact B|].
  intros n c J. rewrite (P n c J). split; [|tauto]. intros [X|X]; [exact X|]. unfold supports in X. rewrite Z.land_0_l in X. discriminate.
Qed.
Lemma decode_names_ok w codes z : table w codes ->
  NoDup (decode_names codes z) /\ forall n, In n (decode_names codes z) <-> exists c, In (n, c) codes /\ supports z c = true.
Proof.
  intros (_ & N1 & _ & _). unfold decode_names. split.
  - induction codes as [|[m c] codes IH]; [constructor|]. cbn [map fst filter snd] in *. inversion N1 as [|? ? A B]; subst.
    destruct (negb (Z.land z c =? 0)); [|auto]. cbn [map fst]. constructor; [|auto]. intros H. apply A.
    apply in_map_iff in H as ([x y] & E & H). apply filter_In in H as [H _]. apply in_map_iff. exists (x, y). auto.
  - intros n. rewrite in_map_iff. split.
    + intros ([x c] & E & H). cbn [fst] in E. subst x. apply filter_In in H as [H K]. exists c. auto.
    + intros (c & H & K). exists (n, c). split; [reflexivity|]. apply filter_In. auto.
Qed.

Lemma nodup_check l : (fix nd (l : list (list N)) : bool := match l with [] => true | x :: l' => negb (existsb (bytes_eqb x) l') && nd l' end) l = true -> NoDup l.
Proof.
  induction l as [|x l IH]; intros H; [constructor|]. apply andb_true_iff in H as [A B]. constructor; [|auto].
  intros J. apply negb_true_iff in A. rewrite <- not_true_iff_false in A. apply A. apply existsb_exists. exists x. split; [exact J|apply bytes_eqb_refl].
Qed.
Lemma region_table : table 4 region_codes.
Proof.
  split; [lia|]. split; [apply nodup_check; reflexivity|]. split; [cbn; repeat constructor; cbn; lia|].
  repeat constructor; [exists 0|exists 1|exists 2|exists 3]; cbn; lia.
Qed.
Lemma image_table : table 4 image_codes.
Proof.
  split; [lia|]. split; [apply nodup_check; reflexivity|]. split; [cbn; repeat constructor; cbn; lia|].
  repeat constructor; [exists 0|exists 1|exists 2|exists 3]; cbn; lia.
Qed.
Lemma channel_table : table 3 channel_codes.
Proof.
  split; [lia|]. split; [apply nodup_check; reflexivity|]. split; [cbn; repeat constructor; cbn; lia|].
  repeat constructor; [exists 0|exists 1|exists 2]; cbn; lia.
Qed.

(** ---- The metadata of a tracker ---- *)

Definition announces (cfg : tracker_config) (m : metadata) : Prop :=
  (forall n c, In (n, c) region_codes -> supports (md_region m) c = true <-> In n (tc_regions cfg)) /\
  (forall n c, In (n, c) image_codes -> supports (md_image m) c = true <-> In n (tc_images cfg)) /\
  (forall n c, In (n, c) channel_codes -> supports (md_channels m) c = true <-> In n (tc_channels cfg)) /\
  0 <= md_region m < 16 /\ 0 <= md_image m < 16 /\ 1 <= md_channels m <= 7 /\
  md_name m = Some (tc_name cfg) /\ md_description m = Some (tc_description cfg) /\ md_family m = Some (tc_family cfg) /\
  carries (md_custom m) (custom_items cfg) /\
  md_flags m = Some (if tc_multiobject cfg then TRAX_METADATA_MULTI_OBJECT else 0).

Lemma encode_text_ok s : text_ok s = true -> encode s = ret s.
Proof. intros H. unfold encode. now rewrite encode_7bit. Qed.

Lemma metadata_made cfg : config_ok cfg -> exists m, server_metadata cfg = ret m /\ announces cfg m.
Proof.
  intros (R & G & C & C1 & T1 & T2 & T3 & D & _). unfold sendable_text in T1, T2, T3.
  destruct (encode_names_ok 4 region_codes (tc_regions cfg) region_table R) as (zr & Er & Br & Pr).
  destruct (encode_names_ok 4 image_codes (tc_images cfg) image_table G) as (zi & Ei & Bi & Pi).
  destruct (encode_names_ok 3 channel_codes (tc_channels cfg) channel_table C) as (zc & Ec & Bc & Pc).
  change (2 ^ 4) with 16 in *. change (2 ^ 3) with 8 in *.
  assert (Hc : zc <> 0).
  { destruct (tc_channels cfg) as [|s l] eqn:L; [congruence|]. rewrite <- L in *.
    assert (In s (tc_channels cfg)) by (rewrite L; now left).
    destruct (find_name channel_codes s (C s H) (proj1 (proj2 channel_table))) as (c & _ & J).
    apply (Pc s c J) in H. intros ->. unfold supports in H. rewrite Z.land_0_l in H. discriminate. }
  unfold server_metadata. rewrite Er, Ei, Ec, !encode_text_ok by assumption. unfold ret, pbind, lift, metadata_create.
  cbn [obind]. rewrite !c_string_7bit by assumption. replace (zc =? 0) with false by lia. cbn [obind md_custom].
  unfold announces, custom_items in *.
  destruct (tc_custom cfg) as [d|].
  - destruct (items_ok d D) as (p & Ep & Hp). rewrite Ep. unfold ret. cbn [obind]. eexists. split; [reflexivity|].
    unfold with_custom. cbn [md_region md_image md_channels md_name md_description md_family md_custom md_flags].
    split; [exact Pr|]. split; [exact Pi|]. split; [exact Pc|]. split; [exact Br|]. split; [exact Bi|]. split; [lia|].
    do 3 (split; [reflexivity|]). split; [exact Hp|]. destruct (tc_multiobject cfg); reflexivity.
  - eexists. split; [reflexivity|].
    cbn [md_region md_image md_channels md_name md_description md_family md_custom md_flags].
    split; [exact Pr|]. split; [exact Pi|]. split; [exact Pc|]. split; [exact Br|]. split; [exact Bi|]. split; [lia|].
    do 3 (split; [reflexivity|]). split; [exact carries_create|]. destruct (tc_multiobject cfg); reflexivity.
Qed.
Lemma metadata_fine cfg m : config_ok cfg -> announces cfg m -> metadata_ok m 0 /\ multi_object m 0 = tc_multiobject cfg.
Proof.
  intros (_ & _ & _ & _ & T1 & T2 & T3 & D & Rs) (_ & _ & _ & _ & _ & Hc & Hn & Hd & Hf & Hp & Hfl).
  pose proof (carries_clean _ _ D Hp) as Hcl. split.
  - split; [unfold TRAX_VERSION; lia|]. split; [exact Hcl|]. split.
    + intros k v E. rewrite props_get_spec in E by apply Hp. injection E as E. eapply Rs. eapply carries_lookup; [exact D|exact Hp|exact E].
    + split; [rewrite Hn, Hd, Hf; repeat constructor; assumption|]. split; [exact Hc|]. rewrite Hfl. discriminate.
  - unfold multi_object. change (spoken 0) with 4. rewrite Hfl. destruct (tc_multiobject cfg); reflexivity.
Qed.

(** ---- The handshake ---- *)

Lemma made_external l : forall p r, made p -> enum_into copy_property_external_overwrite l p = Ok r -> made r.
Proof.
  induction l as [|[k v] l IH]; intros p r M E; cbn [enum_into] in E; [now injection E as <-|].
  unfold copy_property_external_overwrite at 1 in E. destruct (starts_with (str "trax.") k); cbn [obind] in E; [now apply (IH p)|].
  destruct (made_set p k v M) as (p1 & E1 & M1 & _). rewrite E1 in E. cbn [obind] in E. now apply (IH p1).
Qed.
Lemma client_custom_made st o c : client_setup st o = Ok (Some c) -> made (md_custom (h_meta c)).
Proof.
  unfold client_setup. destruct (read_message None st props_create) as [r| | |]; try discriminate. cbn [obind].
  destruct (rr_type r) as [[]|]; try discriminate. destruct (rr_args r); try discriminate.
  destruct (hello_metadata (rr_props r)) as [[m v]| | |] eqn:E; try discriminate. cbn [obind fst snd]. intros X. injection X as <-. cbn [h_meta].
  unfold hello_metadata in E.
  repeat match type of E with obind ?x _ = Ok _ => let H := fresh "H" in destruct x as [?| | |] eqn:H; try discriminate; cbn [obind] in E end.
  injection E as <- _. cbn [md_custom].
  match goal with H : metadata_create _ _ _ _ _ _ _ = Ok ?m0, K : copy_properties _ (md_custom ?m0) _ = Ok _ |- _ =>
    unfold metadata_create in H; destruct (_ =? 0) in H; [discriminate|]; injection H as <-; cbn [md_custom] in K;
    exact (made_external _ _ _ made_create K) end.
Qed.

Lemma lookup_in {A} (d : list (text * A)) k v : NoDup (map fst d) -> (lookup d k = Some v <-> In (k, v) d).
Proof.
  intros N0. unfold lookup. induction d as [|[k0 v0] d IH]; cbn [find fst In map] in *; [split; [discriminate|tauto]|].
  inversion N0 as [|? ? N1 N2]; subst. destruct (bytes_eqb k0 k) eqn:B.
  - apply bytes_eqb_eq in B. subst k0. cbn [snd]. split; [intros E; injection E as ->; now left|].
    intros [E|H]; [now injection E as ->|]. exfalso. apply N1. apply in_map_iff. exists (k, v). auto.
  - rewrite (IH N2). split; [tauto|]. intros [E|H]; [|exact H]. injection E as -> ->. rewrite bytes_eqb_refl in B. discriminate.
Qed.
Lemma lookup_assign {A} (d : list (text * A)) k v k' : lookup (assign d k v) k' = if bytes_eqb k k' then Some v else lookup d k'.
Proof.
  unfold lookup. induction d as [|[k0 v0] d IH]; cbn [assign find fst].
  - destruct (bytes_eqb k k'); reflexivity.
  - destruct (bytes_eqb k0 k) eqn:B; cbn [find fst].
    + apply bytes_eqb_eq in B. subst k0. destruct (bytes_eqb k k'); reflexivity.
    + destruct (bytes_eqb k0 k') eqn:B'; [|exact IH]. destruct (bytes_eqb k k') eqn:B2; [|reflexivity].
      apply bytes_eqb_eq in B', B2. subst. rewrite bytes_eqb_refl in B. discriminate.
Qed.
Lemma lookup_map {A B} (f : A -> B) (d : list (text * A)) k : lookup (map (fun kv => (fst kv, f (snd kv))) d) k = option_map f (lookup d k).
Proof.
  unfold lookup. induction d as [|[k0 v0] d IH]; cbn [map find fst snd]; [reflexivity|]. destruct (bytes_eqb k0 k); [reflexivity|exact IH].
Qed.
Lemma shown_7bit s : text_ok s = true -> shown_text (Some s) = ret s.
Proof. intros H. unfold shown_text, decode. now rewrite (encode_decode s s (encode_7bit s H)). Qed.

Lemma region_14 z n c : In (n, c) region_codes -> supports (Z.land z 14) c = true <-> supports z c = true /\ n <> str "special".
Proof.
  intros H. unfold region_codes in H. cbn [In] in H.
  destruct H as [E|[E|[E|[E|[]]]]]; injection E as <- <-; unfold supports; rewrite <- Z.land_assoc; cbn [Z.land Pos.land].
  - rewrite Z.land_0_r. split; [discriminate|]. intros [_ X]. now elim X.
  - split; [intros X; split; [exact X|discriminate]|tauto].
  - split; [intros X; split; [exact X|discriminate]|tauto].
  - split; [intros X; split; [exact X|discriminate]|tauto].
Qed.
Lemma land15 z : 0 <= z < 16 -> Z.land z 15 = z.
Proof. intros H. change 15 with (Z.ones 4). rewrite Z.land_ones by lia. apply Z.mod_small. exact H. Qed.

Lemma client_described cfg m c : config_ok cfg -> announces cfg m -> conveyed m 0 (h_meta c) -> made (md_custom (h_meta c)) ->
  h_terminated c = false -> h_server c = false ->
  exists i, client_describe c = ret i /\ describes cfg i.
Proof.
  intros K (Pr & Pi & Pc & Br & Bi & Bc & Hn & Hd & Hf & Hp & Hfl) (C1 & C2 & C3 & C4 & C5 & C6 & C7 & C8) M0 T0 S0.
  change (spoken 0 =? 1) with false in C3. cbn iota in C3.
  pose proof K as (R & G & C & Cn & T1 & T2 & T3 & D & Rs).
  unfold client_describe. rewrite C4, C5, C6, Hn, Hd, Hf. rewrite !shown_7bit by assumption. unfold ret, pbind, lift. cbn [obind].
  unfold get_parameter, alive, is_multi_object. rewrite T0, C8. cbn [negb Z.eqb Pos.eqb obind snd].
  eexists. split; [reflexivity|].
  assert (Hc : carries (md_custom (h_meta c)) (custom_items cfg)) by now apply (carries_same (md_custom m)).
  destruct (carries_dict _ _ D Hc) as [N0 B0].
  unfold describes. cbn [ci_regions ci_images ci_channels ci_name ci_description ci_family]. unfold client_get. cbn [ci_custom].
  destruct (decode_names_ok 4 region_codes (md_region (h_meta c)) region_table) as [Nr Dr].
  destruct (decode_names_ok 4 image_codes (md_image (h_meta c)) image_table) as [Ni Di].
  destruct (decode_names_ok 3 channel_codes (md_channels (h_meta c)) channel_table) as [Nc Dc].
  split; [|split; [|split; [|split; [reflexivity|split; [reflexivity|split; [reflexivity|split]]]]]].
  - split; [exact Nr|]. intros n. rewrite Dr, C1. split.
    + intros (z & J & X). apply (region_14 _ n z J) in X as [X Y]. split; [now apply (Pr n z J)|exact Y].
    + intros [X Y]. destruct (find_name region_codes n (R n X) (proj1 (proj2 region_table))) as (z & _ & J). exists z. split; [exact J|].
      apply (region_14 _ n z J). split; [now apply (Pr n z J)|exact Y].
  - split; [exact Ni|]. intros n. rewrite Di, C2, land15 by exact Bi. split.
    + intros (z & J & X). now apply (Pi n z J).
    + intros X. destruct (find_name image_codes n (G n X) (proj1 (proj2 image_table))) as (z & _ & J). exists z. split; [exact J|]. now apply (Pi n z J).
  - split; [exact Nc|]. intros n. rewrite Dc, C3. split.
    + intros (z & J & X). now apply (Pc n z J).
    + intros X. destruct (find_name channel_codes n (C n X) (proj1 (proj2 channel_table))) as (z & _ & J). exists z. split; [exact J|]. now apply (Pc n z J).
  - intros k Hk v. rewrite lookup_assign.
    replace (bytes_eqb (str "multiobject") k) with false
      by (symmetry; apply not_true_iff_false; intros X; apply bytes_eqb_eq in X; congruence).
    rewrite (lookup_map inl). split.
    + destruct (lookup (properties_dict _) k) as [t|] eqn:L; [|discriminate]. cbn [option_map]. intros X. injection X as <-.
      exists t. split; [reflexivity|]. apply B0. now apply lookup_in.
    + intros (t & -> & J). apply B0 in J. apply (lookup_in _ _ _ N0) in J. now rewrite J.
  - rewrite lookup_assign, bytes_eqb_refl. do 2 f_equal. rewrite (proj2 (metadata_fine cfg m K ltac:(unfold announces; auto 20))).
    destruct (tc_multiobject cfg); reflexivity.
Qed.

(** The connection of C35, seen from Python *)
Lemma python_connects cfg m cut sched_s sched_c : config_ok cfg -> server_metadata cfg = ret m -> announces cfg m -> cutter cut ->
  no_error sched_s -> no_error sched_c ->
  exists c s i, connect m 0 cut sched_s sched_c = Ok (Some (c, s)) /\ python_connect cfg cut sched_s sched_c = ret (c, s, i) /\ describes cfg i.
Proof.
  intros K E A Hcut Hs Hc. destruct (metadata_fine cfg m K A) as [Hm _].
  destruct (connect_ok m 0 cut sched_s sched_c Hm Hcut Hs Hc) as (c & s & Ec & _ & _ & Hcv & A1 & A2 & A3 & A4 & _).
  exists c, s. pose proof Ec as Ec'. unfold connect in Ec.
  destruct (server_setup m (mkStream [] []) (mkO sched_s [] []) 0) as [s0| | |] eqn:Es; try discriminate. cbn [obind] in Ec.
  destruct (client_setup _ _) as [[c0|]| | |] eqn:El; try discriminate. cbn [obind] in Ec. injection Ec as -> ->.
  destruct (client_described cfg m c K A Hcv (client_custom_made _ _ _ El) A3 A1) as (i & Ei & Hi).
  exists i. split; [exact Ec'|]. split; [|exact Hi].
  unfold python_connect, server_init, client_init, is_alive, alive. rewrite E. unfold ret, pbind, lift. cbn [obind]. rewrite Es. cbn [obind].
  rewrite A4. cbn [negb obind]. rewrite El. cbn [obind]. rewrite A3. cbn [negb]. rewrite Ei. reflexivity.
Qed.

(** ---- Rounds ---- *)

Definition wrapped (a : region * dict) (o : region * props) : Prop := fst o = fst a /\ carries (snd o) (snd a).
Lemma wrap_objects_ok l : Forall state_given l -> exists ol, wrap_objects (given_objects l) = ret ol /\ Forall2 wrapped l ol.
Proof.
  induction 1 as [|[r d] l (W & _ & D) F (ol & E & H)]; [exists []; split; [reflexivity|constructor]|]. cbn [fst snd] in *.
  cbn [given_objects map wrap_objects fst snd]. destruct (init_ok d D) as (p & Ep & Hp). rewrite Ep. unfold ret, pbind, lift, properties_reference. cbn [obind].
  rewrite (whole_clone r W). cbn [obind].
  destruct (copy_new p 1 (proj1 Hp) (or_introl eq_refl)) as (q & Eq & Sq & Mq).
  unfold ret. cbn [obind]. assert (props_append p props_create false = Ok q) as -> by exact Eq. cbn [obind].
  change (map (fun rd => (fst rd, DDict (snd rd))) l) with (given_objects l). rewrite E. unfold ret. cbn [obind].
  eexists. split; [reflexivity|]. constructor; [|exact H]. split; [reflexivity|]. cbn [snd]. exact (carries_same p q d Hp Mq Sq).
Qed.
Lemma wrapped_sendable l ol : Forall state_given l -> Forall2 wrapped l ol -> Forall state_sendable ol.
Proof.
  intros F H. induction H as [|a o l ol [A B] H IH]; [constructor|]. inversion F as [|? ? (W & X & D) F']; subst. constructor; [|auto].
  split; [rewrite A; exact X|]. exact (carries_clean _ _ D B).
Qed.
Lemma kind_code r : In (region_kind r, region_bit r) region_codes.
Proof. unfold region_codes. destruct r; cbn [region_kind region_bit In]; unfold TRAX_REGION_SPECIAL, TRAX_REGION_RECTANGLE, TRAX_REGION_POLYGON, TRAX_REGION_MASK; tauto. Qed.
Lemma wrapped_objects cfg m l ol : announces cfg m -> Forall (object_given cfg) l -> Forall2 wrapped l ol -> Forall (object_sendable (md_region m)) ol.
Proof.
  intros A F H. induction H as [|a o l ol [E B] H IH]; [constructor|].
  inversion F as [|? ? ((W & X & D) & K & J) F']; subst. constructor; [|auto]. unfold object_sendable. rewrite E.
  split; [|split; [|split; [exact X|exact (carries_clean _ _ D B)]]].
  - intros c Ec. apply K. now rewrite Ec.
  - apply (proj1 A (region_kind (fst a))); [apply kind_code|exact J].
Qed.
Lemma wrap_list_ok l ol ol' : Forall state_given l -> Forall2 wrapped l ol -> objects_arrive ol ol' ->
  exists shown, wrap_object_list ol' = Ok shown /\ Forall2 object_reaches l shown.
Proof.
  intros F H. revert ol'. induction H as [|a o l ol [E B] H IH]; intros ol' Ha; inversion Ha as [|? [r' p'] ? ol1 (X & Sm & Mp) Ha']; subst.
  - exists []. split; [reflexivity|constructor].
  - inversion F as [|? ? (W & _ & D) F']; subst. cbn [fst snd] in *. destruct (IH F' _ Ha') as (shown & Es & Hs).
    cbn [wrap_object_list]. rewrite (clone_arrives _ _ X). cbn [obind]. rewrite Es. cbn [obind].
    eexists. split; [reflexivity|]. constructor; [|exact Hs]. split; cbn [fst snd]; [rewrite <- E; exact X|].
    apply carries_dict; [exact D|]. exact (carries_same _ _ _ B Mp Sm).
Qed.
Lemma state_of_object cfg l : Forall (object_given cfg) l -> Forall state_given l.
Proof. apply Forall_impl. intros a H. apply H. Qed.

Lemma arrives_image slack i a b : image_arrives slack i a -> image_arrives slack i b -> a = b.
Proof. intros (t & E & _ & D) (t' & E' & _ & D'). rewrite E in E'. injection E' as <-. rewrite D in D'. now injection D'. Qed.
Lemma kind_supported cfg m i kind : announces cfg m -> image_kind i kind -> supports (md_image m) (i_type i) = true <-> In kind (tc_images cfg).
Proof.
  intros A K. apply (proj1 (proj2 A) kind). unfold image_codes. unfold image_kind, TRAX_IMAGE_PATH, TRAX_IMAGE_URL, TRAX_IMAGE_MEMORY, TRAX_IMAGE_BUFFER in K.
  cbn [In]. destruct K as [[-> ->]|[[-> ->]|[[-> ->]|[-> ->]]]]; tauto.
Qed.
Lemma channel_bit cfg m k : announces cfg m -> (k < 3)%nat ->
  Z.testbit (md_channels m) (Z.of_nat k) = true <-> In (nth k channels []) (tc_channels cfg).
Proof.
  intros A Hk. rewrite <- supports_bit by lia. apply (proj1 (proj2 (proj2 A))).
  destruct k as [|[|[|k]]]; [now left|right; now left|do 2 right; now left|lia].
Qed.
Lemma channel_index name : In name channels -> exists k, (k < 3)%nat /\ nth k channels [] = name.
Proof. intros H. destruct (In_nth channels name [] H) as (k & Hk & E). exists k. auto. Qed.
Lemma nth_wrap d k : (k < 3)%nat -> nth k (wrap_images d) None = lookup d (nth k channels []).
Proof. intros H. destruct k as [|[|[|k]]]; [reflexivity|reflexivity|reflexivity|lia]. Qed.

Lemma images_to slack cfg m given shown : config_ok cfg -> announces cfg m -> NoDup (map fst given) -> images_reach slack cfg given shown ->
  images_arrive slack (md_channels m) (md_image m) (wrap_images given) (wrap_images shown).
Proof.
  intros K A N0 (X & N1 & Y). split; [reflexivity|]. split; [reflexivity|]. intros k Hk.
  pose proof (channel_bit cfg m k A Hk) as B. rewrite !nth_wrap by exact Hk. destruct (Z.testbit _ _).
  - destruct (X _ (proj1 B eq_refl)) as (i & i' & kind & G & S0 & Ar & Ki & Ji). exists i, i'.
    split; [now apply lookup_in|]. split; [now apply lookup_in|]. split; [exact Ar|]. now apply (kind_supported cfg m i' kind A Ki).
  - destruct (lookup shown (nth k channels [])) as [i'|] eqn:L; [|reflexivity]. apply (lookup_in _ _ _ N1) in L. apply Y in L.
    apply B in L. discriminate.
Qed.
Lemma in_wrap_list ims name i : List.length ims = 3%nat ->
  In (name, i) (wrap_image_list ims) <-> exists k, (k < 3)%nat /\ nth k channels [] = name /\ nth k ims None = Some i.
Proof.
  intros L. destruct ims as [|a [|b [|c [|]]]]; try discriminate. clear L.
  unfold wrap_image_list. change channels with [str "color"; str "depth"; str "ir"]. cbn [combine flat_map fst snd]. rewrite !in_app_iff. split.
  - intros H. destruct H as [H|[H|[H|[]]]]; [exists 0%nat|exists 1%nat|exists 2%nat]; cbn [nth].
    + destruct a; [|destruct H]. destruct H as [E|[]]. injection E as <- <-. split; [lia|auto].
    + destruct b; [|destruct H]. destruct H as [E|[]]. injection E as <- <-. split; [lia|auto].
    + destruct c; [|destruct H]. destruct H as [E|[]]. injection E as <- <-. split; [lia|auto].
  - intros (k & Hk & <- & E). destruct k as [|[|[|k]]]; cbn [nth] in *; [| | |lia]; rewrite E.
    + left. now left.
    + right. left. now left.
    + right. right. left. now left.
Qed.
Lemma nodup_wrap_list ims : List.length ims = 3%nat -> NoDup (map fst (wrap_image_list ims)).
Proof.
  intros L. destruct ims as [|a [|b [|c [|]]]]; try discriminate. clear L. apply nodup_check.
  unfold wrap_image_list. destruct a, b, c; reflexivity.
Qed.
Lemma images_from slack cfg m given ims shown : config_ok cfg -> announces cfg m -> NoDup (map fst given) -> images_reach slack cfg given shown ->
  images_arrive slack (md_channels m) (md_image m) (wrap_images given) ims -> images_reach slack cfg given (wrap_image_list ims).
Proof.
  intros K A N0 (X & _ & _) (_ & L & H). split; [|split].
  - intros name J. destruct (X name J) as (i & i' & kind & G & _ & Ar & Ki & Ji). exists i, i', kind. split; [exact G|].
    split; [|auto]. apply in_wrap_list; [exact L|]. pose proof K as (_ & _ & C & _). destruct (channel_index name (C name J)) as (k & Hk & E). exists k. split; [exact Hk|].
    split; [exact E|]. specialize (H k Hk). rewrite <- E in J. apply (channel_bit cfg m k A Hk) in J. rewrite J in H.
    destruct H as (x & x' & Ex & Ex' & Axx & _). rewrite nth_wrap, E in Ex by exact Hk. apply (lookup_in _ _ _ N0) in G. rewrite G in Ex. injection Ex as <-.
    rewrite Ex'. f_equal. exact (arrives_image slack i x' i' Axx Ar).
  - now apply nodup_wrap_list.
  - intros name i' J. apply in_wrap_list in J as (k & Hk & <- & E); [|exact L]. apply (channel_bit cfg m k A Hk). specialize (H k Hk).
    destruct (Z.testbit _ _); [reflexivity|]. rewrite H in E. discriminate.
Qed.

Definition made_opt (p : option props) : Prop := match p with Some p => made p | None => True end.
Lemma copy_out_made src p flags p' : made_opt p -> flags = ALL_OVERWRITE \/ flags = EXTERNAL_OVERWRITE -> copy_out src p flags = Ok p' -> made_opt p'.
Proof.
  intros M F E. unfold copy_out in E. destruct p as [p|]; [|now injection E as <-].
  destruct (copy_properties src p flags) as [q| | |] eqn:C; try discriminate. cbn [obind] in E. injection E as <-. cbn [made_opt].
  unfold copy_properties in C. destruct F as [-> | ->].
  - destruct M as (hist & Eh). exact (run_sets _ hist p q Eh C).
  - exact (made_external _ p q M C).
Qed.
Lemma mot_end_props res h ims objs p code h' ims' o p' : mot_end res h ims objs p = Ok (code, h', ims', o, p') -> p' = p.
Proof.
  unfold mot_end. destruct objs; [intros E; now injection E|]. destruct (mot_objects _); try discriminate. cbn [obind]. intros E; now injection E.
Qed.
Lemma mot_failure_props h objs p code h' ims' o p' : mot_failure h objs p = Ok (code, h', ims', o, p') -> p' = p.
Proof. unfold mot_failure. destruct (existsb _ _); [discriminate|]. intros E; now injection E. Qed.
Lemma wait_loop_made fuel slack argc : forall h ims res objs p code h' ims' o p', made_opt p ->
  wait_mot_loop fuel slack argc h ims res objs p = Ok (code, h', ims', o, p') -> made_opt p'.
Proof.
  induction fuel as [|fuel IH]; intros h ims res objs p code h' ims' o p' M E; cbn [wait_mot_loop] in E; [discriminate|].
  destruct (handle_read h) as [[r h1]| | |]; try discriminate. cbn [obind] in E.
  destruct (rr_type r) as [[]|]; try (apply (IH _ _ _ _ _ _ _ _ _ _ M E)).
  - destruct (rr_args r) as [|a [|]]; [exact (IH _ _ _ _ _ _ _ _ _ _ M E)| |apply mot_failure_props in E; now subst].
    destruct (region_parse a) as [[[] reg]| | |]; try discriminate; cbn [obind] in E; [|apply mot_failure_props in E; now subst].
    destruct (copy_properties _ _ _); try discriminate. cbn [obind] in E. exact (IH _ _ _ _ _ _ _ _ _ _ M E).
  - destruct (_ && _); [apply mot_failure_props in E; now subst|]. destruct (negb _); [apply mot_failure_props in E; now subst|].
    destruct (decode_images _ _ _ _ _) as [[im|]| | |]; try discriminate; cbn [obind] in E; [|apply mot_failure_props in E; now subst].
    destruct (copy_out _ _ _) as [q| | |] eqn:C; try discriminate. cbn [obind] in E. apply mot_end_props in E. subst p'.
    exact (copy_out_made _ p _ q M (or_introl eq_refl) C).
  - destruct (negb _); [apply mot_failure_props in E; now subst|].
    destruct (copy_out _ _ _) as [q| | |] eqn:C; try discriminate. cbn [obind] in E. apply mot_end_props in E. subst p'.
    exact (copy_out_made _ p _ q M (or_intror eq_refl) C).
  - apply mot_failure_props in E. now subst.
Qed.
Lemma wait_made fuel slack h ims p code h' ims' o p' : made_opt p ->
  server_wait_mot fuel slack h ims p = Ok (code, h', ims', o, p') -> made_opt p'.
Proof.
  intros M E. unfold server_wait_mot in E. destruct (negb (h_server h)); [discriminate|]. cbv zeta in E.
  destruct (negb (alive _)); [now injection E as _ _ _ _ <-|]. destruct (image_list_count _); try discriminate. cbn [obind] in E.
  exact (wait_loop_made _ _ _ _ _ _ _ _ _ _ _ _ _ M E).
Qed.

Lemma both_length {A B} (P : A -> B -> Prop) l l' : Forall2 P l l' -> List.length l' = List.length l.
Proof. induction 1; cbn [List.length]; congruence. Qed.

Lemma pround_carries legacy slack cfg m n c s r : config_ok cfg -> announces cfg m ->
  client_side m (tc_multiobject cfg) n c -> server_side m (tc_multiobject cfg) n s -> pround_ok slack cfg n r ->
  exists c' s' sn, play_pround legacy slack c s r = Ok (Some (c', s', sn)) /\ client_side m (tc_multiobject cfg) (ptracked n r) c' /\
    server_side m (tc_multiobject cfg) (ptracked n r) s' /\ pseen_ok slack cfg n r sn /\ carries (rq_properties (ps_request sn)) (pr_props r).
Proof.
  intros K A Hc Hs (Q1 & Q2 & N0 & (shown & Im) & Ob & Pp & Ne & Tr & Mu & Le & St).
  pose proof (state_of_object cfg _ Ob) as Ob'.
  destruct (wrap_objects_ok _ Ob') as (ol & Eo & Wo). destruct (wrap_objects_ok _ St) as (rl & Er & Wr).
  destruct (init_ok _ Pp) as (p & Ep & Hp).
  set (rd := mkRound (pr_init r) (wrap_images (pr_images r)) ol (Some p) rl (pr_cut1 r) (pr_cut2 r)).
  assert (Lo : List.length ol = List.length (pr_objects r)) by exact (both_length _ _ _ Wo).
  assert (Lr : List.length rl = List.length (pr_reply r)) by exact (both_length _ _ _ Wr).
  assert (Tk : tracked n rd = ptracked n r) by (unfold tracked, ptracked; cbn [rd rd_init rd_objects]; now rewrite Lo).
  assert (Rok : round_ok slack m (tc_multiobject cfg) n rd).
  { unfold round_ok. rewrite Tk. cbn [rd rd_cut1 rd_cut2 rd_images rd_objects rd_props rd_init rd_reply].
    refine (conj Q1 (conj Q2 (conj _ (conj _ (conj _ (conj _ (conj Tr (conj Mu (conj _ _))))))))).
    - exists (wrap_images shown). exact (images_to slack cfg m _ _ K A N0 Im).
    - now apply (wrapped_objects cfg m (pr_objects r)).
    - now apply (carries_clean p (pr_props r)).
    - intros Hi. specialize (Ne Hi). destruct Wo; congruence.
    - now rewrite Lr.
    - now apply (wrapped_sendable (pr_reply r)). }
  destruct (round_delivers legacy slack m (tc_multiobject cfg) n c s rd Hc Hs (proj1 (proj2 (proj2 (proj2 (proj2 (proj2 A)))))) Rok)
    as (c' & s' & sn & E & Hc' & Hs' & Sn).
  rewrite Tk in Hc', Hs'. destruct Sn as (S1 & S2 & (ims & S3 & S3') & S4 & (q & S5 & S5') & S6 & S7 & (res & S8 & S8')).
  cbn [rd rd_images rd_objects rd_props rd_init rd_reply given] in *.
  unfold play_round in E. cbn [rd rd_cut1 rd_cut2 rd_images rd_objects rd_props rd_init rd_reply] in E.
  unfold play_pround, client_send, send_arguments. rewrite Eo. unfold ret, pbind, properties_reference. cbn [obind]. rewrite Ep. unfold ret. cbn [obind].
  destruct (if pr_init r then _ else _) as [[sent c1]| | |]; try discriminate. cbn [obind fst snd] in *.
  rewrite Lo in E.
  destruct (server_wait_mot _ _ _ _ _) as [[[[[ev s1] im1] ob1] p1]| | |] eqn:Esw; try discriminate. cbn [obind] in E.
  destruct (server_reply_mot s1 rl) as [[rep s2]| | |] eqn:Ers; try discriminate. cbn [obind] in E.
  destruct (client_wait _ _) as [[[[stt c2] res1] p2]| | |] eqn:Ecw; try discriminate. cbn [obind] in E.
  injection E as -> -> <-. cbn [sn_sent sn_event sn_images sn_objects sn_props sn_replied sn_state sn_result] in *. subst sent im1 p1 rep stt res1.
  change (TRAX_OK =? TRAX_ERROR) with false. cbn iota. cbn [obind].
  pose proof (images_from slack cfg m (pr_images r) ims shown K A N0 Im S3') as Ims.
  destruct (wrap_list_ok _ _ _ St Wr S8') as (ans & Ea & Ha).
  assert (Cq : carries q (pr_props r)).
  { apply (carries_same p); [exact Hp| |exact S5']. exact (wait_made _ _ _ _ (Some props_create) _ _ _ _ (Some q) made_create Esw). }
  pose proof (carries_dict q _ Pp Cq) as Hq.
  assert (Hob : exists ro, (match ob1 with Some o => l <- wrap_object_list o ;; Ok (Some l) | None => Ok None end) = Ok ro /\
    match pr_objects r with [] => ro = None | l => exists l', ro = Some l' /\ Forall2 object_reaches l l' end).
  { destruct Wo as [|a o l0 ol0 Wa Wl].
    - subst ob1. exists None. auto.
    - destruct S4 as (l' & -> & Ha'). inversion Ob' as [|? ? Oa Ol]; subst.
      destruct (wrap_list_ok (a :: l0) (o :: ol0) l' Ob' (Forall2_cons _ _ Wa Wl) Ha') as (sh & Es & Hsh). rewrite Es. cbn [obind].
      exists (Some sh). split; [reflexivity|]. exists sh. auto. }
  destruct Hob as (ro & Ero & Hro).
  assert (Hin : pr_init r || (n =? 0)%nat = true -> ob1 <> None).
  { intros Hi. assert (pr_objects r <> []).
    { apply orb_true_iff in Hi as [Hi|Hi]; [exact (Ne Hi)|]. apply Nat.eqb_eq in Hi. subst n. unfold ptracked in Tr.
      intros X. rewrite X in Tr. cbn [List.length] in Tr. destruct (pr_init r); lia. }
    intros ->. destruct (pr_objects r); [congruence|]. injection Ero as <-. destruct Hro as (? & ? & _). discriminate. }
  assert (Esv : server_wait (3 + List.length (pr_objects r)) slack (arrive (pr_cut1 r) (written c c1) s) =
                Ok (inl (mkRequest (status_name ev) (Some (wrap_image_list ims)) ro q), s1)).
  { unfold server_wait. rewrite Esw. cbn [obind]. subst ev. destruct (pr_init r || (n =? 0)%nat) eqn:Hi.
    - change (TRAX_INITIALIZE =? TRAX_QUIT) with false. change (TRAX_INITIALIZE =? TRAX_INITIALIZE) with true. cbn iota.
      destruct ob1 as [o1|]; [|now elim (Hin eq_refl)].
      destruct (wrap_object_list o1); try discriminate; cbn [obind] in *. injection Ero as <-. reflexivity.
    - change (TRAX_FRAME =? TRAX_QUIT) with false. change (TRAX_FRAME =? TRAX_INITIALIZE) with false.
      change (TRAX_FRAME =? TRAX_FRAME) with true. cbn iota.
      destruct ob1 as [o1|]; [destruct (wrap_object_list o1); try discriminate; cbn [obind] in *|]; injection Ero as <-; reflexivity. }
  rewrite Esv. cbn [obind]. unfold server_status, status_arguments. unfold properties_init, ret, pbind, properties_reference. cbn [obind].
  rewrite Er. unfold ret. cbn [obind]. rewrite Ers. cbn [obind fst snd]. change (TRAX_OK =? TRAX_ERROR) with false. cbn iota.
  unfold client_receive. rewrite Ecw. cbn [obind]. change (TRAX_STATE =? TRAX_ERROR) with false. change (TRAX_STATE =? TRAX_QUIT) with false. cbn iota.
  rewrite Ea. cbn [obind]. exists c', s'. eexists. split; [reflexivity|]. split; [exact Hc'|]. split; [exact Hs'|]. split; [|exact Cq].
  unfold pseen_ok. cbn [ps_request ps_answer rq_type rq_images rq_objects rq_properties].
  split; [subst ev; destruct (pr_init r || (n =? 0)%nat); reflexivity|]. split; [exists (wrap_image_list ims); auto|].
  split; [exact Hro|]. split; [exact Hq|exact Ha].
Qed.
Lemma pround_delivers legacy slack cfg m n c s r : config_ok cfg -> announces cfg m ->
  client_side m (tc_multiobject cfg) n c -> server_side m (tc_multiobject cfg) n s -> pround_ok slack cfg n r ->
  exists c' s' sn, play_pround legacy slack c s r = Ok (Some (c', s', sn)) /\ client_side m (tc_multiobject cfg) (ptracked n r) c' /\
    server_side m (tc_multiobject cfg) (ptracked n r) s' /\ pseen_ok slack cfg n r sn.
Proof.
  intros K A Hc Hs Hr. destruct (pround_carries legacy slack cfg m n c s r K A Hc Hs Hr) as (c' & s' & sn & E & Hc' & Hs' & Sn & _).
  exists c', s', sn. auto.
Qed.

Lemma pplay_delivers legacy slack cfg m : config_ok cfg -> announces cfg m -> forall rs n c s,
  client_side m (tc_multiobject cfg) n c -> server_side m (tc_multiobject cfg) n s -> prounds_ok slack cfg n rs ->
  exists c' s' sns, pplay legacy slack c s rs = Ok (Some (c', s', sns)) /\ all_pseen slack cfg n rs sns /\
    client_side m (tc_multiobject cfg) (ptracked_all n rs) c' /\ server_side m (tc_multiobject cfg) (ptracked_all n rs) s'.
Proof.
  intros K A. induction rs as [|r rs IH]; intros n c s Hc Hs H; cbn [prounds_ok pplay] in *.
  - exists c, s, []. cbn [all_pseen ptracked_all]. auto.
  - destruct H as (Hr & Hrs). destruct (pround_delivers legacy slack cfg m n c s r K A Hc Hs Hr) as (c1 & s1 & sn & E & Hc1 & Hs1 & Hsn).
    rewrite E. cbn [obind]. destruct (IH _ _ _ Hc1 Hs1 Hrs) as (c2 & s2 & sns & E' & Hsns & Hc2 & Hs2). rewrite E'. cbn [obind].
    exists c2, s2, (sn :: sns). cbn [all_pseen ptracked_all]. auto.
Qed.

Lemma connect_sides m multi cut sched_s sched_c c s : metadata_ok m 0 -> multi_object m 0 = multi -> cutter cut -> no_error sched_s -> no_error sched_c ->
  connect m 0 cut sched_s sched_c = Ok (Some (c, s)) -> client_side m multi 0 c /\ server_side m multi 0 s.
Proof.
  intros Hm Mu Hcut Hs Hc Ec. destruct (connect_ok m 0 cut sched_s sched_c Hm Hcut Hs Hc)
    as (c0 & s0 & E & Vc & Vs & Hcv & A1 & A2 & A3 & A4 & A5 & A6 & A7 & A8 & A9 & A10 & A11 & A12 & A13).
  rewrite Ec in E. injection E as <- <-. destruct Hcv as (B1 & B2 & B3 & B4 & B5 & B6 & B7 & B8).
  change (spoken 0) with 4 in *. cbn [Z.eqb Pos.eqb] in B3. rewrite Mu in *. split.
  - unfold client_side, is_version_4, is_multi_object. rewrite Vc, B8.
    repeat match goal with |- _ /\ _ => split end; try assumption; try reflexivity. destruct multi; reflexivity.
  - unfold server_side. specialize (A13 eq_refl). repeat match goal with |- _ /\ _ => split end; assumption.
Qed.

Lemma python_handshake_lemma : forall cfg cut sched_s sched_c, config_ok cfg -> cutter cut -> no_error sched_s -> no_error sched_c ->
  exists c s i, python_connect cfg cut sched_s sched_c = ret (c, s, i) /\ describes cfg i.
Proof.
  intros cfg cut sched_s sched_c K Hcut Hs Hc. destruct (metadata_made cfg K) as (m & Em & A).
  destruct (python_connects cfg m cut sched_s sched_c K Em A Hcut Hs Hc) as (c & s & i & _ & E & D). eauto.
Qed.
Lemma python_session_lemma : forall legacy slack cfg cut sched_s sched_c rs, config_ok cfg -> cutter cut -> no_error sched_s -> no_error sched_c ->
  prounds_ok slack cfg 0 rs ->
  exists c s i c' s' sns, python_connect cfg cut sched_s sched_c = ret (c, s, i) /\
    pplay legacy slack c s rs = Ok (Some (c', s', sns)) /\ all_pseen slack cfg 0 rs sns.
Proof.
  intros legacy slack cfg cut sched_s sched_c rs K Hcut Hs Hc Hrs. destruct (metadata_made cfg K) as (m & Em & A).
  destruct (python_connects cfg m cut sched_s sched_c K Em A Hcut Hs Hc) as (c & s & i & E1 & E & D).
  destruct (metadata_fine cfg m K A) as [Hm Mu].
  destruct (connect_sides m _ cut sched_s sched_c c s Hm Mu Hcut Hs Hc E1) as [Sc Ss].
  destruct (pplay_delivers legacy slack cfg m K A rs 0 c s Sc Ss Hrs) as (c' & s' & sns & Ep & Hp & _).
  exists c, s, i, c', s', sns. auto.
Qed.

(** ---- The end of a session ---- *)

Lemma terminate_ok h reason : h_terminated h = false -> no_error (o_sched (h_out h)) -> match reason with Some t => text_ok t = true | None => True end ->
  exists p h', terminate h reason = Ok (TRAX_OK, h') /\ clean p /\ sent (h_out h) (h_out h') (wire MQuit [] (props_enum p)) /\
    forall k, sm_lookup p k = match reason with Some t => if bytes_eqb (str "trax.reason") k then Some t else None | None => None end.
Proof.
  intros T0 Ho Hr. unfold terminate, alive. cbn [clear_error h_terminated]. rewrite T0. cbn [negb].
  destruct (made_set_optional props_create (str "trax.reason") reason made_create) as (p & E & Mp & L). rewrite E. cbn [obind].
  exists p. eexists. split; [reflexivity|].
  assert (L' : forall k, sm_lookup p k = match reason with Some t => if bytes_eqb (str "trax.reason") k then Some t else None | None => None end).
  { intros k. rewrite L. unfold pm_opt. destruct reason as [t|]; [unfold pm_set; destruct (bytes_eqb _ k); [reflexivity|]|]; apply sm_new_lookup. }
  split; [|split; [|exact L']].
  - split; [exact Mp|]. intros k v E1. rewrite props_get_spec in E1 by now apply made_ok. injection E1 as E1. rewrite L' in E1.
    destruct reason as [t|]; [|discriminate]. destruct (bytes_eqb (str "trax.reason") k) eqn:B; [|discriminate]. injection E1 as <-.
    apply bytes_eqb_eq in B. subst k. unfold kv_ok. cbn [fst snd]. rewrite Hr. reflexivity.
  - exact (handle_write_sent (terminated (clear_error h)) MQuit [] (Some p) Ho).
Qed.

Lemma reason_encodes reason : reason_ok reason -> quit_reason reason = ret reason.
Proof.
  destruct reason as [t|]; [|reflexivity]. intros H. unfold quit_reason. rewrite encode_text_ok by exact H. unfold ret, pbind. cbn [obind].
  now rewrite c_string_7bit.
Qed.

Lemma quit_ok h reason : h_terminated h = false -> no_error (o_sched (h_out h)) -> reason_ok reason ->
  exists p h', session_quit false h reason = Ok (inl tt, h_server h, h') /\ clean p /\ sent (h_out h) (h_out h') (wire MQuit [] (props_enum p)) /\
    forall k, sm_lookup p k = match reason with Some t => if bytes_eqb (str "trax.reason") k then Some t else None | None => None end.
Proof.
  intros T0 Ho Hr. unfold session_quit. rewrite reason_encodes by exact Hr. unfold ret. cbn [obind].
  destruct (terminate_ok h reason T0 Ho Hr) as (p & h' & E & X). rewrite E. cbn [obind fst snd].
  change (TRAX_OK =? TRAX_ERROR) with false. rewrite andb_false_r. exists p, h'. auto.
Qed.

Lemma client_sees_quit m multi n c p reason : client_core m multi (S n) c -> ready (h_in c) (wire MQuit [] (props_enum p)) -> clean p -> reason_ok reason ->
  (forall k, sm_lookup p k = match reason with Some t => if bytes_eqb (str "trax.reason") k then Some t else None | None => None end) ->
  exists c', client_receive c = Ok (Ended reason, c') /\ is_alive c' = false.
Proof.
  intros (K1 & K2 & _ & _ & _ & _ & K3 & _) R Cl Hr L. unfold client_receive, client_wait, alive. rewrite K1, K2. cbn [negb].
  rewrite K3, Nat2Z.id. cbn [client_wait_loop].
  rewrite <- (app_nil_r (wire _ _ _)) in R.
  destruct (handle_read_wire c MQuit [] p [] Cl eq_refl R) as (r & st & E & Et & Ea & Mr & Sr & _). rewrite E. cbn [obind].
  rewrite Et, Ea. unfold copy_out.
  destruct (copy_new (rr_props r) 3 Mr (or_intror eq_refl)) as (q & Eq & Sq & Mq).
  change ALL_OVERWRITE with 3. rewrite Eq. cbn [obind]. change (TRAX_QUIT =? TRAX_ERROR) with false. change (TRAX_QUIT =? TRAX_QUIT) with true. cbn iota.
  rewrite properties_get_spec; [|now apply made_ok|apply plain_7bit; reflexivity].
  assert (Lq : sm_lookup q (enc (str "trax.reason")) = reason).
  { pose proof (proj1 (same_props_lookup _ _ (made_ok _ Mq) (made_ok _ (proj1 Cl))) (same_props_trans _ _ _ Sq Sr)) as X.
    rewrite X, L, enc_7bit, bytes_eqb_refl by reflexivity. now destruct reason. }
  rewrite Lq. destruct reason as [t|].
  - rewrite (encode_decode t t (encode_7bit t Hr)). unfold ret. cbn [obind]. eexists. split; reflexivity.
  - unfold ret. cbn [obind]. eexists. split; reflexivity.
Qed.

Lemma props_dict_empty p : sm_ok p -> (forall k, sm_lookup p k = None) -> properties_dict p = [].
Proof.
  intros O H. destruct (dict_shows p O) as [_ B]; [intros k v X; rewrite H in X; discriminate|].
  destruct (properties_dict p) as [|[k v] d]; [reflexivity|]. destruct (proj1 (B k v) (or_introl eq_refl)) as (kb & vb & _ & _ & X).
  rewrite H in X. discriminate.
Qed.
Lemma server_sees_quit m multi n s p reason fuel slack : server_core m multi n s -> 1 <= md_channels m <= 7 ->
  ready (h_in s) (wire MQuit [] (props_enum p)) -> clean p ->
  (forall k, sm_lookup p k = match reason with Some t => if bytes_eqb (str "trax.reason") k then Some t else None | None => None end) ->
  exists rq s', server_wait (S fuel) slack s = Ok (inl rq, s') /\ rq_type rq = Some (str "quit") /\ rq_images rq = None /\ rq_objects rq = None /\
    properties_dict (rq_properties rq) = [] /\ is_alive s' = false.
Proof.
  intros (K1 & K2 & K3 & _) Hc R Cl L. unfold server_wait, server_wait_mot. rewrite K1. cbn [negb]. cbv zeta. unfold alive. cbn [clear_error h_terminated].
  rewrite K2. cbn [negb]. change (h_meta (clear_error s)) with (h_meta s). rewrite K3, (count_channels _ Hc). cbn [obind wait_mot_loop].
  rewrite <- (app_nil_r (wire _ _ _)) in R.
  destruct (handle_read_wire (clear_error s) MQuit [] p [] Cl eq_refl R) as (r & st & E & Et & Ea & Mr & Sr & _).
  change (mkHandle _ _ _ _ _ _ _ _ _) with (clear_error s). rewrite E. cbn [obind].
  rewrite Et, Ea. cbn [List.length]. change (Z.of_nat 0 =? 0) with true. cbn [negb]. unfold copy_out.
  destruct (copy_external_spec (rr_props r) props_create (made_ok _ Mr) props_create_ok) as (q & Eq & Oq & Lq).
  change (Z.lor COPY_EXTERNAL COPY_OVERWRITE) with EXTERNAL_OVERWRITE in Eq. rewrite Eq. cbn [obind mot_end].
  change (TRAX_QUIT =? TRAX_QUIT) with true. cbn iota. eexists. eexists. split; [reflexivity|].
  cbn [rq_type rq_images rq_objects rq_properties]. do 3 (split; [reflexivity|]). split; [|reflexivity].
  apply props_dict_empty; [exact Oq|]. intros k. rewrite Lq. unfold over, ext_key.
  pose proof (proj1 (same_props_lookup _ _ (made_ok _ Mr) (made_ok _ (proj1 Cl))) Sr) as X. rewrite X, L.
  unfold props_create. rewrite sm_new_lookup. destruct reason as [t|].
  - destruct (bytes_eqb (str "trax.reason") k) eqn:B; [|destruct (negb _); reflexivity]. apply bytes_eqb_eq in B. subst k. reflexivity.
  - destruct (negb _); reflexivity.
Qed.

(** A request that is sent and read, but not answered yet *)
Lemma request_read legacy slack cfg m n c s r : config_ok cfg -> announces cfg m ->
  client_side m (tc_multiobject cfg) n c -> server_side m (tc_multiobject cfg) n s -> pround_ok slack cfg n r ->
  exists c1 rq s1, client_send legacy (pr_init r) c (pr_images r) (Some (given_objects (pr_objects r))) (DDict (pr_props r)) = Ok (inl tt, c1) /\
    client_core m (tc_multiobject cfg) (ptracked n r) c1 /\ h_in c1 = h_in c /\
    server_wait (3 + List.length (pr_objects r)) slack (arrive (pr_cut1 r) (written c c1) s) = Ok (inl rq, s1) /\
    server_core m (tc_multiobject cfg) (ptracked n r) s1.
Proof.
  intros K A Hc Hs (Q1 & Q2 & N0 & (shown & Im) & Ob & Pp & Ne & Tr & Mu & Le & St).
  pose proof (state_of_object cfg _ Ob) as Ob'. pose proof (proj1 (proj2 (proj2 (proj2 (proj2 (proj2 A)))))) as Hch.
  destruct (wrap_objects_ok _ Ob') as (ol & Eo & Wo). destruct (init_ok _ Pp) as (p & Ep & Hp).
  set (rd := mkRound (pr_init r) (wrap_images (pr_images r)) ol (Some p) [] (pr_cut1 r) (pr_cut2 r)).
  assert (Lo : List.length ol = List.length (pr_objects r)) by exact (both_length _ _ _ Wo).
  assert (Tk : tracked n rd = ptracked n r) by (unfold tracked, ptracked; cbn [rd rd_init rd_objects]; now rewrite Lo).
  pose proof (wrapped_objects cfg m (pr_objects r) ol A Ob Wo) as Hobj.
  assert (Hne : pr_init r = true -> ol <> []) by (intros Hi; specialize (Ne Hi); destruct Wo; congruence).
  destruct (client_send_ok legacy slack m (tc_multiobject cfg) n c rd (wrap_images shown) Hc Hch (images_to slack cfg m _ _ K A N0 Im) Hobj Hne)
    as (texts & c1 & E1 & Hc1 & I1 & T1 & S1 & X1 & X2 & X3); [now rewrite Tk|].
  cbn [rd rd_images rd_objects rd_props rd_init] in E1, S1. rewrite Tk in Hc1.
  destruct Hs as (Hs1 & Ht & Hcc & Hi & Hm & Hn & Ho & Hin).
  set (reset := pr_init r && negb (n =? 0)%nat) in *. set (bytes := reset_bytes reset ++ _) in *.
  set (s0 := arrive (pr_cut1 r) bytes s).
  assert (Hs0 : server_core m (tc_multiobject cfg) n s0) by (unfold server_core; repeat match goal with |- _ /\ _ => split end; assumption).
  assert (Hr0 : ready (h_in s0) bytes) by (now apply arrive_ready).
  assert (Htr' : ((if reset then 0 else n) + List.length ol)%nat = ptracked n r).
  { rewrite <- Tk. unfold reset, tracked. cbn [rd rd_init rd_objects]. destruct (pr_init r); [|reflexivity]. destruct n; reflexivity. }
  destruct (server_wait_ok slack m (tc_multiobject cfg) n s0 reset ol texts (Some p) (wrap_images shown) Hs0 X2 X1 X3 (sendable_state _ _ Hobj)
     (carries_clean p (pr_props r) Pp Hp)) as (s1 & l & d & E2 & Hl & Hd & Hs2 & Hr1 & O1).
  { unfold reset. intros Hx. apply andb_true_iff in Hx. now apply Hne. }
  { now rewrite Htr'. }
  { exact Hr0. }
  rewrite Htr' in Hs2. exists c1.
  assert (Esend : client_send legacy (pr_init r) c (pr_images r) (Some (given_objects (pr_objects r))) (DDict (pr_props r)) = Ok (inl tt, c1)).
  { unfold client_send, send_arguments. rewrite Eo. unfold ret, pbind, properties_reference. cbn [obind]. rewrite Ep. unfold ret. cbn [obind].
    rewrite E1. reflexivity. }
  rewrite Lo in E2.
  assert (Hob : match ol with [] => True | _ => exists l', wrap_object_list l = Ok l' end).
  { destruct Wo as [|a o l0 ol0 Wa Wl]; [exact Logic.I|].
    destruct (wrap_list_ok (a :: l0) (o :: ol0) l Ob' (Forall2_cons _ _ Wa Wl) Hl) as (sh & Es & _). eauto. }
  assert (Hnz : reset || (n =? 0)%nat = true -> ol <> []).
  { intros Hx ->. cbn [List.length] in Lo, Htr'. rewrite <- Htr' in Tr. apply orb_true_iff in Hx as [Hx|Hx]; [rewrite Hx in Tr; lia|].
    apply Nat.eqb_eq in Hx. subst n. destruct reset; lia. }
  rewrite (sent_written c c1 _ S1).
  assert (Ew : exists rq, server_wait (3 + List.length (pr_objects r)) slack s0 = Ok (inl rq, s1)).
  { unfold server_wait. rewrite E2. cbn [obind]. destruct (reset || (n =? 0)%nat).
    - change (TRAX_INITIALIZE =? TRAX_QUIT) with false. change (TRAX_INITIALIZE =? TRAX_INITIALIZE) with true. cbn iota.
      specialize (Hnz eq_refl). destruct ol as [|o ol]; [congruence|]. destruct Hob as (l' & El). rewrite El. cbn [obind]. eauto.
    - change (TRAX_FRAME =? TRAX_QUIT) with false. change (TRAX_FRAME =? TRAX_INITIALIZE) with false.
      change (TRAX_FRAME =? TRAX_FRAME) with true. cbn iota.
      destruct ol as [|o ol]; [cbn [obind]; eauto|]. destruct Hob as (l' & El). rewrite El. cbn [obind]. eauto. }
  destruct Ew as (rq & Ew). exists rq, s1. auto.
Qed.

Lemma server_quit_lemma : forall legacy slack cfg cut sched_s sched_c rs r reason, config_ok cfg -> cutter cut -> no_error sched_s -> no_error sched_c ->
  prounds_ok slack cfg 0 (rs ++ [r]) -> reason_ok reason ->
  exists c s i c' s' sns, python_connect cfg cut sched_s sched_c = ret (c, s, i) /\ pplay legacy slack c s rs = Ok (Some (c', s', sns)) /\
  exists c1 rq s1, client_send legacy (pr_init r) c' (pr_images r) (Some (given_objects (pr_objects r))) (DDict (pr_props r)) = Ok (inl tt, c1) /\
    server_wait (3 + List.length (pr_objects r)) slack (arrive (pr_cut1 r) (written c' c1) s') = Ok (inl rq, s1) /\
  exists s2 c2, session_quit false s1 reason = Ok (inl tt, true, s2) /\
    client_receive (arrive (pr_cut2 r) (written s1 s2) c1) = Ok (Ended reason, c2) /\ is_alive c2 = false /\ is_alive s2 = false.
Proof.
  intros legacy slack cfg cut sched_s sched_c rs r reason K Hcut Hs Hc Hrs Hre. destruct (metadata_made cfg K) as (m & Em & A).
  destruct (python_connects cfg m cut sched_s sched_c K Em A Hcut Hs Hc) as (c & s & i & E1 & E & D).
  destruct (metadata_fine cfg m K A) as [Hm Mu].
  destruct (connect_sides m _ cut sched_s sched_c c s Hm Mu Hcut Hs Hc E1) as [Sc Ss].
  assert (X : forall rs n, prounds_ok slack cfg n (rs ++ [r]) -> prounds_ok slack cfg n rs /\ pround_ok slack cfg (ptracked_all n rs) r).
  { clear. induction rs as [|a rs IH]; intros n H; cbn [app prounds_ok ptracked_all] in *; [tauto|]. destruct H as [H1 H2]. apply IH in H2. tauto. }
  apply X in Hrs as [Hrs Hr]. clear X.
  destruct (pplay_delivers legacy slack cfg m K A rs 0 c s Sc Ss Hrs) as (c' & s' & sns & Ep & Hp & Sc' & Ss').
  exists c, s, i, c', s', sns. split; [exact E|]. split; [exact Ep|].
  destruct (request_read legacy slack cfg m _ c' s' r K A Sc' Ss' Hr) as (c1 & rq & s1 & F1 & Cc & Ci & F2 & Cs).
  exists c1, rq, s1. split; [exact F1|]. split; [exact F2|].
  pose proof Cs as (G1 & G2 & _ & _ & _ & _ & G3).
  destruct (quit_ok s1 reason G2 G3 Hre) as (p & s2 & E2 & Cl & Se & L). rewrite G1 in E2. exists s2.
  rewrite (sent_written s1 s2 _ Se).
  assert (T : (1 <= ptracked (ptracked_all 0 rs) r)%nat) by apply Hr. destruct (ptracked _ r) as [|k] eqn:Ek in *; [lia|].
  assert (Cut2 : cutter (pr_cut2 r)) by apply Hr.
  destruct (client_sees_quit m (tc_multiobject cfg) k (arrive (pr_cut2 r) (wire MQuit [] (props_enum p)) c1) p reason)
    as (c2 & E3 & Al); [exact Cc| |exact Cl|exact Hre|exact L|].
  - apply arrive_ready; [exact Cut2|]. rewrite Ci. apply Sc'.
  - exists c2. split; [exact E2|]. split; [exact E3|]. split; [exact Al|].
    clear - E2 G2. unfold session_quit in E2. destruct (quit_reason reason) as [[b|]| | |]; try discriminate. cbn [obind] in E2.
    unfold terminate, alive in E2. cbn [clear_error h_terminated] in E2. rewrite G2 in E2. cbn [negb] in E2.
    destruct (set_optional _ _ b) as [q| | |]; try discriminate. cbn [obind fst snd] in E2.
    destruct (_ && _); try discriminate. apply (f_equal (fun x => match x with Ok (_, y) => is_alive y | _ => true end)) in E2. rewrite <- E2. reflexivity.
Qed.

Lemma client_quit_lemma : forall legacy slack cfg cut sched_s sched_c rs cut' fuel reason, config_ok cfg -> cutter cut -> no_error sched_s -> no_error sched_c ->
  prounds_ok slack cfg 0 rs -> cutter cut' -> reason_ok reason ->
  exists c s i c' s' sns, python_connect cfg cut sched_s sched_c = ret (c, s, i) /\ pplay legacy slack c s rs = Ok (Some (c', s', sns)) /\
  exists c2 rq s2, session_quit false c' reason = Ok (inl tt, false, c2) /\
    server_wait (S fuel) slack (arrive cut' (written c' c2) s') = Ok (inl rq, s2) /\
    rq_type rq = Some (str "quit") /\ rq_images rq = None /\ rq_objects rq = None /\ properties_dict (rq_properties rq) = [] /\ is_alive s2 = false.
Proof.
  intros legacy slack cfg cut sched_s sched_c rs cut' fuel reason K Hcut Hs Hc Hrs Hcut' Hre. destruct (metadata_made cfg K) as (m & Em & A).
  destruct (python_connects cfg m cut sched_s sched_c K Em A Hcut Hs Hc) as (c & s & i & E1 & E & D).
  destruct (metadata_fine cfg m K A) as [Hm Mu].
  destruct (connect_sides m _ cut sched_s sched_c c s Hm Mu Hcut Hs Hc E1) as [Sc Ss].
  destruct (pplay_delivers legacy slack cfg m K A rs 0 c s Sc Ss Hrs) as (c' & s' & sns & Ep & Hp & Sc' & Ss').
  exists c, s, i, c', s', sns. split; [exact E|]. split; [exact Ep|].
  pose proof Sc' as (G1 & G2 & _ & _ & _ & _ & _ & G3 & _).
  destruct (quit_ok c' reason G2 G3 Hre) as (p & c2 & E2 & Cl & Se & L). rewrite G1 in E2. exists c2.
  rewrite (sent_written c' c2 _ Se). destruct Ss' as (B1 & B2 & B3 & B4 & B5 & B6 & B7 & B8).
  destruct (server_sees_quit m (tc_multiobject cfg) (ptracked_all 0 rs) (arrive cut' (wire MQuit [] (props_enum p)) s') p reason fuel slack)
    as (rq & s2 & E3 & X).
  - unfold server_core. repeat match goal with |- _ /\ _ => split end; assumption.
  - exact (proj1 (proj2 (proj2 (proj2 (proj2 (proj2 A)))))).
  - now apply arrive_ready.
  - exact Cl.
  - exact L.
  - exists rq, s2. auto.
Qed.

(** ---- Unknown names, lost arguments ---- *)

Lemma encode_name_unknown codes n : ~ In n (map fst codes) -> encode_name codes n = raise IndexError.
Proof.
  intros H. unfold encode_name. destruct (find (fun nc => bytes_eqb (fst nc) n) codes) as [[a b]|] eqn:F; [|reflexivity]. exfalso. apply H.
  apply find_some in F as [F1 F2]. cbn [fst] in F2. apply bytes_eqb_eq in F2. subst a. apply in_map_iff. now exists (n, b).
Qed.
Lemma encode_names_total codes l : forall z, (incl l (map fst codes) /\ exists z', encode_names codes l z = ret z') \/
  (~ incl l (map fst codes) /\ encode_names codes l z = raise IndexError).
Proof.
  induction l as [|n l IH]; intros z; cbn [encode_names].
  - left. split; [intros x []|eauto].
  - destruct (In_dec (list_eq_dec N.eq_dec) n (map fst codes)) as [H|H].
    + assert (exists c, encode_name codes n = ret c) as (c & E).
      { unfold encode_name. destruct (find (fun nc => bytes_eqb (fst nc) n) codes) as [[a b]|] eqn:F; [eauto|]. exfalso. apply in_map_iff in H as ((a & b) & <- & H).
        apply (find_none _ _ F) in H. cbn [fst] in H. rewrite bytes_eqb_refl in H. discriminate. }
      rewrite E. unfold pbind, ret. cbn [obind]. destruct (IH (Z.lor z c)) as [[A B]|[A B]]; [left|right]; (split; [|exact B]).
      * intros x [<-|Hx]; auto.
      * intros X. apply A. intros x Hx. apply X. now right.
    + right. split; [intros X; apply H, X; now left|]. rewrite encode_name_unknown by exact H. reflexivity.
Qed.
Lemma unknown_lemma : forall cfg st o, ~ (incl (tc_regions cfg) all_regions /\ incl (tc_images cfg) all_images /\ incl (tc_channels cfg) all_channels) ->
  server_init cfg st o = raise IndexError.
Proof.
  intros cfg st o H. unfold server_init, server_metadata.
  destruct (encode_names_total region_codes (tc_regions cfg) 0) as [[A (z1 & E1)]|[A E1]]; rewrite E1; unfold pbind, ret, raise; cbn [obind]; [|reflexivity].
  destruct (encode_names_total image_codes (tc_images cfg) 0) as [[B (z2 & E2)]|[B E2]]; rewrite E2; unfold ret, raise; cbn [obind]; [|reflexivity].
  destruct (encode_names_total channel_codes (tc_channels cfg) 0) as [[C (z3 & E3)]|[C E3]]; rewrite E3; unfold ret, raise; cbn [obind]; [|reflexivity].
  elim H. auto.
Qed.

Lemma status_lost_lemma : forall h objects d, sendable_dict d -> server_status h objects (DDict d) = server_status h objects DNone.
Proof.
  intros h objects d H. destruct (init_ok _ H) as (p & E & _). unfold server_status, status_arguments. rewrite E.
  unfold properties_init, properties_reference, ret, pbind. cbn [obind]. reflexivity.
Qed.

(** ---- The sample session ---- *)

Ltac member := repeat first [left; reflexivity | right].
Lemma sample_config_ok : config_ok sample_config.
Proof.
  unfold config_ok, sample_config, custom_items, sendable_text. cbn [tc_regions tc_images tc_channels tc_name tc_description tc_family tc_custom].
  split; [intros x Hx; cbn [In] in Hx; destruct Hx as [<-|[<-|[<-|[]]]]; member|].
  split; [intros x Hx; cbn [In] in Hx; destruct Hx as [<-|[<-|[]]]; member|].
  split; [intros x Hx; cbn [In] in Hx; destruct Hx as [<-|[<-|[]]]; member|].
  split; [discriminate|]. do 3 (split; [reflexivity|]). split.
  - split; [apply nodup_check; reflexivity|]. intros k v [E|[E|[]]]; injection E as <- <-; reflexivity.
  - intros k v [E|[E|[]]]; injection E as <- <-; reflexivity.
Qed.
Lemma sample_given_reach : NoDup (map fst sample_given) /\ exists shown, images_reach 0 sample_config sample_given shown.
Proof.
  split; [apply nodup_check; reflexivity|].
  destruct (path_arrives 0 (str "/a b.jpg") _ eq_refl eq_refl) as (a & Ha & Ta & _).
  destruct (path_arrives 0 (str "/d=1.png") _ eq_refl eq_refl) as (b & Hb & Tb & _).
  exists [(str "color", a); (str "depth", b)]. split; [|split].
  - intros name Hn. cbn [sample_config tc_channels In] in Hn. destruct Hn as [<-|[<-|[]]].
    + exists (match sample_path (str "/d=1.png") with Some i => i | None => mkImage 0 0 0 0 [] end), b, (str "path").
      split; [left; reflexivity|]. split; [right; left; reflexivity|]. split; [exact Hb|]. split; [left; auto|]. right; left; reflexivity.
    + exists (match sample_path (str "/a b.jpg") with Some i => i | None => mkImage 0 0 0 0 [] end), a, (str "path").
      split; [right; left; reflexivity|]. split; [left; reflexivity|]. split; [exact Ha|]. split; [left; auto|]. right; left; reflexivity.
  - apply nodup_check. reflexivity.
  - intros name i [E|[E|[]]]; injection E as <- _; [right; left|left]; reflexivity.
Qed.
Lemma sendable_nil : sendable_dict [].
Proof. split; [constructor|intros k v []]. Qed.
Lemma given_poly d : sendable_dict d -> state_given (sample_poly, d).
Proof. intros H. split; [repeat constructor|]. split; [exact poly_sends|exact H]. Qed.
Lemma given_mask d : sendable_dict d -> state_given (sample_mask, d).
Proof. intros H. split; [cbn; repeat split; lia|]. split; [exact mask_sends|exact H]. Qed.
Lemma given_rect d : sendable_dict d -> state_given (RRect (fl 1) (fl 2) (fl 3) (fl 4), d).
Proof. intros H. split; [exact Logic.I|]. split; [exact rect_sends|exact H]. Qed.
Lemma given_special d : sendable_dict d -> state_given (RSpecial 2, d).
Proof. intros H. split; [exact Logic.I|]. split; [exact special_sends|exact H]. Qed.
Lemma object_poly d : sendable_dict d -> object_given sample_config (sample_poly, d).
Proof. intros H. split; [now apply given_poly|]. split; [discriminate|left; reflexivity]. Qed.
Lemma object_mask d : sendable_dict d -> object_given sample_config (sample_mask, d).
Proof. intros H. split; [now apply given_mask|]. split; [discriminate|right; left; reflexivity]. Qed.
Lemma small_dict l : (fix nd (l : list (list N)) : bool := match l with [] => true | x :: l' => negb (existsb (bytes_eqb x) l') && nd l' end) (map fst l) = true ->
  forallb kv_ok l = true -> sendable_dict l.
Proof. intros A B. split; [now apply nodup_check|]. rewrite forallb_forall in B. intros k v H. exact (B _ H). Qed.

Lemma sample_prounds_ok : prounds_ok 0 sample_config 0 sample_prounds.
Proof.
  destruct sample_given_reach as [Nd Im]. unfold sample_prounds. cbn [prounds_ok].
  refine (conj _ (conj _ (conj _ Logic.I))); unfold pround_ok; cbn [pr_cut1 pr_cut2 pr_images pr_objects pr_props pr_init pr_reply ptracked].
  - refine (conj byte_cutter (conj whole_cutter (conj Nd (conj Im (conj _ (conj _ (conj _ (conj _ (conj _ (conj eq_refl _)))))))))).
    + constructor; [apply object_poly, small_dict; reflexivity|]. constructor; [apply object_mask, sendable_nil|constructor].
    + apply small_dict; reflexivity.
    + discriminate.
    + unfold ptracked. cbn. lia.
    + discriminate.
    + constructor; [apply given_mask, sendable_nil|]. constructor; [apply given_special, small_dict; reflexivity|constructor].
  - refine (conj whole_cutter (conj byte_cutter (conj Nd (conj Im (conj _ (conj sendable_nil (conj _ (conj _ (conj _ (conj eq_refl _)))))))))).
    + constructor.
    + discriminate.
    + unfold ptracked. cbn. lia.
    + discriminate.
    + constructor; [apply given_mask, sendable_nil|]. constructor; [apply given_poly, sendable_nil|constructor].
  - refine (conj whole_cutter (conj byte_cutter (conj Nd (conj Im (conj _ (conj sendable_nil (conj _ (conj _ (conj _ (conj eq_refl _)))))))))).
    + constructor; [apply object_mask, sendable_nil|constructor].
    + discriminate.
    + unfold ptracked. cbn. lia.
    + discriminate.
    + constructor; [apply given_mask, sendable_nil|]. constructor; [apply given_poly, sendable_nil|]. constructor; [apply given_rect, sendable_nil|constructor].
Qed.
