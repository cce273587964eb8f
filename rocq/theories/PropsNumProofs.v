(** Proofs about numeric properties. *)
From Verif Require Import CBase StrMap Props PropsSpec StrMapProofs PropsProofs Num NumProofs DecimalProofs Decimal6Proofs PropsNum NumSpec.
Local Open Scope Z_scope.

Lemma span_inv p l a b : span p l = (a, b) -> l = a ++ b /\ all p a.
Proof.
  revert a b. induction l as [|c l IH]; intros a b H.
  - injection H as <- <-. split; [reflexivity|]. intros c [].
  - cbn in H. destruct (p c) eqn:E.
    + destruct (span p l) as [a' b'] eqn:El. injection H as <- <-. destruct (IH a' b' eq_refl) as [-> Ha].
      split; [reflexivity|]. intros d [<-|Hd]; [exact E|now apply Ha].
    + injection H as <- <-. split; [reflexivity|]. intros d [].
Qed.

Lemma read_sign_inv l s r : read_sign l = (s, r) -> exists t, sign_text t /\ l = t ++ r.
Proof.
  unfold read_sign. destruct l as [|c l]; intros H.
  - injection H as <- <-. exists []. split; [now left|reflexivity].
  - destruct (c =? 45)%N eqn:E; [|destruct (c =? 43)%N eqn:E2]; injection H as <- <-.
    + exists [45%N]. apply N.eqb_eq in E as ->. split; [right; now right|reflexivity].
    + exists [43%N]. apply N.eqb_eq in E2 as ->. split; [right; now left|reflexivity].
    + exists []. split; [now left|reflexivity].
Qed.

Lemma read_fraction_inv dig l f r : read_fraction dig l = (f, r) ->
  all dig f /\ (l = [46%N] ++ f ++ r \/ (f = [] /\ l = r)).
Proof.
  unfold read_fraction. destruct l as [|c l]; intros H.
  - injection H as <- <-. split; [intros c []|now right].
  - destruct (c =? 46)%N eqn:E.
    + apply span_inv in H as [-> Hf]. apply N.eqb_eq in E as ->. split; [exact Hf|now left].
    + injection H as <- <-. split; [intros d []|now right].
Qed.

Lemma lower_eq c k : (97 <= k <= 122)%N -> to_lower c = k -> c = k \/ c = (k - 32)%N.
Proof. unfold to_lower, is_upper. intros Hk H. destruct ((65 <=? c) && (c <=? 90))%N eqn:E; lia. Qed.

Lemma read_exponent_inv mark l ex r : (97 <= mark <= 122)%N -> read_exponent mark l = (ex, r) ->
  exists e, exponent_text mark (mark - 32) e /\ l = e ++ r.
Proof.
  intros Hm. unfold read_exponent. destruct l as [|c l]; intros H.
  - injection H as <- <-. exists []. split; [now left|reflexivity].
  - destruct (to_lower c =? mark)%N eqn:E.
    + apply N.eqb_eq in E. destruct (read_sign l) as [neg l1] eqn:Es. destruct (span is_digit l1) as [ds l2] eqn:Ed.
      apply read_sign_inv in Es as (t & Ht & ->). apply span_inv in Ed as [-> Hd].
      destruct ds as [|d ds].
      * injection H as <- <-. exists []. split; [now left|reflexivity].
      * injection H as <- <-. exists (c :: t ++ d :: ds). split; [|now rewrite <- app_assoc || (cbn; rewrite <- app_assoc; reflexivity)].
        right. exists c, t, (d :: ds). split; [now apply lower_eq|]. split; [exact Ht|]. split; [exact Hd|].
        split; [discriminate|reflexivity].
    + injection H as <- <-. exists []. split; [now left|reflexivity].
Qed.

Lemma is_hex_hex c : is_hex c = true -> hex c = true.
Proof.
  unfold is_hex, hex, dec, is_digit, to_lower, is_upper. intros H. destruct ((65 <=? c) && (c <=? 90))%N eqn:E; lia.
Qed.

(** Mantissa and exponent together. *)
Lemma body_inv dig dig' mark (val : list N -> N) s base f l v r : (97 <= mark <= 122)%N ->
  (forall c, dig c = true -> dig' c = true) ->
  (let '(ip, r1) := span dig l in
   let '(fp, r2) := read_fraction dig r1 in
   match ip ++ fp with
   | [] => None
   | ds => let '(ex, r3) := read_exponent mark r2 in
           Some (scaled_double s base (Z.of_N (val ds)) (ex - f * Z.of_nat (List.length fp)), r3)
   end) = Some (v, r) ->
  exists m e, mantissa_text dig' m /\ exponent_text mark (mark - 32) e /\ l = m ++ e ++ r.
Proof.
  intros Hm Hdig H. destruct (span dig l) as [ip r1] eqn:E1. destruct (read_fraction dig r1) as [fp r2] eqn:E2.
  apply span_inv in E1 as [-> Hi]. apply read_fraction_inv in E2 as [Hf Hr].
  destruct (ip ++ fp) as [|d ds] eqn:Ed; [discriminate H|].
  destruct (read_exponent mark r2) as [ex r3] eqn:E3. injection H as _ <-.
  apply read_exponent_inv in E3 as (e & He & ->); [|exact Hm].
  assert (Hne : ip ++ fp <> []) by (rewrite Ed; discriminate).
  assert (Hi' : all dig' ip) by (intros c Hc; apply Hdig; now apply Hi).
  assert (Hf' : all dig' fp) by (intros c Hc; apply Hdig; now apply Hf).
  destruct Hr as [->|[-> ->]].
  - exists (ip ++ [46%N] ++ fp), e. split; [exists ip, fp; repeat split; auto|]. split; [exact He|]. now rewrite <- !app_assoc.
  - exists ip, e. split; [exists ip, []; repeat split; auto; intros c []|]. split; [exact He|]. reflexivity.
Qed.

Lemma drop_word_inv w l r : drop_word w l = Some r ->
  map to_lower (firstn (List.length w) l) = w /\ l = firstn (List.length w) l ++ r.
Proof.
  unfold drop_word. destruct (bytes_eqb w (map to_lower (firstn (List.length w) l))) eqn:E; [|discriminate].
  intros H. injection H as <-. apply bytes_eqb_eq in E. split; [now symmetry|]. now rewrite firstn_skipn.
Qed.

Lemma strtod_word_inv s l v r : strtod_word s l = Some (v, r) -> exists p, word_text p /\ l = p ++ r.
Proof.
  unfold strtod_word, word_text. intros H.
  destruct (drop_word (str "infinity") l) as [r1|] eqn:E1.
  { injection H as _ ->. apply drop_word_inv in E1 as [E1 E2]. eexists. split; [right; left; exact E1|exact E2]. }
  destruct (drop_word (str "inf") l) as [r1|] eqn:E2.
  { injection H as _ ->. apply drop_word_inv in E2 as [E2 E3]. eexists. split; [left; exact E2|exact E3]. }
  destruct (drop_word (str "nan") l) as [r1|] eqn:E3; [|discriminate H].
  apply drop_word_inv in E3 as [E3 E4]. change (List.length (str "nan")) with 3%nat in *.
  assert (Plain : r1 = r -> exists p, (let w := map to_lower p in
     w = str "inf" \/ w = str "infinity" \/ w = str "nan" \/
     (exists n, map to_lower (firstn 3 p) = str "nan" /\ skipn 3 p = [40%N] ++ n ++ [41%N])) /\ l = p ++ r).
  { intros <-. exists (firstn 3 l). split; [right; right; left; exact E3|exact E4]. }
  destruct r1 as [|c r1]; [injection H as _ <-; now apply Plain|].
  destruct (c =? 40)%N eqn:Ec; [|injection H as _ <-; now apply Plain].
  destruct (span _ r1) as [n r'] eqn:Es. cbn [snd] in H.
  destruct r' as [|d r']; [injection H as _ <-; now apply Plain|].
  destruct (d =? 41)%N eqn:Ed; [|injection H as _ <-; now apply Plain].
  injection H as _ ->. apply span_inv in Es as [-> _]. apply N.eqb_eq in Ec as ->, Ed as ->.
  assert (L3 : List.length (firstn 3 l) = 3%nat).
  { apply (f_equal (@List.length N)) in E3. rewrite map_length in E3. exact E3. }
  set (q := firstn 3 l) in *. clearbody q. subst l.
  destruct q as [|q0 [|q1 [|q2 [|]]]]; try discriminate L3.
  exists ([q0; q1; q2] ++ [40%N] ++ n ++ [41%N]). split; [|cbn; now rewrite <- app_assoc].
  right; right; right. exists n. split; [exact E3|reflexivity].
Qed.

Lemma strtod_number_text l v r : strtod l = Some (v, r) -> exists p, number_text p /\ l = p ++ r.
Proof.
  unfold strtod. intros H. destruct (span is_space l) as [w l0] eqn:E0. cbn [snd] in H.
  destruct (read_sign l0) as [s l1] eqn:E1. apply span_inv in E0 as [-> Hw]. apply read_sign_inv in E1 as (t & Ht & ->).
  assert (Fin : forall b, (decimal_text b \/ hex_text b \/ word_text b) -> l1 = b ++ r ->
    exists p, number_text p /\ w ++ t ++ l1 = p ++ r).
  { intros b Hb ->. exists (w ++ t ++ b). split; [exists w, t, b; auto|now rewrite <- !app_assoc]. }
  assert (Hdec : strtod_decimal s l1 = Some (v, r) -> exists p, number_text p /\ w ++ t ++ l1 = p ++ r).
  { clear H. intros H. unfold strtod_decimal in H.
    assert (G : exists m e, mantissa_text dec m /\ exponent_text 101 69 e /\ l1 = m ++ e ++ r).
    { apply (body_inv is_digit dec 101 digits_val s 10 1 l1 v r); [lia|auto|].
      destruct (span is_digit l1) as [ip r1]. destruct (read_fraction is_digit r1) as [fp r2].
      destruct (ip ++ fp); [discriminate H|]. destruct (read_exponent 101 r2). now rewrite Z.mul_1_l. }
    destruct G as (m & e & G1 & G2 & G3). apply (Fin (m ++ e)); [left; exists m, e; auto|now rewrite <- app_assoc]. }
  destruct (strtod_word s l1) as [[v' r']|] eqn:Ew.
  { injection H as -> ->. apply strtod_word_inv in Ew as (b & Hb & Eb). apply (Fin b); [right; now right|exact Eb]. }
  destruct (drop_word (str "0x") l1) as [r1|] eqn:Ex; [|now apply Hdec].
  destruct (strtod_hex s r1) as [[v' r']|] eqn:Eh; [|now apply Hdec].
  injection H as -> ->. unfold strtod_hex in Eh.
  apply (body_inv is_hex hex 112 hex_val s 2 4) in Eh as (m & e & G1 & G2 & G3); [|lia|apply is_hex_hex].
  subst r1. apply drop_word_inv in Ex as [Ex1 Ex2]. change (List.length (str "0x")) with 2%nat in *.
  destruct l1 as [|c0 [|c1 l1]]; try discriminate Ex1. cbn [firstn map] in Ex1.
  injection Ex1 as X0 X1. change (N_of_ascii "0") with 48%N in X0. change (N_of_ascii "x") with 120%N in X1.
  assert (c0 = 48%N) as ->.
  { unfold to_lower, is_upper in X0. destruct ((65 <=? c0) && (c0 <=? 90))%N eqn:?; lia. }
  apply lower_eq in X1; [|lia]. cbn [firstn] in Ex2.
  apply (Fin ([48%N; c1] ++ m ++ e)); [|rewrite Ex2, <- !app_assoc; reflexivity].
  right; left. exists c1, m, e. auto.
Qed.

(** ---- Integer texts are read exactly ---- *)
Lemma dec_value_digits l : all dec l -> dec_value l = Z.of_N (digits_val l).
Proof.
  unfold dec_value, digits_val. change 0 with (Z.of_N 0) at 1. generalize 0%N as a.
  induction l as [|c l IH]; intros a H; [reflexivity|]. cbn [fold_left].
  rewrite <- IH by (intros d Hd; apply H; now right). f_equal.
  specialize (H c (or_introl eq_refl)). unfold dec in H. lia.
Qed.

Lemma all_forallb p l : all p l -> forallb p l = true.
Proof. intros H. apply forallb_forall. exact H. Qed.

Lemma read_int_text_stop l v rest : int_text l v -> in_int v = true -> stop rest = true ->
  exists d, strtod (l ++ rest) = Some (d, rest) /\ int_of_float d = Ok v.
Proof.
  intros (w & ds & Hw & Hd & Hne & Hl) Hv Hstop. destruct (stop_facts rest Hstop) as (S1 & S2 & S3 & S4). pose proof (dec_value_digits ds Hd) as DV.
  assert (K : exists s sg, l = w ++ sg ++ ds /\ read_sign (sg ++ ds ++ rest) = (s, ds ++ rest) /\ v = signed s (Z.of_N (digits_val ds)) /\
     (match sg ++ ds ++ rest with c :: _ => is_space c = false | [] => True end)).
  { destruct ds as [|d ds]; [congruence|].
    assert (Hd0 : dec d = true) by (apply Hd; now left). unfold dec in Hd0.
    destruct Hl as [[-> ->]|[[-> ->]|[-> ->]]]; rewrite DV.
    - exists false, []. cbn [app]. unfold read_sign, is_space.
      replace (d =? 45)%N with false by lia. replace (d =? 43)%N with false by lia. repeat split. lia.
    - exists false, [43%N]. repeat split.
    - exists true, [45%N]. repeat split. }
  destruct K as (s & sg & -> & Hs & -> & Hsp). rewrite <- !app_assoc.
  unfold strtod. rewrite span_app; [|now apply all_forallb|exact Hsp]. cbn [snd]. rewrite Hs.
  pose proof (all_forallb _ _ Hd) as Hdf. change (forallb is_digit ds = true) in Hdf.
  assert (SDec : strtod_word s (ds ++ rest) = None /\ drop_word (str "0x") (ds ++ rest) = None /\
     strtod_decimal s (ds ++ rest) = Some (scaled_double s 10 (Z.of_N (digits_val ds)) 0, rest)).
  { destruct ds as [|d ds]; [congruence|]. cbn in Hdf. apply andb_true_iff in Hdf as [Hd0 Hd1]. cbn [app].
    split; [now apply word_digit|]. split.
    - apply no_hex_prefix; [exact Hd0|]. destruct ds as [|c ds]; [exact S2|]. cbn in Hd1.
      apply andb_true_iff in Hd1 as [Hc _]. cbn [app]. now apply digit_not_x.
    - unfold strtod_decimal. change (d :: ds ++ rest) with ((d :: ds) ++ rest).
      rewrite span_app; [|cbn; now rewrite Hd0|exact S1]. rewrite S3, app_nil_r, S4. reflexivity. }
  destruct SDec as (-> & -> & ->). eexists. split; [reflexivity|].
  set (n := Z.of_N (digits_val ds)) in *. assert (0 <= n) by (unfold n; lia). clearbody n.
  destruct (Z.eq_dec n 0) as [->|]; [destruct s; reflexivity|].
  rewrite scaled_int by lia. apply int_of_double; [|exact Hv].
  unfold in_int, INT_MIN, INT_MAX, signed in Hv. destruct s; lia.
Qed.

Lemma read_int_text l v : int_text l v -> in_int v = true ->
  exists d, strtod l = Some (d, []) /\ int_of_float d = Ok v.
Proof.
  intros Hl Hv. destruct (read_int_text_stop l v [] Hl Hv eq_refl) as (d & H). rewrite app_nil_r in H. now exists d.
Qed.

(** The printed text of an int is an integer text. *)
Lemma print_Z_int_text z : int_text (print_Z z) z.
Proof.
  exists [], (print_N (Z.abs_N z)).
  assert (Hd : all dec (print_N (Z.abs_N z))).
  { pose proof (print_N_digits (Z.abs_N z)) as H. rewrite forallb_forall in H. exact H. }
  split; [intros c []|]. split; [exact Hd|]. split; [apply print_N_nonempty|].
  rewrite dec_value_digits, print_N_val, N2Z.inj_abs_N by exact Hd. unfold print_Z.
  destruct (z <? 0) eqn:E; [right; right|left]; (split; [reflexivity|lia]).
Qed.

Lemma print_Z_length z : in_int z = true -> (List.length (print_Z z) <= 11)%nat.
Proof.
  intros H. unfold in_int, INT_MIN, INT_MAX in H. rewrite print_Z_sign, app_length.
  assert (L : (List.length (print_N (Z.abs_N z)) <= 10)%nat).
  { unfold print_N. apply dec_digits_length; [|lia]. change (10 ^ N.of_nat 10)%N with 10000000000%N. lia. }
  destruct (z <? 0); cbn [List.length]; lia.
Qed.

(** A dictionary reached by any history, then one set. *)
Lemma set_then_get ops p key t : props_run ops = Ok p ->
  exists p', props_set p key t = Ok p' /\ props_get p' key = Ok (Some t) /\
    (forall k, bytes_eqb key k = false -> props_get p' k = props_get p k) /\ sm_ok p' /\ sm_ok p.
Proof.
  intros E. destruct (props_run_spec ops) as (p1 & E1 & Hok & _). rewrite E in E1. injection E1 as <-.
  destruct (sm_put_spec p key t Hok) as (m & Em & Hm & _ & Hl). exists m. split; [exact Em|].
  split.
  - rewrite props_get_spec by exact Hm. rewrite Hl. unfold pm_set.
    replace (bytes_eqb key key) with true; [reflexivity|]. symmetry. now apply bytes_eqb_eq.
  - split; [|split; assumption]. intros k Hk. rewrite !props_get_spec by assumption. rewrite Hl. unfold pm_set. now rewrite Hk.
Qed.

Lemma int_round_trip ops p key v def : props_run ops = Ok p -> in_int v = true ->
  exists p', props_set_int p key v = Ok p' /\ props_get_int p' key def = Ok v /\
    (forall k, bytes_eqb key k = false -> props_get p' k = props_get p k).
Proof.
  intros E Hv. destruct (set_then_get ops p key (print_Z v) E) as (p' & E1 & G & O & _).
  exists p'. split; [|split; [|exact O]].
  - unfold props_set_int, sprintf_tmp. pose proof (print_Z_length v Hv).
    replace (Nat.leb (S (List.length (print_Z v))) 128) with true by (symmetry; apply Nat.leb_le; lia). exact E1.
  - unfold props_get_int. rewrite G. cbn [obind].
    destruct (read_int_text (print_Z v) v (print_Z_int_text v) Hv) as (d & Es & Ei). rewrite Es, Ei.
    destruct (print_Z v) as [|c t] eqn:Ep; [|reflexivity].
    exfalso. unfold print_Z in Ep. destruct (v <? 0); [discriminate Ep|]. now apply print_N_nonempty in Ep.
Qed.

Lemma int_default ops p key def : props_run ops = Ok p -> pm_run ops key = None -> props_get_int p key def = Ok def.
Proof.
  intros E H. destruct (props_run_spec ops) as (p1 & E1 & Hok & Hl). rewrite E in E1. injection E1 as <-.
  unfold props_get_int. rewrite props_get_spec by exact Hok. rewrite Hl, H. reflexivity.
Qed.

Lemma int_of_text ops p key t v def : props_run ops = Ok p -> pm_run ops key = Some t -> int_text t v -> in_int v = true ->
  props_get_int p key def = Ok v.
Proof.
  intros E H Ht Hv. destruct (props_run_spec ops) as (p1 & E1 & Hok & Hl). rewrite E in E1. injection E1 as <-.
  unfold props_get_int. rewrite props_get_spec by exact Hok. rewrite Hl, H. cbn [obind].
  destruct (read_int_text t v Ht Hv) as (d & Es & Ei). rewrite Es, Ei.
  destruct t; [|reflexivity]. exfalso. destruct Ht as (w & ds & _ & _ & Hne & Hl').
  destruct Hl' as [[Hx _]|[[Hx _]|[Hx _]]]; symmetry in Hx; apply app_eq_nil in Hx as [_ Hx]; (discriminate Hx || congruence).
Qed.

(** A text that neither is nor begins with a number gives the default. *)
Lemma int_not_number ops p key t def : props_run ops = Ok p -> pm_run ops key = Some t -> t <> [] ->
  (forall a b, t = a ++ b -> ~ number_text a) -> props_get_int p key def = Ok def.
Proof.
  intros E H Hne Hn. destruct (props_run_spec ops) as (p1 & E1 & Hok & Hl). rewrite E in E1. injection E1 as <-.
  unfold props_get_int. rewrite props_get_spec by exact Hok. rewrite Hl, H. cbn [obind].
  destruct t as [|c t]; [congruence|]. destruct (strtod (c :: t)) as [[d r]|] eqn:Es; [|reflexivity].
  apply strtod_number_text in Es as (a & Ha & Ea). exfalso. exact (Hn a r Ea Ha).
Qed.

Lemma float_not_number ops p key t def : props_run ops = Ok p -> pm_run ops key = Some t -> t <> [] ->
  ~ number_text t -> props_get_float p key def = Ok def.
Proof.
  intros E H Hne Hn. destruct (props_run_spec ops) as (p1 & E1 & Hok & Hl). rewrite E in E1. injection E1 as <-.
  unfold props_get_float. rewrite props_get_spec by exact Hok. rewrite Hl, H. cbn [obind].
  destruct t as [|c t]; [congruence|]. destruct (strtod (c :: t)) as [[d r]|] eqn:Es; [|reflexivity].
  destruct r; [|reflexivity]. apply strtod_number_text in Es as (a & Ha & Ea). rewrite app_nil_r in Ea. exfalso. apply Hn. now rewrite Ea.
Qed.

(** An integer in range followed by something that cannot continue a number gives the default. *)
Lemma int_with_tail ops p key a v c b def : props_run ops = Ok p -> pm_run ops key = Some (a ++ c :: b) ->
  int_text a v -> in_int v = true -> stop (c :: b) = true -> props_get_int p key def = Ok def.
Proof.
  intros E H Ha Hv Hs. destruct (props_run_spec ops) as (p1 & E1 & Hok & Hl). rewrite E in E1. injection E1 as <-.
  unfold props_get_int. rewrite props_get_spec by exact Hok. rewrite Hl, H. cbn [obind].
  destruct (read_int_text_stop a v (c :: b) Ha Hv Hs) as (d & Es & Ei). rewrite Es, Ei.
  destruct (a ++ c :: b) eqn:Ex; [destruct a; discriminate Ex|reflexivity].
Qed.

(** ---- Float properties ---- *)
Lemma dround6_bound x : valid_binary 24 128 x = true -> 0 <= dround 6 x < 10 ^ 45.
Proof.
  intros HV. destruct x as [| | |s m e]; cbn [dround]; try lia.
  destruct (valid_bounds s m e HV) as (Hm & He & _).
  split; [apply decimal_round_nonneg; lia|]. unfold decimal_round.
  set (a := Z.pos m) in *. assert (Ha : 0 < a < 2 ^ 24) by (unfold a in *; lia). clearbody a.
  assert (P : 0 < 2 ^ Z.max 0 (- e)) by (apply pow2_pos, Z.le_max_l).
  apply Z.le_lt_trans with (2 ^ 24 * 10 ^ 6 * 2 ^ 104); [|reflexivity].
  apply rne_mono_upper; [exact P|].
  assert (Q : 2 ^ Z.max 0 e <= 2 ^ 104) by (apply Z.pow_le_mono_r; lia).
  assert (Q0 : 0 < 2 ^ Z.max 0 e) by (apply pow2_pos, Z.le_max_l).
  set (x := 2 ^ Z.max 0 e) in *. set (y := 2 ^ Z.max 0 (- e)) in *. clearbody x y.
  assert (R : a * 10 ^ 6 * x <= 2 ^ 24 * 10 ^ 6 * 2 ^ 104) by (apply Z.mul_le_mono_nonneg; lia).
  set (B := 2 ^ 24 * 10 ^ 6 * 2 ^ 104) in *. assert (0 < B) by reflexivity. clearbody B. nia.
Qed.

Lemma pad_digits_length k n : forall acc, List.length (pad_digits k n acc) = (k + List.length acc)%nat.
Proof. revert n. induction k as [|k IH]; intros n acc; [reflexivity|]. cbn [pad_digits]. rewrite IH. cbn [List.length]. lia. Qed.

Lemma print_float6_length x : finite_float x -> (List.length (print_float 6 x) < 128)%nat /\ print_float 6 x <> [].
Proof.
  intros [HV HF]. assert (F : finite x = true) by (destruct x; try contradiction; reflexivity).
  rewrite print_float_finite by exact F. change (Z.of_nat 6) with 6. pose proof (dround6_bound x HV) as B.
  unfold print_fixed. set (D := Z.to_N (dround 6 x)). assert (HD : (D < 10 ^ 45)%N) by (unfold D; lia). clearbody D.
  assert (L : (List.length (print_N (D / 10 ^ N.of_nat 6)) <= 39)%nat).
  { unfold print_N. apply dec_digits_length; [|lia]. apply N.div_lt_upper_bound; [discriminate|].
    eapply N.lt_le_trans; [exact HD|]. now vm_compute. }
  split.
  - rewrite !app_length, pad_digits_length. cbn [List.length]. destruct (sign x); cbn [List.length]; lia.
  - destruct (sign x); [discriminate|]. cbn [app]. intros H. apply app_eq_nil in H as [H _]. now apply print_N_nonempty in H.
Qed.

Lemma strtod_print_float x : finite x = true -> strtod (print_float 6 x) = Some (atof (print_float 6 x), []).
Proof.
  intros F. unfold atof. pose proof (strtod_print_fixed 6 (sign x) (dround (Z.of_nat 6) x) []) as P.
  rewrite app_nil_r in P. rewrite print_float_finite by exact F. rewrite P; [reflexivity| |reflexivity].
  destruct x; cbn [dround]; try lia. apply decimal_round_nonneg; lia.
Qed.

Lemma float_round_trip ops p key x def : props_run ops = Ok p -> finite_float x ->
  exists p' y, props_set_float p key x = Ok p' /\ props_get_float p' key def = Ok y /\
    closer_than 1000000 y x /\ (at_least 16 x -> units y = units x) /\ (exists p'', props_set_float p' key y = Ok p'' /\
    props_get p'' key = props_get p' key) /\
    (forall k, bytes_eqb key k = false -> props_get p' k = props_get p k).
Proof.
  intros E Hx. destruct (print_float6_length x Hx) as [L NE].
  destruct (set_then_get ops p key (print_float 6 x) E) as (p' & E1 & G & O & Hok' & _).
  destruct Hx as [HV HF]. assert (F : finite x = true) by (destruct x; try contradiction; reflexivity).
  pose proof (reread6_spec x [] HV F eq_refl) as R. cbv zeta in R. rewrite app_nil_r in R.
  set (y := float_of_double (atof (print_float 6 x))) in *. destruct R as (R1 & R2 & R3 & R4).
  assert (S1 : props_set_float p key x = Ok p').
  { unfold props_set_float, sprintf_tmp.
    replace (Nat.leb (S (List.length (print_float 6 x))) 128) with true by (symmetry; apply Nat.leb_le; lia). exact E1. }
  exists p', y. split; [exact S1|]. split; [|split; [|split; [|split; [|exact O]]]].
  - unfold props_get_float. rewrite G. cbn [obind]. rewrite strtod_print_float by exact F.
    destruct (print_float 6 x); [congruence|reflexivity].
  - exact R3.
  - intros A. apply R4. replace (2 ^ (4 + SH)) with (16 * 2 ^ 1074); [exact A|].
    rewrite Z.pow_add_r by (unfold SH; lia). reflexivity.
  - destruct (sm_put_spec p' key (print_float 6 x) Hok') as (m & Em & Hm & _ & Hl). exists m. split.
    + unfold props_set_float, sprintf_tmp. rewrite R2.
      replace (Nat.leb (S (List.length (print_float 6 x))) 128) with true by (symmetry; apply Nat.leb_le; lia). exact Em.
    + rewrite G. rewrite props_get_spec by exact Hm. rewrite Hl. unfold pm_set.
      replace (bytes_eqb key key) with true; [reflexivity|]. symmetry. now apply bytes_eqb_eq.
Qed.

Lemma int_then_junk ops p key a v c b def : props_run ops = Ok p -> pm_run ops key = Some (a ++ c :: b) ->
  int_text a v -> in_int v = true -> ~ In c (str "0123456789.eExX") -> props_get_int p key def = Ok def.
Proof.
  intros E H Ha Hv Hc. apply (int_with_tail ops p key a v c b def E H Ha Hv).
  cbn in Hc. cbn [stop]. unfold is_digit, to_lower, is_upper.
  destruct ((65 <=? c) && (c <=? 90))%N eqn:U; lia.
Qed.

(** Every number text begins with a space, a sign, a digit, a point, or the i or n of inf and nan. *)
Lemma number_text_head a : number_text a -> exists c r, a = c :: r /\
  (white c || dec c || (c =? 43) || (c =? 45) || (c =? 46) || (to_lower c =? 105) || (to_lower c =? 110))%N = true.
Proof.
  assert (B : forall b, decimal_text b \/ hex_text b \/ word_text b -> exists c r, b = c :: r /\
    (dec c || (c =? 46) || (to_lower c =? 105) || (to_lower c =? 110))%N = true).
  { intros b [(m & e & (i & f & Hi & Hf & Hne & Hm) & _ & ->)|[(x & m & e & _ & _ & _ & ->)|Hw]].
    - destruct i as [|c i].
      + destruct Hm as [->|[-> _]]; [|now elim Hne]. exists 46%N, (f ++ e). now split.
      + assert (dec c = true) as Hc by (apply Hi; now left).
        destruct Hm as [->|[_ ->]]; eexists c, _; (split; [reflexivity|now rewrite Hc]).
    - exists 48%N, (x :: m ++ e). now split.
    - unfold word_text in Hw. destruct b as [|c b]; [destruct Hw as [H|[H|[H|(n & H & _)]]]; discriminate H|].
      exists c, b. split; [reflexivity|].
      destruct Hw as [H|[H|[H|(n & H & _)]]]; cbn [map firstn] in H; injection H as H _;
        rewrite H; change (N_of_ascii "i") with 105%N; change (N_of_ascii "n") with 110%N; cbn [N.eqb Pos.eqb]; now rewrite !orb_true_r. }
  intros (w & s & b & Hw & Hs & Hb & ->). destruct w as [|c w].
  - destruct Hs as [->|[->| ->]].
    + destruct (B b Hb) as (c & r & -> & H). exists c, r. split; [reflexivity|].
      destruct (dec c), (c =? 46)%N, (to_lower c =? 105)%N, (to_lower c =? 110)%N; try discriminate H; now rewrite ?orb_true_r.
    + exists 43%N, b. now split.
    + exists 45%N, b. now split.
  - exists c, (w ++ s ++ b). split; [reflexivity|]. rewrite (Hw c) by now left. reflexivity.
Qed.
