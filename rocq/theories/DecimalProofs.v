(** Printing a float with four decimals and reading it back. *)
From Verif Require Import CBase Num NumProofs.
Local Open Scope Z_scope.

(** The single-precision values, as in IEEE 754. *)
Lemma valid_bounds s m e : valid_binary 24 128 (S754_finite s m e) = true ->
  Z.pos m < 2 ^ 24 /\ -149 <= e <= 104 /\ (2 ^ 23 <= Z.pos m \/ e = -149).
Proof.
  cbn [valid_binary]. unfold bounded, canonical_mantissa, fexp, emin. intros H.
  apply andb_true_iff in H as [H1 H2]. apply Zeq_bool_eq in H1. apply Zle_bool_imp_le in H2.
  assert (G : 2 ^ (Z.pos (digits2_pos m) - 1) <= Z.pos m < 2 ^ Z.pos (digits2_pos m)).
  { clear. induction m as [m IH|m IH|]; cbn [digits2_pos]; [| |split; reflexivity || lia];
      rewrite Pos2Z.inj_succ; (replace (Z.succ (Z.pos (digits2_pos m)) - 1) with (Z.succ (Z.pos (digits2_pos m) - 1)) by lia);
      rewrite !Z.pow_succ_r by lia; lia. }
  set (d := Z.pos (digits2_pos m)) in *. assert (Hd : d <= 24) by lia.
  assert (2 ^ d <= 2 ^ 24) by (apply Z.pow_le_mono_r; lia).
  split; [lia|]. split; [lia|].
  destruct (Z.eq_dec d 24) as [E|]; [left; rewrite E in G; lia|right; lia].
Qed.

(** The printed digits, for finite numbers. *)
Definition dround (k : Z) (x : spec_float) : Z :=
  match x with S754_finite _ m e => decimal_round k (Z.pos m) e | _ => 0 end.
Lemma print_float_finite k x : finite x = true -> print_float k x = print_fixed k (sign x) (dround (Z.of_nat k) x).
Proof. destruct x; try discriminate; reflexivity. Qed.

Lemma decimal_ratio k m e : - SH <= e -> 0 <= k ->
  (m * 10 ^ k * 2 ^ Z.max 0 e) * 2 ^ SH = 2 ^ Z.max 0 (- e) * (10 ^ k * (m * 2 ^ (e + SH))).
Proof. intros. rewrite finite_ratio by assumption. ring. Qed.

Lemma decimal_round_near k m e : - SH <= e -> 0 <= k ->
  Z.abs (2 * (10 ^ k * (m * 2 ^ (e + SH)) - decimal_round k m e * 2 ^ SH)) <= 2 ^ SH.
Proof.
  intros He Hk. unfold decimal_round. pose proof (pow2_pos (Z.max 0 (- e)) (Z.le_max_l _ _)) as Hb.
  pose proof (rne_bound (m * 10 ^ k * 2 ^ Z.max 0 e) _ Hb) as R. pose proof (decimal_ratio k m e He Hk) as G.
  pose proof (pow2_pos SH ltac:(unfold SH; lia)) as P.
  set (a := m * 10 ^ k * 2 ^ Z.max 0 e) in *. set (b := 2 ^ Z.max 0 (- e)) in *. set (D := rne a b) in *.
  set (V := 10 ^ k * (m * 2 ^ (e + SH))) in *. set (U := 2 ^ SH) in *. clearbody a b D V U.
  apply Z.abs_le in R. apply Z.abs_le. nia.
Qed.
Lemma decimal_round_unique k m e D : - SH <= e -> 0 <= k ->
  Z.abs (2 * (10 ^ k * (m * 2 ^ (e + SH)) - D * 2 ^ SH)) < 2 ^ SH -> decimal_round k m e = D.
Proof.
  intros He Hk H. unfold decimal_round. pose proof (pow2_pos (Z.max 0 (- e)) (Z.le_max_l _ _)) as Hb.
  apply rne_unique; [exact Hb|]. pose proof (decimal_ratio k m e He Hk) as G.
  pose proof (pow2_pos SH ltac:(unfold SH; lia)) as P.
  set (a := m * 10 ^ k * 2 ^ Z.max 0 e) in *. set (b := 2 ^ Z.max 0 (- e)) in *.
  set (V := 10 ^ k * (m * 2 ^ (e + SH))) in *. set (U := 2 ^ SH) in *. clearbody a b V U.
  apply Z.abs_lt in H. apply Z.abs_lt. nia.
Qed.
Lemma decimal_round_nonneg k m e : 0 <= m -> 0 <= k -> 0 <= decimal_round k m e.
Proof.
  intros Hm Hk. unfold decimal_round. apply rne_nonneg; [|apply pow2_pos; lia].
  apply Z.mul_nonneg_nonneg; [apply Z.mul_nonneg_nonneg; [exact Hm|apply Z.pow_nonneg; lia]|].
  apply Z.pow_nonneg. lia.
Qed.

(** The text printed is read as the ratio D / 10^k. *)
Lemma strtod_print_fixed k (s : bool) D rest : 0 <= D -> stop rest = true ->
  strtod (print_fixed k s D ++ rest) = Some (scaled_double s 10 D (- Z.of_nat k), rest).
Proof.
  intros HD Hs. unfold print_fixed.
  destruct (pad_digits_spec k (Z.to_N D mod 10 ^ N.of_nat k)%N []) as (fs & E & Hl & Hf & Hv).
  { apply N.mod_lt. apply N.pow_nonzero. lia. }
  rewrite E, app_nil_r.
  replace (((if s then [45%N] else []) ++ print_N (Z.to_N D / 10 ^ N.of_nat k) ++ [46%N] ++ fs) ++ rest)
    with ((if s then [45%N] else []) ++ print_N (Z.to_N D / 10 ^ N.of_nat k) ++ [46%N] ++ fs ++ rest)
    by (rewrite <- !app_assoc; reflexivity).
  rewrite strtod_fixed_point; auto using print_N_digits, print_N_nonempty.
  rewrite digits_val_app, print_N_val, Hl, Hv.
  replace (Z.to_N D / 10 ^ N.of_nat k * 10 ^ N.of_nat k + Z.to_N D mod 10 ^ N.of_nat k)%N with (Z.to_N D).
  - now rewrite Z2N.id by exact HD.
  - rewrite N.mul_comm. apply N.div_mod. apply N.pow_nonzero. lia.
Qed.

(** What reading a printed float gives. *)
Definition reread (k : nat) (x : spec_float) : spec_float := float_of_double (atof (print_float k x)).

Lemma atof_print k x rest : finite x = true -> stop rest = true ->
  atof (print_float k x ++ rest) = scaled_double (sign x) 10 (dround (Z.of_nat k) x) (- Z.of_nat k).
Proof.
  intros Hf Hs. unfold atof. rewrite print_float_finite by exact Hf. rewrite strtod_print_fixed; auto.
  destruct x; cbn [dround]; try lia. apply decimal_round_nonneg; lia.
Qed.

Lemma sgn_sq (s : bool) z : (if s then -1 else 1) * ((if s then -1 else 1) * z) = z.
Proof. destruct s; lia. Qed.

(** The value of a double as a ratio. *)
Lemma float_of_double_error s m e j : - SH <= e -> -149 <= j - 24 -> j < 128 ->
  Z.pos m * 2 ^ (e + SH) < 2 ^ (j + SH) ->
  let y := float_of_double (S754_finite s m e) in
  finite y = true /\ sign y = s /\
  Z.abs (2 * (fixed (S754_finite s m e) - fixed y)) <= 2 ^ (j - 24 + SH).
Proof.
  intros He Hj1 Hj2 Hlt. cbv zeta. unfold float_of_double.
  pose proof (pow2_pos (Z.max 0 (- e)) (Z.le_max_l _ _)) as Pd. pose proof (pow2_pos (Z.max 0 e) (Z.le_max_l _ _)) as Pn.
  pose proof (finite_ratio (Z.pos m) e He) as G.
  assert (QQ : Z.pos m * 2 ^ Z.max 0 e * 2 ^ SH < 2 ^ Z.max 0 (- e) * 2 ^ (j + SH))
    by (rewrite G; apply Z.mul_lt_mono_pos_l; lia).
  destruct (round_ratio_error 24 128 s (Z.pos m * 2 ^ Z.max 0 e) (2 ^ Z.max 0 (- e)) j ltac:(lia) ltac:(unfold fmin, SH; lia)
    ltac:(apply Z.mul_pos_pos; lia) ltac:(lia) ltac:(unfold fmin; lia) ltac:(lia) QQ) as (F & S & B).
  split; [exact F|]. split; [exact S|].
  rewrite G in B. cbn [fixed].
  set (y := fixed (round_ratio _ _ _ _ _)) in *. set (V := Z.pos m * 2 ^ (e + SH)) in *.
  set (d := 2 ^ Z.max 0 (- e)) in *. set (Q := 2 ^ (j - 24 + SH)) in *. clearbody y V d Q.
  clear - B Pd. apply Z.abs_le in B. apply Z.abs_le. destruct s; nia.
Qed.

Lemma sgn_abs (s : bool) z : Z.abs ((if s then -1 else 1) * z) = Z.abs z.
Proof. destruct s; lia. Qed.

(** Small numbers (below 1024): the reread value is close to the printed decimal. *)
Lemma reread_small (s : bool) D : 0 < D < 10000 * 2 ^ 10 ->
  let y := float_of_double (scaled_double s 10 D (-4)) in
  finite y = true /\ sign y = s /\
  Z.abs (2 * (10000 * fixed y - (if s then -1 else 1) * (D * 2 ^ SH))) < 2 ^ SH.
Proof.
  intros HD. cbv zeta. unfold scaled_double, to_double. replace (D =? 0) with false by lia.
  change (0 <=? -4) with false. change (- (-4)) with 4. change (10 ^ 4) with 10000.
  assert (HP : 2 ^ SH = 2 ^ 53 * 2 ^ (SH - 53)) by (rewrite <- Z.pow_add_r by (unfold SH; lia); f_equal; lia).
  assert (H10 : 2 ^ (10 + SH) = 2 ^ 63 * 2 ^ (SH - 53)) by (rewrite <- Z.pow_add_r by (unfold SH; lia); f_equal; lia).
  assert (H43 : 2 ^ (10 - 53 + SH) = 2 ^ 10 * 2 ^ (SH - 53)) by (rewrite <- Z.pow_add_r by (unfold SH; lia); f_equal; lia).
  assert (H11 : 2 ^ (11 + SH) = 2 ^ 64 * 2 ^ (SH - 53)) by (rewrite <- Z.pow_add_r by (unfold SH; lia); f_equal; lia).
  assert (H14 : 2 ^ (10 - 24 + SH) = 2 ^ 39 * 2 ^ (SH - 53)) by (rewrite <- Z.pow_add_r by (unfold SH; lia); f_equal; lia).
  pose proof (pow2_pos (SH - 53) ltac:(unfold SH; lia)) as PU. set (U := 2 ^ (SH - 53)) in *.
  assert (QQ : D * 2 ^ SH < 10000 * 2 ^ (10 + SH)) by (rewrite HP, H10; clearbody U; nia).
  destruct (round_ratio_error 53 1024 s D 10000 10 ltac:(lia) ltac:(unfold fmin, SH; lia) ltac:(lia) ltac:(lia)
    ltac:(unfold fmin; lia) ltac:(lia) QQ) as (F & S & B).
  rewrite H43, HP in B.
  destruct (round_ratio 53 1024 s D 10000) as [s'| | |s' m e] eqn:E; try discriminate F; cbn [sign] in S; subst s'.
  { exfalso. cbn [fixed] in B. clearbody U. clear - B PU HD. apply Z.abs_le in B. destruct s; nia. }
  assert (He : - SH <= e).
  { apply round_ratio_valid in E as (_ & E & _); unfold fmin, SH in *; lia. }
  assert (V : 10000 * (Z.pos m * 2 ^ (e + SH)) < 10000 * (2 ^ 63 * U)).
  { cbn [fixed] in B. set (W := Z.pos m * 2 ^ (e + SH)) in *. clearbody U W. clear - B PU HD.
    apply Z.abs_le in B. destruct s; nia. }
  destruct (float_of_double_error s m e 10 He ltac:(lia) ltac:(lia)) as (F2 & S2 & B2).
  { rewrite H10. lia. }
  split; [exact F2|]. split; [exact S2|]. rewrite H14 in B2. rewrite HP.
  set (y := fixed (float_of_double _)) in *. set (z := fixed (S754_finite s m e)) in *. clearbody y z U.
  clear - B B2 PU. apply Z.abs_le in B, B2. apply Z.abs_lt.
  set (w := (if s then -1 else 1) * (D * (2 ^ 53 * U))) in *. clearbody w. lia.
Qed.

(** Large numbers (1024 and above): the reread value is the original one. *)
Lemma reread_large (s : bool) m e : valid_binary 24 128 (S754_finite s m e) = true -> -13 <= e ->
  exists m' e', float_of_double (scaled_double s 10 (decimal_round 4 (Z.pos m) e) (-4)) = S754_finite s m' e' /\
    Z.pos m' * 2 ^ (e' + SH) = Z.pos m * 2 ^ (e + SH) /\ -149 <= e'.
Proof.
  intros HV He. destruct (valid_bounds s m e HV) as (Hm & He2 & Hm2).
  assert (Hm3 : 2 ^ 23 <= Z.pos m) by (destruct Hm2; lia). clear Hm2.
  set (D := decimal_round 4 (Z.pos m) e).
  pose proof (decimal_round_near 4 (Z.pos m) e ltac:(unfold SH; lia) ltac:(lia)) as Near. fold D in Near.
  change (10 ^ 4) with 10000 in *.
  assert (HSe : 2 ^ (e + 13 + (SH - 13)) = 2 ^ (e + 13) * 2 ^ (SH - 13)) by (apply Z.pow_add_r; unfold SH; lia).
  replace (e + 13 + (SH - 13)) with (e + SH) in HSe by lia.
  assert (HS : 2 ^ SH = 8192 * 2 ^ (SH - 13)).
  { change 8192 with (2 ^ 13). rewrite <- Z.pow_add_r by (unfold SH; lia). f_equal. }
  pose proof (pow2_pos (SH - 13) ltac:(unfold SH; lia)) as PU.
  pose proof (pow2_pos (e + 13) ltac:(lia)) as Pe.
  assert (HDpos : 0 < D).
  { pose proof (decimal_round_nonneg 4 (Z.pos m) e ltac:(lia) ltac:(lia)) as D0. fold D in D0.
    destruct (Z.eq_dec D 0) as [E0|]; [exfalso|lia]. rewrite E0, HS, HSe in Near.
    set (U := 2 ^ (SH - 13)) in *. set (Q := 2 ^ (e + 13)) in *. clearbody U Q. clear - Near PU Pe Hm3.
    apply Z.abs_le in Near. assert (U <= Q * U) by nia. nia. }
  unfold scaled_double, to_double. replace (D =? 0) with false by lia.
  change (0 <=? -4) with false. change (- (-4)) with 4. change (10 ^ 4) with 10000.
  destruct (Z.eq_dec (10000 * (Z.pos m * 2 ^ (e + SH))) (D * 2 ^ SH)) as [Ex|Ne].
  - (* the decimal is exact *)
    destruct (round_ratio_exact 53 1024 s D 10000 (Z.pos m) e) as (mz & ez & Z1 & Z2 & Z3 & _);
      try (unfold fmin, SH; lia); try lia.
    rewrite Z1.
    destruct (float_of_double_exact s mz ez (Z.pos m) e) as (m' & e' & Y1 & Y2 & Y3 & _); try lia.
    { unfold fmin, SH in *. lia. }
    exists m', e'. split; [exact Y1|]. split; [exact Y2|lia].
  - (* not exact: e < 0 and m > 2^23 *)
    assert (He0 : e < 0).
    { destruct (Z.lt_ge_cases e 0) as [|Hge]; [assumption|exfalso]. apply Ne.
      assert (DE : D = Z.pos m * 2 ^ e * 10000).
      { apply decimal_round_unique; [unfold SH; lia|lia|]. change (10 ^ 4) with 10000.
        rewrite (Z.pow_add_r 2 e) by (unfold SH; lia).
        replace (10000 * (Z.pos m * (2 ^ e * 2 ^ SH)) - Z.pos m * 2 ^ e * 10000 * 2 ^ SH) with 0 by ring.
        cbn [Z.mul Z.abs]. rewrite HS. lia. }
      rewrite DE, (Z.pow_add_r 2 e) by (unfold SH; lia). ring. }
    assert (Hm4 : 2 ^ 23 < Z.pos m).
    { destruct (Z.eq_dec (Z.pos m) (2 ^ 23)) as [Em|]; [exfalso|lia]. apply Ne.
      assert (PP : Z.pos m * 2 ^ (e + SH) = 2 ^ (23 + e) * 2 ^ SH).
      { rewrite Em, <- !Z.pow_add_r by (unfold SH; lia). f_equal. lia. }
      assert (DE : D = 2 ^ (23 + e) * 10000).
      { apply decimal_round_unique; [unfold SH; lia|lia|]. change (10 ^ 4) with 10000. rewrite PP.
        replace (10000 * (2 ^ (23 + e) * 2 ^ SH) - 2 ^ (23 + e) * 10000 * 2 ^ SH) with 0 by ring.
        cbn [Z.mul Z.abs]. rewrite HS. lia. }
      rewrite DE, PP. ring. }
    (* everything in units of P = 2^(e+SH-29) *)
    assert (P0 : 2 ^ (e + SH) = 2 ^ 29 * 2 ^ (e + SH - 29)) by (rewrite <- Z.pow_add_r by (unfold SH; lia); f_equal; lia).
    assert (P1 : 2 ^ (e + 24 + SH) = 2 ^ 53 * 2 ^ (e + SH - 29)) by (rewrite <- Z.pow_add_r by (unfold SH; lia); f_equal; lia).
    assert (P2 : 2 ^ (e + 24 - 53 + SH) = 2 ^ (e + SH - 29)) by (f_equal; lia).
    assert (P3 : 2 ^ (24 - 1 + e + SH) = 2 ^ 52 * 2 ^ (e + SH - 29)) by (rewrite <- Z.pow_add_r by (unfold SH; lia); f_equal; lia).
    assert (P5 : 2 ^ (24 + e + SH) = 2 ^ 53 * 2 ^ (e + SH - 29)) by (rewrite <- Z.pow_add_r by (unfold SH; lia); f_equal; lia).
    assert (P4 : 2 ^ SH <= 8192 * (2 ^ 29 * 2 ^ (e + SH - 29))).
    { rewrite <- P0, HS, HSe. set (U := 2 ^ (SH - 13)) in *. set (Q := 2 ^ (e + 13)) in *. clearbody U Q.
      clear - PU Pe. nia. }
    pose proof (pow2_pos (e + SH - 29) ltac:(unfold SH; lia)) as PP. set (P := 2 ^ (e + SH - 29)) in *.
    pose proof (pow2_pos SH ltac:(unfold SH; lia)) as PS.
    rewrite P0 in Near. apply Z.abs_le in Near.
    assert (MP : Z.pos m * P <= (2 ^ 24 - 1) * P) by (apply Z.mul_le_mono_nonneg_r; lia).
    assert (MP2 : (2 ^ 23 + 1) * P <= Z.pos m * P) by (apply Z.mul_le_mono_nonneg_r; lia).
    (* the double *)
    assert (QQ : D * 2 ^ SH < 10000 * 2 ^ (e + 24 + SH)).
    { rewrite P1. clearbody P. set (W := D * 2 ^ SH) in *. clearbody W.
      set (U := 2 ^ SH) in *. clearbody U. clear - Near MP PP P4. lia. }
    destruct (round_ratio_error 53 1024 s D 10000 (e + 24) ltac:(lia) ltac:(unfold fmin, SH; lia) ltac:(lia) ltac:(lia)
      ltac:(unfold fmin; lia) ltac:(lia) QQ) as (F & S & B).
    rewrite P2 in B.
    destruct (round_ratio 53 1024 s D 10000) as [s'| | |s' mz ez] eqn:E; try discriminate F; cbn [sign] in S; subst s'.
    { exfalso. cbn [fixed] in B. clearbody P. set (W := D * 2 ^ SH) in *. clearbody W.
      set (U := 2 ^ SH) in *. clearbody U. clear - B Near MP2 PP P4. apply Z.abs_le in B. destruct s; lia. }
    assert (Hez : - SH <= ez).
    { clear - E HDpos. apply round_ratio_valid in E as (_ & E & _); unfold fmin, SH in *; lia. }
    cbn [fixed] in B.
    pose proof (finite_ratio (Z.pos mz) ez Hez) as G.
    pose proof (pow2_pos (Z.max 0 (- ez)) (Z.le_max_l _ _)) as Pd. pose proof (pow2_pos (Z.max 0 ez) (Z.le_max_l _ _)) as Pn.
    assert (HB : Z.abs (2 * (D * 2 ^ SH - 10000 * (Z.pos mz * 2 ^ (ez + SH)))) <= 10000 * P).
    { set (W := D * 2 ^ SH) in *. set (V := Z.pos mz * 2 ^ (ez + SH)) in *. clearbody W V.
      clear - B. apply Z.abs_le in B. apply Z.abs_le. destruct s; lia. }
    exists m, e. split; [|split; [reflexivity|lia]].
    cbn [float_of_double]. change (S754_finite s m e) with (S754_finite s (Z.to_pos (Z.pos m)) e).
    apply Z.abs_le in HB.
    assert (X1 : 2 ^ 52 * P <= Z.pos mz * 2 ^ (ez + SH) < 2 ^ 53 * P /\
      Z.abs (2 * (Z.pos mz * 2 ^ (ez + SH) - Z.pos m * (2 ^ 29 * P))) < 2 ^ 29 * P).
    { set (V := Z.pos mz * 2 ^ (ez + SH)) in *. set (W := D * 2 ^ SH) in *. set (U := 2 ^ SH) in *. clearbody V W U P.
      clear - HB Near MP MP2 PP P4. rewrite Z.abs_lt. lia. }
    set (V := Z.pos mz * 2 ^ (ez + SH)) in *. set (d := 2 ^ Z.max 0 (- ez)) in *.
    set (n := Z.pos mz * 2 ^ Z.max 0 ez) in *.
    assert (0 < n) by (unfold n; apply Z.mul_pos_pos; lia).
    assert (Hd : 0 <= d) by (apply Z.lt_le_incl; exact Pd). destruct X1 as [[X1 X2] X3].
    apply round_ratio_to.
    + reflexivity.
    + discriminate.
    + assumption.
    + exact Pd.
    + change (fmin 24 128) with (-149). clear - He. lia.
    + clear - He0. lia.
    + clear - Hm. lia.
    + right. rewrite G, P3. apply Z.mul_le_mono_nonneg_l; assumption.
    + rewrite G, P5. apply Z.mul_lt_mono_pos_l; assumption.
    + rewrite G, P0. clearbody V d P. clear - X3 Pd. apply Z.abs_lt in X3. apply Z.abs_lt. nia.
Qed.

(** The scalar theorem: print, read, print gives the same text; the value read is within 10^-4; it is the same
    value when the number is 1024 or more in absolute value. *)
Lemma reread_spec x rest : valid_binary 24 128 x = true -> finite x = true -> stop rest = true ->
  let y := float_of_double (atof (print_float 4 x ++ rest)) in
  finite y = true /\ print_float 4 y = print_float 4 x /\
  10000 * Z.abs (fixed y - fixed x) < 2 ^ SH /\
  (2 ^ (10 + SH) <= Z.abs (fixed x) -> fixed y = fixed x).
Proof.
  intros HV HF Hs. cbv zeta. rewrite atof_print by assumption. change (- Z.of_nat 4) with (-4). change (Z.of_nat 4) with 4.
  pose proof (pow2_pos SH ltac:(unfold SH; lia)) as PS.
  destruct x as [s| | |s m e]; try discriminate HF.
  { cbn [sign dround]. unfold scaled_double. cbn [Z.eqb]. cbn [float_of_double finite fixed].
    repeat split. }
  cbn [sign dround]. destruct (valid_bounds s m e HV) as (Hm & He & Hm2).
  destruct (Z.le_gt_cases (-13) e) as [Hlarge|Hsmall].
  - destruct (reread_large s m e HV Hlarge) as (m' & e' & E & V & He').
    rewrite E. split; [reflexivity|].
    assert (DE : decimal_round 4 (Z.pos m') e' = decimal_round 4 (Z.pos m) e).
    { unfold decimal_round.
      destruct (Z.eq_dec e' e) as [->|Hne].
      - assert (Z.pos m' = Z.pos m) as -> by (pose proof (pow2_pos (e + SH) ltac:(unfold SH; lia)); nia). reflexivity.
      - (* equal ratios *)
        assert (RR : forall a b c d, 0 < b -> 0 < d -> a * d = c * b -> rne a b = rne c d).
        { clear. intros a b c d Hb Hd H. unfold rne.
          assert (Q : a / b = c / d).
          { rewrite <- (Z.div_mul_cancel_r a b d), <- (Z.div_mul_cancel_r c d b) by lia.
            rewrite H. f_equal. lia. }
          assert (M : (a mod b) * d = (c mod d) * b).
          { rewrite !Z.mod_eq by lia. rewrite Q. nia. }
          rewrite Q.
          replace (2 * (a mod b) ?= b) with (2 * (c mod d) ?= d); [reflexivity|].
          rewrite (Zmult_compare_compat_r (2 * (c mod d)) d b) by lia.
          rewrite (Zmult_compare_compat_r (2 * (a mod b)) b d) by lia.
          f_equal; lia. }
        apply RR; try (apply pow2_pos; lia).
        pose proof (decimal_ratio 4 (Z.pos m) e ltac:(unfold SH; lia) ltac:(lia)) as G1.
        pose proof (decimal_ratio 4 (Z.pos m') e' ltac:(unfold SH; lia) ltac:(lia)) as G2.
        rewrite V in G2.
        set (a := Z.pos m' * 10 ^ 4 * 2 ^ Z.max 0 e') in *. set (b := 2 ^ Z.max 0 (- e')) in *.
        set (c := Z.pos m * 10 ^ 4 * 2 ^ Z.max 0 e) in *. set (d := 2 ^ Z.max 0 (- e)) in *.
        set (X := 10 ^ 4 * (Z.pos m * 2 ^ (e + SH))) in *. set (U := 2 ^ SH) in *. clearbody a b c d X U.
        apply (Z.mul_reg_r _ _ U); [lia|].
        replace (a * d * U) with (a * U * d) by ring. replace (c * b * U) with (c * U * b) by ring.
        rewrite G1, G2. ring. }
    split; [cbn [print_float]; change (Z.of_nat 4) with 4; now rewrite DE|].
    cbn [fixed]. rewrite V. rewrite Z.sub_diag. cbn [Z.abs]. split; [lia|]. reflexivity.
  - (* small *)
    assert (Hx : Z.pos m * 2 ^ (e + SH) < 2 ^ (10 + SH)).
    { apply Z.lt_le_trans with (2 ^ 24 * 2 ^ (e + SH)).
      - apply Z.mul_lt_mono_pos_r; [apply pow2_pos; unfold SH; lia|exact Hm].
      - rewrite <- Z.pow_add_r by (unfold SH; lia). apply Z.pow_le_mono_r; lia. }
    pose proof (decimal_round_near 4 (Z.pos m) e ltac:(unfold SH; lia) ltac:(lia)) as Near.
    pose proof (decimal_round_nonneg 4 (Z.pos m) e ltac:(lia) ltac:(lia)) as DN.
    change (10 ^ 4) with 10000 in Near.
    set (D := decimal_round 4 (Z.pos m) e) in *.
    assert (HP10 : 2 ^ (10 + SH) = 2 ^ 10 * 2 ^ SH) by (apply Z.pow_add_r; unfold SH; lia).
    assert (Hno : ~ 2 ^ (10 + SH) <= Z.abs (fixed (S754_finite s m e))).
    { cbn [fixed]. rewrite sgn_abs. pose proof (pow2_pos (e + SH) ltac:(unfold SH; lia)). lia. }
    destruct (Z.eq_dec D 0) as [E0|].
    + rewrite E0 in *. unfold scaled_double. cbn [Z.eqb float_of_double finite].
      split; [reflexivity|]. split; [cbn [print_float]; change (Z.of_nat 4) with 4; fold D; now rewrite E0|].
      split; [|intros; contradiction]. cbn [fixed].
      set (V := Z.pos m * 2 ^ (e + SH)) in *. set (U := 2 ^ SH) in *. clearbody V U.
      clear - Near PS. apply Z.abs_le in Near. destruct s; lia.
    + assert (HD : D < 10000 * 2 ^ 10).
      { assert (Hx' : Z.pos m * 2 ^ (e + SH) <= 2 ^ (10 + SH) - 2 ^ (SH - 14)).
        { assert (A1 : 2 ^ (10 + SH) = 2 ^ (10 - e) * 2 ^ (e + SH)) by (rewrite <- Z.pow_add_r by (unfold SH; lia); f_equal; lia).
          destruct (Z.le_gt_cases e (-15)) as [L|L].
          - assert (A2 : 2 ^ (10 + SH) = 2 ^ 25 * 2 ^ (SH - 15)) by (rewrite <- Z.pow_add_r by (unfold SH; lia); f_equal; lia).
            assert (A3 : 2 ^ (SH - 14) = 2 * 2 ^ (SH - 15)) by (change 2 with (2 ^ 1) at 2; rewrite <- Z.pow_add_r by (unfold SH; lia); f_equal; lia).
            assert (A4 : 2 ^ (e + SH) <= 2 ^ (SH - 15)) by (apply Z.pow_le_mono_r; lia).
            pose proof (pow2_pos (SH - 15) ltac:(unfold SH; lia)). pose proof (pow2_pos (e + SH) ltac:(unfold SH; lia)).
            rewrite A2, A3. set (X := 2 ^ (SH - 15)) in *. set (Y := 2 ^ (e + SH)) in *. clearbody X Y.
            clear - A4 H H0 Hm. apply Z.le_trans with ((2 ^ 24 - 1) * X); [apply Z.mul_le_mono_nonneg; lia|lia].
          - assert (e = -14) by lia. subst e. replace (-14 + SH) with (SH - 14) in * by lia.
            rewrite A1. change (10 - -14) with 24. pose proof (pow2_pos (SH - 14) ltac:(unfold SH; lia)).
            set (X := 2 ^ (SH - 14)) in *. clearbody X. clear - Hm H.
            apply Z.le_trans with ((2 ^ 24 - 1) * X); [apply Z.mul_le_mono_nonneg_r; lia|lia]. }
        assert (A5 : 2 ^ SH = 16384 * 2 ^ (SH - 14)).
        { change 16384 with (2 ^ 14). rewrite <- Z.pow_add_r by (unfold SH; lia). f_equal. }
        pose proof (pow2_pos (SH - 14) ltac:(unfold SH; lia)) as PX.
        rewrite HP10, A5 in Hx'. rewrite A5 in Near. set (X := 2 ^ (SH - 14)) in *.
        set (V := Z.pos m * 2 ^ (e + SH)) in *. clearbody X V. clear - Near Hx' PX. apply Z.abs_le in Near. nia. }
      destruct (reread_small s D ltac:(lia)) as (F & S & B).
      set (y := float_of_double (scaled_double s 10 D (-4))) in *.
      split; [exact F|].
      split; [|split; [|intros; contradiction]].
      * rewrite !print_float_finite by (exact F || reflexivity). rewrite S. cbn [sign dround]. f_equal.
        change (Z.of_nat 4) with 4. fold D.
        assert (Hy : forall s' m' e', y = S754_finite s' m' e' -> - SH <= e').
        { intros s' m' e' Ey. unfold y, float_of_double in Ey.
          destruct (scaled_double s 10 D (-4)) as [| | |s2 m2 e2]; try discriminate Ey.
          apply round_ratio_valid in Ey as (_ & Ey & _); [unfold fmin, SH in *; lia|lia|unfold fmin, SH; lia| |apply pow2_pos; lia].
          apply Z.mul_pos_pos; [lia|apply pow2_pos; lia]. }
        destruct y as [s'| | |s' m' e'] eqn:Ey; try discriminate F; cbn [sign] in S; subst s'.
        -- cbn [dround]. cbn [fixed] in B. exfalso. set (U := 2 ^ SH) in *. clearbody U. clear - B PS n DN.
           apply Z.abs_lt in B. destruct s; nia.
        -- cbn [dround]. apply decimal_round_unique; [now apply (Hy s m' e')|lia|]. change (10 ^ 4) with 10000.
           cbn [fixed] in B. set (V := Z.pos m' * 2 ^ (e' + SH)) in *. set (U := 2 ^ SH) in *. clearbody U V.
           clear - B. apply Z.abs_lt in B. apply Z.abs_lt. destruct s; lia.
      * cbn [fixed] in *. set (Y := fixed y) in *. set (V := Z.pos m * 2 ^ (e + SH)) in *. set (U := 2 ^ SH) in *.
        clearbody U V Y. clear - B Near. apply Z.abs_lt in B. apply Z.abs_le in Near. destruct s; lia.
Qed.

(** A number that has its value exactly in the four decimals, and any number of 1024 or more, comes back unchanged. *)
Lemma same_mantissa m e m' e' : Z.pos m < 2 ^ 24 -> -149 <= e -> 2 ^ 23 <= Z.pos m \/ e = -149 -> Z.pos m' < 2 ^ 24 -> -149 <= e' -> 2 ^ 23 <= Z.pos m' \/ e' = -149 ->
  Z.pos m' * 2 ^ (e' + SH) = Z.pos m * 2 ^ (e + SH) -> m' = m /\ e' = e.
Proof.
  assert (G : forall m e m' e', Z.pos m < 2 ^ 24 -> -149 <= e -> Z.pos m' < 2 ^ 24 -> -149 <= e' -> 2 ^ 23 <= Z.pos m' \/ e' = -149 ->
    Z.pos m' * 2 ^ (e' + SH) = Z.pos m * 2 ^ (e + SH) -> e' <= e).
  { clear. intros m e m' e' M1 E1 M2 E2 C H. destruct (Z.le_gt_cases e' e) as [|L]; [assumption|exfalso].
    destruct C as [C|C]; [|lia]. replace (e' + SH) with ((e' - e - 1) + (1 + (e + SH))) in H by lia.
    rewrite Z.pow_add_r, (Z.pow_add_r 2 1 (e + SH)) in H by (unfold SH; lia). change (2 ^ 1) with 2 in H.
    pose proof (pow2_pos (e' - e - 1) ltac:(lia)) as P1. pose proof (pow2_pos (e + SH) ltac:(unfold SH; lia)) as P2.
    set (A := 2 ^ (e' - e - 1)) in *. set (B := 2 ^ (e + SH)) in *. clearbody A B.
    assert (X : 2 * (Z.pos m' * A) = Z.pos m) by (apply (Z.mul_reg_r _ _ B); [lia|]; rewrite <- H; ring).
    change (2 ^ 23) with 8388608 in C. change (2 ^ 24) with 16777216 in *. nia. }
  intros M1 E1 C1 M2 E2 C2 H. pose proof (G _ _ _ _ M1 E1 M2 E2 C2 H) as L1. pose proof (G _ _ _ _ M2 E2 M1 E1 C1 (eq_sym H)) as L2.
  assert (e' = e) by lia. subst e'. split; [|reflexivity]. pose proof (pow2_pos (e + SH) ltac:(unfold SH; lia)) as P.
  apply Z.mul_reg_r in H; [congruence|lia].
Qed.
Lemma reread_sixteenth (s : bool) m e K : valid_binary 24 128 (S754_finite s m e) = true -> e < -13 -> 16 * (Z.pos m * 2 ^ (e + SH)) = K * 2 ^ SH ->
  exists m' e', float_of_double (scaled_double s 10 (decimal_round 4 (Z.pos m) e) (-4)) = S754_finite s m' e' /\
    Z.pos m' * 2 ^ (e' + SH) = Z.pos m * 2 ^ (e + SH).
Proof.
  intros HV He HK. destruct (valid_bounds s m e HV) as (Hm & He2 & _).
  assert (X : 16 * Z.pos m = K * 2 ^ (- e)).
  { apply (Z.mul_reg_r _ _ (2 ^ (e + SH))); [pose proof (pow2_pos (e + SH) ltac:(unfold SH; lia)); lia|].
    rewrite <- !Z.mul_assoc, <- Z.pow_add_r by (unfold SH; lia). replace (- e + (e + SH)) with SH by lia. exact HK. }
  pose proof (pow2_pos (- e) ltac:(lia)) as Pe.
  assert (D : decimal_round 4 (Z.pos m) e = 625 * K).
  { unfold decimal_round. rewrite (Z.max_l 0 e), (Z.max_r 0 (- e)) by lia. change (2 ^ 0) with 1. change (10 ^ 4) with (625 * 16).
    replace (Z.pos m * (625 * 16) * 1) with (625 * K * 2 ^ (- e)) by lia. unfold rne. rewrite Z.div_mul, Z.mod_mul by lia.
    change (2 * 0) with 0. destruct (0 ?= 2 ^ (- e)) eqn:E; [apply Z.compare_eq in E; lia|reflexivity|].
    change (0 > 2 ^ (- e)) in E. lia. }
  rewrite D. assert (HKp : 0 < K) by nia. unfold scaled_double, to_double. replace (625 * K =? 0) with false by lia.
  change (0 <=? -4) with false. change (- (-4)) with 4. change (10 ^ 4) with 10000. cbv iota.
  destruct (round_ratio_exact 53 1024 s (625 * K) 10000 (Z.pos m) e) as (m1 & e1 & E1 & V1 & B1 & _);
    [lia|unfold fmin, SH; lia|lia|lia|split; [lia|]; apply (Z.lt_trans _ (2 ^ 24)); [exact Hm|reflexivity]|unfold fmin; lia|lia| |].
  { set (a := Z.pos m * 2 ^ (e + SH)) in *. set (b := 2 ^ SH) in *. clearbody a b. lia. }
  rewrite E1. destruct (float_of_double_exact s m1 e1 (Z.pos m) e) as (m2 & e2 & E2 & V2 & _); [unfold fmin, SH in *; lia|exact V1|lia|lia|lia|].
  exists m2, e2. now split.
Qed.
Lemma reread_same x : valid_binary 24 128 x = true -> finite x = true ->
  (2 ^ (10 + SH) <= Z.abs (fixed x) \/ exists k, 16 * fixed x = k * 2 ^ SH) -> reread 4 x = x.
Proof.
  intros HV HF H. unfold reread. pose proof (atof_print 4 x [] HF eq_refl) as A. rewrite app_nil_r in A. rewrite A.
  change (- Z.of_nat 4) with (-4). change (Z.of_nat 4) with 4. destruct x as [s| | |s m e]; try discriminate HF; [destruct s; reflexivity|].
  cbn [sign dround]. destruct (valid_bounds s m e HV) as (Hm & He & Hc).
  assert (G : exists m' e', float_of_double (scaled_double s 10 (decimal_round 4 (Z.pos m) e) (-4)) = S754_finite s m' e' /\
    Z.pos m' * 2 ^ (e' + SH) = Z.pos m * 2 ^ (e + SH)).
  { destruct (Z.le_gt_cases (-13) e) as [L|L].
    - destruct (reread_large s m e HV L) as (m' & e' & E & V & _). exists m', e'. now split.
    - destruct H as [H|(k & H)].
      + exfalso. cbn [fixed] in H. rewrite sgn_abs in H. rewrite Z.abs_eq in H by (pose proof (pow2_pos (e + SH) ltac:(unfold SH; lia)); lia).
        assert (2 ^ (e + SH) <= 2 ^ (-14 + SH)) by (apply Z.pow_le_mono_r; unfold SH; lia).
        assert (X : 2 ^ (10 + SH) = 2 ^ 24 * 2 ^ (-14 + SH)) by (rewrite <- Z.pow_add_r by (unfold SH; lia); f_equal; lia).
        pose proof (pow2_pos (-14 + SH) ltac:(unfold SH; lia)) as P. rewrite X in H.
        set (a := 2 ^ (e + SH)) in *. set (b := 2 ^ (-14 + SH)) in *. clearbody a b. nia.
      + apply (reread_sixteenth s m e (Z.abs k) HV L). cbn [fixed] in H. pose proof (pow2_pos (e + SH) ltac:(unfold SH; lia)) as P.
        pose proof (pow2_pos SH ltac:(unfold SH; lia)) as Q. set (a := Z.pos m * 2 ^ (e + SH)) in *. assert (0 < a) by (unfold a; lia).
        set (b := 2 ^ SH) in *. clearbody a b. clear - H Q H0. destruct s; nia. }
  destruct G as (m' & e' & E & V). rewrite E.
  destruct (scaled_double s 10 (decimal_round 4 (Z.pos m) e) (-4)) as [z| | |z mz ez] eqn:Ed; cbn [float_of_double] in E; try discriminate E.
  apply round_ratio_valid in E as (_ & E1 & E2 & E3); [|lia|unfold fmin, SH; lia|apply Z.mul_pos_pos; [lia|apply pow2_pos; lia]|apply pow2_pos; lia].
  unfold fmin in *. destruct (same_mantissa m e m' e') as [-> ->]; try assumption; try lia; reflexivity.
Qed.
