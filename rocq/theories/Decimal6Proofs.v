(** Printing a float with six decimals and reading it back: the same argument as in DecimalProofs with other constants. *)
From Verif Require Import CBase Num NumProofs DecimalProofs.
Local Open Scope Z_scope.

(** Small numbers (below 16): the reread value is close to the printed decimal. *)
Lemma reread6_small (s : bool) D : 0 < D < 1000000 * 2 ^ 4 ->
  let y := float_of_double (scaled_double s 10 D (-6)) in
  finite y = true /\ sign y = s /\
  Z.abs (2 * (1000000 * fixed y - (if s then -1 else 1) * (D * 2 ^ SH))) < 2 ^ SH.
Proof.
  intros HD. cbv zeta. unfold scaled_double, to_double. replace (D =? 0) with false by lia.
  change (0 <=? -6) with false. change (- (-6)) with 6. change (10 ^ 6) with 1000000.
  assert (HP : 2 ^ SH = 2 ^ 53 * 2 ^ (SH - 53)) by (rewrite <- Z.pow_add_r by (unfold SH; lia); f_equal; lia).
  assert (H10 : 2 ^ (4 + SH) = 2 ^ 57 * 2 ^ (SH - 53)) by (rewrite <- Z.pow_add_r by (unfold SH; lia); f_equal; lia).
  assert (H43 : 2 ^ (4 - 53 + SH) = 2 ^ 4 * 2 ^ (SH - 53)) by (rewrite <- Z.pow_add_r by (unfold SH; lia); f_equal; lia).
  assert (H11 : 2 ^ (5 + SH) = 2 ^ 58 * 2 ^ (SH - 53)) by (rewrite <- Z.pow_add_r by (unfold SH; lia); f_equal; lia).
  assert (H14 : 2 ^ (4 - 24 + SH) = 2 ^ 33 * 2 ^ (SH - 53)) by (rewrite <- Z.pow_add_r by (unfold SH; lia); f_equal; lia).
  pose proof (pow2_pos (SH - 53) ltac:(unfold SH; lia)) as PU. set (U := 2 ^ (SH - 53)) in *.
  assert (QQ : D * 2 ^ SH < 1000000 * 2 ^ (4 + SH)) by (rewrite HP, H10; clearbody U; nia).
  destruct (round_ratio_error 53 1024 s D 1000000 4 ltac:(lia) ltac:(unfold fmin, SH; lia) ltac:(lia) ltac:(lia)
    ltac:(unfold fmin; lia) ltac:(lia) QQ) as (F & S & B).
  rewrite H43, HP in B.
  destruct (round_ratio 53 1024 s D 1000000) as [s'| | |s' m e] eqn:E; try discriminate F; cbn [sign] in S; subst s'.
  { exfalso. cbn [fixed] in B. clearbody U. clear - B PU HD. apply Z.abs_le in B. destruct s; nia. }
  assert (He : - SH <= e).
  { apply round_ratio_valid in E as (_ & E & _); unfold fmin, SH in *; lia. }
  assert (V : 1000000 * (Z.pos m * 2 ^ (e + SH)) < 1000000 * (2 ^ 57 * U)).
  { cbn [fixed] in B. set (W := Z.pos m * 2 ^ (e + SH)) in *. clearbody U W. clear - B PU HD.
    apply Z.abs_le in B. destruct s; nia. }
  destruct (float_of_double_error s m e 4 He ltac:(lia) ltac:(lia)) as (F2 & S2 & B2).
  { rewrite H10. lia. }
  split; [exact F2|]. split; [exact S2|]. rewrite H14 in B2. rewrite HP.
  set (y := fixed (float_of_double _)) in *. set (z := fixed (S754_finite s m e)) in *. clearbody y z U.
  clear - B B2 PU. apply Z.abs_le in B, B2. apply Z.abs_lt.
  set (w := (if s then -1 else 1) * (D * (2 ^ 53 * U))) in *. clearbody w. lia.
Qed.

(** Large numbers (16 and above): the reread value is the original one. *)
Lemma reread6_large (s : bool) m e : valid_binary 24 128 (S754_finite s m e) = true -> -19 <= e ->
  exists m' e', float_of_double (scaled_double s 10 (decimal_round 6 (Z.pos m) e) (-6)) = S754_finite s m' e' /\
    Z.pos m' * 2 ^ (e' + SH) = Z.pos m * 2 ^ (e + SH) /\ -149 <= e'.
Proof.
  intros HV He. destruct (valid_bounds s m e HV) as (Hm & He2 & Hm2).
  assert (Hm3 : 2 ^ 23 <= Z.pos m) by (destruct Hm2; lia). clear Hm2.
  set (D := decimal_round 6 (Z.pos m) e).
  pose proof (decimal_round_near 6 (Z.pos m) e ltac:(unfold SH; lia) ltac:(lia)) as Near. fold D in Near.
  change (10 ^ 6) with 1000000 in *.
  assert (HSe : 2 ^ (e + 19 + (SH - 19)) = 2 ^ (e + 19) * 2 ^ (SH - 19)) by (apply Z.pow_add_r; unfold SH; lia).
  replace (e + 19 + (SH - 19)) with (e + SH) in HSe by lia.
  assert (HS : 2 ^ SH = 524288 * 2 ^ (SH - 19)).
  { change 524288 with (2 ^ 19). rewrite <- Z.pow_add_r by (unfold SH; lia). f_equal. }
  pose proof (pow2_pos (SH - 19) ltac:(unfold SH; lia)) as PU.
  pose proof (pow2_pos (e + 19) ltac:(lia)) as Pe.
  assert (HDpos : 0 < D).
  { pose proof (decimal_round_nonneg 6 (Z.pos m) e ltac:(lia) ltac:(lia)) as D0. fold D in D0.
    destruct (Z.eq_dec D 0) as [E0|]; [exfalso|lia]. rewrite E0, HS, HSe in Near.
    set (U := 2 ^ (SH - 19)) in *. set (Q := 2 ^ (e + 19)) in *. clearbody U Q. clear - Near PU Pe Hm3.
    apply Z.abs_le in Near. assert (U <= Q * U) by nia. nia. }
  unfold scaled_double, to_double. replace (D =? 0) with false by lia.
  change (0 <=? -6) with false. change (- (-6)) with 6. change (10 ^ 6) with 1000000.
  destruct (Z.eq_dec (1000000 * (Z.pos m * 2 ^ (e + SH))) (D * 2 ^ SH)) as [Ex|Ne].
  - (* the decimal is exact *)
    destruct (round_ratio_exact 53 1024 s D 1000000 (Z.pos m) e) as (mz & ez & Z1 & Z2 & Z3 & _);
      try (unfold fmin, SH; lia); try lia.
    rewrite Z1.
    destruct (float_of_double_exact s mz ez (Z.pos m) e) as (m' & e' & Y1 & Y2 & Y3 & _); try lia.
    { unfold fmin, SH in *. lia. }
    exists m', e'. split; [exact Y1|]. split; [exact Y2|lia].
  - (* not exact: e < 0 and m > 2^23 *)
    assert (He0 : e < 0).
    { destruct (Z.lt_ge_cases e 0) as [|Hge]; [assumption|exfalso]. apply Ne.
      assert (DE : D = Z.pos m * 2 ^ e * 1000000).
      { apply decimal_round_unique; [unfold SH; lia|lia|]. change (10 ^ 6) with 1000000.
        rewrite (Z.pow_add_r 2 e) by (unfold SH; lia).
        replace (1000000 * (Z.pos m * (2 ^ e * 2 ^ SH)) - Z.pos m * 2 ^ e * 1000000 * 2 ^ SH) with 0 by ring.
        cbn [Z.mul Z.abs]. rewrite HS. lia. }
      rewrite DE, (Z.pow_add_r 2 e) by (unfold SH; lia). ring. }
    assert (Hm4 : 2 ^ 23 < Z.pos m).
    { destruct (Z.eq_dec (Z.pos m) (2 ^ 23)) as [Em|]; [exfalso|lia]. apply Ne.
      assert (PP : Z.pos m * 2 ^ (e + SH) = 2 ^ (23 + e) * 2 ^ SH).
      { rewrite Em, <- !Z.pow_add_r by (unfold SH; lia). f_equal. lia. }
      assert (DE : D = 2 ^ (23 + e) * 1000000).
      { apply decimal_round_unique; [unfold SH; lia|lia|]. change (10 ^ 6) with 1000000. rewrite PP.
        replace (1000000 * (2 ^ (23 + e) * 2 ^ SH) - 2 ^ (23 + e) * 1000000 * 2 ^ SH) with 0 by ring.
        cbn [Z.mul Z.abs]. rewrite HS. lia. }
      rewrite DE, PP. ring. }
    (* everything in units of P = 2^(e+SH-29) *)
    assert (P0 : 2 ^ (e + SH) = 2 ^ 29 * 2 ^ (e + SH - 29)) by (rewrite <- Z.pow_add_r by (unfold SH; lia); f_equal; lia).
    assert (P1 : 2 ^ (e + 24 + SH) = 2 ^ 53 * 2 ^ (e + SH - 29)) by (rewrite <- Z.pow_add_r by (unfold SH; lia); f_equal; lia).
    assert (P2 : 2 ^ (e + 24 - 53 + SH) = 2 ^ (e + SH - 29)) by (f_equal; lia).
    assert (P3 : 2 ^ (24 - 1 + e + SH) = 2 ^ 52 * 2 ^ (e + SH - 29)) by (rewrite <- Z.pow_add_r by (unfold SH; lia); f_equal; lia).
    assert (P5 : 2 ^ (24 + e + SH) = 2 ^ 53 * 2 ^ (e + SH - 29)) by (rewrite <- Z.pow_add_r by (unfold SH; lia); f_equal; lia).
    assert (P4 : 2 ^ SH <= 524288 * (2 ^ 29 * 2 ^ (e + SH - 29))).
    { rewrite <- P0, HS, HSe. set (U := 2 ^ (SH - 19)) in *. set (Q := 2 ^ (e + 19)) in *. clearbody U Q.
      clear - PU Pe. nia. }
    pose proof (pow2_pos (e + SH - 29) ltac:(unfold SH; lia)) as PP. set (P := 2 ^ (e + SH - 29)) in *.
    pose proof (pow2_pos SH ltac:(unfold SH; lia)) as PS.
    rewrite P0 in Near. apply Z.abs_le in Near.
    assert (MP : Z.pos m * P <= (2 ^ 24 - 1) * P) by (apply Z.mul_le_mono_nonneg_r; lia).
    assert (MP2 : (2 ^ 23 + 1) * P <= Z.pos m * P) by (apply Z.mul_le_mono_nonneg_r; lia).
    (* the double *)
    assert (QQ : D * 2 ^ SH < 1000000 * 2 ^ (e + 24 + SH)).
    { rewrite P1. clearbody P. set (W := D * 2 ^ SH) in *. clearbody W.
      set (U := 2 ^ SH) in *. clearbody U. clear - Near MP PP P4. lia. }
    destruct (round_ratio_error 53 1024 s D 1000000 (e + 24) ltac:(lia) ltac:(unfold fmin, SH; lia) ltac:(lia) ltac:(lia)
      ltac:(unfold fmin; lia) ltac:(lia) QQ) as (F & S & B).
    rewrite P2 in B.
    destruct (round_ratio 53 1024 s D 1000000) as [s'| | |s' mz ez] eqn:E; try discriminate F; cbn [sign] in S; subst s'.
    { exfalso. cbn [fixed] in B. clearbody P. set (W := D * 2 ^ SH) in *. clearbody W.
      set (U := 2 ^ SH) in *. clearbody U. clear - B Near MP2 PP P4. apply Z.abs_le in B. destruct s; lia. }
    assert (Hez : - SH <= ez).
    { clear - E HDpos. apply round_ratio_valid in E as (_ & E & _); unfold fmin, SH in *; lia. }
    cbn [fixed] in B.
    pose proof (finite_ratio (Z.pos mz) ez Hez) as G.
    pose proof (pow2_pos (Z.max 0 (- ez)) (Z.le_max_l _ _)) as Pd. pose proof (pow2_pos (Z.max 0 ez) (Z.le_max_l _ _)) as Pn.
    assert (HB : Z.abs (2 * (D * 2 ^ SH - 1000000 * (Z.pos mz * 2 ^ (ez + SH)))) <= 1000000 * P).
    { set (W := D * 2 ^ SH) in *. set (V := Z.pos mz * 2 ^ (ez + SH)) in *. clearbody W V.
      clear - B. apply Z.abs_le in B. apply Z.abs_le. destruct s; lia. }
    exists m, e. split; [|split; [reflexivity|lia]].
    cbn [float_of_double]. change (S754_finite s m e) with (S754_finite s (Z.to_pos (Z.pos m)) e).
    apply Z.abs_le in HB.
    assert (X1 : 2 ^ 52 * P <= Z.pos mz * 2 ^ (ez + SH) < 2 ^ 53 * P /\
      Z.abs (2 * (Z.pos mz * 2 ^ (ez + SH) - Z.pos m * (2 ^ 29 * P))) < 2 ^ 29 * P).
    { set (V := Z.pos mz * 2 ^ (ez + SH)) in *. set (W := D * 2 ^ SH) in *. set (U := 2 ^ SH) in *. clearbody V W U P.
      clear - HB Near MP MP2 PP P4. rewrite Z.abs_lt. lia. }
    set (V := Z.pos mz * 2 ^ (ez + SH)) in *. set (d := 2 ^ Z.max 0 (- ez)) in *.
    set (n := Z.pos mz * 2 ^ Z.max 0 ez) in *.
    assert (0 < n) by (unfold n; apply Z.mul_pos_pos; lia).
    assert (Hd : 0 <= d) by (apply Z.lt_le_incl; exact Pd). destruct X1 as [[X1 X2] X3].
    apply round_ratio_to.
    + reflexivity.
    + discriminate.
    + assumption.
    + exact Pd.
    + change (fmin 24 128) with (-149). clear - He. lia.
    + clear - He0. lia.
    + clear - Hm. lia.
    + right. rewrite G, P3. apply Z.mul_le_mono_nonneg_l; assumption.
    + rewrite G, P5. apply Z.mul_lt_mono_pos_l; assumption.
    + rewrite G, P0. clearbody V d P. clear - X3 Pd. apply Z.abs_lt in X3. apply Z.abs_lt. nia.
Qed.

(** The scalar theorem: print, read, print gives the same text; the value read is within 10^-6; it is the same
    value when the number is 16 or more in absolute value. *)
Lemma reread6_spec x rest : valid_binary 24 128 x = true -> finite x = true -> stop rest = true ->
  let y := float_of_double (atof (print_float 6 x ++ rest)) in
  finite y = true /\ print_float 6 y = print_float 6 x /\
  1000000 * Z.abs (fixed y - fixed x) < 2 ^ SH /\
  (2 ^ (4 + SH) <= Z.abs (fixed x) -> fixed y = fixed x).
Proof.
  intros HV HF Hs. cbv zeta. rewrite atof_print by assumption. change (- Z.of_nat 6) with (-6). change (Z.of_nat 6) with 6.
  pose proof (pow2_pos SH ltac:(unfold SH; lia)) as PS.
  destruct x as [s| | |s m e]; try discriminate HF.
  { cbn [sign dround]. unfold scaled_double. cbn [Z.eqb]. cbn [float_of_double finite fixed].
    repeat split. }
  cbn [sign dround]. destruct (valid_bounds s m e HV) as (Hm & He & Hm2).
  destruct (Z.le_gt_cases (-19) e) as [Hlarge|Hsmall].
  - destruct (reread6_large s m e HV Hlarge) as (m' & e' & E & V & He').
    rewrite E. split; [reflexivity|].
    assert (DE : decimal_round 6 (Z.pos m') e' = decimal_round 6 (Z.pos m) e).
    { unfold decimal_round.
      destruct (Z.eq_dec e' e) as [->|Hne].
      - assert (Z.pos m' = Z.pos m) as -> by (pose proof (pow2_pos (e + SH) ltac:(unfold SH; lia)); nia). reflexivity.
      - (* equal ratios *)
        assert (RR : forall a b c d, 0 < b -> 0 < d -> a * d = c * b -> rne a b = rne c d).
        { clear. intros a b c d Hb Hd H. unfold rne.
          assert (Q : a / b = c / d).
          { rewrite <- (Z.div_mul_cancel_r a b d), <- (Z.div_mul_cancel_r c d b) by lia.
            rewrite H. f_equal. lia. }
          assert (M : (a mod b) * d = (c mod d) * b).
          { rewrite !Z.mod_eq by lia. rewrite Q. nia. }
          rewrite Q.
          replace (2 * (a mod b) ?= b) with (2 * (c mod d) ?= d); [reflexivity|].
          rewrite (Zmult_compare_compat_r (2 * (c mod d)) d b) by lia.
          rewrite (Zmult_compare_compat_r (2 * (a mod b)) b d) by lia.
          f_equal; lia. }
        apply RR; try (apply pow2_pos; lia).
        pose proof (decimal_ratio 6 (Z.pos m) e ltac:(unfold SH; lia) ltac:(lia)) as G1.
        pose proof (decimal_ratio 6 (Z.pos m') e' ltac:(unfold SH; lia) ltac:(lia)) as G2.
        rewrite V in G2.
        set (a := Z.pos m' * 10 ^ 6 * 2 ^ Z.max 0 e') in *. set (b := 2 ^ Z.max 0 (- e')) in *.
        set (c := Z.pos m * 10 ^ 6 * 2 ^ Z.max 0 e) in *. set (d := 2 ^ Z.max 0 (- e)) in *.
        set (X := 10 ^ 6 * (Z.pos m * 2 ^ (e + SH))) in *. set (U := 2 ^ SH) in *. clearbody a b c d X U.
        apply (Z.mul_reg_r _ _ U); [lia|].
        replace (a * d * U) with (a * U * d) by ring. replace (c * b * U) with (c * U * b) by ring.
        rewrite G1, G2. ring. }
    split; [cbn [print_float]; change (Z.of_nat 6) with 6; now rewrite DE|].
    cbn [fixed]. rewrite V. rewrite Z.sub_diag. cbn [Z.abs]. split; [lia|]. reflexivity.
  - (* small *)
    assert (Hx : Z.pos m * 2 ^ (e + SH) < 2 ^ (4 + SH)).
    { apply Z.lt_le_trans with (2 ^ 24 * 2 ^ (e + SH)).
      - apply Z.mul_lt_mono_pos_r; [apply pow2_pos; unfold SH; lia|exact Hm].
      - rewrite <- Z.pow_add_r by (unfold SH; lia). apply Z.pow_le_mono_r; lia. }
    pose proof (decimal_round_near 6 (Z.pos m) e ltac:(unfold SH; lia) ltac:(lia)) as Near.
    pose proof (decimal_round_nonneg 6 (Z.pos m) e ltac:(lia) ltac:(lia)) as DN.
    change (10 ^ 6) with 1000000 in Near.
    set (D := decimal_round 6 (Z.pos m) e) in *.
    assert (HP10 : 2 ^ (4 + SH) = 2 ^ 4 * 2 ^ SH) by (apply Z.pow_add_r; unfold SH; lia).
    assert (Hno : ~ 2 ^ (4 + SH) <= Z.abs (fixed (S754_finite s m e))).
    { cbn [fixed]. rewrite sgn_abs. pose proof (pow2_pos (e + SH) ltac:(unfold SH; lia)). lia. }
    destruct (Z.eq_dec D 0) as [E0|].
    + rewrite E0 in *. unfold scaled_double. cbn [Z.eqb float_of_double finite].
      split; [reflexivity|]. split; [cbn [print_float]; change (Z.of_nat 6) with 6; fold D; now rewrite E0|].
      split; [|intros; contradiction]. cbn [fixed].
      set (V := Z.pos m * 2 ^ (e + SH)) in *. set (U := 2 ^ SH) in *. clearbody V U.
      clear - Near PS. apply Z.abs_le in Near. destruct s; lia.
    + assert (HD : D < 1000000 * 2 ^ 4).
      { assert (Hx' : Z.pos m * 2 ^ (e + SH) <= 2 ^ (4 + SH) - 2 ^ (SH - 20)).
        { assert (A1 : 2 ^ (4 + SH) = 2 ^ (4 - e) * 2 ^ (e + SH)) by (rewrite <- Z.pow_add_r by (unfold SH; lia); f_equal; lia).
          destruct (Z.le_gt_cases e (-21)) as [L|L].
          - assert (A2 : 2 ^ (4 + SH) = 2 ^ 25 * 2 ^ (SH - 21)) by (rewrite <- Z.pow_add_r by (unfold SH; lia); f_equal; lia).
            assert (A3 : 2 ^ (SH - 20) = 2 * 2 ^ (SH - 21)) by (change 2 with (2 ^ 1) at 2; rewrite <- Z.pow_add_r by (unfold SH; lia); f_equal; lia).
            assert (A4 : 2 ^ (e + SH) <= 2 ^ (SH - 21)) by (apply Z.pow_le_mono_r; lia).
            pose proof (pow2_pos (SH - 21) ltac:(unfold SH; lia)). pose proof (pow2_pos (e + SH) ltac:(unfold SH; lia)).
            rewrite A2, A3. set (X := 2 ^ (SH - 21)) in *. set (Y := 2 ^ (e + SH)) in *. clearbody X Y.
            clear - A4 H H0 Hm. apply Z.le_trans with ((2 ^ 24 - 1) * X); [apply Z.mul_le_mono_nonneg; lia|lia].
          - assert (e = -20) by lia. subst e. replace (-20 + SH) with (SH - 20) in * by lia.
            rewrite A1. change (4 - -20) with 24. pose proof (pow2_pos (SH - 20) ltac:(unfold SH; lia)).
            set (X := 2 ^ (SH - 20)) in *. clearbody X. clear - Hm H.
            apply Z.le_trans with ((2 ^ 24 - 1) * X); [apply Z.mul_le_mono_nonneg_r; lia|lia]. }
        assert (A5 : 2 ^ SH = 1048576 * 2 ^ (SH - 20)).
        { change 1048576 with (2 ^ 20). rewrite <- Z.pow_add_r by (unfold SH; lia). f_equal. }
        pose proof (pow2_pos (SH - 20) ltac:(unfold SH; lia)) as PX.
        rewrite HP10, A5 in Hx'. rewrite A5 in Near. set (X := 2 ^ (SH - 20)) in *.
        set (V := Z.pos m * 2 ^ (e + SH)) in *. clearbody X V. clear - Near Hx' PX. apply Z.abs_le in Near. nia. }
      destruct (reread6_small s D ltac:(lia)) as (F & S & B).
      set (y := float_of_double (scaled_double s 10 D (-6))) in *.
      split; [exact F|].
      split; [|split; [|intros; contradiction]].
      * rewrite !print_float_finite by (exact F || reflexivity). rewrite S. cbn [sign dround]. f_equal.
        change (Z.of_nat 6) with 6. fold D.
        assert (Hy : forall s' m' e', y = S754_finite s' m' e' -> - SH <= e').
        { intros s' m' e' Ey. unfold y, float_of_double in Ey.
          destruct (scaled_double s 10 D (-6)) as [| | |s2 m2 e2]; try discriminate Ey.
          apply round_ratio_valid in Ey as (_ & Ey & _); [unfold fmin, SH in *; lia|lia|unfold fmin, SH; lia| |apply pow2_pos; lia].
          apply Z.mul_pos_pos; [lia|apply pow2_pos; lia]. }
        destruct y as [s'| | |s' m' e'] eqn:Ey; try discriminate F; cbn [sign] in S; subst s'.
        -- cbn [dround]. cbn [fixed] in B. exfalso. set (U := 2 ^ SH) in *. clearbody U. clear - B PS n DN.
           apply Z.abs_lt in B. destruct s; nia.
        -- cbn [dround]. apply decimal_round_unique; [now apply (Hy s m' e')|lia|]. change (10 ^ 6) with 1000000.
           cbn [fixed] in B. set (V := Z.pos m' * 2 ^ (e' + SH)) in *. set (U := 2 ^ SH) in *. clearbody U V.
           clear - B. apply Z.abs_lt in B. apply Z.abs_lt. destruct s; lia.
      * cbn [fixed] in *. set (Y := fixed y) in *. set (V := Z.pos m * 2 ^ (e + SH)) in *. set (U := 2 ^ SH) in *.
        clearbody U V Y. clear - B Near. apply Z.abs_lt in B. apply Z.abs_le in Near. destruct s; lia.
Qed.
