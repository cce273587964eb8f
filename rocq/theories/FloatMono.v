(** Rounding is monotone: a value of the format that bounds the exact result bounds the rounded result. *)
From Verif Require Import CBase Num NumProofs FloatOps FloatProofs.
Local Open Scope Z_scope.

(** Values are counted in units of 2^-SH.  [fl v]: v is a value of the format. *)
Definition fl (p emax v : Z) : Prop :=
  exists M E, v = M * 2 ^ (E + SH) /\ Z.abs M < 2 ^ p /\ fmin p emax <= E <= emax - p.
(** x is at least (at most) v. *)
Definition above (x : spec_float) (v : Z) : Prop :=
  (finite x = true /\ - SH <= fexp x /\ v <= fixed x) \/ x = S754_infinity false.
Definition below (x : spec_float) (v : Z) : Prop :=
  (finite x = true /\ - SH <= fexp x /\ fixed x <= v) \/ x = S754_infinity true.

(** num/den rounded, [num] of either sign. *)
Definition round_s (p emax : Z) (zs : bool) (num den : Z) : spec_float :=
  if num =? 0 then S754_zero zs else round_ratio p emax (num <? 0) (Z.abs num) den.

Lemma fl_0 p emax : fmt p emax -> fl p emax 0.
Proof.
  intros (H1 & H2 & H3 & H4). exists 0, 0. split; [reflexivity|]. split; [apply pow2_pos; lia|]. lia.
Qed.
Lemma fl_opp p emax v : fl p emax v -> fl p emax (- v).
Proof. intros (M & E & -> & H1 & H2). exists (- M), E. split; [ring|]. rewrite Z.abs_opp. auto. Qed.

Lemma mul_pow_split a b c : 0 <= c <= b -> 2 ^ b * a = 2 ^ c * (2 ^ (b - c) * a).
Proof. intros H. rewrite Z.mul_assoc, <- Z.pow_add_r by lia. do 2 f_equal. lia. Qed.

(** The magnitude of a rounded ratio. *)
Lemma round_ratio_above p emax s num den v : fmt p emax -> 0 < num -> 0 < den -> fl p emax v ->
  den * v <= num * 2 ^ SH ->
  (finite (round_ratio p emax s num den) = true /\ - SH <= fexp (round_ratio p emax s num den) /\
   v <= (if s then -1 else 1) * fixed (round_ratio p emax s num den)) \/
  round_ratio p emax s num den = S754_infinity s.
Proof.
  intros (Hp & Hmin & Hmin0 & Hem) Hn Hd (M & E & -> & HM & HE) Hv. unfold round_ratio.
  pose proof (ratio_exp_spec p emax num den ltac:(lia) Hmin Hn Hd) as (E1 & E2 & E3). cbv zeta in *.
  set (e := ratio_exp p emax num den) in *.
  pose proof (ratio_mant_spec num den e ltac:(lia) Hn Hd) as (M1 & M2). cbv zeta in *.
  set (m := rne (scale_num num e) (scale_den den e)) in *.
  pose proof (pow2_pos (e + SH) ltac:(lia)) as Pe.
  assert (X : 0 < den * 2 ^ (e + SH)) by (apply Z.mul_pos_pos; lia).
  assert (G : M * 2 ^ (E + SH) <= m * 2 ^ (e + SH)).
  { destruct (Z.le_gt_cases e E) as [L|L].
    - assert (Q : M * 2 ^ (E + SH) = M * 2 ^ (E - e) * 2 ^ (e + SH)) by (rewrite align; [reflexivity|lia|lia]).
      rewrite Q in *. apply Z.mul_le_mono_nonneg_r; [lia|]. set (K := M * 2 ^ (E - e)) in *. clearbody K.
      destruct (Z.le_gt_cases K m); [assumption|exfalso].
      replace (den * (K * 2 ^ (e + SH))) with (K * (den * 2 ^ (e + SH))) in Hv by ring.
      set (u := den * 2 ^ (e + SH)) in *. set (w := num * 2 ^ SH) in *. clearbody u w m.
      clear - Hv M2 X H. apply Z.abs_le in M2. nia.
    - destruct E3 as [E3|E3]; [lia|].
      assert (P2 : 2 ^ (p - 1 + e + SH) = 2 ^ (p - 1) * 2 ^ (e + SH)) by (rewrite <- Z.pow_add_r by lia; f_equal; lia).
      assert (Hlo : 2 ^ (p - 1) <= m).
      { rewrite P2 in E3. set (A := 2 ^ (p - 1)) in *.
        replace (den * (A * 2 ^ (e + SH))) with (A * (den * 2 ^ (e + SH))) in E3 by ring.
        set (B := den * 2 ^ (e + SH)) in *. set (C := num * 2 ^ SH) in *. clearbody A B C m.
        clear - E3 M2 X. apply Z.abs_le in M2. nia. }
      apply Z.le_trans with (2 ^ p * 2 ^ (E + SH)).
      + apply Z.mul_le_mono_nonneg_r; [apply Z.lt_le_incl, pow2_pos; lia|lia].
      + apply Z.le_trans with (2 ^ (p - 1) * 2 ^ (e + SH)); [|apply Z.mul_le_mono_nonneg_r; lia].
        rewrite <- !Z.pow_add_r by lia. apply Z.pow_le_mono_r; lia. }
  clearbody m e. pose proof (pow2_pos (p - 1) ltac:(lia)) as P1.
  assert (P2 : 2 ^ p = 2 * 2 ^ (p - 1)) by (change 2 with (2 ^ 1) at 2; rewrite <- Z.pow_add_r by lia; f_equal; lia).
  destruct (m =? 2 ^ p) eqn:Em.
  - apply Z.eqb_eq in Em. assert (Hh : m / 2 = 2 ^ (p - 1)) by (rewrite Em, P2, Z.mul_comm, Z.div_mul; lia). rewrite Hh.
    replace (2 ^ (p - 1) =? 0) with false by lia. destruct (emax - p <? e + 1); [now right|left].
    cbn [finite fexp fixed]. split; [reflexivity|]. split; [lia|]. rewrite Z2Pos.id by lia.
    eapply Z.le_trans; [exact G|]. rewrite Em.
    assert (V : 2 ^ (p - 1) * 2 ^ (e + 1 + SH) = 2 ^ p * 2 ^ (e + SH)) by (rewrite <- !Z.pow_add_r by lia; f_equal; lia).
    rewrite V. destruct s; lia.
  - destruct (m =? 0) eqn:E0.
    + left. apply Z.eqb_eq in E0. cbn [finite fexp fixed]. split; [reflexivity|]. split; [unfold SH; lia|].
      rewrite E0 in G. destruct s; lia.
    + destruct (emax - p <? e); [now right|left]. cbn [finite fexp fixed]. split; [reflexivity|]. split; [lia|].
      rewrite Z2Pos.id by lia. destruct s; lia.
Qed.

Lemma round_ratio_below p emax s num den v : fmt p emax -> 0 < num -> 0 < den -> fl p emax v ->
  num * 2 ^ SH <= den * v ->
  finite (round_ratio p emax s num den) = true /\ - SH <= fexp (round_ratio p emax s num den) /\
  (if s then -1 else 1) * fixed (round_ratio p emax s num den) <= v.
Proof.
  intros (Hp & Hmin & Hmin0 & Hem) Hn Hd (M & E & -> & HM & HE) Hv. unfold round_ratio.
  pose proof (ratio_exp_spec p emax num den ltac:(lia) Hmin Hn Hd) as (E1 & E2 & E3). cbv zeta in *.
  set (e := ratio_exp p emax num den) in *.
  pose proof (ratio_mant_spec num den e ltac:(lia) Hn Hd) as (M1 & M2). cbv zeta in *.
  set (m := rne (scale_num num e) (scale_den den e)) in *.
  pose proof (pow2_pos (e + SH) ltac:(lia)) as Pe.
  assert (X : 0 < den * 2 ^ (e + SH)) by (apply Z.mul_pos_pos; lia).
  assert (L : e <= E).
  { destruct E3 as [->|E3]; [lia|]. destruct (Z.le_gt_cases e E); [assumption|exfalso].
    assert (B : M * 2 ^ (E + SH) < 2 ^ (p - 1 + e + SH)).
    { apply Z.lt_le_trans with (2 ^ p * 2 ^ (E + SH)).
      - apply Z.mul_lt_mono_pos_r; [apply pow2_pos; lia|lia].
      - rewrite <- Z.pow_add_r by lia. apply Z.pow_le_mono_r; lia. }
    apply (Z.mul_lt_mono_pos_l den) in B; lia. }
  assert (Q : M * 2 ^ (E + SH) = M * 2 ^ (E - e) * 2 ^ (e + SH)) by (rewrite align; [reflexivity|lia|lia]).
  assert (G : m * 2 ^ (e + SH) <= M * 2 ^ (E + SH)).
  { rewrite Q in *. apply Z.mul_le_mono_nonneg_r; [lia|]. set (K := M * 2 ^ (E - e)) in *. clearbody K.
    destruct (Z.le_gt_cases m K); [assumption|exfalso].
    replace (den * (K * 2 ^ (e + SH))) with (K * (den * 2 ^ (e + SH))) in Hv by ring.
    set (u := den * 2 ^ (e + SH)) in *. set (w := num * 2 ^ SH) in *. clearbody u w m.
    clear - Hv M2 X H. apply Z.abs_le in M2. nia. }
  assert (Hmb : m = 2 ^ p -> e + 1 <= emax - p).
  { intros ->. destruct (Z.eq_dec e E) as [->|]; [exfalso|lia].
    apply Z.mul_le_mono_pos_r in G; lia. }
  clearbody m e. pose proof (pow2_pos (p - 1) ltac:(lia)) as P1.
  assert (P2 : 2 ^ p = 2 * 2 ^ (p - 1)) by (change 2 with (2 ^ 1) at 2; rewrite <- Z.pow_add_r by lia; f_equal; lia).
  destruct (m =? 2 ^ p) eqn:Em.
  - apply Z.eqb_eq in Em. specialize (Hmb Em). assert (Hh : m / 2 = 2 ^ (p - 1)) by (rewrite Em, P2, Z.mul_comm, Z.div_mul; lia). rewrite Hh.
    replace (2 ^ (p - 1) =? 0) with false by lia. replace (emax - p <? e + 1) with false by lia.
    cbn [finite fexp fixed]. split; [reflexivity|]. split; [lia|]. rewrite Z2Pos.id by lia.
    eapply Z.le_trans; [|exact G]. rewrite Em.
    assert (V : 2 ^ (p - 1) * 2 ^ (e + 1 + SH) = 2 ^ p * 2 ^ (e + SH)) by (rewrite <- !Z.pow_add_r by lia; f_equal; lia).
    rewrite V. destruct s; lia.
  - destruct (m =? 0) eqn:E0.
    + apply Z.eqb_eq in E0. cbn [finite fexp fixed]. split; [reflexivity|]. split; [unfold SH; lia|].
      rewrite E0 in G. destruct s; lia.
    + replace (emax - p <? e) with false by lia. cbn [finite fexp fixed]. split; [reflexivity|]. split; [lia|].
      rewrite Z2Pos.id by lia. destruct s; lia.
Qed.

Lemma round_s_above p emax zs num den v : fmt p emax -> 0 < den -> fl p emax v ->
  den * v <= num * 2 ^ SH -> above (round_s p emax zs num den) v.
Proof.
  intros F Hd Hv H. pose proof pow_SH_pos as P. unfold round_s. destruct (num =? 0) eqn:E0.
  - apply Z.eqb_eq in E0 as ->. left. cbn [finite fexp fixed]. split; [reflexivity|]. split; [unfold SH; lia|]. nia.
  - apply Z.eqb_neq in E0. destruct (num <? 0) eqn:El.
    + apply Z.ltb_lt in El. left.
      destruct (round_ratio_below p emax true (Z.abs num) den (- v) F) as (A & B & C); try lia; try assumption; try (apply fl_opp; assumption).
      split; [exact A|]. split; [exact B|]. lia.
    + apply Z.ltb_ge in El.
      destruct (round_ratio_above p emax false (Z.abs num) den v F) as [(A & B & C)|A]; try lia; try assumption.
      * left. split; [exact A|]. split; [exact B|]. lia.
      * now right.
Qed.

Lemma round_s_below p emax zs num den v : fmt p emax -> 0 < den -> fl p emax v ->
  num * 2 ^ SH <= den * v -> below (round_s p emax zs num den) v.
Proof.
  intros F Hd Hv H. pose proof pow_SH_pos as P. unfold round_s. destruct (num =? 0) eqn:E0.
  - apply Z.eqb_eq in E0 as ->. left. cbn [finite fexp fixed]. split; [reflexivity|]. split; [unfold SH; lia|]. nia.
  - apply Z.eqb_neq in E0. destruct (num <? 0) eqn:El.
    + apply Z.ltb_lt in El.
      destruct (round_ratio_above p emax true (Z.abs num) den (- v) F) as [(A & B & C)|A]; try lia; try assumption; try (apply fl_opp; assumption).
      * left. split; [exact A|]. split; [exact B|]. lia.
      * now right.
    + apply Z.ltb_ge in El. left.
      destruct (round_ratio_below p emax false (Z.abs num) den v F) as (A & B & C); try lia; try assumption.
      * split; [exact A|]. split; [exact B|]. lia.
Qed.

(** ---- The operations round their exact results ---- *)
Lemma round_dyadic_s p emax zs m e : - SH <= e ->
  exists num den, round_dyadic p emax zs m e = round_s p emax zs num den /\ 0 < den /\ num * 2 ^ SH = den * (m * 2 ^ (e + SH)).
Proof.
  intros He. exists (m * 2 ^ Z.max 0 e), (2 ^ Z.max 0 (- e)).
  pose proof (pow2_pos (Z.max 0 e) (Z.le_max_l _ _)) as P1. pose proof (pow2_pos (Z.max 0 (- e)) (Z.le_max_l _ _)) as P2.
  split; [|split; [exact P2|]].
  - unfold round_dyadic, round_s. destruct (m =? 0) eqn:E0.
    + apply Z.eqb_eq in E0 as ->. reflexivity.
    + apply Z.eqb_neq in E0. replace (m * 2 ^ Z.max 0 e =? 0) with false by (symmetry; apply Z.eqb_neq; nia).
      rewrite Z.abs_mul, (Z.abs_eq (2 ^ Z.max 0 e)) by lia. f_equal. apply eq_true_iff_eq. rewrite !Z.ltb_lt. nia.
  - assert (G : 2 ^ Z.max 0 e * 2 ^ SH = 2 ^ Z.max 0 (- e) * 2 ^ (e + SH)) by (rewrite <- !Z.pow_add_r by (unfold SH in *; lia); f_equal; lia).
    rewrite <- Z.mul_assoc, G. ring.
Qed.

Lemma fadd_s p emax x y : finite x = true -> finite y = true -> - SH <= fexp x -> - SH <= fexp y ->
  exists zs num den, fadd p emax x y = round_s p emax zs num den /\ 0 < den /\ num * 2 ^ SH = den * (fixed x + fixed y).
Proof.
  intros Fx Fy Ex Ey.
  assert (E : exists zs, fadd p emax x y = round_dyadic p emax zs
     (fmant x * 2 ^ (fexp x - Z.min (fexp x) (fexp y)) + fmant y * 2 ^ (fexp y - Z.min (fexp x) (fexp y))) (Z.min (fexp x) (fexp y))).
  { destruct x; try discriminate Fx; destruct y; try discriminate Fy; eexists; reflexivity. }
  destruct E as [zs ->]. exists zs.
  destruct (round_dyadic_s p emax zs (fmant x * 2 ^ (fexp x - Z.min (fexp x) (fexp y)) + fmant y * 2 ^ (fexp y - Z.min (fexp x) (fexp y)))
    (Z.min (fexp x) (fexp y)) ltac:(lia)) as (num & den & -> & D & V).
  exists num, den. split; [reflexivity|]. split; [exact D|]. rewrite V. f_equal.
  rewrite Z.mul_add_distr_r, !align by lia. now rewrite !fixed_mant by assumption.
Qed.

Lemma fixed_opp x : fixed (fopp x) = - fixed x.
Proof. destruct x as [s| | |s m e]; try reflexivity. destruct s; cbn [fopp fixed negb]; ring. Qed.

Lemma fsub_s p emax x y : finite x = true -> finite y = true -> - SH <= fexp x -> - SH <= fexp y ->
  exists zs num den, fsub p emax x y = round_s p emax zs num den /\ 0 < den /\ num * 2 ^ SH = den * (fixed x - fixed y).
Proof.
  intros Fx Fy Ex Ey. unfold fsub. rewrite <- Z.add_opp_r, <- fixed_opp. apply fadd_s; try assumption.
  - now destruct y.
  - now destruct y.
Qed.

Lemma fdiv_s p emax x y : finite x = true -> finite y = true -> - SH <= fexp x -> - SH <= fexp y -> fixed y <> 0 ->
  exists zs num den, fdiv p emax x y = round_s p emax zs num den /\ 0 < den /\ num * fixed y = fixed x * den.
Proof.
  intros Fx Fy Ex Ey Hy.
  destruct y as [sy| | |sy my ey]; try discriminate Fy; [now destruct Hy|].
  destruct x as [sx| | |sx mx ex]; try discriminate Fx.
  { exists (xorb sx sy), 0, 1. split; [reflexivity|]. split; [lia|]. cbn [fixed]. ring. }
  exists false, ((if xorb sx sy then -1 else 1) * (Z.pos mx * 2 ^ Z.max 0 (ex - ey))), (Z.pos my * 2 ^ Z.max 0 (- (ex - ey))).
  pose proof (pow2_pos (Z.max 0 (ex - ey)) (Z.le_max_l _ _)) as P1.
  pose proof (pow2_pos (Z.max 0 (- (ex - ey))) (Z.le_max_l _ _)) as P2.
  cbn [fexp] in *.
  assert (N : 0 < Z.pos mx * 2 ^ Z.max 0 (ex - ey)) by (apply Z.mul_pos_pos; lia).
  split; [|split; [apply Z.mul_pos_pos; lia|]].
  - transitivity (round_ratio p emax (xorb sx sy) (Z.pos mx * 2 ^ Z.max 0 (ex - ey)) (Z.pos my * 2 ^ Z.max 0 (- (ex - ey)))); [destruct sx, sy; reflexivity|].
    set (n := Z.pos mx * 2 ^ Z.max 0 (ex - ey)) in *. clearbody n. unfold round_s.
    destruct (xorb sx sy).
    + replace (-1 * n =? 0) with false by lia. replace (-1 * n <? 0) with true by lia. f_equal. lia.
    + replace (1 * n =? 0) with false by lia. replace (1 * n <? 0) with false by lia. f_equal. lia.
  - cbn [fixed].
    assert (G : 2 ^ Z.max 0 (ex - ey) * 2 ^ (ey + SH) = 2 ^ (ex + SH) * 2 ^ Z.max 0 (- (ex - ey))).
    { rewrite <- !Z.pow_add_r by lia. f_equal. lia. }
    assert (K : Z.pos mx * 2 ^ Z.max 0 (ex - ey) * (Z.pos my * 2 ^ (ey + SH)) = Z.pos mx * 2 ^ (ex + SH) * (Z.pos my * 2 ^ Z.max 0 (- (ex - ey)))).
    { transitivity (Z.pos mx * Z.pos my * (2 ^ Z.max 0 (ex - ey) * 2 ^ (ey + SH))); [ring|]. rewrite G. ring. }
    destruct sx, sy; cbn [xorb]; try lia.
Qed.

(** ---- Comparison with bounds ---- *)
Lemma flt_below x r v : finite x = true -> - SH <= fexp x -> below r v -> v <= fixed x -> flt x r = false.
Proof.
  intros Fx Ex [(Fr & Er & Vr)| ->] H.
  - rewrite flt_finite by assumption. apply Z.ltb_ge. lia.
  - unfold flt. now destruct x.
Qed.
Lemma flt_above x r v : finite x = true -> - SH <= fexp x -> above r v -> fixed x < v -> flt x r = true.
Proof.
  intros Fx Ex [(Fr & Er & Vr)| ->] H.
  - rewrite flt_finite by assumption. apply Z.ltb_lt. lia.
  - unfold flt. now destruct x.
Qed.
Lemma fle_above x r v : finite x = true -> - SH <= fexp x -> above r v -> fixed x <= v -> fle x r = true.
Proof.
  intros Fx Ex [(Fr & Er & Vr)| ->] H.
  - rewrite fle_finite by assumption. apply Z.leb_le. lia.
  - unfold fle. now destruct x.
Qed.
Lemma above_below_finite x a b : above x a -> below x b -> finite x = true /\ - SH <= fexp x /\ a <= fixed x <= b.
Proof.
  intros [(F & E & V)|D1] [(F' & E' & V')|D2]; subst; try discriminate; auto.
Qed.
