(** Facts about the float model: agreement with the standard library's SpecFloat on samples, exactness on integers. *)
From Verif Require Import CBase Num NumProofs FloatOps.
Local Open Scope Z_scope.

(** Samples: ordinary numbers, denormals, extremes, zeros, infinities, NaN. *)
Definition samples : list spec_float :=
  [S754_finite false 8388608 (-23); S754_finite false 13421773 (-27); S754_finite true 10485760 (-22);
   S754_finite false 1 (-149); S754_finite true 3 (-149); FLT_MAX; FLT_MIN; S754_finite true 16777215 104;
   S754_finite false 16777215 (-23); S754_finite false 12345677 (-20); S754_finite true 12345678 (-3);
   S754_finite false 8388609 (-24); S754_zero false; S754_zero true; S754_infinity false; S754_infinity true; S754_nan].
Example agrees_with_SpecFloat :
  map (fun q => addf (fst q) (snd q)) (list_prod samples samples) = map (fun q => SFadd 24 128 (fst q) (snd q)) (list_prod samples samples) /\
  map (fun q => subf (fst q) (snd q)) (list_prod samples samples) = map (fun q => SFsub 24 128 (fst q) (snd q)) (list_prod samples samples) /\
  map (fun q => mulf (fst q) (snd q)) (list_prod samples samples) = map (fun q => SFmul 24 128 (fst q) (snd q)) (list_prod samples samples) /\
  map (fun q => divf (fst q) (snd q)) (list_prod samples samples) = map (fun q => SFdiv 24 128 (fst q) (snd q)) (list_prod samples samples) /\
  map (fun q => fcmp (fst q) (snd q)) (list_prod samples samples) = map (fun q => SFcompare (fst q) (snd q)) (list_prod samples samples).
Proof. vm_compute. repeat split. Qed.

(** ---- Values ---- *)
Lemma fixed_mant x : finite x = true -> fixed x = fmant x * 2 ^ (fexp x + SH).
Proof. destruct x as [s|s| |s m e]; intros H; try discriminate H; [reflexivity|]. cbn [fixed fmant fexp]. destruct s; ring. Qed.

Lemma align a b e : e <= a -> - SH <= e -> b * 2 ^ (a - e) * 2 ^ (e + SH) = b * 2 ^ (a + SH).
Proof. intros H1 H2. rewrite <- Z.mul_assoc, <- Z.pow_add_r by lia. do 2 f_equal. lia. Qed.

(** Comparison of finite numbers is comparison of values. *)
Lemma fcmp_finite x y : finite x = true -> finite y = true -> - SH <= fexp x -> - SH <= fexp y ->
  fcmp x y = Some (fixed x ?= fixed y).
Proof.
  intros Fx Fy Ex Ey.
  assert (G : fcmp x y = Some (fmant x * 2 ^ (fexp x - Z.min (fexp x) (fexp y)) ?= fmant y * 2 ^ (fexp y - Z.min (fexp x) (fexp y)))).
  { destruct x; try discriminate Fx; destruct y; try discriminate Fy; reflexivity. }
  rewrite G. f_equal. rewrite !fixed_mant by assumption. set (e := Z.min (fexp x) (fexp y)) in *.
  rewrite <- (align (fexp x) (fmant x) e), <- (align (fexp y) (fmant y) e) by lia.
  rewrite <- (Zmult_compare_compat_r _ _ (2 ^ (e + SH))) by (apply Z.lt_gt, pow2_pos; lia). reflexivity.
Qed.
Lemma flt_finite x y : finite x = true -> finite y = true -> - SH <= fexp x -> - SH <= fexp y ->
  flt x y = (fixed x <? fixed y).
Proof. intros. unfold flt, Z.ltb. rewrite fcmp_finite by assumption. now destruct (fixed x ?= fixed y). Qed.
Lemma fgt_finite x y : finite x = true -> finite y = true -> - SH <= fexp x -> - SH <= fexp y ->
  fgt x y = (fixed y <? fixed x).
Proof.
  intros. unfold fgt, Z.ltb. rewrite fcmp_finite by assumption. rewrite (Z.compare_antisym (fixed x) (fixed y)).
  now destruct (fixed x ?= fixed y).
Qed.
Lemma fle_finite x y : finite x = true -> finite y = true -> - SH <= fexp x -> - SH <= fexp y ->
  fle x y = (fixed x <=? fixed y).
Proof. intros. unfold fle, Z.leb. rewrite fcmp_finite by assumption. now destruct (fixed x ?= fixed y). Qed.

(** ---- Numbers that are integers ---- *)
Definition rep (x : spec_float) (z : Z) : Prop := finite x = true /\ -64 <= fexp x /\ fixed x = z * 2 ^ SH.

Lemma rep_zero s : rep (S754_zero s) 0.
Proof. repeat split. cbn. lia. Qed.

Lemma pow_SH_pos : 0 < 2 ^ SH.
Proof. apply pow2_pos. unfold SH. lia. Qed.

Lemma round_ratio_rep p emax s num den v : 1 < p <= 64 -> - SH <= fmin p emax -> fmin p emax <= 0 -> 2 * p <= emax ->
  0 < v <= 2 ^ p -> 0 < num -> 0 < den -> num * 2 ^ SH = den * (v * 2 ^ SH) ->
  rep (round_ratio p emax s num den) (signed s v).
Proof.
  intros Hp Hmin Hmin0 Hmax Hv Hn Hd Heq.
  assert (G : exists M E, 0 < M < 2 ^ p /\ fmin p emax <= E <= emax - p /\ v * 2 ^ SH = M * 2 ^ (E + SH)).
  { destruct (Z.eq_dec v (2 ^ p)) as [->|].
    - exists 1, p. split; [split; [lia|apply Z.pow_gt_1; lia]|]. split; [lia|]. rewrite Z.pow_add_r by (unfold SH; lia). ring.
    - exists v, 0. split; [lia|]. split; [lia|reflexivity]. }
  destruct G as (M & E & G1 & G2 & G3). rewrite G3 in Heq.
  destruct (round_ratio_exact p emax s num den M E) as (m & e & X1 & X2 & X3 & X4 & X5); try lia.
  rewrite X1. rewrite <- G3 in X2. split; [reflexivity|]. cbn [fexp fixed]. split.
  - destruct (Z.le_gt_cases (-64) e) as [|C]; [assumption|exfalso].
    assert (P : 2 ^ p * 2 ^ (e + SH) <= 2 ^ SH).
    { rewrite <- Z.pow_add_r by lia. apply Z.pow_le_mono_r; lia. }
    pose proof (pow2_pos (e + SH) ltac:(lia)). pose proof pow_SH_pos. set (a := 2 ^ (e + SH)) in *. set (b := 2 ^ SH) in *.
    set (q := 2 ^ p) in *. clearbody a b q. clear - X2 X4 P Hv H H0. nia.
  - rewrite X2. unfold signed. destruct s; lia.
Qed.

Definition fmt (p emax : Z) : Prop := 1 < p <= 64 /\ - SH <= fmin p emax /\ fmin p emax <= 0 /\ 2 * p <= emax.
Lemma fmt_float : fmt 24 128. Proof. unfold fmt, fmin, SH. lia. Qed.
Lemma fmt_double : fmt 53 1024. Proof. unfold fmt, fmin, SH. lia. Qed.

Lemma round_dyadic_rep p emax zs m e z : fmt p emax -> - SH <= e -> m * 2 ^ (e + SH) = z * 2 ^ SH -> Z.abs z <= 2 ^ p ->
  rep (round_dyadic p emax zs m e) z.
Proof.
  intros (F1 & F2 & F3 & F4) He Heq Hz. unfold round_dyadic. pose proof (pow2_pos (e + SH) ltac:(lia)) as P1. pose proof pow_SH_pos as P2.
  destruct (m =? 0) eqn:Em.
  - apply Z.eqb_eq in Em as ->. assert (z = 0) as -> by (set (a := 2 ^ SH) in *; clearbody a; nia). apply rep_zero.
  - assert (Hs : z = signed (m <? 0) (Z.abs z)).
    { unfold signed. set (a := 2 ^ SH) in *. set (b := 2 ^ (e + SH)) in *. clearbody a b. destruct (m <? 0) eqn:E; nia. }
    rewrite Hs at 1. pose proof (pow2_pos (Z.max 0 e) (Z.le_max_l _ _)) as P3.
    pose proof (pow2_pos (Z.max 0 (- e)) (Z.le_max_l _ _)) as P4.
    apply round_ratio_rep; try assumption.
    + split; [|exact Hz]. set (a := 2 ^ SH) in *. set (b := 2 ^ (e + SH)) in *. clearbody a b. nia.
    + apply Z.mul_pos_pos; lia.
    + rewrite finite_ratio by exact He. f_equal.
      assert (A : Z.abs (m * 2 ^ (e + SH)) = Z.abs (z * 2 ^ SH)) by now rewrite Heq.
      rewrite !Z.abs_mul, (Z.abs_eq (2 ^ SH)), (Z.abs_eq (2 ^ (e + SH))) in A by lia. exact A.
Qed.

Lemma rep_fadd p emax x y a b : fmt p emax -> rep x a -> rep y b -> Z.abs (a + b) <= 2 ^ p -> rep (fadd p emax x y) (a + b).
Proof.
  intros F (Fx & Ex & Vx) (Fy & Ey & Vy) Hz.
  assert (E : exists zs, fadd p emax x y = round_dyadic p emax zs
     (fmant x * 2 ^ (fexp x - Z.min (fexp x) (fexp y)) + fmant y * 2 ^ (fexp y - Z.min (fexp x) (fexp y))) (Z.min (fexp x) (fexp y))).
  { destruct x; try discriminate Fx; destruct y; try discriminate Fy; eexists; reflexivity. }
  destruct E as [zs ->]. apply round_dyadic_rep; try assumption; [unfold SH; lia|].
  rewrite Z.mul_add_distr_r, !align by (unfold SH; lia). rewrite fixed_mant in Vx, Vy by assumption. rewrite Vx, Vy. ring.
Qed.
Lemma rep_fopp x a : rep x a -> rep (fopp x) (- a).
Proof.
  intros (Fx & Ex & Vx). destruct x as [s| | |s m e]; try discriminate Fx; cbn [fopp]; (split; [reflexivity|]; split; [exact Ex|]);
    cbn [fixed] in *; [|destruct s; cbn [negb]]; lia.
Qed.
Lemma rep_fsub p emax x y a b : fmt p emax -> rep x a -> rep y b -> Z.abs (a - b) <= 2 ^ p -> rep (fsub p emax x y) (a - b).
Proof. intros F Hx Hy Hz. unfold fsub. rewrite <- Z.add_opp_r. apply rep_fadd; auto using rep_fopp. Qed.
Lemma rep_fmul p emax x y a b : fmt p emax -> rep x a -> rep y b -> Z.abs (a * b) <= 2 ^ p -> rep (fmul p emax x y) (a * b).
Proof.
  intros F (Fx & Ex & Vx) (Fy & Ey & Vy) Hz.
  assert (E : exists zs, fmul p emax x y = round_dyadic p emax zs (fmant x * fmant y) (fexp x + fexp y)).
  { destruct x; try discriminate Fx; destruct y; try discriminate Fy; eexists; reflexivity. }
  destruct E as [zs ->]. apply round_dyadic_rep; try assumption; [unfold SH; lia|].
  rewrite fixed_mant in Vx, Vy by assumption.
  assert (G : (fmant x * fmant y * 2 ^ (fexp x + fexp y + SH)) * 2 ^ SH = (a * b * 2 ^ SH) * 2 ^ SH).
  { transitivity ((a * 2 ^ SH) * (b * 2 ^ SH)); [|ring]. rewrite <- Vx, <- Vy.
    replace (2 ^ (fexp x + fexp y + SH)) with (2 ^ (fexp x + fexp y + SH)) by reflexivity.
    assert (P : 2 ^ (fexp x + fexp y + SH) * 2 ^ SH = 2 ^ (fexp x + SH) * 2 ^ (fexp y + SH)).
    { rewrite <- !Z.pow_add_r by (unfold SH; lia). f_equal. lia. }
    rewrite <- Z.mul_assoc, P. ring. }
  apply Z.mul_cancel_r in G; [exact G|]. pose proof pow_SH_pos. lia.
Qed.

Lemma rep_float_of_int z : Z.abs z <= 2 ^ 24 -> rep (float_of_int z) z.
Proof.
  intros H. unfold float_of_int. destruct (z =? 0) eqn:E; [apply Z.eqb_eq in E as ->; apply rep_zero|].
  assert (Hs : z = signed (z <? 0) (Z.abs z)) by (unfold signed; destruct (z <? 0) eqn:?; lia).
  rewrite Hs at 3. destruct fmt_float as (F1 & F2 & F3 & F4). apply round_ratio_rep; try assumption; lia.
Qed.

Lemma rep_cmp x y a b : rep x a -> rep y b -> fcmp x y = Some (a ?= b).
Proof.
  intros (Fx & Ex & Vx) (Fy & Ey & Vy). rewrite fcmp_finite by (assumption || unfold SH; lia). f_equal. rewrite Vx, Vy.
  symmetry. apply Zmult_compare_compat_r. apply Z.lt_gt, pow_SH_pos.
Qed.
Lemma rep_lt x y a b : rep x a -> rep y b -> flt x y = (a <? b).
Proof. intros Hx Hy. unfold flt, Z.ltb. rewrite (rep_cmp _ _ _ _ Hx Hy). now destruct (a ?= b). Qed.
Lemma rep_gt x y a b : rep x a -> rep y b -> fgt x y = (b <? a).
Proof. intros Hx Hy. unfold fgt, Z.ltb. rewrite (rep_cmp _ _ _ _ Hx Hy), (Z.compare_antisym a b). now destruct (a ?= b). Qed.
Lemma rep_eq x y a b : rep x a -> rep y b -> feq x y = (a =? b).
Proof. intros Hx Hy. unfold feq. rewrite (rep_cmp _ _ _ _ Hx Hy). rewrite Z.eqb_compare. now destruct (a ?= b). Qed.
Lemma rep_MIN x y a b : rep x a -> rep y b -> rep (fMIN x y) (Z.min a b).
Proof. intros Hx Hy. unfold fMIN. rewrite (rep_lt _ _ _ _ Hx Hy). destruct (a <? b) eqn:E; [rewrite Z.min_l by lia|rewrite Z.min_r by lia]; assumption. Qed.
Lemma rep_MAX x y a b : rep x a -> rep y b -> rep (fMAX x y) (Z.max a b).
Proof. intros Hx Hy. unfold fMAX. rewrite (rep_gt _ _ _ _ Hx Hy). destruct (b <? a) eqn:E; [rewrite Z.max_l by lia|rewrite Z.max_r by lia]; assumption. Qed.
Lemma rep_int x z : rep x z -> in_int z = true -> int_of_float x = Ok z.
Proof.
  intros (Fx & Ex & Vx) Hi. pose proof pow_SH_pos as P. destruct x as [s| | |s m e]; try discriminate Fx.
  - cbn [fixed] in Vx. cbn [int_of_float]. f_equal. set (a := 2 ^ SH) in *. clearbody a. nia.
  - cbn [int_of_float]. cbn [fixed fexp] in *.
    rewrite (trunc_pos_value _ _ (if s then - z else z)); [|unfold SH; lia|destruct s; lia].
    destruct s; [rewrite Z.opp_involutive|]; now rewrite Hi.
Qed.
Lemma floor_int_value m e v : - SH <= e -> m * 2 ^ (e + SH) = v * 2 ^ SH -> floor_int m e = v.
Proof. exact (trunc_pos_value m e v). Qed.
Lemma rep_floor x z : rep x z -> Z.abs z <= 2 ^ 53 -> rep (ffloor x) z.
Proof.
  intros H Hz. pose proof H as (Fx & Ex & Vx). destruct x as [s| | |s m e]; try discriminate Fx; [exact H|].
  unfold ffloor. rewrite fixed_mant in Vx by reflexivity. rewrite (floor_int_value _ _ z) by (assumption || unfold SH; cbn [fexp] in *; lia).
  apply round_dyadic_rep; [apply fmt_double|unfold SH; lia|reflexivity|exact Hz].
Qed.
Lemma rep_ceil x z : rep x z -> Z.abs z <= 2 ^ 53 -> rep (fceil x) z.
Proof.
  intros H Hz. pose proof H as (Fx & Ex & Vx). destruct x as [s| | |s m e]; try discriminate Fx; [exact H|].
  unfold fceil. rewrite fixed_mant in Vx by reflexivity. rewrite (floor_int_value _ _ (- z)) by (lia || unfold SH; cbn [fexp] in *; lia).
  rewrite Z.opp_involutive. apply round_dyadic_rep; [apply fmt_double|unfold SH; lia|reflexivity|exact Hz].
Qed.

Lemma rep_float_of_double x z : rep x z -> Z.abs z <= 2 ^ 24 -> rep (float_of_double x) z.
Proof.
  intros (Fx & Ex & Vx) Hz. destruct x as [s| | |s m e]; try discriminate Fx; [repeat split; assumption|].
  cbn [float_of_double]. pose proof pow_SH_pos as P. cbn [fexp] in Ex. cbn [fixed] in Vx.
  assert (He : - SH <= e) by (unfold SH; lia). pose proof (pow2_pos (e + SH) ltac:(lia)) as P1.
  assert (Hs : exists v, z = signed s v /\ 0 < v /\ Z.pos m * 2 ^ (e + SH) = v * 2 ^ SH).
  { exists (Z.abs z). unfold signed. set (a := 2 ^ SH) in *. set (b := 2 ^ (e + SH)) in *. clearbody a b. clear - P P1 Vx. destruct s; nia. }
  destruct Hs as (v & -> & Hp & Hv).
  pose proof (pow2_pos (Z.max 0 e) (Z.le_max_l _ _)) as P3. pose proof (pow2_pos (Z.max 0 (- e)) (Z.le_max_l _ _)) as P4.
  destruct fmt_float as (F1 & F2 & F3 & F4). apply round_ratio_rep; try assumption.
  - split; [assumption|]. unfold signed in Hz. destruct s; lia.
  - apply Z.mul_pos_pos; lia.
  - rewrite finite_ratio by exact He. now rewrite Hv.
Qed.

Lemma rep_one : rep float_one 1.
Proof. repeat split. cbn [fexp float_one]. lia. Qed.
Definition FM : Z := 16777215 * 2 ^ 104.
Lemma rep_FLT_MAX : rep FLT_MAX FM.
Proof. split; [reflexivity|]. split; [cbn; lia|]. vm_compute. reflexivity. Qed.

(** A positive ratio that is not too small rounds to a positive number. *)
Lemma round_ratio_nonzero p emax s num den : 1 < p -> - SH <= fmin p emax -> 0 < num -> 0 < den ->
  den * 2 ^ (fmin p emax + SH) <= num * 2 ^ SH ->
  (exists m e, round_ratio p emax s num den = S754_finite s m e) \/ round_ratio p emax s num den = S754_infinity s.
Proof.
  intros Hp Hmin Hn Hd Hlo. unfold round_ratio.
  pose proof (ratio_exp_spec p emax num den Hp Hmin Hn Hd) as (E1 & E2 & E3). cbv zeta in *.
  set (e := ratio_exp p emax num den) in *.
  pose proof (ratio_mant_spec num den e ltac:(lia) Hn Hd) as (M1 & M2). cbv zeta in *.
  set (m := rne (scale_num num e) (scale_den den e)) in *.
  assert (X : den * 2 ^ (e + SH) <= num * 2 ^ SH).
  { destruct E3 as [->|E3]; [exact Hlo|]. eapply Z.le_trans; [|exact E3]. apply Z.mul_le_mono_nonneg_l; [lia|].
    apply Z.pow_le_mono_r; lia. }
  assert (Hm : 0 < m).
  { pose proof (pow2_pos (e + SH) ltac:(lia)) as P. pose proof (Z.mul_pos_pos den (2 ^ (e + SH)) Hd P) as Q.
    set (a := den * 2 ^ (e + SH)) in *. set (b := num * 2 ^ SH) in *. clearbody a b m. clear - X M2 Q. nia. }
  clearbody m e. pose proof (pow2_pos (p - 1) ltac:(lia)) as P1.
  assert (P2 : 2 ^ p = 2 * 2 ^ (p - 1)) by (change 2 with (2 ^ 1) at 2; rewrite <- Z.pow_add_r by lia; f_equal; lia).
  destruct (m =? 2 ^ p) eqn:Em.
  - apply Z.eqb_eq in Em. rewrite Em, P2, Z.mul_comm, Z.div_mul by lia.
    replace (2 ^ (p - 1) =? 0) with false by lia. destruct (emax - p <? e + 1); eauto.
  - replace (m =? 0) with false by lia. destruct (emax - p <? e); eauto.
Qed.

Lemma fmant_fixed_pos x z : rep x z -> 0 < z -> exists m e, x = S754_finite false m e /\ - SH <= e /\ Z.pos m * 2 ^ (e + SH) = z * 2 ^ SH.
Proof.
  intros (Fx & Ex & Vx) Hz. pose proof pow_SH_pos as P. destruct x as [s| | |s m e]; try discriminate Fx.
  - exfalso. cbn [fixed] in Vx. set (a := 2 ^ SH) in *. clearbody a. nia.
  - cbn [fixed fexp] in *. pose proof (pow2_pos (e + SH) ltac:(unfold SH; lia)) as P1. destruct s.
    + exfalso. set (a := 2 ^ SH) in *. set (b := 2 ^ (e + SH)) in *. clearbody a b. nia.
    + exists m, e. split; [reflexivity|]. split; [unfold SH; lia|lia].
Qed.

(** The quotient of two positive integers: the ratio that is rounded. *)
Lemma rep_fdiv_ratio p emax x y a b : rep x a -> rep y b -> 0 < a -> 0 < b ->
  exists num den, fdiv p emax x y = round_ratio p emax false num den /\ 0 < num /\ 0 < den /\ num * b = a * den.
Proof.
  intros Hx Hy Ha Hb. destruct (fmant_fixed_pos x a Hx Ha) as (m1 & e1 & -> & E1 & V1).
  destruct (fmant_fixed_pos y b Hy Hb) as (m2 & e2 & -> & E2 & V2).
  exists (Z.pos m1 * 2 ^ Z.max 0 (e1 - e2)), (Z.pos m2 * 2 ^ Z.max 0 (- (e1 - e2))).
  pose proof (pow2_pos (Z.max 0 (e1 - e2)) (Z.le_max_l _ _)) as P1.
  pose proof (pow2_pos (Z.max 0 (- (e1 - e2))) (Z.le_max_l _ _)) as P2.
  split; [reflexivity|]. split; [apply Z.mul_pos_pos; lia|]. split; [apply Z.mul_pos_pos; lia|].
  pose proof pow_SH_pos as P. pose proof (pow2_pos (e1 + SH) ltac:(lia)) as P3. pose proof (pow2_pos (e2 + SH) ltac:(lia)) as P4.
  apply (Z.mul_cancel_r _ _ (2 ^ SH)); [lia|].
  transitivity (Z.pos m1 * 2 ^ Z.max 0 (e1 - e2) * (b * 2 ^ SH)); [ring|]. rewrite <- V2.
  transitivity ((a * 2 ^ SH) * (Z.pos m2 * 2 ^ Z.max 0 (- (e1 - e2)))); [|ring]. rewrite <- V1.
  assert (G : 2 ^ Z.max 0 (e1 - e2) * 2 ^ (e2 + SH) = 2 ^ (e1 + SH) * 2 ^ Z.max 0 (- (e1 - e2))).
  { rewrite <- !Z.pow_add_r by lia. f_equal. lia. }
  transitivity (Z.pos m1 * Z.pos m2 * (2 ^ Z.max 0 (e1 - e2) * 2 ^ (e2 + SH))); [ring|]. rewrite G. ring.
Qed.

(** A quotient of integers, neither too small nor too large, is a positive number. *)
Lemma rep_fdiv_pos x y a b : rep x a -> rep y b -> 0 < a -> 0 < b -> b <= a * 2 ^ 100 ->
  (exists m e, divf x y = S754_finite false m e) \/ divf x y = S754_infinity false.
Proof.
  intros Hx Hy Ha Hb H. unfold divf. destruct (rep_fdiv_ratio 24 128 x y a b Hx Hy Ha Hb) as (num & den & -> & N1 & D1 & Heq).
  apply round_ratio_nonzero; try assumption; try (unfold fmin, SH; lia).
  change (fmin 24 128 + SH) with (SH - 149).
  assert (G : den <= num * 2 ^ 100).
  { apply (Z.mul_le_mono_pos_r _ _ b Hb). replace (num * 2 ^ 100 * b) with (num * b * 2 ^ 100) by ring. rewrite Heq.
    apply Z.le_trans with (den * (a * 2 ^ 100)); [apply Z.mul_le_mono_nonneg_l; lia|]. apply Z.eq_le_incl. ring. }
  apply Z.le_trans with (num * 2 ^ 100 * 2 ^ (SH - 149)).
  - apply Z.mul_le_mono_nonneg_r; [apply Z.lt_le_incl, pow2_pos; unfold SH; lia|exact G].
  - rewrite <- Z.mul_assoc, <- Z.pow_add_r by (unfold SH; lia). apply Z.mul_le_mono_nonneg_l; [lia|].
    apply Z.pow_le_mono_r; unfold SH; lia.
Qed.

(** A double quotient of integers up to 2^24 is not below 1e-10. *)
Lemma rep_fdiv_not_small x y a b : rep x a -> rep y b -> 0 < a -> 0 < b -> a <= 2 ^ 24 -> b <= 2 ^ 24 ->
  flt (divd x y) (scaled_double false 10 1 (-10)) = false.
Proof.
  intros Hx Hy Ha Hb La Lb. unfold divd. destruct (rep_fdiv_ratio 53 1024 x y a b Hx Hy Ha Hb) as (num & den & E & N1 & D1 & Heq).
  pose proof pow_SH_pos as P.
  assert (Hj : num * 2 ^ SH < den * 2 ^ (25 + SH)).
  { rewrite Z.pow_add_r by (unfold SH; lia). rewrite Z.mul_assoc. apply Z.mul_lt_mono_pos_r; [exact P|].
    change (2 ^ 25) with (2 * 2 ^ 24). set (t := 2 ^ 24) in *. clearbody t. nia. }
  pose proof (round_ratio_error 53 1024 false num den 25 ltac:(lia) ltac:(unfold fmin, SH; lia) N1 D1 ltac:(unfold fmin; lia) ltac:(lia) Hj)
    as (F & S & B). cbv zeta in *. rewrite <- E in F, S, B.
  destruct (round_ratio_nonzero 53 1024 false num den) as [(m & e & E1)|E1]; try assumption; try (unfold fmin, SH; lia).
  { change (fmin 53 1024 + SH) with 0. rewrite Z.pow_0_r, Z.mul_1_r.
    assert (den <= num * 2 ^ 24) by (set (t := 2 ^ 24) in *; clearbody t; nia).
    apply Z.le_trans with (num * 2 ^ 24); [assumption|]. apply Z.mul_le_mono_nonneg_l; [lia|]. apply Z.pow_le_mono_r; unfold SH; lia. }
  2: { rewrite <- E in E1. rewrite E1 in F. discriminate F. }
  pose proof (round_ratio_valid 53 1024 false num den false m e ltac:(lia) ltac:(unfold fmin, SH; lia) N1 D1 E1) as (_ & Ve & _).
  rewrite <- E in E1. rewrite flt_finite; [|exact F|vm_compute; reflexivity|rewrite E1; cbn [fexp]; unfold fmin, SH in *; lia|vm_compute; discriminate].
  apply Z.ltb_ge.
  assert (U : fixed (scaled_double false 10 1 (-10)) <= 2 ^ (SH - 33)) by (vm_compute; discriminate).
  eapply Z.le_trans; [exact U|]. clear U.
  set (f := fixed (fdiv 53 1024 x y)) in *. clearbody f.
  assert (L : den <= num * 2 ^ 24) by (set (t := 2 ^ 24) in *; clearbody t; nia).
  change (25 - 53 + SH) with (SH - 28) in B. change SH with (33 + (SH - 33)) in B at 1.
  rewrite (Z.pow_add_r 2 33) in B by (unfold SH; lia). replace (SH - 28) with (5 + (SH - 33)) in B by (unfold SH; lia).
  rewrite (Z.pow_add_r 2 5) in B by (unfold SH; lia).
  pose proof (pow2_pos (SH - 33) ltac:(unfold SH; lia)) as P5. set (q := 2 ^ (SH - 33)) in *. clearbody q.
  change (2 ^ 33) with 8589934592 in B. change (2 ^ 5) with 32 in B. change (2 ^ 24) with 16777216 in L.
  rewrite Z.mul_1_l in B. clear - B L P5 D1 N1. apply Z.abs_le in B as [_ B].
  assert (num * q >= 0) by nia. assert (den * q <= num * q * 16777216) by nia.
  assert (512 * (den * q) <= num * (8589934592 * q)) by lia.
  assert (2 * den * f >= 2 * (512 * (den * q)) - 32 * (den * q)) by lia.
  apply Z.le_ngt. intros C. assert (den * f <= den * q) by nia. nia.
Qed.
