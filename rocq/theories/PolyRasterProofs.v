(** Rasterised polygons: where the nodes of a row are, and the pixels of convex polygons. *)
From Coq Require Import Permutation.
From Verif Require Import CBase Num NumSpec NumProofs Buffer Region RegionSpec FloatOps FloatProofs FloatMono RegionGeom GeomSpec GeomProofs BoundsProofs
  OverlapProofs RasterProofs PolygonSpec PolygonProofs ConvexProofs.
Local Open Scope Z_scope.

(** ---- Multiplication ---- *)
Lemma fmul_s p emax x y : finite x = true -> finite y = true -> - SH <= fexp x -> - SH <= fexp y ->
  exists zs num den, fmul p emax x y = round_s p emax zs num den /\ 0 < den /\ num * 2 ^ SH * 2 ^ SH = den * (fixed x * fixed y).
Proof.
  intros Fx Fy Ex Ey.
  assert (E : exists zs, fmul p emax x y = round_dyadic p emax zs (fmant x * fmant y) (fexp x + fexp y)).
  { destruct x as [| | |? ? ?]; try discriminate Fx; destruct y as [| | |? ? ?]; try discriminate Fy; eexists; reflexivity. }
  destruct E as (zs & E). set (m := fmant x * fmant y) in *. set (e := fexp x + fexp y) in *.
  assert (V : fixed x * fixed y = m * 2 ^ (e + 2 * SH)).
  { unfold m, e. assert (X : forall z, finite z = true -> fixed z = fmant z * 2 ^ (fexp z + SH)).
    { intros [| | |s q f] F; try discriminate F; cbn [fixed fmant fexp]; [lia|]. destruct s; lia. }
    rewrite (X x Fx), (X y Fy). replace (fexp x + fexp y + 2 * SH) with ((fexp x + SH) + (fexp y + SH)) by lia. rewrite (Z.pow_add_r 2 (fexp x + SH) (fexp y + SH)) by lia. ring. }
  exists zs, (m * 2 ^ Z.max 0 e), (2 ^ Z.max 0 (- e)).
  pose proof (pow2_pos (Z.max 0 e) (Z.le_max_l _ _)) as P1. pose proof (pow2_pos (Z.max 0 (- e)) (Z.le_max_l _ _)) as P2.
  split; [|split; [exact P2|]].
  - rewrite E. unfold round_dyadic, round_s. destruct (m =? 0) eqn:E0.
    + apply Z.eqb_eq in E0. rewrite E0. reflexivity.
    + apply Z.eqb_neq in E0. replace (m * 2 ^ Z.max 0 e =? 0) with false by (symmetry; apply Z.eqb_neq; nia).
      replace (m * 2 ^ Z.max 0 e <? 0) with (m <? 0) by (symmetry; destruct (Z.ltb_spec m 0); [apply Z.ltb_lt|apply Z.ltb_ge]; nia).
      rewrite Z.abs_mul. now rewrite (Z.abs_eq (2 ^ Z.max 0 e)) by lia.
  - rewrite V. rewrite (Z.mul_comm (2 ^ Z.max 0 (- e))), <- !Z.mul_assoc. f_equal. rewrite <- !Z.pow_add_r by (unfold SH in *; lia). f_equal. lia.
Qed.

(** x is exactly the integer z. *)
Definition exactly (x : spec_float) (z : Z) : Prop := finite x = true /\ - SH <= fexp x /\ fixed x = z * 2 ^ SH.
Lemma exactly_rep x z : rep x z -> exactly x z.
Proof. intros (F & E & V). split; [exact F|split; [unfold SH; lia|exact V]]. Qed.
Lemma above_below_exactly x z : above x (z * 2 ^ SH) -> below x (z * 2 ^ SH) -> exactly x z.
Proof. intros A B. destruct (above_below_finite _ _ _ A B) as (F & E & V). split; [exact F|split; [exact E|lia]]. Qed.
Lemma fl_units M e : Z.abs M < 2 ^ 53 -> 0 <= e <= 60 -> fl 53 1024 (M * 2 ^ (SH - e)).
Proof. intros H He. exists M, (- e). split; [f_equal; f_equal; lia|]. split; [exact H|]. unfold fmin. lia. Qed.
Lemma fl_exact z : Z.abs z < 2 ^ 53 -> fl 53 1024 (z * 2 ^ SH).
Proof. intros H. replace (2 ^ SH) with (2 ^ (SH - 0)) by (f_equal; lia). apply fl_units; [exact H|lia]. Qed.
Lemma exactly_mul x y a b : exactly x a -> exactly y b -> Z.abs (a * b) < 2 ^ 53 -> exactly (muld x y) (a * b).
Proof.
  intros (Fx & Ex & Vx) (Fy & Ey & Vy) H. destruct (fmul_s 53 1024 x y Fx Fy Ex Ey) as (zs & num & den & E & D & Q). pose proof pow_SH_pos as P.
  assert (Q' : num = den * (a * b)). { apply (Z.mul_reg_r _ _ (2 ^ SH * 2 ^ SH)); [nia|]. rewrite Vx, Vy in Q. lia. }
  unfold muld. rewrite E. apply above_below_exactly; [apply round_s_above|apply round_s_below]; try apply fmt_double; try exact D; try (apply fl_exact; exact H); rewrite Q'; lia.
Qed.
Lemma exactly_add x y a b : exactly x a -> exactly y b -> Z.abs (a + b) < 2 ^ 53 -> exactly (addd x y) (a + b).
Proof.
  intros (Fx & Ex & Vx) (Fy & Ey & Vy) H. destruct (fadd_s 53 1024 x y Fx Fy Ex Ey) as (zs & num & den & E & D & Q). pose proof pow_SH_pos as P.
  rewrite Vx, Vy in Q.
  unfold addd. rewrite E. apply above_below_exactly; [apply round_s_above|apply round_s_below]; try apply fmt_double; try exact D; try (apply fl_exact; exact H); rewrite Q; lia.
Qed.

(** ---- The position of a node ---- *)
Section Node.
  Variables (a r k x : spec_float) (A R K X : Z).
  Hypothesis Ra : rep a A.
  Hypothesis Rr : rep r R.
  Hypothesis Rk : rep k K.
  Hypothesis Rx : rep x X.
  Hypothesis HR : R <> 0.
  Hypothesis HA : 0 <= A * Z.sgn R <= Z.abs R.
  Hypothesis BR : Z.abs R <= 2 ^ 24.
  Hypothesis BK : Z.abs K <= 2 ^ 24.
  Hypothesis BX : Z.abs X <= 2 ^ 23.
  Let t := divd a r.
  Let m := muld t k.
  Let s := addd x m.
  Let a' := A * Z.sgn R.
  Let r' := Z.abs R.
  Let U := 2 ^ SH.

  Lemma node_t : exists zs num den, t = round_s 53 1024 zs num den /\ 0 < den /\ num * r' = a' * den.
  Proof.
    destruct Ra as (Fa & Ea & Va), Rr as (Fr & Er & Vr). pose proof pow_SH_pos as P.
    destruct (fdiv_s 53 1024 a r Fa Fr ltac:(unfold SH; lia) ltac:(unfold SH; lia)) as (zs & num & den & E & D & Q).
    { rewrite Vr. intros H. apply Z.mul_eq_0 in H. lia. }
    exists zs, num, den. split; [exact E|]. split; [exact D|]. rewrite Va, Vr in Q.
    assert (Q' : num * R = A * den) by (apply (Z.mul_reg_r _ _ (2 ^ SH)); [lia|]; lia).
    unfold r', a'. destruct (Z.sgn_spec R) as [(H & ->)|[(H & ->)|(H & ->)]]; lia.
  Qed.
  Lemma node_t_above v : fl 53 1024 v -> v * r' <= a' * U -> above t v.
  Proof.
    intros Hv H. destruct node_t as (zs & num & den & -> & D & Q). apply round_s_above; [apply fmt_double|exact D|exact Hv|].
    fold U. apply (Z.mul_le_mono_pos_r _ _ r'); [unfold r'; lia|].
    replace (num * U * r') with (U * (num * r')) by ring. rewrite Q. replace (den * v * r') with (den * (v * r')) by ring.
    replace (U * (a' * den)) with (den * (a' * U)) by ring. apply Z.mul_le_mono_nonneg_l; lia.
  Qed.
  Lemma node_t_below v : fl 53 1024 v -> a' * U <= v * r' -> below t v.
  Proof.
    intros Hv H. destruct node_t as (zs & num & den & -> & D & Q). apply round_s_below; [apply fmt_double|exact D|exact Hv|].
    fold U. apply (Z.mul_le_mono_pos_r _ _ r'); [unfold r'; lia|].
    replace (num * U * r') with (U * (num * r')) by ring. rewrite Q. replace (den * v * r') with (den * (v * r')) by ring.
    replace (U * (a' * den)) with (den * (a' * U)) by ring. apply Z.mul_le_mono_nonneg_l; lia.
  Qed.

  Lemma node_exact_0 : A = 0 -> exactly s X.
  Proof.
    intros E. assert (T : exactly t 0).
    { apply above_below_exactly; [apply node_t_above|apply node_t_below]; try (apply fl_exact; lia); unfold a'; rewrite E; lia. }
    pose proof (exactly_mul _ _ _ _ T (exactly_rep _ _ Rk) ltac:(lia)) as M. fold m in M.
    pose proof (exactly_add _ _ _ _ (exactly_rep _ _ Rx) M ltac:(lia)) as S'. now rewrite Z.mul_0_l, Z.add_0_r in S'.
  Qed.
  Lemma node_exact_1 : A = R -> exactly s (X + K).
  Proof.
    intros E. assert (T : exactly t 1).
    { assert (G : a' = r') by (unfold a', r'; rewrite E; lia).
      apply above_below_exactly; [apply node_t_above|apply node_t_below]; try (apply fl_exact; lia); rewrite G; fold U; lia. }
    pose proof (exactly_mul _ _ _ _ T (exactly_rep _ _ Rk) ltac:(lia)) as M. fold m in M.
    pose proof (exactly_add _ _ _ _ (exactly_rep _ _ Rx) M ltac:(lia)) as S'. now rewrite Z.mul_1_l in S'.
  Qed.

  (** s is within 2^-27 of X + a'/r' * K *)
  Lemma node_near : finite s = true /\ - SH <= fexp s /\
    exists L H, L * 2 ^ (SH - 28) <= fixed s <= H * 2 ^ (SH - 28) /\
      r' * X * 2 ^ 28 + a' * K * 2 ^ 28 - 2 * r' <= r' * L /\ r' * H <= r' * X * 2 ^ 28 + a' * K * 2 ^ 28 + 2 * r'.
  Proof.
    assert (Hr : 0 < r') by (unfold r'; lia). assert (Ha : 0 <= a' <= r') by (unfold a', r'; exact HA).
    assert (Hr2 : r' <= 2 ^ 24) by exact BR.
    set (u := 2 ^ (SH - 52)). assert (Hu : 0 < u) by (apply pow2_pos; unfold SH; lia).
    assert (HU : U = 2 ^ 52 * u) by (unfold U, u; rewrite <- Z.pow_add_r by (unfold SH; lia); f_equal; lia).
    assert (H28 : 2 ^ (SH - 28) = 2 ^ 24 * u) by (unfold u; rewrite <- Z.pow_add_r by (unfold SH; lia); f_equal; lia).
    (* the quotient *)
    set (F := a' * 2 ^ 52 / r').
    pose proof (Z.div_mod (a' * 2 ^ 52) r' ltac:(lia)) as DM. pose proof (Z.mod_pos_bound (a' * 2 ^ 52) r' Hr) as MB. fold F in DM.
    assert (BF : 0 <= F <= 2 ^ 52). { split; [apply Z.div_pos; lia|]. apply Z.div_le_upper_bound; lia. }
    assert (T1 : above t (F * u)) by (apply node_t_above; [apply (fl_units F 52); lia|]; rewrite HU; nia).
    assert (T2 : below t ((F + 1) * u)) by (apply node_t_below; [apply (fl_units (F + 1) 52); lia|]; rewrite HU; nia).
    destruct (above_below_finite _ _ _ T1 T2) as (Ft & Et & Vt). clear T1 T2.
    (* the product *)
    destruct (exactly_rep _ _ Rk) as (Fk & Ek & Vk). destruct (fmul_s 53 1024 t k Ft Fk Et Ek) as (zs & num & den & Em & Dm & Qm). fold muld in Em. fold m in Em.
    rewrite Vk in Qm. fold U in Qm. assert (Qm' : num * U = den * (fixed t * K)).
    { pose proof pow_SH_pos as P. fold U in P. apply (Z.mul_reg_r _ _ U); [lia|]. rewrite Qm. ring. }
    set (lo := Z.min (F * K) ((F + 1) * K)). set (hi := Z.max (F * K) ((F + 1) * K)).
    assert (P1 : lo * u <= fixed t * K <= hi * u).
    { unfold lo, hi. clear - Vt Hu. destruct (Z.le_ge_cases 0 K) as [HK|HK].
      - assert (F * u * K <= fixed t * K) by (apply Z.mul_le_mono_nonneg_r; lia).
        assert (fixed t * K <= (F + 1) * u * K) by (apply Z.mul_le_mono_nonneg_r; lia).
        assert (E1 : F * K <= (F + 1) * K) by lia. rewrite Z.min_l, Z.max_r by lia. split; lia.
      - assert (F * u * K >= fixed t * K) by (apply Z.le_ge, Z.mul_le_mono_nonpos_r; lia).
        assert (fixed t * K >= (F + 1) * u * K) by (apply Z.le_ge, Z.mul_le_mono_nonpos_r; lia).
        assert (E1 : (F + 1) * K <= F * K) by lia. rewrite Z.min_r, Z.max_l by lia. split; lia. }
    assert (Blo : - (2 ^ 52 + 1) * 2 ^ 24 <= lo /\ hi <= (2 ^ 52 + 1) * 2 ^ 24).
    { unfold lo, hi. clearbody F. clear - BF BK.
      assert (Z.abs (F * K) <= 2 ^ 52 * 2 ^ 24) by (rewrite Z.abs_mul; apply Z.mul_le_mono_nonneg; lia).
      assert (Z.abs ((F + 1) * K) <= (2 ^ 52 + 1) * 2 ^ 24) by (rewrite Z.abs_mul; apply Z.mul_le_mono_nonneg; lia). set (y1 := F * K) in *. set (y2 := (F + 1) * K) in *. clearbody y1 y2. lia. }
    assert (Rlo : a' * K * 2 ^ 52 - r' * 2 ^ 24 <= r' * lo /\ r' * hi <= a' * K * 2 ^ 52 + r' * 2 ^ 24).
    { assert (I1 : r' * (F * K) = K * (a' * 2 ^ 52) - K * ((a' * 2 ^ 52) mod r')) by (rewrite DM at 1; ring).
      set (q := (a' * 2 ^ 52) mod r') in *. clearbody q. clear - MB BK I1 lo hi.
      assert (I2 : r' * ((F + 1) * K) = K * (a' * 2 ^ 52) - K * q + K * r') by (rewrite <- I1; ring).
      assert (Z.abs (K * q) <= 2 ^ 24 * r') by (rewrite Z.abs_mul; apply Z.mul_le_mono_nonneg; lia).
      assert (Z.abs (K * (r' - q)) <= 2 ^ 24 * r') by (rewrite Z.abs_mul; apply Z.mul_le_mono_nonneg; lia).
      assert (I3 : - (K * q) + K * r' = K * (r' - q)) by ring.
      replace (a' * K * 2 ^ 52) with (K * (a' * 2 ^ 52)) by ring. unfold lo, hi. clear lo hi. destruct (Z.min_spec (F * K) ((F + 1) * K)) as [(_ & ->)|(_ & ->)], (Z.max_spec (F * K) ((F + 1) * K)) as [(_ & ->)|(_ & ->)]; rewrite ?I1, ?I2; rewrite <- ?Z.add_assoc; apply Z.abs_le in H, H0; lia. }
    clearbody lo hi. set (G := lo / 2 ^ 24). set (H := hi / 2 ^ 24 + 1).
    assert (BG : 2 ^ 24 * G <= lo < 2 ^ 24 * G + 2 ^ 24).
    { pose proof (Z.div_mod lo (2 ^ 24) ltac:(lia)). pose proof (Z.mod_pos_bound lo (2 ^ 24) ltac:(lia)). unfold G. lia. }
    assert (BH : hi < 2 ^ 24 * H <= hi + 2 ^ 24).
    { pose proof (Z.div_mod hi (2 ^ 24) ltac:(lia)). pose proof (Z.mod_pos_bound hi (2 ^ 24) ltac:(lia)). unfold H. lia. }
    clearbody G H.
    assert (Lohi : lo <= hi) by (apply (Z.mul_le_mono_pos_r _ _ u Hu); lia).
    assert (SG : Z.abs G <= 2 ^ 52 + 2 /\ Z.abs H <= 2 ^ 52 + 2) by lia.
    assert (M1 : above m (G * 2 ^ (SH - 28))).
    { rewrite Em. apply round_s_above; [apply fmt_double|exact Dm|apply fl_units; lia|]. fold U. rewrite Qm'. apply Z.mul_le_mono_nonneg_l; [lia|].
      rewrite H28. assert (2 ^ 24 * G * u <= lo * u) by (apply Z.mul_le_mono_nonneg_r; lia). lia. }
    assert (M2 : below m (H * 2 ^ (SH - 28))).
    { rewrite Em. apply round_s_below; [apply fmt_double|exact Dm|apply fl_units; lia|]. fold U. rewrite Qm'. apply Z.mul_le_mono_nonneg_l; [lia|].
      rewrite H28. assert (hi * u <= 2 ^ 24 * H * u) by (apply Z.mul_le_mono_nonneg_r; lia). lia. }
    destruct (above_below_finite _ _ _ M1 M2) as (Fm & Emx & Vm). clear M1 M2.
    (* the sum *)
    destruct (exactly_rep _ _ Rx) as (Fx & Ex & Vx). destruct (fadd_s 53 1024 x m Fx Fm Ex Emx) as (zs' & num' & den' & Es & Ds & Qs). fold addd in Es. fold s in Es.
    rewrite Vx in Qs.
    assert (UX : X * 2 ^ SH = X * 2 ^ 28 * 2 ^ (SH - 28)) by (rewrite <- Z.mul_assoc, <- Z.pow_add_r by (unfold SH; lia); do 2 f_equal; lia).
    assert (BX28 : Z.abs (X * 2 ^ 28) <= 2 ^ 51) by (rewrite Z.abs_mul; change (Z.abs (2 ^ 28)) with (2 ^ 28); lia).
    assert (BS : Z.abs (X * 2 ^ 28 + G) < 2 ^ 53 /\ Z.abs (X * 2 ^ 28 + H) < 2 ^ 53).
    { set (x28 := X * 2 ^ 28) in *. clearbody x28. clear - SG BX28. lia. }
    assert (S1 : above s ((X * 2 ^ 28 + G) * 2 ^ (SH - 28))).
    { rewrite Es. apply round_s_above; [apply fmt_double|exact Ds|apply fl_units; [apply BS|lia]|]. rewrite Qs. apply Z.mul_le_mono_nonneg_l; [lia|]. rewrite UX. lia. }
    assert (S2 : below s ((X * 2 ^ 28 + H) * 2 ^ (SH - 28))).
    { rewrite Es. apply round_s_below; [apply fmt_double|exact Ds|apply fl_units; [apply BS|lia]|]. rewrite Qs. apply Z.mul_le_mono_nonneg_l; [lia|]. rewrite UX. lia. }
    destruct (above_below_finite _ _ _ S1 S2) as (Fs & Ess & Vs). split; [exact Fs|]. split; [exact Ess|].
    exists (X * 2 ^ 28 + G), (X * 2 ^ 28 + H). split; [exact Vs|].
    assert (Q1 : r' * (lo - 2 ^ 24) <= r' * (2 ^ 24 * G)) by (apply Z.mul_le_mono_nonneg_l; lia).
    assert (Q2 : r' * (2 ^ 24 * H) <= r' * (hi + 2 ^ 24)) by (apply Z.mul_le_mono_nonneg_l; lia).
    clear - Q1 Q2 Rlo. split.
    - assert (2 ^ 24 * (a' * K * 2 ^ 28 - 2 * r') <= 2 ^ 24 * (r' * G)); [|lia]. replace (2 ^ 24 * (a' * K * 2 ^ 28 - 2 * r')) with (a' * K * 2 ^ 52 - r' * 2 ^ 24 - r' * 2 ^ 24) by ring.
      lia.
    - assert (2 ^ 24 * (r' * H) <= 2 ^ 24 * (a' * K * 2 ^ 28 + 2 * r')); [|lia]. replace (2 ^ 24 * (a' * K * 2 ^ 28 + 2 * r')) with (a' * K * 2 ^ 52 + r' * 2 ^ 24 + r' * 2 ^ 24) by ring.
      lia.
  Qed.
End Node.

(** Conversion to int drops less than one. *)
Lemma int_of_float_near x b : finite x = true -> - SH <= fexp x -> Z.abs (fixed x) <= b * 2 ^ SH -> 0 <= b <= 2 ^ 30 ->
  exists n, int_of_float x = Ok n /\ (n - 1) * 2 ^ SH < fixed x < (n + 1) * 2 ^ SH /\ forall z, fixed x = z * 2 ^ SH -> n = z.
Proof.
  intros F E B Hb. pose proof pow_SH_pos as P. destruct x as [s| | |s m e]; try discriminate F.
  - exists 0. split; [reflexivity|]. cbn [fixed]. split; [lia|]. intros z Hz. symmetry in Hz. apply Z.mul_eq_0 in Hz. lia.
  - cbn [fixed fexp] in *. set (v := Z.pos m * 2 ^ (e + SH)) in *. pose proof (pow2_pos (e + SH) ltac:(lia)) as Pe.
    assert (Hv : 0 < v) by (unfold v; apply Z.mul_pos_pos; lia).
    assert (T : trunc_pos (Z.pos m) e * 2 ^ SH <= v < (trunc_pos (Z.pos m) e + 1) * 2 ^ SH).
    { unfold trunc_pos, v. destruct (0 <=? e) eqn:Ee; [apply Z.leb_le in Ee|apply Z.leb_gt in Ee].
      - replace (Z.pos m * 2 ^ (e + SH)) with (Z.pos m * 2 ^ e * 2 ^ SH) by (rewrite (Z.pow_add_r 2 e SH) by (unfold SH; lia); ring). lia.
      - pose proof (pow2_pos (- e) ltac:(lia)) as Pn. pose proof (Z.div_mod (Z.pos m) (2 ^ - e) ltac:(lia)) as DM. pose proof (Z.mod_pos_bound (Z.pos m) (2 ^ - e) Pn) as MB.
        set (q := Z.pos m / 2 ^ - e) in *. set (r := Z.pos m mod 2 ^ - e) in *. assert (HS : 2 ^ SH = 2 ^ (- e) * 2 ^ (e + SH)) by (rewrite <- (Z.pow_add_r 2 (- e) (e + SH)) by lia; f_equal; lia).
        rewrite HS. set (c := 2 ^ - e) in *. set (u := 2 ^ (e + SH)) in *. clearbody q r c u. rewrite DM. clear - Pn MB Pe.
        assert (0 <= r * u) by (apply Z.mul_nonneg_nonneg; lia). assert (r * u < c * u) by (apply Z.mul_lt_mono_pos_r; lia). lia. }
    cbn [int_of_float]. set (t := trunc_pos (Z.pos m) e) in *. clearbody t v. set (u := 2 ^ SH) in *. clearbody u.
    assert (Bv : v <= b * u) by (destruct s; lia).
    assert (Bt : t <= b) by (apply (Z.mul_le_mono_pos_r _ _ u P); lia).
    assert (Nt : 0 <= t). { assert (0 < (t + 1) * u) by lia. apply Z.mul_pos_cancel_r in H; lia. }
    exists (if s then - t else t). change (2 ^ 30) with 1073741824 in Hb.
    rewrite in_int_of; [|unfold INT_MIN, INT_MAX; destruct s; lia]. split; [reflexivity|]. split; [destruct s; lia|].
    intros z Hz. clear - P T Hz. destruct s.
    + assert (- z = t); [|lia]. assert (t * u <= - z * u < (t + 1) * u) by lia.
      assert (t <= - z) by (apply (Z.mul_le_mono_pos_r _ _ u P); lia). assert (- z < t + 1) by (apply (Z.mul_lt_mono_pos_r u); lia). lia.
    + assert (t * u <= z * u < (t + 1) * u) by lia.
      assert (t <= z) by (apply (Z.mul_le_mono_pos_r _ _ u P); lia). assert (z < t + 1) by (apply (Z.mul_lt_mono_pos_r u); lia). lia.
Qed.

(** The node a side of the polygon puts on a row it touches: within one pixel of the side, and exact at its ends. *)
Definition node_at (row : Z) (side : point * point) (n : Z) : Prop :=
  let '(a, b) := side in
  Z.abs (turn a b (n, row)) <= Z.abs (snd b - snd a) /\
  (snd a <> snd b -> (row = snd a -> n = fst a) /\ (row = snd b -> n = fst b)) /\
  (snd a = snd b -> n = fst b).
Definition touches (row : Z) (side : point * point) : bool := on_row row (snd (fst side)) (snd (snd side)).

Lemma edge_node_at row pj pi zj zi : rep_pt pj zj -> rep_pt pi zi -> Z.abs row <= 2 ^ 23 ->
  exists n, edge_node row pj pi = Ok (if touches row (zj, zi) then [n] else []) /\ (touches row (zj, zi) = true -> node_at row (zj, zi) n).
Proof.
  destruct pj as [xj yj], pi as [xi yi], zj as [Xj Yj], zi as [Xi Yi]. unfold rep_pt, touches, node_at. cbn [fst snd].
  intros (Rxj & Ryj & Bxj & Byj) (Rxi & Ryi & Bxi & Byi) Hrow. unfold edge_node.
  rewrite (rep_int _ _ Ryi) by (apply small_int; lia). cbn [obind].
  rewrite (rep_int _ _ Ryj) by (apply small_int; lia). cbn [obind].
  replace (((Yi <=? row) && (row <? Yj)) || ((Yj <=? row) && (row <? Yi)) || ((Yi <? row) && (row <=? Yj)) ||
     ((Yj <? row) && (row <=? Yi)) || ((Yi =? Yj) && (Yi =? row))) with (on_row row Yj Yi) by (unfold on_row; lia).
  destruct (on_row row Yj Yi) eqn:Eon.
  2:{ exists Xi. split; [reflexivity|]. discriminate. }
  assert (Hon : Z.min Yi Yj <= row <= Z.max Yi Yj) by (unfold on_row in Eon; lia).
  pose proof (rep_fsub 24 128 yj yi Yj Yi fmt_float Ryj Ryi ltac:(lia)) as Rr. fold subf in Rr.
  pose proof (rep_fsub 24 128 xj xi Xj Xi fmt_float Rxj Rxi ltac:(lia)) as Rk. fold subf in Rk.
  pose proof (rep_fsub 24 128 _ yi row Yi fmt_float (rep_float_of_int row ltac:(lia)) Ryi ltac:(lia)) as Ra. fold subf in Ra.
  rewrite (rep_eq _ _ _ _ Rr (rep_zero false)). destruct (Yj - Yi =? 0) eqn:Ez.
  - apply Z.eqb_eq in Ez. assert (Yj = Yi) by lia. subst Yj. assert (row = Yi) by lia. subst row.
    exists Xi. rewrite (rep_int _ _ Rxi) by (apply small_int; lia). split; [reflexivity|]. intros _. unfold turn. cbn [fst snd].
    split; [rewrite !Z.sub_diag; lia|]. split; [congruence|reflexivity].
  - apply Z.eqb_neq in Ez. set (A := row - Yi) in *. set (R := Yj - Yi) in *. set (K := Xj - Xi) in *.
    assert (HA : 0 <= A * Z.sgn R <= Z.abs R) by (unfold A, R in *; destruct (Z.sgn_spec (Yj - Yi)) as [(? & ->)|[(? & ->)|(? & ->)]]; lia).
    destruct (node_near _ _ _ _ A R K Xi Ra Rr Rk Rxi Ez HA ltac:(unfold R; lia) ltac:(unfold K; lia) Bxi) as (Fs & Es & L & H & Vs & HL & HH).
    pose proof (node_exact_0 _ _ _ _ A R K Xi Ra Rr Rk Rxi Ez Bxi) as X0.
    pose proof (node_exact_1 _ _ _ _ A R K Xi Ra Rr Rk Rxi Ez ltac:(unfold K; lia) Bxi) as X1.
    set (s := addd xi _) in *. clearbody s.
    set (a' := A * Z.sgn R) in *. set (r' := Z.abs R) in *. assert (Hr : 0 < r' <= 2 ^ 24) by (unfold r', R; lia).
    assert (Dir : r' * Xi + a' * K = (if R <? 0 then -1 else 1) * (R * Xi + A * K)).
    { unfold r', a'. destruct (Z.ltb_spec R 0); [rewrite Z.abs_neq, Z.sgn_neg by lia|rewrite Z.abs_eq, Z.sgn_pos by lia]; lia. }
    (* the exact crossing is between the ends *)
    assert (Bc : Z.abs (r' * Xi + a' * K) <= r' * 2 ^ 23).
    { replace (r' * Xi + a' * K) with ((r' - a') * Xi + a' * Xj) by (unfold K; ring).
      clear - HA Bxi Bxj. clearbody a' r'. assert (Z.abs ((r' - a') * Xi) <= (r' - a') * 2 ^ 23) by (rewrite Z.abs_mul, (Z.abs_eq (r' - a')) by lia; apply Z.mul_le_mono_nonneg_l; lia).
      assert (Z.abs (a' * Xj) <= a' * 2 ^ 23) by (rewrite Z.abs_mul, (Z.abs_eq a') by lia; apply Z.mul_le_mono_nonneg_l; lia). lia. }
    set (c := r' * Xi + a' * K) in *.
    assert (HL' : c * 2 ^ 28 - 2 * r' <= r' * L) by (unfold c; lia). assert (HH' : r' * H <= c * 2 ^ 28 + 2 * r') by (unfold c; lia). clear HL HH.
    clearbody c. set (u := 2 ^ (SH - 28)) in *. assert (Hu : 0 < u) by (apply pow2_pos; unfold SH; lia).
    assert (HU : 2 ^ SH = 2 ^ 28 * u) by (unfold u; rewrite <- Z.pow_add_r by (unfold SH; lia); f_equal; lia). clearbody u.
    assert (LB : - (2 ^ 51 + 2) <= L). { apply (Z.mul_le_mono_pos_l _ _ r'); [lia|]. clear - HL' Bc Hr. replace (r' * - (2 ^ 51 + 2)) with (- (r' * 2 ^ 23) * 2 ^ 28 - 2 * r') by ring. lia. }
    assert (HB : H <= 2 ^ 51 + 2). { apply (Z.mul_le_mono_pos_l _ _ r'); [lia|]. clear - HH' Bc Hr. replace (r' * (2 ^ 51 + 2)) with (r' * 2 ^ 23 * 2 ^ 28 + 2 * r') by ring. lia. }
    destruct (int_of_float_near s (2 ^ 23 + 1) Fs Es) as (n & En & Bn & Xn).
    { rewrite HU. clear - Vs LB HB Hu. assert (- (2 ^ 51 + 2) * u <= L * u) by (apply Z.mul_le_mono_nonneg_r; lia).
      assert (H * u <= (2 ^ 51 + 2) * u) by (apply Z.mul_le_mono_nonneg_r; lia). lia. }
    { lia. }
    rewrite En. cbn [obind]. exists n. split; [reflexivity|]. intros _.
    (* |r' n - c| <= r' *)
    assert (Near : c - r' <= r' * n <= c + r').
    { rewrite HU in Bn. assert (U1 : (n - 1) * 2 ^ 28 < H) by (clear - Bn Vs Hu; apply (Z.mul_lt_mono_pos_r u); [exact Hu|lia]).
      assert (U2 : L < (n + 1) * 2 ^ 28) by (clear - Bn Vs Hu; apply (Z.mul_lt_mono_pos_r u); [exact Hu|lia]). clear - U1 U2 HL' HH' Hr.
      assert (r' * ((n - 1) * 2 ^ 28) < r' * H) by (apply Z.mul_lt_mono_pos_l; lia).
      assert (r' * L < r' * ((n + 1) * 2 ^ 28)) by (apply Z.mul_lt_mono_pos_l; lia). lia. }
    split; [|split; [intros _; split|intros E; exfalso; clear - E Ez; unfold R in Ez; lia]].
    + unfold turn. cbn [fst snd].
      replace ((Xi - Xj) * (row - Yj) - (Yi - Yj) * (n - Xj)) with (R * n - (R * Xi + A * K)) by (unfold R, A, K; ring).
      replace (Z.abs (Yi - Yj)) with r' by (unfold r', R; clear; lia). clear - Near Dir.
      assert (E : (if R <? 0 then -1 else 1) * R = r') by (unfold r'; destruct (Z.ltb_spec R 0); lia).
      destruct (R <? 0); [replace (r' * n) with (- (R * n)) in Near by (rewrite <- E; ring)|replace (r' * n) with (R * n) in Near by (rewrite <- E; ring)]; lia.
    + intros E. destruct (X1 ltac:(unfold A, R; clear - E; lia)) as (_ & _ & V). rewrite (Xn _ V). unfold K. clear. lia.
    + intros E. destruct (X0 ltac:(unfold A; clear - E; lia)) as (_ & _ & V). exact (Xn _ V).
Qed.
