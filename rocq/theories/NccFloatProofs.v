(** Proofs about the floats of the tutorial tracker (C132). *)
From Verif Require Import CBase Num NumProofs Region FloatOps FloatProofs RasterProofs GeomProofs Ncc NccFloat NccSpec NccProofs.
Local Open Scope Z_scope.

(** ---- Numbers that are halves of integers ---- *)
Definition half (x : spec_float) (h : Z) : Prop := finite x = true /\ -64 <= fexp x /\ fixed x = h * 2 ^ (SH - 1).
Lemma pow_SH_half : 2 ^ SH = 2 * 2 ^ (SH - 1).
Proof. replace SH with (1 + (SH - 1)) at 1 by ring. rewrite Z.pow_add_r by (unfold SH; lia). reflexivity. Qed.
Lemma pow_SHm_pos : 0 < 2 ^ (SH - 1).
Proof. apply pow2_pos. unfold SH. lia. Qed.
Lemma half_rep x z : rep x z -> half x (2 * z).
Proof. intros (F & E & V). split; [exact F|]. split; [exact E|]. rewrite V, pow_SH_half. ring. Qed.
Lemma half_zero s : half (S754_zero s) 0.
Proof. split; [reflexivity|]. split; [cbn; lia|reflexivity]. Qed.
Lemma round_ratio_half p emax s num den v : 1 < p <= 63 -> - SH <= fmin p emax -> fmin p emax <= -1 -> 2 * p <= emax ->
  0 < v <= 2 ^ p -> 0 < num -> 0 < den -> num * 2 ^ SH = den * (v * 2 ^ (SH - 1)) ->
  half (round_ratio p emax s num den) (signed s v).
Proof.
  intros Hp Hmin Hmin0 Hmax Hv Hn Hd Heq.
  assert (G : exists M E, 0 < M < 2 ^ p /\ fmin p emax <= E <= emax - p /\ v * 2 ^ (SH - 1) = M * 2 ^ (E + SH)).
  { destruct (Z.eq_dec v (2 ^ p)) as [->|].
    - exists 1, (p - 1). split; [split; [lia|apply Z.pow_gt_1; lia]|]. split; [lia|]. rewrite <- Z.pow_add_r by (unfold SH; lia). rewrite Z.mul_1_l. f_equal. ring.
    - exists v, (-1). split; [lia|]. split; [lia|]. replace (-1 + SH) with (SH - 1) by ring. reflexivity. }
  destruct G as (M & E & G1 & G2 & G3). rewrite G3 in Heq.
  destruct (round_ratio_exact p emax s num den M E) as (m & e & X1 & X2 & X3 & X4 & X5); try lia.
  rewrite X1. rewrite <- G3 in X2. split; [reflexivity|]. cbn [fexp fixed]. split.
  - destruct (Z.le_gt_cases (-64) e) as [|C]; [assumption|exfalso].
    assert (P : 2 ^ p * 2 ^ (e + SH) <= 2 ^ (SH - 1)).
    { rewrite <- Z.pow_add_r by lia. apply Z.pow_le_mono_r; lia. }
    pose proof (pow2_pos (e + SH) ltac:(lia)) as H. pose proof pow_SHm_pos as H0. set (a := 2 ^ (e + SH)) in *. set (b := 2 ^ (SH - 1)) in *.
    set (q := 2 ^ p) in *. clearbody a b q. clear - X2 X4 P Hv H H0. nia.
  - rewrite X2. unfold signed. destruct s; lia.
Qed.
Lemma round_dyadic_half zs m e h : - SH <= e -> m * 2 ^ (e + SH) = h * 2 ^ (SH - 1) -> Z.abs h <= 2 ^ 24 -> half (round_dyadic 24 128 zs m e) h.
Proof.
  intros He Heq Hz. unfold round_dyadic. pose proof (pow2_pos (e + SH) ltac:(lia)) as P1. pose proof pow_SHm_pos as P2.
  destruct (m =? 0) eqn:Em.
  - apply Z.eqb_eq in Em as ->. assert (h = 0) as -> by (set (a := 2 ^ (SH - 1)) in *; clearbody a; nia). apply half_zero.
  - apply Z.eqb_neq in Em. assert (Hs : h = signed (m <? 0) (Z.abs h)).
    { unfold signed. set (a := 2 ^ (SH - 1)) in *. set (b := 2 ^ (e + SH)) in *. clearbody a b. clear - P1 P2 Heq Em. destruct (m <? 0) eqn:E; nia. }
    rewrite Hs at 1. pose proof (pow2_pos (Z.max 0 e) (Z.le_max_l _ _)) as P3.
    pose proof (pow2_pos (Z.max 0 (- e)) (Z.le_max_l _ _)) as P4.
    apply round_ratio_half; [lia|unfold fmin, SH; lia|unfold fmin; lia|lia| | |exact P4|].
    + split; [|exact Hz]. set (a := 2 ^ (SH - 1)) in *. set (b := 2 ^ (e + SH)) in *. clearbody a b. clear - P1 P2 Heq Em. nia.
    + apply Z.mul_pos_pos; lia.
    + rewrite finite_ratio by exact He. f_equal.
      assert (A : Z.abs (m * 2 ^ (e + SH)) = Z.abs (h * 2 ^ (SH - 1))) by now rewrite Heq.
      rewrite !Z.abs_mul, (Z.abs_eq (2 ^ (SH - 1))), (Z.abs_eq (2 ^ (e + SH))) in A by lia. exact A.
Qed.
Lemma half_fadd x y a b : half x a -> half y b -> Z.abs (a + b) <= 2 ^ 24 -> half (addf x y) (a + b).
Proof.
  intros (Fx & Ex & Vx) (Fy & Ey & Vy) Hz. unfold addf.
  assert (E : exists zs, fadd 24 128 x y = round_dyadic 24 128 zs
     (fmant x * 2 ^ (fexp x - Z.min (fexp x) (fexp y)) + fmant y * 2 ^ (fexp y - Z.min (fexp x) (fexp y))) (Z.min (fexp x) (fexp y))).
  { destruct x; try discriminate Fx; destruct y; try discriminate Fy; eexists; reflexivity. }
  destruct E as [zs ->]. apply round_dyadic_half; try assumption; [unfold SH; lia|].
  rewrite Z.mul_add_distr_r, !align by (unfold SH; lia). rewrite fixed_mant in Vx, Vy by assumption. rewrite Vx, Vy. ring.
Qed.
Lemma half_fopp x a : half x a -> half (fopp x) (- a).
Proof.
  intros (Fx & Ex & Vx). destruct x as [s| | |s m e]; try discriminate Fx; cbn [fopp]; (split; [reflexivity|]; split; [exact Ex|]);
    cbn [fixed] in *; [|destruct s; cbn [negb]]; lia.
Qed.
Lemma half_fsub x y a b : half x a -> half y b -> Z.abs (a - b) <= 2 ^ 24 -> half (subf x y) (a - b).
Proof. intros Hx Hy Hz. unfold subf, fsub. rewrite <- Z.add_opp_r in *. exact (half_fadd x (fopp y) a (- b) Hx (half_fopp _ _ Hy) Hz). Qed.

(** Half of an integer *)
Lemma two_is : float_of_int 2 = S754_finite false 8388608 (-22).
Proof. vm_compute. reflexivity. Qed.
Lemma half_fdiv x a : rep x a -> Z.abs a <= 2 ^ 24 -> half (divf x (float_of_int 2)) a.
Proof.
  intros (Fx & Ex & Vx) Ha. rewrite two_is. pose proof pow_SH_pos as P. destruct x as [s| | |s m e]; try discriminate Fx.
  - assert (a = 0) as -> by (cbn [fixed] in Vx; set (u := 2 ^ SH) in *; clearbody u; nia). unfold divf. cbn [fdiv]. apply half_zero.
  - unfold divf. cbn [fdiv fmant fexp fsign]. cbv zeta. cbn [fexp fixed] in *.
    replace (Z.abs (if s then - Z.pos m else Z.pos m)) with (Z.pos m) by (destruct s; lia). rewrite xorb_false_r.
    pose proof (pow2_pos (e + SH) ltac:(unfold SH; lia)) as P1.
    assert (A : Z.pos m * 2 ^ (e + SH) = Z.abs a * 2 ^ SH) by (set (u := 2 ^ SH) in *; set (w := 2 ^ (e + SH)) in *; clearbody u w; clear - Vx P P1; destruct s; nia).
    assert (Hs : a = signed s (Z.abs a)) by (unfold signed; set (u := 2 ^ SH) in *; set (w := 2 ^ (e + SH)) in *; clearbody u w; clear - Vx P P1; destruct s; nia).
    rewrite Hs at 1. pose proof (pow2_pos (Z.max 0 (e - -22)) (Z.le_max_l _ _)) as P3.
    pose proof (pow2_pos (Z.max 0 (- (e - -22))) (Z.le_max_l _ _)) as P4.
    apply round_ratio_half; [lia|unfold fmin, SH; lia|unfold fmin; lia|lia| | | |].
    + split; [|exact Ha]. set (u := 2 ^ SH) in *. set (w := 2 ^ (e + SH)) in *. clearbody u w. clear - A P P1. nia.
    + apply Z.mul_pos_pos; lia.
    + apply Z.mul_pos_pos; lia.
    + apply (Z.mul_cancel_r _ _ 2); [lia|]. change (Z.abs 8388608) with (2 ^ 23).
      transitivity (2 ^ 23 * 2 ^ Z.max 0 (- (e - -22)) * (Z.abs a * (2 * 2 ^ (SH - 1)))); [|ring].
      rewrite <- pow_SH_half, <- A. set (b := Z.pos m). clearbody b.
      transitivity (b * (2 ^ Z.max 0 (e - -22) * 2 ^ SH * 2 ^ 1)); [change (2 ^ 1) with 2; ring|].
      transitivity (b * (2 ^ 23 * 2 ^ Z.max 0 (- (e - -22)) * 2 ^ (e + SH))); [|ring].
      f_equal. rewrite <- !Z.pow_add_r by (unfold SH; lia). f_equal. lia.
Qed.

(** Rounding and truncation *)
Lemma half_mant m e h : -64 <= e -> Z.pos m * 2 ^ (e + SH) = h * 2 ^ (SH - 1) ->
  (0 <= e /\ h = 2 * (Z.pos m * 2 ^ e)) \/ (e < 0 /\ Z.pos m = h * 2 ^ (- e - 1)).
Proof.
  intros He H. destruct (Z.le_gt_cases 0 e) as [L|L]; [left|right]; (split; [exact L|]).
  - apply (Z.mul_cancel_r _ _ (2 ^ (SH - 1))); [pose proof pow_SHm_pos; lia|]. rewrite <- H. rewrite Z.pow_add_r, pow_SH_half by (unfold SH; lia). ring.
  - apply (Z.mul_cancel_r _ _ (2 ^ (e + SH))); [pose proof (pow2_pos (e + SH) ltac:(unfold SH; lia)); lia|]. rewrite H, <- Z.mul_assoc. f_equal.
    rewrite <- Z.pow_add_r by (unfold SH; lia). f_equal. lia.
Qed.
Lemma half_round_int m e h : -64 <= e -> Z.pos m * 2 ^ (e + SH) = h * 2 ^ (SH - 1) -> round_int (Z.pos m) e = (h + 1) / 2.
Proof.
  intros He H. unfold round_int. destruct (half_mant m e h He H) as [[L E]|[L E]].
  - rewrite (proj2 (Z.leb_le 0 e) L), E. set (k := Z.pos m * 2 ^ e). clearbody k. replace (2 * k + 1) with (1 + k * 2) by ring. rewrite Z.div_add by lia. reflexivity.
  - rewrite (proj2 (Z.leb_gt 0 e) L), E. replace (1 - e) with (1 + (1 + (- e - 1))) by ring. replace (- e) with (1 + (- e - 1)) at 2 by ring.
    rewrite !Z.pow_add_r by lia. change (2 ^ 1) with 2. pose proof (pow2_pos (- e - 1) ltac:(lia)) as P. set (b := 2 ^ (- e - 1)) in *. clearbody b.
    replace (2 * (h * b) + 2 * b) with ((h + 1) * (2 * b)) by ring. apply Z.div_mul_cancel_r; lia.
Qed.
Lemma half_trunc m e h : -64 <= e -> Z.pos m * 2 ^ (e + SH) = h * 2 ^ (SH - 1) -> trunc_pos (Z.pos m) e = h / 2.
Proof.
  intros He H. unfold trunc_pos. destruct (half_mant m e h He H) as [[L E]|[L E]].
  - rewrite (proj2 (Z.leb_le 0 e) L), E. set (k := Z.pos m * 2 ^ e). rewrite (Z.mul_comm 2 k), Z.div_mul; [reflexivity|lia].
  - rewrite (proj2 (Z.leb_gt 0 e) L), E. replace (- e) with (1 + (- e - 1)) at 2 by ring.
    rewrite !Z.pow_add_r by lia. change (2 ^ 1) with 2. pose proof (pow2_pos (- e - 1) ltac:(lia)) as P. set (b := 2 ^ (- e - 1)) in *. clearbody b.
    apply Z.div_mul_cancel_r; lia.
Qed.
Lemma half_sign s m e h : -64 <= e -> fixed (S754_finite s m e) = h * 2 ^ (SH - 1) -> Z.pos m * 2 ^ (e + SH) = Z.abs h * 2 ^ (SH - 1) /\ (if s then h < 0 else 0 < h).
Proof.
  intros He V. cbn [fixed] in V. pose proof pow_SHm_pos as P. pose proof (pow2_pos (e + SH) ltac:(unfold SH; lia)) as P1.
  set (u := 2 ^ (SH - 1)) in *. set (w := 2 ^ (e + SH)) in *. clearbody u w. clear - V P P1. destruct s; split; nia.
Qed.
Lemma half_fround x h : half x h -> Z.abs h <= 2 ^ 24 -> rep (fround x) (round2 h).
Proof.
  intros (Fx & Ex & Vx) Hh. destruct x as [s| | |s m e]; try discriminate Fx.
  - assert (h = 0) as -> by (cbn [fixed] in Vx; pose proof pow_SHm_pos as P; set (u := 2 ^ (SH - 1)) in *; clearbody u; nia). exact (rep_zero s).
  - cbn [fexp] in Ex. destruct (half_sign s m e h Ex Vx) as [A B]. cbn [fround]. rewrite (half_round_int m e _ Ex A).
    assert (Q : (if s then -1 else 1) * ((Z.abs h + 1) / 2) = round2 h).
    { unfold round2. destruct s; [rewrite (proj2 (Z.leb_gt 0 h) B)|rewrite (proj2 (Z.leb_le 0 h) ltac:(lia))]; [rewrite Z.abs_neq by lia|rewrite Z.abs_eq by lia].
      - replace (1 - h) with (- h + 1) by ring. ring.
      - ring. }
    rewrite Q. apply round_dyadic_rep; [apply fmt_double|unfold SH; lia|rewrite Z.add_0_l; reflexivity|].
    pose proof (round2_near h). change (2 ^ 24) with 16777216 in Hh. change (2 ^ 53) with 9007199254740992. lia.
Qed.
Lemma half_int x h : half x h -> Z.abs h <= 2 ^ 24 -> int_of_float x = Ok (int2 h).
Proof.
  intros (Fx & Ex & Vx) Hh. change (2 ^ 24) with 16777216 in Hh. destruct x as [s| | |s m e]; try discriminate Fx.
  - assert (h = 0) as -> by (cbn [fixed] in Vx; pose proof pow_SHm_pos as P; set (u := 2 ^ (SH - 1)) in *; clearbody u; nia). reflexivity.
  - cbn [fexp] in Ex. destruct (half_sign s m e h Ex Vx) as [A B]. cbn [int_of_float]. rewrite (half_trunc m e _ Ex A). cbv zeta.
    assert (Q : (if s then - (Z.abs h / 2) else Z.abs h / 2) = int2 h).
    { unfold int2. destruct s; [rewrite Z.abs_neq by lia|rewrite Z.abs_eq by lia].
      - rewrite <- (Z.opp_involutive h) at 2. rewrite Z.quot_opp_l by lia. rewrite Z.quot_div_nonneg by lia. reflexivity.
      - rewrite Z.quot_div_nonneg by lia. reflexivity. }
    rewrite Q. rewrite in_int_of; [reflexivity|]. unfold INT_MIN, INT_MAX. rewrite <- Q. clear Q. destruct s; lia.
Qed.
Lemma rep_cv_max x y a b : rep x a -> rep y b -> rep (cv_max x y) (Z.max a b).
Proof. intros Hx Hy. unfold cv_max. rewrite (rep_lt _ _ _ _ Hx Hy). destruct (a <? b) eqn:E; [rewrite Z.max_r by lia|rewrite Z.max_l by lia]; assumption. Qed.
Lemma rep_cv_min x y a b : rep x a -> rep y b -> rep (cv_min x y) (Z.min a b).
Proof. intros Hx Hy. unfold cv_min. rewrite (rep_gt _ _ _ _ Hx Hy). destruct (b <? a) eqn:E; [rewrite Z.min_r by lia|rewrite Z.min_l by lia]; assumption. Qed.

(** ---- The tracker ---- *)
(** A state in floats and the same one in halves *)
Definition same (f : fncc) (t : ncc) : Prop :=
  half (q_x f) (n_x2 t) /\ half (q_y f) (n_y2 t) /\ rep (q_window f) (n_window t) /\ q_w f = n_w t /\ q_h f = n_h t /\ q_cols f = n_cols t /\ q_rows f = n_rows t.
Definition bounded (t : ncc) : Prop :=
  Z.abs (n_x2 t) <= 8388608 /\ Z.abs (n_y2 t) <= 8388608 /\ 0 <= n_window t <= 2097152 /\ 0 <= n_w t <= 1048576 /\ 0 <= n_h t <= 1048576 /\ 0 <= n_cols t /\ 0 <= n_rows t.
Lemma init_same cols rows r : size_ok cols rows -> moderate_rect r ->
  match init cols rows r with
  | Ok (Some (t, part)) => exists f, finit cols rows r = Ok (Some (f, part)) /\ same f t /\ bounded t /\ n_cols t = r_w part /\ n_rows t = r_h part
  | Ok None => finit cols rows r = Ok None
  | _ => False
  end.
Proof.
  intros [Hc Hr] (Mx & My & Mw & Mh). unfold moderate in Mx, My. change (2 ^ 20) with 1048576 in *. unfold init, finit. unfold int_result.
  rewrite (in_int_of (r_x r + r_w r)) by (unfold INT_MIN, INT_MAX; lia). cbn [obind]. rewrite (in_int_of (r_y r + r_h r)) by (unfold INT_MIN, INT_MAX; lia). cbn [obind].
  destruct (cut _ _ _) as [part|] eqn:C; [|reflexivity]. apply cut_some in C as [-> (I1 & I2 & I3 & I4 & I5 & I6)]. cbn [r_x r_y r_w r_h] in I1, I2, I3, I4, I5, I6.
  rewrite !(rep_int (float_of_int (r_w r)) (r_w r)) by (try (apply in_int_of; unfold INT_MIN, INT_MAX; lia); apply rep_float_of_int; lia). cbn [obind].
  rewrite !(rep_int (float_of_int (r_h r)) (r_h r)) by (try (apply in_int_of; unfold INT_MIN, INT_MAX; lia); apply rep_float_of_int; lia). cbn [obind].
  eexists. split; [reflexivity|]. split; [|split; [|split; reflexivity]].
  - unfold same. cbn [q_x q_y q_w q_h q_window q_cols q_rows n_x2 n_y2 n_w n_h n_window n_cols n_rows].
    split; [|split; [|split; [|split; [reflexivity|split; [reflexivity|split; reflexivity]]]]].
    + apply half_fadd; [apply half_rep, rep_float_of_int; lia|apply half_fdiv; [apply rep_float_of_int|]; lia|lia].
    + apply half_fadd; [apply half_rep, rep_float_of_int; lia|apply half_fdiv; [apply rep_float_of_int|]; lia|lia].
    + rewrite Z.mul_comm. apply (rep_fmul 24 128); [apply fmt_float|apply rep_float_of_int; lia|apply rep_float_of_int; lia|lia].
  - unfold bounded. cbn [n_x2 n_y2 n_w n_h n_window n_cols n_rows r_w r_h]. lia.
Qed.
Lemma side_low x w a b : half x a -> rep w b -> Z.abs a <= 8388608 -> 0 <= b <= 2097152 ->
  rep (float_of_double (cv_max (fround (subf x (divf w (float_of_int 2)))) (float_of_int 0))) (Z.max (round2 (a - b)) 0).
Proof.
  intros Hx Hw Ha Hb. pose proof (round2_near (a - b)) as R. apply rep_float_of_double; [|change (2 ^ 24) with 16777216; lia].
  apply rep_cv_max; [|apply rep_float_of_int; lia]. assert (Z.abs (a - b) <= 2 ^ 24) by (change (2 ^ 24) with 16777216; lia).
  apply half_fround; [|assumption]. apply half_fsub; [exact Hx| |assumption]. apply half_fdiv; [exact Hw|change (2 ^ 24) with 16777216; lia].
Qed.
Lemma side_high x w a b n : half x a -> rep w b -> Z.abs a <= 8388608 -> 0 <= b <= 2097152 -> 1 <= n <= 1048576 ->
  rep (float_of_double (cv_min (fround (addf x (divf w (float_of_int 2)))) (float_of_int (n - 1)))) (Z.min (round2 (a + b)) (n - 1)).
Proof.
  intros Hx Hw Ha Hb Hn. pose proof (round2_near (a + b)) as R. apply rep_float_of_double; [|change (2 ^ 24) with 16777216; lia].
  apply rep_cv_min; [|apply rep_float_of_int; change (2 ^ 24) with 16777216; lia]. assert (Z.abs (a + b) <= 2 ^ 24) by (change (2 ^ 24) with 16777216; lia).
  apply half_fround; [|assumption]. apply half_fadd; [exact Hx| |assumption]. apply half_fdiv; [exact Hw|change (2 ^ 24) with 16777216; lia].
Qed.
Lemma update_same f t v : same f t -> bounded t -> proper_view (n_cols t) (n_rows t) v ->
  match update (v_cols v) (v_rows v) (v_best v) t with
  | Some u => exists g, fupdate (v_cols v) (v_rows v) (v_best v) f = Ok (Some g) /\ x_result g = u_result u /\ x_searched g = u_searched u /\
                same (x_state g) (u_state u) /\ bounded (u_state u) /\ n_cols (u_state u) = n_cols t /\ n_rows (u_state u) = n_rows t
  | None => fupdate (v_cols v) (v_rows v) (v_best v) f = Ok None
  end.
Proof.
  intros (Sx & Sy & Sw & E1 & E2 & E3 & E4) B ((Vc & Vr) & Hb). pose proof B as (B1 & B2 & B3 & B4 & B5 & B6 & B7). change (2 ^ 20) with 1048576 in *.
  unfold update, fupdate. cbv zeta.
  pose proof (side_low _ _ _ _ Sx Sw B1 B3) as RL. pose proof (side_low _ _ _ _ Sy Sw B2 B3) as RT.
  pose proof (side_high _ _ _ _ _ Sx Sw B1 B3 Vc) as RR. pose proof (side_high _ _ _ _ _ Sy Sw B2 B3 Vr) as RB.
  set (fl := float_of_double (cv_max (fround (subf (q_x f) _)) _)) in *. set (fp := float_of_double (cv_max (fround (subf (q_y f) _)) _)) in *.
  set (fr := float_of_double (cv_min (fround (addf (q_x f) _)) _)) in *. set (fb := float_of_double (cv_min (fround (addf (q_y f) _)) _)) in *.
  pose proof (round2_near (n_x2 t - n_window t)) as N1. pose proof (round2_near (n_y2 t - n_window t)) as N2.
  pose proof (round2_near (n_x2 t + n_window t)) as N3. pose proof (round2_near (n_y2 t + n_window t)) as N4.
  set (left := Z.max (round2 (n_x2 t - n_window t)) 0) in *. set (top := Z.max (round2 (n_y2 t - n_window t)) 0) in *.
  set (right := Z.min (round2 (n_x2 t + n_window t)) (v_cols v - 1)) in *. set (bottom := Z.min (round2 (n_y2 t + n_window t)) (v_rows v - 1)) in *.
  assert (L1 : 0 <= left <= 8388608) by (unfold left; lia). assert (L2 : 0 <= top <= 8388608) by (unfold top; lia).
  assert (L3 : -8388608 <= right <= v_cols v - 1) by (unfold right; lia). assert (L4 : -8388608 <= bottom <= v_rows v - 1) by (unfold bottom; lia).
  clearbody fl fp fr fb left top right bottom. clear N1 N2 N3 N4.
  rewrite (rep_int fl left RL) by (apply in_int_of; unfold INT_MIN, INT_MAX; lia). cbn [obind].
  rewrite (rep_int fp top RT) by (apply in_int_of; unfold INT_MIN, INT_MAX; lia). cbn [obind].
  rewrite (rep_int (subf fr fl) (right - left)) by (first [apply in_int_of; unfold INT_MIN, INT_MAX; lia|apply (rep_fsub 24 128); [apply fmt_float|exact RR|exact RL|lia]]). cbn [obind].
  rewrite (rep_int (subf fb fp) (bottom - top)) by (first [apply in_int_of; unfold INT_MIN, INT_MAX; lia|apply (rep_fsub 24 128); [apply fmt_float|exact RB|exact RT|lia]]). cbn [obind].
  cbn [r_w r_h]. rewrite E1, E2, E3, E4. destruct ((right - left <? n_cols t) || (bottom - top <? n_rows t))%bool eqn:E.
  - assert (Q1 : 0 <= Z.quot (n_w t) 2 <= 1048576) by (rewrite Z.quot_div_nonneg by lia; lia). assert (Q2 : 0 <= Z.quot (n_h t) 2 <= 1048576) by (rewrite Z.quot_div_nonneg by lia; lia).
    rewrite (half_int _ (n_x2 t - 2 * Z.quot (n_w t) 2)) by (first [lia|apply half_fsub; [exact Sx|apply half_rep, rep_float_of_int; lia|lia]]). cbn [obind].
    rewrite (half_int _ (n_y2 t - 2 * Z.quot (n_h t) 2)) by (first [lia|apply half_fsub; [exact Sy|apply half_rep, rep_float_of_int; lia|lia]]). cbn [obind].
    eexists. split; [reflexivity|]. cbn [x_result x_state x_searched u_result u_state u_searched].
    split; [reflexivity|]. split; [reflexivity|]. split; [exact (conj Sx (conj Sy (conj Sw (conj E1 (conj E2 (conj E3 E4))))))|]. split; [exact B|]. split; reflexivity.
  - apply orb_false_iff in E as [F1 F2]. apply Z.ltb_ge in F1, F2. destruct (cut _ _ _) as [part|] eqn:C; [|reflexivity]. apply cut_some in C as [-> Ins].
    destruct (Hb _ Ins F1 F2) as [M1 M2]. destruct (v_best v _) as [mx my]. cbn [fst snd r_w r_h] in M1, M2.
    assert (RX : rep (addf fl (float_of_int mx)) (left + mx)) by (apply (rep_fadd 24 128); [apply fmt_float|exact RL|apply rep_float_of_int; lia|lia]).
    assert (RY : rep (addf fp (float_of_int my)) (top + my)) by (apply (rep_fadd 24 128); [apply fmt_float|exact RT|apply rep_float_of_int; lia|lia]).
    rewrite (rep_int _ _ RX) by (apply in_int_of; unfold INT_MIN, INT_MAX; lia). cbn [obind]. rewrite (rep_int _ _ RY) by (apply in_int_of; unfold INT_MIN, INT_MAX; lia). cbn [obind].
    eexists. split; [reflexivity|]. cbn [x_result x_state x_searched u_result u_state u_searched].
    split; [reflexivity|]. split; [reflexivity|]. split; [|split; [|split; reflexivity]].
    + unfold same. cbn [q_x q_y q_w q_h q_window q_cols q_rows n_x2 n_y2 n_w n_h n_window n_cols n_rows].
      split; [|split; [|split; [exact Sw|split; [reflexivity|split; [reflexivity|split; reflexivity]]]]].
      * apply half_fadd; [apply half_rep; exact RX|apply half_fdiv; [apply rep_float_of_int; lia|lia]|lia].
      * apply half_fadd; [apply half_rep; exact RY|apply half_fdiv; [apply rep_float_of_int; lia|lia]|lia].
    + unfold bounded. cbn [n_x2 n_y2 n_w n_h n_window n_cols n_rows]. lia.
Qed.
Lemma track_same l : forall f t, same f t -> bounded t -> Forall (proper_view (n_cols t) (n_rows t)) l -> ftrack f l = Ok (track t l).
Proof.
  induction l as [|v l IH]; intros f t S0 B Hl; [reflexivity|]. inversion_clear Hl as [|? ? Hv Hl']. cbn [ftrack track].
  pose proof (update_same f t v S0 B Hv) as U. destruct (update _ _ _ t) as [u|].
  - destruct U as (g & Eg & Er & Es & S1 & B1 & C1 & C2). rewrite Eg. cbn [obind]. rewrite (IH _ (u_state u) S1 B1) by (rewrite C1, C2; exact Hl'). cbn [obind].
    rewrite Er, Es. destruct (track (u_state u) l); reflexivity.
  - rewrite U. reflexivity.
Qed.
Lemma float_none cols rows r : size_ok cols rows -> moderate_rect r ->
  (finit cols rows r = Ok None <-> cols - 1 < r_x r \/ rows - 1 < r_y r \/ r_x r + r_w r < 0 \/ r_y r + r_h r < 0) /\
  (forall t part, finit cols rows r = Ok (Some (t, part)) -> inside cols rows part) /\
  (exists q, finit cols rows r = Ok q).
Proof.
  intros Hs Hm. destruct (init_none cols rows r Hs Hm) as (A & B & _). pose proof (init_same cols rows r Hs Hm) as U.
  destruct (init cols rows r) as [[[t part]|]| | |]; try (now destruct U).
  - destruct U as (f & Ef & _). rewrite Ef. split; [|split].
    + split; [discriminate|]. intros X. apply A in X. discriminate X.
    + intros t' part' X. assert (part' = part) as -> by congruence. exact (B t part eq_refl).
    + eexists; reflexivity.
  - rewrite U. split; [|split].
    + split; [intros _; apply A; reflexivity|reflexivity].
    + discriminate.
    + eexists; reflexivity.
Qed.
Lemma float_run cols rows r l : size_ok cols rows -> moderate_rect r -> inside (cols - 1) (rows - 1) r -> Forall (proper_view (r_w r) (r_h r)) l ->
  exists t answers, finit cols rows r = Ok (Some (t, r)) /\ ftrack t l = Ok (Some answers) /\ answers_ok (r_w r) (r_h r) r l answers.
Proof.
  intros Hs Hm Hi Hl. destruct (ncc_run cols rows r l Hs Hm Hi Hl) as (t & answers & E & T & A). pose proof (init_same cols rows r Hs Hm) as U. rewrite E in U.
  destruct U as (f & Ef & S1 & B & C1 & C2). exists f, answers. split; [exact Ef|]. split; [|exact A]. rewrite <- T. apply track_same; [exact S1|exact B|]. rewrite C1, C2. exact Hl.
Qed.
Lemma float_every cols rows r l f part : size_ok cols rows -> moderate_rect r -> finit cols rows r = Ok (Some (f, part)) -> Forall (proper_view (r_w part) (r_h part)) l ->
  exists t, init cols rows r = Ok (Some (t, part)) /\ ftrack f l = Ok (track t l).
Proof.
  intros Hs Hm E Hl. pose proof (init_same cols rows r Hs Hm) as U. destruct (init cols rows r) as [[[t p]|]| | |]; try (now destruct U).
  - destruct U as (g & Eg & S1 & B & C1 & C2). assert (g = f) as -> by congruence. assert (p = part) as -> by congruence. exists t. split; [reflexivity|]. apply track_same; [exact S1|exact B|]. rewrite C1, C2. exact Hl.
  - congruence.
Qed.
