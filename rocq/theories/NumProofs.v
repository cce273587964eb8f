(** Facts about the number model: digits, rounding, strtod on printed numbers. *)
From Verif Require Import CBase Num.
Local Open Scope Z_scope.

(** ---- Digits ---- *)
Lemma digits_val_app l1 l2 : digits_val (l1 ++ l2) = (digits_val l1 * 10 ^ N.of_nat (List.length l2) + digits_val l2)%N.
Proof.
  unfold digits_val. rewrite fold_left_app. generalize (fold_left (fun a c => 10 * a + (c - 48))%N l1 0%N) as a.
  assert (G : forall l a, (fold_left (fun a c => 10 * a + (c - 48)) l a
     = a * 10 ^ N.of_nat (List.length l) + fold_left (fun a c => 10 * a + (c - 48)) l 0)%N).
  { induction l as [|c l IH]; intros a; [cbn; lia|]. cbn [fold_left List.length].
    rewrite (IH (10 * a + (c - 48))%N), (IH (10 * 0 + (c - 48))%N).
    rewrite Nat2N.inj_succ, N.pow_succ_r'. lia. }
  intros a. apply G.
Qed.

Lemma dec_digits_acc f : forall n acc, dec_digits f n acc = dec_digits f n [] ++ acc.
Proof.
  induction f as [|f IH]; intros n acc; [reflexivity|]. cbn [dec_digits].
  destruct (n / 10 =? 0)%N; [reflexivity|]. rewrite IH, (IH _ [(48 + n mod 10)%N]). now rewrite <- app_assoc.
Qed.

Lemma dec_digits_val f : forall n, (n < 2 ^ N.of_nat f)%N -> (0 < f)%nat -> digits_val (dec_digits f n []) = n.
Proof.
  induction f as [|f IH]; intros n H Hf; [lia|]. cbn [dec_digits].
  rewrite Nat2N.inj_succ, N.pow_succ_r' in H.
  assert (Hd : digits_val [(48 + n mod 10)%N] = (n mod 10)%N) by (unfold digits_val; cbn [fold_left]; lia).
  destruct (n / 10 =? 0)%N eqn:E; [rewrite Hd; lia|].
  rewrite dec_digits_acc, digits_val_app, Hd. cbn [List.length]. change (10 ^ N.of_nat 1)%N with 10%N.
  assert (G : (n / 10 < 2 ^ N.of_nat f)%N) by lia.
  assert (F : (0 < f)%nat) by (destruct f; [cbn in G; lia|lia]).
  rewrite IH by assumption. lia.
Qed.


Lemma pos_size_nat_bound p : (N.pos p < 2 ^ N.of_nat (Pos.size_nat p))%N.
Proof.
  induction p as [p IH|p IH|]; cbn [Pos.size_nat]; [| |reflexivity];
    rewrite Nat2N.inj_succ, N.pow_succ_r'; lia.
Qed.
Lemma print_N_val n : digits_val (print_N n) = n.
Proof.
  unfold print_N. apply dec_digits_val; [|lia]. rewrite Nat2N.inj_succ, N.pow_succ_r'.
  destruct n as [|p]; [reflexivity|]. cbn [N.size_nat]. pose proof (pos_size_nat_bound p). lia.
Qed.

Lemma dec_digits_digits f : forall n acc, forallb is_digit acc = true -> forallb is_digit (dec_digits f n acc) = true.
Proof.
  induction f as [|f IH]; intros n acc H; [exact H|]. cbn [dec_digits].
  assert (G : forallb is_digit ((48 + n mod 10)%N :: acc) = true).
  { cbn [forallb]. rewrite H. unfold is_digit. lia. }
  destruct (n / 10 =? 0)%N; [exact G|]. now apply IH.
Qed.
Lemma print_N_digits n : forallb is_digit (print_N n) = true.
Proof. now apply dec_digits_digits. Qed.
Lemma print_N_nonempty n : print_N n <> [].
Proof.
  unfold print_N. cbn [dec_digits]. destruct (n / 10 =? 0)%N; [discriminate|].
  rewrite dec_digits_acc. intros H. apply (f_equal (@List.length N)) in H. rewrite app_length in H. cbn in H. lia.
Qed.
(** No leading zero, hence no 0x prefix. *)
Lemma dec_digits_length f : forall n d, (n < 10 ^ N.of_nat d)%N -> (0 < d)%nat ->
  (List.length (dec_digits f n []) <= d)%nat.
Proof.
  induction f as [|f IH]; intros n d H Hd; [cbn; lia|]. cbn [dec_digits].
  destruct (n / 10 =? 0)%N eqn:E; [cbn; lia|]. rewrite dec_digits_acc, app_length. cbn [List.length].
  destruct d as [|d]; [lia|]. rewrite Nat2N.inj_succ, N.pow_succ_r' in H.
  assert (n / 10 < 10 ^ N.of_nat d)%N by lia.
  assert (0 < d)%nat by (destruct d; [cbn in *; lia|lia]).
  specialize (IH (n / 10)%N d). lia.
Qed.

Lemma pad_digits_spec k : forall n acc, (n < 10 ^ N.of_nat k)%N ->
  exists ds, pad_digits k n acc = ds ++ acc /\ List.length ds = k /\ forallb is_digit ds = true /\ digits_val ds = n.
Proof.
  induction k as [|k IH]; intros n acc H.
  - exists []. cbn in H. repeat split. cbn. lia.
  - cbn [pad_digits]. rewrite Nat2N.inj_succ, N.pow_succ_r' in H.
    destruct (IH (n / 10)%N ((48 + n mod 10)%N :: acc)) as (ds & E & Hl & Hd & Hv); [lia|].
    exists (ds ++ [(48 + n mod 10)%N]). rewrite E, <- app_assoc, app_length, forallb_app, Hd, digits_val_app, Hv.
    cbn [List.length forallb]. change (10 ^ N.of_nat 1)%N with 10%N.
    assert (is_digit (48 + n mod 10) = true)%N as -> by (unfold is_digit; lia).
    unfold digits_val. cbn [fold_left]. repeat split; lia.
Qed.

(** ---- Rounding ---- *)
Lemma rne_bound a b : 0 < b -> Z.abs (2 * (a - rne a b * b)) <= b.
Proof.
  intros Hb. unfold rne. pose proof (Z.div_mod a b). pose proof (Z.mod_pos_bound a b Hb).
  destruct (2 * (a mod b) ?= b) eqn:E.
  - apply Z.compare_eq in E. destruct (Z.even (a / b)); nia.
  - rewrite Z.compare_lt_iff in E. nia.
  - rewrite Z.compare_gt_iff in E. nia.
Qed.
Lemma rne_nonneg a b : 0 <= a -> 0 < b -> 0 <= rne a b.
Proof.
  intros Ha Hb. unfold rne. pose proof (Z.div_pos a b Ha Hb).
  destruct (_ ?= _); [destruct (Z.even _)| |]; lia.
Qed.
(** The nearest integer is unique when it is strictly nearest. *)
Lemma rne_unique a b m : 0 < b -> Z.abs (2 * (a - m * b)) < b -> rne a b = m.
Proof. intros Hb H. pose proof (rne_bound a b Hb). nia. Qed.
Lemma rne_exact b m : 0 < b -> rne (m * b) b = m.
Proof. intros Hb. apply rne_unique; [exact Hb|]. rewrite Z.sub_diag. cbn. exact Hb. Qed.
Lemma rne_mono_upper a b m : 0 < b -> a <= m * b -> rne a b <= m.
Proof. intros Hb H. pose proof (rne_bound a b Hb). nia. Qed.

(** Values of the formats as multiples of 2^-1074. *)
Definition SH : Z := 1074.
Definition fixed (x : spec_float) : Z :=
  match x with
  | S754_finite s m e => (if s then -1 else 1) * (Z.pos m * 2 ^ (e + SH))
  | _ => 0
  end.
Definition finite (x : spec_float) : bool :=
  match x with S754_zero _ | S754_finite _ _ _ => true | _ => false end.
Definition sign (x : spec_float) : bool :=
  match x with S754_zero s | S754_finite s _ _ | S754_infinity s => s | S754_nan => false end.

Lemma pow2_pos z : 0 <= z -> 0 < 2 ^ z.
Proof. intros. now apply Z.pow_pos_nonneg. Qed.

Lemma scale_eq num den e : - SH <= e ->
  scale_num num e * (den * 2 ^ (e + SH)) = scale_den den e * (num * 2 ^ SH).
Proof.
  intros He. unfold scale_num, scale_den.
  assert (G : 2 ^ Z.max 0 (- e) * 2 ^ (e + SH) = 2 ^ Z.max 0 e * 2 ^ SH).
  { rewrite <- !Z.pow_add_r by (unfold SH in *; lia). f_equal. lia. }
  transitivity (num * den * (2 ^ Z.max 0 (- e) * 2 ^ (e + SH))); [ring|rewrite G; ring].
Qed.
Lemma scale_den_pos den e : 0 < den -> 0 < scale_den den e.
Proof. intros. unfold scale_den. pose proof (pow2_pos (Z.max 0 e)). nia. Qed.
Lemma scale_num_pos num e : 0 < num -> 0 < scale_num num e.
Proof. intros. unfold scale_num. pose proof (pow2_pos (Z.max 0 (- e))). nia. Qed.

(** Comparison with a scaled integer. *)
Lemma scale_le num den e k : - SH <= e -> 0 < num -> 0 < den ->
  (k * scale_den den e <= scale_num num e <-> k * (den * 2 ^ (e + SH)) <= num * 2 ^ SH).
Proof.
  intros He Hn Hd. pose proof (scale_eq num den e He) as G. pose proof (scale_den_pos den e Hd).
  assert (0 < den * 2 ^ (e + SH)) by (pose proof (pow2_pos (e + SH)); nia).
  set (a := scale_num num e) in *. set (b := scale_den den e) in *. set (x := den * 2 ^ (e + SH)) in *.
  set (y := num * 2 ^ SH) in *. clearbody a b x y. split; intros; nia.
Qed.

Lemma log2_ratio num den e : 0 < num -> 0 < den -> - SH <= e ->
  (Z.log2 num - Z.log2 den + 1 <= e -> num * 2 ^ SH < den * 2 ^ (e + SH)) /\
  (e <= Z.log2 num - Z.log2 den - 1 -> den * 2 ^ (e + SH) <= num * 2 ^ SH).
Proof.
  intros Hn Hd He. pose proof (Z.log2_spec num Hn) as [N1 N2]. pose proof (Z.log2_spec den Hd) as [D1 D2].
  pose proof (Z.log2_nonneg num). pose proof (Z.log2_nonneg den).
  set (ln := Z.log2 num) in *. set (ld := Z.log2 den) in *.
  split; intros He2.
  - apply Z.lt_le_trans with (2 ^ Z.succ ln * 2 ^ SH).
    { pose proof (pow2_pos SH ltac:(unfold SH; lia)). nia. }
    apply Z.le_trans with (2 ^ ld * 2 ^ (e + SH)).
    { rewrite <- !Z.pow_add_r by (unfold SH in *; lia). apply Z.pow_le_mono_r; lia. }
    pose proof (pow2_pos (e + SH)). nia.
  - apply Z.le_trans with (2 ^ Z.succ ld * 2 ^ (e + SH)).
    { pose proof (pow2_pos (e + SH)). nia. }
    apply Z.le_trans with (2 ^ ln * 2 ^ SH).
    { rewrite <- !Z.pow_add_r by (unfold SH in *; lia). apply Z.pow_le_mono_r; lia. }
    pose proof (pow2_pos SH ltac:(unfold SH; lia)). nia.
Qed.

Lemma mul_lt_le d x y n : 0 < d -> n < d * x -> d * y <= n -> x <= y -> False.
Proof. intros. nia. Qed.

Ltac pow_clash den Hd :=
  match goal with H : 2 ^ _ <= 2 ^ _ |- _ => eapply (mul_lt_le den _ _ _ Hd); [| |exact H]; eassumption end.

(** The exponent chosen: lower and upper bounds. *)
Lemma ratio_exp_spec p emax num den : 1 < p -> - SH <= fmin p emax -> 0 < num -> 0 < den ->
  let e := ratio_exp p emax num den in
  fmin p emax <= e /\
  num * 2 ^ SH < den * 2 ^ (p + e + SH) /\
  (e = fmin p emax \/ den * 2 ^ (p - 1 + e + SH) <= num * 2 ^ SH).
Proof.
  intros Hp Hmin Hn Hd. cbv zeta. unfold ratio_exp.
  set (e0 := Z.max (fmin p emax) (Z.log2 num - Z.log2 den - p)).
  assert (H0 : - SH <= e0) by lia.
  pose proof (log2_ratio num den (p + e0 + 1) Hn Hd ltac:(lia)) as [U _]. specialize (U ltac:(lia)).
  pose proof (scale_le num den e0 (2 ^ p) H0 Hn Hd) as C.
  assert (P : 2 ^ p * (den * 2 ^ (e0 + SH)) = den * 2 ^ (p + e0 + SH)).
  { replace (p + e0 + SH) with (p + (e0 + SH)) by lia. rewrite (Z.pow_add_r 2 p) by lia. ring. }
  rewrite P in C.
  destruct (2 ^ p * scale_den den e0 <=? scale_num num e0) eqn:E.
  - apply Z.leb_le in E. rewrite C in E. split; [lia|]. split.
    + replace (p + (e0 + 1) + SH) with (p + e0 + 1 + SH) by lia. exact U.
    + right. replace (p - 1 + (e0 + 1) + SH) with (p + e0 + SH) by lia. exact E.
  - apply Z.leb_gt in E. split; [lia|]. split.
    + destruct (Z.le_gt_cases (den * 2 ^ (p + e0 + SH)) (num * 2 ^ SH)); [|lia]. apply C in H. lia.
    + destruct (Z.eq_dec e0 (fmin p emax)); [now left|]. right.
      pose proof (log2_ratio num den (p - 1 + e0) Hn Hd ltac:(lia)) as [_ L]. apply L. lia.
Qed.

(** The mantissa is nearest. *)
Lemma ratio_mant_spec num den e : - SH <= e -> 0 < num -> 0 < den ->
  let m := rne (scale_num num e) (scale_den den e) in
  0 <= m /\ Z.abs (2 * (num * 2 ^ SH - m * (den * 2 ^ (e + SH)))) <= den * 2 ^ (e + SH).
Proof.
  intros He Hn Hd. cbv zeta. pose proof (scale_den_pos den e Hd) as Hb. pose proof (scale_num_pos num e Hn) as Ha.
  split; [apply rne_nonneg; lia|].
  pose proof (rne_bound (scale_num num e) (scale_den den e) Hb) as R. pose proof (scale_eq num den e He) as G.
  assert (0 < den * 2 ^ (e + SH)) by (pose proof (pow2_pos (e + SH)); nia).
  set (a := scale_num num e) in *. set (b := scale_den den e) in *. set (x := den * 2 ^ (e + SH)) in *.
  set (y := num * 2 ^ SH) in *. set (m := rne a b) in *. clearbody a b x y m.
  apply Z.abs_le in R. apply Z.abs_le. nia.
Qed.

(** A mantissa that is strictly nearest is chosen. *)
Lemma ratio_mant_unique num den e m : - SH <= e -> 0 < num -> 0 < den ->
  Z.abs (2 * (num * 2 ^ SH - m * (den * 2 ^ (e + SH)))) < den * 2 ^ (e + SH) ->
  rne (scale_num num e) (scale_den den e) = m.
Proof.
  intros He Hn Hd H. pose proof (scale_den_pos den e Hd) as Hb. apply rne_unique; [exact Hb|].
  pose proof (scale_eq num den e He) as G.
  assert (0 < den * 2 ^ (e + SH)) by (pose proof (pow2_pos (e + SH)); nia).
  set (a := scale_num num e) in *. set (b := scale_den den e) in *. set (x := den * 2 ^ (e + SH)) in *.
  set (y := num * 2 ^ SH) in *. clearbody a b x y.
  apply Z.abs_lt in H. apply Z.abs_lt. nia.
Qed.

Lemma signed_abs (s : bool) a d v b : Z.abs (2 * (a - d * v)) <= b ->
  Z.abs (2 * ((if s then -1 else 1) * a - d * ((if s then -1 else 1) * v))) <= b.
Proof.
  intros H. destruct s; [|now rewrite !Z.mul_1_l].
  replace (2 * (-1 * a - d * (-1 * v))) with (- (2 * (a - d * v))) by ring. now rewrite Z.abs_opp.
Qed.

(** Rounding: the result is within half a unit of the last place of the exponent chosen, when it does not overflow.
    [j] bounds the size of the ratio. *)
Lemma round_ratio_error p emax s num den j : 1 < p -> - SH <= fmin p emax -> 0 < num -> 0 < den ->
  fmin p emax <= j - p -> j < emax -> num * 2 ^ SH < den * 2 ^ (j + SH) ->
  let x := round_ratio p emax s num den in
  finite x = true /\ sign x = s /\
  Z.abs (2 * ((if s then -1 else 1) * (num * 2 ^ SH) - den * fixed x)) <= den * 2 ^ (j - p + SH).
Proof.
  intros Hp Hmin Hn Hd Hj Hj2 Hlt. cbv zeta. unfold round_ratio.
  pose proof (ratio_exp_spec p emax num den Hp Hmin Hn Hd) as (E1 & E2 & E3). cbv zeta in *.
  set (e := ratio_exp p emax num den) in *.
  pose proof (ratio_mant_spec num den e ltac:(lia) Hn Hd) as (M1 & M2). cbv zeta in *.
  set (m := rne (scale_num num e) (scale_den den e)) in *.
  assert (He : e <= j - p).
  { destruct E3 as [->|E3]; [lia|]. destruct (Z.le_gt_cases e (j - p)); [assumption|exfalso].
    assert (2 ^ (j + SH) <= 2 ^ (p - 1 + e + SH)) by (apply Z.pow_le_mono_r; lia). pow_clash den Hd. }
  assert (Hpw : 2 ^ (e + SH) <= 2 ^ (j - p + SH)) by (apply Z.pow_le_mono_r; lia).
  assert (B : Z.abs (2 * (num * 2 ^ SH - den * (m * 2 ^ (e + SH)))) <= den * 2 ^ (j - p + SH)).
  { replace (den * (m * 2 ^ (e + SH))) with (m * (den * 2 ^ (e + SH))) by ring.
    eapply Z.le_trans; [exact M2|]. apply Z.mul_le_mono_nonneg_l; lia. }
  destruct (m =? 2 ^ p) eqn:Em.
  - apply Z.eqb_eq in Em.
    assert (Hm2 : m / 2 = 2 ^ (p - 1)).
    { rewrite Em. replace p with (1 + (p - 1)) at 1 by lia. rewrite Z.pow_add_r by lia. change (2 ^ 1) with 2.
      rewrite Z.mul_comm, Z.div_mul by lia. reflexivity. }
    assert (0 < 2 ^ (p - 1)) by (apply pow2_pos; lia).
    replace (m / 2 =? 0) with false by lia.
    replace (emax - p <? e + 1) with false by lia.
    cbn [finite sign fixed]. split; [reflexivity|]. split; [reflexivity|].
    rewrite Z2Pos.id by lia. rewrite Hm2.
    assert (V : 2 ^ (p - 1) * 2 ^ (e + 1 + SH) = m * 2 ^ (e + SH)).
    { rewrite Em, <- !Z.pow_add_r by lia. f_equal. lia. }
    rewrite V. now apply signed_abs.
  - destruct (m =? 0) eqn:E0.
    + apply Z.eqb_eq in E0. cbn [finite sign fixed]. split; [reflexivity|]. split; [reflexivity|].
      rewrite E0 in B. apply (signed_abs s) in B. replace ((if s then -1 else 1) * (0 * 2 ^ (e + SH))) with 0 in B by ring.
      exact B.
    + replace (emax - p <? e) with false by lia.
      cbn [finite sign fixed]. split; [reflexivity|]. split; [reflexivity|].
      rewrite Z2Pos.id by lia. now apply signed_abs.
Qed.

(** A rounded value is a value of the format. *)
Lemma round_ratio_valid p emax s num den s' m e : 1 < p -> - SH <= fmin p emax -> 0 < num -> 0 < den ->
  round_ratio p emax s num den = S754_finite s' m e ->
  s' = s /\ fmin p emax <= e <= emax - p /\ Z.pos m < 2 ^ p /\ (2 ^ (p - 1) <= Z.pos m \/ e = fmin p emax).
Proof.
  intros Hp Hmin Hn Hd E. unfold round_ratio in E.
  pose proof (ratio_exp_spec p emax num den Hp Hmin Hn Hd) as (E1 & E2 & E3). cbv zeta in *.
  set (e0 := ratio_exp p emax num den) in *.
  pose proof (ratio_mant_spec num den e0 ltac:(lia) Hn Hd) as (M1 & M2). cbv zeta in *.
  set (m0 := rne (scale_num num e0) (scale_den den e0)) in *.
  pose proof (pow2_pos (e0 + SH) ltac:(lia)) as Pe.
  assert (X : 0 < den * 2 ^ (e0 + SH)) by (apply Z.mul_pos_pos; lia).
  assert (P1 : 2 ^ (p + e0 + SH) = 2 ^ p * 2 ^ (e0 + SH)) by (rewrite <- Z.pow_add_r by lia; f_equal; lia).
  assert (P2 : 2 ^ (p - 1 + e0 + SH) = 2 ^ (p - 1) * 2 ^ (e0 + SH)) by (rewrite <- Z.pow_add_r by lia; f_equal; lia).
  assert (Hup : m0 <= 2 ^ p).
  { rewrite P1 in E2. set (A := 2 ^ p) in *. replace (den * (A * 2 ^ (e0 + SH))) with (A * (den * 2 ^ (e0 + SH))) in E2 by ring.
    set (B := den * 2 ^ (e0 + SH)) in *. set (C := num * 2 ^ SH) in *. clearbody A B C m0.
    clear - E2 M2 X. apply Z.abs_le in M2. nia. }
  assert (Hlo : 2 ^ (p - 1) <= m0 \/ e0 = fmin p emax).
  { destruct E3 as [E3|E3]; [now right|left]. rewrite P2 in E3. set (A := 2 ^ (p - 1)) in *.
    replace (den * (A * 2 ^ (e0 + SH))) with (A * (den * 2 ^ (e0 + SH))) in E3 by ring.
    set (B := den * 2 ^ (e0 + SH)) in *. set (C := num * 2 ^ SH) in *. clearbody A B C m0.
    clear - E3 M2 X. apply Z.abs_le in M2. nia. }
  clearbody e0 m0. clear - E E1 Hup Hlo Hp M1.
  assert (P3 : 2 ^ p = 2 * 2 ^ (p - 1)) by (change 2 with (2 ^ 1) at 2; rewrite <- Z.pow_add_r by lia; f_equal; lia).
  pose proof (pow2_pos (p - 1) ltac:(lia)) as P4.
  destruct (m0 =? 2 ^ p) eqn:Em.
  - apply Z.eqb_eq in Em. assert (Hh : m0 / 2 = 2 ^ (p - 1)) by (rewrite Em, P3, Z.mul_comm, Z.div_mul; lia).
    rewrite Hh in E. replace (2 ^ (p - 1) =? 0) with false in E by lia.
    destruct (emax - p <? e0 + 1) eqn:Eo; [discriminate E|]. injection E as E4 E5 E6. subst.
    rewrite Z2Pos.id by lia. split; [reflexivity|]. split; [lia|]. split; [lia|]. left. lia.
  - apply Z.eqb_neq in Em. destruct (m0 =? 0) eqn:E0; [discriminate E|].
    destruct (emax - p <? e0) eqn:Eo; [discriminate E|]. injection E as E4 E5 E6. subst.
    rewrite Z2Pos.id by lia. split; [reflexivity|]. split; [lia|]. split; [lia|exact Hlo].
Qed.

(** Rounding to a given representable value: [m * 2^e] with [2^(p-1) <= m < 2^p], when the ratio lies in the binade
    and strictly within half a unit of it. *)
Lemma round_ratio_to p emax s num den m e : 1 < p -> - SH <= fmin p emax -> 0 < num -> 0 < den ->
  fmin p emax <= e -> e <= emax - p -> 0 < m < 2 ^ p ->
  (e = fmin p emax \/ den * 2 ^ (p - 1 + e + SH) <= num * 2 ^ SH) ->
  num * 2 ^ SH < den * 2 ^ (p + e + SH) ->
  Z.abs (2 * (num * 2 ^ SH - m * (den * 2 ^ (e + SH)))) < den * 2 ^ (e + SH) ->
  round_ratio p emax s num den = S754_finite s (Z.to_pos m) e.
Proof.
  intros Hp Hmin Hn Hd He1 He2 Hm Hlo Hhi Hnear. unfold round_ratio.
  pose proof (ratio_exp_spec p emax num den Hp Hmin Hn Hd) as (E1 & E2 & E3). cbv zeta in *.
  set (e' := ratio_exp p emax num den) in *.
  assert (Hee : e' = e).
  { destruct (Z.lt_trichotomy e' e) as [L|[L|L]]; [exfalso| exact L|exfalso].
    - destruct Hlo as [Hlo|Hlo]; [lia|].
      assert (2 ^ (p + e' + SH) <= 2 ^ (p - 1 + e + SH)) by (apply Z.pow_le_mono_r; lia). pow_clash den Hd.
    - destruct E3 as [E3|E3]; [lia|].
      assert (2 ^ (p + e + SH) <= 2 ^ (p - 1 + e' + SH)) by (apply Z.pow_le_mono_r; lia). pow_clash den Hd. }
  rewrite Hee. rewrite (ratio_mant_unique num den e m) by (assumption || lia).
  replace (m =? 2 ^ p) with false by lia. replace (m =? 0) with false by lia.
  replace (emax - p <? e) with false by lia. reflexivity.
Qed.

(** A representable ratio is converted exactly. *)
Lemma round_ratio_exact p emax s num den M E : 1 < p -> - SH <= fmin p emax -> 0 < num -> 0 < den ->
  0 < M < 2 ^ p -> fmin p emax <= E -> E <= emax - p -> num * 2 ^ SH = den * (M * 2 ^ (E + SH)) ->
  exists m e, round_ratio p emax s num den = S754_finite s m e /\ Z.pos m * 2 ^ (e + SH) = M * 2 ^ (E + SH) /\
    fmin p emax <= e <= emax - p /\ Z.pos m < 2 ^ p /\ (2 ^ (p - 1) <= Z.pos m \/ e = fmin p emax).
Proof.
  intros Hp Hmin Hn Hd HM HE1 HE2 Heq.
  pose proof (Z.log2_spec M ltac:(lia)) as [L1 L2]. pose proof (Z.log2_nonneg M) as L0.
  assert (L3 : Z.log2 M < p) by (apply Z.log2_lt_pow2; lia).
  set (k := Z.log2 M) in *.
  set (t := Z.min (p - 1 - k) (E - fmin p emax)).
  assert (Ht : 0 <= t) by lia.
  set (m := M * 2 ^ t). set (e := E - t).
  assert (Hval : m * 2 ^ (e + SH) = M * 2 ^ (E + SH)).
  { unfold m, e. rewrite <- Z.mul_assoc, <- Z.pow_add_r by lia. do 2 f_equal. lia. }
  pose proof (pow2_pos t Ht) as Pt.
  assert (Hm1 : 0 < m) by (unfold m; nia).
  assert (Hm2 : m < 2 ^ p).
  { unfold m. apply Z.lt_le_trans with (2 ^ Z.succ k * 2 ^ t); [nia|].
    rewrite <- Z.pow_add_r by lia. apply Z.pow_le_mono_r; lia. }
  assert (Hm3 : 2 ^ (p - 1) <= m \/ e = fmin p emax).
  { destruct (Z.le_gt_cases (p - 1 - k) (E - fmin p emax)) as [C|C].
    - left. unfold m. apply Z.le_trans with (2 ^ k * 2 ^ t); [|nia].
      rewrite <- Z.pow_add_r by lia. apply Z.pow_le_mono_r; lia.
    - right. unfold e. lia. }
  exists (Z.to_pos m), e. rewrite Z2Pos.id by exact Hm1.
  assert (HSH : 0 <= e + SH) by lia. pose proof (pow2_pos (e + SH) HSH) as Pe.
  assert (HPe : 2 ^ (p + e + SH) = 2 ^ p * 2 ^ (e + SH)) by (rewrite <- Z.pow_add_r by lia; f_equal; lia).
  assert (HPe1 : 2 ^ (p - 1 + e + SH) = 2 ^ (p - 1) * 2 ^ (e + SH)) by (rewrite <- Z.pow_add_r by lia; f_equal; lia).
  split; [|split; [exact Hval|split; [lia|split; [exact Hm2|exact Hm3]]]].
  apply round_ratio_to; try assumption; try lia.
  - destruct Hm3 as [Hm3|Hm3]; [right|left; exact Hm3].
    rewrite Heq, <- Hval, HPe1. apply Z.mul_le_mono_nonneg_l; [lia|]. apply Z.mul_le_mono_nonneg_r; lia.
  - rewrite Heq, <- Hval, HPe. apply Z.mul_lt_mono_pos_l; [lia|]. apply Z.mul_lt_mono_pos_r; lia.
  - rewrite Heq, <- Hval.
    replace (den * (m * 2 ^ (e + SH)) - m * (den * 2 ^ (e + SH))) with 0 by ring. cbn [Z.mul Z.abs]. nia.
Qed.

(** Only the value matters for truncation. *)
Lemma trunc_pos_value m e v : - SH <= e -> m * 2 ^ (e + SH) = v * 2 ^ SH -> trunc_pos m e = v.
Proof.
  intros He H. unfold trunc_pos. destruct (0 <=? e) eqn:E.
  - rewrite Z.pow_add_r in H by (unfold SH; lia).
    pose proof (pow2_pos SH ltac:(unfold SH; lia)). set (P := 2 ^ SH) in *. set (Q := 2 ^ e) in *. clearbody P Q. nia.
  - replace SH with (- e + (e + SH)) in H at 2 by lia. rewrite (Z.pow_add_r 2 (- e)) in H by lia.
    pose proof (pow2_pos (e + SH) ltac:(lia)) as P1. pose proof (pow2_pos (- e) ltac:(lia)) as P2.
    set (P := 2 ^ (e + SH)) in *. set (Q := 2 ^ (- e)) in *. clearbody P Q.
    assert (m = v * Q) by nia. subst m. apply Z.div_mul. lia.
Qed.

Lemma pow_SH_0 : 2 ^ (0 + SH) = 2 ^ SH.
Proof. reflexivity. Qed.

(** Integers below 2^53 are exact in double, below or equal 2^24 in float. *)
Lemma to_double_int s v : 0 < v < 2 ^ 53 ->
  exists m e, to_double s v 1 = S754_finite s m e /\ Z.pos m * 2 ^ (e + SH) = v * 2 ^ SH /\ - SH <= e.
Proof.
  intros Hv. unfold to_double.
  destruct (round_ratio_exact 53 1024 s v 1 v 0) as (m & e & E & H1 & H2 & _); try lia; try (unfold fmin, SH; lia).
  exists m, e. rewrite pow_SH_0 in H1. split; [exact E|]. split; [exact H1|]. unfold fmin, SH in *. lia.
Qed.

Definition signed (s : bool) (v : Z) : Z := if s then - v else v.

Lemma int_of_double s v : 0 < v < 2 ^ 53 -> in_int (signed s v) = true -> int_of_float (to_double s v 1) = Ok (signed s v).
Proof.
  intros Hv Hi. destruct (to_double_int s v Hv) as (m & e & E & Hm & He). rewrite E. cbn [int_of_float].
  rewrite (trunc_pos_value _ _ v) by assumption. unfold signed in *. destruct s; rewrite Hi; reflexivity.
Qed.

(** The ratio of a float or double. *)
Lemma finite_ratio m e : - SH <= e ->
  (m * 2 ^ Z.max 0 e) * 2 ^ SH = 2 ^ Z.max 0 (- e) * (m * 2 ^ (e + SH)).
Proof.
  intros He. assert (G : 2 ^ Z.max 0 (- e) * 2 ^ (e + SH) = 2 ^ Z.max 0 e * 2 ^ SH).
  { rewrite <- !Z.pow_add_r by (unfold SH in *; lia). f_equal. lia. }
  transitivity (m * (2 ^ Z.max 0 e * 2 ^ SH)); [ring|rewrite <- G; ring].
Qed.

Lemma float_of_double_exact s m e M E : - SH <= e -> Z.pos m * 2 ^ (e + SH) = M * 2 ^ (E + SH) ->
  0 < M < 2 ^ 24 -> -149 <= E -> E <= 104 ->
  exists m' e', float_of_double (S754_finite s m e) = S754_finite s m' e' /\
    Z.pos m' * 2 ^ (e' + SH) = M * 2 ^ (E + SH) /\ -149 <= e' <= 104 /\ Z.pos m' < 2 ^ 24 /\
    (2 ^ 23 <= Z.pos m' \/ e' = -149).
Proof.
  intros He Hv HM HE1 HE2. unfold float_of_double.
  destruct (round_ratio_exact 24 128 s (Z.pos m * 2 ^ Z.max 0 e) (2 ^ Z.max 0 (- e)) M E) as (m' & e' & X1 & X2 & X3 & X4 & X5);
    try lia; try (unfold fmin, SH; lia).
  - rewrite finite_ratio by exact He. now rewrite Hv.
  - exists m', e'. unfold fmin in *. change (24 - 1) with 23 in X5. change (3 - 128 - 24) with (-149) in *.
    change (128 - 24) with 104 in *. auto.
Qed.

Lemma int_of_float_int s v : 0 < v <= 2 ^ 24 -> int_of_float (float_of_double (to_double s v 1)) = Ok (signed s v).
Proof.
  intros Hv. destruct (to_double_int s v ltac:(lia)) as (m & e & E & Hm & He). rewrite E.
  assert (G : exists M E', 0 < M < 2 ^ 24 /\ -149 <= E' <= 104 /\ v * 2 ^ SH = M * 2 ^ (E' + SH)).
  { destruct (Z.eq_dec v (2 ^ 24)) as [->|].
    - exists 1, 24. split; [lia|]. split; [lia|]. rewrite (Z.pow_add_r 2 24) by (unfold SH; lia). ring.
    - exists v, 0. split; [lia|]. split; [lia|]. reflexivity. }
  destruct G as (M & E' & G1 & G2 & G3).
  destruct (float_of_double_exact s m e M E' He) as (m' & e' & F1 & F2 & F3 & _); try lia.
  rewrite F1. cbn [int_of_float]. rewrite (trunc_pos_value _ _ v); [|unfold SH; lia|lia].
  unfold signed. destruct s; replace (in_int _) with true by (unfold in_int, INT_MIN, INT_MAX; lia); reflexivity.
Qed.

(** ---- strtod on printed numbers ---- *)
Lemma span_app p a b : forallb p a = true -> match b with c :: _ => p c = false | [] => True end ->
  span p (a ++ b) = (a, b).
Proof.
  induction a as [|c a IH]; intros Ha Hb.
  - destruct b as [|c b]; [reflexivity|]. cbn. now rewrite Hb.
  - cbn in Ha. apply andb_true_iff in Ha as [Hc Ha]. cbn. rewrite Hc, IH by assumption. reflexivity.
Qed.

(** What may follow a number without being taken as part of it. *)
Definition stop (rest : list N) : bool :=
  match rest with
  | [] => true
  | c :: _ => negb (is_digit c || (c =? 46)%N || (to_lower c =? 101)%N || (to_lower c =? 120)%N)
  end.

Lemma digit_lower c : is_digit c = true -> to_lower c = c.
Proof. unfold is_digit, to_lower, is_upper. intros H. destruct ((65 <=? c)%N && (c <=? 90)%N) eqn:E; lia. Qed.

Lemma word_digit s c l : is_digit c = true -> strtod_word s (c :: l) = None.
Proof.
  intros H. unfold strtod_word.
  assert (G : forall w x, In x [105; 110]%N -> drop_word (x :: w) (c :: l) = None).
  { intros w x Hx. unfold drop_word. cbn [List.length firstn map bytes_eqb]. rewrite digit_lower by exact H.
    replace (x =? c)%N with false; [reflexivity|]. unfold is_digit in H. cbn in Hx. lia. }
  cbn [str map list_ascii_of_string]. rewrite !G by (cbn; auto). reflexivity.
Qed.

Lemma no_hex_prefix d l : is_digit d = true -> match l with c :: _ => (to_lower c =? 120)%N = false | [] => True end ->
  drop_word (str "0x") (d :: l) = None.
Proof.
  intros Hd Hl. unfold drop_word. cbn [str map list_ascii_of_string List.length firstn bytes_eqb].
  destruct l as [|c l]; cbn [map bytes_eqb].
  - destruct (N_of_ascii "0" =? to_lower d)%N; reflexivity.
  - change (N_of_ascii "x") with 120%N. rewrite (N.eqb_sym 120). rewrite Hl.
    destruct (N_of_ascii "0" =? to_lower d)%N; reflexivity.
Qed.

Lemma digit_not_space c : is_digit c = true -> is_space c = false.
Proof. unfold is_digit, is_space. lia. Qed.
Lemma digit_not_x c : is_digit c = true -> (to_lower c =? 120)%N = false.
Proof. intros H. rewrite digit_lower by exact H. unfold is_digit in H. lia. Qed.

(** The start of a signed number. *)
Lemma strtod_signed (s : bool) d l : is_digit d = true ->
  match l with c :: _ => (to_lower c =? 120)%N = false | [] => True end ->
  strtod ((if s then [45%N] else []) ++ d :: l) = strtod_decimal s (d :: l).
Proof.
  intros Hd Hl. unfold strtod.
  assert (G : snd (span is_space ((if s then [45%N] else []) ++ d :: l)) = (if s then [45%N] else []) ++ d :: l).
  { destruct s; [reflexivity|]. cbn. now rewrite digit_not_space. }
  rewrite G.
  assert (R : read_sign ((if s then [45%N] else []) ++ d :: l) = (s, d :: l)).
  { destruct s; [reflexivity|]. cbn. unfold is_digit in Hd. replace (d =? 45)%N with false by lia.
    replace (d =? 43)%N with false by lia. reflexivity. }
  rewrite R, word_digit, no_hex_prefix by assumption. reflexivity.
Qed.

Lemma stop_facts rest : stop rest = true ->
  match rest with c :: _ => is_digit c = false | [] => True end /\
  match rest with c :: _ => (to_lower c =? 120)%N = false | [] => True end /\
  read_fraction is_digit rest = ([], rest) /\ read_exponent 101 rest = (0, rest).
Proof.
  destruct rest as [|c rest]; intros H; [repeat split|]. cbn [stop] in H.
  unfold read_fraction, read_exponent.
  destruct (is_digit c), (c =? 46)%N, (to_lower c =? 101)%N, (to_lower c =? 120)%N; try discriminate H. repeat split.
Qed.

(** A digit string with an optional fraction. *)
Lemma strtod_digits (s : bool) ds rest : forallb is_digit ds = true -> ds <> [] -> stop rest = true ->
  strtod ((if s then [45%N] else []) ++ ds ++ rest) = Some (scaled_double s 10 (Z.of_N (digits_val ds)) 0, rest).
Proof.
  intros Hd Hne Hs. destruct (stop_facts rest Hs) as (S1 & S2 & S3 & S4).
  destruct ds as [|d ds]; [congruence|]. cbn [app].
  cbn in Hd. apply andb_true_iff in Hd as [Hd0 Hd].
  rewrite strtod_signed; [|exact Hd0|].
  - unfold strtod_decimal. change (d :: ds ++ rest) with ((d :: ds) ++ rest).
    rewrite span_app; [|cbn; now rewrite Hd0|exact S1]. rewrite S3, app_nil_r. rewrite S4. cbn [List.length]. reflexivity.
  - destruct ds as [|c ds]; [exact S2|]. cbn in Hd. apply andb_true_iff in Hd as [Hc _]. cbn [app]. now apply digit_not_x.
Qed.

Lemma strtod_fixed_point (s : bool) ds fs rest : forallb is_digit ds = true -> ds <> [] -> forallb is_digit fs = true ->
  stop rest = true ->
  strtod ((if s then [45%N] else []) ++ ds ++ [46%N] ++ fs ++ rest)
  = Some (scaled_double s 10 (Z.of_N (digits_val (ds ++ fs))) (- Z.of_nat (List.length fs)), rest).
Proof.
  intros Hd Hne Hf Hs. destruct (stop_facts rest Hs) as (S1 & S2 & S3 & S4).
  destruct ds as [|d ds]; [congruence|]. cbn [app].
  cbn in Hd. apply andb_true_iff in Hd as [Hd0 Hd].
  rewrite strtod_signed; [|exact Hd0|].
  - unfold strtod_decimal. change (d :: ds ++ 46%N :: fs ++ rest) with ((d :: ds) ++ (46%N :: fs ++ rest)).
    rewrite span_app; [|cbn; now rewrite Hd0|reflexivity]. cbn [read_fraction]. cbn [N.eqb Pos.eqb].
    rewrite span_app by assumption. cbn [app]. rewrite S4. reflexivity.
  - destruct ds as [|c ds]; [reflexivity|]. cbn in Hd. apply andb_true_iff in Hd as [Hc _]. cbn [app]. now apply digit_not_x.
Qed.

Lemma print_Z_sign z : print_Z z = (if z <? 0 then [45%N] else []) ++ print_N (Z.abs_N z).
Proof. unfold print_Z. destruct (z <? 0); reflexivity. Qed.

Lemma strtod_print_Z z rest : stop rest = true ->
  strtod (print_Z z ++ rest) = Some (scaled_double (z <? 0) 10 (Z.abs z) 0, rest).
Proof.
  intros Hs. rewrite print_Z_sign, <- app_assoc, strtod_digits; auto using print_N_digits, print_N_nonempty.
  rewrite print_N_val, N2Z.inj_abs_N. reflexivity.
Qed.

Lemma scaled_zero s : scaled_double s 10 0 0 = S754_zero s.
Proof. reflexivity. Qed.
Lemma scaled_int s v : 0 < v -> scaled_double s 10 v 0 = to_double s v 1.
Proof. intros H. unfold scaled_double. replace (v =? 0) with false by lia. cbn [Z.leb Z.compare]. now rewrite Z.mul_1_r. Qed.

(** (int) of the double read from a printed int *)
Lemma read_print_int z rest : stop rest = true -> in_int z = true ->
  exists d, strtod (print_Z z ++ rest) = Some (d, rest) /\ int_of_float d = Ok z /\ is_nan d = false.
Proof.
  intros Hs Hz. rewrite strtod_print_Z by exact Hs. eexists. split; [reflexivity|].
  destruct (Z.eq_dec z 0) as [->|]; [split; reflexivity|].
  rewrite scaled_int by lia. split.
  - rewrite int_of_double.
    + unfold signed. destruct (z <? 0) eqn:E; f_equal; lia.
    + unfold in_int, INT_MIN, INT_MAX in Hz. lia.
    + unfold signed. destruct (z <? 0) eqn:E; [replace (- Z.abs z) with z by lia|replace (Z.abs z) with z by lia]; exact Hz.
  - destruct (to_double_int (z <? 0) (Z.abs z)) as (m & e & -> & _); [|reflexivity].
    unfold in_int, INT_MIN, INT_MAX in Hz. lia.
Qed.

(** (int) (float) of a printed int: exact up to 2^24. *)
Lemma read_print_float_int z rest : stop rest = true -> Z.abs z <= 2 ^ 24 ->
  int_of_float (float_of_double (atof (print_Z z ++ rest))) = Ok z /\
  is_nan (float_of_double (atof (print_Z z ++ rest))) = false.
Proof.
  intros Hs Hz. unfold atof. rewrite strtod_print_Z by exact Hs.
  destruct (Z.eq_dec z 0) as [->|]; [split; reflexivity|].
  rewrite scaled_int by lia.
  pose proof (int_of_float_int (z <? 0) (Z.abs z) ltac:(lia)) as E. split.
  - rewrite E. unfold signed. f_equal. destruct (z <? 0) eqn:?; lia.
  - destruct (float_of_double (to_double (z <? 0) (Z.abs z) 1)); try reflexivity. discriminate E.
Qed.
