(** Overlap of mask regions. *)
From Coq Require Import Permutation.
From Verif Require Import CBase StrMap StrMapProofs Num NumProofs DecimalProofs NumSpec Buffer BufferProofs Region RegionSpec
  FloatOps FloatProofs RegionGeom GeomSpec GeomProofs BoundsProofs.
Local Open Scope Z_scope.

(** ---- Quotients ---- *)
Definition q (a n : Z) : spec_float := divf (float_of_int a) (float_of_int n).

Lemma round_ratio_finite_or p emax s num den : round_ratio p emax s num den = S754_zero s \/
  round_ratio p emax s num den = S754_infinity s \/ exists m e, round_ratio p emax s num den = S754_finite s m e.
Proof.
  unfold round_ratio. cbv zeta. repeat match goal with |- context [if ?b then _ else _] => destruct b end; eauto.
Qed.

Lemma q_zero n : 0 < n <= 2 ^ 24 -> q 0 n = S754_zero false.
Proof.
  intros H. unfold q. destruct (fmant_fixed_pos _ _ (rep_float_of_int n ltac:(lia)) ltac:(lia)) as (m & e & E & _). rewrite E. reflexivity.
Qed.

Lemma q_near a n : 0 <= a <= n -> 0 < n <= 2 ^ 24 ->
  match q a n with S754_zero _ | S754_finite _ _ _ => True | _ => False end /\
  Z.abs (units (q a n) * n - a * 2 ^ 1074) * 2 ^ 25 <= n * 2 ^ 1074 /\ 0 <= units (q a n) <= 2 ^ 1074 /\
  (a = 0 -> units (q a n) = 0) /\ (a = n -> units (q a n) = 2 ^ 1074).
Proof.
  intros Ha Hn. pose proof pow_SH_pos as P. destruct (Z.eq_dec a 0) as [->|Hz].
  { rewrite q_zero by assumption. change (2 ^ 1074) with (2 ^ SH). cbn [units].
    split; [exact I|]. split; [rewrite !Z.mul_0_l; change (Z.abs (0 - 0) * 2 ^ 25) with 0; apply Z.mul_nonneg_nonneg; lia|].
    split; [lia|]. split; [reflexivity|]. intros; lia. }
  destruct (rep_fdiv_ratio 24 128 (float_of_int a) (float_of_int n) a n) as (num & den & E & N1 & D1 & Heq);
    try (apply rep_float_of_int); try lia.
  fold divf in E. fold (q a n) in E.
  assert (F1 : 1 < 24) by lia. assert (F2 : - SH <= fmin 24 128) by (unfold fmin, SH; lia).
  destruct (Z.eq_dec a n) as [->|Hne].
  - assert (num = den) by nia. subst den.
    pose proof (round_ratio_rep 24 128 false num num 1 ltac:(lia) F2 ltac:(unfold fmin; lia) ltac:(lia) ltac:(lia) N1 D1 ltac:(lia)) as (R1 & R2 & R3).
    rewrite <- E in R1, R3. unfold signed in R3. change units with fixed. change (2 ^ 1074) with (2 ^ SH). rewrite R3.
    split; [destruct (q n n); try discriminate R1; exact I|]. split; [|split; [|split]]; try lia.
  - assert (Hj : num * 2 ^ SH < den * 2 ^ (0 + SH)) by (rewrite Z.add_0_l; apply Z.mul_lt_mono_pos_r; [exact P|nia]).
    pose proof (round_ratio_error 24 128 false num den 0 F1 F2 N1 D1 ltac:(unfold fmin; lia) ltac:(lia) Hj) as (R1 & R2 & R3).
    cbv zeta in *. rewrite <- E in R1, R2, R3. rewrite Z.mul_1_l in R3.
    change units with fixed. change (2 ^ 1074) with (2 ^ SH).
    assert (Hpos : 0 <= fixed (q a n)).
    { destruct (round_ratio_finite_or 24 128 false num den) as [X|[X|(m & e & X)]]; rewrite E, X; cbn [fixed]; try lia.
      all: assert (0 <= Z.pos m * 2 ^ (e + SH)) by (apply Z.mul_nonneg_nonneg; [lia|apply Z.pow_nonneg; lia]); lia. }
    split; [destruct (q a n); try discriminate R1; exact I|].
    set (f := fixed (q a n)) in *. clearbody f. clear E R1 R2 Hj.
    change (0 - 24 + SH) with (SH - 24) in R3. replace SH with (25 + (SH - 25)) in * by lia.
    rewrite (Z.pow_add_r 2 25) in * by (unfold SH; lia). replace (25 + (SH - 25) - 24) with (1 + (SH - 25)) in R3 by lia.
    rewrite (Z.pow_add_r 2 1) in R3 by (unfold SH; lia). change (2 ^ 1) with 2 in R3.
    pose proof (pow2_pos (SH - 25) ltac:(unfold SH; lia)) as P1.
    set (u := 2 ^ (SH - 25)) in *. clearbody u. change (2 ^ 25) with 33554432 in *. change (2 ^ 24) with 16777216 in *.
    assert (A : Z.abs (num * (33554432 * u) - den * f) <= den * u) by lia. clear R3.
    assert (B : Z.abs (f * n - a * (33554432 * u)) <= n * u).
    { apply (Z.mul_le_mono_pos_l _ _ den D1). rewrite <- (Z.abs_eq den) at 1 by lia. rewrite <- Z.abs_mul.
      replace (den * (f * n - a * (33554432 * u))) with (- (n * (num * (33554432 * u) - den * f)) + (num * n - a * den) * (33554432 * u)) by ring.
      rewrite Heq. replace ((a * den - a * den) * (33554432 * u)) with 0 by ring. rewrite Z.add_0_r, Z.abs_opp, Z.abs_mul, (Z.abs_eq n) by lia.
      replace (den * (n * u)) with (n * (den * u)) by ring. apply Z.mul_le_mono_nonneg_l; lia. }
    split; [replace (n * (33554432 * u)) with (n * u * 33554432) by ring; apply Z.mul_le_mono_nonneg_r; lia|].
    split; [|lia]. split; [exact Hpos|]. apply Z.le_ngt. intros C.
    assert ((a + 1) * (33554432 * u) <= n * (33554432 * u)) by (apply Z.mul_le_mono_nonneg_r; lia).
    assert (n * u <= 16777216 * u) by (apply Z.mul_le_mono_nonneg_r; lia).
    assert (n * (33554432 * u) + n <= n * f) by nia. nia.
Qed.
(** A rounded ratio is a number of the format. *)
Lemma digits2_bounds m : 2 ^ (Z.pos (digits2_pos m) - 1) <= Z.pos m < 2 ^ Z.pos (digits2_pos m).
Proof.
  induction m as [m IH|m IH|]; cbn [digits2_pos]; [| |split; reflexivity || lia];
    rewrite Pos2Z.inj_succ; (replace (Z.succ (Z.pos (digits2_pos m)) - 1) with (Z.succ (Z.pos (digits2_pos m) - 1)) by lia);
    rewrite !Z.pow_succ_r by lia; lia.
Qed.
Lemma bounds_valid s m e : Z.pos m < 2 ^ 24 -> -149 <= e <= 104 -> 2 ^ 23 <= Z.pos m \/ e = -149 -> valid_binary 24 128 (S754_finite s m e) = true.
Proof.
  intros Hm He Hc. cbn [valid_binary]. unfold bounded, canonical_mantissa, SpecFloat.fexp, emin.
  pose proof (digits2_bounds m) as [G1 G2]. set (d := Z.pos (digits2_pos m)) in *.
  assert (D : d <= 24).
  { destruct (Z.le_gt_cases d 24) as [|C]; [assumption|exfalso].
    assert (2 ^ 24 <= 2 ^ (d - 1)) by (apply Z.pow_le_mono_r; lia). lia. }
  apply andb_true_iff. split; [|apply Zle_imp_le_bool; lia].
  apply Zeq_is_eq_bool. destruct Hc as [Hc| ->]; [|lia].
  assert (d = 24).
  { destruct (Z.le_gt_cases 24 d) as [|C]; [lia|exfalso]. assert (2 ^ d <= 2 ^ 23) by (apply Z.pow_le_mono_r; lia). lia. }
  lia.
Qed.
Lemma round_ratio_finite s num den : 0 < num -> 0 < den -> finite (round_ratio 24 128 s num den) = true -> finite_float (round_ratio 24 128 s num den).
Proof.
  intros Hn Hd F. destruct (round_ratio 24 128 s num den) as [z| | |z m e] eqn:E; try discriminate F; split; try exact Logic.I; [reflexivity|].
  apply round_ratio_valid in E as (_ & E1 & E2 & E3); [|lia|unfold fmin, SH; lia|exact Hn|exact Hd].
  unfold fmin in *. apply bounds_valid; lia.
Qed.
(** The value of a rounded ratio. *)
Lemma round_ratio_value p emax num den : 1 < p -> - SH <= fmin p emax -> 0 < num -> 0 < den ->
  let e := ratio_exp p emax num den in let m := rne (scale_num num e) (scale_den den e) in
  finite (round_ratio p emax false num den) = true -> fixed (round_ratio p emax false num den) = m * 2 ^ (e + SH).
Proof.
  intros Hp Hmin Hn Hd. cbv zeta. pose proof (ratio_exp_spec p emax num den Hp Hmin Hn Hd) as (E1 & _). cbv zeta in E1. unfold round_ratio.
  set (e := ratio_exp p emax num den) in *. pose proof (ratio_mant_spec num den e ltac:(lia) Hn Hd) as (M1 & _). cbv zeta in M1.
  set (m := rne (scale_num num e) (scale_den den e)) in *. clearbody e m. destruct (m =? 2 ^ p) eqn:Em.
  - apply Z.eqb_eq in Em.
    assert (Hm2 : m / 2 = 2 ^ (p - 1)).
    { rewrite Em. replace p with (1 + (p - 1)) at 1 by lia. rewrite Z.pow_add_r by lia. change (2 ^ 1) with 2. rewrite Z.mul_comm, Z.div_mul by lia. reflexivity. }
    assert (0 < 2 ^ (p - 1)) by (apply pow2_pos; lia). replace (m / 2 =? 0) with false by lia.
    destruct (emax - p <? e + 1); [discriminate|]. intros _. cbn [fixed]. rewrite Z2Pos.id by lia. rewrite Hm2, Z.mul_1_l, Em, <- !Z.pow_add_r by lia. f_equal. lia.
  - destruct (Z.eqb_spec m 0) as [->|E0]; [reflexivity|]. destruct (emax - p <? e); [discriminate|]. intros _. cbn [fixed]. rewrite Z2Pos.id by lia. lia.
Qed.
(** Rounding respects the order of the ratio and a value of the format. *)
Lemma round_ratio_order p emax num den M E : 1 < p -> - SH <= fmin p emax -> 0 < num -> 0 < den -> 0 <= M < 2 ^ p -> fmin p emax <= E ->
  finite (round_ratio p emax false num den) = true ->
  (num * 2 ^ SH <= den * (M * 2 ^ (E + SH)) -> fixed (round_ratio p emax false num den) <= M * 2 ^ (E + SH)) /\
  (den * (M * 2 ^ (E + SH)) <= num * 2 ^ SH -> M * 2 ^ (E + SH) <= fixed (round_ratio p emax false num den)).
Proof.
  intros Hp Hmin Hn Hd HM HE F. rewrite (round_ratio_value p emax num den Hp Hmin Hn Hd F).
  pose proof (ratio_exp_spec p emax num den Hp Hmin Hn Hd) as (E1 & E2 & E3). cbv zeta in *. set (e := ratio_exp p emax num den) in *.
  pose proof (ratio_mant_spec num den e ltac:(lia) Hn Hd) as (M1 & M2). cbv zeta in *. set (m := rne (scale_num num e) (scale_den den e)) in *. clearbody e m.
  pose proof (pow2_pos (e + SH) ltac:(lia)) as P. assert (X : 0 < den * 2 ^ (e + SH)) by (apply Z.mul_pos_pos; lia).
  destruct (Z.le_gt_cases e E) as [C|C].
  - assert (V : M * 2 ^ (E + SH) = M * 2 ^ (E - e) * 2 ^ (e + SH)) by (rewrite <- Z.mul_assoc, <- Z.pow_add_r by lia; do 2 f_equal; lia).
    rewrite V. set (K := M * 2 ^ (E - e)) in *. replace (den * (K * 2 ^ (e + SH))) with (K * (den * 2 ^ (e + SH))) by ring.
    set (B := den * 2 ^ (e + SH)) in *. set (R := num * 2 ^ SH) in *. clearbody B R K. apply Z.abs_le in M2. clear - M2 X P.
    split; intros H; apply Z.mul_le_mono_nonneg_r; try lia; nia.
  - destruct E3 as [->|E3]; [lia|].
    assert (S1 : M * 2 ^ (E + SH) < 2 ^ (p - 1 + e + SH)).
    { apply Z.lt_le_trans with (2 ^ p * 2 ^ (E + SH)); [apply Z.mul_lt_mono_pos_r; [apply pow2_pos; lia|lia]|].
      rewrite <- Z.pow_add_r by lia. apply Z.pow_le_mono_r; lia. }
    split.
    + intros H. exfalso. assert (den * (M * 2 ^ (E + SH)) < den * 2 ^ (p - 1 + e + SH)) by (apply Z.mul_lt_mono_pos_l; lia). lia.
    + intros _. apply Z.le_trans with (2 ^ (p - 1 + e + SH)); [lia|].
      assert (P2 : 2 ^ (p - 1 + e + SH) = 2 ^ (p - 1) * 2 ^ (e + SH)) by (rewrite <- Z.pow_add_r by lia; f_equal; lia).
      rewrite P2. apply Z.mul_le_mono_nonneg_r; [lia|]. rewrite P2 in E3. set (A := 2 ^ (p - 1)) in *.
      replace (den * (A * 2 ^ (e + SH))) with (A * (den * 2 ^ (e + SH))) in E3 by ring.
      set (B := den * 2 ^ (e + SH)) in *. set (R := num * 2 ^ SH) in *. clearbody A B R. apply Z.abs_le in M2. clear - M2 X E3. nia.
Qed.
(** A quotient of integers is rounded so that the order with the values of the format is kept. *)
Lemma q_order a n y : 0 <= a <= n -> 0 < n <= 2 ^ 24 -> finite_float y ->
  (a * 2 ^ SH <= fixed y * n -> fixed (q a n) <= fixed y) /\ (fixed y * n <= a * 2 ^ SH -> fixed y <= fixed (q a n)).
Proof.
  intros Ha Hn (Vy & Fy). pose proof pow_SH_pos as P.
  destruct (q_near a n Ha Hn) as (Q1 & _ & Q3 & Q4 & _). change units with fixed in *. change (2 ^ 1074) with (2 ^ SH) in *.
  assert (D : fixed y <= 0 \/ exists m e, y = S754_finite false m e).
  { destruct y as [s| | |s m e]; try contradiction; cbn [fixed]; [left; lia|]. destruct s; [left|right; eauto].
    assert (0 <= Z.pos m * 2 ^ (e + SH)) by (apply Z.mul_nonneg_nonneg; [lia|apply Z.pow_nonneg; lia]). lia. }
  destruct D as [D|(m & e & ->)].
  - split; [|lia]. intros H. destruct (Z.eq_dec a 0) as [->|Hz].
    + rewrite (Q4 eq_refl). nia.
    + exfalso. assert (0 < a * 2 ^ SH) by (apply Z.mul_pos_pos; lia). assert (fixed y * n <= 0) by (apply Z.mul_nonpos_nonneg; lia). lia.
  - destruct (valid_bounds _ _ _ Vy) as (B1 & B2 & _). cbn [fixed]. rewrite Z.mul_1_l. destruct (Z.eq_dec a 0) as [->|Hz].
    + rewrite (Q4 eq_refl). assert (0 < Z.pos m * 2 ^ (e + SH)) by (apply Z.mul_pos_pos; [lia|apply pow2_pos; unfold SH; lia]). split; [lia|]. intros. nia.
    + destruct (rep_fdiv_ratio 24 128 (float_of_int a) (float_of_int n) a n) as (num & den & E & N1 & D1 & Heq); try (apply rep_float_of_int); try lia.
      fold divf in E. fold (q a n) in E.
      assert (F : finite (round_ratio 24 128 false num den) = true) by (rewrite <- E; destruct (q a n); try contradiction; reflexivity).
      destruct (round_ratio_order 24 128 num den (Z.pos m) e ltac:(lia) ltac:(unfold fmin, SH; lia) N1 D1 ltac:(lia) ltac:(unfold fmin; lia) F) as (O1 & O2).
      rewrite E. set (v := Z.pos m * 2 ^ (e + SH)) in *. set (u := 2 ^ SH) in *. clearbody u v. clear - O1 O2 Heq N1 D1 Hn.
      split; intros H; [apply O1|apply O2]; apply (Z.mul_le_mono_pos_r _ _ n); try lia.
      * replace (num * u * n) with ((num * n) * u) by ring. rewrite Heq. replace (a * den * u) with (den * (a * u)) by ring. replace (den * v * n) with (den * (v * n)) by ring. apply Z.mul_le_mono_nonneg_l; lia.
      * replace (num * u * n) with ((num * n) * u) by ring. rewrite Heq. replace (a * den * u) with (den * (a * u)) by ring. replace (den * v * n) with (den * (v * n)) by ring. apply Z.mul_le_mono_nonneg_l; lia.
Qed.
Lemma q_finite a n : 0 <= a <= n -> 0 < n <= 2 ^ 24 -> finite_float (q a n).
Proof.
  intros Ha Hn. destruct (q_near a n Ha Hn) as (A & _). destruct (Z.eq_dec a 0) as [->|Hz]; [rewrite q_zero by assumption; split; [reflexivity|exact Logic.I]|].
  destruct (rep_fdiv_ratio 24 128 (float_of_int a) (float_of_int n) a n) as (num & den & E & N1 & D1 & Heq); try (apply rep_float_of_int); try lia.
  fold divf in E. fold (q a n) in E. rewrite E in *. apply round_ratio_finite; [exact N1|exact D1|]. destruct (round_ratio 24 128 false num den); try contradiction; reflexivity.
Qed.
Lemma q_spec a n : 0 <= a <= n -> 0 < n <= 2 ^ 24 -> quotient (q a n) a n.
Proof.
  intros Ha Hn. destruct (q_near a n Ha Hn) as (A & B & C & D & E). unfold quotient. split; [exact (q_finite a n Ha Hn)|]. split; [exact B|]. split; [exact C|]. split; [exact D|]. split; [exact E|].
  intros y Fy. exact (q_order a n y Ha Hn Fy).
Qed.

(** ---- Pixels of a window ---- *)
Definition window_pixels (x y w h : Z) : list (Z * Z) :=
  map (fun k => (x + Z.of_nat k mod w, y + Z.of_nat k / w)) (seq 0 (Z.to_nat (w * h))).

Lemma window_pixels_length x y w h : List.length (window_pixels x y w h) = Z.to_nat (w * h).
Proof. unfold window_pixels. now rewrite map_length, seq_length. Qed.

Lemma in_window x y w h X Y : 0 < w -> 0 <= h -> (In (X, Y) (window_pixels x y w h) <-> x <= X < x + w /\ y <= Y < y + h).
Proof.
  intros Hw Hh. unfold window_pixels. rewrite in_map_iff. split.
  - intros (k & E & Hk). injection E as <- <-. apply in_seq in Hk.
    pose proof (Z.mod_pos_bound (Z.of_nat k) w Hw). split; [lia|].
    assert (0 <= Z.of_nat k / w) by (apply Z.div_pos; lia).
    assert (Z.of_nat k / w < h) by (apply Z.div_lt_upper_bound; lia). lia.
  - intros [HX HY]. exists (Z.to_nat ((Y - y) * w + (X - x))).
    pose proof (index_range w h (Y - y) (X - x) ltac:(lia) ltac:(lia)) as R. rewrite Z2Nat.id by lia. split.
    + rewrite (Z.add_comm ((Y - y) * w)). rewrite Z.mod_add, Z.div_add by lia. rewrite Z.mod_small, Z.div_small by lia. f_equal; lia.
    + apply in_seq. lia.
Qed.
Lemma NoDup_window x y w h : 0 < w -> NoDup (window_pixels x y w h).
Proof.
  intros Hw. unfold window_pixels. apply FinFun.Injective_map_NoDup; [|apply seq_NoDup].
  intros a b E. injection E as E1 E2. pose proof (Z.div_mod (Z.of_nat a) w ltac:(lia)). pose proof (Z.div_mod (Z.of_nat b) w ltac:(lia)). nia.
Qed.

Lemma nth_error_ext {A} (l l' : list A) : (forall k, nth_error l k = nth_error l' k) -> l = l'.
Proof.
  revert l'. induction l as [|a l IH]; intros [|b l'] H; [reflexivity|discriminate (H O)|discriminate (H O)|].
  f_equal; [specialize (H O); cbn in H; congruence|]. apply IH. intros k. exact (H (S k)).
Qed.

Definition values (mx my mw mh : Z) (data : list N) (ps : list (Z * Z)) : list N :=
  map (fun p => value_at mx my mw mh data (fst p) (snd p)) ps.

Lemma window_values legacy mx my mw mh data x y w h : mask_ok mw mh data -> 0 < w -> 0 < h -> in_int (w * h) = true ->
  spans_fit mx mw x w -> spans_fit my mh y h ->
  get_mask_offset legacy (RMask mx my mw mh data) (blk_new (Z.to_nat (w * h))) x y w h
  = Ok (map Some (values mx my mw mh data (window_pixels x y w h))).
Proof.
  intros Hm Hw Hh Hs Hx Hy.
  destruct (window_ok legacy mx my mw mh data x y w h (blk_new (Z.to_nat (w * h)))) as (b & E & L & C & _); try assumption; try lia.
  { unfold blk_new. rewrite repeat_length. nia. }
  rewrite E. f_equal. apply nth_error_ext. intros k. unfold blk_new in L. rewrite repeat_length in L.
  unfold values. rewrite map_map. unfold window_pixels. rewrite map_map. cbn [fst snd].
  destruct (lt_dec k (Z.to_nat (w * h))) as [Hk|Hk].
  - rewrite nth_error_map. rewrite (nth_error_nth' (seq 0 (Z.to_nat (w * h))) O) by (rewrite seq_length; exact Hk).
    rewrite seq_nth by exact Hk. cbn [option_map Nat.add].
    pose proof (Z.mod_pos_bound (Z.of_nat k) w Hw) as Bm. pose proof (Z.div_mod (Z.of_nat k) w ltac:(lia)) as Dm.
    assert (0 <= Z.of_nat k / w) by (apply Z.div_pos; lia).
    assert (Z.of_nat k / w < h) by (apply Z.div_lt_upper_bound; lia).
    rewrite <- (C (Z.of_nat k / w) (Z.of_nat k mod w)) by lia. f_equal. lia.
  - rewrite !(proj2 (nth_error_None _ _)); [reflexivity| |lia]. rewrite map_length, seq_length. lia.
Qed.

Lemma blk_read_some {A} (l : list A) n : n = List.length l -> blk_read (map Some l) n = Ok l.
Proof. intros ->. induction l as [|a l IH]; [reflexivity|]. cbn [map List.length blk_read]. rewrite IH. reflexivity. Qed.

(** ---- Counting ---- *)
Definition nz (v : N) : bool := negb (v =? 0)%N.
Definition zlen {A} (l : list A) : Z := Z.of_nat (List.length l).
Lemma count_pairs_spec {A} (f g : A -> N) ps : count_pairs (map f ps) (map g ps) =
  (zlen (filter (fun p => nz (f p) && negb (nz (g p))) ps), zlen (filter (fun p => negb (nz (f p)) && nz (g p)) ps),
   zlen (filter (fun p => nz (f p) && nz (g p)) ps)).
Proof.
  induction ps as [|p ps IH]; [reflexivity|]. cbn [map count_pairs filter]. rewrite IH. unfold nz, zlen.
  destruct (f p =? 0)%N, (g p =? 0)%N; cbn [negb andb List.length]; rewrite ?Nat2Z.inj_succ; reflexivity.
Qed.

Lemma count_while_spec (l : list N) bnd : forall i n, rep bnd n -> n = i + zlen l -> 0 <= i -> n <= 2 ^ 24 ->
  count_while (map Some l) i bnd = Ok (zlen (filter nz l)).
Proof.
  unfold zlen. induction l as [|v l IH]; intros i n R Hn Hi Hb; cbn [map count_while List.length] in *.
  - rewrite (rep_lt _ _ i n (rep_float_of_int i ltac:(lia)) R). replace (i <? n) with false by (symmetry; lia). reflexivity.
  - rewrite (rep_lt _ _ i n (rep_float_of_int i ltac:(lia)) R). replace (i <? n) with true by (symmetry; lia).
    rewrite (IH (i + 1) n R) by lia. cbn [obind filter].
    assert (Ev : nz v = negb (v =? 0)%N) by reflexivity. rewrite Ev. destruct (v =? 0)%N; cbn [negb List.length]; f_equal; lia.
Qed.

(** ---- Enumerations ---- *)
Lemma enumerates_length l l' P : enumerates l P -> enumerates l' P -> List.length l = List.length l'.
Proof.
  intros [N1 H1] [N2 H2]. apply Permutation_length, NoDup_Permutation; try assumption.
  intros [X Y]. rewrite H1, H2. reflexivity.
Qed.
Lemma enumerates_filter x y w h (f : Z * Z -> bool) P : 0 < w -> 0 <= h ->
  (forall X Y, P X Y <-> (x <= X < x + w /\ y <= Y < y + h) /\ f (X, Y) = true) ->
  enumerates (filter f (window_pixels x y w h)) P.
Proof.
  intros Hw Hh H. split; [apply NoDup_filter, NoDup_window, Hw|].
  intros X Y. rewrite filter_In, in_window, H by assumption. reflexivity.
Qed.

Lemma nz_true v : nz v = true <-> v <> 0%N.
Proof. unfold nz. rewrite Bool.negb_true_iff, N.eqb_neq. reflexivity. Qed.
Lemma nz_false v : negb (nz v) = true <-> ~ v <> 0%N.
Proof. rewrite Bool.negb_true_iff, <- nz_true, Bool.not_true_iff_false. reflexivity. Qed.
Lemma nz_set mx my mw mh data X Y : nz (value_at mx my mw mh data X Y) = true <-> set_at mx my mw mh data X Y.
Proof. unfold nz, set_at. rewrite Bool.negb_true_iff, N.eqb_neq. reflexivity. Qed.
Lemma nz_not_set mx my mw mh data X Y : negb (nz (value_at mx my mw mh data X Y)) = true <-> ~ set_at mx my mw mh data X Y.
Proof. rewrite Bool.negb_true_iff, <- nz_set, Bool.not_true_iff_false. reflexivity. Qed.

Lemma tight_box_unique S l t r b l' t' r' b' : tight_box S l t r b -> tight_box S l' t' r' b' -> l = l' /\ t = t' /\ r = r' /\ b = b'.
Proof.
  intros (A & [a1 A1] & [a2 A2] & [a3 A3] & [a4 A4]) (B & [c1 B1] & [c2 B2] & [c3 B3] & [c4 B4]).
  pose proof (A _ _ B1). pose proof (A _ _ B2). pose proof (A _ _ B3). pose proof (A _ _ B4).
  pose proof (B _ _ A1). pose proof (B _ _ A2). pose proof (B _ _ A3). pose proof (B _ _ A4). lia.
Qed.

Lemma zbounds_area b t bo l r : zbounds b t bo l r -> Z.abs (r - l) <= 2 ^ 24 -> Z.abs (bo - t) <= 2 ^ 24 ->
  Z.abs ((r - l) * (bo - t)) <= 2 ^ 24 -> rep (bounds_area b) ((r - l) * (bo - t)).
Proof.
  intros (B1 & B2 & B3 & B4) H1 H2 H3. unfold bounds_area, mulf, subf.
  apply rep_fmul; [apply fmt_float| | |exact H3]; apply rep_fsub; try assumption; apply fmt_float.
Qed.

Lemma create_mask_ok w h : 0 < w -> 0 < h -> in_int (w * h) = true -> create_mask w h = Ok (blk_new (Z.to_nat (w * h))).
Proof.
  intros Hw Hh Hi. unfold create_mask. replace (0 <? w) with true by (symmetry; lia). replace (0 <? h) with true by (symmetry; lia).
  cbn [andb]. rewrite int_result_ok by exact Hi. reflexivity.
Qed.

Lemma small_int z : Z.abs z <= 2 ^ 26 -> in_int z = true.
Proof. intros H. apply in_int_of. unfold INT_MIN, INT_MAX. lia. Qed.
Lemma spans_fit_small a n x w : Z.abs a <= 2 ^ 24 -> Z.abs (a + n) <= 2 ^ 24 -> Z.abs x <= 2 ^ 24 -> 0 <= w <= 2 ^ 24 -> spans_fit a n x w.
Proof. intros. unfold spans_fit. repeat split; try (apply small_int; lia). unfold INT_MAX. lia. Qed.

Lemma side_ok lo hi a b : rep lo a -> rep hi b -> 0 <= b - a -> b - a + 1 <= 2 ^ 24 -> rep (side lo hi) (b - a + 1).
Proof.
  intros R1 R2 H1 H2. unfold side, addf, subf. apply rep_fadd; [apply fmt_float| |apply rep_one|lia].
  apply rep_fsub; [apply fmt_float|assumption|assumption|lia].
Qed.

(** What the overlap computation uses of a region: its pixels [v], their box, and windows within [K]. *)
Definition pixels_of (v : Z -> Z -> N) (ps : list (Z * Z)) : list N := map (fun p => v (fst p) (snd p)) ps.
Definition has_pixels (legacy : bool) (rg : region) (K : Z) (v : Z -> Z -> N) (l t r b : Z) : Prop :=
  (forall A B, v A B <> 0%N -> l <= A <= r /\ t <= B <= b) /\
  (- K <= l /\ r <= K /\ - K <= t /\ b <= K) /\
  (exists bx, compute_bounds legacy rg = Ok bx /\ zbounds bx t b l r) /\
  (forall x y w h, 0 < w -> 0 < h -> w * h <= 2 ^ 24 -> - K <= x -> x + w - 1 <= K -> - K <= y -> y + h - 1 <= K ->
    get_mask_offset legacy rg (blk_new (Z.to_nat (w * h))) x y w h = Ok (map Some (pixels_of v (window_pixels x y w h)))).

(** The same when only the windows of [win] draw these pixels, and the box is known after rounding. *)
Definition has_pixels_in (win : Z -> Z -> Z -> Z -> Prop) (legacy : bool) (rg : region) (K : Z) (v : Z -> Z -> N) (l t r b : Z) : Prop :=
  (forall A B, v A B <> 0%N -> l <= A <= r /\ t <= B <= b) /\
  (- K <= l /\ r <= K /\ - K <= t /\ b <= K) /\
  (exists bx, compute_bounds legacy rg = Ok bx /\ zbounds (if legacy then bx else bounds_round bx) t b l r) /\
  (forall x y w h, win x y w h ->
    get_mask_offset legacy rg (blk_new (Z.to_nat (w * h))) x y w h = Ok (map Some (pixels_of v (window_pixels x y w h)))).
Definition small_window (K x y w h : Z) : Prop :=
  0 < w /\ 0 < h /\ w * h <= 2 ^ 24 /\ - K <= x /\ x + w - 1 <= K /\ - K <= y /\ y + h - 1 <= K.

Lemma zbounds_round (legacy : bool) b t bo l r : zbounds b t bo l r -> Z.abs t <= 2 ^ 24 -> Z.abs bo <= 2 ^ 24 -> Z.abs l <= 2 ^ 24 -> Z.abs r <= 2 ^ 24 ->
  zbounds (if legacy then b else bounds_round b) t bo l r.
Proof.
  intros Zb H1 H2 H3 H4. destruct legacy; [exact Zb|]. destruct Zb as (B1 & B2 & B3 & B4). unfold bounds_round, zbounds. cbn [top bottom left right].
  split; [|split; [|split]]; (apply rep_float_of_double; [|lia]); (apply rep_floor || apply rep_ceil); try assumption; lia.
Qed.
Lemma has_pixels_windows legacy rg K v l t r b : K <= 2 ^ 24 -> l <= r -> t <= b ->
  has_pixels legacy rg K v l t r b -> has_pixels_in (small_window K) legacy rg K v l t r b.
Proof.
  intros HK Hlr Htb (H1 & H2 & (bx & E & Zb) & H4). split; [exact H1|]. split; [exact H2|]. split.
  - exists bx. split; [exact E|]. apply zbounds_round; [exact Zb|lia..].
  - intros x y w h (Q1 & Q2 & Q3 & Q4 & Q5 & Q6 & Q7). apply H4; assumption.
Qed.

Lemma mask_has_pixels legacy x y w h data l t r b : mask_ok w h data -> exact_span x w -> exact_span y h ->
  tight_box (set_at x y w h data) l t r b -> has_pixels legacy (RMask x y w h data) (2 ^ 24) (value_at x y w h data) l t r b.
Proof.
  intros Hm Hx Hy HT.
  assert (HS : exists X Y, set_at x y w h data X Y) by (destruct HT as (_ & [Y H] & _); eauto).
  destruct (mask_bounds_tight x y w h data Hm Hx Hy HS) as (bx & l' & t' & r' & bo' & E & Zb & T & Q).
  destruct (tight_box_unique _ _ _ _ _ _ _ _ _ T HT) as (-> & -> & -> & ->).
  destruct Hx as (X1 & X2 & X3). destruct Hy as (Y1 & Y2 & Y3). split; [exact (proj1 HT)|]. split; [lia|]. split; [exists bx; auto|].
  intros a c ww hh Hw Hh Ha B1 B2 B3 B4. assert (P : 0 < ww * hh) by (apply Z.mul_pos_pos; lia).
  destruct Hm as (M1 & M2 & M3 & M4).
  apply window_values; [repeat split; assumption|lia|lia|apply small_int; lia| |]; unfold spans_fit;
    (split; [apply small_int; lia|]); (split; [apply small_int; lia|]); unfold INT_MAX; lia.
Qed.

Lemma clipped_box_ok win legacy rg K v l t r bo bnd bl bt br bb :
  has_pixels_in win legacy rg K v l t r bo -> rep (left bnd) bl -> rep (top bnd) bt -> rep (right bnd) br -> rep (bottom bnd) bb ->
  exists b, clipped_box legacy rg bnd = Ok b /\ zbounds b (Z.max t bt) (Z.min bo bb) (Z.max l bl) (Z.min r br).
Proof.
  intros (_ & Ex & (b & E & Zb') & _) R1 R2 R3 R4. unfold clipped_box. rewrite E. cbn [obind].
  eexists. split; [reflexivity|]. destruct Zb' as (B1 & B2 & B3 & B4). unfold bounds_intersection, zbounds. cbn [top bottom left right].
  auto using rep_MIN, rep_MAX.
Qed.

(** The volume of a region inside a box. *)
Lemma box_volume_ok win legacy rg K v l0 t0 r0 b0 b t bo l r : has_pixels_in win legacy rg K v l0 t0 r0 b0 -> K <= 2 ^ 24 ->
  win l t (r - l + 1) (bo - t + 1) -> zbounds b t bo l r -> l <= r -> t <= bo -> - K <= l -> r <= K -> - K <= t -> bo <= K ->
  (r - l + 1) * (bo - t + 1) <= 2 ^ 24 ->
  box_volume legacy rg b = Ok (zlen (filter (fun p => nz (v (fst p) (snd p))) (window_pixels l t (r - l + 1) (bo - t + 1)))).
Proof.
  intros (_ & _ & _ & Hwin) HK Hw0 (B1 & B2 & B3 & B4) Hlr Htb E1 E2 E3 E4 Harea. specialize (Hwin _ _ _ _ Hw0).
  assert (S1 : r - l + 1 <= 2 ^ 24) by nia. assert (S2 : bo - t + 1 <= 2 ^ 24) by nia.
  pose proof (side_ok _ _ _ _ B3 B4 ltac:(lia) S1) as W. pose proof (side_ok _ _ _ _ B1 B2 ltac:(lia) S2) as H.
  assert (P : 0 < (r - l + 1) * (bo - t + 1)) by (apply Z.mul_pos_pos; lia).
  unfold box_volume. rewrite (rep_int _ _ B3) by (apply small_int; lia). cbn [obind].
  rewrite (rep_int _ _ B1) by (apply small_int; lia). cbn [obind].
  rewrite (rep_int _ _ W) by (apply small_int; lia). cbn [obind].
  rewrite (rep_int _ _ H) by (apply small_int; lia). cbn [obind].
  rewrite create_mask_ok by (try apply small_int; lia). cbn [obind].
  rewrite Hwin. cbn [obind]. clear Hwin.
  rewrite (count_while_spec _ _ 0 ((r - l + 1) * (bo - t + 1))).
  - f_equal. unfold pixels_of, zlen. f_equal. induction (window_pixels l t (r - l + 1) (bo - t + 1)) as [|p ps IH]; [reflexivity|].
    cbn [map filter]. destruct (nz (v (fst p) (snd p))); cbn [List.length]; now rewrite IH.
  - apply rep_fmul; [apply fmt_float|exact W|exact H|lia].
  - unfold zlen, pixels_of. rewrite map_length, window_pixels_length. lia.
  - lia.
  - exact Harea.
Qed.

Lemma positive_not_zero m e : feq (fMAX (S754_zero false) (S754_finite false m e)) fzero = false.
Proof.
  unfold fMAX, fgt, feq, fzero, fcmp. cbn [fmant fexp]. rewrite Z.mul_0_l.
  pose proof (pow2_pos (e - Z.min 0 e) ltac:(lia)) as P1. pose proof (pow2_pos (e - Z.min e 0) ltac:(lia)) as P2.
  assert (E1 : 0 ?= Z.pos m * 2 ^ (e - Z.min 0 e) = Lt) by (apply Z.compare_lt_iff; lia). rewrite E1.
  cbn [fmant fexp]. rewrite Z.mul_0_l.
  assert (E2 : Z.pos m * 2 ^ (e - Z.min e 0) ?= 0 = Gt) by (apply Z.compare_gt_iff; lia). rewrite E2. reflexivity.
Qed.
Lemma factors_le a b c : 1 < a -> 1 < b -> a * b <= c -> a <= c /\ b <= c.
Proof. intros. nia. Qed.

(** Whether the areas of two boxes and of their intersection give the quotient zero (or less). *)
Definition apart_areas (a1 a2 ai : Z) : bool := negb ((0 <? ai) && (0 <=? a1 + a2 - ai)).

Lemma rep_neg x a : rep x a -> a < 0 -> exists m e, x = S754_finite true m e.
Proof.
  intros (F & E & V) Ha. pose proof pow_SH_pos as P. destruct x as [s| | |s m e]; try discriminate F; cbn [fixed fexp] in *.
  - exfalso. clear - V Ha P. assert (a * 2 ^ SH < 0) by (apply Z.mul_neg_pos; assumption). lia.
  - destruct s; [eauto|]. exfalso. pose proof (pow2_pos (e + SH) ltac:(unfold SH; lia)) as P1.
    assert (0 < Z.pos m * 2 ^ (e + SH)) by (apply Z.mul_pos_pos; lia). assert (a * 2 ^ SH < 0) by (apply Z.mul_neg_pos; assumption). lia.
Qed.
Lemma rep_pos x a : rep x a -> 0 < a -> exists m e, x = S754_finite false m e.
Proof. intros R Ha. destruct (fmant_fixed_pos _ _ R Ha) as (m & e & E & _). eauto. Qed.
Lemma rep_null x : rep x 0 -> exists s, x = S754_zero s.
Proof.
  intros (F & E & V). destruct x as [s| | |s m e]; try discriminate F; [eauto|]. exfalso. cbn [fixed fexp] in *.
  pose proof (pow2_pos (e + SH) ltac:(unfold SH; lia)). destruct s; nia.
Qed.
Lemma nonpositive_is_zero x : (exists s, x = S754_zero s) \/ x = S754_infinity true \/ (exists m e, x = S754_finite true m e) ->
  feq (fMAX (S754_zero false) x) fzero = true.
Proof.
  intros [(s & ->)|[->|(m & e & ->)]].
  - unfold fMAX, fgt, fcmp. cbn [fmant fexp]. rewrite !Z.mul_0_l. reflexivity.
  - reflexivity.
  - unfold fMAX, fgt, fcmp. cbn [fmant fexp]. rewrite Z.mul_0_l.
    pose proof (pow2_pos (e - Z.min 0 e) ltac:(lia)) as P1.
    assert (E1 : 0 ?= Z.neg m * 2 ^ (e - Z.min 0 e) = Gt) by (apply Z.compare_gt_iff; apply Z.mul_neg_pos; lia).
    change (- Z.pos m) with (Z.neg m). rewrite E1. reflexivity.
Qed.
Lemma apart_ok i a b I A1 A2 : rep i I -> rep a A1 -> rep b A2 -> 0 < A1 -> 0 < A2 -> Z.abs I <= 2 ^ 24 ->
  A1 + A2 <= 2 ^ 24 -> Z.abs (A1 + A2 - I) <= 2 ^ 24 ->
  feq (fMAX (S754_zero false) (divf i (subf (addf a b) i))) fzero = apart_areas A1 A2 I.
Proof.
  intros Ri Ra Rb HA1 HA2 BI BA BD.
  assert (Rs : rep (addf a b) (A1 + A2)) by (apply rep_fadd; [apply fmt_float|assumption|assumption|lia]).
  assert (Rd : rep (subf (addf a b) i) (A1 + A2 - I)) by (apply rep_fsub; [apply fmt_float|assumption|assumption|lia]).
  unfold apart_areas. destruct (Z.lt_trichotomy I 0) as [HI|[HI|HI]].
  - replace (0 <? I) with false by (symmetry; lia). cbn [andb negb].
    destruct (rep_neg _ _ Ri HI) as (mi & ei & Ei). destruct (rep_pos _ _ Rd ltac:(lia)) as (md & ed & Ed). rewrite Ed, Ei.
    apply nonpositive_is_zero. unfold divf. cbn [fdiv fsign xorb]. cbv zeta.
    match goal with |- context [round_ratio ?p ?m ?s ?n ?d] => destruct (round_ratio_finite_or p m s n d) as [E|[E|E]] end; rewrite ?E; eauto.
  - subst I. change (0 <? 0) with false. cbn [andb negb].
    destruct (rep_null _ Ri) as (si & Ei). destruct (rep_pos _ _ Rd ltac:(lia)) as (md & ed & Ed). rewrite Ed, Ei.
    apply nonpositive_is_zero. left. unfold divf. cbn [fdiv fsign xorb]. eauto.
  - replace (0 <? I) with true by (symmetry; lia). cbn [andb].
    destruct (Z.lt_trichotomy (A1 + A2 - I) 0) as [HD|[HD|HD]].
    + replace (0 <=? A1 + A2 - I) with false by (symmetry; lia). cbn [negb].
      destruct (rep_pos _ _ Ri HI) as (mi & ei & Ei). destruct (rep_neg _ _ Rd HD) as (md & ed & Ed). rewrite Ed, Ei.
      apply nonpositive_is_zero. unfold divf. cbn [fdiv fsign xorb]. cbv zeta.
      match goal with |- context [round_ratio ?p ?m ?s ?n ?d] => destruct (round_ratio_finite_or p m s n d) as [E|[E|E]] end; rewrite ?E; eauto.
    + replace (0 <=? A1 + A2 - I) with true by (symmetry; lia). cbn [negb].
      destruct (rep_pos _ _ Ri HI) as (mi & ei & Ei). destruct (rep_pos _ _ Rs ltac:(lia)) as (ms & es & Es).
      rewrite HD in Rd. destruct (rep_null _ Rd) as (sd & Ed).
      assert (sd = false); [|subst sd; rewrite Ed, Ei; reflexivity].
      rewrite Es, Ei in Ed. unfold subf, fsub in Ed. cbn [fopp fadd fsign andb negb] in Ed. cbv zeta in Ed. unfold round_dyadic in Ed.
      destruct (_ =? 0) eqn:E0; [congruence|]. exfalso. apply Z.eqb_neq in E0.
      rewrite Es, Ei in Rd. destruct Ri as (_ & E1 & V1). destruct Rs as (_ & E2 & V2). rewrite Ei in E1, V1. rewrite Es in E2, V2. cbn [fexp fixed fmant] in *.
      apply E0. clear - E1 E2 V1 V2 HD. change (- Z.pos mi) with (Z.neg mi). set (e := Z.min es ei).
      pose proof (pow2_pos (e + SH) ltac:(unfold e, SH; lia)) as P.
      apply (Z.mul_cancel_r _ _ (2 ^ (e + SH)) ltac:(lia)). rewrite Z.mul_0_l, Z.mul_add_distr_r, <- !Z.mul_assoc.
      rewrite <- (Z.pow_add_r 2 (es - e) (e + SH)) by (unfold e, SH; lia). rewrite <- (Z.pow_add_r 2 (ei - e) (e + SH)) by (unfold e, SH; lia).
      replace (es - e + (e + SH)) with (es + SH) by ring. replace (ei - e + (e + SH)) with (ei + SH) by ring.
      assert (EI : I = A1 + A2) by lia. change (Z.neg mi) with (- Z.pos mi). rewrite Z.mul_1_l in V1, V2. rewrite Z.mul_opp_l, V1, V2, EI. ring.
    + replace (0 <=? A1 + A2 - I) with true by (symmetry; lia). cbn [negb].
      destruct (rep_fdiv_pos _ _ _ _ Ri Rd ltac:(lia) ltac:(lia) ltac:(lia)) as [(m & e & ->)| ->]; [apply positive_not_zero|reflexivity].
Qed.

(** The areas of two boxes, of their overlap and of their hull, by their sides. *)
Lemma area_cases w1 h1 w2 h2 gx gy W H : 0 < w1 -> 0 < h1 -> 0 < w2 -> 0 < h2 ->
  gx <= w1 -> gx <= w2 -> gy <= h1 -> gy <= h2 -> w1 <= W -> w2 <= W -> h1 <= H -> h2 <= H ->
  w1 + w2 - gx <= W -> h1 + h2 - gy <= H -> W * H <= 2 ^ 23 ->
  w1 * h1 + w2 * h2 <= 2 ^ 24 /\ Z.abs (gx * gy) <= 2 ^ 23 /\ Z.abs (w1 * h1 + w2 * h2 - gx * gy) <= 2 ^ 24.
Proof.
  intros P1 P2 P3 P4 G1 G2 G3 G4 W1 W2 H1 H2 HW HH HA.
  assert (A1 : 0 < w1 * h1 <= W * H) by (split; [apply Z.mul_pos_pos; assumption|apply Z.mul_le_mono_nonneg; lia]).
  assert (A2 : 0 < w2 * h2 <= W * H) by (split; [apply Z.mul_pos_pos; assumption|apply Z.mul_le_mono_nonneg; lia]).
  change (2 ^ 24) with (2 ^ 23 + 2 ^ 23). split; [lia|].
  assert (C : (0 < gx * gy /\ gx * gy <= W * H) \/ (gx * gy <= 0 /\ w1 * h1 + w2 * h2 - gx * gy <= W * H)).
  { destruct (Z.lt_ge_cases 0 gx) as [Gx|Gx], (Z.lt_ge_cases 0 gy) as [Gy|Gy].
    - left. split; [apply Z.mul_pos_pos; assumption|apply Z.mul_le_mono_nonneg; lia].
    - right. split; [apply Z.mul_nonneg_nonpos; lia|].
      assert (w1 * h1 <= W * h1) by (apply Z.mul_le_mono_nonneg_r; lia). assert (w2 * h2 <= W * h2) by (apply Z.mul_le_mono_nonneg_r; lia).
      assert (gx * - gy <= W * - gy) by (apply Z.mul_le_mono_nonneg_r; lia). assert (W * (h1 + h2 - gy) <= W * H) by (apply Z.mul_le_mono_nonneg_l; lia). lia.
    - right. split; [apply Z.mul_nonpos_nonneg; lia|].
      assert (w1 * h1 <= w1 * H) by (apply Z.mul_le_mono_nonneg_l; lia). assert (w2 * h2 <= w2 * H) by (apply Z.mul_le_mono_nonneg_l; lia).
      assert (- gx * gy <= - gx * H) by (apply Z.mul_le_mono_nonneg_l; lia). assert ((w1 + w2 - gx) * H <= W * H) by (apply Z.mul_le_mono_nonneg_r; lia). lia.
    - destruct (Z.eq_dec (gx * gy) 0) as [E|E].
      + right. split; [lia|]. destruct (Z.eq_mul_0 gx gy) as [E0 _]. destruct (E0 E) as [-> | ->].
        * assert (w1 * h1 <= w1 * H) by (apply Z.mul_le_mono_nonneg_l; lia). assert (w2 * h2 <= w2 * H) by (apply Z.mul_le_mono_nonneg_l; lia).
          assert ((w1 + w2 - 0) * H <= W * H) by (apply Z.mul_le_mono_nonneg_r; lia). lia.
        * assert (w1 * h1 <= W * h1) by (apply Z.mul_le_mono_nonneg_r; lia). assert (w2 * h2 <= W * h2) by (apply Z.mul_le_mono_nonneg_r; lia).
          assert (W * (h1 + h2 - 0) <= W * H) by (apply Z.mul_le_mono_nonneg_l; lia). lia.
      + left. replace (gx * gy) with (- gx * - gy) in * by ring. split; [|apply Z.mul_le_mono_nonneg; lia].
        assert (0 <= - gx * - gy) by (apply Z.mul_nonneg_nonneg; lia). lia. }
  clear - A1 A2 C HA. generalize dependent (gx * gy). generalize dependent (W * H). generalize dependent (w1 * h1). generalize dependent (w2 * h2). intros. lia.
Qed.

Section Overlap.
  Variables (win1 win2 : Z -> Z -> Z -> Z -> Prop).
  Variables (legacy : bool) (g1 g2 : region) (K : Z) (v1 v2 : Z -> Z -> N).
  Variables (bnd : bounds) (bl bt br bb : Z).
  Variables (l1 t1 r1 b1 l2 t2 r2 b2 : Z).
  Hypothesis HK : K <= 2 ^ 24.
  Hypothesis M1 : has_pixels_in win1 legacy g1 K v1 l1 t1 r1 b1.
  Hypothesis M2 : has_pixels_in win2 legacy g2 K v2 l2 t2 r2 b2.
  Hypothesis RL : rep (left bnd) bl.
  Hypothesis RT : rep (top bnd) bt.
  Hypothesis RR : rep (right bnd) br.
  Hypothesis RB : rep (bottom bnd) bb.

  (** The clipped boxes and their hull *)
  Let L1 := Z.max l1 bl.
  Let U1 := Z.max t1 bt.
  Let R1 := Z.min r1 br.
  Let D1 := Z.min b1 bb.
  Let L2 := Z.max l2 bl.
  Let U2 := Z.max t2 bt.
  Let R2 := Z.min r2 br.
  Let D2 := Z.min b2 bb.
  Let X := Z.min L1 L2.
  Let Y := Z.min U1 U2.
  Let W := Z.max R1 R2 - X + 1.
  Let H := Z.max D1 D2 - Y + 1.

  Hypothesis B1 : L1 < R1 /\ U1 < D1.
  Hypothesis B2 : L2 < R2 /\ U2 < D2.
  Hypothesis Hull23 : W * H <= 2 ^ 23.
  Let apart := apart_areas ((R1 - L1) * (D1 - U1)) ((R2 - L2) * (D2 - U2))
                           ((Z.min R1 R2 - Z.max L1 L2) * (Z.min D1 D2 - Z.max U1 U2)).

  Definition inside (X Y : Z) : Prop := bl <= X <= br /\ bt <= Y <= bb.
  Definition S1 A B := v1 A B <> 0%N.
  Definition S2 A B := v2 A B <> 0%N.

  Variables both only1 only2 : list (Z * Z).
  Hypothesis Eboth : enumerates both (fun X Y => S1 X Y /\ S2 X Y /\ inside X Y).
  Hypothesis Eonly1 : enumerates only1 (fun X Y => S1 X Y /\ ~ S2 X Y /\ inside X Y).
  Hypothesis Eonly2 : enumerates only2 (fun X Y => S2 X Y /\ ~ S1 X Y /\ inside X Y).
  Let total := zlen both + zlen only1 + zlen only2.
  Hypothesis Htotal : 0 < total.

  Lemma Hull : W * H <= 2 ^ 24.
  Proof. eapply Z.le_trans; [exact Hull23|]. lia. Qed.
  Lemma hull_range : 1 < W /\ 1 < H /\ W <= 2 ^ 24 /\ H <= 2 ^ 24.
  Proof.
    assert (HW : 1 < W) by (clear - B1 B2; unfold W, X; clearbody L1 R1 U1 D1 L2 R2 U2 D2; lia).
    assert (HH : 1 < H) by (clear - B1 B2; unfold H, Y; clearbody L1 R1 U1 D1 L2 R2 U2 D2; lia).
    pose proof (factors_le _ _ _ HW HH Hull). tauto.
  Qed.

  Lemma in1 A B : S1 A B /\ inside A B <-> (L1 <= A < L1 + (R1 - L1 + 1) /\ U1 <= B < U1 + (D1 - U1 + 1)) /\ nz (v1 A B) = true.
  Proof.
    rewrite nz_true. fold (S1 A B). split.
    - intros [HS HI]. destruct M1 as (T & _). specialize (T A B HS). split; [|exact HS]. clear - T HI. unfold inside, L1, R1, U1, D1 in *. lia.
    - intros [HI HS]. split; [exact HS|]. destruct M1 as (T & _). specialize (T A B HS). clear - T HI. unfold inside, L1, R1, U1, D1 in *. lia.
  Qed.
  Lemma in2 A B : S2 A B /\ inside A B <-> (L2 <= A < L2 + (R2 - L2 + 1) /\ U2 <= B < U2 + (D2 - U2 + 1)) /\ nz (v2 A B) = true.
  Proof.
    rewrite nz_true. fold (S2 A B). split.
    - intros [HS HI]. destruct M2 as (T & _). specialize (T A B HS). split; [|exact HS]. clear - T HI. unfold inside, L2, R2, U2, D2 in *. lia.
    - intros [HI HS]. split; [exact HS|]. destruct M2 as (T & _). specialize (T A B HS). clear - T HI. unfold inside, L2, R2, U2, D2 in *. lia.
  Qed.
  Lemma window1 A B : S1 A B -> inside A B -> X <= A < X + W /\ Y <= B < Y + H.
  Proof. intros HS HI. destruct (proj1 (in1 A B) (conj HS HI)) as [Q _]. clear - Q. unfold X, Y, W, H. clearbody L1 R1 U1 D1 L2 R2 U2 D2. lia. Qed.
  Lemma window2 A B : S2 A B -> inside A B -> X <= A < X + W /\ Y <= B < Y + H.
  Proof. intros HS HI. destruct (proj1 (in2 A B) (conj HS HI)) as [Q _]. clear - Q. unfold X, Y, W, H. clearbody L1 R1 U1 D1 L2 R2 U2 D2. lia. Qed.
  Lemma window_inside A B : X <= A < X + W /\ Y <= B < Y + H -> inside A B.
  Proof.
    assert (E1 : bl <= X) by (clear; unfold X, L1, L2; lia). assert (E2 : bt <= Y) by (clear; unfold Y, U1, U2; lia).
    assert (E3 : X + W - 1 <= br) by (clear; unfold W; clearbody X; unfold R1, R2; lia).
    assert (E4 : Y + H - 1 <= bb) by (clear; unfold H; clearbody Y; unfold D1, D2; lia).
    clear - E1 E2 E3 E4. clearbody X Y W H. unfold inside. lia.
  Qed.

  Lemma total_bound : total <= 2 ^ 24.
  Proof.
    pose proof hull_range as (HW & HH & _).
    assert (Hincl : incl (both ++ only1 ++ only2) (window_pixels X Y W H)).
    { assert (HW' : 0 < W) by (clear - HW; clearbody W; lia). assert (HH' : 0 <= H) by (clear - HH; clearbody H; lia).
      intros [A B]. rewrite !in_app_iff, in_window by assumption.
      destruct Eboth as [_ E1], Eonly1 as [_ E2], Eonly2 as [_ E3]. rewrite E1, E2, E3.
      intros [(Q & _ & I)|[(Q & _ & I)|(Q & _ & I)]]; [apply window1|apply window1|apply window2]; assumption. }
    assert (Hnd : NoDup (both ++ only1 ++ only2)).
    { destruct Eboth as [N1 E1], Eonly1 as [N2 E2], Eonly2 as [N3 E3]. apply NoDup_app_intro; [exact N1| |].
      - apply NoDup_app_intro; [exact N2|exact N3|]. intros [A B] I2 I3. apply E2 in I2. apply E3 in I3. tauto.
      - intros [A B] I1 I2. apply E1 in I1. apply in_app_iff in I2. rewrite E2, E3 in I2. tauto. }
    pose proof (NoDup_incl_length Hnd Hincl) as Q. rewrite !app_length, window_pixels_length in Q.
    pose proof Hull as Hu. clear - Q Hu. unfold total, zlen. clearbody X Y W H. 
    generalize dependent (W * H). intros. lia.
  Qed.

  Lemma extents : (- K <= L1 <= K /\ - K <= R1 <= K /\ - K <= U1 <= K /\ - K <= D1 <= K) /\
    (- K <= L2 <= K /\ - K <= R2 <= K /\ - K <= U2 <= K /\ - K <= D2 <= K) /\
    (- K <= X <= K /\ - K <= Y <= K /\ X + W - 1 <= K /\ Y + H - 1 <= K).
  Proof.
    destruct M1 as (_ & C1 & _). destruct M2 as (_ & C2 & _).
    assert (E1 : - K <= L1 <= K /\ - K <= R1 <= K) by (clear - B1 C1; unfold L1, R1 in *; lia).
    assert (E2 : - K <= U1 <= K /\ - K <= D1 <= K) by (clear - B1 C1; unfold U1, D1 in *; lia).
    assert (E3 : - K <= L2 <= K /\ - K <= R2 <= K) by (clear - B2 C2; unfold L2, R2 in *; lia).
    assert (E4 : - K <= U2 <= K /\ - K <= D2 <= K) by (clear - B2 C2; unfold U2, D2 in *; lia).
    assert (E5 : - K <= X <= K /\ X + W - 1 <= K) by (clear - E1 E3; unfold W, X; clearbody L1 R1 L2 R2; lia).
    assert (E6 : - K <= Y <= K /\ Y + H - 1 <= K) by (clear - E2 E4; unfold H, Y; clearbody U1 D1 U2 D2; lia).
    tauto.
  Qed.
  Lemma areas : (R1 - L1 + 1) * (D1 - U1 + 1) <= 2 ^ 23 /\ (R2 - L2 + 1) * (D2 - U2 + 1) <= 2 ^ 23 /\
    0 < (R1 - L1) * (D1 - U1) <= 2 ^ 23 /\ 0 < (R2 - L2) * (D2 - U2) <= 2 ^ 23.
  Proof.
    assert (E : R1 - L1 + 1 <= W /\ R2 - L2 + 1 <= W /\ D1 - U1 + 1 <= H /\ D2 - U2 + 1 <= H).
    { clear. unfold W, H, X, Y. clearbody L1 R1 U1 D1 L2 R2 U2 D2. lia. }
    pose proof Hull23 as Hu. clear - B1 B2 E Hu. clearbody L1 R1 U1 D1 L2 R2 U2 D2 X Y W H.
    set (c := 2 ^ 23) in *. clearbody c. split; [nia|]. split; [nia|]. split; nia.
  Qed.

  (** Regions whose boxes are apart *)
  Lemma disjoint_ok bx1 bx2 : zbounds bx1 U1 D1 L1 R1 -> zbounds bx2 U2 D2 L2 R2 ->
    Z.min R1 R2 < Z.max L1 L2 \/ Z.min D1 D2 < Z.max U1 U2 ->
    win1 L1 U1 (R1 - L1 + 1) (D1 - U1 + 1) -> win2 L2 U2 (R2 - L2 + 1) (D2 - U2 + 1) ->
    overlap_disjoint legacy g1 g2 bx1 bx2
    = Ok (mkOverlap (q (zlen both) total) (q (zlen only1) total) (q (zlen only2) total)).
  Proof.
    intros Z1 Z2 Hd Hw1 Hw2.
    pose proof hull_range as (HW & HH & HW' & HH'). pose proof total_bound as Ht.
    destruct extents as (Ex1 & Ex2 & Ex3). destruct areas as (Ar1 & Ar2 & Ar3 & Ar4).
    pose proof in1 as in1'. pose proof in2 as in2'. pose proof window1 as window1'. pose proof window2 as window2'.
    pose proof window_inside as window_inside'.
    clear apart Hull23. clearbody X Y W H L1 R1 U1 D1 L2 R2 U2 D2.
    assert (Apart : forall A B, S1 A B -> S2 A B -> inside A B -> False).
    { intros A B H1 H2 HI. destruct (proj1 (in1' A B) (conj H1 HI)) as [Q1 _]. destruct (proj1 (in2' A B) (conj H2 HI)) as [Q2 _].
      clear - Q1 Q2 Hd. lia. }
    assert (Hboth : zlen both = 0).
    { unfold zlen. destruct both as [|[A B] l]; [reflexivity|exfalso]. destruct Eboth as [_ E].
      destruct (proj1 (E A B) (or_introl eq_refl)) as (H1 & H2 & HI). exact (Apart A B H1 H2 HI). }
    unfold overlap_disjoint.
    rewrite (box_volume_ok win1 legacy g1 K v1 _ _ _ _ bx1 U1 D1 L1 R1 M1) by (assumption || lia). cbn [obind].
    rewrite (box_volume_ok win2 legacy g2 K v2 _ _ _ _ bx2 U2 D2 L2 R2 M2) by (assumption || lia). cbn [obind].
    set (f1 := filter _ (window_pixels L1 U1 (R1 - L1 + 1) (D1 - U1 + 1))).
    set (f2 := filter _ (window_pixels L2 U2 (R2 - L2 + 1) (D2 - U2 + 1))).
    assert (V1 : zlen f1 = zlen only1).
    { unfold zlen. f_equal. apply (enumerates_length _ _ (fun X Y => S1 X Y /\ ~ S2 X Y /\ inside X Y)); [|exact Eonly1].
      apply enumerates_filter; [lia|lia|]. intros A B. cbn [fst snd]. rewrite <- in1'. split; [tauto|].
      intros [Q1 Q2]. split; [exact Q1|]. split; [|exact Q2]. intros Q3. exact (Apart A B Q1 Q3 Q2). }
    assert (V2 : zlen f2 = zlen only2).
    { unfold zlen. f_equal. apply (enumerates_length _ _ (fun X Y => S2 X Y /\ ~ S1 X Y /\ inside X Y)); [|exact Eonly2].
      apply enumerates_filter; [lia|lia|]. intros A B. cbn [fst snd]. rewrite <- in2'. split; [tauto|].
      intros [Q1 Q2]. split; [exact Q1|]. split; [|exact Q2]. intros Q3. exact (Apart A B Q3 Q1 Q2). }
    rewrite V1, V2. assert (Etot : zlen only1 + zlen only2 = total) by (unfold total; clear - Hboth; lia). rewrite Etot.
    rewrite int_result_ok by (apply small_int; clear - Htotal Ht; clearbody total; lia). cbn [obind]. rewrite Hboth. rewrite (q_zero total) by (split; assumption). unfold q. f_equal.
  Qed.

  (** Regions compared in a common window *)
  Lemma window_ok' : win1 X Y W H -> win2 X Y W H ->
    overlap_window legacy g1 g2 X Y W H
    = Ok (mkOverlap (q (zlen both) total) (q (zlen only1) total) (q (zlen only2) total)).
  Proof.
    intros Hw1 Hw2. pose proof hull_range as (HW & HH & HW' & HH'). pose proof total_bound as Ht.
    destruct extents as (Ex1 & Ex2 & Ex3). destruct areas as (Ar1 & Ar2 & Ar3 & Ar4).
    pose proof in1 as in1'. pose proof in2 as in2'. pose proof window1 as window1'. pose proof window2 as window2'.
    pose proof window_inside as window_inside'.
    destruct M1 as (_ & _ & _ & Hwin1). destruct M2 as (_ & _ & _ & Hwin2).
    specialize (Hwin1 _ _ _ _ Hw1). specialize (Hwin2 _ _ _ _ Hw2).
    pose proof Hull as Hull'.
    clear apart Hull23 B1 B2. clearbody X Y W H L1 R1 U1 D1 L2 R2 U2 D2.
    assert (P : 0 < W * H) by (apply Z.mul_pos_pos; lia).
    unfold overlap_window. rewrite create_mask_ok by (try apply small_int; lia). cbn [obind].
    rewrite Hwin1. cbn [obind]. rewrite Hwin2. cbn [obind].
    rewrite !blk_read_some by (unfold pixels_of; rewrite map_length, window_pixels_length; reflexivity). cbn [obind].
    unfold pixels_of. rewrite (count_pairs_spec (fun p => v1 (fst p) (snd p)) (fun p => v2 (fst p) (snd p))).
    set (c1 := filter _ (window_pixels X Y W H)). set (c2 := filter _ (window_pixels X Y W H)). set (c3 := filter _ (window_pixels X Y W H)).
    assert (V1 : zlen c1 = zlen only1).
    { unfold zlen. f_equal. apply (enumerates_length _ _ (fun X Y => S1 X Y /\ ~ S2 X Y /\ inside X Y)); [|exact Eonly1].
      apply enumerates_filter; [lia|lia|]. intros A B. cbn [fst snd]. rewrite Bool.andb_true_iff, nz_true, nz_false. fold (S1 A B) (S2 A B). split.
      - intros (Q1 & Q2 & Q3). split; [apply window1'; assumption|tauto].
      - intros (Q & Q1 & Q2). split; [exact Q1|]. split; [exact Q2|]. apply window_inside', Q. }
    assert (V2 : zlen c2 = zlen only2).
    { unfold zlen. f_equal. apply (enumerates_length _ _ (fun X Y => S2 X Y /\ ~ S1 X Y /\ inside X Y)); [|exact Eonly2].
      apply enumerates_filter; [lia|lia|]. intros A B. cbn [fst snd]. rewrite Bool.andb_true_iff, nz_true, nz_false. fold (S1 A B) (S2 A B). split.
      - intros (Q1 & Q2 & Q3). split; [apply window2'; assumption|tauto].
      - intros (Q & Q1 & Q2). split; [exact Q2|]. split; [exact Q1|]. apply window_inside', Q. }
    assert (V3 : zlen c3 = zlen both).
    { unfold zlen. f_equal. apply (enumerates_length _ _ (fun X Y => S1 X Y /\ S2 X Y /\ inside X Y)); [|exact Eboth].
      apply enumerates_filter; [lia|lia|]. intros A B. cbn [fst snd]. rewrite Bool.andb_true_iff, !nz_true. fold (S1 A B) (S2 A B). split.
      - intros (Q1 & Q2 & Q3). split; [apply window1'; assumption|tauto].
      - intros (Q & Q1 & Q2). split; [exact Q1|]. split; [exact Q2|]. apply window_inside', Q. }
    rewrite V1, V2, V3. replace (zlen only1 + zlen only2 + zlen both) with total by (unfold total; clear; lia).
    rewrite int_result_ok by (apply small_int; clear - Htotal Ht; clearbody total; lia). reflexivity.
  Qed.

  (** Which of the two computations is done *)
  Lemma overlap_branch : exists bx1 bx2, zbounds bx1 U1 D1 L1 R1 /\ zbounds bx2 U2 D2 L2 R2 /\
    compute_overlap legacy g1 g2 bnd = if apart then overlap_disjoint legacy g1 g2 bx1 bx2 else overlap_window legacy g1 g2 X Y W H.
  Proof.
    destruct (clipped_box_ok win1 legacy g1 K v1 l1 t1 r1 b1 bnd bl bt br bb M1 RL RT RR RB) as (bx1 & E1 & Z1).
    destruct (clipped_box_ok win2 legacy g2 K v2 l2 t2 r2 b2 bnd bl bt br bb M2 RL RT RR RB) as (bx2 & E2 & Z2).
    exists bx1, bx2. split; [exact Z1|]. split; [exact Z2|].
    unfold compute_overlap. rewrite E1. cbn [obind]. rewrite E2. cbn [obind]. fold L1 U1 R1 D1 in Z1. fold L2 U2 R2 D2 in Z2.
    pose proof hull_range as (HW & HH & HW' & HH').
    destruct extents as (Ex1 & Ex2 & BX & BY & _). destruct areas as (_ & _ & Q1 & Q2).
    assert (EW : Z.max R1 R2 - X = W - 1) by (clear; unfold W; clearbody X R1 R2; lia).
    assert (EH : Z.max D1 D2 - Y = H - 1) by (clear; unfold H; clearbody Y D1 D2; lia).
    assert (EX : X = Z.min L1 L2) by reflexivity. assert (EY : Y = Z.min U1 U2) by reflexivity.
    assert (BW : 0 < R1 - L1 <= W /\ 0 < R2 - L2 <= W).
    { clear - B1 B2. unfold W, X. clearbody L1 R1 U1 D1 L2 R2 U2 D2. lia. }
    assert (BH : 0 < D1 - U1 <= H /\ 0 < D2 - U2 <= H).
    { clear - B1 B2. unfold H, Y. clearbody L1 R1 U1 D1 L2 R2 U2 D2. lia. }
    destruct (area_cases (R1 - L1) (D1 - U1) (R2 - L2) (D2 - U2) (Z.min R1 R2 - Z.max L1 L2) (Z.min D1 D2 - Z.max U1 U2) (W - 1) (H - 1)) as (AA & AI & AD);
      [..|clear - HW HH Hull23; clearbody W H; assert ((W - 1) * (H - 1) <= W * H) by (apply Z.mul_le_mono_nonneg; lia); lia|].
    1-14: unfold W, H, X, Y; clear - B1 B2; clearbody L1 R1 U1 D1 L2 R2 U2 D2; lia.
    unfold apart. clear apart Hull23. clearbody X Y W H L1 R1 U1 D1 L2 R2 U2 D2.
    pose proof Z1 as (A1 & A2 & A3 & A4). pose proof Z2 as (A5 & A6 & A7 & A8).
    assert (Hx : in_int X = true) by (apply small_int; clear - BX HK; lia). assert (Hy : in_int Y = true) by (apply small_int; clear - BY HK; lia).
    assert (Hw : Z.abs (W - 1) <= 2 ^ 24 /\ in_int (W - 1) = true /\ in_int (W - 1 + 1) = true)
      by (split; [clear - HW HW'; lia|split; apply small_int; clear - HW HW'; lia]).
    assert (Hh : Z.abs (H - 1) <= 2 ^ 24 /\ in_int (H - 1) = true /\ in_int (H - 1 + 1) = true)
      by (split; [clear - HH HH'; lia|split; apply small_int; clear - HH HH'; lia]).
    destruct Hw as (Hw1 & Hw2 & Hw3). destruct Hh as (Hh1 & Hh2 & Hh3).
    rewrite (rep_int _ X); [|rewrite EX; apply rep_MIN; assumption|exact Hx]. cbn [obind].
    rewrite (rep_int _ Y); [|rewrite EY; apply rep_MIN; assumption|exact Hy]. cbn [obind].
    rewrite (rep_int _ (W - 1)); [|rewrite <- EW in Hw1 |- *; apply rep_fsub; [apply fmt_float|apply rep_MAX; assumption|apply rep_float_of_int; clear - BX HK; lia|exact Hw1]|exact Hw2].
    cbn [obind]. rewrite int_result_ok by exact Hw3. cbn [obind].
    rewrite (rep_int _ (H - 1)); [|rewrite <- EH in Hh1 |- *; apply rep_fsub; [apply fmt_float|apply rep_MAX; assumption|apply rep_float_of_int; clear - BY HK; lia|exact Hh1]|exact Hh2].
    cbn [obind]. rewrite int_result_ok by exact Hh3. cbn [obind]. replace (W - 1 + 1) with W by ring. replace (H - 1 + 1) with H by ring.
    pose proof (zbounds_area bx1 U1 D1 L1 R1 Z1 ltac:(clear - BW HW'; lia) ltac:(clear - BH HH'; lia) ltac:(clear - Q1; lia)) as Ar1.
    pose proof (zbounds_area bx2 U2 D2 L2 R2 Z2 ltac:(clear - BW HW'; lia) ltac:(clear - BH HH'; lia) ltac:(clear - Q2; lia)) as Ar2.
    unfold ratio_limit. rewrite (rep_fdiv_not_small _ _ _ _ Ar1 Ar2) by (clear - Q1 Q2; lia). rewrite (rep_fdiv_not_small _ _ _ _ Ar2 Ar1) by (clear - Q1 Q2; lia).
    replace (W <? 1) with false by (symmetry; clear - HW; lia). replace (H <? 1) with false by (symmetry; clear - HH; lia). cbn [orb].
    assert (Zi : zbounds (bounds_intersection bx1 bx2) (Z.max U1 U2) (Z.min D1 D2) (Z.max L1 L2) (Z.min R1 R2)).
    { unfold zbounds, bounds_intersection. cbn [top bottom left right]. auto using rep_MIN, rep_MAX. }
    pose proof (zbounds_area _ _ _ _ _ Zi ltac:(clear - BX BW EW EX HW HW'; lia) ltac:(clear - BY BH EH EY HH HH'; lia) ltac:(clear - AI; lia)) as Ai.
    unfold bounds_overlap. rewrite (apart_ok _ _ _ _ _ _ Ai Ar1 Ar2); [reflexivity|clear - Q1; lia|clear - Q2; lia|clear - AI; lia|exact AA|exact AD].
  Qed.
  (** Either computation gives the fractions of the pixels drawn in the windows it uses. *)
  Lemma overlap_ok : (apart = true -> Z.min R1 R2 < Z.max L1 L2 \/ Z.min D1 D2 < Z.max U1 U2) ->
    (if apart then win1 L1 U1 (R1 - L1 + 1) (D1 - U1 + 1) /\ win2 L2 U2 (R2 - L2 + 1) (D2 - U2 + 1) else win1 X Y W H /\ win2 X Y W H) ->
    compute_overlap legacy g1 g2 bnd
    = Ok (mkOverlap (q (zlen both) total) (q (zlen only1) total) (q (zlen only2) total)).
  Proof.
    intros Hap Hw. destruct overlap_branch as (bx1 & bx2 & Z1 & Z2 & E). rewrite E. destruct apart.
    - apply disjoint_ok; [exact Z1|exact Z2|apply Hap; reflexivity|apply Hw|apply Hw].
    - apply window_ok'; apply Hw.
  Qed.
  (** Boxes that overlap by more than their sides, or are apart *)
  Lemma apart_sep : (Z.max L1 L2 < Z.min R1 R2 /\ Z.max U1 U2 < Z.min D1 D2) \/ Z.min R1 R2 < Z.max L1 L2 \/ Z.min D1 D2 < Z.max U1 U2 ->
    apart = true -> Z.min R1 R2 < Z.max L1 L2 \/ Z.min D1 D2 < Z.max U1 U2.
  Proof.
    intros [(Sx & Sy)|S']; [|auto]. intros A. exfalso. revert A. unfold apart, apart_areas. clear - B1 B2 Sx Sy. clearbody L1 R1 U1 D1 L2 R2 U2 D2.
    set (gx := Z.min R1 R2 - Z.max L1 L2). set (gy := Z.min D1 D2 - Z.max U1 U2).
    assert (0 < gx /\ 0 < gy /\ gx <= R1 - L1 /\ gy <= D1 - U1) by (unfold gx, gy; lia).
    assert (0 < gx * gy) by (apply Z.mul_pos_pos; lia). assert (gx * gy <= (R1 - L1) * (D1 - U1)) by (apply Z.mul_le_mono_nonneg; lia).
    assert (0 < (R2 - L2) * (D2 - U2)) by (apply Z.mul_pos_pos; lia).
    replace (0 <? gx * gy) with true by (symmetry; lia). replace (0 <=? (R1 - L1) * (D1 - U1) + (R2 - L2) * (D2 - U2) - gx * gy) with true by (symmetry; lia).
    discriminate.
  Qed.
End Overlap.

Lemma quotients_sum x y z a b c n : a + b + c = n -> 0 < n -> quotient x a n -> quotient y b n -> quotient z c n ->
  Z.abs (units x + units y + units z - 2 ^ 1074) * 2 ^ 25 <= 3 * 2 ^ 1074.
Proof.
  intros Hs Hn (_ & E1 & _) (_ & E2 & _) (_ & E3 & _). set (u := 2 ^ 1074) in *. set (k := 2 ^ 25) in *.
  assert (Hk : 0 < k) by reflexivity.
  set (p := units x) in *. set (r := units y) in *. set (s := units z) in *. clearbody u k p r s.
  apply (Z.mul_le_mono_pos_l _ _ n Hn).
  assert (T : n * Z.abs (p + r + s - u) <= Z.abs (p * n - a * u) + Z.abs (r * n - b * u) + Z.abs (s * n - c * u)).
  { rewrite <- (Z.abs_eq n) at 1 by lia. rewrite <- Z.abs_mul.
    replace (n * (p + r + s - u)) with ((p * n - a * u) + (r * n - b * u) + (s * n - c * u)) by (subst n; ring). lia. }
  rewrite Z.mul_assoc. assert (T' : n * Z.abs (p + r + s - u) * k <= (Z.abs (p * n - a * u) + Z.abs (r * n - b * u) + Z.abs (s * n - c * u)) * k)
    by (apply Z.mul_le_mono_nonneg_r; lia). lia.
Qed.

Lemma enumerates_ext l P Q : (forall X Y, P X Y <-> Q X Y) -> enumerates l P -> enumerates l Q.
Proof. intros E [N H]. split; [exact N|]. intros X Y. rewrite H. apply E. Qed.

Lemma apart_areas_comm a1 a2 ai : apart_areas a2 a1 ai = apart_areas a1 a2 ai.
Proof. unfold apart_areas. now rewrite (Z.add_comm a2). Qed.

Lemma overlap_of_windows win1 win2 legacy g1 g2 K v1 v2 bnd bl bt br bb l1 t1 r1 b1 l2 t2 r2 b2 both only1 only2 either :
  K <= 2 ^ 24 -> has_pixels_in win1 legacy g1 K v1 l1 t1 r1 b1 -> has_pixels_in win2 legacy g2 K v2 l2 t2 r2 b2 ->
  int_bounds bnd bl bt br bb ->
  let L1 := Z.max l1 bl in let U1 := Z.max t1 bt in let R1 := Z.min r1 br in let D1 := Z.min b1 bb in
  let L2 := Z.max l2 bl in let U2 := Z.max t2 bt in let R2 := Z.min r2 br in let D2 := Z.min b2 bb in
  L1 < R1 /\ U1 < D1 -> L2 < R2 /\ U2 < D2 ->
  (Z.max R1 R2 - Z.min L1 L2 + 1) * (Z.max D1 D2 - Z.min U1 U2 + 1) <= 2 ^ 23 ->
  let apart := apart_areas ((R1 - L1) * (D1 - U1)) ((R2 - L2) * (D2 - U2)) ((Z.min R1 R2 - Z.max L1 L2) * (Z.min D1 D2 - Z.max U1 U2)) in
  let X := Z.min L1 L2 in let Y := Z.min U1 U2 in let W := Z.max R1 R2 - X + 1 in let H := Z.max D1 D2 - Y + 1 in
  (apart = true -> Z.min R1 R2 < Z.max L1 L2 \/ Z.min D1 D2 < Z.max U1 U2) ->
  (if apart then win1 L1 U1 (R1 - L1 + 1) (D1 - U1 + 1) /\ win2 L2 U2 (R2 - L2 + 1) (D2 - U2 + 1) else win1 X Y W H /\ win2 X Y W H) ->
  let S1 A B := v1 A B <> 0%N in let S2 A B := v2 A B <> 0%N in
  let inside X Y := bl <= X <= br /\ bt <= Y <= bb in
  enumerates both (fun X Y => S1 X Y /\ S2 X Y /\ inside X Y) ->
  enumerates only1 (fun X Y => S1 X Y /\ ~ S2 X Y /\ inside X Y) ->
  enumerates only2 (fun X Y => S2 X Y /\ ~ S1 X Y /\ inside X Y) ->
  enumerates either (fun X Y => (S1 X Y \/ S2 X Y) /\ inside X Y) -> either <> [] ->
  exists o, compute_overlap legacy g1 g2 bnd = Ok o /\
    quotient (o_overlap o) (Z.of_nat (List.length both)) (Z.of_nat (List.length either)) /\
    quotient (o_only1 o) (Z.of_nat (List.length only1)) (Z.of_nat (List.length either)) /\
    quotient (o_only2 o) (Z.of_nat (List.length only2)) (Z.of_nat (List.length either)) /\
    Z.abs (units (o_overlap o) + units (o_only1 o) + units (o_only2 o) - 2 ^ 1074) * 2 ^ 25 <= 3 * 2 ^ 1074 /\
    compute_overlap legacy g2 g1 bnd = Ok (mkOverlap (o_overlap o) (o_only2 o) (o_only1 o)).
Proof.
  intros HK M1 M2 (F1 & F2 & F3 & F4 & G1 & G2 & G3 & G4) L1 U1 R1 D1 L2 U2 R2 D2 B1 B2 Hull apart X Y W H Hap Hw S1 S2 inside Eb E1 E2 Ee Hne.
  apply is_int_rep in G1; [|exact F1]. apply is_int_rep in G2; [|exact F2]. apply is_int_rep in G3; [|exact F3]. apply is_int_rep in G4; [|exact F4].
  assert (Elen : zlen both + zlen only1 + zlen only2 = zlen either).
  { assert (Q : enumerates (both ++ only1 ++ only2) (fun X Y => (S1 X Y \/ S2 X Y) /\ inside X Y)).
    { destruct Eb as [N0 I0], E1 as [N1 I1], E2 as [N2 I2]. split.
      - apply NoDup_app_intro; [exact N0| |].
        + apply NoDup_app_intro; [exact N1|exact N2|]. intros [A B] J1 J2. apply I1 in J1. apply I2 in J2. tauto.
        + intros [A B] J1 J2. apply I0 in J1. apply in_app_iff in J2. rewrite I1, I2 in J2. tauto.
      - intros A B. rewrite !in_app_iff, I0, I1, I2.
        assert (Q1 : S1 A B \/ ~ S1 A B) by (unfold S1; destruct (N.eq_dec (v1 A B) 0); tauto).
        assert (Q2 : S2 A B \/ ~ S2 A B) by (unfold S2; destruct (N.eq_dec (v2 A B) 0); tauto). tauto. }
    pose proof (enumerates_length _ _ _ Q Ee) as E. rewrite !app_length in E. unfold zlen. clear - E. lia. }
  assert (Hpos : 0 < zlen either) by (destruct either; [congruence|unfold zlen; cbn [List.length]; lia]).
  pose proof (overlap_ok win1 win2 legacy g1 g2 K v1 v2 bnd bl bt br bb l1 t1 r1 b1 l2 t2 r2 b2 HK M1 M2 G1 G2 G3 G4
    B1 B2 Hull both only1 only2 Eb E1 E2) as O.
  cbv zeta in O. rewrite Elen in O. specialize (O Hpos Hap Hw).
  assert (O' : compute_overlap legacy g2 g1 bnd
     = Ok (mkOverlap (q (zlen both) (zlen either)) (q (zlen only2) (zlen either)) (q (zlen only1) (zlen either)))).
  { replace (zlen either) with (zlen both + zlen only2 + zlen only1) by (rewrite <- Elen; ring).
    apply (overlap_ok win2 win1 legacy g2 g1 K v2 v1 bnd bl bt br bb l2 t2 r2 b2 l1 t1 r1 b1); try assumption.
    - fold L1 L2 R1 R2 U1 U2 D1 D2. rewrite (Z.max_comm R2), (Z.max_comm D2), (Z.min_comm L2), (Z.min_comm U2). exact Hull.
    - eapply enumerates_ext; [|exact Eb]. intros A B. cbv beta. split; intros (? & ? & ?); split; auto.
    - rewrite <- Z.add_assoc, (Z.add_comm (zlen only2)), Z.add_assoc, Elen. exact Hpos.
    - fold L1 L2 R1 R2 U1 U2 D1 D2. rewrite (Z.min_comm R2), (Z.min_comm D2), (Z.max_comm L2), (Z.max_comm U2), apart_areas_comm. exact Hap.
    - fold L1 L2 R1 R2 U1 U2 D1 D2. rewrite (Z.min_comm R2), (Z.min_comm D2), (Z.max_comm L2), (Z.max_comm U2), apart_areas_comm.
      rewrite (Z.max_comm R2), (Z.max_comm D2), (Z.min_comm L2), (Z.min_comm U2). fold apart X Y. fold W H. destruct apart; split; apply Hw. }
  eexists. split; [exact O|]. cbn [o_overlap o_only1 o_only2]. fold (zlen both) (zlen only1) (zlen only2) (zlen either).
  assert (Hb : zlen either <= 2 ^ 24).
  { rewrite <- Elen. apply (total_bound win1 win2 legacy g1 g2 K v1 v2 bl bt br bb l1 t1 r1 b1 l2 t2 r2 b2); assumption. }
  assert (N0 : 0 <= zlen both) by (unfold zlen; clear; lia). assert (N1 : 0 <= zlen only1) by (unfold zlen; clear; lia). assert (N2 : 0 <= zlen only2) by (unfold zlen; clear; lia).
  assert (Qb : quotient (q (zlen both) (zlen either)) (zlen both) (zlen either)) by (apply q_spec; clear - Elen Hpos Hb N0 N1 N2; lia).
  assert (Q1 : quotient (q (zlen only1) (zlen either)) (zlen only1) (zlen either)) by (apply q_spec; clear - Elen Hpos Hb N0 N1 N2; lia).
  assert (Q2 : quotient (q (zlen only2) (zlen either)) (zlen only2) (zlen either)) by (apply q_spec; clear - Elen Hpos Hb N0 N1 N2; lia).
  split; [exact Qb|]. split; [exact Q1|]. split; [exact Q2|]. split; [|exact O'].
  exact (quotients_sum _ _ _ _ _ _ _ Elen Hpos Qb Q1 Q2).
Qed.

Lemma overlap_of_regions legacy g1 g2 K v1 v2 bnd bl bt br bb l1 t1 r1 b1 l2 t2 r2 b2 both only1 only2 either :
  K <= 2 ^ 24 -> has_pixels legacy g1 K v1 l1 t1 r1 b1 -> has_pixels legacy g2 K v2 l2 t2 r2 b2 ->
  int_bounds bnd bl bt br bb ->
  let L1 := Z.max l1 bl in let U1 := Z.max t1 bt in let R1 := Z.min r1 br in let D1 := Z.min b1 bb in
  let L2 := Z.max l2 bl in let U2 := Z.max t2 bt in let R2 := Z.min r2 br in let D2 := Z.min b2 bb in
  L1 < R1 /\ U1 < D1 -> L2 < R2 /\ U2 < D2 ->
  (Z.max R1 R2 - Z.min L1 L2 + 1) * (Z.max D1 D2 - Z.min U1 U2 + 1) <= 2 ^ 23 ->
  (Z.max L1 L2 < Z.min R1 R2 /\ Z.max U1 U2 < Z.min D1 D2) \/ Z.min R1 R2 < Z.max L1 L2 \/ Z.min D1 D2 < Z.max U1 U2 ->
  let S1 A B := v1 A B <> 0%N in let S2 A B := v2 A B <> 0%N in
  let inside X Y := bl <= X <= br /\ bt <= Y <= bb in
  enumerates both (fun X Y => S1 X Y /\ S2 X Y /\ inside X Y) ->
  enumerates only1 (fun X Y => S1 X Y /\ ~ S2 X Y /\ inside X Y) ->
  enumerates only2 (fun X Y => S2 X Y /\ ~ S1 X Y /\ inside X Y) ->
  enumerates either (fun X Y => (S1 X Y \/ S2 X Y) /\ inside X Y) -> either <> [] ->
  exists o, compute_overlap legacy g1 g2 bnd = Ok o /\
    quotient (o_overlap o) (Z.of_nat (List.length both)) (Z.of_nat (List.length either)) /\
    quotient (o_only1 o) (Z.of_nat (List.length only1)) (Z.of_nat (List.length either)) /\
    quotient (o_only2 o) (Z.of_nat (List.length only2)) (Z.of_nat (List.length either)) /\
    Z.abs (units (o_overlap o) + units (o_only1 o) + units (o_only2 o) - 2 ^ 1074) * 2 ^ 25 <= 3 * 2 ^ 1074 /\
    compute_overlap legacy g2 g1 bnd = Ok (mkOverlap (o_overlap o) (o_only2 o) (o_only1 o)).
Proof.
  intros HK M1 M2 Hb L1 U1 R1 D1 L2 U2 R2 D2 B1 B2 Hull Sep S1 S2 inside Eb E1 E2 Ee Hne.
  assert (O1 : l1 <= r1 /\ t1 <= b1) by (clear - B1; unfold L1, R1, U1, D1 in B1; lia).
  assert (O2 : l2 <= r2 /\ t2 <= b2) by (clear - B2; unfold L2, R2, U2, D2 in B2; lia).
  pose proof (has_pixels_windows _ _ _ _ _ _ _ _ HK (proj1 O1) (proj2 O1) M1) as N1.
  pose proof (has_pixels_windows _ _ _ _ _ _ _ _ HK (proj1 O2) (proj2 O2) M2) as N2.
  apply (overlap_of_windows (small_window K) (small_window K) legacy g1 g2 K v1 v2 bnd bl bt br bb l1 t1 r1 b1 l2 t2 r2 b2 both only1 only2 either); try assumption.
  - apply apart_sep; assumption.
  - fold L1 U1 R1 D1 L2 U2 R2 D2. 
    destruct (extents _ _ _ _ _ _ _ _ bl bt br bb _ _ _ _ _ _ _ _ N1 N2 B1 B2) as (Ex1 & Ex2 & Ex3). fold L1 U1 R1 D1 L2 U2 R2 D2 in Ex1, Ex2, Ex3.
    pose proof (areas bl bt br bb l1 t1 r1 b1 l2 t2 r2 b2 B1 B2 Hull) as (Ar1 & Ar2 & _). fold L1 U1 R1 D1 L2 U2 R2 D2 in Ar1, Ar2.
    clear - B1 B2 Ex1 Ex2 Ex3 Ar1 Ar2 Hull. clearbody L1 U1 R1 D1 L2 U2 R2 D2. unfold small_window.
    destruct (apart_areas _ _ _); split; lia.
Qed.

Lemma overlap_of_masks legacy x1 y1 w1 h1 d1 x2 y2 w2 h2 d2 bnd bl bt br bb l1 t1 r1 b1 l2 t2 r2 b2 both only1 only2 either :
  mask_ok w1 h1 d1 -> mask_ok w2 h2 d2 -> exact_span x1 w1 -> exact_span y1 h1 -> exact_span x2 w2 -> exact_span y2 h2 ->
  tight_box (set_at x1 y1 w1 h1 d1) l1 t1 r1 b1 -> tight_box (set_at x2 y2 w2 h2 d2) l2 t2 r2 b2 ->
  int_bounds bnd bl bt br bb ->
  let L1 := Z.max l1 bl in let U1 := Z.max t1 bt in let R1 := Z.min r1 br in let D1 := Z.min b1 bb in
  let L2 := Z.max l2 bl in let U2 := Z.max t2 bt in let R2 := Z.min r2 br in let D2 := Z.min b2 bb in
  L1 < R1 /\ U1 < D1 -> L2 < R2 /\ U2 < D2 ->
  (Z.max R1 R2 - Z.min L1 L2 + 1) * (Z.max D1 D2 - Z.min U1 U2 + 1) <= 2 ^ 23 ->
  (Z.max L1 L2 < Z.min R1 R2 /\ Z.max U1 U2 < Z.min D1 D2) \/ Z.min R1 R2 < Z.max L1 L2 \/ Z.min D1 D2 < Z.max U1 U2 ->
  let S1 := set_at x1 y1 w1 h1 d1 in let S2 := set_at x2 y2 w2 h2 d2 in
  let inside X Y := bl <= X <= br /\ bt <= Y <= bb in
  enumerates both (fun X Y => S1 X Y /\ S2 X Y /\ inside X Y) ->
  enumerates only1 (fun X Y => S1 X Y /\ ~ S2 X Y /\ inside X Y) ->
  enumerates only2 (fun X Y => S2 X Y /\ ~ S1 X Y /\ inside X Y) ->
  enumerates either (fun X Y => (S1 X Y \/ S2 X Y) /\ inside X Y) -> either <> [] ->
  exists o, compute_overlap legacy (RMask x1 y1 w1 h1 d1) (RMask x2 y2 w2 h2 d2) bnd = Ok o /\
    quotient (o_overlap o) (Z.of_nat (List.length both)) (Z.of_nat (List.length either)) /\
    quotient (o_only1 o) (Z.of_nat (List.length only1)) (Z.of_nat (List.length either)) /\
    quotient (o_only2 o) (Z.of_nat (List.length only2)) (Z.of_nat (List.length either)) /\
    Z.abs (units (o_overlap o) + units (o_only1 o) + units (o_only2 o) - 2 ^ 1074) * 2 ^ 25 <= 3 * 2 ^ 1074 /\
    compute_overlap legacy (RMask x2 y2 w2 h2 d2) (RMask x1 y1 w1 h1 d1) bnd = Ok (mkOverlap (o_overlap o) (o_only2 o) (o_only1 o)).
Proof.
  intros M1 M2 X1 Y1 X2 Y2 T1 T2. apply (overlap_of_regions legacy _ _ (2 ^ 24) (value_at x1 y1 w1 h1 d1) (value_at x2 y2 w2 h2 d2));
    [lia|apply mask_has_pixels; assumption|apply mask_has_pixels; assumption].
Qed.

(** A mask with all pixels set, and two such masks with an overlap of 4/9 *)
Lemma set_at_full x y w h X Y : 0 < w -> 0 < h -> (set_at x y w h (repeat 1%N (Z.to_nat (w * h))) X Y <-> x <= X < x + w /\ y <= Y < y + h).
Proof.
  intros Hw Hh. unfold set_at, value_at.
  destruct ((x <=? X) && (X <? x + w) && (y <=? Y) && (Y <? y + h)) eqn:E.
  - rewrite !Bool.andb_true_iff in E. split; [lia|]. intros Q.
    pose proof (index_range w h (Y - y) (X - x) ltac:(lia) ltac:(lia)) as R.
    rewrite nth_indep with (d' := 1%N), nth_repeat by (rewrite repeat_length; lia). discriminate.
  - rewrite !Bool.andb_false_iff in E. split; [congruence|lia].
Qed.
Definition full (w h : Z) : list N := repeat 1%N (Z.to_nat (w * h)).
Lemma overlap_example_hypotheses : exists l1 t1 r1 b1 l2 t2 r2 b2 both only1 only2 either,
  let S1 := set_at 0 0 2 2 (full 2 2) in let S2 := set_at 0 0 3 3 (full 3 3) in
  mask_ok 2 2 (full 2 2) /\ mask_ok 3 3 (full 3 3) /\ exact_span 0 2 /\ exact_span 0 3 /\
  tight_box S1 l1 t1 r1 b1 /\ tight_box S2 l2 t2 r2 b2 /\ int_bounds no_bounds (- FM) (- FM) FM FM /\
  (Z.max l1 (- FM) < Z.min r1 FM /\ Z.max t1 (- FM) < Z.min b1 FM) /\ (Z.max l2 (- FM) < Z.min r2 FM /\ Z.max t2 (- FM) < Z.min b2 FM) /\
  enumerates both (fun X Y => S1 X Y /\ S2 X Y /\ (- FM <= X <= FM /\ - FM <= Y <= FM)) /\ List.length both = 4%nat /\
  enumerates only1 (fun X Y => S1 X Y /\ ~ S2 X Y /\ (- FM <= X <= FM /\ - FM <= Y <= FM)) /\ List.length only1 = 0%nat /\
  enumerates only2 (fun X Y => S2 X Y /\ ~ S1 X Y /\ (- FM <= X <= FM /\ - FM <= Y <= FM)) /\ List.length only2 = 5%nat /\
  enumerates either (fun X Y => (S1 X Y \/ S2 X Y) /\ (- FM <= X <= FM /\ - FM <= Y <= FM)) /\ List.length either = 9%nat.
Proof.
  exists 0, 0, 1, 1, 0, 0, 2, 2, (window_pixels 0 0 2 2), [], [(2, 0); (2, 1); (0, 2); (1, 2); (2, 2)], (window_pixels 0 0 3 3).
  cbv zeta.
  assert (E1 : forall X Y, set_at 0 0 2 2 (full 2 2) X Y <-> 0 <= X < 0 + 2 /\ 0 <= Y < 0 + 2) by (intros; apply set_at_full; lia).
  assert (E2 : forall X Y, set_at 0 0 3 3 (full 3 3) X Y <-> 0 <= X < 0 + 3 /\ 0 <= Y < 0 + 3) by (intros; apply set_at_full; lia).
  assert (HFM : 3 < FM) by reflexivity. set (F := FM) in *.
  split; [repeat split|]. split; [repeat split|]. split; [unfold exact_span; lia|]. split; [unfold exact_span; lia|].
  split. { unfold tight_box. split; [intros X Y Q; apply E1 in Q; lia|]. repeat match goal with |- _ /\ _ => split end; exists 0; apply E1; lia. }
  split. { unfold tight_box. split; [intros X Y Q; apply E2 in Q; lia|]. repeat match goal with |- _ /\ _ => split end; exists 0; apply E2; lia. }
  split. { unfold int_bounds, finite_float, is_int, F. repeat match goal with |- _ /\ _ => split end; try exact I; vm_compute; reflexivity. }
  clearbody F. split; [lia|]. split; [lia|].
  split. { split; [apply NoDup_window; lia|]. intros X Y. rewrite in_window, E1, E2 by lia. lia. }
  split; [reflexivity|].
  split. { split; [constructor|]. intros X Y. rewrite E1, E2. cbn [In]. lia. }
  split; [reflexivity|].
  split. { split.
    - repeat (constructor; [cbn [In]; intros Q; repeat (destruct Q as [Q|Q]; [discriminate Q|]); exact Q|]). constructor.
    - intros X Y. rewrite E1, E2. cbn [In]. split.
      + intros Q. repeat (destruct Q as [Q|Q]; [injection Q as <- <-; lia|]). destruct Q.
      + intros (Q1 & Q2 & _). assert (C : (X = 0 \/ X = 1 \/ X = 2) /\ (Y = 0 \/ Y = 1 \/ Y = 2)) by lia.
        destruct C as [[->|[->| ->]] [->|[->| ->]]]; try tauto; exfalso; apply Q2; lia. }
  split; [reflexivity|].
  split; [|reflexivity]. split; [apply NoDup_window; lia|]. intros X Y. rewrite in_window, E1, E2 by lia. lia.
Qed.
