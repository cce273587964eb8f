(** Proofs about the timer (C134). *)
From Verif Require Import CBase Num NumSpec NumProofs FloatOps FloatProofs Timer TimerSpec.
Local Open Scope Z_scope.

(** ---- The clock ---- *)
Lemma clock_value c : proper c -> timer_clock c = tv_sec c * 1000000 + tv_nsec c / 1000 /\ 0 <= timer_clock c < 2 ^ 64 /\ 1000 * timer_clock c <= nanos c < 1000 * timer_clock c + 1000.
Proof.
  intros [H1 H2]. unfold timer_clock, nanos. change (2 ^ 43) with 8796093022208 in H1. change (2 ^ 64) with 18446744073709551616.
  pose proof (Z.div_mod (tv_nsec c) 1000 ltac:(lia)). pose proof (Z.mod_pos_bound (tv_nsec c) 1000 ltac:(lia)).
  rewrite Z.mod_small by lia. lia.
Qed.
Lemma rep_unsigned n : 0 <= n <= 2 ^ 53 -> rep (double_of_unsigned n) n.
Proof.
  intros H. unfold double_of_unsigned. destruct (Z.eqb_spec n 0) as [->|N]; [apply rep_zero|].
  change n with (signed false n) at 2. apply round_ratio_rep; try (unfold fmin, SH; lia). 
Qed.
Lemma freq_value : timer_init freq_unset = double_of_unsigned 1000000.
Proof. vm_compute. reflexivity. Qed.
(** The quotient that is rounded *)
Lemma elapsed_ratio k : 0 < k <= 2 ^ 53 -> exists num den, divd (double_of_unsigned k) (double_of_unsigned 1000000) = round_ratio 53 1024 false num den /\
  0 < num /\ 0 < den /\ num * 1000000 = k * den.
Proof. intros H. apply rep_fdiv_ratio; [apply rep_unsigned; lia|apply rep_unsigned; lia|lia|lia]. Qed.
Lemma elapsed_error k j : 0 < k <= 2 ^ 53 -> 0 <= j <= 60 -> k < 1000000 * 2 ^ j ->
  exists m e, divd (double_of_unsigned k) (double_of_unsigned 1000000) = S754_finite false m e /\ -1074 <= e /\
    2 * Z.abs (k * 2 ^ SH - 1000000 * (Z.pos m * 2 ^ (e + SH))) * 2 ^ 53 <= 1000000 * 2 ^ j * 2 ^ SH.
Proof.
  intros Hk Hj Hlt. destruct (elapsed_ratio k Hk) as (num & den & E & N1 & D1 & R). rewrite E.
  assert (L : num * 2 ^ SH < den * 2 ^ (j + SH)).
  { rewrite Z.pow_add_r by (unfold SH; lia). rewrite Z.mul_assoc. apply Z.mul_lt_mono_pos_r; [apply pow_SH_pos|].
    apply (Z.mul_lt_mono_pos_r 1000000); [lia|]. rewrite R. replace (den * 2 ^ j * 1000000) with (1000000 * 2 ^ j * den) by ring. apply Z.mul_lt_mono_pos_r; assumption. }
  pose proof (round_ratio_error 53 1024 false num den j ltac:(lia) ltac:(unfold fmin, SH; lia) N1 D1 ltac:(unfold fmin; lia) ltac:(lia) L) as (F & S1 & B). cbv zeta in *.
  assert (G : (exists m e, round_ratio 53 1024 false num den = S754_finite false m e) \/ round_ratio 53 1024 false num den = S754_infinity false).
  { apply round_ratio_nonzero; [lia|unfold fmin, SH; lia|exact N1|exact D1|]. change (fmin 53 1024 + SH) with 0. change (2 ^ 0) with 1. rewrite Z.mul_1_r.
    apply Z.le_trans with (num * 1000000); [rewrite R; clear - Hk D1; nia|]. apply Z.mul_le_mono_nonneg_l; [lia|].
    apply Z.le_trans with (2 ^ 20); [discriminate|]. apply Z.pow_le_mono_r; unfold SH; lia. }
  destruct G as [(m & e & G)|G]; [|rewrite G in F; discriminate F]. exists m, e. split; [exact G|].
  destruct (round_ratio_valid 53 1024 false num den false m e ltac:(lia) ltac:(unfold fmin, SH; lia) N1 D1 G) as (_ & V & _).
  split; [change (fmin 53 1024) with (-1074) in V; lia|]. rewrite G in B. cbn [fixed] in B. rewrite !Z.mul_1_l in B.
  set (v := Z.pos m * 2 ^ (e + SH)) in *. pose proof pow_SH_pos as P.
  replace (j - 53 + SH) with (j + (SH - 53)) in B by ring. rewrite Z.pow_add_r in B by (unfold SH; lia).
  assert (Q : 2 ^ SH = 2 ^ 53 * 2 ^ (SH - 53)) by (rewrite <- Z.pow_add_r by (unfold SH; lia); f_equal; ring).
  set (u := 2 ^ SH) in *. set (a := 2 ^ (SH - 53)) in *. set (b := 2 ^ j) in *. set (c := 2 ^ 53) in *.
  assert (Cp : 0 < c) by (unfold c; lia). clearbody u a b c v.
  apply (Z.mul_le_mono_pos_r _ _ den D1).
  replace (2 * Z.abs (k * u - 1000000 * v) * c * den) with (2 * c * (Z.abs (k * u - 1000000 * v) * den)) by ring.
  rewrite <- (Z.abs_eq den) at 1 by lia. rewrite <- Z.abs_mul.
  replace ((k * u - 1000000 * v) * den) with (1000000 * (num * u - den * v)) by (rewrite Z.mul_sub_distr_r, (Z.mul_comm k u), <- Z.mul_assoc, <- R; ring).
  rewrite Z.abs_mul in *. change (Z.abs 1000000) with 1000000. change (Z.abs 2) with 2 in B.
  replace (2 * c * (1000000 * Z.abs (num * u - den * v))) with (1000000 * c * (2 * Z.abs (num * u - den * v))) by ring.
  replace (1000000 * b * u * den) with (1000000 * c * (den * (b * a))) by (rewrite Q; ring).
  apply Z.mul_le_mono_nonneg_l; [lia|exact B].
Qed.
Lemma elapsed_close a b j : proper a -> proper b -> nanos a <= nanos b -> 0 <= j <= 33 -> nanos b - nanos a < 1000000000 * 2 ^ j - 1000 ->
  exists micros, 0 <= micros < 1000000 * 2 ^ j /\ Z.abs (1000 * micros - (nanos b - nanos a)) < 1000 /\
    timer_elapsed (timer_init freq_unset) (timer_clock a) b = divd (double_of_unsigned micros) (double_of_unsigned 1000000) /\
    seconds_close j micros (timer_elapsed (timer_init freq_unset) (timer_clock a) b).
Proof.
  intros Ha Hb Hle Hj Hlt. destruct (clock_value a Ha) as (_ & A1 & A2). destruct (clock_value b Hb) as (_ & B1 & B2).
  exists (timer_clock b - timer_clock a). set (k := timer_clock b - timer_clock a). assert (K0 : 0 <= k) by (unfold k; lia).
  split; [split; [exact K0|unfold k; lia]|]. split; [unfold k; lia|]. unfold timer_elapsed. fold k. rewrite freq_value, Z.mod_small by (unfold k; lia).
  split; [reflexivity|]. assert (K1 : k < 1000000 * 2 ^ j) by (unfold k; lia).
  assert (K2 : k <= 2 ^ 53).
  { apply Z.le_trans with (1000000 * 2 ^ 33); [|discriminate]. apply Z.lt_le_incl. apply Z.lt_le_trans with (1 := K1). apply Z.mul_le_mono_nonneg_l; [lia|]. apply Z.pow_le_mono_r; lia. }
  destruct (Z.eq_dec k 0) as [K|K].
  - rewrite K. replace (divd (double_of_unsigned 0) (double_of_unsigned 1000000)) with (S754_zero false) by (vm_compute; reflexivity). split; [reflexivity|]. cbn [units].
    rewrite Z.mul_0_l. change (2 * Z.abs (0 - 1000000 * 0) * 2 ^ 53) with 0. apply Z.mul_nonneg_nonneg; [|change 1074 with SH; apply Z.lt_le_incl, pow_SH_pos].
    apply Z.mul_nonneg_nonneg; [lia|apply Z.pow_nonneg; lia].
  - destruct (elapsed_error k j ltac:(lia) ltac:(lia) K1) as (m & e & E & _ & B). rewrite E. split; [reflexivity|].
    cbn [units]. rewrite Z.mul_1_l. exact B.
Qed.

(** ---- The text ---- *)
Lemma below_spec num den k : below num den k = true <-> num * 10 ^ Z.max 0 (- k) < den * 10 ^ Z.max 0 k.
Proof. unfold below. apply Z.ltb_lt. Qed.
Lemma decade_spec num den : forall fuel k, below num den k = false -> below num den (k + Z.of_nat fuel) = true ->
  let r := decade fuel num den k in k <= r < k + Z.of_nat fuel /\ below num den r = false /\ below num den (r + 1) = true.
Proof.
  induction fuel as [|fuel IH]; intros k H1 H2; cbv zeta; [rewrite Z.add_0_r in H2; congruence|]. cbn [decade].
  rewrite Nat2Z.inj_succ in *. destruct (below num den (k + 1)) eqn:E; [split; [lia|]; split; assumption|].
  destruct (IH (k + 1) E) as (A & B); [rewrite <- H2; f_equal; lia|]. cbv zeta in *. split; [lia|exact B].
Qed.
Lemma number_app a b : number (a ++ b) = number a * 10 ^ Z.of_nat (List.length b) + number b.
Proof.
  unfold number. rewrite fold_left_app. set (x := fold_left _ a 0). clearbody x. revert x. induction b as [|c b IH] using rev_ind; intros x; [cbn; ring|].
  rewrite !fold_left_app. cbn [fold_left]. rewrite (IH x). rewrite app_length. cbn [List.length]. rewrite Nat2Z.inj_add. rewrite Z.pow_add_r by lia. change (10 ^ Z.of_nat 1) with 10. ring.
Qed.
Lemma digits_ok f : forall n, 0 <= n < 10 ^ Z.of_nat f -> is_digits (digits f n) /\ number (digits f n) = n /\ List.length (digits f n) = f.
Proof.
  induction f as [|f IH]; intros n H; cbn [digits]; [change (10 ^ Z.of_nat 0) with 1 in H; split; [apply Forall_nil|]; split; [cbn; lia|reflexivity]|].
  rewrite Nat2Z.inj_succ, Z.pow_succ_r in H by lia. pose proof (Z.mod_pos_bound n 10 ltac:(lia)). pose proof (Z.div_mod n 10 ltac:(lia)).
  destruct (IH (n / 10)) as (A & B & C); [split; [apply Z.div_pos; lia|apply Z.div_lt_upper_bound; lia]|]. split; [|split].
  - apply Forall_app. split; [exact A|]. apply Forall_cons; [lia|apply Forall_nil].
  - rewrite number_app, B. cbn [number fold_left List.length]. unfold number. cbn [fold_left]. change (10 ^ Z.of_nat 1) with 10. lia.
  - rewrite app_length, C. cbn [List.length]. lia.
Qed.
Lemma skip_ok l : exists n, l = repeat 48%N n ++ skip_zeros l.
Proof.
  induction l as [|c l [n IH]]; [exists O; reflexivity|]. cbn [skip_zeros]. destruct (N.eqb_spec c 48) as [->|]; [|exists O; reflexivity].
  exists (Datatypes.S n). cbn [repeat app]. f_equal. exact IH.
Qed.
Lemma repeat_rev {A} (a : A) n : rev (repeat a n) = repeat a n.
Proof. induction n as [|n IH]; [reflexivity|]. cbn [repeat rev]. rewrite IH. clear IH. induction n as [|n IH]; [reflexivity|]. cbn [repeat app]. now rewrite IH. Qed.
Lemma number_zeros n : number (repeat 48%N n) = 0.
Proof. unfold number. induction n as [|n IH]; [reflexivity|]. cbn [repeat fold_left]. exact IH. Qed.
Lemma number_print n : 0 <= n -> is_digits (print_N (Z.to_N n)) /\ number (print_N (Z.to_N n)) = n.
Proof.
  intros H. assert (D : is_digits (print_N (Z.to_N n))).
  { apply Forall_forall. intros c Hc. pose proof (print_N_digits (Z.to_N n)) as P. rewrite forallb_forall in P. specialize (P c Hc). unfold is_digit in P. lia. }
  split; [exact D|]. pose proof (print_N_val (Z.to_N n)) as V. rewrite <- (Z2N.id n H) at 2. rewrite <- V at 2. clear V. generalize dependent (print_N (Z.to_N n)). clear.
  intros l D. unfold number, digits_val. change 0 with (Z.of_N 0). generalize 0%N. induction D as [|c l Hc D IH]; intros a; [reflexivity|]. cbn [fold_left]. rewrite <- IH. f_equal. lia.
Qed.
Definition point (frac : list N) : list N := match frac with [] => [] | _ => 46%N :: frac end.
Lemma decimal_ok f d : 0 <= d -> exists whole frac, whole <> [] /\ is_digits whole /\ is_digits frac /\ decimal f d = whole ++ point frac /\
  (number whole * 10 ^ Z.of_nat (List.length frac) + number frac) * 10 ^ Z.of_nat f = d * 10 ^ Z.of_nat (List.length frac).
Proof.
  intros Hd. unfold decimal. set (p := 10 ^ Z.of_nat f). assert (Pp : 0 < p) by (apply Z.pow_pos_nonneg; lia).
  pose proof (Z.mod_pos_bound d p Pp) as M. pose proof (Z.div_mod d p ltac:(lia)) as Q. pose proof (Z.div_pos d p Hd Pp) as Q0.
  destruct (digits_ok f (d mod p) M) as (D1 & D2 & D3). destruct (number_print (d / p) Q0) as [W1 W2]. set (l := digits f (d mod p)) in *.
  destruct (skip_ok (rev l)) as [n Hn]. set (fr := rev (skip_zeros (rev l))). assert (Hl : l = fr ++ repeat 48%N n).
  { rewrite <- (rev_involutive l), Hn at 1. rewrite rev_app_distr, repeat_rev. reflexivity. }
  exists (print_N (Z.to_N (d / p))), fr. split; [apply print_N_nonempty|]. split; [exact W1|]. split; [|split].
  - rewrite Hl in D1. apply Forall_app in D1. exact (proj1 D1).
  - unfold point. destruct fr; reflexivity.
  - rewrite W2. rewrite Hl, number_app, number_zeros, repeat_length in D2. rewrite Hl, app_length, repeat_length in D3.
    assert (Ep : p = 10 ^ Z.of_nat (List.length fr) * 10 ^ Z.of_nat n) by (rewrite <- Z.pow_add_r by lia; unfold p; f_equal; lia).
    set (a := 10 ^ Z.of_nat (List.length fr)) in *. set (b := 10 ^ Z.of_nat n) in *. set (q := d / p) in *. set (r := d mod p) in *. set (x := number fr) in *.
    clearbody a b q r x. clear - Q D2 Ep. rewrite Q, <- D2, Ep. ring.
Qed.

(** The digits of a number of microseconds below a second *)
Lemma six_exact num den k : 0 < num -> 0 < den -> 0 < k < 1000000 -> Z.abs (k * den - 1000000 * num) * 2 ^ 54 <= 1000000 * den ->
  exists d e, six_digits num den = (d, e) /\ -6 <= e <= -1 /\ 0 <= d /\ d = k * 10 ^ (-1 - e).
Proof.
  intros Hn Hd Hk B. change (2 ^ 54) with 18014398509481984 in B.
  assert (P1 : den <= k * den) by nia. assert (P2 : k * den <= 999999 * den) by nia.
  assert (L1 : below num den (-330) = false).
  { unfold below. change (Z.max 0 (- -330)) with 330. change (10 ^ Z.max 0 (-330)) with 1. apply Z.ltb_ge. apply Z.le_trans with (num * 10 ^ 7); [change (10 ^ 7) with 10000000; lia|].
    apply Z.mul_le_mono_nonneg_l; [lia|]. apply Z.pow_le_mono_r; lia. }
  assert (L2 : below num den (-330 + Z.of_nat 660) = true).
  { change (-330 + Z.of_nat 660) with 330. unfold below. change (10 ^ Z.max 0 (- (330))) with 1. change (Z.max 0 330) with 330. apply Z.ltb_lt. apply Z.lt_le_trans with (den * 10 ^ 1); [change (10 ^ 1) with 10; lia|].
    apply Z.mul_le_mono_nonneg_l; [lia|]. apply Z.pow_le_mono_r; lia. }
  destruct (decade_spec num den 660 (-330) L1 L2) as (_ & R1 & R2). cbv zeta in *. unfold six_digits. set (r := decade 660 num den (-330)) in *. clearbody r. clear L1 L2.
  assert (Rhi : r <= -1).
  { destruct (Z.le_gt_cases r (-1)) as [|C]; [assumption|exfalso]. unfold below in R1. apply Z.ltb_ge in R1. rewrite (Z.max_l 0 (- r)), (Z.max_r 0 r) in R1 by lia. change (10 ^ 0) with 1 in R1.
    assert (1 <= 10 ^ r) by (pose proof (Z.pow_pos_nonneg 10 r); lia). assert (den * 1 <= den * 10 ^ r) by (apply Z.mul_le_mono_nonneg_l; lia). lia. }
  assert (Rlo : -7 <= r).
  { destruct (Z.le_gt_cases (-7) r) as [|C]; [assumption|exfalso]. apply below_spec in R2. rewrite (Z.max_r 0 (- (r + 1))), (Z.max_l 0 (r + 1)) in R2 by lia. change (10 ^ 0) with 1 in R2.
    assert (10 ^ 7 <= 10 ^ (- (r + 1))) by (apply Z.pow_le_mono_r; lia). assert (num * 10 ^ 7 <= num * 10 ^ (- (r + 1))) by (apply Z.mul_le_mono_nonneg_l; lia). change (10 ^ 7) with 10000000 in *. lia. }
  unfold below in R1. apply Z.ltb_ge in R1. apply below_spec in R2.
  assert (G : rne (num * 10 ^ Z.max 0 (5 - r)) (den * 10 ^ Z.max 0 (r - 5)) = k * 10 ^ (-1 - r)).
  { rewrite (Z.max_l 0 (r - 5)), (Z.max_r 0 (5 - r)) by lia. change (10 ^ 0) with 1. rewrite Z.mul_1_r. apply rne_unique; [exact Hd|].
    replace (5 - r) with (6 + (-1 - r)) by ring. rewrite Z.pow_add_r by lia. change (10 ^ 6) with 1000000.
    assert (T : 1 <= 10 ^ (-1 - r) <= 10 ^ 6) by (split; [pose proof (Z.pow_pos_nonneg 10 (-1 - r)); lia|apply Z.pow_le_mono_r; lia]). change (10 ^ 6) with 1000000 in T.
    set (c := 10 ^ (-1 - r)) in *. clearbody c. replace (2 * (num * (1000000 * c) - k * c * den)) with (- (2 * c * (k * den - 1000000 * num))) by ring.
    rewrite Z.abs_opp, Z.abs_mul, (Z.abs_eq (2 * c)) by lia. set (a := Z.abs (k * den - 1000000 * num)) in *. assert (0 <= a) by apply Z.abs_nonneg. clearbody a. clear - B T H Hd. nia. }
  rewrite G. assert (C : r = -7 \/ r = -6 \/ r = -5 \/ r = -4 \/ r = -3 \/ r = -2 \/ r = -1) by lia.
  assert (W : forall c, k <= c -> k * den <= c * den) by (intros c W; apply Z.mul_le_mono_nonneg_r; lia).
  assert (W' : forall c, c <= k -> c * den <= k * den) by (intros c W'; apply Z.mul_le_mono_nonneg_r; lia).
  destruct (k * 10 ^ (-1 - r) =? 1000000) eqn:E; [apply Z.eqb_eq in E|apply Z.eqb_neq in E]; (eexists; eexists; split; [reflexivity|]).
  - assert (r <> -1) by (intros ->; change (10 ^ (-1 - -1)) with 1 in E; lia). split; [lia|]. split; [lia|].
    replace (-1 - r) with (1 + (-1 - (r + 1))) in E by ring. rewrite Z.pow_add_r in E by lia. change (10 ^ 1) with 10 in E. lia.
  - destruct C as [->|[->|[->|[->|[->|[->| ->]]]]]]; [exfalso| | | | | |].
    + change (10 ^ (-1 - -7)) with 1000000 in E. change (10 ^ Z.max 0 (- (-7 + 1))) with 1000000 in R2. change (10 ^ Z.max 0 (-7 + 1)) with 1 in R2. assert (X : 2 * den <= k * den) by (apply W'; lia). clear - B R2 X Hd. lia.
    + split; [lia|]. split; [|reflexivity]. change (10 ^ (-1 - -6)) with 100000. lia.
    + split; [lia|]. split; [|reflexivity]. change (10 ^ (-1 - -5)) with 10000. lia.
    + split; [lia|]. split; [|reflexivity]. change (10 ^ (-1 - -4)) with 1000. lia.
    + split; [lia|]. split; [|reflexivity]. change (10 ^ (-1 - -3)) with 100. lia.
    + split; [lia|]. split; [|reflexivity]. change (10 ^ (-1 - -2)) with 10. lia.
    + split; [lia|]. split; [|reflexivity]. change (10 ^ (-1 - -1)) with 1. lia.
Qed.
Lemma positive_exact num den k : 0 < num -> 0 < den -> 0 < k < 1000000 -> Z.abs (k * den - 1000000 * num) * 2 ^ 54 <= 1000000 * den ->
  millionths (positive_text num den) k.
Proof.
  intros Hn Hd Hk B. destruct (six_exact num den k Hn Hd Hk B) as (d & e & E & He & D0 & D). unfold positive_text. rewrite E.
  rewrite (proj2 (Z.leb_gt 6 e)) by lia. rewrite orb_false_r. destruct (Z.ltb_spec e (-4)) as [L|L].
  - destruct (decimal_ok 5 d D0) as (w & f & W0 & W & F & T & V). exists w, f, (- e). split; [exact W0|]. split; [exact W|]. split; [exact F|]. split; [lia|]. split.
    + rewrite T, <- app_assoc. do 2 f_equal. assert (C : e = -6 \/ e = -5) by lia. destruct C as [->| ->]; vm_compute; reflexivity.
    + rewrite D in V. set (a := 10 ^ Z.of_nat (List.length f)) in *. set (x := number w * a + number f) in *. change (10 ^ Z.of_nat 5) with 100000 in V.
      replace (- e) with (1 + (-1 - e)) by ring. rewrite Z.pow_add_r by lia. change (10 ^ 1) with 10. set (c := 10 ^ (-1 - e)) in *. clearbody a x c.
      replace (k * a * (10 * c)) with (10 * (k * c * a)) by ring. rewrite <- V. ring.
  - destruct (decimal_ok (Z.to_nat (5 - e)) d D0) as (w & f & W0 & W & F & T & V). exists w, f, 0. split; [exact W0|]. split; [exact W|]. split; [exact F|]. split; [lia|]. split.
    + rewrite T. change (0 =? 0) with true. cbv iota. rewrite app_nil_r. reflexivity.
    + rewrite D in V. set (a := 10 ^ Z.of_nat (List.length f)) in *. set (x := number w * a + number f) in *. rewrite Z2Nat.id in V by lia.
      replace (5 - e) with (6 + (-1 - e)) in V by ring. rewrite Z.pow_add_r in V by lia. change (10 ^ 6) with 1000000 in V. change (10 ^ 0) with 1. rewrite Z.mul_1_r.
      assert (Cp : 0 < 10 ^ (-1 - e)) by (apply Z.pow_pos_nonneg; lia). set (c := 10 ^ (-1 - e)) in *. clearbody a x c.
      apply (Z.mul_cancel_r _ _ c); [lia|]. replace (k * a * c) with (k * c * a) by ring. rewrite <- V. ring.
Qed.
Lemma text_exact k : 0 <= k < 1000000 -> millionths (put_double (divd (double_of_unsigned k) (double_of_unsigned 1000000))) k.
Proof.
  intros H. destruct (Z.eq_dec k 0) as [->|N].
  - exists [48%N], [], 0. split; [discriminate|]. split; [apply Forall_cons; [lia|apply Forall_nil]|]. split; [apply Forall_nil|]. split; [lia|]. split; [vm_compute; reflexivity|reflexivity].
  - destruct (elapsed_error k 0 ltac:(lia) ltac:(lia) ltac:(change (2 ^ 0) with 1; lia)) as (m & e & E & He & B). rewrite E. cbn [put_double app].
    pose proof (Z.pow_pos_nonneg 2 (Z.max 0 e) ltac:(lia) (Z.le_max_l _ _)) as P1. pose proof (Z.pow_pos_nonneg 2 (Z.max 0 (- e)) ltac:(lia) (Z.le_max_l _ _)) as P2.
    apply positive_exact; [apply Z.mul_pos_pos; lia|exact P2|lia|].
    pose proof (finite_ratio (Z.pos m) e ltac:(unfold SH; lia)) as R. set (num := Z.pos m * 2 ^ Z.max 0 e) in *. set (den := 2 ^ Z.max 0 (- e)) in *. set (v := Z.pos m * 2 ^ (e + SH)) in *.
    pose proof pow_SH_pos as P. set (u := 2 ^ SH) in *. clearbody u v num den. change (2 ^ 0) with 1 in B. rewrite Z.mul_1_r in B.
    apply (Z.mul_le_mono_pos_r _ _ u P). replace (2 ^ 54) with (2 * 2 ^ 53) by reflexivity. set (c := 2 ^ 53) in *. assert (0 < c) by (unfold c; lia). clearbody c.
    replace (Z.abs (k * den - 1000000 * num) * (2 * c) * u) with (2 * c * (Z.abs (k * den - 1000000 * num) * u)) by ring.
    rewrite <- (Z.abs_eq u) at 1 by lia. rewrite <- Z.abs_mul. replace ((k * den - 1000000 * num) * u) with (den * (k * u - 1000000 * v)) by (rewrite Z.mul_sub_distr_r, <- (Z.mul_assoc 1000000), R; ring).
    rewrite Z.abs_mul, (Z.abs_eq den) by lia. replace (2 * c * (den * Z.abs (k * u - 1000000 * v))) with (den * (2 * Z.abs (k * u - 1000000 * v) * c)) by ring.
    replace (1000000 * den * u) with (den * (1000000 * u)) by ring. apply Z.mul_le_mono_nonneg_l; [lia|exact B].
Qed.

(** The digits of a number of microseconds from a second on *)
Lemma six_close num den k : 0 < num -> 0 < den -> 1000000 <= k < 999999000000 -> Z.abs (k * den - 1000000 * num) * 2 ^ 34 <= 1000000 * den ->
  exists d e, six_digits num den = (d, e) /\ -1 <= e <= 5 /\ 0 <= d /\ 200000 * Z.abs (d * 10 ^ (e + 1) - k) <= k.
Proof.
  intros Hn Hd Hk B. change (2 ^ 34) with 17179869184 in B.
  assert (P1 : 1000000 * den <= k * den) by (apply Z.mul_le_mono_nonneg_r; lia). assert (P2 : k * den <= 999999000000 * den) by (apply Z.mul_le_mono_nonneg_r; lia).
  assert (L1 : below num den (-330) = false).
  { unfold below. change (Z.max 0 (- -330)) with 330. change (10 ^ Z.max 0 (-330)) with 1. apply Z.ltb_ge. apply Z.le_trans with (num * 10 ^ 7); [change (10 ^ 7) with 10000000; lia|].
    apply Z.mul_le_mono_nonneg_l; [lia|]. apply Z.pow_le_mono_r; lia. }
  assert (L2 : below num den (-330 + Z.of_nat 660) = true).
  { change (-330 + Z.of_nat 660) with 330. unfold below. change (10 ^ Z.max 0 (- (330))) with 1. change (Z.max 0 330) with 330. apply Z.ltb_lt. apply Z.lt_le_trans with (den * 10 ^ 6); [change (10 ^ 6) with 1000000; lia|].
    apply Z.mul_le_mono_nonneg_l; [lia|]. apply Z.pow_le_mono_r; lia. }
  destruct (decade_spec num den 660 (-330) L1 L2) as (_ & R1 & R2). cbv zeta in *. unfold six_digits. set (r := decade 660 num den (-330)) in *. clearbody r. clear L1 L2.
  assert (Rhi : r <= 5).
  { destruct (Z.le_gt_cases r 5) as [|C]; [assumption|exfalso]. unfold below in R1. apply Z.ltb_ge in R1. rewrite (Z.max_l 0 (- r)), (Z.max_r 0 r) in R1 by lia. change (10 ^ 0) with 1 in R1.
    assert (10 ^ 6 <= 10 ^ r) by (apply Z.pow_le_mono_r; lia). assert (den * 10 ^ 6 <= den * 10 ^ r) by (apply Z.mul_le_mono_nonneg_l; lia). change (10 ^ 6) with 1000000 in *. lia. }
  assert (Rlo : -1 <= r).
  { destruct (Z.le_gt_cases (-1) r) as [|C]; [assumption|exfalso]. apply below_spec in R2. rewrite (Z.max_r 0 (- (r + 1))), (Z.max_l 0 (r + 1)) in R2 by lia. change (10 ^ 0) with 1 in R2.
    assert (10 ^ 1 <= 10 ^ (- (r + 1))) by (apply Z.pow_le_mono_r; lia). assert (num * 10 ^ 1 <= num * 10 ^ (- (r + 1))) by (apply Z.mul_le_mono_nonneg_l; lia). change (10 ^ 1) with 10 in *. lia. }
  unfold below in R1. apply Z.ltb_ge in R1. clear R2.
  rewrite (Z.max_l 0 (r - 5)), (Z.max_r 0 (5 - r)) by lia. change (10 ^ 0) with 1. rewrite Z.mul_1_r.
  pose proof (rne_bound (num * 10 ^ (5 - r)) den Hd) as G. pose proof (rne_nonneg (num * 10 ^ (5 - r)) den ltac:(apply Z.mul_nonneg_nonneg; [lia|apply Z.pow_nonneg; lia]) Hd) as D0.
  set (d := rne (num * 10 ^ (5 - r)) den) in *. clearbody d.
  assert (Q : 10 ^ (5 - r) * 10 ^ (r + 1) = 1000000) by (rewrite <- Z.pow_add_r by lia; replace (5 - r + (r + 1)) with 6 by ring; reflexivity).
  assert (T : 1 <= 10 ^ (r + 1) <= 1000000) by (split; [pose proof (Z.pow_pos_nonneg 10 (r + 1)); lia|change 1000000 with (10 ^ 6); apply Z.pow_le_mono_r; lia]).
  assert (R3 : den * 10 ^ (r + 1) <= 10 * num).
  { destruct (Z.le_gt_cases 0 r) as [C|C].
    - rewrite (Z.max_l 0 (- r)), (Z.max_r 0 r) in R1 by lia. change (10 ^ 0) with 1 in R1. rewrite Z.pow_add_r by lia. change (10 ^ 1) with 10. lia.
    - assert (r = -1) as -> by lia. change (10 ^ Z.max 0 (- -1)) with 10 in R1. change (10 ^ Z.max 0 (-1)) with 1 in R1. change (10 ^ (-1 + 1)) with 1. lia. }
  assert (V : 2 * Z.abs (k - d * 10 ^ (r + 1)) <= 10 ^ (r + 1)).
  { set (q := 10 ^ (r + 1)) in *. set (c := 10 ^ (5 - r)) in *.
    assert (G2 : Z.abs (2 * (num * 1000000 - d * q * den)) <= q * den).
    { replace (2 * (num * 1000000 - d * q * den)) with (q * (2 * (num * c - d * den))) by (rewrite <- Q; ring). rewrite Z.abs_mul, (Z.abs_eq q) by lia. apply Z.mul_le_mono_nonneg_l; [lia|exact G]. }
    set (z := k - d * q). assert (Z1 : k * den - d * q * den = z * den) by (unfold z; ring). set (kd := k * den) in *. set (dq := d * q * den) in *. clearbody kd dq z.
    destruct (Z.le_gt_cases (2 * Z.abs z) q) as [|C]; [assumption|exfalso].
    assert (C2 : (q + 1) * den <= 2 * Z.abs (z * den)) by (rewrite Z.abs_mul, (Z.abs_eq den) by lia; rewrite Z.mul_assoc; apply Z.mul_le_mono_nonneg_r; lia).
    rewrite <- Z1 in C2. rewrite Z.mul_add_distr_r, Z.mul_1_l in C2. set (qd := q * den) in *. clearbody qd. clear - B G2 C2 Hd. lia. }
  assert (K5 : 100000 * 10 ^ (r + 1) <= k).
  { set (q := 10 ^ (r + 1)) in *. destruct (Z.le_gt_cases (100000 * q) k) as [|C]; [assumption|exfalso].
    assert (C2 : k * den <= (100000 * q - 1) * den) by (apply Z.mul_le_mono_nonneg_r; lia). rewrite Z.mul_sub_distr_r, <- Z.mul_assoc, (Z.mul_comm q den), Z.mul_1_l in C2.
    set (kd := k * den) in *. set (qd := den * q) in *. clearbody kd qd. clear - B R3 C2 Hd. lia. }
  assert (F : 200000 * Z.abs (d * 10 ^ (r + 1) - k) <= k).
  { replace (d * 10 ^ (r + 1) - k) with (- (k - d * 10 ^ (r + 1))) by ring. rewrite Z.abs_opp. lia. }
  destruct (Z.eqb_spec d 1000000) as [->|N].
  - exists 100000, (r + 1). split; [reflexivity|]. split; [|split; [lia|]].
    + assert (r <> 5) by (intros ->; change (10 ^ (5 + 1)) with 1000000 in V; lia). lia.
    + rewrite (Z.pow_add_r 10 (r + 1) 1) by lia. change (10 ^ 1) with 10. replace (100000 * (10 ^ (r + 1) * 10)) with (1000000 * 10 ^ (r + 1)) by ring. exact F.
  - exists d, r. split; [reflexivity|]. split; [lia|]. split; [exact D0|exact F].
Qed.
(** From the bound on the quotient to one on the ratio *)
Lemma ratio_bound k j m e : -1074 <= e -> 0 <= j <= 53 -> 2 * Z.abs (k * 2 ^ SH - 1000000 * (Z.pos m * 2 ^ (e + SH))) * 2 ^ 53 <= 1000000 * 2 ^ j * 2 ^ SH ->
  Z.abs (k * 2 ^ Z.max 0 (- e) - 1000000 * (Z.pos m * 2 ^ Z.max 0 e)) * 2 ^ (54 - j) <= 1000000 * 2 ^ Z.max 0 (- e).
Proof.
  intros He Hj B. pose proof (Z.pow_pos_nonneg 2 (Z.max 0 (- e)) ltac:(lia) (Z.le_max_l _ _)) as P2.
  pose proof (finite_ratio (Z.pos m) e ltac:(unfold SH; lia)) as R. set (num := Z.pos m * 2 ^ Z.max 0 e) in *. set (den := 2 ^ Z.max 0 (- e)) in *. set (v := Z.pos m * 2 ^ (e + SH)) in *.
  pose proof pow_SH_pos as P. set (u := 2 ^ SH) in *. clearbody u v num den.
  assert (T : 2 * 2 ^ 53 = 2 ^ (54 - j) * 2 ^ j) by (rewrite <- Z.pow_add_r by lia; replace (54 - j + j) with 54 by ring; reflexivity).
  pose proof (Z.pow_pos_nonneg 2 j ltac:(lia) ltac:(lia)) as Pj. set (b := 2 ^ j) in *. set (c := 2 ^ (54 - j)) in *. set (h := 2 ^ 53) in *. clearbody b c h.
  apply (Z.mul_le_mono_pos_r _ _ (u * b)); [apply Z.mul_pos_pos; assumption|].
  replace (Z.abs (k * den - 1000000 * num) * c * (u * b)) with (2 * h * (Z.abs (k * den - 1000000 * num) * u)) by (rewrite T; ring).
  rewrite <- (Z.abs_eq u) at 1 by lia. rewrite <- Z.abs_mul. replace ((k * den - 1000000 * num) * u) with (den * (k * u - 1000000 * v)) by (rewrite Z.mul_sub_distr_r, <- (Z.mul_assoc 1000000), R; ring).
  rewrite Z.abs_mul, (Z.abs_eq den) by lia. replace (2 * h * (den * Z.abs (k * u - 1000000 * v))) with (den * (2 * Z.abs (k * u - 1000000 * v) * h)) by ring.
  replace (1000000 * den * (u * b)) with (den * (1000000 * b * u)) by ring. apply Z.mul_le_mono_nonneg_l; [lia|exact B].
Qed.
Lemma text_close k : 1000000 <= k < 999999000000 -> exists v, millionths (put_double (divd (double_of_unsigned k) (double_of_unsigned 1000000))) v /\ 200000 * Z.abs (v - k) <= k.
Proof.
  intros H. destruct (elapsed_error k 20 ltac:(lia) ltac:(lia) ltac:(change (2 ^ 20) with 1048576; lia)) as (m & q & E & He & B). rewrite E. cbn [put_double app].
  pose proof (Z.pow_pos_nonneg 2 (Z.max 0 q) ltac:(lia) (Z.le_max_l _ _)) as P1. pose proof (Z.pow_pos_nonneg 2 (Z.max 0 (- q)) ltac:(lia) (Z.le_max_l _ _)) as P2.
  pose proof (ratio_bound k 20 m q He ltac:(lia) B) as R. change (54 - 20) with 34 in R.
  destruct (six_close (Z.pos m * 2 ^ Z.max 0 q) (2 ^ Z.max 0 (- q)) k ltac:(apply Z.mul_pos_pos; lia) P2 H R) as (d & e & S6 & Be & D0 & F).
  exists (d * 10 ^ (e + 1)). split; [|exact F]. unfold positive_text. rewrite S6. rewrite (proj2 (Z.leb_gt 6 e)), (proj2 (Z.ltb_ge e (-4))) by lia. cbn [orb].
  destruct (decimal_ok (Z.to_nat (5 - e)) d D0) as (w & f & W0 & W & Wf & T & V). exists w, f, 0. split; [exact W0|]. split; [exact W|]. split; [exact Wf|]. split; [lia|]. split.
  - rewrite T. change (0 =? 0) with true. cbv iota. rewrite app_nil_r. reflexivity.
  - set (a := 10 ^ Z.of_nat (List.length f)) in *. set (x := number w * a + number f) in *. rewrite Z2Nat.id in V by lia. change (10 ^ 0) with 1. rewrite Z.mul_1_r.
    assert (Q : 10 ^ (5 - e) * 10 ^ (e + 1) = 1000000) by (rewrite <- Z.pow_add_r by lia; replace (5 - e + (e + 1)) with 6 by ring; reflexivity).
    rewrite <- Q. replace (d * 10 ^ (e + 1) * a) with (d * a * 10 ^ (e + 1)) by ring. rewrite <- V. ring.
Qed.
Lemma elapsed_seen a b j : proper a -> proper b -> nanos a <= nanos b -> 0 <= j <= 33 -> nanos b - nanos a < 1000000000 * 2 ^ j - 1000 ->
  exists micros, 0 <= micros /\ Z.abs (1000 * micros - (nanos b - nanos a)) < 1000 /\
    seconds_close j micros (timer_elapsed (timer_init freq_unset) (timer_clock a) b).
Proof. intros Ha Hb H Hj Hl. destruct (elapsed_close a b j Ha Hb H Hj Hl) as (k & K & A & _ & B). exists k. split; [lia|]. split; assumption. Qed.
Lemma timings_file l : Forall short_time l ->
  exists lines, save_timings (map (fun t => timer_elapsed (timer_init freq_unset) (timer_clock (fst t)) (snd t)) l) = concat (map (fun x => x ++ [10%N]) lines) /\
    Forall2 tells l lines.
Proof.
  induction 1 as [|[a b] l (Ha & Hb & H1 & H2) Hl (lines & E & T)]; [exists []; split; [reflexivity|apply Forall2_nil]|].
  cbn [fst snd] in *. destruct (elapsed_close a b 0 Ha Hb H1 ltac:(lia) ltac:(change (2 ^ 0) with 1; lia)) as (k & K & A & D & _). change (2 ^ 0) with 1 in K.
  exists (put_double (timer_elapsed (timer_init freq_unset) (timer_clock a) b) :: lines). split.
  - unfold save_timings in *. cbn [map concat fst snd]. rewrite E. reflexivity.
  - apply Forall2_cons; [|exact T]. exists k. split; [|exact A]. rewrite D. apply text_exact. lia.
Qed.
Lemma unset_infinite a b : proper a -> proper b -> nanos a + 1000 <= nanos b ->
  timer_elapsed freq_unset (timer_clock a) b = S754_infinity false.
Proof.
  intros Ha Hb H. destruct (clock_value a Ha) as (_ & A1 & A2). destruct (clock_value b Hb) as (_ & B1 & B2).
  unfold timer_elapsed. rewrite Z.mod_small by lia. set (k := timer_clock b - timer_clock a). assert (K : 0 < k < 2 ^ 64) by (unfold k; lia). clearbody k. clear - K.
  unfold double_of_unsigned. rewrite (proj2 (Z.eqb_neq k 0)) by lia.
  destruct (round_ratio_nonzero 53 1024 false k 1 ltac:(lia) ltac:(unfold fmin, SH; lia) ltac:(lia) ltac:(lia)) as [(m & e & E)|E].
  - change (fmin 53 1024 + SH) with 0. change (2 ^ 0) with 1. pose proof pow_SH_pos. set (u := 2 ^ SH) in *. clearbody u. nia.
  - rewrite E. reflexivity.
  - rewrite E. reflexivity.
Qed.

Lemma timings_long l : Forall long_time l ->
  exists lines, save_timings (map (fun t => timer_elapsed (timer_init freq_unset) (timer_clock (fst t)) (snd t)) l) = concat (map (fun x => x ++ [10%N]) lines) /\
    Forall2 tells_about l lines.
Proof.
  induction 1 as [|[a b] l (Ha & Hb & H1 & H2) Hl (lines & E & T)]; [exists []; split; [reflexivity|apply Forall2_nil]|].
  cbn [fst snd] in *. destruct (elapsed_close a b 20 Ha Hb H1 ltac:(lia) ltac:(change (2 ^ 20) with 1048576; lia)) as (k & K & A & D & _).
  exists (put_double (timer_elapsed (timer_init freq_unset) (timer_clock a) b) :: lines). split.
  - unfold save_timings in *. cbn [map concat fst snd]. rewrite E. reflexivity.
  - apply Forall2_cons; [|exact T]. unfold tells_about. cbn [fst snd]. rewrite D. destruct (Z.lt_ge_cases k 1000000) as [C|C].
    + exists k, k. split; [apply text_exact; lia|]. split; [rewrite Z.sub_diag; cbn; lia|exact A].
    + destruct (text_close k ltac:(lia)) as (v & V & W). exists k, v. split; [exact V|]. split; [exact W|exact A].
Qed.
