(** Point queries on polygons: the even-odd rule, convex polygons. *)
From Coq Require Import Permutation.
From Verif Require Import CBase Num NumSpec NumProofs FloatOps FloatProofs DecimalProofs FloatMono Region RegionSpec RegionGeom GeomSpec BoundsProofs PolygonSpec.
Local Open Scope Z_scope.

(** ---- Sides ---- *)
Lemma combine_shift {A} (l : list A) : forall a b d, combine (a :: l) (l ++ [b]) = combine (a :: l) l ++ [(last (a :: l) d, b)].
Proof.
  induction l as [|c l IH]; intros a b d; [reflexivity|].
  change (combine (a :: c :: l) ((c :: l) ++ [b])) with ((a, c) :: combine (c :: l) (l ++ [b])).
  rewrite (IH c b d). reflexivity.
Qed.

(** The order in which the code visits the sides. *)
Lemma visited_sides {A} (pts : list A) d : Permutation (combine (last pts d :: pts) pts) (sides pts).
Proof.
  destruct pts as [|a l]; [apply perm_nil|]. unfold sides. cbn [tl firstn]. rewrite (combine_shift l a a d).
  change (combine (last (a :: l) d :: a :: l) (a :: l)) with ((last (a :: l) d, a) :: combine (a :: l) l).
  apply Permutation_cons_append.
Qed.

Lemma combine_trunc {A B} (u w : list A) (v : list B) : List.length u = List.length v -> combine (u ++ w) v = combine u v.
Proof.
  revert v. induction u as [|a u IH]; intros [|b v] H; try discriminate H.
  - now destruct w.
  - cbn. f_equal. apply IH. now injection H.
Qed.

Lemma sides_rotate {A} (p : A) pts : Permutation (sides (p :: pts)) (sides (pts ++ [p])).
Proof.
  destruct pts as [|b l]; [reflexivity|]. unfold sides. cbn [tl firstn app].
  rewrite (combine_shift (l ++ [p]) b b p).
  change (b :: l ++ [p]) with ((b :: l) ++ [p]). rewrite last_last. rewrite combine_trunc by (rewrite app_length; cbn; lia).
  change (combine (p :: b :: l) (b :: l ++ [p])) with ((p, b) :: combine (b :: l) (l ++ [p])).
  apply Permutation_cons_append.
Qed.

Definition swap {A} (s : A * A) : A * A := (snd s, fst s).
Lemma path_rev {A} (l : list A) : forall a, combine (rev (a :: l)) (tl (rev (a :: l))) = rev (map swap (combine (a :: l) l)).
Proof.
  induction l as [|b l IH]; intros a; [reflexivity|].
  change (rev (a :: b :: l)) with (rev (b :: l) ++ [a]).
  change (combine (a :: b :: l) (b :: l)) with ((a, b) :: combine (b :: l) l). cbn [map rev]. rewrite <- IH.
  destruct (rev (b :: l)) as [|c r] eqn:E.
  { apply (f_equal (@List.length A)) in E. rewrite rev_length in E. discriminate E. }
  assert (L : last (c :: r) a = b) by (rewrite <- E; cbn [rev]; apply last_last).
  change (rev l ++ [b]) with (rev (b :: l)). rewrite E. cbn [app tl].
  change (c :: r ++ [a]) with ((c :: r) ++ [a]).
  rewrite combine_trunc by (rewrite app_length; cbn; lia).
  rewrite (combine_shift r c a a), L. reflexivity.
Qed.
Lemma sides_split {A} (a : A) l d : sides (a :: l) = combine (a :: l) l ++ [(last (a :: l) d, a)].
Proof. unfold sides. cbn [tl firstn]. apply combine_shift. Qed.
Lemma sides_rev {A} (pts : list A) : Permutation (sides (rev pts)) (map swap (sides pts)).
Proof.
  destruct pts as [|a l]; [reflexivity|].
  destruct (rev (a :: l)) as [|c r] eqn:E.
  { apply (f_equal (@List.length A)) in E. rewrite rev_length in E. discriminate E. }
  rewrite (sides_split c r a), (sides_split a l a). rewrite map_app.
  assert (L1 : last (c :: r) a = a) by (rewrite <- E; cbn [rev]; apply last_last).
  assert (L2 : last (a :: l) a = c).
  { rewrite <- (rev_involutive (a :: l)), E. cbn [rev]. apply last_last. }
  rewrite L1, L2. cbn [map swap fst snd]. apply Permutation_app_tail.
  pose proof (path_rev l a) as P. rewrite E in P. cbn [tl] in P. rewrite P. symmetry. apply Permutation_rev.
Qed.

Lemma odd_filter_perm {A} (f : A -> bool) l1 l2 : Permutation l1 l2 ->
  Nat.odd (List.length (filter f l1)) = Nat.odd (List.length (filter f l2)).
Proof.
  intros P. f_equal. induction P as [|x l l' P IH|x y l|l l' l'' P1 IH1 P2 IH2]; [reflexivity| | |congruence].
  - cbn [filter]. destruct (f x); cbn [List.length]; congruence.
  - cbn [filter]. destruct (f x), (f y); reflexivity.
Qed.

(** ---- The code counts the sides hit ---- *)
Definition hit (x y : spec_float) (s : (spec_float * spec_float) * (spec_float * spec_float)) : bool :=
  let '((xj, yj), (xi, yi)) := s in
  xorb (fgt yi y) (fgt yj y) && flt x (addf (divf (mulf (subf xj xi) (subf y yi)) (subf yj yi)) xi).

Lemma odd_S n : Nat.odd (S n) = negb (Nat.odd n).
Proof. rewrite Nat.odd_succ, <- Nat.negb_odd. reflexivity. Qed.

Lemma crossings_hit x y pts : forall pj c,
  crossings x y pj pts c = xorb c (Nat.odd (List.length (filter (hit x y) (combine (pj :: pts) pts)))).
Proof.
  induction pts as [|pi pts IH]; intros [xj yj] c; [now destruct c|].
  destruct pi as [xi yi]. cbn [crossings]. rewrite IH.
  change (combine ((xj, yj) :: (xi, yi) :: pts) ((xi, yi) :: pts)) with (((xj, yj), (xi, yi)) :: combine ((xi, yi) :: pts) pts).
  cbn [filter hit]. set (n := filter _ (combine ((xi, yi) :: pts) pts)).
  destruct (xorb (fgt yi y) (fgt yj y) && _); cbn [List.length]; [rewrite odd_S|]; destruct c, (Nat.odd (List.length n)); reflexivity.
Qed.

Lemma contains_polygon x y pts :
  contains_point (RPoly pts) x y = Ok (Nat.odd (List.length (filter (hit x y) (sides pts)))).
Proof.
  cbn [contains_point]. rewrite crossings_hit, Bool.xorb_false_l. f_equal. apply odd_filter_perm, visited_sides.
Qed.

Lemma polygon_rotate x y p pts : contains_point (RPoly (p :: pts)) x y = contains_point (RPoly (pts ++ [p])) x y.
Proof. rewrite !contains_polygon. f_equal. apply odd_filter_perm, sides_rotate. Qed.

(** ---- One side, integer coordinates ---- *)
Lemma small_fl M E : Z.abs M < 2 ^ 24 -> -149 <= E <= 104 -> fl 24 128 (M * 2 ^ (E + SH)).
Proof. intros H1 H2. exists M, E. split; [reflexivity|]. split; [exact H1|]. unfold fmin. lia. Qed.
Lemma int_fl z : Z.abs z < 2 ^ 24 -> fl 24 128 (z * 2 ^ SH).
Proof. intros H. change (2 ^ SH) with (2 ^ (0 + SH)). apply small_fl; [exact H|lia]. Qed.

Lemma rep_finite x z : rep x z -> finite x = true /\ - SH <= fexp x /\ fixed x = z * 2 ^ SH.
Proof. intros (A & B & C). split; [exact A|]. split; [unfold SH; lia|exact C]. Qed.

(** The crossing of a side with the row: at most 1/4096 away from an integer, and never on the wrong side of one. *)
Lemma crossing_right fx fy fxi fyi fxj fyj X Y Xi Yi Xj Yj :
  rep fx X -> rep fy Y -> rep fxi Xi -> rep fyi Yi -> rep fxj Xj -> rep fyj Yj ->
  Z.abs X <= 4095 -> Z.abs (Xj - Xi) <= 4096 -> Z.abs (Yj - Yi) <= 4096 ->
  Yi <> Yj -> Z.abs (Y - Yi) <= Z.abs (Yj - Yi) -> 
  flt fx (addf (divf (mulf (subf fxj fxi) (subf fy fyi)) (subf fyj fyi)) fxi) =
  (if Yi <? Yj then (X - Xi) * (Yj - Yi) <? (Xj - Xi) * (Y - Yi) else (Xj - Xi) * (Y - Yi) <? (X - Xi) * (Yj - Yi)).
Proof.
  intros Rx Ry Rxi Ryi Rxj Ryj HX Ha Hd Hne Hb.
  set (a := Xj - Xi) in *. set (b := Y - Yi) in *. set (d := Yj - Yi) in *. set (k := X - Xi) in *.
  assert (Hab : Z.abs (a * b) <= 2 ^ 24).
  { rewrite Z.abs_mul. change (2 ^ 24) with (4096 * 4096). apply Z.mul_le_mono_nonneg; lia. }
  assert (Ra : rep (subf fxj fxi) a) by (apply (rep_fsub 24 128 _ _ _ _ fmt_float Rxj Rxi); fold a; lia).
  assert (Rb : rep (subf fy fyi) b) by (apply (rep_fsub 24 128 _ _ _ _ fmt_float Ry Ryi); fold b; lia).
  assert (Rd : rep (subf fyj fyi) d) by (apply (rep_fsub 24 128 _ _ _ _ fmt_float Ryj Ryi); fold d; lia).
  assert (Rab : rep (mulf (subf fxj fxi) (subf fy fyi)) (a * b)) by (apply (rep_fmul 24 128 _ _ _ _ fmt_float Ra Rb); exact Hab).
  destruct (rep_finite _ _ Rab) as (Fab & Eab & Vab). destruct (rep_finite _ _ Rd) as (Fd & Ed & Vd).
  destruct (rep_finite _ _ Rxi) as (Fxi & Exi & Vxi). destruct (rep_finite _ _ Rx) as (Fx & Ex & Vx).
  pose proof pow_SH_pos as P.
  assert (Hd0 : d <> 0) by (unfold d; lia).
  destruct (fdiv_s 24 128 _ _ Fab Fd Eab Ed) as (zs & num & den & Eq & Hden & Hq).
  { rewrite Vd. intros H0. apply Z.mul_eq_0 in H0. lia. }
  rewrite Vab, Vd in Hq.
  assert (Hq' : num * d = a * b * den).
  { apply (Z.mul_cancel_r _ _ (2 ^ SH)); [lia|]. rewrite <- Z.mul_assoc, Hq. ring. }
  clear Hq. fold divf in Eq. set (q := divf (mulf (subf fxj fxi) (subf fy fyi)) (subf fyj fyi)) in *.
  (* bounds of the quotient transfer to q *)
  assert (UP : forall v n, 0 < n -> fl 24 128 v -> num * n * 2 ^ SH <= den * (n * v) -> below q v).
  { intros v n Hn Hv H. rewrite Eq. apply round_s_below; [apply fmt_float|exact Hden|exact Hv|].
    apply (Z.mul_le_mono_pos_l _ _ n Hn). replace (n * (num * 2 ^ SH)) with (num * n * 2 ^ SH) by ring.
    replace (n * (den * v)) with (den * (n * v)) by ring. exact H. }
  assert (LO : forall v n, 0 < n -> fl 24 128 v -> den * (n * v) <= num * n * 2 ^ SH -> above q v).
  { intros v n Hn Hv H. rewrite Eq. apply round_s_above; [apply fmt_float|exact Hden|exact Hv|].
    apply (Z.mul_le_mono_pos_l _ _ n Hn). replace (n * (num * 2 ^ SH)) with (num * n * 2 ^ SH) by ring.
    replace (n * (den * v)) with (den * (n * v)) by ring. exact H. }
  (* the sign of d *)
  set (n := Z.abs d) in *. set (t := (if Yi <? Yj then 1 else -1) * (a * b)).
  assert (Hn : 0 < n) by (unfold n; lia).
  assert (Hnd : num * n = t * den).
  { unfold n, t, d in *. destruct (Yi <? Yj) eqn:E; [apply Z.ltb_lt in E; rewrite Z.abs_eq by lia; lia|].
    apply Z.ltb_ge in E. rewrite Z.abs_neq by lia. lia. }
  assert (Ht : - (4096 * n) <= t <= 4096 * n).
  { assert (B : Z.abs t <= 4096 * n).
    { unfold t. rewrite !Z.abs_mul. replace (Z.abs (if Yi <? Yj then 1 else -1)) with 1 by (destruct (Yi <? Yj); reflexivity).
      rewrite Z.mul_1_l. apply Z.mul_le_mono_nonneg; lia. }
    lia. }
  assert (Goal' : flt fx (addf q fxi) = (k * n <? t)).
  { assert (Fq : finite q = true /\ - SH <= fexp q /\ - (4096 * 2 ^ SH) <= fixed q <= 4096 * 2 ^ SH).
    { apply above_below_finite.
      - apply (LO _ n Hn); [rewrite <- Z.mul_opp_l; apply int_fl; reflexivity|]. rewrite Hnd.
        replace (den * (n * - (4096 * 2 ^ SH))) with (- (4096 * n) * (den * 2 ^ SH)) by ring.
        replace (t * den * 2 ^ SH) with (t * (den * 2 ^ SH)) by ring. apply Z.mul_le_mono_nonneg_r; [apply Z.lt_le_incl, Z.mul_pos_pos; lia|lia].
      - apply (UP _ n Hn); [apply int_fl; reflexivity|]. rewrite Hnd.
        replace (den * (n * (4096 * 2 ^ SH))) with ((4096 * n) * (den * 2 ^ SH)) by ring.
        replace (t * den * 2 ^ SH) with (t * (den * 2 ^ SH)) by ring. apply Z.mul_le_mono_nonneg_r; [apply Z.lt_le_incl, Z.mul_pos_pos; lia|lia]. }
    destruct Fq as (Fq & Exq & Bq).
    destruct (fadd_s 24 128 q fxi Fq Fxi Exq Exi) as (zs2 & num2 & den2 & Eq2 & Hden2 & Hq2). fold addf in Eq2.
    destruct (k * n <? t) eqn:Ek.
    - apply Z.ltb_lt in Ek. rewrite Eq2.
      (* the value is at least k + 1/4096 *)
      assert (S12 : 2 ^ SH = 4096 * 2 ^ (-12 + SH)) by (change 4096 with (2 ^ 12); rewrite <- Z.pow_add_r by (unfold SH; lia); f_equal).
      assert (P12 : 0 < 2 ^ (-12 + SH)) by (apply pow2_pos; unfold SH; lia).
      assert (Lq : (k * 4096 + 1) * 2 ^ (-12 + SH) <= fixed q).
      { assert (HL : forall v, fl 24 128 v -> den * (n * v) <= num * n * 2 ^ SH -> v <= fixed q).
        { intros v Hv H. destruct (LO v n Hn Hv H) as [(_ & _ & H1)|H1]; [exact H1|]. rewrite H1 in Fq. discriminate Fq. }
        assert (Kn : (k * 4096 + 1) * n <= 4096 * t).
        { assert (n <= 4096) by (unfold n; lia). replace ((k * 4096 + 1) * n) with (4096 * (k * n) + n) by ring. lia. }
        assert (Mul : forall w m, w * n <= m * t -> 0 <= m -> den * (n * w) <= m * (num * n)).
        { intros w m H _. rewrite Hnd. replace (den * (n * w)) with (w * n * den) by ring.
          replace (m * (t * den)) with (m * t * den) by ring. apply Z.mul_le_mono_nonneg_r; lia. }
        assert (Lift : (k * 4096 + 1) * n <= 4096 * t -> den * (n * ((k * 4096 + 1) * 2 ^ (-12 + SH))) <= num * n * 2 ^ SH).
        { intros H. apply (Mul _ 4096) in H; [|lia]. rewrite S12.
          replace (den * (n * ((k * 4096 + 1) * 2 ^ (-12 + SH)))) with (den * (n * (k * 4096 + 1)) * 2 ^ (-12 + SH)) by ring.
          replace (num * n * (4096 * 2 ^ (-12 + SH))) with (4096 * (num * n) * 2 ^ (-12 + SH)) by ring.
          apply Z.mul_le_mono_nonneg_r; lia. }
        destruct (Z.le_gt_cases (-4096) k) as [Hk|Hk].
        - assert (Hk2 : k < 4096) by (apply (Z.mul_lt_mono_pos_r n); lia).
          apply HL; [apply small_fl; [clear - Hk Hk2; clearbody k; lia|lia]|]. apply Lift. exact Kn.
        - (* k is below all values q can take *)
          apply Z.le_trans with (- (4096 * 2 ^ SH)); [|lia]. rewrite S12.
          replace (- (4096 * (4096 * 2 ^ (-12 + SH)))) with (-16777216 * 2 ^ (-12 + SH)) by ring. apply Z.mul_le_mono_nonneg_r; lia. }
      apply (flt_above fx _ ((X * 4096 + 1) * 2 ^ (-12 + SH)) Fx Ex).
      + apply round_s_above; [apply fmt_float|exact Hden2|apply small_fl; lia|]. rewrite Hq2. apply Z.mul_le_mono_nonneg_l; [lia|].
        rewrite Vxi, S12. unfold k in Lq.
        replace ((X * 4096 + 1) * 2 ^ (-12 + SH)) with (((X - Xi) * 4096 + 1) * 2 ^ (-12 + SH) + Xi * (4096 * 2 ^ (-12 + SH))) by ring. lia.
      + rewrite Vx, S12. replace ((X * 4096 + 1) * 2 ^ (-12 + SH)) with (X * (4096 * 2 ^ (-12 + SH)) + 2 ^ (-12 + SH)) by ring. lia.
    - apply Z.ltb_ge in Ek. rewrite Eq2.
      assert (Lq : fixed q <= k * 2 ^ SH).
      { assert (HU : forall v, fl 24 128 v -> num * n * 2 ^ SH <= den * (n * v) -> fixed q <= v).
        { intros v Hv H. destruct (UP v n Hn Hv H) as [(_ & _ & H1)|H1]; [exact H1|]. rewrite H1 in Fq. discriminate Fq. }
        destruct (Z.le_gt_cases k 4096) as [Hk|Hk].
        - assert (Hk2 : -4096 <= k) by (apply (Z.mul_le_mono_pos_r _ _ n); lia).
          apply HU; [apply int_fl; lia|]. rewrite Hnd. replace (den * (n * (k * 2 ^ SH))) with (k * n * (den * 2 ^ SH)) by ring.
          replace (t * den * 2 ^ SH) with (t * (den * 2 ^ SH)) by ring. apply Z.mul_le_mono_nonneg_r; [apply Z.lt_le_incl, Z.mul_pos_pos; lia|lia].
        - apply Z.le_trans with (4096 * 2 ^ SH); [lia|]. apply Z.mul_le_mono_nonneg_r; lia. }
      apply (flt_below fx _ (X * 2 ^ SH) Fx Ex); [|lia].
      apply round_s_below; [apply fmt_float|exact Hden2|apply int_fl; lia|]. rewrite Hq2. apply Z.mul_le_mono_nonneg_l; [lia|].
      rewrite Vxi. unfold k in Lq. replace (X * 2 ^ SH) with ((X - Xi) * 2 ^ SH + Xi * 2 ^ SH) by ring. lia. }
  rewrite Goal'. unfold t, n, d. destruct (Yi <? Yj) eqn:E.
  - apply Z.ltb_lt in E. rewrite Z.abs_eq by lia. now rewrite Z.mul_1_l.
  - apply Z.ltb_ge in E. rewrite Z.abs_neq by lia. apply eq_true_iff_eq. rewrite !Z.ltb_lt. lia.
Qed.

Lemma hit_crosses x y X Y pj pi zj zi : rep x X -> rep y Y -> int_point pj zj -> int_point pi zi ->
  Z.abs X <= 4095 -> Z.abs (fst zi - fst zj) <= 4096 -> Z.abs (snd zi - snd zj) <= 4096 ->
  hit x y (pj, pi) = crosses (X, Y) (zj, zi).
Proof.
  destruct pj as [xj yj], pi as [xi yi], zj as [Xj Yj], zi as [Xi Yi].
  intros Rx Ry (Fxj & Fyj & Ixj & Iyj) (Fxi & Fyi & Ixi & Iyi) HX Ha Hd. cbn [fst snd] in *.
  pose proof (is_int_rep _ _ Fxj Ixj) as Rxj. pose proof (is_int_rep _ _ Fyj Iyj) as Ryj.
  pose proof (is_int_rep _ _ Fxi Ixi) as Rxi. pose proof (is_int_rep _ _ Fyi Iyi) as Ryi.
  clear Fxj Fyj Ixj Iyj Fxi Fyi Ixi Iyi. unfold hit, crosses. cbn [fst snd].
  rewrite (rep_gt _ _ _ _ Ryi Ry), (rep_gt _ _ _ _ Ryj Ry).
  assert (T : turn (Xj, Yj) (Xi, Yi) (X, Y) = (X - Xi) * (Yj - Yi) - (Xj - Xi) * (Y - Yi)) by (unfold turn; cbn [fst snd]; ring).
  rewrite T. clear T.
  destruct (Y <? Yi) eqn:Ei; destruct (Y <? Yj) eqn:Ej; cbn [xorb andb];
    try apply Z.ltb_lt in Ei; try apply Z.ltb_lt in Ej; try apply Z.ltb_ge in Ei; try apply Z.ltb_ge in Ej.
  - replace (Yj <=? Y) with false by lia. replace (Yi <=? Y) with false by lia. reflexivity.
  - rewrite (crossing_right x y xi yi xj yj X Y Xi Yi Xj Yj) by (assumption || lia).
    replace (Yi <? Yj) with false by lia. replace (Yj <=? Y) with true by lia. replace (Yi <=? Y) with false by lia. cbn [andb orb].
    rewrite Bool.orb_false_r. apply eq_true_iff_eq. rewrite !Z.ltb_lt. lia.
  - rewrite (crossing_right x y xi yi xj yj X Y Xi Yi Xj Yj) by (assumption || lia).
    replace (Yi <? Yj) with true by lia. replace (Yj <=? Y) with false by lia. replace (Yi <=? Y) with true by lia. cbn [andb orb].
    apply eq_true_iff_eq. rewrite !Z.ltb_lt. lia.
  - replace (Yj <=? Y) with true by lia. replace (Yi <=? Y) with true by lia. reflexivity.
Qed.

Lemma Forall2_combine {A B} (R : A -> B -> Prop) l1 l2 : Forall2 R l1 l2 -> forall m1 m2, Forall2 R m1 m2 ->
  Forall2 (fun a b => R (fst a) (fst b) /\ R (snd a) (snd b)) (combine l1 m1) (combine l2 m2).
Proof.
  induction 1 as [|a b l1 l2 H HF IH]; intros m1 m2 HM; [constructor|]. destruct HM as [|c d m1 m2 H' HM]; [constructor|].
  cbn. constructor; [now split|]. now apply IH.
Qed.
Lemma Forall2_sides {A B} (R : A -> B -> Prop) l1 l2 : Forall2 R l1 l2 ->
  Forall2 (fun a b => R (fst a) (fst b) /\ R (snd a) (snd b)) (sides l1) (sides l2).
Proof.
  intros H. unfold sides. apply Forall2_combine; [exact H|]. destruct H as [|a b l1 l2 H HF]; [constructor|].
  cbn [tl firstn]. apply Forall2_app; [exact HF|]. constructor; [exact H|constructor].
Qed.

Lemma filter_lengths {A B} (R : A -> B -> Prop) f g l1 l2 : Forall2 R l1 l2 ->
  (forall a b, R a b -> In b l2 -> f a = g b) -> List.length (filter f l1) = List.length (filter g l2).
Proof.
  induction 1 as [|a b l1 l2 H HF IH]; intros E; [reflexivity|]. cbn [filter].
  rewrite (E a b H (or_introl eq_refl)). destruct (g b); cbn [List.length]; rewrite IH; auto; intros; apply E; auto; now right.
Qed.

Lemma polygon_even_odd pts zs x y X Y : Forall2 int_point pts zs -> finite_float x -> finite_float y -> is_int x X -> is_int y Y ->
  Z.abs X <= 4095 -> sides_within 4096 zs -> contains_point (RPoly pts) x y = Ok (even_odd zs (X, Y)).
Proof.
  intros HP Fx Fy Ix Iy HX HS. rewrite contains_polygon. unfold even_odd. do 2 f_equal.
  apply (filter_lengths _ _ _ _ _ (Forall2_sides _ _ _ HP)).
  intros [pj pi] [zj zi] [Hj Hi] HI. cbn [fst snd] in *. destruct (HS zj zi HI) as [H1 H2].
  apply hit_crosses; auto using is_int_rep.
Qed.

Lemma crosses_swap q s : crosses q (swap s) = crosses q s.
Proof.
  destruct s as [a b], q as [X Y], a as [ax ay], b as [bx by_]. unfold crosses, swap. cbn [fst snd].
  replace (turn (bx, by_) (ax, ay) (X, Y)) with (- turn (ax, ay) (bx, by_) (X, Y)) by (unfold turn; cbn [fst snd]; ring).
  set (t := turn _ _ _). replace (0 <? - t) with (t <? 0) by lia. replace (- t <? 0) with (0 <? t) by lia.
  apply Bool.orb_comm.
Qed.
Lemma even_odd_rev zs q : even_odd (rev zs) q = even_odd zs q.
Proof.
  unfold even_odd. rewrite (odd_filter_perm _ _ _ (sides_rev zs)). f_equal.
  induction (sides zs) as [|s l IH]; [reflexivity|]. cbn [map filter]. rewrite crosses_swap. destruct (crosses q s); cbn [List.length]; congruence.
Qed.

(** ---- Rows without a vertex above, or with all vertices above ---- *)
Lemma in_sides {A} (pts : list A) a b : In (a, b) (sides pts) -> In a pts /\ In b pts.
Proof.
  unfold sides. intros H. split; [now apply in_combine_l in H|]. apply in_combine_r, in_app_iff in H as [H|H].
  - destruct pts; [destruct H|]. now right.
  - destruct pts; [destruct H|]. destruct H as [->|[]]. now left.
Qed.
Lemma filter_none {A} (f : A -> bool) l : (forall a, In a l -> f a = false) -> filter f l = [].
Proof.
  induction l as [|a l IH]; intros H; [reflexivity|]. cbn [filter]. rewrite (H a (or_introl eq_refl)). apply IH. intros b Hb. apply H. now right.
Qed.
Lemma polygon_rows pts x y (above_all : bool) : Forall (fun p => fgt (snd p) y = above_all) pts ->
  contains_point (RPoly pts) x y = Ok false.
Proof.
  intros H. rewrite Forall_forall in H. rewrite contains_polygon, filter_none; [reflexivity|].
  intros [[xj yj] [xi yi]] HI. apply in_sides in HI as [Hj Hi]. apply H in Hj, Hi. cbn [snd] in *. unfold hit. rewrite Hj, Hi.
  now destruct above_all.
Qed.

(** ---- Rectangles ---- *)
Lemma finite_fl x : finite_float x -> fl 24 128 (fixed x).
Proof.
  intros [V F]. destruct x as [s| | |s m e]; try contradiction.
  - apply fl_0, fmt_float.
  - apply valid_bounds in V as (B1 & B2 & _). exists (if s then - Z.pos m else Z.pos m), e. split; [cbn [fixed]; destruct s; ring|].
    split; [destruct s; lia|]. unfold fmin. lia.
Qed.
Lemma fge_finite x y : finite x = true -> finite y = true -> - SH <= fexp x -> - SH <= fexp y ->
  fge x y = (fixed y <=? fixed x).
Proof.
  intros. unfold fge, Z.leb. rewrite fcmp_finite by assumption. rewrite (Z.compare_antisym (fixed x) (fixed y)).
  now destruct (fixed x ?= fixed y).
Qed.

(** A side of the rectangle: a point not beyond it is never reported beyond it. *)
Lemma far_side x r w : finite_float x -> finite_float r -> finite_float w -> fixed x <= fixed r + fixed w -> fle x (addf w r) = true.
Proof.
  intros Hx Hr Hw H. destruct (finite_float_finite x Hx) as [Fx Ex]. destruct (finite_float_finite r Hr) as [Fr Er].
  destruct (finite_float_finite w Hw) as [Fw Ew].
  destruct (fadd_s 24 128 w r Fw Fr Ew Er) as (zs & num & den & E & D & V). fold addf in E. rewrite E.
  apply (fle_above x _ (fixed x) Fx Ex); [|lia]. apply round_s_above; [apply fmt_float|exact D|now apply finite_fl|].
  rewrite V. apply Z.mul_le_mono_nonneg_l; lia.
Qed.
(** When the sum is a float, neither is the other way. *)
Lemma far_side_exact x r w t : finite_float x -> finite_float r -> finite_float w -> finite_float t -> fixed t = fixed r + fixed w ->
  fle x (addf w r) = (fixed x <=? fixed r + fixed w).
Proof.
  intros Hx Hr Hw Ht Et. destruct (finite_float_finite x Hx) as [Fx Ex]. destruct (finite_float_finite r Hr) as [Fr Er].
  destruct (finite_float_finite w Hw) as [Fw Ew].
  destruct (fadd_s 24 128 w r Fw Fr Ew Er) as (zs & num & den & E & D & V). fold addf in E.
  assert (B : finite (addf w r) = true /\ - SH <= fexp (addf w r) /\ fixed t <= fixed (addf w r) <= fixed t).
  { rewrite E. apply above_below_finite.
    - apply round_s_above; [apply fmt_float|exact D|now apply finite_fl|]. rewrite V, Et. apply Z.mul_le_mono_nonneg_l; lia.
    - apply round_s_below; [apply fmt_float|exact D|now apply finite_fl|]. rewrite V, Et. apply Z.mul_le_mono_nonneg_l; lia. }
  destruct B as (B1 & B2 & B3). rewrite fle_finite by assumption. f_equal. lia.
Qed.
Lemma near_side x r : finite_float x -> finite_float r -> fge x r = (fixed r <=? fixed x).
Proof.
  intros Hx Hr. destruct (finite_float_finite x Hx) as [Fx Ex]. destruct (finite_float_finite r Hr) as [Fr Er]. now apply fge_finite.
Qed.

Lemma rectangle_inside rx ry rw rh x y : finite_float rx -> finite_float ry -> finite_float rw -> finite_float rh ->
  finite_float x -> finite_float y -> units rx <= units x <= units rx + units rw -> units ry <= units y <= units ry + units rh ->
  contains_point (RRect rx ry rw rh) x y = Ok true.
Proof.
  intros Hrx Hry Hrw Hrh Hx Hy H1 H2. change units with fixed in *. cbn [contains_point].
  rewrite !near_side by assumption. rewrite (far_side x rx rw), (far_side y ry rh) by (assumption || lia). f_equal. rewrite !andb_true_r. apply andb_true_iff. rewrite !Z.leb_le. lia.
Qed.
Lemma rectangle_exact rx ry rw rh x y r b : finite_float rx -> finite_float ry -> finite_float rw -> finite_float rh ->
  finite_float x -> finite_float y -> finite_float r -> finite_float b -> units r = units rx + units rw -> units b = units ry + units rh ->
  contains_point (RRect rx ry rw rh) x y =
    Ok ((units rx <=? units x) && (units x <=? units r) && (units ry <=? units y) && (units y <=? units b)).
Proof.
  intros Hrx Hry Hrw Hrh Hx Hy Hr Hb Er Eb. change units with fixed in *. cbn [contains_point].
  rewrite !near_side by assumption. rewrite (far_side_exact x rx rw r), (far_side_exact y ry rh b) by assumption. now rewrite Er, Eb.
Qed.
