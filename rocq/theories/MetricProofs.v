(** Proofs for C124. *)
From Verif Require Import CBase Num NumSpec NumProofs DecimalProofs FloatOps FloatProofs FloatMono Region RegionSpec RegionGeom GeomSpec GeomProofs BoundsProofs OverlapProofs RasterProofs RegionSafeSpec RegionSafeProofs CriterionProofs MetricSpec.
Local Open Scope Z_scope.

(** ---- numbers ---- *)
Lemma finite_number x : finite_float x -> number x.
Proof. intros [V F]. split; [exact V|]. intros ->. exact F. Qed.
Lemma round_ratio_number s num den : 0 < num -> 0 < den -> number (round_ratio 24 128 s num den).
Proof.
  intros Hn Hd. destruct (round_ratio 24 128 s num den) as [z|z| |z m e] eqn:E; try (split; [reflexivity|discriminate]).
  - unfold round_ratio in E. cbv zeta in E. repeat match type of E with context [if ?b then _ else _] => destruct b end; discriminate E.
  - split; [|discriminate]. pose proof (round_ratio_finite s num den Hn Hd) as F. rewrite E in F. exact (proj1 (F eq_refl)).
Qed.
Lemma round_dyadic_number zs m e : number (round_dyadic 24 128 zs m e).
Proof.
  unfold round_dyadic. destruct (Z.eqb_spec m 0) as [H|H]; [split; [reflexivity|discriminate]|].
  apply round_ratio_number; [apply Z.mul_pos_pos; [lia|apply pow2_pos; lia]|apply pow2_pos; lia].
Qed.
Lemma addf_number_l x y : number x -> finite_float y -> number (addf x y).
Proof.
  intros [Vx Nx] [Vy Fy]. unfold addf, fadd. destruct x as [s|s| |s m e]; [| |congruence|]; destruct y as [t|t| |t k f]; try contradiction; try apply round_dyadic_number; split; try reflexivity; discriminate.
Qed.
Lemma addf_number_r x y : finite_float x -> number y -> number (addf x y).
Proof.
  intros [Vx Fx] [Vy Ny]. unfold addf, fadd. destruct y as [t|t| |t k f]; [| |congruence|]; destruct x as [s|s| |s m e]; try contradiction; try apply round_dyadic_number; split; try reflexivity; discriminate.
Qed.
Lemma fopp_finite x : finite_float x -> finite_float (fopp x).
Proof. intros [V F]. destruct x; try contradiction; split; assumption || exact Logic.I. Qed.
Lemma subf_number x y : number x -> finite_float y -> number (subf x y).
Proof. intros Hx Hy. apply addf_number_l; [exact Hx|now apply fopp_finite]. Qed.
Lemma float_of_int_number z : number (float_of_int z).
Proof. unfold float_of_int. destruct (Z.eqb_spec z 0); [split; [reflexivity|discriminate]|]. apply round_ratio_number; lia. Qed.
Lemma narrowed_number d : d <> S754_nan -> number (float_of_double d).
Proof.
  intros H. destruct d as [s|s| |s m e]; cbn [float_of_double]; try (split; [reflexivity|discriminate]); [congruence|].
  apply round_ratio_number; [apply Z.mul_pos_pos; [lia|apply pow2_pos; lia]|apply pow2_pos; lia].
Qed.
Lemma round_dyadic_not_nan p emax zs m e : round_dyadic p emax zs m e <> S754_nan.
Proof.
  unfold round_dyadic. destruct (m =? 0); [discriminate|]. destruct (round_ratio_finite_or p emax (m <? 0) (Z.abs m * 2 ^ Z.max 0 e) (2 ^ Z.max 0 (- e))) as [-> |[-> |(a & b & ->)]]; discriminate.
Qed.
Lemma floor_number x : number x -> number (float_of_double (ffloor x)).
Proof. intros [_ N]. apply narrowed_number. destruct x; cbn [ffloor]; try discriminate; [congruence|apply round_dyadic_not_nan]. Qed.
Lemma ceil_number x : number x -> number (float_of_double (fceil x)).
Proof. intros [_ N]. apply narrowed_number. destruct x; cbn [fceil]; try discriminate; [congruence|apply round_dyadic_not_nan]. Qed.
Lemma min_number x y : number x -> number y -> number (fMIN x y).
Proof. intros. unfold fMIN. now destruct (flt x y). Qed.
Lemma max_number x y : number x -> number y -> number (fMAX x y).
Proof. intros. unfold fMAX. now destruct (fgt x y). Qed.
Lemma min_finite x y : finite_float x -> finite_float y -> finite_float (fMIN x y).
Proof. intros. unfold fMIN. now destruct (flt x y). Qed.
Lemma max_finite x y : finite_float x -> finite_float y -> finite_float (fMAX x y).
Proof. intros. unfold fMAX. now destruct (fgt x y). Qed.

(** ---- boxes ---- *)
Definition finite_box (b : bounds) : Prop := finite_float (top b) /\ finite_float (bottom b) /\ finite_float (left b) /\ finite_float (right b).
Lemma FLT_MAX_finite : finite_float FLT_MAX.
Proof. split; [vm_compute; reflexivity|exact Logic.I]. Qed.
Lemma start_box : finite_box start_bounds.
Proof. pose proof FLT_MAX_finite as F. pose proof (fopp_finite _ F) as G. exact (conj F (conj G (conj F G))). Qed.
Lemma include_box b x y : finite_box b -> finite_float x -> finite_float y -> finite_box (include b x y).
Proof.
  intros (A & B & C & D) Hx Hy. unfold include, finite_box. cbn [top bottom left right].
  refine (conj (min_finite _ _ A Hy) (conj (max_finite _ _ B Hy) (conj (min_finite _ _ C Hx) (max_finite _ _ D Hx)))).
Qed.
Lemma box_numbers b : finite_box b -> number_bounds b.
Proof. intros (A & B & C & D). exact (conj (finite_number _ A) (conj (finite_number _ B) (conj (finite_number _ C) (finite_number _ D)))). Qed.
(** ---- any floats ---- *)
Definition single_bounds (b : bounds) : Prop := single (top b) /\ single (bottom b) /\ single (left b) /\ single (right b).
Lemma number_single x : number x -> single x.
Proof. intros [V _]. exact V. Qed.
Lemma add_single x y : single x -> single y -> single (addf x y).
Proof.
  intros Vx Vy. unfold addf, fadd. destruct x as [s|s| |s m e], y as [t|t| |t k f]; try exact Vx; try exact Vy; try reflexivity; try (apply round_dyadic_number). destruct (Bool.eqb s t); reflexivity.
Qed.
Lemma sub_single x y : single x -> single y -> single (subf x y).
Proof. intros Vx Vy. apply add_single; [exact Vx|]. destruct y; exact Vy. Qed.
Lemma narrowed_single d : single (float_of_double d).
Proof. destruct d as [s|s| |s m e]; try reflexivity. apply narrowed_number. discriminate. Qed.
Lemma min_single x y : single x -> single y -> single (fMIN x y).
Proof. intros. unfold fMIN. now destruct (flt x y). Qed.
Lemma max_single x y : single x -> single y -> single (fMAX x y).
Proof. intros. unfold fMAX. now destruct (fgt x y). Qed.
Lemma numbers_single b : number_bounds b -> single_bounds b.
Proof. intros ([A _] & [B _] & [C _] & [D _]). exact (conj A (conj B (conj C D))). Qed.
Lemma polygon_single pts : Forall (fun p => single (fst p) /\ single (snd p)) pts -> single_bounds (bounds_polygon pts).
Proof.
  unfold bounds_polygon. pose proof (numbers_single _ (box_numbers _ start_box)) as S0. revert S0. generalize start_bounds as b. induction pts as [|p pts IH]; intros b (A & B & C & D) H; [exact (conj A (conj B (conj C D)))|].
  inversion H as [|? ? [Hx Hy] H']; subst. cbn [fold_left]. apply IH; [|exact H']. unfold include, single_bounds. cbn [top bottom left right].
  exact (conj (min_single _ _ A Hy) (conj (max_single _ _ B Hy) (conj (min_single _ _ C Hx) (max_single _ _ D Hx)))).
Qed.
Lemma rectangle_single legacy x y w h : single x -> single y -> single w -> single h -> single_bounds (bounds_rectangle legacy x y w h).
Proof.
  intros Hx Hy Hw Hh. assert (O : single float_one) by (vm_compute; reflexivity). unfold bounds_rectangle. destruct legacy; unfold single_bounds; cbn [top bottom left right].
  - exact (conj Hy (conj (add_single _ _ Hy Hh) (conj Hx (add_single _ _ Hx Hw)))).
  - exact (conj Hy (conj (sub_single _ _ (add_single _ _ Hy Hh) O) (conj Hx (sub_single _ _ (add_single _ _ Hx Hw) O)))).
Qed.

(** Rows and columns of a mask that is read without undefined behaviour are ints *)
Lemma for_range_within {A} (P : A -> Prop) body n : forall i s s', (forall k s s', i <= k -> P s -> body k s = Ok s' -> P s') -> P s ->
  for_range n i body s = Ok s' -> P s'.
Proof.
  induction n as [|n IH]; intros i s s' B Hs E; cbn [for_range] in E; [injection E as <-; exact Hs|].
  destruct (body i s) as [s1| | |] eqn:E1; try discriminate. cbn [obind] in E.
  refine (IH (i + 1) s1 s' _ (B i s s1 ltac:(lia) Hs E1) E). intros k t t' Hk. apply B. lia.
Qed.
Lemma fl_pow p emax j : fmt p emax -> fmin p emax <= j <= emax - p -> fl p emax (2 ^ (j + SH)).
Proof. intros (F1 & _) H. exists 1, j. split; [ring|]. split; [|exact H]. change (Z.abs 1) with (2 ^ 0). apply Z.pow_lt_mono_r; lia. Qed.
Lemma float_of_int_s z : exists zs, float_of_int z = round_s 24 128 zs z 1.
Proof. exists false. reflexivity. Qed.
Lemma fmt24 : fmt 24 128.
Proof. unfold fmt, fmin, SH. lia. Qed.
Lemma int_between z : Z.abs z <= 2 ^ 32 -> finite_float (float_of_int z) /\ - 2 ^ (32 + SH) <= units (float_of_int z) <= 2 ^ (32 + SH).
Proof.
  intros H. destruct (float_of_int_s z) as [zs E]. pose proof (fl_pow 24 128 32 fmt24 ltac:(unfold fmin; lia)) as L.
  assert (B : below (float_of_int z) (2 ^ (32 + SH))).
  { rewrite E. apply round_s_below; [exact fmt24|lia|exact L|]. rewrite Z.mul_1_l, Z.pow_add_r by (unfold SH; lia). apply Z.mul_le_mono_nonneg_r; [pose proof pow_SH_pos; lia|lia]. }
  assert (A : above (float_of_int z) (- 2 ^ (32 + SH))).
  { rewrite E. apply round_s_above; [exact fmt24|lia|apply fl_opp; exact L|]. rewrite Z.mul_1_l, Z.pow_add_r by (unfold SH; lia). rewrite <- Z.mul_opp_l. apply Z.mul_le_mono_nonneg_r; [pose proof pow_SH_pos; lia|lia]. }
  destruct (above_below_finite _ _ _ A B) as (F & _ & R). split; [|exact R].
  pose proof (float_of_int_number z) as [V _]. split; [exact V|]. now destruct (float_of_int z).
Qed.
Lemma int_small z : in_int z = true -> Z.abs z <= 2 ^ 32.
Proof. intros H. apply GeomProofs.in_int_iff in H. change (2 ^ 32) with 4294967296. unfold INT_MIN, INT_MAX in H. lia. Qed.
Lemma obind_inv {A B} (m : outcome A) (f : A -> outcome B) b : obind m f = Ok b -> exists a, m = Ok a /\ f a = Ok b.
Proof. destruct m as [a| | |]; intros H; try discriminate H. exists a. split; [reflexivity|exact H]. Qed.
Lemma int_result_inv z v : int_result z = Ok v -> v = z /\ in_int z = true.
Proof. unfold int_result. destruct (in_int z); [|discriminate]. intros [= <-]. split; reflexivity. Qed.
Lemma mask_box x y w h data b : bounds_mask x y w h data = Ok b -> number_bounds b.
Proof.
  unfold bounds_mask. intros E. apply obind_inv in E as (b0 & E0 & E). injection E as <-.
  assert (F : finite_box b0).
  { refine (for_range_within finite_box _ _ 0 _ _ _ start_box E0). intros i s s' Hi Hs Er. unfold mask_row_step in Er.
    destruct (Z_le_gt_dec w 0) as [Hw|Hw].
    { replace (Z.to_nat w) with 0%nat in Er by lia. cbn [for_range] in Er. injection Er as <-. exact Hs. }
    refine (for_range_within finite_box _ _ 0 _ _ _ Hs Er). intros j t t' Hj Ht Ep. unfold mask_pixel_step in Ep.
    apply obind_inv in Ep as (v & Ev & Ep). injection Ep as <-. destruct (v =? 0)%N; [exact Ht|]. unfold pixel in Ev.
    apply obind_inv in Ev as (a & Ea & Ev). apply obind_inv in Ev as (k & Ek & Ev). apply int_result_inv in Ea as [-> Ia]. apply int_result_inv in Ek as [-> Ik].
    apply GeomProofs.in_int_iff in Ia, Ik. unfold INT_MIN, INT_MAX in Ia, Ik.
    destruct (Z.leb_spec 0 (j + i * w)) as [K|]; [|discriminate].
    assert (Bi : i <= i * w) by nia.
    apply include_box; [exact Ht| |]; apply int_between; change (2 ^ 32) with 4294967296; lia. }
  destruct F as (A & B & C & D). unfold number_bounds, shift_bounds. cbn [top bottom left right].
  refine (conj _ (conj _ (conj _ _))); apply addf_number_r; try assumption; apply float_of_int_number.
Qed.

(** ---- boxes of regions ---- *)
Lemma region_single legacy r b : single_region r -> compute_bounds legacy r = Ok b -> single_bounds b.
Proof.
  intros F E. destruct r as [c|x y w h|pts|x y w h data]; cbn [compute_bounds single_region] in *.
  - injection E as <-. pose proof FLT_MAX_finite as M. pose proof (fopp_finite _ M) as M'. apply numbers_single, box_numbers. exact (conj M' (conj M (conj M' M))).
  - injection E as <-. destruct F as (A & B & C & D). now apply rectangle_single.
  - injection E as <-. now apply polygon_single.
  - apply numbers_single. exact (mask_box _ _ _ _ _ _ E).
Qed.
(** A NaN disappears when it is compared with the bounds *)
Lemma max_inside x b : single x -> number b -> number (fMAX x b).
Proof. intros Vx Nb. unfold fMAX. destruct (fgt x b) eqn:G; [|exact Nb]. split; [exact Vx|]. intros ->. discriminate. Qed.
Lemma min_inside x b : single x -> number b -> number (fMIN x b).
Proof. intros Vx Nb. unfold fMIN. destruct (flt x b) eqn:G; [|exact Nb]. split; [exact Vx|]. intros ->. discriminate. Qed.
Lemma clipped_numbers legacy r bnd b : single_region r -> number_bounds bnd -> clipped_box legacy r bnd = Ok b -> number_bounds b.
Proof.
  intros F (A' & B' & C' & D') E. unfold clipped_box in E. apply obind_inv in E as (b0 & E0 & E). injection E as <-.
  pose proof (region_single _ _ _ F E0) as (A & B & C & D). unfold number_bounds, bounds_intersection. cbn [top bottom left right].
  destruct legacy; unfold bounds_round; cbn [top bottom left right]; (split; [|split; [|split]]); (apply max_inside || apply min_inside); try assumption; apply narrowed_single.
Qed.

(** ---- equality up to the sign of zero ---- *)
Definition veq (x y : spec_float) : Prop := x = y \/ exists s t, x = S754_zero s /\ y = S754_zero t.
Lemma veq_refl x : veq x x.
Proof. left. reflexivity. Qed.
Lemma veq_sym x y : veq x y -> veq y x.
Proof. intros [-> |(s & t & -> & ->)]; [left; reflexivity|right; eauto]. Qed.
Lemma number_finite s m e : number (S754_finite s m e) -> finite_float (S754_finite s m e).
Proof. intros [V _]. split; [exact V|exact Logic.I]. Qed.
Lemma zero_float s : finite_float (S754_zero s).
Proof. split; [reflexivity|exact Logic.I]. Qed.
Lemma units_veq x y : finite_float x -> finite_float y -> units x = units y -> veq x y.
Proof.
  intros [Vx Fx] [Vy Fy] E. destruct x as [s| | |s m e]; try contradiction; destruct y as [t| | |t k f]; try contradiction.
  - right. eauto.
  - exfalso. cbn [units] in E. apply valid_bounds in Vy as (_ & B & _). pose proof (pow2_pos (f + 1074) ltac:(lia)). destruct t; nia.
  - exfalso. cbn [units] in E. apply valid_bounds in Vx as (_ & B & _). pose proof (pow2_pos (e + 1074) ltac:(lia)). destruct s; nia.
  - left. cbn [units] in E. apply valid_bounds in Vx as (X1 & X2 & X3), Vy as (Y1 & Y2 & Y3).
    pose proof (pow2_pos (f + 1074) ltac:(lia)) as P1. pose proof (pow2_pos (e + 1074) ltac:(lia)) as P2.
    assert (S1 : s = t /\ Z.pos m * 2 ^ (e + 1074) = Z.pos k * 2 ^ (f + 1074)).
    { set (u := 2 ^ (e + 1074)) in *. set (v := 2 ^ (f + 1074)) in *. clearbody u v. clear - E P1 P2. destruct s, t; split; try reflexivity; nia. }
    destruct S1 as [-> S2]. destruct (same_mantissa k f m e Y1 (proj1 Y2) Y3 X1 (proj1 X2) X3 S2) as [-> ->]. reflexivity.
Qed.
Lemma fcmp_swap x y : number x -> number y -> fcmp y x = match fcmp x y with Some c => Some (CompOpp c) | None => None end.
Proof.
  intros Nx Ny. destruct x as [s|s| |s m e]; [| |now destruct Nx|]; (destruct y as [t|t| |t k f]; [| |now destruct Ny|]);
    try (rewrite !fcmp_units by (apply zero_float || now apply number_finite); rewrite Z.compare_antisym; reflexivity);
    try (destruct s, t; reflexivity); try (destruct s; reflexivity); destruct t; reflexivity.
Qed.
Lemma some_eq (c d : comparison) : Some c = Some d -> c = d.
Proof. congruence. Qed.
Lemma fcmp_eq x y : number x -> number y -> fcmp x y = Some Eq -> veq x y.
Proof.
  intros Nx Ny. destruct x as [s|s| |s m e]; [| |now destruct Nx|]; (destruct y as [t|t| |t k f]; [| |now destruct Ny|]);
    try (rewrite !fcmp_units by (apply zero_float || now apply number_finite); intros H; apply some_eq, Z.compare_eq in H; apply units_veq; [apply zero_float || now apply number_finite|apply zero_float || now apply number_finite|exact H]);
    cbn [fcmp]; intros H; destruct s, t; (discriminate H || (left; reflexivity)).
Qed.
Lemma fcmp_some x y : number x -> number y -> fcmp x y <> None.
Proof. intros [_ Nx] [_ Ny]. destruct x; [| |congruence|]; (destruct y; [| |congruence|]); discriminate. Qed.
Lemma min_comm x y : number x -> number y -> veq (fMIN x y) (fMIN y x).
Proof.
  intros Nx Ny. unfold fMIN, flt. rewrite (fcmp_swap x y Nx Ny). pose proof (fcmp_some _ _ Nx Ny) as S0. pose proof (fcmp_eq _ _ Nx Ny) as E.
  destruct (fcmp x y) as [[| |]|]; cbn [CompOpp]; try apply veq_refl; [|congruence]. apply veq_sym. apply E. reflexivity.
Qed.
Lemma max_comm x y : number x -> number y -> veq (fMAX x y) (fMAX y x).
Proof.
  intros Nx Ny. unfold fMAX, fgt. rewrite (fcmp_swap x y Nx Ny). pose proof (fcmp_some _ _ Nx Ny) as S0. pose proof (fcmp_eq _ _ Nx Ny) as E.
  destruct (fcmp x y) as [[| |]|]; cbn [CompOpp]; try apply veq_refl; [|congruence]. apply veq_sym. apply E. reflexivity.
Qed.
Lemma int_veq x y : veq x y -> int_of_float x = int_of_float y.
Proof. intros [-> |(s & t & -> & ->)]; reflexivity. Qed.
Lemma dyadic_veq zs zt m e : veq (round_dyadic 24 128 zs m e) (round_dyadic 24 128 zt m e).
Proof. unfold round_dyadic. destruct (m =? 0); [right; eauto|left; reflexivity]. Qed.
Lemma add_veq x y x' y' : veq x x' -> veq y y' -> veq (addf x y) (addf x' y').
Proof.
  intros [-> |(s & s' & -> & ->)] [-> |(t & t' & -> & ->)]; [apply veq_refl| | |]; unfold addf, fadd.
  - destruct x'; try apply veq_refl; apply dyadic_veq.
  - destruct y'; try apply veq_refl; apply dyadic_veq.
  - apply dyadic_veq.
Qed.
Lemma opp_veq x y : veq x y -> veq (fopp x) (fopp y).
Proof. intros [-> |(s & t & -> & ->)]; [apply veq_refl|right; cbn [fopp]; eauto]. Qed.
Lemma sub_veq x y x' y' : veq x x' -> veq y y' -> veq (subf x y) (subf x' y').
Proof. intros Hx Hy. apply add_veq; [exact Hx|now apply opp_veq]. Qed.
Lemma mul_veq x y x' y' : veq x x' -> veq y y' -> veq (mulf x y) (mulf x' y').
Proof.
  intros [-> |(s & s' & -> & ->)] [-> |(t & t' & -> & ->)]; [apply veq_refl| | |]; unfold mulf, fmul.
  - destruct x'; try apply veq_refl; apply dyadic_veq.
  - destruct y'; try apply veq_refl; apply dyadic_veq.
  - apply dyadic_veq.
Qed.
Lemma add_comm x y : addf x y = addf y x.
Proof.
  unfold addf, fadd. destruct x as [s|s| |s m e], y as [t|t| |t k f]; try reflexivity.
  - now rewrite Bool.andb_comm.
  - rewrite Z.min_comm, Z.add_comm, Bool.andb_comm. reflexivity.
  - destruct s, t; reflexivity.
  - rewrite Z.min_comm, Z.add_comm, Bool.andb_comm. reflexivity.
  - rewrite Z.min_comm, Z.add_comm, Bool.andb_comm. reflexivity.
Qed.
Lemma area_veq a b : number_bounds a -> number_bounds b -> veq (bounds_area (bounds_intersection a b)) (bounds_area (bounds_intersection b a)).
Proof.
  intros (A & B & C & D) (A' & B' & C' & D'). unfold bounds_area, bounds_intersection. cbn [top bottom left right].
  apply mul_veq; apply sub_veq; (apply min_comm || apply max_comm); assumption.
Qed.
Lemma sum_zero_sign u s t : (exists a b, subf u (S754_zero s) = S754_zero a /\ subf u (S754_zero t) = S754_zero b) \/ subf u (S754_zero s) = subf u (S754_zero t).
Proof. destruct (sub_veq u (S754_zero s) u (S754_zero t) (veq_refl u)) as [H|(a & b & H1 & H2)]; [right; eauto|now right|left; eauto]. Qed.
Lemma disjoint_sym a b : number_bounds a -> number_bounds b -> feq (bounds_overlap a b) fzero = feq (bounds_overlap b a) fzero.
Proof.
  intros Na Nb. unfold bounds_overlap. cbv zeta. rewrite (add_comm (bounds_area b) (bounds_area a)). set (u := addf (bounds_area a) (bounds_area b)).
  destruct (area_veq a b Na Nb) as [-> |(s & t & -> & ->)]; [reflexivity|].
  destruct (sum_zero_sign u s t) as [(x & y & -> & ->)| ->]; [reflexivity|].
  generalize (subf u (S754_zero t)) as d. intros d. unfold divf, fdiv. destruct d as [z|z| |z m e]; try reflexivity; destruct s, t, z; reflexivity.
Qed.

(** ---- symmetry ---- *)
Lemma pairs_swap l1 : forall l2, count_pairs l2 l1 = let '(a, b, c) := count_pairs l1 l2 in (b, a, c).
Proof.
  induction l1 as [|x l1 IH]; intros l2; [now destruct l2|]. destruct l2 as [|y l2]; [reflexivity|]. cbn [count_pairs]. rewrite (IH l2).
  destruct (count_pairs l1 l2) as [[a b] c]. destruct (x =? 0)%N, (y =? 0)%N; reflexivity.
Qed.
Lemma disjoint_swap legacy ra rb b1 b2 o : overlap_disjoint legacy ra rb b1 b2 = Ok o -> overlap_disjoint legacy rb ra b2 b1 = Ok (swapped o).
Proof.
  unfold overlap_disjoint. intros E. apply obind_inv in E as (v1 & E1 & E). apply obind_inv in E as (v2 & E2 & E). apply obind_inv in E as (t & Et & E).
  injection E as <-. rewrite E2. cbn [obind]. rewrite E1. cbn [obind]. rewrite Z.add_comm, Et. reflexivity.
Qed.
Lemma window_swap legacy ra rb x y w h o : overlap_window legacy ra rb x y w h = Ok o -> overlap_window legacy rb ra x y w h = Ok (swapped o).
Proof.
  unfold overlap_window. intros E. apply obind_inv in E as (m1 & E1 & E). apply obind_inv in E as (m2 & E2 & E). rewrite E1 in E2. injection E2 as <-.
  apply obind_inv in E as (n1 & F1 & E). apply obind_inv in E as (n2 & F2 & E). apply obind_inv in E as (l1 & G1 & E). apply obind_inv in E as (l2 & G2 & E).
  rewrite E1. cbn [obind]. rewrite F2. cbn [obind]. rewrite F1. cbn [obind]. rewrite G2. cbn [obind]. rewrite G1. cbn [obind].
  rewrite (pairs_swap l1 l2). destruct (count_pairs l1 l2) as [[a b] c]. apply obind_inv in E as (t & Et & E). injection E as <-.
  rewrite (Z.add_comm b a), Et. reflexivity.
Qed.
Lemma overlap_symmetric legacy ra rb bnd o : single_region ra -> single_region rb -> number_bounds bnd ->
  compute_overlap legacy ra rb bnd = Ok o -> compute_overlap legacy rb ra bnd = Ok (swapped o).
Proof.
  intros Fa Fb Nb. unfold compute_overlap. intros E. apply obind_inv in E as (b1 & E1 & E). apply obind_inv in E as (b2 & E2 & E).
  pose proof (clipped_numbers _ _ _ _ Fa Nb E1) as N1. pose proof (clipped_numbers _ _ _ _ Fb Nb E2) as N2. rewrite E2. cbn [obind]. rewrite E1. cbn [obind]. clear E1 E2.
  pose proof N1 as (A1 & B1 & C1 & D1). pose proof N2 as (A2 & B2 & C2 & D2).
  apply obind_inv in E as (x & Ex & E). rewrite (int_veq _ _ (min_comm _ _ C2 C1)), Ex. cbn [obind].
  apply obind_inv in E as (y & Ey & E). rewrite (int_veq _ _ (min_comm _ _ A2 A1)), Ey. cbn [obind].
  apply obind_inv in E as (w & Ew & E). rewrite (int_veq _ _ (sub_veq _ _ _ _ (max_comm _ _ D2 D1) (veq_refl (float_of_int x)))), Ew. cbn [obind].
  apply obind_inv in E as (width & Ewi & E). rewrite Ewi. cbn [obind].
  apply obind_inv in E as (h & Eh & E). rewrite (int_veq _ _ (sub_veq _ _ _ _ (max_comm _ _ B2 B1) (veq_refl (float_of_int y)))), Eh. cbn [obind].
  apply obind_inv in E as (height & Ehi & E). rewrite Ehi. cbn [obind]. cbv zeta in *.
  rewrite (Bool.orb_comm (flt (divd (bounds_area b2) (bounds_area b1)) ratio_limit)). destruct (_ || _ || _ || _); [injection E as <-; reflexivity|].
  rewrite (disjoint_sym b2 b1 N2 N1). destruct (feq _ _); [now apply disjoint_swap|now apply window_swap].
Qed.

(** ---- the range ---- *)
Lemma rne_mono a a' b : 0 < b -> a <= a' -> rne a b <= rne a' b.
Proof.
  intros Hb H. destruct (Z.eq_dec a a') as [->|Hn]; [lia|]. pose proof (rne_bound a b Hb) as R. pose proof (rne_bound a' b Hb) as R'. nia.
Qed.
Lemma fl24_min : - SH <= fmin 24 128.
Proof. unfold fmin, SH. lia. Qed.
Lemma pow_le_inv a b : 2 ^ a <= 2 ^ b -> 0 <= a -> 0 <= b -> a <= b.
Proof. intros H Ha Hb. destruct (Z.le_gt_cases a b) as [|L]; [assumption|]. pose proof (Z.pow_lt_mono_r 2 b a ltac:(lia) ltac:(lia) L). lia. Qed.
Lemma pow_lt_inv a b : 2 ^ a < 2 ^ b -> 0 <= b -> a < b.
Proof. intros H Hb. destruct (Z.lt_ge_cases a b) as [|L]; [assumption|]. pose proof (Z.pow_le_mono_r 2 b a ltac:(lia) L). lia. Qed.
Lemma int_mono a t : 0 <= a <= t -> t <= 2 ^ 32 -> units (float_of_int a) <= units (float_of_int t).
Proof.
  intros H Ht. pose proof pow_SH_pos as P. destruct (int_between a ltac:(lia)) as [Fa _]. destruct (int_between t ltac:(lia)) as [Ft _].
  apply finite_float_finite in Fa as [Fa Ea]. apply finite_float_finite in Ft as [Ft Et]. change units with fixed.
  assert (Zero : 0 <= fixed (float_of_int t)).
  { destruct (float_of_int_s t) as [zs E]. destruct (round_s_above 24 128 zs t 1 0 fmt24 ltac:(lia) (fl_0 _ _ fmt24) ltac:(nia)) as [(_ & _ & A)|A]; rewrite <- E in A; [exact A|rewrite A in Ft; discriminate]. }
  destruct (Z.eq_dec a 0) as [->|Hz]; [exact Zero|]. clear Zero.
  assert (Ra : float_of_int a = round_ratio 24 128 false a 1) by (unfold float_of_int; destruct (Z.eqb_spec a 0); [lia|]; replace (a <? 0) with false by (symmetry; apply Z.ltb_ge; lia); f_equal; lia).
  assert (Rt : float_of_int t = round_ratio 24 128 false t 1) by (unfold float_of_int; destruct (Z.eqb_spec t 0); [lia|]; replace (t <? 0) with false by (symmetry; apply Z.ltb_ge; lia); f_equal; lia).
  rewrite Ra, Rt in *. pose proof (ratio_exp_spec 24 128 a 1 ltac:(lia) fl24_min ltac:(lia) ltac:(lia)) as (A1 & A2 & A3).
  pose proof (ratio_exp_spec 24 128 t 1 ltac:(lia) fl24_min ltac:(lia) ltac:(lia)) as (B1 & B2 & B3). cbv zeta in *.
  pose proof (round_ratio_value 24 128 a 1 ltac:(lia) fl24_min ltac:(lia) ltac:(lia) Fa) as Va. pose proof (round_ratio_value 24 128 t 1 ltac:(lia) fl24_min ltac:(lia) ltac:(lia) Ft) as Vt.
  cbv zeta in *. set (ea := ratio_exp 24 128 a 1) in *. set (et := ratio_exp 24 128 t 1) in *. pose proof fl24_min as Hmin. unfold fmin in A1, B1, A3, B3. clearbody ea et.
  rewrite Z.mul_1_l in *. assert (M : a * 2 ^ SH <= t * 2 ^ SH) by (apply Z.mul_le_mono_nonneg_r; lia).
  destruct (Z.lt_trichotomy ea et) as [L|[L|L]].
  - destruct B3 as [B3|B3]; [lia|]. rewrite ?Z.mul_1_l in B3. assert (Up : et <= 40).
    { assert (Q : 2 ^ (24 - 1 + et + SH) <= 2 ^ (32 + SH)) by (rewrite (Z.pow_add_r 2 32) by (unfold SH; lia); pose proof (Z.mul_le_mono_nonneg_r t (2 ^ 32) (2 ^ SH) ltac:(lia) Ht); lia). apply pow_le_inv in Q; unfold SH in *; lia. }
    assert (FL : fl 24 128 (2 ^ (24 - 1 + et + SH))) by (apply fl_pow; [exact fmt24|unfold fmin; lia]).
    assert (Q : 2 ^ (24 + ea + SH) <= 2 ^ (24 - 1 + et + SH)) by (apply Z.pow_le_mono_r; lia).
    set (v := 2 ^ (24 - 1 + et + SH)) in *. set (u := 2 ^ (24 + ea + SH)) in *. assert (W1 : a * 2 ^ SH <= 1 * v) by (generalize dependent (2 ^ SH); intros; lia). assert (W2 : 1 * v <= t * 2 ^ SH) by (generalize dependent (2 ^ SH); intros; lia). clearbody u v.
    destruct (round_ratio_below 24 128 false a 1 v fmt24 ltac:(lia) ltac:(lia) FL W1) as (_ & _ & X).
    destruct (round_ratio_above 24 128 false t 1 v fmt24 ltac:(lia) ltac:(lia) FL W2) as [(_ & _ & Y)|Y]; [lia|rewrite Y in Ft; discriminate].
  - subst et. rewrite Va, Vt. apply Z.mul_le_mono_nonneg_r; [apply Z.lt_le_incl, pow2_pos; unfold SH; lia|]. apply rne_mono; [apply scale_den_pos; lia|].
    unfold scale_num. apply Z.mul_le_mono_nonneg_r; [apply Z.lt_le_incl, pow2_pos; lia|lia].
  - exfalso. destruct A3 as [A3|A3]; [lia|]. rewrite ?Z.mul_1_l in A3. pose proof (Z.pow_le_mono_r 2 (24 + et + SH) (24 - 1 + ea + SH) ltac:(lia) ltac:(lia)). lia.
Qed.
Lemma int_one t : 1 <= t -> t <= 2 ^ 32 -> 2 ^ SH <= units (float_of_int t).
Proof.
  intros H Ht. pose proof (int_mono 1 t ltac:(lia) Ht) as M. replace (units (float_of_int 1)) with (2 ^ SH) in M; [exact M|].
  destruct (rep_float_of_int 1 ltac:(lia)) as (_ & _ & V). change units with fixed. rewrite V. ring.
Qed.
Lemma fl_one : fl 24 128 (2 ^ SH).
Proof. exact (fl_pow 24 128 0 fmt24 ltac:(unfold fmin; lia)). Qed.
Lemma div_fraction x y : finite_float x -> finite_float y -> 0 <= units x <= units y -> 0 < units y ->
  fraction (divf x y) /\ (units x = units y -> units (divf x y) = 2 ^ 1074) /\ (units x = 0 -> units (divf x y) = 0).
Proof.
  intros Fx Fy Hx Hy. change (2 ^ 1074) with (2 ^ SH). pose proof pow_SH_pos as P. pose proof (finite_float_finite _ Fx) as [X1 X2]. pose proof (finite_float_finite _ Fy) as [Y1 Y2].
  change units with fixed in *. destruct (fdiv_s 24 128 x y X1 Y1 X2 Y2 ltac:(lia)) as (zs & num & den & E & D & Q). fold divf in E.
  assert (N0 : 0 <= num) by nia. assert (N1 : num <= den) by nia.
  pose proof (round_s_above 24 128 zs num den 0 fmt24 D (fl_0 _ _ fmt24) ltac:(nia)) as A.
  pose proof (round_s_below 24 128 zs num den (2 ^ SH) fmt24 D fl_one ltac:(nia)) as B.
  destruct (above_below_finite _ _ _ A B) as (F & _ & R). rewrite <- E in F, R.
  assert (V : number (divf x y)).
  { rewrite E. unfold round_s. destruct (Z.eqb_spec num 0); [split; [reflexivity|discriminate]|]. apply round_ratio_number; lia. }
  assert (FF : finite_float (divf x y)) by (split; [exact (proj1 V)|destruct (divf x y); try discriminate F; exact Logic.I]).
  split; [split; [exact FF|exact R]|]. split; intros Heq.
  - pose proof (round_s_above 24 128 zs num den (2 ^ SH) fmt24 D fl_one ltac:(nia)) as A'. destruct (above_below_finite _ _ _ A' B) as (_ & _ & R'). rewrite <- E in R'. lia.
  - pose proof (round_s_below 24 128 zs num den 0 fmt24 D (fl_0 _ _ fmt24) ltac:(nia)) as B'. destruct (above_below_finite _ _ _ A B') as (_ & _ & R'). rewrite <- E in R'. lia.
Qed.
Lemma share a t : 0 <= a <= t -> 0 < t -> in_int t = true -> fraction (divf (float_of_int a) (float_of_int t)) /\
  (a = t -> units (divf (float_of_int a) (float_of_int t)) = 2 ^ 1074) /\ (a = 0 -> units (divf (float_of_int a) (float_of_int t)) = 0).
Proof.
  intros H Ht I. apply int_small in I. pose proof (int_mono a t H ltac:(lia)) as M. pose proof (int_one t ltac:(lia) ltac:(lia)) as O. pose proof pow_SH_pos as P.
  destruct (int_between a ltac:(lia)) as [Fa _]. destruct (int_between t ltac:(lia)) as [Ft _]. pose proof (int_mono 0 a ltac:(lia) ltac:(lia)) as M0. change (units (float_of_int 0)) with 0 in M0.
  destruct (div_fraction _ _ Fa Ft ltac:(lia) ltac:(lia)) as (D1 & D2 & D3). split; [exact D1|]. split; [intros ->; now apply D2|]. intros ->. apply D3. reflexivity.
Qed.
Lemma count_nonneg m : forall i bound n, count_while m i bound = Ok n -> 0 <= n.
Proof.
  induction m as [|c m IH]; intros i bound n; cbn [count_while]; (destruct (flt _ _); [|intros [= <-]; lia]); [discriminate|].
  destruct c as [v|]; [|discriminate]. intros E. apply obind_inv in E as (k & Ek & E). injection E as <-. apply IH in Ek. destruct (v =? 0)%N; lia.
Qed.
Lemma volume_nonneg legacy r b v : box_volume legacy r b = Ok v -> 0 <= v.
Proof.
  unfold box_volume. intros E. do 6 (apply obind_inv in E as (? & _ & E)). exact (count_nonneg _ _ _ _ E).
Qed.
Lemma pairs_nonneg l1 : forall l2 a b c, count_pairs l1 l2 = (a, b, c) -> 0 <= a /\ 0 <= b /\ 0 <= c.
Proof.
  induction l1 as [|x l1 IH]; intros l2 a b c; [cbn [count_pairs]; intros [= <- <- <-]; lia|]. destruct l2 as [|y l2]; [cbn [count_pairs]; intros [= <- <- <-]; lia|].
  cbn [count_pairs]. destruct (count_pairs l1 l2) as [[a0 b0] c0] eqn:E. apply IH in E. destruct (x =? 0)%N, (y =? 0)%N; cbn [negb andb]; intros H; apply pair_equal_spec in H as [H <-]; apply pair_equal_spec in H as [<- <-]; lia.
Qed.
Lemma zeros_fraction : fractions (mkOverlap fzero fzero fzero).
Proof. assert (F : fraction fzero) by (split; [exact zero_finite|split; [cbn; lia|apply Z.lt_le_incl, pow_SH_pos]]). exact (conj F (conj F F)). Qed.
Lemma overlap_range legacy ra rb bnd o : compute_overlap legacy ra rb bnd = Ok o -> fractions o \/ nothing_counted o.
Proof.
  unfold compute_overlap. intros E. do 8 (apply obind_inv in E as (? & _ & E)). cbv zeta in E. destruct (_ || _ || _ || _); [injection E as <-; left; exact zeros_fraction|]. destruct (feq _ _).
  - unfold overlap_disjoint in E. apply obind_inv in E as (v1 & E1 & E). apply obind_inv in E as (v2 & E2 & E). apply obind_inv in E as (t & Et & E). injection E as <-.
    apply volume_nonneg in E1, E2. apply int_result_inv in Et as [-> I]. destruct (Z.eq_dec (v1 + v2) 0) as [Z0|Z0].
    + right. assert (v1 = 0) by lia. assert (v2 = 0) by lia. subst. split; [reflexivity|]. split; [reflexivity|right; reflexivity].
    + left. split; [exact (proj1 zeros_fraction)|]. split; apply share; lia || assumption.
  - unfold overlap_window in E. do 6 (apply obind_inv in E as (? & _ & E)). destruct (count_pairs _ _) as [[a b] c] eqn:C. apply pairs_nonneg in C.
    apply obind_inv in E as (t & Et & E). injection E as <-. apply int_result_inv in Et as [-> I]. destruct (Z.eq_dec (a + b + c) 0) as [Z0|Z0].
    + right. assert (a = 0) by lia. assert (b = 0) by lia. assert (c = 0) by lia. subst. split; [reflexivity|]. split; [reflexivity|left; reflexivity].
    + left. split; [|split]; apply share; lia || assumption.
Qed.

(** ---- order of numbers ---- *)
Definition rank (x : spec_float) : Z := match x with S754_infinity s => if s then - 2 ^ 1300 else 2 ^ 1300 | _ => units x end.
Lemma units_small x : finite_float x -> - 2 ^ 1300 < units x < 2 ^ 1300.
Proof.
  intros [V F]. destruct x as [s| | |s m e]; try contradiction; cbn [units].
  - split; [apply Z.opp_neg_pos|]; apply pow2_pos; lia.
  - apply valid_bounds in V as (V1 & V2 & _). pose proof (pow2_pos (e + 1074) ltac:(lia)) as P.
    assert (Q : Z.pos m * 2 ^ (e + 1074) < 2 ^ 1300).
    { apply Z.lt_le_trans with (2 ^ 24 * 2 ^ (e + 1074)); [apply Z.mul_lt_mono_pos_r; assumption|]. rewrite <- Z.pow_add_r by lia. apply Z.pow_le_mono_r; lia. }
    set (u := Z.pos m * 2 ^ (e + 1074)) in *. assert (0 < u) by (unfold u; apply Z.mul_pos_pos; lia). set (v := 2 ^ 1300) in *. clearbody u v. destruct s; lia.
Qed.
Lemma number_lt x y : number x -> number y -> flt x y = (rank x <? rank y).
Proof.
  intros Nx Ny.
  assert (C : forall z, number z -> finite_float z \/ exists s, z = S754_infinity s) by (intros z [V N]; destruct z as [s|s| |s m e]; [left; apply zero_float|right; eauto|congruence|left; split; [exact V|exact Logic.I]]).
  assert (P : 0 < 2 ^ 1300) by (apply pow2_pos; lia).
  destruct (C x Nx) as [Fx|(s & ->)], (C y Ny) as [Fy|(t & ->)].
  - rewrite flt_units by assumption. destruct x as [s| | |s m e], y as [t| | |t k f]; try (now destruct Fx); try (now destruct Fy); reflexivity.
  - pose proof (units_small x Fx) as U. assert (R : rank x = units x) by (destruct x; try reflexivity; now destruct Fx). rewrite R. cbn [rank].
    assert (L : flt x (S754_infinity t) = negb t) by (destruct x as [s| | |s m e]; try (now destruct Fx); destruct t; reflexivity). rewrite L. symmetry. destruct t; cbn [negb]; [apply Z.ltb_ge|apply Z.ltb_lt]; lia.
  - pose proof (units_small y Fy) as U. assert (R : rank y = units y) by (destruct y; try reflexivity; now destruct Fy). rewrite R. cbn [rank].
    assert (L : flt (S754_infinity s) y = s) by (destruct y as [t| | |t m e]; try (now destruct Fy); destruct s; reflexivity). rewrite L. symmetry. destruct s; [apply Z.ltb_lt|apply Z.ltb_ge]; lia.
  - cbn [rank]. symmetry. destruct s, t; cbv; reflexivity.
Qed.
Lemma rank_finite x : finite_float x -> rank x = units x.
Proof. intros [_ F]. destruct x; try reflexivity; contradiction. Qed.
Lemma below_rank x v : number x -> below x v -> - 2 ^ 1300 < v -> rank x <= v.
Proof. intros Nx [(F & _ & H)| ->] Hv; [destruct x; try discriminate F; exact H|cbn [rank]; lia]. Qed.
Lemma above_rank x v : number x -> above x v -> v < 2 ^ 1300 -> v <= rank x.
Proof. intros Nx [(F & _ & H)| ->] Hv; [destruct x; try discriminate F; exact H|cbn [rank]; lia]. Qed.
Lemma fmt53 : fmt 53 1024.
Proof. unfold fmt, fmin, SH. lia. Qed.
Lemma fl_float x : finite_float x -> fl 24 128 (units x) /\ fl 53 1024 (units x).
Proof.
  intros [V F]. destruct x as [s| | |s m e]; try contradiction; [split; apply fl_0; [exact fmt24|exact fmt53]|]. apply valid_bounds in V as (V1 & V2 & _).
  assert (L : 2 ^ 24 < 2 ^ 53) by (apply Z.pow_lt_mono_r; lia).
  split; exists ((if s then -1 else 1) * Z.pos m), e; (split; [cbn [units]; change 1074 with SH; ring|split; [destruct s; lia|unfold fmin; lia]]).
Qed.
(** Narrowing to float keeps the bounds that are floats *)
Lemma narrow_s s m e : exists num den, float_of_double (S754_finite s m e) = round_s 24 128 false num den /\ 0 < den /\ (- SH <= e -> num * 2 ^ SH = den * fixed (S754_finite s m e)).
Proof.
  exists ((if s then -1 else 1) * (Z.pos m * 2 ^ Z.max 0 e)), (2 ^ Z.max 0 (- e)). pose proof (pow2_pos (Z.max 0 e) (Z.le_max_l _ _)) as P1. pose proof (pow2_pos (Z.max 0 (- e)) (Z.le_max_l _ _)) as P2.
  split; [|split; [exact P2|]].
  - cbn [float_of_double]. unfold round_s. assert (Q : 0 < Z.pos m * 2 ^ Z.max 0 e) by (apply Z.mul_pos_pos; lia). set (n := Z.pos m * 2 ^ Z.max 0 e) in *. clearbody n. destruct s.
    + destruct (Z.eqb_spec (-1 * n) 0); [lia|]. replace (-1 * n <? 0) with true by (symmetry; apply Z.ltb_lt; lia). f_equal. lia.
    + destruct (Z.eqb_spec (1 * n) 0); [lia|]. replace (1 * n <? 0) with false by (symmetry; apply Z.ltb_ge; lia). f_equal. lia.
  - intros He. cbn [fixed]. assert (Q : 2 ^ Z.max 0 e * 2 ^ SH = 2 ^ Z.max 0 (- e) * 2 ^ (e + SH)) by (rewrite <- !Z.pow_add_r by (unfold SH in *; lia); f_equal; lia).
    transitivity ((if s then -1 else 1) * Z.pos m * (2 ^ Z.max 0 e * 2 ^ SH)); [ring|]. rewrite Q. ring.
Qed.
Lemma narrow_below d v : below d v -> fl 24 128 v -> below (float_of_double d) v.
Proof.
  intros [(F & E & H)| ->] L; [|right; reflexivity]. destruct d as [s| | |s m e]; try discriminate F; [left; split; [reflexivity|]; split; [cbn; unfold SH; lia|exact H]|].
  destruct (narrow_s s m e) as (num & den & -> & D & Q). specialize (Q E). apply round_s_below; [exact fmt24|exact D|exact L|]. rewrite Q. apply Z.mul_le_mono_nonneg_l; lia.
Qed.
Lemma narrow_above d v : above d v -> fl 24 128 v -> above (float_of_double d) v.
Proof.
  intros [(F & E & H)| ->] L; [|right; reflexivity]. destruct d as [s| | |s m e]; try discriminate F; [left; split; [reflexivity|]; split; [cbn; unfold SH; lia|exact H]|].
  destruct (narrow_s s m e) as (num & den & -> & D & Q). specialize (Q E). apply round_s_above; [exact fmt24|exact D|exact L|]. rewrite Q. apply Z.mul_le_mono_nonneg_l; lia.
Qed.
Lemma floor_value m e : - SH <= e -> floor_int m e * 2 ^ SH <= m * 2 ^ (e + SH).
Proof.
  intros He. unfold floor_int. destruct (Z.leb_spec 0 e) as [H|H].
  - rewrite <- Z.mul_assoc, <- Z.pow_add_r by (unfold SH; lia). apply Z.le_refl.
  - replace (2 ^ SH) with (2 ^ (- e) * 2 ^ (e + SH)) by (rewrite <- Z.pow_add_r by lia; f_equal; lia). rewrite Z.mul_assoc. apply Z.mul_le_mono_nonneg_r; [apply Z.lt_le_incl, pow2_pos; lia|].
    rewrite Z.mul_comm. apply Z.mul_div_le. apply pow2_pos. lia.
Qed.
Lemma floor_le x : number x -> rank (float_of_double (ffloor x)) <= rank x.
Proof.
  intros Nx. pose proof (floor_number x Nx) as Nf. destruct x as [s|s| |s m e]; [cbn; lia|cbn [ffloor float_of_double]; lia|now destruct Nx|].
  pose proof (number_finite _ _ _ Nx) as F. rewrite (rank_finite _ F). destruct (fl_float _ F) as [L1 L2]. pose proof (units_small _ F) as U. pose proof (finite_float_finite _ F) as [F1 F2].
  apply below_rank; [exact Nf| |lia]. apply narrow_below; [|exact L1]. cbn [ffloor].
  destruct (round_dyadic_s 53 1024 s (floor_int (fmant (S754_finite s m e)) (fexp (S754_finite s m e))) 0 ltac:(unfold SH; lia)) as (num & den & -> & D & Q).
  apply round_s_below; [exact fmt53|exact D|exact L2|]. rewrite Q. apply Z.mul_le_mono_nonneg_l; [lia|]. change (0 + SH) with SH. change units with fixed. rewrite (fixed_mant _ F1). now apply floor_value.
Qed.
Lemma ceil_ge x : number x -> rank x <= rank (float_of_double (fceil x)).
Proof.
  intros Nx. pose proof (ceil_number x Nx) as Nf. destruct x as [s|s| |s m e]; [cbn; lia|cbn [fceil float_of_double]; lia|now destruct Nx|].
  pose proof (number_finite _ _ _ Nx) as F. rewrite (rank_finite _ F). destruct (fl_float _ F) as [L1 L2]. pose proof (units_small _ F) as U. pose proof (finite_float_finite _ F) as [F1 F2].
  apply above_rank; [exact Nf| |lia]. apply narrow_above; [|exact L1]. cbn [fceil].
  destruct (round_dyadic_s 53 1024 s (- floor_int (- fmant (S754_finite s m e)) (fexp (S754_finite s m e))) 0 ltac:(unfold SH; lia)) as (num & den & -> & D & Q).
  apply round_s_above; [exact fmt53|exact D|exact L2|]. rewrite Q. apply Z.mul_le_mono_nonneg_l; [lia|]. change (0 + SH) with SH. change units with fixed. rewrite (fixed_mant _ F1).
  pose proof (floor_value (- fmant (S754_finite s m e)) (fexp (S754_finite s m e)) F2) as G. lia.
Qed.
(** The two are in order, or both are NaN *)
Definition lower (l lo : spec_float) : Prop := (lo = S754_nan /\ l = S754_nan) \/ (number lo /\ number l /\ rank l <= rank lo).
Lemma lower_refl x : single x -> lower x x.
Proof. intros V. destruct x as [s|s| |s m e]; try (right; repeat split; (exact V || discriminate || lia)). left. split; reflexivity. Qed.
Lemma lower_floor x : single x -> lower (float_of_double (ffloor x)) x.
Proof.
  intros V. assert (C : x = S754_nan \/ number x) by (destruct x as [s|s| |s m e]; [right|right|left; reflexivity|right]; (split; [exact V|discriminate])).
  destruct C as [-> |N]; [left; split; reflexivity|right]. exact (conj N (conj (floor_number _ N) (floor_le _ N))).
Qed.
Lemma lower_ceil x : single x -> lower x (float_of_double (fceil x)).
Proof.
  intros V. assert (C : x = S754_nan \/ number x) by (destruct x as [s|s| |s m e]; [right|right|left; reflexivity|right]; (split; [exact V|discriminate])).
  destruct C as [-> |N]; [left; split; reflexivity|right]. exact (conj (ceil_number _ N) (conj N (ceil_ge _ N))).
Qed.
Lemma min_nan b : fMIN S754_nan b = b.
Proof. reflexivity. Qed.
Lemma max_nan b : fMAX S754_nan b = b.
Proof. reflexivity. Qed.
Lemma clipped_outside lo hi lo' hi' l h : number lo' -> number hi' -> lower l lo -> lower hi h ->
  flt (fMIN h hi') (fMAX l lo') = true -> outside lo hi lo' hi'.
Proof.
  intros N3 N4 [(-> & ->)|(N1 & N5 & Hl)] [(-> & ->)|(N6 & N2 & Hh)] H; unfold outside.
  - right; right; right. exact H.
  - rewrite max_nan in H. rewrite number_lt in H by (try apply min_number; assumption). apply Z.ltb_lt in H.
    unfold fMIN in H. destruct (flt h hi'); [right; right; left|right; right; right]; (rewrite number_lt by assumption; apply Z.ltb_lt; lia).
  - rewrite min_nan in H. rewrite number_lt in H by (try apply max_number; assumption). apply Z.ltb_lt in H.
    unfold fMAX in H. destruct (fgt l lo'); [right; left|right; right; right]; (rewrite number_lt by assumption; apply Z.ltb_lt; lia).
  - rewrite !number_lt by assumption. rewrite number_lt in H by (try apply min_number; try apply max_number; assumption).
    apply Z.ltb_lt in H. rewrite !Z.ltb_lt. unfold fMIN, fMAX in H. destruct (flt h hi'), (fgt l lo'); lia.
Qed.

(** ---- the extent of a side ---- *)
Lemma finite_regular x : finite_float x -> regular x.
Proof. intros [V F]. destruct x as [s| | |s m e]; try contradiction; [exact Logic.I|]. apply valid_bounds in V. cbn [regular]. lia. Qed.
Lemma int_units x z : finite_float x -> int_of_float x = Ok z -> in_int z = true /\ z = Z.quot (units x) (2 ^ SH) /\ Z.abs (units x - z * 2 ^ SH) < 2 ^ SH.
Proof.
  intros F E. destruct (int_fits x z (finite_regular _ F) E) as (Fi & ->). unfold whole. split; [|split; [reflexivity|]].
  - destruct F as [_ F]. apply GeomProofs.in_int_iff. destruct x; try contradiction; exact Fi.
  - change (2 ^ 1074) with (2 ^ SH). pose proof pow_SH_pos as P. pose proof (Z.quot_rem' (units x) (2 ^ SH)) as Q. pose proof (Z.rem_bound_abs (units x) (2 ^ SH) ltac:(lia)) as R.
    rewrite (Z.abs_eq (2 ^ SH)) in R by lia. replace (units x - _) with (Z.rem (units x) (2 ^ SH)) by lia. exact R.
Qed.
Lemma ok_finite x z : number x -> int_of_float x = Ok z -> finite_float x.
Proof. intros [V _] E. destruct x; try discriminate E; split; try exact V; exact Logic.I. Qed.
(** The integer part and the fraction of a float are floats *)
Lemma parts_fl x z : finite_float x -> z = Z.quot (units x) (2 ^ SH) -> fl 24 128 (z * 2 ^ SH) /\ fl 24 128 (units x - z * 2 ^ SH).
Proof.
  intros F ->. pose proof pow_SH_pos as P. destruct (fl_float _ F) as [L _]. destruct F as [V F]. destruct x as [s| | |s m e]; try contradiction.
  - cbn [units]. rewrite Z.quot_0_l by lia. split; exact (fl_0 _ _ fmt24).
  - apply valid_bounds in V as (V1 & V2 & _). cbn [units] in *. change 1074 with SH in *. destruct (Z.le_gt_cases 0 e) as [He|He].
    + assert (Q : (if s then -1 else 1) * (Z.pos m * 2 ^ (e + SH)) = (if s then -1 else 1) * (Z.pos m * 2 ^ e) * 2 ^ SH) by (rewrite Z.pow_add_r by (unfold SH; lia); ring).
      rewrite Q, Z.quot_mul by lia. rewrite <- Q. split; [exact L|]. rewrite Z.sub_diag. exact (fl_0 _ _ fmt24).
    + pose proof (pow2_pos (- e) ltac:(lia)) as P1. pose proof (pow2_pos (e + SH) ltac:(unfold SH; lia)) as P2.
      assert (S1 : 2 ^ SH = 2 ^ (- e) * 2 ^ (e + SH)) by (rewrite <- Z.pow_add_r by (unfold SH; lia); f_equal; lia).
      pose proof (Z.div_mod (Z.pos m) (2 ^ (- e)) ltac:(lia)) as DM. pose proof (Z.mod_pos_bound (Z.pos m) (2 ^ (- e)) P1) as MB. pose proof (Z.div_pos (Z.pos m) (2 ^ (- e)) ltac:(lia) P1) as DP.
      assert (Qt : Z.quot ((if s then -1 else 1) * (Z.pos m * 2 ^ (e + SH))) (2 ^ SH) = (if s then -1 else 1) * (Z.pos m / 2 ^ (- e))).
      { rewrite S1. destruct s; [replace (-1 * (Z.pos m * 2 ^ (e + SH))) with (- (Z.pos m * 2 ^ (e + SH))) by ring; rewrite Z.quot_opp_l by (apply Z.neq_mul_0; lia)|rewrite Z.mul_1_l];
          (rewrite Z.quot_div_nonneg; [|apply Z.mul_nonneg_nonneg; lia|apply Z.mul_pos_pos; lia]); rewrite Z.div_mul_cancel_r by lia; ring. }
      rewrite Qt. assert (Dm : Z.pos m / 2 ^ (- e) < 2 ^ 24) by nia. assert (Mm : Z.pos m mod 2 ^ (- e) < 2 ^ 24) by nia. split.
      * exists ((if s then -1 else 1) * (Z.pos m / 2 ^ (- e))), 0. split; [reflexivity|]. split; [destruct s; lia|unfold fmin; lia].
      * exists ((if s then -1 else 1) * (Z.pos m mod 2 ^ (- e))), e. split; [|split; [destruct s; lia|unfold fmin; lia]].
        rewrite S1. rewrite DM at 1. ring.
Qed.
Lemma int_exact z : in_int z = true -> fl 24 128 (z * 2 ^ SH) -> finite_float (float_of_int z) /\ units (float_of_int z) = z * 2 ^ SH.
Proof.
  intros I L. destruct (int_between z (int_small _ I)) as [F _]. split; [exact F|]. destruct (float_of_int_s z) as [zs E].
  pose proof (round_s_above 24 128 zs z 1 _ fmt24 ltac:(lia) L ltac:(rewrite Z.mul_1_l; apply Z.le_refl)) as A. pose proof (round_s_below 24 128 zs z 1 _ fmt24 ltac:(lia) L ltac:(rewrite Z.mul_1_l; apply Z.le_refl)) as B.
  rewrite <- E in A, B. destruct (above_below_finite _ _ _ A B) as (_ & _ & R). change units with fixed. lia.
Qed.
Lemma sub_finite_l x y : number x -> finite_float y -> finite (subf x y) = true -> finite_float x.
Proof. intros [V N] [_ Fy] F. split; [exact V|]. destruct x as [s|s| |s m e]; try exact Logic.I; [|congruence]. destruct y; try contradiction; discriminate F. Qed.
Lemma ok_finite_b x z : int_of_float x = Ok z -> finite x = true.
Proof. destruct x; (discriminate || reflexivity). Qed.
Lemma mag_units x j : finite_float x -> 0 <= j -> (mag x j <-> Z.abs (units x) <= 2 ^ (j + SH)).
Proof.
  intros F Hj. destruct (finite_float_finite _ F) as [F1 F2]. change units with fixed. rewrite (fixed_mant _ F1), Z.abs_mul. unfold mag. rewrite F1.
  assert (E2 : fexp x <= 104).
  { destruct F as [V F]. destruct x as [s| | |s m e]; try contradiction; cbn [fexp]; [lia|]. apply valid_bounds in V. lia. }
  generalize dependent (fexp x). intros e He Hu. rewrite (Z.abs_eq (2 ^ _)) by apply pow2_nonneg.
  assert (Q : 0 < 2 ^ (SH - Z.max 0 (- e))) by (apply pow2_pos; unfold SH in *; lia).
  assert (A : Z.abs (fmant x) * 2 ^ Z.max 0 e * 2 ^ (SH - Z.max 0 (- e)) = Z.abs (fmant x) * 2 ^ (e + SH)) by (rewrite <- Z.mul_assoc, <- Z.pow_add_r by (unfold SH in *; lia); do 2 f_equal; lia).
  assert (B : 2 ^ Z.max 0 (- e) * 2 ^ j * 2 ^ (SH - Z.max 0 (- e)) = 2 ^ (j + SH)) by (rewrite <- !Z.pow_add_r by (unfold SH in *; lia); f_equal; lia).
  rewrite <- A, <- B. split.
  - intros [_ H]. apply Z.mul_le_mono_nonneg_r; [lia|exact H].
  - intros H. split; [reflexivity|]. apply Z.mul_le_mono_pos_r in H; assumption.
Qed.
Lemma int_times k z : 0 < k -> -2147483648 <= z <= 2147483647 -> -2147483648 * k <= z * k <= 2147483647 * k.
Proof. intros. nia. Qed.
Lemma int_scale k z u : 0 < k -> -2147483648 <= z <= 2147483647 -> Z.abs (u - z * k) < k -> Z.abs u <= 17179869184 * k.
Proof. intros Hk Hz H. pose proof (int_times k z Hk Hz). lia. Qed.
Lemma extent lo hi x w : number lo -> number hi -> int_of_float lo = Ok x -> int_of_float (subf hi (float_of_int x)) = Ok w ->
  (0 <= w \/ flt hi lo = true) /\ mag lo 34 /\ mag hi 34 /\ finite_float lo /\ finite_float hi.
Proof.
  intros Nl Nh El Ew. pose proof (ok_finite _ _ Nl El) as Fl. destruct (int_units _ _ Fl El) as (Ix & Qx & Rx). destruct (parts_fl _ _ Fl Qx) as [L1 L2]. destruct (int_exact _ Ix L1) as [Fx Ux].
  pose proof (ok_finite_b _ _ Ew) as Fr. pose proof (sub_finite_l _ _ Nh Fx Fr) as Fh. pose proof (ok_finite _ _ (subf_number _ _ Nh Fx) Ew) as Frr.
  destruct (int_units _ _ Frr Ew) as (Iw & Qw & Rw). pose proof pow_SH_pos as P. destruct (finite_float_finite _ Fh) as [H1 H2]. destruct (finite_float_finite _ Fx) as [X1 X2].
  destruct (fsub_s 24 128 hi (float_of_int x) H1 X1 H2 X2) as (zs & num & den & E & D & Q). fold subf in E. change (fixed hi) with (units hi) in Q. change (fixed (float_of_int x)) with (units (float_of_int x)) in Q.
  apply GeomProofs.in_int_iff in Ix, Iw. unfold INT_MIN, INT_MAX in Ix, Iw.
  assert (K : forall j, 0 <= j -> 2 ^ (j + SH) = 2 ^ j * 2 ^ SH) by (intros j Hj; apply Z.pow_add_r; unfold SH; lia).
  split; [|split; [|split; [|split; assumption]]].
  - destruct (flt hi lo) eqn:Lt; [right; reflexivity|left]. rewrite flt_units in Lt by assumption. apply Z.ltb_ge in Lt.
    assert (A : above (subf hi (float_of_int x)) (units lo - x * 2 ^ SH)).
    { rewrite E. apply round_s_above; [exact fmt24|exact D|exact L2|]. rewrite Q, Ux. apply Z.mul_le_mono_nonneg_l; lia. }
    destruct A as [(_ & _ & A)|A]; [|rewrite A in Fr; discriminate]. change (fixed (subf hi (float_of_int x))) with (units (subf hi (float_of_int x))) in A.
    rewrite Qw. generalize dependent (units (subf hi (float_of_int x))). intros u _ _ Hu. destruct (Z.le_gt_cases 0 u) as [Up|Un]; [apply Z.quot_pos; lia|].
    replace u with (- (- u)) by lia. rewrite Z.quot_opp_l by lia. rewrite Z.quot_small by lia. lia.
  - apply mag_units; [exact Fl|lia|]. rewrite K by lia. change (2 ^ 34) with 17179869184. clear - Rx Ix P. exact (int_scale _ _ _ P Ix Rx).
  - apply mag_units; [exact Fh|lia|]. assert (B : - 2 ^ (34 + SH) < units hi < 2 ^ (34 + SH)); [|lia].
    pose proof (fl_pow 24 128 33 fmt24 ltac:(unfold fmin; lia)) as L33. split.
    + destruct (Z.le_gt_cases (units hi) (- 2 ^ (34 + SH))) as [C|C]; [exfalso|exact C].
      assert (Bl : below (subf hi (float_of_int x)) (- 2 ^ (33 + SH))).
      { rewrite E. apply round_s_below; [exact fmt24|exact D|apply fl_opp; exact L33|]. rewrite Q, Ux. apply Z.mul_le_mono_nonneg_l; [lia|]. rewrite K in * by lia. change (2 ^ 34) with 17179869184 in *. change (2 ^ 33) with 8589934592. clear - C Ix P. pose proof (int_times _ _ P Ix). lia. }
      destruct Bl as [(_ & _ & A)|A]; [|rewrite A in Fr; discriminate]. change (fixed (subf hi (float_of_int x))) with (units (subf hi (float_of_int x))) in A. rewrite K in A by lia. change (2 ^ 33) with 8589934592 in A. clear - A Rw Iw P.
      pose proof (int_times _ _ P Iw). lia.
    + destruct (Z.le_gt_cases (2 ^ (34 + SH)) (units hi)) as [C|C]; [exfalso|exact C].
      assert (Bl : above (subf hi (float_of_int x)) (2 ^ (33 + SH))).
      { rewrite E. apply round_s_above; [exact fmt24|exact D|exact L33|]. rewrite Q, Ux. apply Z.mul_le_mono_nonneg_l; [lia|]. rewrite K in * by lia. change (2 ^ 34) with 17179869184 in *. change (2 ^ 33) with 8589934592. clear - C Ix P. pose proof (int_times _ _ P Ix). lia. }
      destruct Bl as [(_ & _ & A)|A]; [|rewrite A in Fr; discriminate]. change (fixed (subf hi (float_of_int x))) with (units (subf hi (float_of_int x))) in A. rewrite K in A by lia. change (2 ^ 33) with 8589934592 in A. clear - A Rw Iw P.
      pose proof (int_times _ _ P Iw). lia.
Qed.

(** ---- a box with itself ---- *)
Lemma finite_ff x : number x -> finite x = true -> finite_float x.
Proof. intros [V _] F. split; [exact V|]. destruct x; try discriminate F; exact Logic.I. Qed.
Lemma mag_sub x y : finite_float x -> finite_float y -> mag x 34 -> mag y 34 -> finite_float (subf x y) /\ mag (subf x y) 36.
Proof.
  intros Fx Fy Mx My. assert (M : mag (subf x y) 36).
  { apply (mag_fadd 24 128 x (fopp y) 34 fmt24); [lia|lia|exact Mx|]. destruct My as [A B]. destruct y as [s| | |s m e]; try discriminate A; split; try reflexivity; [exact B|]. cbn [fopp fmant fexp] in *. destruct s; cbn [negb] in *; lia. }
  split; [|exact M]. apply finite_ff; [apply subf_number; [now apply finite_number|exact Fy]|exact (proj1 M)].
Qed.
Lemma mul_number x y : finite_float x -> finite_float y -> number (mulf x y).
Proof. intros [_ Fx] [_ Fy]. unfold mulf, fmul. destruct x; try contradiction; destruct y; try contradiction; apply round_dyadic_number. Qed.
Lemma area_small b : finite_box b -> mag (left b) 34 -> mag (right b) 34 -> mag (top b) 34 -> mag (bottom b) 34 -> finite_float (bounds_area b) /\ mag (bounds_area b) 73.
Proof.
  intros (A & B & C & D) M1 M2 M3 M4. unfold bounds_area. destruct (mag_sub _ _ D C M2 M1) as [F1 N1]. destruct (mag_sub _ _ B A M4 M3) as [F2 N2].
  assert (M : mag (mulf (subf (right b) (left b)) (subf (bottom b) (top b))) 73) by (apply (mag_fmul 24 128 _ _ 36 36 fmt24); lia || assumption).
  split; [|exact M]. apply finite_ff; [now apply mul_number|exact (proj1 M)].
Qed.
Lemma twice_fl a : finite_float a -> mag a 73 -> fl 24 128 (units a + units a).
Proof.
  intros F M. apply mag_units in M; [|exact F|lia]. destruct F as [V F]. destruct a as [s| | |s m e]; try contradiction; [exact (fl_0 _ _ fmt24)|].
  apply valid_bounds in V as (V1 & V2 & _). exists ((if s then -1 else 1) * Z.pos m), (e + 1). split; [|split; [destruct s; lia|]].
  - cbn [units]. change 1074 with SH. replace (e + 1 + SH) with (1 + (e + SH)) by lia. rewrite (Z.pow_add_r 2 1 (e + SH)) by (unfold SH; lia). change (2 ^ 1) with 2. ring.
  - cbn [units] in M. change 1074 with SH in M. assert (G : 2 ^ (e + SH) <= 2 ^ (73 + SH)).
    { pose proof (pow2_pos (e + SH) ltac:(unfold SH; lia)) as P. assert (N : Z.abs ((if s then -1 else 1) * (Z.pos m * 2 ^ (e + SH))) = Z.pos m * 2 ^ (e + SH)) by (assert (G : 0 < Z.pos m * 2 ^ (e + SH)) by (apply Z.mul_pos_pos; lia); set (u := Z.pos m * 2 ^ (e + SH)) in *; clearbody u; destruct s; lia). rewrite N in M. clear - M P. generalize dependent (2 ^ (e + SH)). intros k. intros. nia. }
    apply pow_le_inv in G; unfold SH, fmin in *; lia.
Qed.
Lemma round_s_exact zs num den v : 0 < den -> fl 24 128 v -> num * 2 ^ SH = den * v -> finite_float (round_s 24 128 zs num den) /\ units (round_s 24 128 zs num den) = v.
Proof.
  intros D L E. pose proof (round_s_above 24 128 zs num den v fmt24 D L ltac:(lia)) as A. pose proof (round_s_below 24 128 zs num den v fmt24 D L ltac:(lia)) as B.
  destruct (above_below_finite _ _ _ A B) as (F & _ & R). split; [|change units with fixed; lia]. apply finite_ff; [|exact F].
  unfold round_s. destruct (Z.eqb_spec num 0); [split; [reflexivity|discriminate]|]. apply round_ratio_number; lia.
Qed.
Lemma self_ratio a : finite_float a -> mag a 73 -> feq (fMAX (S754_zero false) (divf a (subf (addf a a) a))) fzero = false.
Proof.
  intros F M. pose proof pow_SH_pos as P. destruct (finite_float_finite _ F) as [F1 F2].
  destruct (fadd_s 24 128 a a F1 F1 F2 F2) as (z1 & n1 & d1 & E1 & D1 & Q1). fold addf in E1. destruct (round_s_exact z1 n1 d1 _ D1 (twice_fl a F M) Q1) as [G1 U1]. rewrite <- E1 in G1, U1.
  destruct (finite_float_finite _ G1) as [G11 G12]. destruct (fsub_s 24 128 _ a G11 F1 G12 F2) as (z2 & n2 & d2 & E2 & D2 & Q2). fold subf in E2.
  change (fixed (addf a a)) with (units (addf a a)) in Q2. rewrite U1 in Q2. replace (units a + units a - fixed a) with (units a) in Q2 by (change (fixed a) with (units a); ring).
  destruct (round_s_exact z2 n2 d2 _ D2 (proj1 (fl_float _ F)) Q2) as [G2 U2]. rewrite <- E2 in G2, U2. destruct (finite_float_finite _ G2) as [G21 G22].
  set (d := subf (addf a a) a) in *. clearbody d. destruct (Z.eq_dec (units a) 0) as [Z0|Z0].
  - destruct (units_veq a (S754_zero false) F (zero_float _) Z0) as [-> |(s & t & -> & _)];
    (destruct (units_veq d (S754_zero false) G2 (zero_float _) ltac:(rewrite U2; exact Z0)) as [-> |(s' & t' & -> & _)]; reflexivity).
  - destruct (fdiv_s 24 128 a d F1 G21 F2 G22 ltac:(change (fixed d) with (units d); lia)) as (z3 & n3 & d3 & E3 & D3 & Q3). fold divf in E3.
    change (fixed d) with (units d) in Q3. change (fixed a) with (units a) in Q3. rewrite U2 in Q3. assert (n3 = d3) by nia. subst n3.
    destruct (round_s_exact z3 d3 d3 (2 ^ SH) D3 fl_one ltac:(ring)) as [G3 U3]. rewrite <- E3 in G3, U3. set (r := divf a d) in *. clearbody r.
    unfold fMAX. rewrite fgt_units by (assumption || apply zero_float). rewrite U3. cbn [units]. replace (2 ^ SH <? 0) with false by (symmetry; apply Z.ltb_ge; lia).
    unfold feq. rewrite fcmp_units by (assumption || exact zero_finite). rewrite U3. cbn [units fzero]. destruct (2 ^ SH ?= 0) eqn:C; try reflexivity. apply Z.compare_eq in C. lia.
Qed.
Lemma self_size a : finite_float a -> flt (divd a a) ratio_limit = false.
Proof.
  intros F. pose proof pow_SH_pos as P. destruct (finite_float_finite _ F) as [F1 F2]. destruct (Z.eq_dec (units a) 0) as [Z0|Z0].
  - destruct (units_veq a (S754_zero false) F (zero_float _) Z0) as [-> |(s & t & -> & _)]; reflexivity.
  - destruct (fdiv_s 53 1024 a a F1 F1 F2 F2 Z0) as (z3 & n3 & d3 & E3 & D3 & Q3). fold divd in E3. assert (n3 = d3) by (change (fixed a) with (units a) in Q3; nia). subst n3.
    assert (L : fl 53 1024 (2 ^ SH)) by (exact (fl_pow 53 1024 0 fmt53 ltac:(unfold fmin; lia))).
    pose proof (round_s_above 53 1024 z3 d3 d3 (2 ^ SH) fmt53 D3 L ltac:(lia)) as A. rewrite <- E3 in A. set (r := divd a a) in *. clearbody r.
    destruct A as [(A1 & A2 & A3)| ->]; [|vm_compute; reflexivity]. assert (LF : finite ratio_limit = true) by (vm_compute; reflexivity). assert (LE : - SH <= fexp ratio_limit) by (vm_compute; discriminate).
    rewrite flt_finite by assumption. apply Z.ltb_ge. assert (LV : fixed ratio_limit <= 2 ^ SH) by (vm_compute; discriminate). lia.
Qed.
Lemma pairs_self l : exists n, 0 <= n /\ count_pairs l l = (0, 0, n).
Proof.
  induction l as [|v l (n & Hn & IH)]; [exists 0; split; [lia|reflexivity]|]. cbn [count_pairs]. rewrite IH. destruct (v =? 0)%N; cbn [negb andb]; [exists n|exists (n + 1)]; (split; [lia|reflexivity]).
Qed.
Lemma window_self legacy r x y w h o : overlap_window legacy r r x y w h = Ok o -> same_pixels o \/ nothing_counted o.
Proof.
  unfold overlap_window. intros E. apply obind_inv in E as (m1 & E1 & E). rewrite E1 in E. cbn [obind] in E. apply obind_inv in E as (m & F1 & E). rewrite F1 in E. cbn [obind] in E.
  apply obind_inv in E as (l & G1 & E). rewrite G1 in E. cbn [obind] in E. destruct (pairs_self l) as (n & Hn & C). rewrite C in E. apply obind_inv in E as (t & Et & E). injection E as <-.
  apply int_result_inv in Et as [-> I]. change (0 + 0 + n) with n in *. destruct (Z.eq_dec n 0) as [->|Hz].
  - right. split; [reflexivity|]. split; [reflexivity|left; reflexivity].
  - left. destruct (share n n ltac:(lia) ltac:(lia) I) as ((F1' & _) & A & _). destruct (share 0 n ltac:(lia) ltac:(lia) I) as ((F2' & _) & _ & B). specialize (A eq_refl). specialize (B eq_refl).
    unfold same_pixels, is_int. cbn [o_overlap o_only1 o_only2]. split; [split; [exact (proj2 F1')|etransitivity; [exact A|ring]]|]. split; (split; [exact (proj2 F2')|exact B]).
Qed.
Lemma fMIN_self x : fMIN x x = x.
Proof. unfold fMIN. now destruct (flt x x). Qed.
Lemma fMAX_self x : fMAX x x = x.
Proof. unfold fMAX. now destruct (fgt x x). Qed.
Lemma inter_self b : bounds_intersection b b = b.
Proof. destruct b as [t o l r]. unfold bounds_intersection. cbn [top bottom left right]. now rewrite !fMIN_self, !fMAX_self. Qed.
Lemma overlap_self legacy r bnd o : single_region r -> number_bounds bnd -> compute_overlap legacy r r bnd = Ok o ->
  same_pixels o \/ nothing_counted o \/ (no_comparison o /\ no_box legacy r bnd).
Proof.
  intros Fr Nb. unfold compute_overlap. intros E. apply obind_inv in E as (b & Eb & E). rewrite Eb in E. cbn [obind] in E. rewrite !fMIN_self, !fMAX_self in E.
  pose proof (clipped_numbers _ _ _ _ Fr Nb Eb) as N. pose proof N as (A & B & C & D).
  apply obind_inv in E as (x & Ex & E). apply obind_inv in E as (y & Ey & E). apply obind_inv in E as (w & Ew & E). apply obind_inv in E as (width & Ewi & E). apply obind_inv in E as (h & Eh & E). apply obind_inv in E as (height & Ehi & E).
  destruct (extent _ _ _ _ C D Ex Ew) as (X1 & X2 & X3 & X4 & X5). destruct (extent _ _ _ _ A B Ey Eh) as (Y1 & Y2 & Y3 & Y4 & Y5).
  apply int_result_inv in Ewi as [-> _]. apply int_result_inv in Ehi as [-> _]. cbv zeta in E.
  destruct (area_small b (conj Y4 (conj Y5 (conj X4 X5))) X2 X3 Y2 Y3) as [Fa Ma]. rewrite (self_size _ Fa) in E. cbn [orb] in E.
  destruct (_ || _) eqn:W.
  - right; right. injection E as <-. split; [reflexivity|]. unfold clipped_box in Eb. apply obind_inv in Eb as (b0 & Eb0 & Eb). injection Eb as <-.
    exists b0. split; [exact Eb0|]. pose proof (region_single _ _ _ Fr Eb0) as (A0 & B0 & C0 & D0). destruct Nb as (A' & B' & C' & D').
    assert (T : flt (right (bounds_intersection (if legacy then b0 else bounds_round b0) bnd)) (left (bounds_intersection (if legacy then b0 else bounds_round b0) bnd)) = true \/
      flt (bottom (bounds_intersection (if legacy then b0 else bounds_round b0) bnd)) (top (bounds_intersection (if legacy then b0 else bounds_round b0) bnd)) = true).
    { apply orb_true_iff in W as [W|W]; apply Z.ltb_lt in W; [left; destruct X1|right; destruct Y1]; lia || assumption. }
    clear - T A0 B0 C0 D0 A' B' C' D'. destruct T as [T|T]; [left|right]; unfold bounds_intersection in T; cbn [left right top bottom] in T; destruct legacy; unfold bounds_round in T; cbn [left right top bottom] in T.
    + exact (clipped_outside _ _ _ _ _ _ C' D' (lower_refl _ C0) (lower_refl _ D0) T).
    + exact (clipped_outside _ _ _ _ _ _ C' D' (lower_floor _ C0) (lower_ceil _ D0) T).
    + exact (clipped_outside _ _ _ _ _ _ A' B' (lower_refl _ A0) (lower_refl _ B0) T).
    + exact (clipped_outside _ _ _ _ _ _ A' B' (lower_floor _ A0) (lower_ceil _ B0) T).
  - unfold bounds_overlap in E. rewrite inter_self in E. cbv zeta in E. rewrite (self_ratio _ Fa Ma) in E. destruct (window_self _ _ _ _ _ _ _ E) as [H|H]; [left|right; left]; exact H.
Qed.
