(** Legacy rasterisation: safe for all near coordinates, and every row follows the even-odd rule on its nodes. *)
From Coq Require Import Permutation Sorted.
From Verif Require Import CBase StrMap Num NumSpec NumProofs StrMapProofs Buffer BufferProofs Region RegionSpec FloatOps FloatProofs FloatMono RegionGeom GeomSpec GeomProofs BoundsProofs
  OverlapProofs RasterProofs PolygonSpec PolygonProofs ConvexProofs PolyRasterProofs ConvexRasterProofs.
Local Open Scope Z_scope.

(** ---- Nodes ---- *)
Lemma finite_multiple x : finite_float x -> exists q, fixed x = q * 2 ^ (SH - 149).
Proof.
  intros H. destruct (finite_fl x H) as (M & E & V & _ & HE). unfold fmin in HE. exists (M * 2 ^ (E + 149)). rewrite V.
  rewrite <- Z.mul_assoc, <- Z.pow_add_r by (unfold SH; lia). f_equal. f_equal. lia.
Qed.
Lemma fl_pow k : SH - 149 <= k <= SH + 100 -> fl 24 128 (2 ^ k).
Proof. intros H. replace (2 ^ k) with (1 * 2 ^ (k - SH + SH)) by (rewrite Z.mul_1_l; f_equal; lia). apply small_fl; lia. Qed.

Lemma bounded_above_below x b : above x (- b) -> below x b -> finite x = true /\ - SH <= fexp x /\ Z.abs (fixed x) <= b.
Proof. intros A B. destruct (above_below_finite _ _ _ A B) as (F & E & V). split; [exact F|split; [exact E|lia]]. Qed.
Lemma sub_bounded x y b : finite x = true -> finite y = true -> - SH <= fexp x -> - SH <= fexp y -> fl 24 128 b ->
  Z.abs (fixed x - fixed y) <= b -> finite (subf x y) = true /\ - SH <= fexp (subf x y) /\ Z.abs (fixed (subf x y)) <= b.
Proof.
  intros Fx Fy Ex Ey Hb H. destruct (fsub_s 24 128 x y Fx Fy Ex Ey) as (zs & num & den & E & D & Q). fold subf in E. apply bounded_above_below; rewrite E.
  - apply round_s_above; [apply fmt_float|exact D|now apply fl_opp|]. rewrite Q. apply Z.mul_le_mono_nonneg_l; lia.
  - apply round_s_below; [apply fmt_float|exact D|exact Hb|]. rewrite Q. apply Z.mul_le_mono_nonneg_l; lia.
Qed.
Lemma sub_away x y b : finite x = true -> finite y = true -> - SH <= fexp x -> - SH <= fexp y -> fl 24 128 b ->
  0 < b <= Z.abs (fixed x - fixed y) -> finite (subf x y) = true -> b <= Z.abs (fixed (subf x y)).
Proof.
  intros Fx Fy Ex Ey Hb H Ff. destruct (fsub_s 24 128 x y Fx Fy Ex Ey) as (zs & num & den & E & D & Q). fold subf in E.
  destruct (Z.le_gt_cases 0 (fixed x - fixed y)) as [G|G].
  - assert (A : above (subf x y) b). { rewrite E. apply round_s_above; [apply fmt_float|exact D|exact Hb|]. rewrite Q. apply Z.mul_le_mono_nonneg_l; lia. }
    destruct A as [(_ & _ & A)|A]; [lia|rewrite A in Ff; discriminate Ff].
  - assert (A : below (subf x y) (- b)). { rewrite E. apply round_s_below; [apply fmt_float|exact D|now apply fl_opp|]. rewrite Q. apply Z.mul_le_mono_nonneg_l; lia. }
    destruct A as [(_ & _ & A)|A]; [lia|rewrite A in Ff; discriminate Ff].
Qed.

Lemma div_bounded a r b : finite a = true -> finite r = true -> - SH <= fexp a -> - SH <= fexp r -> 0 < b -> b <= Z.abs (fixed r) -> Z.abs (fixed a) <= 2 * b ->
  finite (divf a r) = true /\ - SH <= fexp (divf a r) /\ Z.abs (fixed (divf a r)) <= 2 * 2 ^ SH.
Proof.
  intros Fa Fr Ea Er Hb Hr Ha. assert (HU : 0 < 2 ^ SH) by apply pow_SH_pos.
  assert (Fl : fl 24 128 (2 * 2 ^ SH)) by (apply int_fl; lia).
  destruct (fdiv_s 24 128 a r Fa Fr Ea Er ltac:(clear - Hb Hr; lia)) as (zs & num & den & E & D & Q). fold divf in E.
  remember (2 ^ SH) as U eqn:HUe.
  assert (Bn : Z.abs num <= 2 * den).
  { apply (Z.mul_le_mono_pos_r _ _ (Z.abs (fixed r))); [lia|]. rewrite <- Z.abs_mul, Q, Z.abs_mul, (Z.abs_eq den) by lia.
    apply Z.le_trans with (2 * b * den); [apply Z.mul_le_mono_nonneg_r; lia|].
    replace (2 * b * den) with (2 * den * b) by ring. apply Z.mul_le_mono_nonneg_l; lia. }
  clear Q Hr Ha.
  apply bounded_above_below; rewrite E; [apply round_s_above|apply round_s_below]; try apply fmt_float; try exact D; try exact Fl; try (now apply fl_opp).
  - rewrite <- HUe. clear HUe E Fl. replace (den * - (2 * U)) with (- (2 * den) * U) by ring. apply Z.mul_le_mono_nonneg_r; lia.
  - rewrite <- HUe. clear HUe E Fl. replace (den * (2 * U)) with (2 * den * U) by ring. apply Z.mul_le_mono_nonneg_r; lia.
Qed.
Lemma mul_bounded t d i j : finite t = true -> finite d = true -> - SH <= fexp t -> - SH <= fexp d -> 0 <= i -> 0 <= j -> i + j <= 100 ->
  Z.abs (fixed t) <= 2 ^ (SH + i) -> Z.abs (fixed d) <= 2 ^ (SH + j) ->
  finite (mulf t d) = true /\ - SH <= fexp (mulf t d) /\ Z.abs (fixed (mulf t d)) <= 2 ^ (SH + (i + j)).
Proof.
  intros Ft Fd Et Ed Hi Hj Hij Vt Vd. assert (HU : 0 < 2 ^ SH) by apply pow_SH_pos.
  assert (Fl : fl 24 128 (2 ^ (SH + (i + j)))) by (apply fl_pow; lia).
  assert (PP : 2 ^ (SH + i) * 2 ^ (SH + j) = 2 ^ (SH + (i + j)) * 2 ^ SH).
  { rewrite <- !Z.pow_add_r by (unfold SH; lia). f_equal. lia. }
  destruct (fmul_s 24 128 t d Ft Fd Et Ed) as (zs & num & den & E & D & Q). fold mulf in E.
  assert (Bm : Z.abs (fixed t * fixed d) <= 2 ^ (SH + (i + j)) * 2 ^ SH).
  { rewrite Z.abs_mul, <- PP. apply Z.mul_le_mono_nonneg; lia. }
  remember (2 ^ SH) as U eqn:HUe. set (P := 2 ^ (SH + (i + j))) in *. clearbody P. clear PP Vt Vd.
  assert (Bn : Z.abs (num * U) <= den * P).
  { apply (Z.mul_le_mono_pos_r _ _ U); [lia|]. rewrite <- (Z.abs_eq U) at 2 by lia. rewrite <- Z.abs_mul, Q, Z.abs_mul, (Z.abs_eq den) by lia.
    rewrite <- Z.mul_assoc. apply Z.mul_le_mono_nonneg_l; lia. }
  clear Q Bm.
  apply bounded_above_below; rewrite E; [apply round_s_above|apply round_s_below]; try apply fmt_float; try exact D; try exact Fl; try (now apply fl_opp);
    rewrite <- HUe; clear HUe E Fl; lia.
Qed.
Lemma add_bounded x y b : finite x = true -> finite y = true -> - SH <= fexp x -> - SH <= fexp y -> fl 24 128 b ->
  Z.abs (fixed x) + Z.abs (fixed y) <= b -> finite (addf x y) = true /\ - SH <= fexp (addf x y) /\ Z.abs (fixed (addf x y)) <= b.
Proof.
  intros Fx Fy Ex Ey Hb H. destruct (fadd_s 24 128 x y Fx Fy Ex Ey) as (zs & num & den & E & D & Q). fold addf in E. apply bounded_above_below; rewrite E.
  - apply round_s_above; [apply fmt_float|exact D|now apply fl_opp|]. rewrite Q. apply Z.mul_le_mono_nonneg_l; lia.
  - apply round_s_below; [apply fmt_float|exact D|exact Hb|]. rewrite Q. apply Z.mul_le_mono_nonneg_l; lia.
Qed.

Lemma double_row row : 0 <= row <= 2 ^ 23 -> rep (if row =? 0 then S754_zero false else to_double (row <? 0) (Z.abs row) 1) row.
Proof.
  intros H. destruct (row =? 0) eqn:E; [apply Z.eqb_eq in E; subst; apply rep_zero|]. apply Z.eqb_neq in E.
  pose proof (round_dyadic_rep 53 1024 false row 0 row fmt_double ltac:(unfold SH; lia) ltac:(rewrite Z.add_0_l; reflexivity) ltac:(lia)) as R.
  unfold round_dyadic in R. replace (row =? 0) with false in R by lia. unfold to_double.
  change (2 ^ Z.max 0 0) with 1 in R. change (2 ^ Z.max 0 (- 0)) with 1 in R. now rewrite Z.mul_1_r in R.
Qed.

(** Coordinates: finite, of magnitude at most 2^23, multiples of the smallest positive float. *)
Definition coord (x : spec_float) : Prop :=
  finite x = true /\ - SH <= fexp x /\ Z.abs (fixed x) <= 2 ^ 23 * 2 ^ SH /\ exists q, fixed x = q * 2 ^ (SH - 149).
Lemma near_coord x : near x -> coord x.
Proof.
  intros (N & B). destruct (finite_float_finite _ N) as [F E]. split; [exact F|]. split; [exact E|]. split; [exact B|]. now apply finite_multiple.
Qed.
Lemma rep_coord x z : rep x z -> Z.abs z <= 2 ^ 23 -> coord x.
Proof.
  intros R H. destruct (rep_finite _ _ R) as (F & E & V). split; [exact F|]. split; [exact E|]. rewrite V. split.
  - pose proof pow_SH_pos as P. set (U := 2 ^ SH) in *. clearbody U. rewrite Z.abs_mul, (Z.abs_eq U) by lia. apply Z.mul_le_mono_nonneg_r; lia.
  - exists (z * 2 ^ 149). rewrite <- Z.mul_assoc, <- Z.pow_add_r by (unfold SH; lia). f_equal.
Qed.

Lemma edge_scale yj yi v : (exists q, fixed yj = q * 2 ^ (SH - 149)) -> (exists q, fixed yi = q * 2 ^ (SH - 149)) -> Z.abs (fixed yj - fixed yi) <= 2 ^ (SH + 24) ->
  fixed yi < v <= fixed yj \/ fixed yj < v <= fixed yi ->
  exists k, SH - 149 <= k <= SH + 24 /\ 2 ^ k <= Z.abs (fixed yj - fixed yi) /\ Z.abs (fixed yj - fixed yi) <= 2 ^ Z.succ k /\ Z.abs (v - fixed yi) <= 2 ^ Z.succ k.
Proof.
  intros Nj Ni Bd Bt. set (B := fixed yj - fixed yi) in *. assert (HB : B <> 0) by (unfold B; lia).
  assert (Hv : Z.abs (v - fixed yi) <= Z.abs B) by (unfold B; lia).
  exists (Z.log2 (Z.abs B)). destruct (Z.log2_spec (Z.abs B) ltac:(lia)) as [K1 K2]. 
  destruct Nj as (q1 & E1). destruct Ni as (q2 & E2).
  assert (EB : B = (q1 - q2) * 2 ^ (SH - 149)) by (unfold B; rewrite E1, E2; ring). clearbody B. clear E1 E2 Bt.
  split; [split|].
  - apply Z.log2_le_pow2; [lia|]. pose proof (pow2_pos (SH - 149) ltac:(unfold SH; lia)) as P.
    set (W := 2 ^ (SH - 149)) in *. clearbody W. clear - EB HB P. rewrite EB, Z.abs_mul, (Z.abs_eq W) by lia.
    assert (q1 - q2 <> 0) by (intros E; rewrite E in EB; lia). rewrite <- (Z.mul_1_l W) at 1. apply Z.mul_le_mono_nonneg_r; lia.
  - apply Z.le_trans with (Z.log2 (2 ^ (SH + 24))); [now apply Z.log2_le_mono|]. rewrite Z.log2_pow2 by (unfold SH; lia). apply Z.le_refl.
  - clear - K1 K2 Hv. set (W := 2 ^ Z.succ _) in *. clearbody W. lia.
Qed.

Lemma zero_mul t d : finite t = true -> finite d = true -> - SH <= fexp d -> fixed d = 0 -> exists s, mulf t d = S754_zero s.
Proof.
  intros Ft Fd Ed V. assert (Z : exists s, d = S754_zero s).
  { destruct d as [s| | |s m e]; try discriminate Fd; [now exists s|]. exfalso. revert V. cbn [fixed].
    cbn [fexp] in Ed. pose proof (pow2_pos (e + SH) ltac:(lia)) as P. set (W := 2 ^ (e + SH)) in *. clearbody W. destruct s; nia. }
  destruct Z as (s & ->). destruct t as [s'| | |s' m e]; try discriminate Ft; cbn; rewrite ?Z.mul_0_r; eexists; reflexivity.
Qed.
Lemma edge_node_legacy_ok row pj pi : coord (fst pj) -> coord (snd pj) -> coord (fst pi) -> coord (snd pi) -> 0 <= row <= 2 ^ 23 ->
  exists n, edge_node_legacy row pj pi =
    Ok (if xorb (fixed (snd pj) <? row * 2 ^ SH) (fixed (snd pi) <? row * 2 ^ SH) then [n] else []) /\
    (xorb (fixed (snd pj) <? row * 2 ^ SH) (fixed (snd pi) <? row * 2 ^ SH) = true -> forall X, Z.abs X <= 2 ^ 23 -> rep (fst pj) X -> rep (fst pi) X -> n = X).
Proof.
  destruct pj as [xj yj], pi as [xi yi]. cbn [fst snd]. intros (Fxj & Exj & Bxj & Nxj) (Fyj & Eyj & Byj & Nyj) (Fxi & Exi & Bxi & Nxi) (Fyi & Eyi & Byi & Nyi) Hrow.
  set (U := 2 ^ SH) in *. assert (HU : 0 < U) by apply pow_SH_pos. assert (HUe : U = 2 ^ SH) by reflexivity. clearbody U.
  unfold edge_node_legacy. pose proof (double_row row Hrow) as Rp. cbv zeta.
  set (p := if row =? 0 then _ else _) in *. clearbody p. destruct (rep_finite _ _ Rp) as (Fp & Ep & Vp). rewrite <- HUe in Vp.
  rewrite !flt_finite, !fge_finite by assumption. rewrite Vp.
  replace (((fixed yi <? row * U) && (row * U <=? fixed yj)) || ((fixed yj <? row * U) && (row * U <=? fixed yi)))
    with (xorb (fixed yj <? row * U) (fixed yi <? row * U)) by lia.
  destruct (xorb _ _) eqn:Ex; [|exists 0; split; [reflexivity|intros Hf; discriminate Hf]].
  assert (Between : fixed yi < row * U <= fixed yj \/ fixed yj < row * U <= fixed yi) by lia. clear Ex Vp Rp Ep Fp p.
  (* the float of the row *)
  destruct (rep_finite _ _ (rep_float_of_int row ltac:(lia))) as (Fr & Er & Vr). rewrite <- HUe in Vr. set (fr := float_of_int row) in *. clearbody fr.
  assert (UU : forall e, 0 <= e -> 2 ^ (SH + e) = 2 ^ e * U).
  { intros e He. rewrite Z.add_comm, Z.pow_add_r by (clear - He; unfold SH; lia). now rewrite HUe. }
  destruct (edge_scale yj yi (row * U)) as (k & Kr & K1 & K2 & K3); try assumption.
  { rewrite UU by lia. clear - Byj Byi HU. lia. }
  assert (Fk : fl 24 128 (2 ^ k)) by (apply fl_pow; clear - Kr; lia). assert (Fk1 : fl 24 128 (2 ^ Z.succ k)) by (apply fl_pow; clear - Kr; lia).
  assert (Pk : 0 < 2 ^ k) by (apply pow2_pos; clear - Kr; unfold SH in *; lia).
  destruct (sub_bounded yj yi _ Fyj Fyi Eyj Eyi Fk1 K2) as (Ff & Ef & _).
  pose proof (sub_away yj yi _ Fyj Fyi Eyj Eyi Fk (conj Pk K1) Ff) as Vf.
  destruct (sub_bounded fr yi _ Fr Fyi Er Eyi Fk1 ltac:(rewrite Vr; exact K3)) as (Fa & Ea & Va).
  rewrite Z.pow_succ_r in Va by (clear - Kr; unfold SH in *; lia).
  destruct (div_bounded _ _ _ Fa Ff Ea Ef Pk Vf Va) as (Ft & Et & Vt). rewrite <- HUe in Vt. change (2 * U) with (2 ^ 1 * U) in Vt. rewrite <- UU in Vt by (clear; lia).
  assert (F24 : fl 24 128 (2 ^ (SH + 24))) by (apply fl_pow; clear; lia). assert (F26 : fl 24 128 (2 ^ (SH + 26))) by (apply fl_pow; clear; lia).
  assert (Hd : Z.abs (fixed xj - fixed xi) <= 2 ^ (SH + 24)) by (rewrite UU by (clear; lia); clear - Bxj Bxi HU; lia).
  destruct (sub_bounded xj xi _ Fxj Fxi Exj Exi F24 Hd) as (Fd & Ed & Vd).
  destruct (mul_bounded _ _ 1 24 Ft Fd Et Ed ltac:(clear; lia) ltac:(clear; lia) ltac:(clear; lia) Vt Vd) as (Fm & Em & Vm).
  change (1 + 24) with 25 in Vm.
  match type of Vm with Z.abs (fixed ?m) <= _ => assert (Hs : Z.abs (fixed xi) + Z.abs (fixed m) <= 2 ^ (SH + 26)) end.
  { rewrite UU in * by (clear; lia). clear - Bxi Vm HU. lia. }
  destruct (add_bounded _ _ _ Fxi Fm Exi Em F26 Hs) as (Fs & Es & Vs).
  rewrite UU in Vs by (clear; lia). rewrite HUe in Vs.
  destruct (int_of_float_near _ (2 ^ 26) Fs Es Vs ltac:(clear; lia)) as (n & En & _). exists n. rewrite En. split; [reflexivity|].
  intros _ X HX Rj Ri. pose proof (rep_fsub 24 128 _ _ _ _ fmt_float Rj Ri ltac:(rewrite Z.sub_diag; clear; lia)) as Rd. fold subf in Rd. rewrite Z.sub_diag in Rd.
  destruct (rep_finite _ _ Rd) as (_ & _ & V0). rewrite Z.mul_0_l in V0. destruct (zero_mul _ _ Ft Fd Ed V0) as (z & Ez). rewrite Ez in En.
  pose proof (rep_fadd 24 128 _ _ _ _ fmt_float Ri (rep_zero z) ltac:(rewrite Z.add_0_r; clear - HX; lia)) as Ra. fold addf in Ra. rewrite Z.add_0_r in Ra.
  rewrite (rep_int _ _ Ra) in En by (apply small_int; clear - HX; lia). now injection En.
Qed.

(** ---- The nodes of a row ---- *)
(** Whether a side, given by the heights of its ends, passes the row: an end on the row counts as below it. *)
Definition passes (row : Z) (s : (spec_float * spec_float) * (spec_float * spec_float)) : bool :=
  xorb (fixed (snd (fst s)) <? row * 2 ^ SH) (fixed (snd (snd s)) <? row * 2 ^ SH).
Lemma row_nodes_legacy row pts : Forall (fun p => coord (fst p) /\ coord (snd p)) pts -> 0 <= row <= 2 ^ 23 -> forall pj, coord (fst pj) /\ coord (snd pj) ->
  exists l, row_nodes edge_node_legacy row pj pts = Ok l /\ List.length l = List.length (filter (passes row) (combine (pj :: pts) pts)).
Proof.
  intros H Hrow. induction H as [|p pts Hp H IH]; intros pj Hj; cbn [row_nodes]; [exists []; split; reflexivity|].
  destruct (edge_node_legacy_ok row pj p (proj1 Hj) (proj2 Hj) (proj1 Hp) (proj2 Hp) Hrow) as (n & E & _). rewrite E. cbn [obind].
  destruct (IH p Hp) as (l & El & L). rewrite El. cbn [obind]. eexists. split; [reflexivity|].
  change (combine (pj :: p :: pts) (p :: pts)) with ((pj, p) :: combine (p :: pts) pts). cbn [filter]. unfold passes at 1. cbn [fst snd].
  rewrite app_length, L. destruct (xorb _ _); reflexivity.
Qed.
Definition legacy_nodes (pts : list (spec_float * spec_float)) (row : Z) : list Z :=
  match (l <- row_nodes edge_node_legacy row (last pts origin) pts ;; bubble_sort l) with Ok l => l | _ => [] end.
Lemma links_sides_any {A} (zs : list A) d : Permutation (combine (last zs d :: zs) zs) (sides zs).
Proof.
  destruct zs as [|a l]; [constructor|]. rewrite (sides_split a l d).
  change (combine (last (a :: l) d :: a :: l) (a :: l)) with ((last (a :: l) d, a) :: combine (a :: l) l). apply Permutation_cons_append.
Qed.
Lemma origin_coord : coord (fst origin) /\ coord (snd origin).
Proof. split; apply (rep_coord _ 0); try apply rep_zero; lia. Qed.
Lemma coord_last pts : Forall (fun p => coord (fst p) /\ coord (snd p)) pts -> coord (fst (last pts origin)) /\ coord (snd (last pts origin)).
Proof.
  induction 1 as [|p pts Hp H IH]; [apply origin_coord|]. destruct pts as [|q pts]; [exact Hp|exact IH].
Qed.
Lemma legacy_nodes_ok pts row : Forall (fun p => coord (fst p) /\ coord (snd p)) pts -> 0 <= row <= 2 ^ 23 ->
  (l <- row_nodes edge_node_legacy row (last pts origin) pts ;; bubble_sort l) = Ok (legacy_nodes pts row) /\
  sorted (legacy_nodes pts row) /\ List.length (legacy_nodes pts row) = List.length (filter (passes row) (sides pts)).
Proof.
  intros H Hrow. unfold legacy_nodes. destruct (row_nodes_legacy row pts H Hrow _ (coord_last _ H)) as (l & E & L).
  rewrite E. cbn [obind]. destruct (bubble_sort_spec l) as (l' & E' & P & S'). rewrite E'. split; [reflexivity|]. split; [exact S'|].
  rewrite <- (Permutation_length P), L. apply Permutation_length, filter_perm, links_sides_any.
Qed.

(** ---- Runs ---- *)
Lemma ones_set_new m k : nth_error m k = Some (Some 0%N) -> ones (set_nth m k (Some 1%N)) = ones m + 1.
Proof.
  unfold ones. revert k. induction m as [|c m IH]; intros [|k]; cbn [set_nth nth_error]; intros H; try discriminate H.
  - injection H as ->. cbn [filter List.length]. lia.
  - specialize (IH k H). cbn [filter]. destruct c as [[|[?|?|]]|]; cbn [List.length] in *; lia.
Qed.
Lemma run_exact width height row a b m s : 0 <= row < height -> 0 <= a -> b <= width -> in_int (width * height) = true ->
  width * height <= Z.of_nat (List.length m) -> 0 <= s -> s + Z.max 0 (b - a) <= INT_MAX ->
  (forall k, row * width + a <= k < row * width + b -> nth_error m (Z.to_nat k) = Some (Some 0%N)) ->
  exists m', for_range (Z.to_nat (b - a)) a (set_pixel width row) (Some m, s) = Ok (Some m', s + Z.max 0 (b - a)) /\
    painted m m' (in_run width row a (b - 1)) /\ ones m' = ones m + Z.max 0 (b - a).
Proof.
  intros Hrow Ha Hb Hi Hlen Hs Hmax Hz.
  destruct (for_range_inv (fun j st => exists m', st = (Some m', s + (j - a)) /\ painted m m' (in_run width row a (j - 1)) /\ ones m' = ones m + (j - a))
    (set_pixel width row) (Z.to_nat (b - a)) a (Some m, s)) as (st & E & m' & -> & P & O).
  - intros j st Hj (m1 & -> & P & O). rewrite in_int_iff in Hi.
    pose proof (index_range width height row j ltac:(lia) Hrow) as Rg. unfold set_pixel. cbn [fst snd].
    assert (Hr : 0 <= row * width <= width * height) by nia.
    rewrite int_result_ok by (apply in_int_of; unfold INT_MIN in *; lia). cbn [obind].
    rewrite int_result_ok by (apply in_int_of; unfold INT_MIN in *; lia). cbn [obind].
    destruct P as [L P]. rewrite put_ok by lia. cbn [obind].
    rewrite int_result_ok by (apply in_int_of; unfold INT_MIN in *; lia). cbn [obind].
    eexists. split; [reflexivity|]. eexists. split; [f_equal; lia|]. split.
    + split; [rewrite set_nth_length; exact L|]. intros k Hk. unfold in_run in *.
      destruct (Z.eq_dec k (row * width + j)) as [->|Hne].
      * rewrite nth_error_set_nth_eq by lia.
        replace ((row * width + a <=? row * width + j) && (row * width + j <=? row * width + (j + 1 - 1))) with true by (symmetry; lia). reflexivity.
      * rewrite nth_error_set_nth_neq by lia. rewrite P by exact Hk.
        replace ((row * width + a <=? k) && (k <=? row * width + (j + 1 - 1))) with ((row * width + a <=? k) && (k <=? row * width + (j - 1))) by lia.
        reflexivity.
    + rewrite ones_set_new; [lia|]. rewrite P by lia. unfold in_run.
      replace ((row * width + a <=? row * width + j) && (row * width + j <=? row * width + (j - 1))) with false by (symmetry; lia). apply Hz. lia.
  - exists m. split; [now rewrite Z.sub_diag, Z.add_0_r|]. split; [|lia]. apply painted_refl. intros k. unfold in_run. lia.
  - exists m'. replace (a + Z.of_nat (Z.to_nat (b - a)) - a) with (Z.max 0 (b - a)) in * by lia.
    split; [exact E|]. split; [|lia]. apply (painted_ext _ _ _ _ P). intros k. unfold in_run. lia.
Qed.

(** ---- Filling a row ---- *)
(** The number of nodes at or left of a column; the even-odd rule of a row, with its flaw in the last column. *)
Definition nodes_left (nodes : list Z) (j : Z) : nat := List.length (filter (fun n => n <=? j) nodes).
Definition row_rule (width : Z) (nodes : list Z) (j : Z) : bool :=
  Nat.odd (nodes_left nodes j) && ((j <? width - 1) || existsb (Z.eqb width) nodes).
Definition row_pixels_legacy (width row : Z) (nodes : list Z) (k : Z) : bool :=
  (row * width <=? k) && (k <? (row + 1) * width) && row_rule width nodes (k - row * width).

Lemma nodes_left_none l j : Forall (fun n => j < n) l -> nodes_left l j = O.
Proof. unfold nodes_left. induction 1 as [|n l Hn H IH]; [reflexivity|]. cbn [filter]. replace (n <=? j) with false by (symmetry; lia). exact IH. Qed.
Lemma existsb_none w l : Forall (fun n => w < n) l -> existsb (Z.eqb w) l = false.
Proof. induction 1 as [|n l Hn H IH]; [reflexivity|]. cbn [existsb]. rewrite IH. lia. Qed.
Lemma nodes_left_cons2 a b l j : nodes_left (a :: b :: l) j = ((if (a <=? j)%Z then 1 else 0) + ((if (b <=? j)%Z then 1 else 0) + nodes_left l j))%nat.
Proof. unfold nodes_left. cbn [filter]. destruct (a <=? j), (b <=? j); reflexivity. Qed.

Lemma rule_step width a b rest j : a <= b -> Forall (Z.le b) rest -> a < width -> 0 <= j < width ->
  row_rule width (a :: b :: rest) j = ((a <=? j) && (j <? (if width <? b then width - 1 else b))) || row_rule width rest j.
Proof.
  intros Hab Hr Ha Hj. unfold row_rule. rewrite nodes_left_cons2.
  destruct (Z.leb_spec b j) as [Hb|Hb].
  - replace (a <=? j) with true by (symmetry; lia). replace (width <? b) with false by (symmetry; lia). replace (j <? b) with false by (symmetry; lia).
    cbn [andb orb existsb Nat.add]. rewrite Nat.odd_succ_succ. replace (width =? a) with false by (symmetry; lia).
    replace (width =? b) with false by (symmetry; lia). reflexivity.
  - assert (Hn : Forall (fun n => j < n) rest) by (eapply Forall_impl; [|exact Hr]; intros; cbn in *; lia).
    rewrite (nodes_left_none rest j Hn). cbn [Nat.add]. change (Nat.odd 0) with false. cbn [andb]. rewrite Bool.orb_false_r.
    destruct (Z.leb_spec a j) as [Haj|Haj]; [|reflexivity]. change (Nat.odd (1 + 0)) with true. cbn [andb existsb].
    replace (width =? a) with false by (symmetry; lia). cbn [orb]. destruct (Z.ltb_spec width b) as [Hwb|Hwb].
    + rewrite (existsb_none width rest); [lia|]. eapply Forall_impl; [|exact Hr]. intros; cbn in *; lia.
    + destruct (Z.eqb_spec width b) as [He|He]; cbn [orb]; [lia|]. replace (j <? width - 1) with true by (symmetry; lia). cbn [orb]. symmetry; lia.
Qed.
Lemma rule_beyond width nodes j : Forall (Z.le width) nodes -> j < width -> row_rule width nodes j = false.
Proof.
  intros H Hj. unfold row_rule. rewrite nodes_left_none; [reflexivity|]. eapply Forall_impl; [|exact H]. intros; cbn in *; lia.
Qed.

Definition start (width : Z) (nodes : list Z) : Z := match nodes with [] => width | a :: _ => Z.min width (Z.max 0 a) end.
Lemma fill_legacy_ok width height row : 0 <= row < height -> in_int (width * height) = true -> 0 <= width ->
  forall nodes m s, sorted nodes -> Nat.odd (List.length nodes) = false -> width * height <= Z.of_nat (List.length m) ->
  (forall k, row * width + start width nodes <= k < (row + 1) * width -> nth_error m (Z.to_nat k) = Some (Some 0%N)) ->
  s = ones m -> s <= row * width + start width nodes ->
  exists m' s', fill_pairs_legacy width row nodes (Some m, s) = Ok (Some m', s') /\ painted m m' (row_pixels_legacy width row nodes) /\
    s' = ones m' /\ s' <= (row + 1) * width.
Proof.
  intros Hrow Hi Hw. pose proof Hi as Hi2. rewrite in_int_iff in Hi2.
  assert (Hnext : (row + 1) * width <= width * height) by (rewrite (Z.mul_comm width); apply Z.mul_le_mono_nonneg_r; lia).
  assert (Hsz : 0 <= row * width) by (apply Z.mul_nonneg_nonneg; lia).
  assert (Hrw : (row + 1) * width = row * width + width) by ring.
  induction nodes as [|a|a b rest IH1 _] using list_ind2; intros m s So Ev Hlen Hz Hs Hb.
  - exists m, s. cbn [fill_pairs_legacy]. split; [reflexivity|]. split; [|cbn [start] in *; lia]. apply painted_refl. intros k. unfold row_pixels_legacy, row_rule. cbn. apply Bool.andb_false_r.
  - discriminate Ev.
  - inversion So as [|? ? So' F]; subst. inversion F as [|? ? Fb Fr]; subst. inversion So' as [|? ? So'' F'']; subst.
    cbn [fill_pairs_legacy]. destruct (width <=? a) eqn:Ewa.
    { apply Z.leb_le in Ewa. exists m, (ones m). split; [reflexivity|]. cbn [start] in *. split; [|lia]. apply painted_refl. intros k. unfold row_pixels_legacy.
      destruct ((row * width <=? k) && (k <? (row + 1) * width)) eqn:Ek; [|reflexivity]. cbn [andb]. apply rule_beyond; [|lia].
      constructor; [lia|]. eapply Forall_impl; [|exact F]. intros; cbn in *; lia. }
    apply Z.leb_gt in Ewa. cbn [List.length] in Ev. rewrite Nat.odd_succ_succ in Ev.
    assert (Erow : forall k, row_pixels_legacy width row (a :: b :: rest) k
      = ((row * width <=? k) && (k <? (row + 1) * width) && ((a <=? k - row * width) && (k - row * width <? (if width <? b then width - 1 else b)))) || row_pixels_legacy width row rest k).
    { intros k. unfold row_pixels_legacy. destruct ((row * width <=? k) && (k <? (row + 1) * width)) eqn:Ek; [|reflexivity]. cbn [andb].
      apply rule_step; try assumption. lia. }
    assert (Hst : Z.min width (Z.max 0 b) <= start width rest).
    { unfold start. destruct rest as [|c rest]; [lia|]. inversion F''; subst. lia. }
    assert (Hst2 : start width rest <= width) by (unfold start; destruct rest; lia).
    cbn [start] in Hz, Hb.
    destruct (0 <? b) eqn:E0b.
    + apply Z.ltb_lt in E0b. cbv zeta. set (a' := if a <? 0 then 0 else a). set (b' := if width <? b then width - 1 else b) in *.
      assert (Ha' : a' = Z.max 0 a) by (unfold a'; destruct (a <? 0) eqn:?; lia).
      assert (Hb' : b' <= width /\ b' <= b /\ (b' = b \/ b' = width - 1)) by (unfold b'; destruct (width <? b) eqn:?; lia).
      clearbody a' b'.
      destruct (run_exact width height row a' b' m (ones m) Hrow ltac:(lia) ltac:(lia) Hi Hlen ltac:(unfold ones; lia) ltac:(lia)) as (m1 & E1 & P1 & O1).
      { intros k Hk. apply Hz. lia. }
      rewrite E1. cbn [obind]. destruct P1 as [L1 P1].
      destruct (IH1 m1 (ones m + Z.max 0 (b' - a')) So'' Ev) as (m2 & s2 & E2 & P2 & O2 & B2); try lia.
      { intros k Hk. rewrite P1 by lia. unfold in_run. replace ((row * width + a' <=? k) && (k <=? row * width + (b' - 1))) with false by (symmetry; lia).
        apply Hz. lia. }
      exists m2, s2. split; [exact E2|]. split; [|split; assumption].
      eapply painted_trans; [exact (conj L1 P1)|exact P2|]. intros k. rewrite Erow. f_equal. unfold in_run. rewrite Hrw. clear - Ha' Hb'. lia.
    + apply Z.ltb_ge in E0b. cbn [obind]. destruct (IH1 m (ones m) So'' Ev) as (m2 & s2 & E2 & P2 & O2 & B2); try lia.
      { intros k Hk. apply Hz. lia. }
      exists m2, s2. split; [exact E2|]. split; [|split; assumption]. apply (painted_ext _ _ _ _ P2). intros k. rewrite Erow.
      destruct (row_pixels_legacy width row rest k); [now rewrite Bool.orb_true_r|]. rewrite Hrw. clear - E0b Hw. destruct (width <? b) eqn:?; lia.
Qed.

(** ---- The whole mask ---- *)
Lemma row_legacy_at width row nodes i j : 0 <= j < width -> row_pixels_legacy width row nodes (i * width + j) = (i =? row) && row_rule width nodes j.
Proof.
  intros Hj. unfold row_pixels_legacy. destruct (Z.eqb_spec i row) as [->|Hne].
  - replace ((row * width <=? row * width + j) && (row * width + j <? (row + 1) * width)) with true by (symmetry; nia). cbn [andb]. f_equal. lia.
  - replace ((row * width <=? i * width + j) && (i * width + j <? (row + 1) * width)) with false; [reflexivity|]. symmetry.
    destruct (Z.lt_total i row) as [H|[H|H]]; [|lia|]; nia.
Qed.
Lemma rasterize_legacy pts mask width height : Forall (fun p => coord (fst p) /\ coord (snd p)) pts ->
  0 <= width -> 0 <= height <= 2 ^ 23 -> in_int (width * height) = true -> Z.of_nat (List.length mask) = width * height ->
  exists m' , rasterize true pts (Some mask) width height = Ok (Some m', ones m') /\ List.length m' = List.length mask /\
    (forall i j, 0 <= i < height -> 0 <= j < width ->
      nth_error m' (Z.to_nat (i * width + j)) = Some (Some (if row_rule width (legacy_nodes pts i) j then 1%N else 0%N))).
Proof.
  intros Hp Hw Hh Hi Hl. unfold rasterize. rewrite int_result_ok by exact Hi. cbn [obind].
  unfold mem_set. replace (0 <=? width * height) with true by (symmetry; lia).
  replace (Z.to_nat (width * height) <=? List.length mask)%nat with true by (symmetry; apply Nat.leb_le; lia). cbn [andb obind].
  rewrite skipn_all2 by lia. rewrite app_nil_r. cbv zeta.
  destruct (for_range_inv (fun i st => exists m', st = (Some m', ones m') /\ List.length m' = List.length mask /\
      (forall i' j, 0 <= i' < height -> 0 <= j < width -> nth_error m' (Z.to_nat (i' * width + j))
         = Some (Some (if (i' <? i) && row_rule width (legacy_nodes pts i') j then 1%N else 0%N))) /\
      ones m' <= i * width)
    (raster_row true pts width) (Z.to_nat height) 0 (Some (repeat (Some 0%N) (Z.to_nat (width * height))), 0)) as (st & E & m' & -> & L & C & O).
  - intros i st Hr (m & -> & L & C & O). unfold raster_row.
    destruct (legacy_nodes_ok pts i Hp ltac:(lia)) as (E & So & Ln).
    destruct (row_nodes edge_node_legacy i (last pts origin) pts) as [l| | |] eqn:El; cbn [obind] in E |- *; try discriminate E. rewrite E. cbn [obind].
    assert (Ev : Nat.odd (List.length (legacy_nodes pts i)) = false).
    { rewrite Ln. exact (passing_even (fun p => fixed (snd p) <? i * 2 ^ SH) pts). }
    assert (Hst : 0 <= start width (legacy_nodes pts i)) by (unfold start; destruct (legacy_nodes pts i); lia).
    destruct (fill_legacy_ok width height i ltac:(lia) Hi Hw (legacy_nodes pts i) m (ones m) So Ev ltac:(lia)) as (m2 & s2 & E2 & [L2 P2] & O2 & B2).
    { intros k Hk. specialize (C i (k - i * width) ltac:(lia) ltac:(lia)). rewrite Z.ltb_irrefl in C. cbn [andb] in C.
      replace (i * width + (k - i * width)) with k in C by lia. exact C. }
    { reflexivity. }
    { lia. }
    eexists. split; [exact E2|]. exists m2. subst s2. split; [reflexivity|]. split; [congruence|]. split; [|exact B2].
    intros i' j Hi' Hj. pose proof (index_range width height i' j Hj Hi'). rewrite P2 by lia. rewrite row_legacy_at by exact Hj.
    rewrite C by assumption. destruct (i' =? i) eqn:Ee.
    + apply Z.eqb_eq in Ee. subst i'. rewrite Z.ltb_irrefl. replace (i <? i + 1) with true by (symmetry; lia). cbn [andb].
      now destruct (row_rule _ _ j).
    + cbn [andb]. replace (i' <? i + 1) with (i' <? i) by lia. reflexivity.
  - exists (repeat (Some 0%N) (Z.to_nat (width * height))). rewrite ones_zero. split; [reflexivity|]. split; [rewrite repeat_length; lia|].
    split; [|lia]. intros i j Hr Hj. pose proof (index_range width height i j Hj Hr).
    replace (i <? 0) with false by (symmetry; lia). cbn [andb]. apply nth_error_repeat. lia.
  - exists m'. split; [exact E|]. split; [exact L|]. replace (0 + Z.of_nat (Z.to_nat height)) with height in * by lia.
    intros i j Hr Hj. rewrite C by assumption. replace (i <? height) with true by (symmetry; lia). reflexivity.
Qed.

(** ---- Statements ---- *)
Lemma rasterize_legacy_safe pts mask width height : Forall (fun p => near (fst p) /\ near (snd p)) pts ->
  0 <= width -> 0 <= height <= 2 ^ 23 -> in_int (width * height) = true -> Z.of_nat (List.length mask) = width * height ->
  exists mask' nodes, rasterize true pts (Some mask) width height = Ok (Some mask', ones mask') /\
    List.length mask' = List.length mask /\
    (forall i, 0 <= i < height -> List.length (nodes i) =
      List.length (filter (fun s => xorb (units (snd (fst s)) <? i * 2 ^ 1074) (units (snd (snd s)) <? i * 2 ^ 1074)) (sides pts))) /\
    (forall i j, 0 <= i < height -> 0 <= j < width ->
      cell mask' width i j = Some (if Nat.odd (List.length (filter (fun n => n <=? j) (nodes i))) && ((j <? width - 1) || existsb (Z.eqb width) (nodes i))
                                   then 1%N else 0%N)).
Proof.
  intros Hp Hw Hh Hi Hl.
  assert (Hc : Forall (fun p => coord (fst p) /\ coord (snd p)) pts).
  { eapply Forall_impl; [|exact Hp]. intros p [H1 H2]. split; now apply near_coord. }
  destruct (rasterize_legacy pts mask width height Hc Hw Hh Hi Hl) as (m & E & L & C).
  exists m, (legacy_nodes pts). split; [exact E|]. split; [exact L|]. split.
  - intros i Hr. exact (proj2 (proj2 (legacy_nodes_ok pts i Hc ltac:(lia)))).
  - intros i j Hr Hj. apply cell_some. exact (C i j Hr Hj).
Qed.

Lemma legacy_rect_nodes x0 x1 y0 y1 X0 X1 Y0 Y1 row :
  rep x0 X0 -> rep x1 X1 -> rep y0 Y0 -> rep y1 Y1 -> Z.abs X0 <= 2 ^ 23 -> Z.abs X1 <= 2 ^ 23 -> Z.abs Y0 <= 2 ^ 23 -> Z.abs Y1 <= 2 ^ 23 ->
  X0 <= X1 -> Y0 <= Y1 -> 0 <= row <= 2 ^ 23 ->
  legacy_nodes [(x0, y0); (x1, y0); (x1, y1); (x0, y1)] row = if (Y0 <? row) && (row <=? Y1) then [X0; X1] else [].
Proof.
  intros Rx0 Rx1 Ry0 Ry1 Bx0 Bx1 By0 By1 HX HY Hrow.
  pose proof (rep_coord _ _ Rx0 Bx0) as Cx0. pose proof (rep_coord _ _ Rx1 Bx1) as Cx1. pose proof (rep_coord _ _ Ry0 By0) as Cy0. pose proof (rep_coord _ _ Ry1 By1) as Cy1.
  destruct (rep_finite _ _ Ry0) as (_ & _ & V0). destruct (rep_finite _ _ Ry1) as (_ & _ & V1).
  assert (L0 : (fixed y0 <? row * 2 ^ SH) = (Y0 <? row)).
  { rewrite V0. pose proof pow_SH_pos as P. set (U := 2 ^ SH) in *. clearbody U. destruct (Z.ltb_spec Y0 row); [apply Z.ltb_lt, Z.mul_lt_mono_pos_r; lia|apply Z.ltb_ge, Z.mul_le_mono_nonneg_r; lia]. }
  assert (L1 : (fixed y1 <? row * 2 ^ SH) = (Y1 <? row)).
  { rewrite V1. pose proof pow_SH_pos as P. set (U := 2 ^ SH) in *. clearbody U. destruct (Z.ltb_spec Y1 row); [apply Z.ltb_lt, Z.mul_lt_mono_pos_r; lia|apply Z.ltb_ge, Z.mul_le_mono_nonneg_r; lia]. }
  unfold legacy_nodes. cbn [last row_nodes].
  destruct (edge_node_legacy_ok row (x0, y1) (x0, y0) Cx0 Cy1 Cx0 Cy0 Hrow) as (n1 & -> & N1). cbn [fst snd obind] in *.
  destruct (edge_node_legacy_ok row (x0, y0) (x1, y0) Cx0 Cy0 Cx1 Cy0 Hrow) as (n2 & -> & _). cbn [fst snd obind] in *.
  destruct (edge_node_legacy_ok row (x1, y0) (x1, y1) Cx1 Cy0 Cx1 Cy1 Hrow) as (n3 & -> & N3). cbn [fst snd obind] in *.
  destruct (edge_node_legacy_ok row (x1, y1) (x0, y1) Cx1 Cy1 Cx0 Cy1 Hrow) as (n4 & -> & _). cbn [fst snd obind] in *.
  rewrite !L0, !L1 in *. rewrite !Bool.xorb_nilpotent. cbn [app].
  replace ((Y0 <? row) && (row <=? Y1)) with (xorb (Y0 <? row) (Y1 <? row)) by lia.
  replace (xorb (Y1 <? row) (Y0 <? row)) with (xorb (Y0 <? row) (Y1 <? row)) in * by lia.
  destruct (xorb (Y0 <? row) (Y1 <? row)); cbn [app]; [|reflexivity].
  rewrite (N1 eq_refl X0 Bx0 Rx0 Rx0), (N3 eq_refl X1 Bx1 Rx1 Rx1).
  rewrite (bubble_sort_is [X0; X1] [X0; X1]); [reflexivity|apply Permutation_refl|repeat constructor; assumption].
Qed.

Lemma legacy_rect_window x y w h X Y W H wx wy ww wh :
  finite_float x -> finite_float y -> finite_float w -> finite_float h ->
  is_int x X -> is_int y Y -> is_int w W -> is_int h H -> 0 < W -> 0 < H -> 0 < ww -> 0 < wh -> in_int (ww * wh) = true ->
  - 2 ^ 21 <= X -> X + W <= 2 ^ 21 -> - 2 ^ 21 <= Y -> Y + H <= 2 ^ 21 ->
  - 2 ^ 21 <= wx -> wx + ww <= 2 ^ 21 -> - 2 ^ 21 <= wy -> wy + wh <= 2 ^ 21 ->
  exists mask, get_mask_offset true (RRect x y w h) (blk_new (Z.to_nat (ww * wh))) wx wy ww wh = Ok mask /\
    Z.of_nat (List.length mask) = ww * wh /\
    forall i j, 0 <= i < wh -> 0 <= j < ww ->
      cell mask ww i j = Some (if (X <=? wx + j) && (wx + j <? X + W) && (Y <? wy + i) && (wy + i <=? Y + H) &&
                                  ((j <? ww - 1) || (wx + ww =? X + W)) then 1%N else 0%N).
Proof.
  intros F1 F2 F3 F4 I1 I2 I3 I4 HW HH Hww Hwh Ha X1 X2 Y1 Y2 WX1 WX2 WY1 WY2. cbn [get_mask_offset].
  pose proof (is_int_rep _ _ F1 I1) as Rx. pose proof (is_int_rep _ _ F2 I2) as Ry. pose proof (is_int_rep _ _ F3 I3) as Rw. pose proof (is_int_rep _ _ F4 I4) as Rh.
  rewrite !int_result_ok by (apply small_int; lia). cbn [obind].
  pose proof (rep_float_of_int (- wx) ltac:(lia)) as Rwx. pose proof (rep_float_of_int (- wy) ltac:(lia)) as Rwy.
  set (fx := float_of_int (- wx)) in *. set (fy := float_of_int (- wy)) in *. clearbody fx fy.
  unfold rect_points. cbv zeta iota.
  assert (Rx1 : rep (addf x w) (X + W)) by (apply rep_fadd; [apply fmt_float|exact Rx|exact Rw|lia]).
  assert (Ry1 : rep (addf y h) (Y + H)) by (apply rep_fadd; [apply fmt_float|exact Ry|exact Rh|lia]).
  set (x1 := addf x w) in *. set (y1 := addf y h) in *. clearbody x1 y1. cbn [offset_polygon map fst snd].
  assert (Q : forall a b c d, rep a b -> rep c d -> Z.abs (b + d) <= 2 ^ 23 -> rep (addf a c) (b + d)).
  { intros a b c d Ra Rc Hb. apply rep_fadd; [apply fmt_float|assumption|assumption|lia]. }
  pose proof (Q _ _ _ _ Rx Rwx ltac:(lia)) as Q1. pose proof (Q _ _ _ _ Ry Rwy ltac:(lia)) as Q2.
  pose proof (Q _ _ _ _ Rx1 Rwx ltac:(lia)) as Q3. pose proof (Q _ _ _ _ Ry1 Rwy ltac:(lia)) as Q4. clear Q.
  set (a := addf x fx) in *. set (b := addf y fy) in *. set (c := addf x1 fx) in *. set (d := addf y1 fy) in *. clearbody a b c d.
  assert (P : 0 < ww * wh) by (apply Z.mul_pos_pos; lia).
  assert (Hlen : List.length (blk_new (A:=N) (Z.to_nat (ww * wh))) = Z.to_nat (ww * wh)) by (unfold blk_new; apply repeat_length).
  destruct (rasterize_legacy [(a, b); (c, b); (c, d); (a, d)] (blk_new (Z.to_nat (ww * wh))) ww wh) as (m & E & L & C).
  - pose proof (rep_coord _ _ Q1 ltac:(lia)) as C1. pose proof (rep_coord _ _ Q2 ltac:(lia)) as C2.
    pose proof (rep_coord _ _ Q3 ltac:(lia)) as C3. pose proof (rep_coord _ _ Q4 ltac:(lia)) as C4.
    repeat (apply Forall_cons; [cbn [fst snd]; split; assumption|]). apply Forall_nil.
  - lia.
  - lia.
  - exact Ha.
  - rewrite Hlen. lia.
  - match type of E with ?l = _ => match goal with |- context [obind ?r _] => change r with l end end. rewrite E. cbn [obind fst].
    exists m. split; [reflexivity|]. rewrite L, Hlen. split; [lia|]. intros i j Hr Hj. apply cell_some. rewrite C by assumption. do 2 f_equal.
    match goal with |- (if ?p then _ else _) = (if ?q then _ else _) => enough (Hpq : p = q) by now rewrite Hpq end.
    rewrite (legacy_rect_nodes _ _ _ _ _ _ _ _ i Q1 Q3 Q2 Q4) by lia.
    replace (wx + ww =? X + W) with (ww =? X + W + - wx) by lia.
    destruct ((Y + - wy <? i) && (i <=? Y + H + - wy)) eqn:Ei.
    + unfold row_rule, nodes_left. cbn [filter existsb].
      destruct (Z.leb_spec (X + - wx) j), (Z.leb_spec (X + W + - wx) j); try (exfalso; lia);
        unfold Nat.odd; cbn [List.length Nat.even negb andb]; clear - H0 H1 Hj Ei; lia.
    + unfold row_rule, nodes_left. cbn [filter existsb]. change (Nat.odd (List.length (@nil Z))) with false. cbn [andb]. clear - Ei. lia.
Qed.
