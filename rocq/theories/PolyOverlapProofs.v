(** Overlap of polygons, rectangles with any position and size, and masks. *)
From Coq Require Import Permutation.
From Verif Require Import CBase StrMap StrMapProofs Num NumProofs DecimalProofs NumSpec Buffer BufferProofs Region RegionSpec
  FloatOps FloatProofs FloatMono RegionGeom GeomSpec GeomProofs BoundsProofs OverlapProofs RasterProofs PolygonSpec PolygonProofs PolyRasterProofs ConvexRasterProofs OverlapSpec.
Local Open Scope Z_scope.

(** ---- Values between integers ---- *)
Definition between (x : spec_float) (lo hi : Z) : Prop :=
  finite x = true /\ - SH <= fexp x /\ lo * 2 ^ SH <= fixed x <= hi * 2 ^ SH.
Lemma rep_between x z : rep x z -> between x z z.
Proof. intros (F & E & V). split; [exact F|]. split; [unfold SH; lia|lia]. Qed.
Lemma finite_float_parts x : finite_float x -> finite x = true /\ - SH <= fexp x.
Proof.
  intros (V & F). destruct x as [s| | |s m e]; try destruct F; (split; [reflexivity|]); cbn [fexp]; [unfold SH; lia|].
  cbn in V. unfold bounded, canonical_mantissa in V. apply andb_prop in V as [V _]. apply Zeq_bool_eq in V.
  unfold SpecFloat.fexp, emin in V. unfold SH. lia.
Qed.
Lemma fl_int p emax z : fmt p emax -> Z.abs z < 2 ^ p -> p <= emax -> fl p emax (z * 2 ^ SH).
Proof. intros (H1 & H2 & H3 & H4) Hz Hp. exists z, 0. split; [f_equal; f_equal; lia|]. split; [exact Hz|]. lia. Qed.

Lemma between_add x y lo hi z : between x lo hi -> rep y z -> Z.abs (lo + z) < 2 ^ 24 -> Z.abs (hi + z) < 2 ^ 24 ->
  between (addf x y) (lo + z) (hi + z).
Proof.
  intros (Fx & Ex & V1 & V2) (Fy & Ey & Vy) B1 B2.
  destruct (fadd_s 24 128 x y Fx Fy Ex ltac:(unfold SH in *; lia)) as (zs & num & den & E & D & Q). rewrite Vy in Q.
  unfold addf. rewrite E. destruct (above_below_finite (round_s 24 128 zs num den) ((lo + z) * 2 ^ SH) ((hi + z) * 2 ^ SH)) as (F & Fe & V).
  - apply round_s_above; [apply fmt_float|exact D|apply fl_int; [apply fmt_float|exact B1|lia]|]. rewrite Q. apply Z.mul_le_mono_nonneg_l; lia.
  - apply round_s_below; [apply fmt_float|exact D|apply fl_int; [apply fmt_float|exact B2|lia]|]. rewrite Q. apply Z.mul_le_mono_nonneg_l; lia.
  - split; [exact F|]. split; [exact Fe|exact V].
Qed.

Lemma round_int_between m e lo hi : - SH <= e -> lo * 2 ^ SH <= m * 2 ^ (e + SH) <= hi * 2 ^ SH -> lo <= round_int m e <= hi.
Proof.
  intros He [V1 V2]. pose proof pow_SH_pos as P. unfold round_int. destruct (0 <=? e) eqn:E; [apply Z.leb_le in E|apply Z.leb_gt in E].
  - rewrite Z.pow_add_r in V1, V2 by (unfold SH; lia). rewrite Z.mul_assoc in V1, V2.
    split; apply (Z.mul_le_mono_pos_r _ _ (2 ^ SH) P); assumption.
  - pose proof (pow2_pos (e + SH) ltac:(lia)) as P1. pose proof (pow2_pos (- e) ltac:(lia)) as P2.
    assert (HS : 2 ^ SH = 2 ^ (- e) * 2 ^ (e + SH)) by (rewrite <- Z.pow_add_r by lia; f_equal; lia). rewrite HS, !Z.mul_assoc in *.
    apply (Z.mul_le_mono_pos_r _ _ _ P1) in V1. apply (Z.mul_le_mono_pos_r _ _ _ P1) in V2.
    replace (1 - e) with (1 + - e) by ring. rewrite Z.pow_add_r by lia. change (2 ^ 1) with 2. set (c := 2 ^ - e) in *. clearbody c. clear - V1 V2 P2. split.
    + apply Z.div_le_lower_bound; lia.
    + apply Z.lt_succ_r, Z.div_lt_upper_bound; lia.
Qed.
Lemma fround_between x lo hi : between x lo hi -> Z.abs lo <= 2 ^ 24 -> Z.abs hi <= 2 ^ 24 ->
  exists z, lo <= z <= hi /\ rep (float_of_double (fround x)) z.
Proof.
  intros (F & E & V) B1 B2. pose proof pow_SH_pos as P. destruct x as [s| | |s m e]; try discriminate F.
  - exists 0. cbn [fixed] in V. split; [split|]; [apply (Z.mul_le_mono_pos_r _ _ (2 ^ SH) P); lia|apply (Z.mul_le_mono_pos_r _ _ (2 ^ SH) P); lia|].
    cbn [fround float_of_double]. apply rep_zero.
  - cbn [fexp fixed] in *. exists ((if s then -1 else 1) * round_int (Z.pos m) e).
    assert (R : lo <= (if s then -1 else 1) * round_int (Z.pos m) e <= hi).
    { destruct s; [pose proof (round_int_between (Z.pos m) e (- hi) (- lo) E)|pose proof (round_int_between (Z.pos m) e lo hi E)]; lia. }
    split; [exact R|]. apply rep_float_of_double; [|lia]. cbn [fround].
    apply round_dyadic_rep; [apply fmt_double|unfold SH; lia|rewrite Z.add_0_l; reflexivity|lia].
Qed.

Lemma floor_int_between m e z : - SH <= e -> z * 2 ^ SH <= m * 2 ^ (e + SH) < (z + 1) * 2 ^ SH -> floor_int m e = z.
Proof.
  intros He [V1 V2]. pose proof pow_SH_pos as P. unfold floor_int. destruct (0 <=? e) eqn:E; [apply Z.leb_le in E|apply Z.leb_gt in E].
  - rewrite Z.pow_add_r in V1, V2 by (unfold SH; lia). rewrite Z.mul_assoc in V1, V2.
    apply (Z.mul_le_mono_pos_r _ _ (2 ^ SH) P) in V1. apply (Z.mul_lt_mono_pos_r (2 ^ SH) _ _ P) in V2. lia.
  - pose proof (pow2_pos (e + SH) ltac:(lia)) as P1. pose proof (pow2_pos (- e) ltac:(lia)) as P2.
    assert (HS : 2 ^ SH = 2 ^ (- e) * 2 ^ (e + SH)) by (rewrite <- Z.pow_add_r by lia; f_equal; lia). rewrite HS, !Z.mul_assoc in *.
    apply (Z.mul_le_mono_pos_r _ _ _ P1) in V1. apply (Z.mul_lt_mono_pos_r _ _ _ P1) in V2.
    symmetry. apply (Z.div_unique m _ z (m - z * 2 ^ (- e))); lia.
Qed.
Lemma rounds_down_rep x z : rounds_down x z -> Z.abs z <= 2 ^ 24 -> rep (float_of_double (ffloor x)) z.
Proof.
  intros (Fx & V) Hz. destruct (finite_float_parts x Fx) as (F & E). change units with fixed in V. change (2 ^ 1074) with (2 ^ SH) in V.
  apply rep_float_of_double; [|exact Hz]. pose proof pow_SH_pos as P. destruct x as [s| | |s m e]; try discriminate F.
  - cbn [fixed] in V. assert (z = 0); [|subst z; apply rep_zero]. destruct V as [V1 V2].
    assert (z <= 0) by (apply (Z.mul_le_mono_pos_r _ _ (2 ^ SH) P); lia). assert (0 < z + 1) by (apply (Z.mul_lt_mono_pos_r (2 ^ SH) _ _ P); lia). lia.
  - unfold ffloor. rewrite fixed_mant in V by reflexivity. rewrite (floor_int_between _ _ z E V).
    apply round_dyadic_rep; [apply fmt_double|unfold SH; lia|reflexivity|lia].
Qed.
Lemma rounds_up_rep x z : rounds_up x z -> Z.abs z <= 2 ^ 24 -> rep (float_of_double (fceil x)) z.
Proof.
  intros (Fx & V) Hz. destruct (finite_float_parts x Fx) as (F & E). change units with fixed in V. change (2 ^ 1074) with (2 ^ SH) in V.
  apply rep_float_of_double; [|exact Hz]. pose proof pow_SH_pos as P. destruct x as [s| | |s m e]; try discriminate F.
  - cbn [fixed] in V. assert (z = 0); [|subst z; apply rep_zero]. destruct V as [V1 V2].
    assert (0 <= z) by (apply (Z.mul_le_mono_pos_r _ _ (2 ^ SH) P); lia). assert (z - 1 < 0) by (apply (Z.mul_lt_mono_pos_r (2 ^ SH) _ _ P); lia). lia.
  - unfold fceil. rewrite fixed_mant in V by reflexivity. rewrite (floor_int_between _ _ (- z) E) by lia. rewrite Z.opp_involutive.
    apply round_dyadic_rep; [apply fmt_double|unfold SH; lia|reflexivity|lia].
Qed.
Lemma pixel_box_rounds g bx l t r b : compute_bounds false g = Ok bx ->
  rounds_down (left bx) l -> rounds_down (top bx) t -> rounds_up (right bx) r -> rounds_up (bottom bx) b ->
  Z.abs l <= 2 ^ 24 -> Z.abs t <= 2 ^ 24 -> Z.abs r <= 2 ^ 24 -> Z.abs b <= 2 ^ 24 -> zbounds (bounds_round bx) t b l r.
Proof.
  intros _ H1 H2 H3 H4 B1 B2 B3 B4. unfold zbounds, bounds_round. cbn [top bottom left right].
  split; [now apply rounds_down_rep|]. split; [now apply rounds_up_rep|]. split; [now apply rounds_down_rep|now apply rounds_up_rep].
Qed.

(** ---- Nodes lie between the ends of their side ---- *)
Lemma int_of_float_between x lo hi : between x lo hi -> Z.abs lo <= 2 ^ 30 -> Z.abs hi <= 2 ^ 30 ->
  exists n, int_of_float x = Ok n /\ lo <= n <= hi.
Proof.
  intros (F & E & V1 & V2) B1 B2. pose proof pow_SH_pos as P. destruct x as [s| | |s m e]; try discriminate F.
  - exists 0. split; [reflexivity|]. cbn [fixed] in *. split; apply (Z.mul_le_mono_pos_r _ _ (2 ^ SH) P); lia.
  - cbn [fexp fixed] in *. set (t := trunc_pos (Z.pos m) e).
    assert (T : floor_int (Z.pos m) e = t) by reflexivity.
    assert (Q : t * 2 ^ SH <= Z.pos m * 2 ^ (e + SH) < (t + 1) * 2 ^ SH).
    { unfold t, trunc_pos. destruct (0 <=? e) eqn:Ee; [apply Z.leb_le in Ee|apply Z.leb_gt in Ee].
      - rewrite (Z.pow_add_r 2 e SH) by (unfold SH; lia). lia.
      - pose proof (pow2_pos (- e) ltac:(lia)) as Pn. pose proof (Z.div_mod (Z.pos m) (2 ^ - e) ltac:(lia)) as DM. pose proof (Z.mod_pos_bound (Z.pos m) (2 ^ - e) Pn) as MB.
        pose proof (pow2_pos (e + SH) ltac:(lia)) as Pe.
        set (q := Z.pos m / 2 ^ - e) in *. set (r := Z.pos m mod 2 ^ - e) in *. assert (HS : 2 ^ SH = 2 ^ (- e) * 2 ^ (e + SH)) by (rewrite <- (Z.pow_add_r 2 (- e) (e + SH)) by lia; f_equal; lia).
        rewrite HS. set (c := 2 ^ - e) in *. set (u := 2 ^ (e + SH)) in *. clearbody q r c u. rewrite DM. clear - Pn MB Pe.
        assert (0 <= r * u) by (apply Z.mul_nonneg_nonneg; lia). assert (r * u < c * u) by (apply Z.mul_lt_mono_pos_r; lia). lia. }
    assert (P1 : 0 < Z.pos m * 2 ^ (e + SH)) by (apply Z.mul_pos_pos; [lia|apply pow2_pos; lia]).
    assert (R : lo <= (if s then - t else t) <= hi).
    { clear - P Q V1 V2 P1. set (v := Z.pos m * 2 ^ (e + SH)) in *. clearbody v t. set (u := 2 ^ SH) in *. clearbody u.
      assert (0 < t + 1) by (apply (Z.mul_lt_mono_pos_r u); lia).
      destruct s.
      - assert (- hi < t + 1) by (apply (Z.mul_lt_mono_pos_r u); lia). assert (t <= - lo) by (apply (Z.mul_le_mono_pos_r _ _ u P); lia). lia.
      - assert (lo < t + 1) by (apply (Z.mul_lt_mono_pos_r u); lia). assert (t <= hi) by (apply (Z.mul_le_mono_pos_r _ _ u P); lia). lia. }
    exists (if s then - t else t). split; [|exact R]. cbn [int_of_float]. fold t.
    rewrite in_int_of; [reflexivity|]. unfold INT_MIN, INT_MAX. change (2 ^ 30) with 1073741824 in *. clear - R B1 B2. destruct s; lia.
Qed.

Lemma edge_node_between row pj pi zj zi : rep_pt pj zj -> rep_pt pi zi -> Z.abs row <= 2 ^ 23 ->
  exists l, edge_node row pj pi = Ok l /\
    forall n, In n l -> Z.min (fst zj) (fst zi) <= n <= Z.max (fst zj) (fst zi) /\ Z.min (snd zj) (snd zi) <= row <= Z.max (snd zj) (snd zi).
Proof.
  destruct pj as [xj yj], pi as [xi yi], zj as [Xj Yj], zi as [Xi Yi]. unfold rep_pt. cbn [fst snd].
  intros (Rxj & Ryj & Bxj & Byj) (Rxi & Ryi & Bxi & Byi) Hrow. unfold edge_node.
  rewrite (rep_int _ _ Ryi) by (apply small_int; lia). cbn [obind].
  rewrite (rep_int _ _ Ryj) by (apply small_int; lia). cbn [obind].
  replace (((Yi <=? row) && (row <? Yj)) || ((Yj <=? row) && (row <? Yi)) || ((Yi <? row) && (row <=? Yj)) ||
     ((Yj <? row) && (row <=? Yi)) || ((Yi =? Yj) && (Yi =? row))) with (on_row row Yi Yj) by (unfold on_row; lia).
  destruct (on_row row Yi Yj) eqn:Eon.
  2:{ exists []. split; [reflexivity|]. intros n []. }
  assert (Hon : Z.min Yi Yj <= row <= Z.max Yi Yj) by (unfold on_row in Eon; lia).
  pose proof (rep_fsub 24 128 yj yi Yj Yi fmt_float Ryj Ryi ltac:(lia)) as Rr. fold subf in Rr.
  pose proof (rep_fsub 24 128 xj xi Xj Xi fmt_float Rxj Rxi ltac:(lia)) as Rk. fold subf in Rk.
  pose proof (rep_fsub 24 128 _ yi row Yi fmt_float (rep_float_of_int row ltac:(lia)) Ryi ltac:(lia)) as Ra. fold subf in Ra.
  rewrite (rep_eq _ _ _ _ Rr (rep_zero false)). destruct (Yj - Yi =? 0) eqn:Ez.
  - rewrite (rep_int _ _ Rxi) by (apply small_int; lia). cbn [obind]. exists [Xi]. split; [reflexivity|]. intros n [<-|[]]. lia.
  - apply Z.eqb_neq in Ez. set (A := row - Yi) in *. set (R := Yj - Yi) in *. set (K := Xj - Xi) in *.
    assert (HA : 0 <= A * Z.sgn R <= Z.abs R) by (unfold A, R in *; destruct (Z.sgn_spec (Yj - Yi)) as [(? & ->)|[(? & ->)|(? & ->)]]; lia).
    assert (BK : Z.abs K <= 2 ^ 24) by (clear - Bxi Bxj; unfold K; lia).
    (* the quotient is between 0 and 1 *)
    set (t := divd _ _). assert (T : between t 0 1).
    { destruct Ra as (Fa & Ea & Va), Rr as (Fr & Er & Vr). pose proof pow_SH_pos as P.
      assert (N : fixed (subf yj yi) <> 0) by (rewrite Vr; apply Z.neq_mul_0; split; [exact Ez|lia]).
      destruct (fdiv_s 53 1024 _ _ Fa Fr ltac:(unfold SH in *; lia) ltac:(unfold SH in *; lia) N) as (zs & num & den & E & D & Q).
      rewrite Va, Vr in Q. assert (Q' : num * R = A * den) by (apply (Z.mul_cancel_r _ _ (2 ^ SH)); lia).
      assert (B : 0 <= num <= den). { clear - Q' D HA Ez. destruct (Z.sgn_spec R) as [(H & E)|[(H & E)|(H & E)]]; rewrite E in HA; [|lia|]; split; nia. }
      unfold t, divd. rewrite E. destruct (above_below_finite (round_s 53 1024 zs num den) (0 * 2 ^ SH) (1 * 2 ^ SH)) as (F & Fe & V).
      - apply round_s_above; [apply fmt_double|exact D|apply fl_exact; lia|]. rewrite Z.mul_0_l, Z.mul_0_r. apply Z.mul_nonneg_nonneg; lia.
      - apply round_s_below; [apply fmt_double|exact D|apply fl_exact; lia|]. rewrite Z.mul_1_l. apply Z.mul_le_mono_nonneg_r; lia.
      - split; [exact F|split; [exact Fe|exact V]]. }
    clearbody t.
    assert (Mk : between (muld t (subf xj xi)) (Z.min 0 K) (Z.max 0 K)).
    { destruct T as (Ft & Et & Vt), Rk as (Fk & Ek & Vk). pose proof pow_SH_pos as P.
      destruct (fmul_s 53 1024 _ _ Ft Fk Et ltac:(unfold SH in *; lia)) as (zs & num & den & E & D & Q). rewrite Vk in Q.
      assert (Q' : num * 2 ^ SH = den * (fixed t * K)). { apply (Z.mul_cancel_r _ _ (2 ^ SH)); [lia|]. rewrite Q. ring. }
      unfold muld. rewrite E. rewrite Z.mul_0_l, Z.mul_1_l in Vt.
      assert (B : Z.min 0 K * 2 ^ SH <= fixed t * K <= Z.max 0 K * 2 ^ SH).
      { clear - Vt P. set (u := 2 ^ SH) in *. set (f := fixed t) in *. clearbody u f. destruct (Z.le_ge_cases 0 K) as [H|H];
          [rewrite Z.min_l, Z.max_r by lia|rewrite Z.min_r, Z.max_l by lia]; split; nia. }
      destruct (above_below_finite (round_s 53 1024 zs num den) (Z.min 0 K * 2 ^ SH) (Z.max 0 K * 2 ^ SH)) as (F & Fe & V).
      - apply round_s_above; [apply fmt_double|exact D|apply fl_exact; clear - BK; lia|]. rewrite Q'. apply Z.mul_le_mono_nonneg_l; lia.
      - apply round_s_below; [apply fmt_double|exact D|apply fl_exact; clear - BK; lia|]. rewrite Q'. apply Z.mul_le_mono_nonneg_l; lia.
      - split; [exact F|split; [exact Fe|exact V]]. }
    set (mk := muld _ _) in *. clearbody mk.
    assert (Ss : between (addd xi mk) (Z.min Xj Xi) (Z.max Xj Xi)).
    { destruct Mk as (Fm & Em & Vm), Rxi as (Fx & Ex & Vx).
      destruct (fadd_s 53 1024 _ _ Fx Fm ltac:(unfold SH in *; lia) Em) as (zs & num & den & E & D & Q). rewrite Vx in Q.
      replace (Z.min Xj Xi) with (Xi + Z.min 0 K) by (clear; unfold K; lia). replace (Z.max Xj Xi) with (Xi + Z.max 0 K) by (clear; unfold K; lia).
      unfold addd. rewrite E. destruct (above_below_finite (round_s 53 1024 zs num den) ((Xi + Z.min 0 K) * 2 ^ SH) ((Xi + Z.max 0 K) * 2 ^ SH)) as (F & Fe & V).
      - apply round_s_above; [apply fmt_double|exact D|apply fl_exact; clear - BK Bxi; lia|]. rewrite Q. apply Z.mul_le_mono_nonneg_l; lia.
      - apply round_s_below; [apply fmt_double|exact D|apply fl_exact; clear - BK Bxi; lia|]. rewrite Q. apply Z.mul_le_mono_nonneg_l; lia.
      - split; [exact F|split; [exact Fe|exact V]]. }
    destruct (int_of_float_between _ _ _ Ss ltac:(clear - Bxi Bxj; lia) ltac:(clear - Bxi Bxj; lia)) as (n & En & Bn). rewrite En. cbn [obind].
    exists [n]. split; [reflexivity|]. intros n' [<-|[]]. clear - Bn Hon. lia.
Qed.

Definition inside_box (l t r b : Z) (z : Z * Z) : Prop := l <= fst z <= r /\ t <= snd z <= b.
Lemma row_nodes_between l t r b row pts zs : Forall2 rep_pt pts zs -> Forall (inside_box l t r b) zs -> Z.abs row <= 2 ^ 23 ->
  forall pj zj, rep_pt pj zj -> inside_box l t r b zj ->
  exists ns, row_nodes edge_node row pj pts = Ok ns /\ forall n, In n ns -> inside_box l t r b (n, row).
Proof.
  intros H HB Hrow. revert HB. induction H as [|p z pts zs Hp H IH]; intros HB pj zj Hj Bj; cbn [row_nodes].
  - exists []. split; [reflexivity|]. intros n [].
  - inversion HB as [|? ? Bz HB']; subst. destruct (edge_node_between row pj p zj z Hj Hp Hrow) as (ns1 & E1 & N1). rewrite E1. cbn [obind].
    destruct (IH HB' p z Hp Bz) as (ns2 & E2 & N2). rewrite E2. cbn [obind]. eexists. split; [reflexivity|].
    intros n Hn. apply in_app_iff in Hn as [Hn|Hn]; [|now apply N2]. apply N1 in Hn. unfold inside_box in *. cbn [fst snd]. lia.
Qed.
Lemma covered_between nodes j : covered nodes j = true -> exists a c, In a nodes /\ In c nodes /\ a <= j <= c.
Proof.
  induction nodes as [|a|a b rest IH1 IH2] using list_ind2; cbn [covered]; try discriminate.
  change (match rest with [] => false | b0 :: rest0 => _ end) with (covered (b :: rest) j).
  destruct (_ && _).
  - intros H. apply IH2 in H as (c & d & H1 & H2 & H3). exists c, d. cbn [In] in *. tauto.
  - intros H. apply Bool.orb_true_iff in H as [H|H].
    + exists a, b. cbn [In]. apply andb_prop in H. split; [tauto|]. split; [tauto|]. lia.
    + apply IH1 in H as (c & d & H1 & H2 & H3). exists c, d. cbn [In]. tauto.
Qed.
Lemma last_in {A} (l : list A) d : l <> [] -> In (last l d) l.
Proof. induction l as [|a l IH]; [congruence|]. intros _. destruct l as [|a' l]; [now left|]. right. apply IH. discriminate. Qed.
Lemma covered_in_box l t r b row j pts zs : Forall2 rep_pt pts zs -> Forall (inside_box l t r b) zs -> Z.abs row <= 2 ^ 23 ->
  covered (sorted_nodes pts row) j = true -> inside_box l t r b (j, row).
Proof.
  intros H HB Hrow HC. destruct zs as [|z0 zs0] eqn:Ez.
  { inversion H; subst. exfalso. revert HC. unfold sorted_nodes. cbn. discriminate. }
  rewrite <- Ez in *. assert (Bl : inside_box l t r b (last zs (0, 0))).
  { rewrite Forall_forall in HB. apply HB, last_in. rewrite Ez. discriminate. }
  destruct (row_nodes_between l t r b row pts zs H HB Hrow _ _ (rep_last _ _ H) Bl) as (ns & E & N).
  unfold sorted_nodes in HC. rewrite E in HC. cbn [obind] in HC. destruct (bubble_sort_spec ns) as (ns' & E' & P & _). rewrite E' in HC.
  apply covered_between in HC as (a & c & Ha & Hc & Hj).
  assert (Ia : In a ns) by (apply (Permutation_in a (Permutation_sym P)), Ha). assert (Ic : In c ns) by (apply (Permutation_in c (Permutation_sym P)), Hc).
  apply N in Ia. apply N in Ic. unfold inside_box in *. cbn [fst snd] in *. lia.
Qed.

(** ---- The pixels drawn in one window ---- *)
Definition outline (g : region) : list (spec_float * spec_float) :=
  match g with RRect x y w h => rect_points false x y w h | RPoly pts => pts | _ => [] end.
Definition window_points (g : region) (w : window) : list (spec_float * spec_float) :=
  offset_polygon (outline g) (float_of_int (- w_x w)) (float_of_int (- w_y w)).
Definition drawn_value (g : region) (w : window) (A B : Z) : N :=
  match g with
  | RMask x y mw mh data => value_at x y mw mh data A B
  | _ => if (w_x w <=? A) && (A <? w_x w + w_width w) && (w_y w <=? B) && (B <? w_y w + w_height w) &&
            covered (sorted_nodes (round_polygon (window_points g w)) (B - w_y w)) (A - w_x w) then 1%N else 0%N
  end.
Definition good_window (K n : Z) (w : window) : Prop :=
  small_window K (w_x w) (w_y w) (w_width w) (w_height w) /\ w_height w * (w_width w + n) <= INT_MAX.
Definition is_window (w : window) (x y ww wh : Z) : Prop := w = mkWindow x y ww wh.

Lemma window_points_rep l t r b pts w : Forall (fun p => between (fst p) l r /\ between (snd p) t b) pts ->
  - 2 ^ 21 <= l -> r <= 2 ^ 21 -> - 2 ^ 21 <= t -> b <= 2 ^ 21 -> Z.abs (w_x w) <= 2 ^ 21 -> Z.abs (w_y w) <= 2 ^ 21 ->
  exists zs, Forall2 rep_pt (round_polygon (offset_polygon pts (float_of_int (- w_x w)) (float_of_int (- w_y w)))) zs /\
    Forall (inside_box (l - w_x w) (t - w_y w) (r - w_x w) (b - w_y w)) zs.
Proof.
  intros H B1 B2 B3 B4 Wx Wy. pose proof (rep_float_of_int (- w_x w) ltac:(lia)) as Rx. pose proof (rep_float_of_int (- w_y w) ltac:(lia)) as Ry.
  induction H as [|p pts [Hx Hy] H (zs & F & I)]; [exists []; split; constructor|].
  assert (Ol : l <= r). { destruct Hx as (_ & _ & V). apply (Z.mul_le_mono_pos_r _ _ (2 ^ SH) pow_SH_pos). lia. }
  assert (Ot : t <= b). { destruct Hy as (_ & _ & V). apply (Z.mul_le_mono_pos_r _ _ (2 ^ SH) pow_SH_pos). lia. }
  pose proof (between_add _ _ _ _ _ Hx Rx ltac:(lia) ltac:(lia)) as Ax. pose proof (between_add _ _ _ _ _ Hy Ry ltac:(lia) ltac:(lia)) as Ay.
  destruct (fround_between _ _ _ Ax ltac:(lia) ltac:(lia)) as (X & BX & RX). destruct (fround_between _ _ _ Ay ltac:(lia) ltac:(lia)) as (Y & BY & RY).
  exists ((X, Y) :: zs). split.
  - cbn [offset_polygon round_polygon map fst snd]. constructor; [|exact F]. unfold rep_pt. cbn [fst snd].
    split; [exact RX|]. split; [exact RY|]. split; lia.
  - constructor; [|exact I]. unfold inside_box. cbn [fst snd]. lia.
Qed.

Lemma outline_mask g w : match g with RRect _ _ _ _ | RPoly _ => True | _ => False end -> Z.abs (w_x w) <= 2 ^ 21 -> Z.abs (w_y w) <= 2 ^ 21 -> forall m,
  get_mask_offset false g m (w_x w) (w_y w) (w_width w) (w_height w)
  = (s <- rasterize false (window_points g w) (Some m) (w_width w) (w_height w) ;; match fst s with Some b => Ok b | None => UB end).
Proof.
  intros Hg Hx Hy m. unfold get_mask_offset, window_points. destruct g; try destruct Hg; cbn [outline]; rewrite !int_result_ok by (apply small_int; lia); reflexivity.
Qed.

Lemma outline_pixels g w l t r b : match g with RRect _ _ _ _ | RPoly _ => True | _ => False end ->
  Forall (fun p => between (fst p) l r /\ between (snd p) t b) (outline g) ->
  - 2 ^ 21 <= l -> r <= 2 ^ 21 -> - 2 ^ 21 <= t -> b <= 2 ^ 21 -> good_window (2 ^ 21) (corners g) w ->
  (forall A B, drawn_value g w A B <> 0%N -> l <= A <= r /\ t <= B <= b) /\
  get_mask_offset false g (blk_new (Z.to_nat (w_width w * w_height w))) (w_x w) (w_y w) (w_width w) (w_height w)
  = Ok (map Some (pixels_of (drawn_value g w) (window_pixels (w_x w) (w_y w) (w_width w) (w_height w)))).
Proof.
  intros Hg HP B1 B2 B3 B4 ((Hw & Hh & Ha & W1 & W2 & W3 & W4) & Hsum).
  destruct (window_points_rep l t r b (outline g) w HP B1 B2 B3 B4 ltac:(lia) ltac:(lia)) as (zs & F & I). fold (window_points g w) in F.
  assert (Ev : forall A B, drawn_value g w A B = if (w_x w <=? A) && (A <? w_x w + w_width w) && (w_y w <=? B) && (B <? w_y w + w_height w) &&
            covered (sorted_nodes (round_polygon (window_points g w)) (B - w_y w)) (A - w_x w) then 1%N else 0%N) by (destruct g; try destruct Hg; reflexivity).
  assert (Hh' : w_height w <= 2 ^ 22 + 1) by lia.
  split.
  - intros A B. rewrite Ev. destruct (_ && covered _ _) eqn:E; [|congruence]. intros _. rewrite !Bool.andb_true_iff in E. destruct E as [E C].
    apply (covered_in_box (l - w_x w) (t - w_y w) (r - w_x w) (b - w_y w) _ _ _ zs F I) in C; [|lia]. unfold inside_box in C. cbn [fst snd] in C. lia.
  - rewrite outline_mask by (assumption || lia). pose proof (Z.mul_pos_pos _ _ Hw Hh) as Pos.
    assert (Hlen : List.length (blk_new (A:=N) (Z.to_nat (w_width w * w_height w))) = Z.to_nat (w_width w * w_height w)) by (unfold blk_new; apply repeat_length).
    destruct (rasterize_rep (window_points g w) zs (blk_new (Z.to_nat (w_width w * w_height w))) (w_width w) (w_height w) F) as (m & sum & E & L & C & _).
    + lia.
    + lia.
    + apply in_int_of. unfold INT_MIN, INT_MAX. lia.
    + rewrite Hlen. lia.
    + replace (Z.of_nat (List.length (window_points g w))) with (corners g); [exact Hsum|].
      unfold window_points, offset_polygon. rewrite map_length. destruct g; try destruct Hg; reflexivity.
    + match type of E with ?l = _ => match goal with |- context [obind ?r _] => change r with l end end. rewrite E. cbn [obind fst]. f_equal. apply nth_error_ext. intros k. unfold pixels_of, window_pixels. rewrite !map_map, nth_error_map.
      rewrite Hlen in L. destruct (Nat.lt_ge_cases k (Z.to_nat (w_width w * w_height w))) as [Hk|Hk].
      * rewrite (nth_error_nth' (seq 0 (Z.to_nat (w_width w * w_height w))) O) by (rewrite seq_length; lia). rewrite seq_nth by lia. cbn [option_map Nat.add fst snd].
        pose proof (Z.div_mod (Z.of_nat k) (w_width w) ltac:(lia)) as DM. pose proof (Z.mod_pos_bound (Z.of_nat k) (w_width w) Hw) as MB.
        assert (D1 : 0 <= Z.of_nat k / w_width w) by (apply Z.div_pos; lia).
        assert (D2 : Z.of_nat k / w_width w < w_height w) by (apply Z.div_lt_upper_bound; lia).
        set (i := Z.of_nat k / w_width w) in *. set (j := Z.of_nat k mod w_width w) in *. clearbody i j.
        replace k with (Z.to_nat (i * w_width w + j)) by lia. rewrite C by lia. rewrite Ev. do 2 f_equal.
        replace (w_x w <=? w_x w + j) with true by (symmetry; lia). replace (w_x w + j <? w_x w + w_width w) with true by (symmetry; lia).
        replace (w_y w <=? w_y w + i) with true by (symmetry; lia). replace (w_y w + i <? w_y w + w_height w) with true by (symmetry; lia). cbn [andb].
        replace (w_x w + j - w_x w) with j by ring. replace (w_y w + i - w_y w) with i by ring. reflexivity.
      * rewrite !(proj2 (nth_error_None _ _)); [reflexivity| |lia]. rewrite seq_length. lia.
Qed.

(** ---- Regions and their windows ---- *)
Lemma mul_lower lo hi : lo * 2 ^ SH <= hi * 2 ^ SH -> lo <= hi.
Proof. apply (Z.mul_le_mono_pos_r _ _ (2 ^ SH) pow_SH_pos). Qed.
Lemma mul_lower_lt lo hi : lo * 2 ^ SH < hi * 2 ^ SH -> lo < hi.
Proof. apply (Z.mul_lt_mono_pos_r (2 ^ SH) _ _ pow_SH_pos). Qed.

Lemma region_pixels g w l t r b : proper g -> pixel_box g l t r b -> l < r -> t < b ->
  - 2 ^ 21 <= l -> r <= 2 ^ 21 -> - 2 ^ 21 <= t -> b <= 2 ^ 21 -> good_window (2 ^ 21) (corners g) w ->
  has_pixels_in (is_window w) false g (2 ^ 21) (drawn_value g w) l t r b.
Proof.
  intros Hg (bx & Eb & Dl & Dt & Ur & Ub) Olr Otb B1 B2 B3 B4 Hw.
  assert (Zb : zbounds (bounds_round bx) t b l r) by (apply (pixel_box_rounds g); assumption || lia).
  assert (Hbox : forall bx', bx' = bx -> exists bx, compute_bounds false g = Ok bx /\ zbounds (if false then bx else bounds_round bx) t b l r)
    by (intros _ _; exists bx; split; assumption).
  assert (Hout : match g with RRect _ _ _ _ | RPoly _ => True | _ => False end ->
    Forall (fun p => between (fst p) l r /\ between (snd p) t b) (outline g) -> has_pixels_in (is_window w) false g (2 ^ 21) (drawn_value g w) l t r b).
  { intros Hk HP. destruct (outline_pixels g w l t r b Hk HP B1 B2 B3 B4 Hw) as (P1 & P2).
    split; [exact P1|]. split; [lia|]. split; [exact (Hbox bx eq_refl)|]. intros x y ww wh ->. exact P2. }
  destruct Dl as (Fl & Vl1 & Vl2), Dt as (Ft & Vt1 & Vt2), Ur as (Fr & Vr1 & Vr2), Ub as (Fb & Vb1 & Vb2).
  change units with fixed in Vl1, Vl2, Vt1, Vt2, Vr1, Vr2, Vb1, Vb2. change (2 ^ 1074) with (2 ^ SH) in Vl1, Vl2, Vt1, Vt2, Vr1, Vr2, Vb1, Vb2.
  destruct g as [c|x y rw rh|pts|x y mw mh data]; cbn [proper] in Hg; try destruct Hg.
  - (* rectangles *)
    apply Hout; [exact Logic.I|]. injection Eb as Eb. subst bx. unfold bounds_rectangle in *. cbn [top bottom left right] in *.
    cbn [outline rect_points]. set (x1 := subf (addf x rw) float_one) in *. set (y1 := subf (addf y rh) float_one) in *.
    apply finite_float_parts in Fl as (Fl & El), Ft as (Ft & Et), Fr as (Fr & Er), Fb as (Fb & Eb).
    assert (Hx : (l + 1) * 2 ^ SH <= r * 2 ^ SH) by (apply Z.mul_le_mono_nonneg_r; [apply pow2_nonneg|lia]).
    assert (Hy : (t + 1) * 2 ^ SH <= b * 2 ^ SH) by (apply Z.mul_le_mono_nonneg_r; [apply pow2_nonneg|lia]).
    assert (Hx' : l * 2 ^ SH <= (r - 1) * 2 ^ SH) by (apply Z.mul_le_mono_nonneg_r; [apply pow2_nonneg|lia]).
    assert (Hy' : t * 2 ^ SH <= (b - 1) * 2 ^ SH) by (apply Z.mul_le_mono_nonneg_r; [apply pow2_nonneg|lia]).
    assert (Bx0 : between x l r) by (split; [exact Fl|split; [exact El|clear - Vl1 Vl2 Hx; lia]]).
    assert (Bx1 : between x1 l r) by (split; [exact Fr|split; [exact Er|clear - Vr1 Vr2 Hx'; lia]]).
    assert (By0 : between y t b) by (split; [exact Ft|split; [exact Et|clear - Vt1 Vt2 Hy; lia]]).
    assert (By1 : between y1 t b) by (split; [exact Fb|split; [exact Eb|clear - Vb1 Vb2 Hy'; lia]]).
    constructor; [auto|]. constructor; [auto|]. constructor; [auto|]. constructor; [auto|constructor].
  - (* polygons *)
    apply Hout; [exact Logic.I|]. injection Eb as Eb. subst bx. cbn [outline]. rename H0 into Fp, H into Hne.
    destruct (polygon_bounds_spec pts Hne Fp) as (HC & _). rewrite Forall_forall in *. intros p Hp. specialize (HC p Hp). specialize (Fp p Hp).
    destruct Fp as [F1 F2]. apply finite_float_parts in F1 as [F1 E1], F2 as [F2 E2]. destruct HC as [C1 C2]. change units with fixed in C1, C2.
    split; (split; [assumption|split; [assumption|lia]]).
  - (* masks *)
    rename H into Hm. destruct H0 as (Hx & Hy & HS). destruct (mask_bounds_tight x y mw mh data Hm Hx Hy HS) as (bx' & l' & t' & r' & b' & E & (R1 & R2 & R3 & R4) & T & _).
    cbn [compute_bounds] in Eb. rewrite E in Eb. injection Eb as Eb. subst bx'.
    destruct R1 as (_ & _ & R1), R2 as (_ & _ & R2), R3 as (_ & _ & R3), R4 as (_ & _ & R4). rewrite R1, R2, R3, R4 in *.
    apply mul_lower in Vl1, Vt1, Vr2, Vb2. apply mul_lower_lt in Vl2, Vt2, Vr1, Vb1.
    assert (l' = l) by lia. assert (t' = t) by lia. assert (r' = r) by lia. assert (b' = b) by lia. subst l' t' r' b'.
    pose proof (mask_has_pixels false x y mw mh data l t r b Hm Hx Hy T) as M.
    apply (has_pixels_less _ _ _ (2 ^ 21)) in M; try lia.
    apply has_pixels_windows in M; try lia. destruct M as (M1 & M2 & M3 & M4). split; [exact M1|]. split; [exact M2|]. split; [exact M3|].
    intros a c ww wh Ew. apply M4. destruct Hw as (Hw & _). rewrite Ew in Hw. exact Hw.
Qed.

Lemma drawn_value_drawn g w l t r b A B : has_pixels_in (is_window w) false g (2 ^ 21) (drawn_value g w) l t r b ->
  0 < w_width w -> 0 < w_height w -> w_x w <= A < w_x w + w_width w -> w_y w <= B < w_y w + w_height w ->
  (drawn_value g w A B <> 0%N <-> drawn g w A B).
Proof.
  intros (_ & _ & _ & H) Hw Hh HA HB. specialize (H (w_x w) (w_y w) (w_width w) (w_height w)).
  assert (E : is_window w (w_x w) (w_y w) (w_width w) (w_height w)) by (unfold is_window; now destruct w).
  specialize (H E). clear E. unfold drawn. rewrite H.
  pose proof (index_range (w_width w) (w_height w) (B - w_y w) (A - w_x w) ltac:(lia) ltac:(lia)) as R.
  assert (C : nth_error (map Some (pixels_of (drawn_value g w) (window_pixels (w_x w) (w_y w) (w_width w) (w_height w)))) (Z.to_nat ((B - w_y w) * w_width w + (A - w_x w)))
    = Some (Some (drawn_value g w A B))).
  { unfold pixels_of, window_pixels. rewrite !map_map, nth_error_map.
    rewrite (nth_error_nth' (seq 0 (Z.to_nat (w_width w * w_height w))) O) by (rewrite seq_length; lia). rewrite seq_nth by lia. cbn [option_map Nat.add fst snd].
    rewrite Z2Nat.id by lia. rewrite (Z.add_comm ((B - w_y w) * w_width w)). rewrite Z.mod_add, Z.div_add by lia. rewrite Z.mod_small, Z.div_small by lia.
    do 3 f_equal; lia. }
  split.
  - intros Hv. split; [exact HA|]. split; [exact HB|]. eexists _, _. split; [reflexivity|]. split; [exact C|exact Hv].
  - intros (_ & _ & mask & v & E & N & Hv). injection E as <-. rewrite C in N. injection N as <-. exact Hv.
Qed.

(** ---- Overlap ---- *)
Lemma window_good l t r b L U R D n N : l <= L -> t <= U -> R <= r -> D <= b -> L < R -> U < D -> 0 <= n <= N ->
  - 2 ^ 21 <= l -> r <= 2 ^ 21 -> - 2 ^ 21 <= t -> b <= 2 ^ 21 ->
  (r - l + 1) * (b - t + 1) <= 2 ^ 23 -> (b - t + 1) * (r - l + 1 + N) <= INT_MAX -> good_window (2 ^ 21) n (around L U R D).
Proof.
  intros H1 H2 H3 H4 H5 H6 Hn B1 B2 B3 B4 HA HS. unfold good_window, around. cbn [w_x w_y w_width w_height]. split.
  - unfold small_window. split; [lia|]. split; [lia|]. split.
    + assert ((R - L + 1) * (D - U + 1) <= (r - l + 1) * (b - t + 1)) by (apply Z.mul_le_mono_nonneg; lia). lia.
    + lia.
  - assert ((D - U + 1) * (R - L + 1 + n) <= (b - t + 1) * (r - l + 1 + N)) by (apply Z.mul_le_mono_nonneg; lia). lia.
Qed.

Lemma drawn_inside g l t r b L U R D bl bt br bb A B :
  has_pixels_in (is_window (around L U R D)) false g (2 ^ 21) (drawn_value g (around L U R D)) l t r b ->
  L < R -> U < D -> L <= Z.max l bl -> U <= Z.max t bt -> Z.min r br <= R -> Z.min b bb <= D ->
  bl <= L -> bt <= U -> R <= br -> D <= bb ->
  (drawn g (around L U R D) A B <-> drawn_value g (around L U R D) A B <> 0%N /\ (bl <= A <= br /\ bt <= B <= bb)).
Proof.
  intros M H1 H2 H3 H4 H5 H6 H7 H8 H9 H10. pose proof (drawn_value_drawn g _ l t r b A B M) as E. cbn [around w_x w_y w_width w_height] in E.
  split.
  - intros HD. pose proof HD as (W1 & W2 & _). cbn [around w_x w_y w_width w_height] in W1, W2. split; [apply E; try lia; exact HD|lia].
  - intros [HV HI]. pose proof M as (M1 & _). specialize (M1 A B HV). apply E; first [exact HV|lia].
Qed.

Lemma corners_nonneg g : 0 <= corners g.
Proof. destruct g; cbn [corners]; lia. Qed.

Lemma overlap_of_drawn g1 g2 bnd bl bt br bb l1 t1 r1 b1 l2 t2 r2 b2 :
  proper g1 -> proper g2 -> pixel_box g1 l1 t1 r1 b1 -> pixel_box g2 l2 t2 r2 b2 ->
  - 2 ^ 21 <= l1 -> r1 <= 2 ^ 21 -> - 2 ^ 21 <= t1 -> b1 <= 2 ^ 21 ->
  - 2 ^ 21 <= l2 -> r2 <= 2 ^ 21 -> - 2 ^ 21 <= t2 -> b2 <= 2 ^ 21 ->
  int_bounds bnd bl bt br bb ->
  let L1 := Z.max l1 bl in let U1 := Z.max t1 bt in let R1 := Z.min r1 br in let D1 := Z.min b1 bb in
  let L2 := Z.max l2 bl in let U2 := Z.max t2 bt in let R2 := Z.min r2 br in let D2 := Z.min b2 bb in
  L1 < R1 /\ U1 < D1 -> L2 < R2 /\ U2 < D2 ->
  let hull := around (Z.min L1 L2) (Z.min U1 U2) (Z.max R1 R2) (Z.max D1 D2) in
  w_width hull * w_height hull <= 2 ^ 23 ->
  w_height hull * (w_width hull + Z.max (corners g1) (corners g2)) <= 2147483647 ->
  (Z.max L1 L2 < Z.min R1 R2 /\ Z.max U1 U2 < Z.min D1 D2) \/ Z.min R1 R2 < Z.max L1 L2 \/ Z.min D1 D2 < Z.max U1 U2 ->
  exists w1 w2,
    (w1 = hull /\ w2 = hull \/
     w1 = around L1 U1 R1 D1 /\ w2 = around L2 U2 R2 D2 /\ (Z.min R1 R2 < Z.max L1 L2 \/ Z.min D1 D2 < Z.max U1 U2)) /\
    forall both only1 only2 either,
    enumerates both (fun X Y => drawn g1 w1 X Y /\ drawn g2 w2 X Y) ->
    enumerates only1 (fun X Y => drawn g1 w1 X Y /\ ~ drawn g2 w2 X Y) ->
    enumerates only2 (fun X Y => drawn g2 w2 X Y /\ ~ drawn g1 w1 X Y) ->
    enumerates either (fun X Y => drawn g1 w1 X Y \/ drawn g2 w2 X Y) -> either <> [] ->
    exists o, compute_overlap false g1 g2 bnd = Ok o /\
      quotient (o_overlap o) (Z.of_nat (List.length both)) (Z.of_nat (List.length either)) /\
      quotient (o_only1 o) (Z.of_nat (List.length only1)) (Z.of_nat (List.length either)) /\
      quotient (o_only2 o) (Z.of_nat (List.length only2)) (Z.of_nat (List.length either)) /\
      Z.abs (units (o_overlap o) + units (o_only1 o) + units (o_only2 o) - 2 ^ 1074) * 2 ^ 25 <= 3 * 2 ^ 1074 /\
      compute_overlap false g2 g1 bnd = Ok (mkOverlap (o_overlap o) (o_only2 o) (o_only1 o)).
Proof.
  intros Pg1 Pg2 X1 X2 A1 A2 A3 A4 A5 A6 A7 A8 Hb L1 U1 R1 D1 L2 U2 R2 D2 B1 B2 hull HA HS Sep.
  set (apart := apart_areas ((R1 - L1) * (D1 - U1)) ((R2 - L2) * (D2 - U2)) ((Z.min R1 R2 - Z.max L1 L2) * (Z.min D1 D2 - Z.max U1 U2))).
  pose proof (apart_sep bl bt br bb l1 t1 r1 b1 l2 t2 r2 b2 B2 Sep) as Hap. fold L1 U1 R1 D1 L2 U2 R2 D2 in Hap. fold apart in Hap.
  assert (O1 : l1 < r1 /\ t1 < b1) by (clear - B1; unfold L1, R1, U1, D1 in B1; lia).
  assert (O2 : l2 < r2 /\ t2 < b2) by (clear - B2; unfold L2, R2, U2, D2 in B2; lia).
  assert (C1 : 0 <= corners g1 <= Z.max (corners g1) (corners g2)) by (pose proof (corners_nonneg g1) as Q; clear - Q; lia).
  assert (C2 : 0 <= corners g2 <= Z.max (corners g1) (corners g2)) by (pose proof (corners_nonneg g2) as Q; clear - Q; lia).
  set (N := Z.max (corners g1) (corners g2)) in *. clearbody N.
  set (X := Z.min L1 L2) in *. set (Y := Z.min U1 U2) in *. set (E := Z.max R1 R2) in *. set (F := Z.max D1 D2) in *.
  assert (GL1 : l1 <= L1 /\ t1 <= U1 /\ R1 <= r1 /\ D1 <= b1 /\ bl <= L1 /\ bt <= U1 /\ R1 <= br /\ D1 <= bb) by (clear; unfold L1, U1, R1, D1; lia).
  assert (GL2 : l2 <= L2 /\ t2 <= U2 /\ R2 <= r2 /\ D2 <= b2 /\ bl <= L2 /\ bt <= U2 /\ R2 <= br /\ D2 <= bb) by (clear; unfold L2, U2, R2, D2; lia).
  assert (GX : X <= L1 /\ X <= L2 /\ Y <= U1 /\ Y <= U2 /\ R1 <= E /\ R2 <= E /\ D1 <= F /\ D2 <= F /\ bl <= X /\ bt <= Y /\ E <= br /\ F <= bb /\
    - 2 ^ 21 <= X /\ E <= 2 ^ 21 /\ - 2 ^ 21 <= Y /\ F <= 2 ^ 21).
  { clear - GL1 GL2 A1 A2 A3 A4 A5 A6 A7 A8. unfold X, Y, E, F. clearbody L1 U1 R1 D1 L2 U2 R2 D2. lia. }
  unfold hull in HA, HS. cbn [around w_width w_height] in HA, HS.
  (* the pixels of the first and the second region in a window around their boxes *)
  assert (Q1 : forall L U R D, X <= L -> Y <= U -> R <= E -> D <= F -> L <= L1 -> U <= U1 -> R1 <= R -> D1 <= D ->
    has_pixels_in (is_window (around L U R D)) false g1 (2 ^ 21) (drawn_value g1 (around L U R D)) l1 t1 r1 b1 /\
    forall A B, drawn g1 (around L U R D) A B <-> drawn_value g1 (around L U R D) A B <> 0%N /\ (bl <= A <= br /\ bt <= B <= bb)).
  { intros L U R D I1 I2 I3 I4 I5 I6 I7 I8.
    assert (M : has_pixels_in (is_window (around L U R D)) false g1 (2 ^ 21) (drawn_value g1 (around L U R D)) l1 t1 r1 b1).
    { apply region_pixels; try assumption; try apply O1. clearbody L1 U1 R1 D1 L2 U2 R2 D2 X Y E F.
      apply (window_good X Y E F L U R D (corners g1) N); try assumption; try (clear - B1 I5 I6 I7 I8; lia); apply GX. }
    split; [exact M|]. intros A B. apply (drawn_inside g1 l1 t1 r1 b1); try assumption; fold L1 U1 R1 D1; try assumption;
      clear - B1 GX I1 I2 I3 I4 I5 I6 I7 I8; clearbody L1 U1 R1 D1 L2 U2 R2 D2 X Y E F; lia. }
  assert (Q2 : forall L U R D, X <= L -> Y <= U -> R <= E -> D <= F -> L <= L2 -> U <= U2 -> R2 <= R -> D2 <= D ->
    has_pixels_in (is_window (around L U R D)) false g2 (2 ^ 21) (drawn_value g2 (around L U R D)) l2 t2 r2 b2 /\
    forall A B, drawn g2 (around L U R D) A B <-> drawn_value g2 (around L U R D) A B <> 0%N /\ (bl <= A <= br /\ bt <= B <= bb)).
  { intros L U R D I1 I2 I3 I4 I5 I6 I7 I8.
    assert (M : has_pixels_in (is_window (around L U R D)) false g2 (2 ^ 21) (drawn_value g2 (around L U R D)) l2 t2 r2 b2).
    { apply region_pixels; try assumption; try apply O2. clearbody L1 U1 R1 D1 L2 U2 R2 D2 X Y E F.
      apply (window_good X Y E F L U R D (corners g2) N); try assumption; try (clear - B2 I5 I6 I7 I8; lia); apply GX. }
    split; [exact M|]. intros A B. apply (drawn_inside g2 l2 t2 r2 b2); try assumption; fold L2 U2 R2 D2; try assumption;
      clear - B2 GX I1 I2 I3 I4 I5 I6 I7 I8; clearbody L1 U1 R1 D1 L2 U2 R2 D2 X Y E F; lia. }
  assert (Main : forall w1 w2,
    has_pixels_in (is_window w1) false g1 (2 ^ 21) (drawn_value g1 w1) l1 t1 r1 b1 /\
    (forall A B, drawn g1 w1 A B <-> drawn_value g1 w1 A B <> 0%N /\ (bl <= A <= br /\ bt <= B <= bb)) ->
    has_pixels_in (is_window w2) false g2 (2 ^ 21) (drawn_value g2 w2) l2 t2 r2 b2 /\
    (forall A B, drawn g2 w2 A B <-> drawn_value g2 w2 A B <> 0%N /\ (bl <= A <= br /\ bt <= B <= bb)) ->
    (if apart then is_window w1 L1 U1 (R1 - L1 + 1) (D1 - U1 + 1) /\ is_window w2 L2 U2 (R2 - L2 + 1) (D2 - U2 + 1)
     else is_window w1 X Y (E - X + 1) (F - Y + 1) /\ is_window w2 X Y (E - X + 1) (F - Y + 1)) ->
    forall both only1 only2 either,
    enumerates both (fun X Y => drawn g1 w1 X Y /\ drawn g2 w2 X Y) ->
    enumerates only1 (fun X Y => drawn g1 w1 X Y /\ ~ drawn g2 w2 X Y) ->
    enumerates only2 (fun X Y => drawn g2 w2 X Y /\ ~ drawn g1 w1 X Y) ->
    enumerates either (fun X Y => drawn g1 w1 X Y \/ drawn g2 w2 X Y) -> either <> [] ->
    exists o, compute_overlap false g1 g2 bnd = Ok o /\
      quotient (o_overlap o) (Z.of_nat (List.length both)) (Z.of_nat (List.length either)) /\
      quotient (o_only1 o) (Z.of_nat (List.length only1)) (Z.of_nat (List.length either)) /\
      quotient (o_only2 o) (Z.of_nat (List.length only2)) (Z.of_nat (List.length either)) /\
      Z.abs (units (o_overlap o) + units (o_only1 o) + units (o_only2 o) - 2 ^ 1074) * 2 ^ 25 <= 3 * 2 ^ 1074 /\
      compute_overlap false g2 g1 bnd = Ok (mkOverlap (o_overlap o) (o_only2 o) (o_only1 o))).
  { intros w1 w2 (M1 & N1) (M2 & N2) HW both only1 only2 either Eb E1 E2 Ee Hne.
    apply (overlap_of_windows (is_window w1) (is_window w2) false g1 g2 (2 ^ 21) (drawn_value g1 w1) (drawn_value g2 w2) bnd bl bt br bb l1 t1 r1 b1 l2 t2 r2 b2);
      try assumption; [lia|..]; (eapply enumerates_ext; [|eassumption]); intros A B; cbv beta; rewrite N1, N2; tauto. }
  destruct apart eqn:Ea.
  - exists (around L1 U1 R1 D1), (around L2 U2 R2 D2). split; [right; split; [reflexivity|split; [reflexivity|apply Hap; reflexivity]]|].
    apply Main; [apply Q1; clear - GX|apply Q2; clear - GX|split; reflexivity]; clearbody L1 U1 R1 D1 L2 U2 R2 D2 X Y E F; lia.
  - exists (around X Y E F), (around X Y E F). split; [left; split; reflexivity|].
    apply Main; [apply Q1; clear - GX|apply Q2; clear - GX|split; reflexivity]; clearbody L1 U1 R1 D1 L2 U2 R2 D2 X Y E F; lia.
Qed.

(** A region compared with itself: all of it is common. *)
Lemma overlap_with_itself g bnd bl bt br bb l t r b :
  proper g -> pixel_box g l t r b -> - 2 ^ 21 <= l -> r <= 2 ^ 21 -> - 2 ^ 21 <= t -> b <= 2 ^ 21 ->
  int_bounds bnd bl bt br bb ->
  let w := around (Z.max l bl) (Z.max t bt) (Z.min r br) (Z.min b bb) in
  1 < w_width w -> 1 < w_height w -> w_width w * w_height w <= 2 ^ 23 -> w_height w * (w_width w + corners g) <= 2147483647 ->
  (exists X Y, drawn g w X Y) ->
  exists o, compute_overlap false g g bnd = Ok o /\ units (o_overlap o) = 2 ^ 1074 /\ units (o_only1 o) = 0 /\ units (o_only2 o) = 0.
Proof.
  intros Hg HX A1 A2 A3 A4 Hb w. set (L := Z.max l bl). set (U := Z.max t bt). set (R := Z.min r br). set (D := Z.min b bb).
  unfold w. fold L U R D. cbn [around w_width w_height]. intros W1 W2 HA HS (X0 & Y0 & HD).
  assert (B : L < R /\ U < D) by (clear - W1 W2; clearbody L U R D; lia).
  destruct (overlap_of_drawn g g bnd bl bt br bb l t r b l t r b) as (w1 & w2 & Hw & Main); try assumption; fold L U R D.
  - rewrite !Z.min_id, !Z.max_id. exact HA.
  - rewrite !Z.min_id, !Z.max_id. exact HS.
  - left. rewrite !Z.min_id, !Z.max_id. exact B.
  - fold L U R D in Hw. rewrite !Z.min_id, !Z.max_id in Hw.
    assert (Ew : w1 = around L U R D /\ w2 = around L U R D) by (clear - Hw B; destruct Hw as [Hw|(_ & _ & Hw)]; [exact Hw|exfalso; clearbody L U R D; lia]).
    destruct Ew as [-> ->]. clear Hw.
    assert (Gw : good_window (2 ^ 21) (corners g) (around L U R D)).
    { assert (G : l <= L /\ t <= U /\ R <= r /\ D <= b) by (clear; unfold L, U, R, D; lia). clearbody L U R D. pose proof (corners_nonneg g) as Cn.
      apply (window_good L U R D L U R D (corners g) (corners g)); try assumption; clear - A1 A2 A3 A4 B G Cn; lia. }
    assert (M : has_pixels_in (is_window (around L U R D)) false g (2 ^ 21) (drawn_value g (around L U R D)) l t r b).
    { assert (O : l < r /\ t < b) by (clear - B; unfold L, U, R, D in B; lia). apply region_pixels; try assumption; apply O. }
    set (f := fun p : Z * Z => nz (drawn_value g (around L U R D) (fst p) (snd p))).
    assert (En : enumerates (filter f (window_pixels L U (R - L + 1) (D - U + 1))) (fun X Y => drawn g (around L U R D) X Y)).
    { apply enumerates_filter; [clear - B; clearbody L R U D; lia|clear - B; clearbody L R U D; lia|]. intros X Y. unfold f. cbn [fst snd]. rewrite nz_true.
      pose proof (drawn_value_drawn g _ l t r b X Y M) as E. cbn [around w_x w_y w_width w_height] in E. split.
      - intros Hd. pose proof Hd as (V1 & V2 & _). cbn [around w_x w_y w_width w_height] in V1, V2. split; [split; assumption|].
        apply E; try assumption; clear - B; clearbody L R U D; lia.
      - intros ((V1 & V2) & Hv). apply E; try assumption; clear - B; clearbody L R U D; lia. }
    set (e := filter f _) in *. clearbody e.
    destruct (Main e [] [] e) as (o & Eo & (_ & _ & _ & _ & Q1) & (_ & _ & _ & Q2 & _) & (_ & _ & _ & Q3 & _) & _).
    + eapply enumerates_ext; [|exact En]. intros X Y. cbv beta. tauto.
    + split; [constructor|]. intros X Y. cbn [In]. tauto.
    + split; [constructor|]. intros X Y. cbn [In]. tauto.
    + eapply enumerates_ext; [|exact En]. intros X Y. cbv beta. tauto.
    + intros ->. destruct En as [_ En]. apply (proj2 (En X0 Y0)) in HD. destruct HD.
    + exists o. split; [exact Eo|]. split; [apply Q1; reflexivity|]. split; [apply Q2; reflexivity|apply Q3; reflexivity].
Qed.

(** ---- Examples ---- *)
Definition float_5_5 : spec_float := S754_finite false 11534336 (-21).
Definition triangle_a : region := RPoly [(float_of_int 0, float_of_int 0); (float_of_int 10, float_of_int 0); (float_of_int 0, float_of_int 10)].
Definition triangle_b : region := RPoly [(float_5_5, float_5_5); (float_of_int 0, float_of_int 10); (float_of_int 0, float_of_int 2)].
Lemma triangles_example :
  proper triangle_a /\ proper triangle_b /\ pixel_box triangle_a 0 0 10 10 /\ pixel_box triangle_b 0 2 6 10 /\
  drawn triangle_a (around 0 0 10 10) 4 4 /\
  compute_overlap false triangle_a triangle_b no_bounds
  = Ok (mkOverlap (divf (float_of_int 27) (float_of_int 70)) (divf (float_of_int 39) (float_of_int 70)) (divf (float_of_int 4) (float_of_int 70))).
Proof.
  split. { split; [discriminate|]. repeat (constructor; [split; (split; [vm_compute; reflexivity|vm_compute; exact Logic.I])|]). constructor. }
  split. { split; [discriminate|]. repeat (constructor; [split; (split; [vm_compute; reflexivity|vm_compute; exact Logic.I])|]). constructor. }
  split. { eexists. split; [vm_compute; reflexivity|]. cbn [left top right bottom].
    split; [|split; [|split]]; (split; [split; [vm_compute; reflexivity|vm_compute; exact Logic.I]|]); split; vm_compute; discriminate || reflexivity. }
  split. { eexists. split; [vm_compute; reflexivity|]. cbn [left top right bottom].
    split; [|split; [|split]]; (split; [split; [vm_compute; reflexivity|vm_compute; exact Logic.I]|]); split; vm_compute; discriminate || reflexivity. }
  split. { unfold drawn, around. cbn [w_x w_y w_width w_height]. split; [lia|]. split; [lia|]. eexists _, _.
    split; [vm_compute; reflexivity|]. split; [vm_compute; reflexivity|]. discriminate. }
  vm_compute. reflexivity.
Qed.

(** A triangle whose long side is one where 49 * (1 / 49) is less than 1 in double precision. *)
Definition steep : region := RPoly [(float_of_int 0, float_of_int 0); (float_of_int 0, float_of_int 49); (float_of_int 49, float_of_int 49)].
Lemma steep_example :
  ~ drawn steep (around 0 0 49 49) 1 1 /\ drawn steep (around (-1) 0 49 49) 1 1 /\
  (forall X Y, drawn steep (around (-1) 0 49 49) X Y -> 0 <= X) /\
  compute_overlap false steep (RMask 0 0 50 50 (full 50 50)) no_bounds
  = Ok (mkOverlap (divf (float_of_int 1268) (float_of_int 2500)) (S754_zero false) (divf (float_of_int 1232) (float_of_int 2500))) /\
  compute_overlap false steep (RMask (-1) 0 51 50 (full 51 50)) no_bounds
  = Ok (mkOverlap (divf (float_of_int 1274) (float_of_int 2550)) (S754_zero false) (divf (float_of_int 1276) (float_of_int 2550))).
Proof.
  assert (P : proper steep). { split; [discriminate|]. repeat (constructor; [split; (split; [vm_compute; reflexivity|vm_compute; exact Logic.I])|]). constructor. }
  assert (Q : pixel_box steep 0 0 49 49).
  { eexists. split; [vm_compute; reflexivity|]. cbn [left top right bottom].
    split; [|split; [|split]]; (split; [split; [vm_compute; reflexivity|vm_compute; exact Logic.I]|]); split; vm_compute; discriminate || reflexivity. }
  split. { intros (_ & _ & m & v & E & N & Hv). apply Hv. clear Hv. 
    assert (G : match get_mask_offset false steep (blk_new (Z.to_nat (50 * 50))) 0 0 50 50 with Ok m => nth_error m 51 | _ => None end = Some (Some 0%N)) by (vm_compute; reflexivity).
    unfold around in E. cbn [w_x w_y w_width w_height] in E. change (49 - 0 + 1) with 50 in E. rewrite E in G.
    unfold around in N. cbn [w_x w_y w_width w_height] in N. change (Z.to_nat ((1 - 0) * (49 - 0 + 1) + (1 - 0))) with 51%nat in N. rewrite G in N. congruence. }
  split. { unfold drawn, around. cbn [w_x w_y w_width w_height]. split; [lia|]. split; [lia|].
    assert (G : match get_mask_offset false steep (blk_new (Z.to_nat (51 * 50))) (-1) 0 51 50 with Ok m => nth_error m 53 | _ => None end = Some (Some 1%N)) by (vm_compute; reflexivity).
    change (49 - -1 + 1) with 51. change (49 - 0 + 1) with 50. destruct (get_mask_offset false steep (blk_new (Z.to_nat (51 * 50))) (-1) 0 51 50) as [m| | |]; try discriminate G.
    exists m, 1%N. split; [reflexivity|]. split; [exact G|discriminate]. }
  split. { intros X Y HD.
    assert (M : has_pixels_in (is_window (around (-1) 0 49 49)) false steep (2 ^ 21) (drawn_value steep (around (-1) 0 49 49)) 0 0 49 49).
    { apply region_pixels; try assumption; try lia. apply (window_good (-1) 0 49 49 (-1) 0 49 49 3 3); unfold INT_MAX; lia. }
    pose proof HD as (V1 & V2 & _). apply (drawn_value_drawn _ _ _ _ _ _ X Y M) in HD; try assumption; try reflexivity. destruct M as (M & _). apply M in HD. lia. }
  split; vm_compute; reflexivity.
Qed.
