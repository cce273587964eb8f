(** The failure criterion of the evaluation client. *)
From Verif Require Import CBase StrMap StrMapProofs Num NumSpec NumProofs DecimalProofs Buffer Region RegionSpec FloatOps FloatProofs RegionGeom GeomSpec GeomProofs BoundsProofs
  OverlapProofs RasterProofs ImageSize ImageSizeSpec ImageSizeProofs Cli CliSpec CliProofs Criterion CriterionSpec.
Local Open Scope Z_scope.

(** ---- comparisons ---- *)
Lemma fcmp_units x y : finite_float x -> finite_float y -> fcmp x y = Some (units x ?= units y).
Proof. intros Hx Hy. destruct (finite_float_finite _ Hx), (finite_float_finite _ Hy). rewrite fcmp_finite by assumption. reflexivity. Qed.
Lemma fle_units x y : finite_float x -> finite_float y -> fle x y = (units x <=? units y).
Proof. intros Hx Hy. unfold fle, Z.leb. rewrite fcmp_units by assumption. now destruct (units x ?= units y). Qed.
Lemma fge_units x y : finite_float x -> finite_float y -> fge x y = (units y <=? units x).
Proof. intros Hx Hy. unfold fge, Z.leb. rewrite fcmp_units by assumption. rewrite (Z.compare_antisym (units x) (units y)). now destruct (units x ?= units y). Qed.
Lemma flt_units x y : finite_float x -> finite_float y -> flt x y = (units x <? units y).
Proof. intros Hx Hy. unfold flt, Z.ltb. rewrite fcmp_units by assumption. now destruct (units x ?= units y). Qed.
Lemma fgt_units x y : finite_float x -> finite_float y -> fgt x y = (units y <? units x).
Proof. intros Hx Hy. unfold fgt, Z.ltb. rewrite fcmp_units by assumption. rewrite (Z.compare_antisym (units x) (units y)). now destruct (units x ?= units y). Qed.
Lemma zero_finite : finite_float fzero.
Proof. split; [reflexivity|exact Logic.I]. Qed.
Lemma one_finite : finite_float float_one.
Proof. split; [vm_compute; reflexivity|exact Logic.I]. Qed.
Lemma one_units : units float_one = 2 ^ 1074.
Proof. vm_compute. reflexivity. Qed.

(** ---- the threshold ---- *)
Lemma clamp_proper v : v = S754_nan \/ (exists s, v = S754_infinity s) \/ finite_float v ->
  let low := if fgt fzero v then fzero else v in
  let t := if flt float_one low then float_one else low in
  (v = S754_nan -> t = S754_nan) /\ (v <> S754_nan -> finite_float t /\ 0 <= units t <= 2 ^ 1074) /\
  (finite_float v -> 0 <= units v <= 2 ^ 1074 -> t = v).
Proof.
  pose proof (Z.pow_pos_nonneg 2 1074 ltac:(lia) ltac:(lia)) as P. pose proof one_units as U1. pose proof one_finite as F1. pose proof zero_finite as F0.
  assert (U0 : units fzero = 0) by reflexivity. intros [->|[(s & ->)|F]]; cbv zeta.
  - split; [reflexivity|]. split; [congruence|]. intros (_ & []).
  - split; [discriminate|]. split; [|intros (_ & [])]. intros _. destruct s.
    + change (fgt fzero (S754_infinity true)) with true. cbv iota. rewrite flt_units by assumption. rewrite U0, U1. replace (2 ^ 1074 <? 0) with false by lia. cbv iota. split; [exact F0|lia].
    + change (fgt fzero (S754_infinity false)) with false. cbv iota. change (flt float_one (S754_infinity false)) with true. cbv iota. split; [exact F1|lia].
  - split; [intros ->; destruct F as [_ []]|]. rewrite fgt_units, U0 by assumption. destruct (Z.ltb_spec (units v) 0).
    + rewrite flt_units, U0, U1 by assumption. replace (2 ^ 1074 <? 0) with false by lia. cbv iota. split; [|intros; lia]. intros _. split; [exact F0|lia].
    + rewrite flt_units, U1 by assumption. destruct (Z.ltb_spec (2 ^ 1074) (units v)); (split; [|intros; lia || reflexivity]); intros _; (split; [assumption|lia]).
Qed.
Lemma float_of_double_kind d : float_of_double d = S754_nan \/ (exists s, float_of_double d = S754_infinity s) \/ finite_float (float_of_double d).
Proof.
  destruct d as [s|s| |s m e]; cbn [float_of_double].
  - right. right. split; [reflexivity|exact Logic.I].
  - right. left. eauto.
  - left. reflexivity.
  - right. assert (N1 : 0 < Z.pos m * 2 ^ Z.max 0 e) by (apply Z.mul_pos_pos; [lia|apply Z.pow_pos_nonneg; lia]).
    assert (N2 : 0 < 2 ^ Z.max 0 (- e)) by (apply Z.pow_pos_nonneg; lia).
    destruct (round_ratio_finite_or 24 128 s (Z.pos m * 2 ^ Z.max 0 e) (2 ^ Z.max 0 (- e))) as [E|[E|(m' & e' & E)]].
    + right. rewrite E. split; [reflexivity|exact Logic.I].
    + left. rewrite E. eauto.
    + right. apply round_ratio_finite; [exact N1|exact N2|]. rewrite E. reflexivity.
Qed.
Lemma threshold_ok text : let v := float_of_double (atof text) in let t := threshold_option text in
  proper t /\ (v = S754_nan -> t = S754_nan) /\ (v <> S754_nan -> finite_float t /\ 0 <= units t <= 2 ^ 1074) /\ (finite_float v -> 0 <= units v <= 2 ^ 1074 -> t = v).
Proof.
  cbv zeta. unfold threshold_option. set (v := float_of_double (atof text)). pose proof (float_of_double_kind (atof text)) as K. fold v in K.
  destruct (clamp_proper v K) as (A & B & C). cbv zeta in *. refine (conj _ (conj A (conj B C))).
  destruct K as [K|K]; [left; exact (A K)|]. right. assert (N : v <> S754_nan) by (destruct K as [(s & ->)|[_ K]]; [discriminate|intros X; rewrite X in K; exact K]).
  destruct (B N) as (B1 & B2). split; [exact B1|lia].
Qed.
Lemma default_ok : proper threshold_default /\ finite_float threshold_default /\ units threshold_default < 0.
Proof.
  assert (F : finite_float threshold_default) by (split; [vm_compute; reflexivity|exact Logic.I]). assert (U : units threshold_default < 0) by (vm_compute; reflexivity).
  split; [right; split; [exact F|]; pose proof (Z.pow_pos_nonneg 2 1074 ltac:(lia) ltac:(lia)); lia|]. split; [exact F|exact U].
Qed.
Lemma settings_proper f b l : proper (s_threshold (read_settings f b l)).
Proof. destruct f as [t|]; cbn [read_settings s_threshold]; [exact (proj1 (threshold_ok t))|exact (proj1 default_ok)]. Qed.

(** ---- sizes ---- *)
Lemma sized_get image w h : sized image w h -> 0 <= w <= 2 ^ 21 -> 0 <= h <= 2 ^ 21 -> image_get_size image = Ok (w, h).
Proof.
  change (2 ^ 21) with 2097152. intros H Hw Hh. inversion H; subst; try (apply png_size; unfold INT_MAX; lia); try (apply gif_size; auto; lia); [reflexivity|].
  apply jpeg_size; auto; lia.
Qed.

(** ---- finite sets of pixels ---- *)
Lemma sublist {A} (P : A -> Prop) (l : list A) : (forall x, P x \/ ~ P x) -> NoDup l -> exists l', NoDup l' /\ forall x, In x l' <-> In x l /\ P x.
Proof.
  intros D. induction l as [|x l IH]; intros N; [exists []; split; [constructor|intros y; cbn; tauto]|].
  inversion N as [|? ? N1 N2]; subst. destruct (IH N2) as (l' & A1 & A2). destruct (D x) as [Px|Px].
  - exists (x :: l'). split; [constructor; [rewrite A2; tauto|exact A1]|]. intros y. cbn [In]. rewrite A2. split; [intros [<-|Q]; tauto|intros [[<-|Q] R]; tauto].
  - exists l'. split; [exact A1|]. intros y. cbn [In]. rewrite A2. split; [tauto|]. intros [[<-|Q] R]; tauto.
Qed.
Lemma enumerable P l t r b : (forall X Y, P X Y \/ ~ P X Y) -> (forall X Y, P X Y -> l <= X <= r /\ t <= Y <= b) -> exists L, enumerates L P.
Proof.
  intros D B. destruct (Z.lt_ge_cases r l) as [C|C]; [exists []; split; [constructor|]; intros X Y; cbn; split; [tauto|intros H; apply B in H; lia]|].
  destruct (Z.lt_ge_cases b t) as [C'|C']; [exists []; split; [constructor|]; intros X Y; cbn; split; [tauto|intros H; apply B in H; lia]|].
  destruct (sublist (fun x => P (fst x) (snd x)) (window_pixels l t (r - l + 1) (b - t + 1)) (fun x => D (fst x) (snd x)) (NoDup_window l t (r - l + 1) (b - t + 1) ltac:(lia))) as (L & N & I).
  exists L. split; [exact N|]. intros X Y. rewrite I, in_window by lia. cbn [fst snd]. split; [tauto|]. intros H. split; [|exact H]. apply B in H. lia.
Qed.
Lemma covers_dec g S : covers g S -> forall X Y, S X Y \/ ~ S X Y.
Proof.
  destruct g as [c|x y w h|p|x y w h d]; cbn [covers]; try contradiction.
  - intros (X0 & Y0 & W & H & _ & _ & _ & _ & _ & _ & _ & _ & _ & _ & E) X Y. rewrite (E X Y). lia.
  - intros (_ & _ & _ & E) X Y. rewrite (E X Y). unfold set_at. destruct (N.eq_dec (value_at x y w h d X Y) 0); tauto.
Qed.
Lemma dec_and (P Q : Prop) : P \/ ~ P -> Q \/ ~ Q -> (P /\ Q) \/ ~ (P /\ Q).
Proof. tauto. Qed.
Lemma in_box_dec v X Y : in_box v X Y \/ ~ in_box v X Y.
Proof. unfold in_box. lia. Qed.

(** ---- overlap ---- *)
Lemma fmax_large : 2 ^ 21 <= FM.
Proof. vm_compute. discriminate. Qed.
Lemma float_of_int_finite_float z : Z.abs z <= 2 ^ 24 -> finite_float (float_of_int z).
Proof.
  intros H. pose proof (rep_float_of_int z H) as (F & _). unfold float_of_int in *. destruct (z =? 0) eqn:E; [split; [reflexivity|exact Logic.I]|].
  apply round_ratio_finite; [lia|lia|exact F].
Qed.
Lemma cut_low a x y X : Z.max a x = Z.max a y -> a <= X -> (x <= X <-> y <= X).
Proof. lia. Qed.
Lemma cut_high a x y X : Z.min a x = Z.min a y -> X <= a -> (X <= x <-> X <= y).
Proof. lia. Qed.
(** Overlap for bounds that cut the regions like the visible box *)
Lemma overlap_seen g1 g2 S1 S2 bnd bl bt br bb v : comparable v g1 g2 S1 S2 -> int_bounds bnd bl bt br bb ->
  (forall p, boxed S1 p \/ boxed S2 p -> Z.max (b_left p) bl = Z.max (b_left p) (b_left v) /\ Z.max (b_top p) bt = Z.max (b_top p) (b_top v) /\
     Z.min (b_right p) br = Z.min (b_right p) (b_right v) /\ Z.min (b_bottom p) bb = Z.min (b_bottom p) (b_bottom v)) ->
  exists o a n, compute_overlap false g1 g2 bnd = Ok o /\ jaccard v S1 S2 a n /\ 0 < n /\ quotient (o_overlap o) a n.
Proof.
  intros (C1 & C2 & p & q & Bp & Bq & Wp & Wq & Hh & Hs & (X0 & Y0 & Ne)) Ib Cut.
  destruct (Cut p (or_introl Bp)) as (P1 & P2 & P3 & P4). destruct (Cut q (or_intror Bq)) as (Q1 & Q2 & Q3 & Q4).
  pose proof Bp as (Tp & Lp1 & Lp2 & Lp3 & Lp4). pose proof Bq as (Tq & Lq1 & Lq2 & Lq3 & Lq4).
  assert (V : forall X Y, S1 X Y \/ S2 X Y -> in_box v X Y <-> bl <= X <= br /\ bt <= Y <= bb).
  { intros X Y H. assert (IB : b_left p <= X <= b_right p /\ b_top p <= Y <= b_bottom p \/ b_left q <= X <= b_right q /\ b_top q <= Y <= b_bottom q)
      by (destruct H as [H|H]; [left; apply Tp; exact H|right; apply Tq; exact H]). unfold in_box.
    destruct IB as [(I1 & I2)|(I1 & I2)].
    - pose proof (cut_low _ _ _ X P1 ltac:(apply I1)). pose proof (cut_low _ _ _ Y P2 ltac:(apply I2)). pose proof (cut_high _ _ _ X P3 ltac:(apply I1)). pose proof (cut_high _ _ _ Y P4 ltac:(apply I2)). tauto.
    - pose proof (cut_low _ _ _ X Q1 ltac:(apply I1)). pose proof (cut_low _ _ _ Y Q2 ltac:(apply I2)). pose proof (cut_high _ _ _ X Q3 ltac:(apply I1)). pose proof (cut_high _ _ _ Y Q4 ltac:(apply I2)). tauto. }
  pose proof (covers_dec _ _ C1) as D1. pose proof (covers_dec _ _ C2) as D2.
  assert (In1 : forall X Y, S1 X Y -> b_left p <= X <= b_right p /\ b_top p <= Y <= b_bottom p) by (intros X Y; apply Tp).
  assert (In2 : forall X Y, S2 X Y -> b_left q <= X <= b_right q /\ b_top q <= Y <= b_bottom q) by (intros X Y; apply Tq).
  assert (DV : forall X Y, (bl <= X <= br /\ bt <= Y <= bb) \/ ~ (bl <= X <= br /\ bt <= Y <= bb)) by (intros; lia).
  destruct (enumerable (fun X Y => S1 X Y /\ S2 X Y /\ (bl <= X <= br /\ bt <= Y <= bb)) (b_left p) (b_top p) (b_right p) (b_bottom p)) as (both & Eb);
    [intros X Y; specialize (D1 X Y); specialize (D2 X Y); specialize (DV X Y); clear - D1 D2 DV; tauto|intros X Y (H & _); exact (In1 X Y H)|].
  destruct (enumerable (fun X Y => S1 X Y /\ ~ S2 X Y /\ (bl <= X <= br /\ bt <= Y <= bb)) (b_left p) (b_top p) (b_right p) (b_bottom p)) as (only1 & E1);
    [intros X Y; specialize (D1 X Y); specialize (D2 X Y); specialize (DV X Y); clear - D1 D2 DV; tauto|intros X Y (H & _); exact (In1 X Y H)|].
  destruct (enumerable (fun X Y => S2 X Y /\ ~ S1 X Y /\ (bl <= X <= br /\ bt <= Y <= bb)) (b_left q) (b_top q) (b_right q) (b_bottom q)) as (only2 & E2);
    [intros X Y; specialize (D1 X Y); specialize (D2 X Y); specialize (DV X Y); clear - D1 D2 DV; tauto|intros X Y (H & _); exact (In2 X Y H)|].
  destruct (enumerable (fun X Y => (S1 X Y \/ S2 X Y) /\ (bl <= X <= br /\ bt <= Y <= bb)) (Z.min (b_left p) (b_left q)) (Z.min (b_top p) (b_top q)) (Z.max (b_right p) (b_right q)) (Z.max (b_bottom p) (b_bottom q))) as (either & Ee);
    [intros X Y; specialize (D1 X Y); specialize (D2 X Y); specialize (DV X Y); clear - D1 D2 DV; tauto|intros X Y ([H|H] & _); [apply In1 in H|apply In2 in H]; clear - H; lia|].
  assert (Nonempty : either <> []).
  { intros ->. destruct Ee as [_ Ee]. apply (proj2 (Ee X0 Y0)). destruct Ne as (N1 & N2). split; [exact N1|]. now apply V. }
  pose proof (overlap_of_covers g1 g2 S1 S2 bnd bl bt br bb _ _ _ _ _ _ _ _ both only1 only2 either C1 C2 Tp Tq Lp1 Lp2 Lp3 Lp4 Lq1 Lq2 Lq3 Lq4 Ib) as O.
  cbv zeta in O. rewrite P1, P2, P3, P4, Q1, Q2, Q3, Q4 in O. unfold wide, small_hull, apart_boxes, common_box in Wp, Wq, Hh, Hs. cbn [b_left b_top b_right b_bottom] in Wp, Wq, Hh, Hs. cbv zeta in Hs.
  destruct (O Wp Wq Hh Hs Eb E1 E2 Ee Nonempty) as (o & Eo & Qo & _).
  exists o, (Z.of_nat (List.length both)), (Z.of_nat (List.length either)). split; [exact Eo|]. split; [|split; [|exact Qo]].
  - exists both, either. split; [|split; [|split; reflexivity]].
    + eapply enumerates_ext; [|exact Eb]. intros X Y. cbv beta. split; intros (H1 & H2 & H3); (split; [exact H1|]; split; [exact H2|]); apply (V X Y (or_introl H1)); exact H3.
    + eapply enumerates_ext; [|exact Ee]. intros X Y. cbv beta. split; intros (H1 & H3); (split; [exact H1|]); apply (V X Y H1); exact H3.
  - destruct either; [congruence|]. cbn [List.length]. lia.
Qed.

(** The overlap the client computes *)
Lemma overlap_judged bounded image v g r S1 S2 : visible bounded image v -> comparable v g r S1 S2 ->
  exists bnd o a n, judge_bounds bounded image = Ok bnd /\ compute_overlap false g r bnd = Ok o /\ jaccard v S1 S2 a n /\ 0 < n /\ quotient (o_overlap o) a n.
Proof.
  unfold visible, judge_bounds. destruct bounded.
  - intros (w & h & Sz & Hw & Hh & ->) C. rewrite (sized_get image w h Sz Hw Hh). cbn [obind]. change (2 ^ 21) with 2097152 in Hw, Hh.
    assert (Ib : int_bounds (mkBounds fzero (float_of_int h) fzero (float_of_int w)) 0 0 w h).
    { unfold int_bounds. cbn [left top right bottom]. pose proof (float_of_int_finite_float w ltac:(lia)) as Fw. pose proof (float_of_int_finite_float h ltac:(lia)) as Fh.
      pose proof (rep_is_int _ _ (rep_float_of_int w ltac:(lia))) as Rw. pose proof (rep_is_int _ _ (rep_float_of_int h ltac:(lia))) as Rh.
      pose proof zero_finite as F0. assert (R0 : is_int fzero 0) by (split; [exact Logic.I|reflexivity]).
      exact (conj F0 (conj F0 (conj Fw (conj Fh (conj R0 (conj R0 (conj Rw Rh))))))). }
    destruct (overlap_seen g r S1 S2 _ 0 0 w h (mkBox 0 0 w h) C Ib) as (o & a & n & O & J & P & Q); [intros p _; cbn [b_left b_top b_right b_bottom]; split; [|split; [|split]]; reflexivity|].
    exists (mkBounds fzero (float_of_int h) fzero (float_of_int w)), o, a, n. split; [reflexivity|]. split; [exact O|]. split; [exact J|]. split; [exact P|exact Q].
  - intros -> C. destruct overlap_example_hypotheses as (? & ? & ? & ? & ? & ? & ? & ? & ? & ? & ? & ? & _ & _ & _ & _ & _ & _ & Ib & _).
    pose proof fmax_large as L. set (F := FM) in *. clearbody F. change (2 ^ 21) with 2097152 in L.
    destruct (overlap_seen g r S1 S2 _ _ _ _ _ (mkBox (- 2 ^ 21) (- 2 ^ 21) (2 ^ 21) (2 ^ 21)) C Ib) as (o & a & n & O & J & P & Q).
    { intros p B. assert (W : - 2 ^ 21 <= b_left p /\ b_right p <= 2 ^ 21 /\ - 2 ^ 21 <= b_top p /\ b_bottom p <= 2 ^ 21) by (destruct B as [(_ & B)|(_ & B)]; exact B).
      cbn [b_left b_top b_right b_bottom]. change (2 ^ 21) with 2097152 in *. clear - W L. destruct W as (W1 & W2 & W3 & W4). split; [|split; [|split]]; lia. }
    exists no_bounds, o, a, n. split; [reflexivity|]. split; [exact O|]. split; [exact J|]. split; [exact P|exact Q].
Qed.
(** The comparison with the threshold *)
Lemma verdict_sound t x a n : proper t -> 0 < n -> quotient x a n -> fge t fzero && fle x t = true -> near_most t a n.
Proof.
  intros [->|(Ft & Ut)] Hn (Fx & Qx & _) H; [discriminate H|]. apply andb_true_iff in H as [H1 H2]. rewrite fge_units in H1 by (exact Ft || exact zero_finite). rewrite fle_units in H2 by assumption.
  split; [exact Ft|]. change (units fzero) with 0 in H1. split; [lia|]. apply Z.leb_le in H2. apply Z.abs_le in Qx || idtac.
  set (u := 2 ^ 1074) in *. change (2 ^ 25) with 33554432 in *. set (p := units x) in *. set (q := units t) in *. clearbody u p q. clear - Hn Qx H2.
  assert (p * n <= q * n) by (apply Z.mul_le_mono_nonneg_r; lia). replace ((q * 33554432 + u) * n) with (q * n * 33554432 + n * u) by ring. lia.
Qed.
Lemma verdict_complete t x a n : 0 < n -> quotient x a n -> at_most t a n -> fge t fzero && fle x t = true.
Proof.
  intros Hn (Fx & _ & _ & _ & _ & O) (Ft & T & A). rewrite fge_units by (exact Ft || exact zero_finite). rewrite fle_units by assumption. change (units fzero) with 0.
  apply andb_true_iff. split; [lia|]. apply Z.leb_le. apply (O t Ft). exact A.
Qed.
(** A threshold that is a fraction with a small denominator decides exactly *)
Lemma fraction_exact t a n p k : is_fraction t p k -> n * 2 ^ k < 2 ^ 25 -> near_most t a n -> at_most t a n.
Proof.
  intros (Ft & Hk & E) Hn (_ & T & H). split; [exact Ft|]. split; [exact T|]. pose proof (Z.pow_pos_nonneg 2 k ltac:(lia) ltac:(lia)) as Pk.
  set (u := 2 ^ 1074) in *. assert (Pu : 0 < u) by (apply Z.pow_pos_nonneg; lia). change (2 ^ 25) with 33554432 in *. set (q := units t) in *. set (K := 2 ^ k) in *. clearbody u q K. clear - Pu Pk E Hn H.
  assert (G : a * K * 33554432 * u <= p * n * 33554432 * u + n * K * u).
  { apply (Z.mul_le_mono_nonneg_r _ _ K) in H; [|lia]. replace (a * u * 33554432 * K) with (a * K * 33554432 * u) in H by ring.
    replace ((q * 33554432 + u) * n * K) with ((q * K) * n * 33554432 + n * K * u) in H by ring. rewrite E in H. replace (p * u * n * 33554432) with (p * n * 33554432 * u) in H by ring. exact H. }
  assert (G2 : a * K * 33554432 <= p * n * 33554432 + n * K) by (apply (Z.mul_le_mono_pos_r _ _ u Pu); lia).
  assert (G3 : a * K <= p * n) by lia. apply (Z.mul_le_mono_pos_r _ _ K Pk).
  replace (a * u * K) with (a * K * u) by ring. replace (q * n * K) with ((q * K) * n) by ring. rewrite E. replace (p * u * n) with (p * n * u) by ring. apply Z.mul_le_mono_nonneg_r; lia.
Qed.

(** The criterion for regions *)
Lemma judge_regions s image v g r S1 S2 : s_legacy s = false -> proper (s_threshold s) -> visible (s_bounded s) image v -> comparable v g r S1 S2 ->
  exists failed a n, judge s image (Some g) r = Ok failed /\ jaccard v S1 S2 a n /\ 0 < n /\ (at_most (s_threshold s) a n -> failed = true) /\ (failed = true -> near_most (s_threshold s) a n).
Proof.
  intros Lg T V C. destruct (overlap_judged _ _ _ _ _ _ _ V C) as (bnd & o & a & n & B & O & J & P & Q). unfold judge, region_overlap. rewrite B. cbn [obind]. rewrite Lg, O. cbn [obind].
  exists (fge (s_threshold s) fzero && fle (o_overlap o) (s_threshold s)), a, n. split; [reflexivity|]. split; [exact J|]. split; [exact P|]. split; [apply verdict_complete; assumption|apply verdict_sound; assumption].
Qed.
Lemma jaccard_unique v S1 S2 a n a' n' : jaccard v S1 S2 a n -> jaccard v S1 S2 a' n' -> a = a' /\ n = n'.
Proof.
  intros (b & e & B & E & -> & ->) (b' & e' & B' & E' & -> & ->). rewrite (enumerates_length _ _ _ B B'), (enumerates_length _ _ _ E E'). split; reflexivity.
Qed.
Lemma judge_exact s image v g r S1 S2 a n p k : s_legacy s = false -> proper (s_threshold s) -> visible (s_bounded s) image v -> comparable v g r S1 S2 -> jaccard v S1 S2 a n ->
  is_fraction (s_threshold s) p k -> 0 <= p -> n * 2 ^ k < 2 ^ 25 -> judge s image (Some g) r = Ok (a * 2 ^ k <=? p * n).
Proof.
  intros Lg T V C J F Hp Hn. destruct (judge_regions s image v g r S1 S2 Lg T V C) as (failed & a' & n' & E & J' & P & A & B). destruct (jaccard_unique _ _ _ _ _ _ _ J J') as (<- & <-). rewrite E. f_equal.
  pose proof F as (Ft & Hk & Eu). pose proof (Z.pow_pos_nonneg 2 k ltac:(lia) ltac:(lia)) as Pk.
  assert (X : at_most (s_threshold s) a n <-> a * 2 ^ k <= p * n).
  { unfold at_most. set (t := units (s_threshold s)) in *. set (u := 2 ^ 1074) in *. assert (Pu : 0 < u) by (apply Z.pow_pos_nonneg; lia). set (K := 2 ^ k) in *. clearbody u t K. clear - Ft Eu Pu Pk Hp P.
    split.
    - intros (_ & _ & H). apply (Z.mul_le_mono_pos_r _ _ u Pu). replace (a * K * u) with (a * u * K) by ring. replace (p * n * u) with ((p * u) * n) by ring. rewrite <- Eu. replace (t * K * n) with (t * n * K) by ring. apply Z.mul_le_mono_nonneg_r; lia.
    - intros H. split; [exact Ft|]. split; [apply (Z.mul_le_mono_pos_r _ _ K Pk); rewrite Eu, Z.mul_0_l; apply Z.mul_nonneg_nonneg; lia|].
      apply (Z.mul_le_mono_pos_r _ _ K Pk). replace (a * u * K) with (a * K * u) by ring. replace (t * n * K) with ((t * K) * n) by ring. rewrite Eu. replace (p * u * n) with (p * n * u) by ring. apply Z.mul_le_mono_nonneg_r; lia. }
  destruct (Z.leb_spec (a * 2 ^ k) (p * n)) as [C1|C1].
  - apply A. now apply X.
  - destruct failed; [|reflexivity]. exfalso. pose proof (proj1 X (fraction_exact _ _ _ _ _ F Hn (B eq_refl))). lia.
Qed.
Lemma judge_ok s image reference r : s_legacy s = false -> proper (s_threshold s) -> assessable s image reference r ->
  exists failed, judge s image reference r = Ok failed /\ (if failed : bool then lost s image reference r else kept s image reference r).
Proof.
  intros Lg T A. destruct reference as [g|]; cbn [assessable lost kept] in *.
  - destruct A as (v & S1 & S2 & V & C). destruct (judge_regions s image v g r S1 S2 Lg T V C) as (failed & a & n & E & J & P & H1 & H2). exists failed. split; [exact E|].
    destruct failed; exists v, S1, S2, a, n; (split; [exact V|]); (split; [exact C|]); (split; [exact J|]); [now apply H2|]. intros X. now specialize (H1 X).
  - assert (B : exists bnd, judge_bounds (s_bounded s) image = Ok bnd).
    { unfold judge_bounds. destruct (s_bounded s); [|eauto]. destruct (A eq_refl) as (w & h & Sz & Hw & Hh). rewrite (sized_get image w h Sz Hw Hh). cbn [obind]. eauto. }
    destruct B as (bnd & B). unfold judge, region_overlap. rewrite B. cbn [obind]. eexists. split; [reflexivity|]. set (t := s_threshold s) in *. clearbody t.
    assert (Q : fge t fzero && fle fzero t = true <-> at_most t 0 1).
    { split.
      - intros H. destruct T as [->|(Ft & Ut)]; [discriminate H|]. apply andb_true_iff in H as [H1 H2]. rewrite fge_units in H1 by (exact Ft || exact zero_finite). change (units fzero) with 0 in H1.
        split; [exact Ft|]. split; [lia|]. rewrite Z.mul_0_l. lia.
      - intros (Ft & U & _). rewrite fge_units, fle_units by (exact Ft || exact zero_finite). change (units fzero) with 0. apply andb_true_iff. split; lia. }
    destruct (fge t fzero && fle fzero t); [now apply Q|]. intros X. apply Q in X. discriminate X.
Qed.

(** ---- evaluation ---- *)
Section Run.
  Local Open Scope nat_scope.
  Variables (s : settings) (frames : nat) (initialization groundtruth : list (option region)) (image : nat -> picture) (tracker : nat -> answer) (reinitialize : nat).
  Hypotheses (Lg : s_legacy s = false) (T : proper (s_threshold s)) (Li : frames <= List.length initialization) (Lt : frames <= List.length groundtruth)
    (An : forall f, f < frames -> exists r, tracker f = State r)
    (As : forall start f, start <= f < frames -> assessable s (image start) (init_of groundtruth f) (state_of tracker f)).
  Let loses start f := lost s (image start) (init_of groundtruth f) (state_of tracker f).
  Let keeps start f := kept s (image start) (init_of groundtruth f) (state_of tracker f).
  Let run := judged_run (init_of initialization) (fun _ i r => r = state_of tracker i) loses keeps reinitialize.

  Lemma skip_judged fuel : forall e, ev_frame e <= frames -> frames - ev_frame e < fuel ->
    exists e' l, skip_frames frames initialization fuel e = Ok e' /\ ev_frame e <= ev_frame e' <= frames /\ ev_output e' = ev_output e ++ l /\
      (forall l', run (frames - ev_frame e') (ev_frame e') Fresh l' -> run (frames - ev_frame e) (ev_frame e) Fresh (l ++ l')) /\
      (ev_frame e' < frames -> init_of initialization (ev_frame e') <> None).
  Proof.
    induction fuel as [|fuel IH]; intros e H F; [lia|]. cbn [skip_frames]. destruct (Nat.ltb_spec (ev_frame e) frames) as [L|L].
    - destruct (nth_error initialization (ev_frame e)) as [[r|]|] eqn:E.
      + exists e, []. split; [reflexivity|]. split; [lia|]. split; [now rewrite app_nil_r|]. split; [auto|]. intros _. unfold init_of. rewrite E. discriminate.
      + destruct (IH (next (push e (special 0)))) as (e' & l & A & B & C & D & G); cbn [next push ev_frame ev_output] in *; [lia|lia|].
        exists e', (special 0 :: l). split; [exact A|]. split; [lia|]. split; [rewrite C, <- app_assoc; reflexivity|]. split; [|exact G].
        intros l' R. replace (frames - ev_frame e) with (S (frames - S (ev_frame e))) by lia. cbn [app]. apply run_absent; [unfold init_of; now rewrite E|]. apply D, R.
      + apply nth_error_None in E. lia.
    - exists e, []. split; [reflexivity|]. split; [lia|]. split; [now rewrite app_nil_r|]. split; [auto|lia].
  Qed.
  Lemma track_judged_ok fuel : forall e start (first : bool), ev_frame e < frames -> frames - ev_frame e < fuel -> start <= ev_frame e ->
    (first = true -> start = ev_frame e /\ init_of initialization (ev_frame e) <> None) ->
    exists e' how l, track_judged s frames groundtruth image tracker fuel start e first = Ok (e', how) /\ ev_output e' = ev_output e ++ l /\
      match how with
      | Exception => False
      | Sequence_end => ev_frame e' = frames /\ run (frames - ev_frame e) (ev_frame e) (if first then Fresh else Tracking start) l
      | Failure => ev_frame e <= ev_frame e' < frames /\ forall l', run (frames - S (ev_frame e')) (S (ev_frame e')) (after_loss reinitialize) l' ->
          run (frames - ev_frame e) (ev_frame e) (if first then Fresh else Tracking start) (l ++ special 2 :: l')
      end.
  Proof.
    induction fuel as [|fuel IH]; intros e start first H F Hs Hf; [lia|]. cbn [track_judged]. destruct (An _ H) as (r & Er). rewrite Er.
    assert (ST : state_of tracker (ev_frame e) = r) by (unfold state_of; now rewrite Er).
    destruct (nth_error groundtruth (ev_frame e)) as [reference|] eqn:G; [|apply nth_error_None in G; lia].
    assert (GT : init_of groundtruth (ev_frame e) = reference) by (unfold init_of; now rewrite G).
    pose proof (As start (ev_frame e) ltac:(lia)) as A. rewrite ST, GT in A. destruct (judge_ok s (image start) reference r Lg T A) as (failed & -> & V). cbn [obind].
    replace (frames - ev_frame e) with (S (frames - S (ev_frame e))) by lia. destruct failed.
    - assert (Lo : loses start (ev_frame e)) by (unfold loses; rewrite ST, GT; exact V).
      exists e, Failure, []. split; [reflexivity|]. split; [now rewrite app_nil_r|]. split; [lia|]. intros l' R. cbn [app]. destruct first.
      + destruct (Hf eq_refl) as (-> & Hi). apply run_start_lost; assumption.
      + apply run_lost; assumption.
    - assert (Ke : keeps start (ev_frame e)) by (unfold keeps; rewrite ST, GT; exact V).
      set (e1 := next (timed (push e (if first then special 1 else Some r)))). assert (E1 : ev_frame e1 = S (ev_frame e)) by reflexivity.
      assert (O1 : ev_output e1 = ev_output e ++ [if first then special 1 else Some r]) by reflexivity.
      assert (St : forall l, run (frames - S (ev_frame e)) (S (ev_frame e)) (Tracking start) l ->
        run (S (frames - S (ev_frame e))) (ev_frame e) (if first then Fresh else Tracking start) ((if first then special 1 else Some r) :: l)).
      { intros l R. destruct first; [destruct (Hf eq_refl) as (X & Hi); rewrite X in *; apply run_start; assumption|]. apply run_kept; [assumption|now symmetry|assumption]. }
      destruct (Nat.leb_spec frames (ev_frame e1)) as [C|C].
      + exists e1, Sequence_end, [if first then special 1 else Some r]. split; [reflexivity|]. split; [exact O1|]. split; [lia|]. apply St. replace (frames - S (ev_frame e)) with 0 by lia. apply run_end.
      + destruct (IH e1 start false) as (e' & how & l & A1 & B1 & C1); [lia|lia|lia|discriminate|]. exists e', how, ((if first then special 1 else Some r) :: l).
        split; [exact A1|]. split; [rewrite B1, O1, <- app_assoc; reflexivity|]. rewrite E1 in C1. destruct how; [| |exact C1].
        * destruct C1 as (C1 & C2). split; [exact C1|]. apply St, C2.
        * destruct C1 as (C1 & C2). split; [lia|]. intros l' R. cbn [app]. apply St, C2, R.
  Qed.
  Lemma fill_output n : forall e, ev_output (fill n e) = ev_output e ++ repeat (special 0) n.
  Proof.
    induction n as [|n IH]; intros e; cbn [fill repeat]; [now rewrite app_nil_r|]. rewrite IH. cbn [timed push ev_output]. rewrite <- app_assoc. reflexivity.
  Qed.
  Lemma run_ended n : forall f, run n f Ended (repeat (special 0) n).
  Proof. induction n as [|n IH]; intros f; cbn [repeat]; [apply run_end|apply run_over, IH]. Qed.
  Lemma run_resting k : forall n f l, k < n -> run (n - S k) (f + S k) Fresh l -> run n f (Resting (S k)) (repeat (special 0) (S k) ++ l).
  Proof.
    induction k as [|k IH]; intros n f l H R; cbn [repeat app]; (destruct n as [|n]; [lia|]); apply run_rest.
    - replace (S n - 1) with n in R by lia. replace (f + 1) with (S f) in R by lia. exact R.
    - apply IH; [lia|]. replace (n - S k) with (S n - S (S k)) by lia. replace (S f + S k) with (f + S (S k)) by lia. exact R.
  Qed.
  Lemma run_resting_end k : forall n f, n <= S k -> run n f (Resting (S k)) (repeat (special 0) n).
  Proof.
    induction k as [|k IH]; intros n f H; (destruct n as [|n]; [apply run_end|]); cbn [repeat]; apply run_rest.
    - replace n with 0 by lia. apply run_end.
    - apply IH. lia.
  Qed.
  (** the frames after a failure *)
  Lemma run_pause g : g < frames -> 0 < reinitialize -> let j := Nat.max (S g) (Nat.min (g + reinitialize) frames) in
    forall l, run (frames - j) j Fresh l -> run (frames - S g) (S g) (after_loss reinitialize) (repeat (special 0) (j - S g) ++ l).
  Proof.
    intros H R j l Rl. unfold after_loss. assert (C : reinitialize = 1 \/ exists k, reinitialize = S (S k)) by (clear - R; destruct reinitialize as [|[|k]]; [lia|auto|eauto]).
    destruct C as [C|(k & C)].
    - assert (j = S g) by (unfold j; lia). assert (match reinitialize with 0 => Ended | 1 => Fresh | S (S n as n') => Resting n' end = Fresh) as -> by (rewrite C; reflexivity).
      rewrite H0 in *. rewrite Nat.sub_diag. exact Rl.
    - assert (match reinitialize with 0 => Ended | 1 => Fresh | S (S n as n') => Resting n' end = Resting (S k)) as -> by (rewrite C; reflexivity).
      destruct (Nat.le_gt_cases (frames - S g) (S k)) as [D|D].
      + assert (j = frames) by (unfold j; lia). rewrite H0 in *. rewrite Nat.sub_diag in Rl. inversion Rl. rewrite app_nil_r. apply run_resting_end, D.
      + assert (j = S g + S k) by (unfold j; lia). rewrite H0 in *. replace (S g + S k - S g) with (S k) by lia. apply run_resting; [clear - D; lia|]. replace (frames - S g - S k) with (frames - (S g + S k)) by lia. exact Rl.
  Qed.
  Lemma evaluate_judged_ok fuel : forall e, ev_frame e <= frames -> frames - ev_frame e < fuel ->
    exists l t, evaluate_judged s frames initialization groundtruth image tracker reinitialize fuel e = Ok (Saved (ev_output e ++ l) t) /\ run (frames - ev_frame e) (ev_frame e) Fresh l.
  Proof.
    induction fuel as [|fuel IH]; intros e H F; [lia|]. cbn [evaluate_judged]. destruct (Nat.ltb_spec (ev_frame e) frames) as [L|L].
    2: { exists [], (ev_timings e). split; [now rewrite app_nil_r|]. replace (frames - ev_frame e) with 0 by lia. apply run_end. }
    destruct (skip_judged (S frames) e H ltac:(lia)) as (e1 & l1 & -> & F1 & O1 & R1 & I1). cbn [obind]. destruct (Nat.eqb_spec (ev_frame e1) frames) as [Q|Q].
    { exists l1, (ev_timings e1). split; [now rewrite O1|]. rewrite <- (app_nil_r l1). apply R1. replace (frames - ev_frame e1) with 0 by lia. apply run_end. }
    destruct (track_judged_ok (S frames) e1 (ev_frame e1) true ltac:(lia) ltac:(lia) ltac:(lia) (fun _ => conj eq_refl (I1 ltac:(lia)))) as (e2 & how & l2 & -> & O2 & B). cbn [obind]. destruct how.
    - destruct B as (B1 & B2). assert ((ev_frame e2 <? frames) = false) as -> by (apply Nat.ltb_ge; lia).
      destruct (IH e2) as (l3 & t & E & R3); [lia|lia|]. exists (l1 ++ l2), t. rewrite E. replace (frames - ev_frame e2) with 0 in R3 by lia. inversion R3; subst l3.
      split; [rewrite app_nil_r, O2, O1, app_assoc; reflexivity|]. apply R1, B2.
    - destruct B as (B1 & B2). assert ((ev_frame e2 <? frames) = true) as -> by (apply Nat.ltb_lt; lia).
      destruct (Nat.ltb_spec 0 reinitialize) as [Rp|Rp].
      + cbv zeta. set (j := Nat.max (S (ev_frame e2)) (Nat.min (ev_frame e2 + reinitialize) frames)). set (e4 := fill (j - S (ev_frame e2)) (timed (push e2 (special 2)))).
        assert (O4 : ev_output e4 = ev_output e2 ++ special 2 :: repeat (special 0) (j - S (ev_frame e2))) by (unfold e4; rewrite fill_output; cbn [timed push ev_output]; rewrite <- app_assoc; reflexivity).
        destruct (IH (mkEval j (ev_output e4) (ev_timings e4))) as (l5 & t & E & R5); cbn [ev_frame ev_output] in *; [unfold j; lia|unfold j; lia|].
        exists (l1 ++ l2 ++ special 2 :: repeat (special 0) (j - S (ev_frame e2)) ++ l5), t. split; [rewrite E, O4, O2, O1, <- !app_assoc; reflexivity|]. apply R1, B2.
        exact (run_pause (ev_frame e2) ltac:(lia) Rp l5 R5).
      + cbv zeta. exists (l1 ++ l2 ++ special 2 :: repeat (special 0) (frames - S (ev_frame e2))). eexists. split.
        * rewrite fill_output. cbn [timed push ev_output]. rewrite O2, O1, <- !app_assoc. reflexivity.
        * apply R1, B2. replace (after_loss reinitialize) with Ended by (unfold after_loss; clear - Rp; destruct reinitialize; [reflexivity|lia]). apply run_ended.
    - contradiction.
  Qed.
  Theorem run_judged_ok : exists out t, run_judged s frames initialization groundtruth image tracker reinitialize = Ok (Saved out t) /\ run frames 0 Fresh out.
  Proof.
    destruct (evaluate_judged_ok (S frames) (mkEval 0 [] 0)) as (l & t & E & R); cbn [ev_frame ev_output app] in *; [lia|lia|]. exists l, t. split; [exact E|]. now rewrite Nat.sub_0_r in R.
  Qed.
End Run.
Lemma judged_length initial state loses keeps k n f m l : judged_run initial state loses keeps k n f m l -> List.length l = n.
Proof. induction 1; cbn [List.length]; congruence. Qed.

(** ---- examples ---- *)
Lemma block_covers x y w h : Z.abs x <= 2 ^ 21 -> Z.abs y <= 2 ^ 21 -> 0 < w <= 2 ^ 21 -> 0 < h <= 2 ^ 21 -> covers (block_at x y w h) (block_pixels x y w h).
Proof.
  change (2 ^ 21) with 2097152. intros Hx Hy Hw Hh. exists x, y, w, h.
  pose proof (fun z (H : Z.abs z <= 2097152) => float_of_int_finite_float z ltac:(change (2 ^ 24) with 16777216; lia)) as F.
  pose proof (fun z (H : Z.abs z <= 2097152) => rep_is_int _ _ (rep_float_of_int z ltac:(change (2 ^ 24) with 16777216; lia))) as R.
  refine (conj (F x Hx) (conj (F y Hy) (conj (F w ltac:(lia)) (conj (F h ltac:(lia)) (conj (R x Hx) (conj (R y Hy) (conj (R w ltac:(lia)) (conj (R h ltac:(lia)) (conj _ (conj _ _)))))))))); [lia|lia|].
  intros A B. reflexivity.
Qed.
Lemma block_boxed x y w h : - 2 ^ 21 <= x -> x + w - 1 <= 2 ^ 21 -> - 2 ^ 21 <= y -> y + h - 1 <= 2 ^ 21 -> 0 < w -> 0 < h -> boxed (block_pixels x y w h) (mkBox x y (x + w - 1) (y + h - 1)).
Proof.
  change (2 ^ 21) with 2097152. intros H1 H2 H3 H4 H5 H6. unfold boxed, tight_box, block_pixels. cbn [b_left b_top b_right b_bottom]. change (2 ^ 21) with 2097152.
  split; [|lia]. split; [intros X Y H; lia|]. split; [exists y; lia|]. split; [exists y; lia|]. split; [exists x; lia|exists x; lia].
Qed.
Ltac comparable_blocks :=
  match goal with |- comparable _ (block_at ?x1 ?y1 ?w1 ?h1) (block_at ?x2 ?y2 ?w2 ?h2) _ _ =>
    split; [apply block_covers; cbn; lia|]; split; [apply block_covers; cbn; lia|];
    exists (mkBox x1 y1 (x1 + w1 - 1) (y1 + h1 - 1)), (mkBox x2 y2 (x2 + w2 - 1) (y2 + h2 - 1));
    split; [apply block_boxed; cbn; lia|]; split; [apply block_boxed; cbn; lia|]; cbv zeta;
    unfold wide, small_hull, apart_boxes, in_box, block_pixels; cbn; split; [lia|]; split; [lia|]; split; [lia|]; split; [lia|]
  end.
Lemma judge_example : visible true (PMemory 10 10) (mkBox 0 0 10 10) /\
  comparable (mkBox 0 0 10 10) (block_at 0 0 8 10) (block_at 5 0 5 10) (block_pixels 0 0 8 10) (block_pixels 5 0 5 10) /\
  jaccard (mkBox 0 0 10 10) (block_pixels 0 0 8 10) (block_pixels 5 0 5 10) 30 100 /\ judge (with_bounds (str "0.28")) (PMemory 10 10) (Some (block_at 0 0 8 10)) (block_at 5 0 5 10) = Ok false /\
  judge (with_bounds (str "0.3")) (PMemory 10 10) (Some (block_at 0 0 8 10)) (block_at 5 0 5 10) = Ok true.
Proof.
  split; [exists 10, 10; split; [constructor|]; cbn; split; [lia|]; split; [lia|reflexivity]|].
  split; [comparable_blocks; exists 0, 0; lia|].
  split; [|split; vm_compute; reflexivity].
  exists (window_pixels 5 0 3 10), (window_pixels 0 0 10 10). unfold block_pixels, in_box. cbn [b_left b_top b_right b_bottom].
  split; [split; [apply NoDup_window; lia|intros X Y; rewrite in_window by lia; lia]|].
  split; [split; [apply NoDup_window; lia|intros X Y; rewrite in_window by lia; lia]|]. rewrite !window_pixels_length. split; reflexivity.
Qed.
Lemma outside_pixels : jaccard (mkBox 0 0 9 9) (block_pixels 0 0 8 10) (block_pixels 5 0 6 10) 30 100 /\ ~ near_most (s_threshold (with_bounds (str "0.28"))) 30 100 /\
  judge (with_bounds (str "0.28")) (PMemory 10 10) (Some (block_at 0 0 8 10)) (block_at 5 0 6 10) = Ok true.
Proof.
  split; [|split; [|vm_compute; reflexivity]].
  - exists (window_pixels 5 0 3 10), (window_pixels 0 0 10 10). unfold block_pixels, in_box. cbn [b_left b_top b_right b_bottom].
    split; [split; [apply NoDup_window; lia|intros X Y; rewrite in_window by lia; lia]|].
    split; [split; [apply NoDup_window; lia|intros X Y; rewrite in_window by lia; lia]|]. rewrite !window_pixels_length. split; reflexivity.
  - intros (_ & _ & H). revert H. vm_compute. intros H. apply H. reflexivity.
Qed.
Lemma thin_pixels : jaccard (mkBox (- 2 ^ 21) (- 2 ^ 21) (2 ^ 21) (2 ^ 21)) (block_pixels 0 0 10 1) (block_pixels 0 0 10 2) 10 20 /\ ~ near_most (s_threshold (with_threshold (str "0.1"))) 10 20 /\
  judge (with_threshold (str "0.1")) PUrl (Some (block_at 0 0 10 1)) (block_at 0 0 10 2) = Ok true.
Proof.
  split; [|split; [|vm_compute; reflexivity]].
  - exists (window_pixels 0 0 10 1), (window_pixels 0 0 10 2). unfold block_pixels, in_box. cbn [b_left b_top b_right b_bottom]. change (2 ^ 21) with 2097152.
    split; [split; [apply NoDup_window; lia|intros X Y; rewrite in_window by lia; lia]|].
    split; [split; [apply NoDup_window; lia|intros X Y; rewrite in_window by lia; lia]|]. rewrite !window_pixels_length. split; reflexivity.
  - intros (_ & _ & H). revert H. vm_compute. intros H. apply H. reflexivity.
Qed.
Lemma drift_assessable : forall start f, (start <= f < 5)%nat -> assessable (with_threshold (str "0.5")) PUrl (init_of drift_truth f) (state_of drift_tracker f).
Proof.
  intros start f H. assert (C : (f = 0 \/ f = 1 \/ f = 2 \/ f = 3 \/ f = 4)%nat) by lia.
  destruct C as [->|[->|[->|[->| ->]]]]; cbn [init_of drift_truth nth_error state_of drift_tracker nth assessable]; try discriminate;
    eexists _, (block_pixels _ _ _ _), (block_pixels _ _ _ _); (split; [reflexivity|]); comparable_blocks.
  all: (exists 0, 0; lia) || (exists 4, 4; lia).
Qed.
Lemma judge_without bounded image v g r S1 S2 : visible (s_bounded (read_settings None bounded None)) image v -> comparable v g r S1 S2 ->
  judge (read_settings None bounded None) image (Some g) r = Ok false.
Proof.
  intros V C. destruct (judge_regions (read_settings None bounded None) image v g r S1 S2 eq_refl (settings_proper None bounded None) V C) as (failed & a & n & E & _ & _ & _ & H). rewrite E. destruct failed; [|reflexivity]. exfalso.
  destruct (H eq_refl) as (_ & U & _). cbn [read_settings s_threshold] in U. destruct default_ok as (_ & _ & U'). lia.
Qed.
Lemma evaluation_judged f bounded frames initialization groundtruth image tracker reinitialize : let s := read_settings f bounded None in
  (frames <= List.length initialization)%nat -> (frames <= List.length groundtruth)%nat -> (forall i, (i < frames)%nat -> exists r, tracker i = State r) ->
  (forall start i, (start <= i < frames)%nat -> assessable s (image start) (init_of groundtruth i) (state_of tracker i)) ->
  exists out t, run_judged s frames initialization groundtruth image tracker reinitialize = Ok (Saved out t) /\ List.length out = frames /\
    judged_run (init_of initialization) (fun _ i r => r = state_of tracker i) (fun start i => lost s (image start) (init_of groundtruth i) (state_of tracker i))
      (fun start i => kept s (image start) (init_of groundtruth i) (state_of tracker i)) reinitialize frames 0 Fresh out.
Proof.
  intros s Li Lt An As. destruct (run_judged_ok s frames initialization groundtruth image tracker reinitialize eq_refl (settings_proper f bounded None) Li Lt An As) as (out & t & E & R).
  exists out, t. split; [exact E|]. split; [exact (judged_length _ _ _ _ _ _ _ _ _ R)|exact R].
Qed.
