(** Proofs about the Matlab tutorial tracker (C135). *)
From Verif Require Import CBase Ncc NccMatlab NccSpec NccProofs NccMatlabSpec.
Local Open Scope Z_scope.

Lemma m_round_near z : near z (m_round z).
Proof.
  unfold near, m_round, unit. destruct (0 <=? z) eqn:E.
  - pose proof (Z.div_mod (2 * z + 1048576) (2 * 1048576) ltac:(lia)). pose proof (Z.mod_pos_bound (2 * z + 1048576) (2 * 1048576) ltac:(lia)). lia.
  - pose proof (Z.div_mod (1048576 - 2 * z) (2 * 1048576) ltac:(lia)). pose proof (Z.mod_pos_bound (1048576 - 2 * z) (2 * 1048576) ltac:(lia)). lia.
Qed.
Lemma m_round_pos z : 0 <= z -> 2 * z - 1048576 < 2 * 1048576 * m_round z <= 2 * z + 1048576.
Proof.
  intros H. unfold m_round, unit. rewrite (proj2 (Z.leb_le 0 z) H).
  pose proof (Z.div_mod (2 * z + 1048576) (2 * 1048576) ltac:(lia)). pose proof (Z.mod_pos_bound (2 * z + 1048576) (2 * 1048576) ltac:(lia)). lia.
Qed.
Lemma ends_ok n a b : well_in n a b -> 1 <= m_round a /\ m_round a + 1 <= m_round b /\ m_round b <= n - 1.
Proof.
  intros (A & B & C). pose proof (m_round_pos a ltac:(lia)) as Ra. pose proof (m_round_pos b ltac:(lia)) as Rb. split; [lia|]. split; [|lia].
  assert (M : m_round (a + 1048576) <= m_round b).
  { unfold m_round, unit. rewrite !(proj2 (Z.leb_le 0 _)) by lia. apply Z.div_le_mono; lia. }
  assert (E : m_round (a + 1048576) = m_round a + 1).
  { unfold m_round, unit. rewrite !(proj2 (Z.leb_le 0 _)) by lia. replace (2 * (a + 1048576) + 1048576) with (2 * a + 1048576 + 1 * (2 * 1048576)) by ring. apply Z.div_add. lia. }
  lia.
Qed.
(** The state for an object *)
Definition started (r : irect) : mstate := mkState (2 * r_x r + r_w r) (2 * r_y r + r_h r) (r_w r) (r_h r) (Z.max (r_w r) (r_h r) * 2).
Lemma init_bound width height region r : bounding region = Some r -> inner width height r -> minit width height region = Some (started r, r).
Proof.
  intros E (I1 & I2 & I3 & I4). unfold minit. rewrite E, !Z.max_r by lia. rewrite (Z.min_r (width - 2)), (Z.min_r (height - 2)) by lia. destruct r as [x y w h]. cbn [r_x r_y r_w r_h] in *. unfold started. cbn [r_x r_y r_w r_h].
  replace (x + w - 1 - x + 1) with w by ring. replace (y + h - 1 - y + 1) with h by ring. replace (x + (x + w - 1) + 1) with (2 * x + w) by ring. replace (y + (y + h - 1) + 1) with (2 * y + h) by ring. reflexivity.
Qed.
Lemma rounded_box width height x1 y1 x2 y2 : well_in width x1 x2 -> well_in height y1 y2 ->
  let r := mkRect (m_round x1) (m_round y1) (m_round x2 - m_round x1) (m_round y2 - m_round y1) in
  near_box x1 y1 x2 y2 r /\ inner width height r /\ 1 <= r_w r /\ 1 <= r_h r.
Proof.
  intros Hx Hy. pose proof (ends_ok _ _ _ Hx) as (A1 & A2 & A3). pose proof (ends_ok _ _ _ Hy) as (B1 & B2 & B3). cbv zeta. unfold near_box, inner. cbn [r_x r_y r_w r_h].
  replace (m_round x1 + (m_round x2 - m_round x1)) with (m_round x2) by ring. replace (m_round y1 + (m_round y2 - m_round y1)) with (m_round y2) by ring.
  split; [split; [apply m_round_near|]; split; [apply m_round_near|]; split; apply m_round_near|]. lia.
Qed.
Lemma init_rectangle width height x y w h : well_in width x (x + w) -> well_in height y (y + h) ->
  exists t r, minit width height [x; y; w; h] = Some (t, r) /\ near_box x y (x + w) (y + h) r /\ inner width height r /\ 1 <= r_w r /\ 1 <= r_h r.
Proof.
  intros Hx Hy. pose proof (rounded_box _ _ _ _ _ _ Hx Hy) as B. cbv zeta in B. destruct B as (N & I1 & W & H).
  eexists _, _. split; [apply init_bound; [reflexivity|exact I1]|]. split; [exact N|]. split; [exact I1|]. split; assumption.
Qed.
Lemma other_flat l : every_other (flat l) = map fst l.
Proof. induction l as [|[a b] l IH]; [reflexivity|]. unfold flat. cbn [map concat app every_other fst snd]. f_equal. exact IH. Qed.
Lemma other_tail l : every_other (tl (flat l)) = map snd l.
Proof.
  assert (G : forall a l, every_other (a :: tl (flat l)) = a :: every_other (tl (tl (flat l)))).
  { intros a l0. destruct l0 as [|[p q] l0]; [reflexivity|]. reflexivity. }
  induction l as [|[a b] l IH]; [reflexivity|]. unfold flat. cbn [map concat app tl fst snd]. fold (flat l). destruct l as [|[c d] l]; [reflexivity|].
  unfold flat in *. cbn [map concat app tl fst snd every_other] in *. f_equal. exact IH.
Qed.
Lemma fold_min l : forall a, fold_left Z.min l a <= a /\ Forall (fun z => fold_left Z.min l a <= z) l /\ (fold_left Z.min l a = a \/ In (fold_left Z.min l a) l).
Proof.
  induction l as [|b l IH]; intros a; cbn [fold_left]; [split; [lia|]; split; [apply Forall_nil|now left]|].
  destruct (IH (Z.min a b)) as (A & B & C). split; [lia|]. split; [apply Forall_cons; [lia|exact B]|]. destruct C as [C|C]; [|right; now right].
  rewrite C. destruct (Z.min_dec a b) as [M|M]; rewrite M; [now left|right; now left].
Qed.
Lemma fold_max l : forall a, a <= fold_left Z.max l a /\ Forall (fun z => z <= fold_left Z.max l a) l /\ (fold_left Z.max l a = a \/ In (fold_left Z.max l a) l).
Proof.
  induction l as [|b l IH]; intros a; cbn [fold_left]; [split; [lia|]; split; [apply Forall_nil|now left]|].
  destruct (IH (Z.max a b)) as (A & B & C). split; [lia|]. split; [apply Forall_cons; [lia|exact B]|]. destruct C as [C|C]; [|right; now right].
  rewrite C. destruct (Z.max_dec a b) as [M|M]; rewrite M; [now left|right; now left].
Qed.
Lemma extremes_found l a b : extremes l a b -> m_min l = a /\ m_max l = b.
Proof.
  intros (Ha & Hb & F). destruct l as [|c l]; [destruct Ha|]. unfold m_min, m_max. rewrite Forall_forall in F.
  destruct (fold_min l c) as (A1 & A2 & A3). destruct (fold_max l c) as (B1 & B2 & B3). rewrite Forall_forall in A2, B2.
  assert (M1 : In (fold_left Z.min l c) (c :: l)) by (destruct A3 as [->|A3]; [now left|now right]). assert (M2 : In (fold_left Z.max l c) (c :: l)) by (destruct B3 as [->|B3]; [now left|now right]).
  apply F in M1, M2. split.
  - destruct Ha as [<-|Ha]; [lia|]. apply A2 in Ha. lia.
  - destruct Hb as [<-|Hb]; [lia|]. apply B2 in Hb. lia.
Qed.
Lemma flat_length l : List.length (flat l) = (2 * List.length l)%nat.
Proof. unfold flat. induction l as [|[a b] l IH]; [reflexivity|]. cbn [map concat app List.length]. rewrite IH. lia. Qed.
Lemma init_polygon width height l x1 x2 y1 y2 : (3 <= List.length l)%nat -> extremes (map fst l) x1 x2 -> extremes (map snd l) y1 y2 -> well_in width x1 x2 -> well_in height y1 y2 ->
  exists t r, minit width height (flat l) = Some (t, r) /\ near_box x1 y1 x2 y2 r /\ inner width height r /\ 1 <= r_w r /\ 1 <= r_h r.
Proof.
  intros Hl Ex Ey Hx Hy. destruct (extremes_found _ _ _ Ex) as [X1 X2]. destruct (extremes_found _ _ _ Ey) as [Y1 Y2].
  pose proof (rounded_box _ _ _ _ _ _ Hx Hy) as B. cbv zeta in B. destruct B as (N & I1 & W & H).
  eexists _, _. split; [apply init_bound; [|exact I1]|split; [exact N|]; split; [exact I1|]; split; assumption].
  unfold bounding. rewrite (proj2 (Nat.ltb_lt _ _)) by (rewrite flat_length; lia). rewrite other_flat, other_tail, X1, X2, Y1, Y2. reflexivity.
Qed.

(** ---- Tracking ---- *)
Lemma round2_pos h : 0 <= h -> round2 h = (h + 1) / 2.
Proof. intros H. unfold round2. now rewrite (proj2 (Z.leb_le 0 h) H). Qed.
Lemma side n x w m : 1 <= w <= m -> 2 <= m -> 1 <= x -> x + w <= n - 1 -> w < n - 2 ->
  let a := Z.max 1 (round2 (2 * x + w - m * 2)) in let b := Z.min (n - 2) (round2 (2 * x + w + m * 2)) in
  around_inner n x w m a b /\ 1 <= a <= x /\ x + w - 1 <= b <= n - 2 /\ w < b - a + 1.
Proof.
  intros Hw Hm Hx Hn Hs. cbv zeta. pose proof (round2_near (2 * x + w - m * 2)) as N1. pose proof (round2_near (2 * x + w + m * 2)) as N2.
  assert (R1 : 2 <= 2 * x + w - m * 2 -> round2 (2 * x + w - m * 2) = (2 * x + w - m * 2 + 1) / 2) by (intros; apply round2_pos; lia).
  assert (R2 : round2 (2 * x + w + m * 2) = (2 * x + w + m * 2 + 1) / 2) by (apply round2_pos; lia).
  assert (R0 : 2 * x + w - m * 2 <= 1 -> round2 (2 * x + w - m * 2) <= 1) by lia.
  set (p := round2 (2 * x + w - m * 2)) in *. set (q := round2 (2 * x + w + m * 2)) in *. clearbody p q.
  assert (L : p <= 1 \/ (1 < p /\ 2 * p <= 2 * x + w - m * 2 + 1 /\ 2 * x + w - m * 2 <= 2 * p)) by (destruct (Z_le_gt_dec p 1); [now left|right]; destruct (Z_le_gt_dec 2 (2 * x + w - m * 2)) as [C|C]; [specialize (R1 C)|]; lia).
  assert (G : x + w <= q) by lia. clear R1 R2 R0. unfold around_inner. split; [|lia]. split.
  - destruct L as [L|L]; [|left; rewrite Z.max_r by lia; lia]. destruct (Z_le_gt_dec (2 * x + w - m * 2) 2); [right; rewrite Z.max_l by lia; lia|left; rewrite Z.max_l by lia; lia].
  - destruct (Z_le_gt_dec q (n - 2)); [left; rewrite Z.min_r by lia; lia|right; rewrite Z.min_l by lia; lia].
Qed.
Definition object_ok (width height : Z) (r : irect) : Prop :=
  inner width height r /\ 1 <= r_w r < width - 2 /\ 1 <= r_h r < height - 2 /\ 2 <= Z.max (r_w r) (r_h r).
Lemma small_update r v : 1 <= r_w r -> 1 <= r_h r -> too_small (r_w r) (r_h r) v ->
  mupdate (v_cols v) (v_rows v) (v_best v) (started r) = Some (whole_place r, started r, None).
Proof.
  intros W H T. unfold mupdate, started, too_small in *. cbn [s_x2 s_y2 s_w s_h s_window]. cbv zeta. cbn [r_w r_h].
  set (a := round2 _). set (b := round2 _). set (c := round2 _). set (d := round2 _). clearbody a b c d.
  match goal with |- context [if ?t then _ else _] => replace t with true by (symmetry; apply orb_true_iff; lia) end.
  unfold whole_place. do 3 f_equal; f_equal; ring.
Qed.
Lemma track_inner width height l : forall r, object_ok width height r -> Forall (fun v => proper_picture width height v \/ too_small (r_w r) (r_h r) v) l ->
  exists answers, mtrack (started r) l = Some answers /\ places_ok width height (r_w r) (r_h r) r l answers.
Proof.
  induction l as [|v l IH]; intros r ((I1 & I2 & I3 & I4) & W & H & M) Hl; [exists []; split; [reflexivity|exact Logic.I]|]. inversion_clear Hl as [|? ? Hv Hl']. destruct Hv as [(Vc & Vr & Hb)|Ts].
  2: { cbn [mtrack]. rewrite small_update by (assumption || lia). destruct (IH r) as (answers & E & P); [split; [split; [exact I1|]; split; [exact I2|]; split; assumption|]; split; [exact W|]; split; [exact H|exact M]|exact Hl'|].
    rewrite E. eexists. split; [reflexivity|]. cbn [places_ok]. split; [exact Ts|]. split; [reflexivity|exact P]. }
  cbn [mtrack]. rewrite Vc, Vr. unfold mupdate. unfold started at 1 2 3 4 5 6 7 8. cbn [s_x2 s_y2 s_w s_h s_window].
  destruct (side width (r_x r) (r_w r) (Z.max (r_w r) (r_h r))) as (A1 & A2 & A3 & A4); [lia|lia|lia|lia|lia|].
  destruct (side height (r_y r) (r_h r) (Z.max (r_w r) (r_h r))) as (B1 & B2 & B3 & B4); [lia|lia|lia|lia|lia|].
  cbv zeta in *. unfold started. cbn [s_x2 s_y2 s_w s_h s_window].
  set (x1 := Z.max 1 (round2 (2 * r_x r + r_w r - _))) in *. set (x2 := Z.min (width - 2) _) in *. set (y1 := Z.max 1 (round2 (2 * r_y r + r_h r - _))) in *. set (y2 := Z.min (height - 2) _) in *. clearbody x1 x2 y1 y2.
  cbn [r_w r_h]. rewrite !(Z.max_r 0) by lia. rewrite !(proj2 (Z.ltb_ge _ _)) by lia. cbn [orb]. rewrite !(proj2 (Z.leb_gt _ _)) by lia. cbn [orb].
  set (part := mkRect x1 y1 (x2 - x1 + 1) (y2 - y1 + 1)). assert (Ip : inner width height part) by (unfold inner, part; cbn [r_x r_y r_w r_h]; lia).
  replace (x2 - x1 + 1 - (r_w r - 1) - 1) with (x2 - x1 + 1 - r_w r) by ring. replace (y2 - y1 + 1 - (r_h r - 1) - 1) with (y2 - y1 + 1 - r_h r) by ring.
  set (places := mkRect x1 y1 (x2 - x1 + 1 - r_w r) (y2 - y1 + 1 - r_h r)).
  destruct (Hb places) as [O1 O2]; [unfold places; cbn [r_w]; lia|unfold places; cbn [r_h]; lia|]. destruct (v_best v places) as [ox oy] eqn:Eb. cbn [fst snd] in O1, O2. unfold places in O1, O2. cbn [r_w r_h] in O1, O2.
  set (r' := mkRect (x1 + ox) (y1 + oy) (r_w r) (r_h r)).
  destruct (IH r') as (answers & E & P); [unfold object_ok, inner, r'; cbn [r_x r_y r_w r_h]; lia|exact Hl'|].
  replace (mkState (2 * (x1 + (r_w r - 1) + (ox + 1)) - r_w r) (2 * (y1 + (r_h r - 1) + (oy + 1)) - r_h r) (r_w r) (r_h r) (Z.max (r_w r) (r_h r) * 2)) with (started r') by (unfold started, r'; cbn [r_x r_y r_w r_h]; f_equal; ring).
  rewrite E. eexists. split; [reflexivity|]. cbn [places_ok]. exists r'. split; [unfold whole_place, r'; cbn [r_x r_y r_w r_h]; f_equal; ring|].
  split; [reflexivity|]. split; [reflexivity|]. split; [unfold inner, r'; cbn [r_x r_y r_w r_h]; lia|]. split; [exact Ip|]. cbv zeta. unfold part, r' in *. cbn [r_x r_y r_w r_h] in *. fold places. rewrite Eb. cbn [fst snd].
  replace (x1 + (x2 - x1 + 1) - 1) with x2 by ring. replace (y1 + (y2 - y1 + 1) - 1) with y2 by ring. split; [exact A1|]. split; [exact B1|]. split; [split; reflexivity|]. split; [lia|]. split; [lia|exact P].
Qed.
Lemma run_matlab width height region t r l : minit width height region = Some (t, r) -> 1 <= r_w r < width - 2 -> 1 <= r_h r < height - 2 -> 2 <= Z.max (r_w r) (r_h r) ->
  Forall (fun v => proper_picture width height v \/ too_small (r_w r) (r_h r) v) l -> exists answers, mtrack t l = Some answers /\ places_ok width height (r_w r) (r_h r) r l answers.
Proof.
  intros E W H M Hl. assert (G : t = started r /\ inner width height r).
  { unfold minit in E. destruct (bounding region) as [b|]; [|discriminate E]. cbv zeta in E. set (x1 := Z.max 1 (r_x b)) in *. set (y1 := Z.max 1 (r_y b)) in *. set (x2 := Z.min (width - 2) _) in *. set (y2 := Z.min (height - 2) _) in *.
    assert (1 <= x1 /\ 1 <= y1 /\ x2 <= width - 2 /\ y2 <= height - 2) by (unfold x1, x2, y1, y2; lia). clearbody x1 x2 y1 y2.
    assert (Er : r = mkRect x1 y1 (x2 - x1 + 1) (y2 - y1 + 1)) by congruence. assert (Et : t = mkState (x1 + x2 + 1) (y1 + y2 + 1) (x2 - x1 + 1) (y2 - y1 + 1) (Z.max (x2 - x1 + 1) (y2 - y1 + 1) * 2)) by congruence. clear E.
    subst r t. unfold started, inner. cbn [r_x r_y r_w r_h]. split; [f_equal; ring|lia]. }
  destruct G as [-> I0]. apply track_inner; [|exact Hl]. split; [exact I0|]. split; [exact W|]. split; [exact H|exact M].
Qed.
(** An object as wide as the picture without its outermost columns *)
Lemma wide_fails width height region t r v l : minit width height region = Some (t, r) -> 3 <= width -> r_w r = width - 2 -> 1 <= r_h r -> v_cols v = width -> v_rows v = height ->
  mtrack t (v :: l) = None.
Proof.
  intros E Wd W H Vc Vr. cbn [mtrack]. rewrite Vc, Vr.
  assert (G : exists x1 y1 x2 y2, 1 <= x1 /\ 1 <= y1 /\ x2 <= width - 2 /\ y2 <= height - 2 /\ r = mkRect x1 y1 (x2 - x1 + 1) (y2 - y1 + 1) /\ t = mkState (x1 + x2 + 1) (y1 + y2 + 1) (x2 - x1 + 1) (y2 - y1 + 1) (Z.max (x2 - x1 + 1) (y2 - y1 + 1) * 2)).
  { unfold minit in E. destruct (bounding region) as [b|]; [|discriminate E]. cbv zeta in E. set (x1 := Z.max 1 (r_x b)) in *. set (y1 := Z.max 1 (r_y b)) in *. set (x2 := Z.min (width - 2) _) in *. set (y2 := Z.min (height - 2) _) in *.
    exists x1, y1, x2, y2. split; [apply Z.le_max_l|]. split; [apply Z.le_max_l|]. split; [apply Z.le_min_l|]. split; [apply Z.le_min_l|]. clearbody x1 x2 y1 y2. split; congruence. }
  destruct G as (x1 & y1 & x2 & y2 & G1 & G2 & G3 & G4 & -> & ->). cbn [r_w r_h] in *. assert (x1 = 1) as -> by lia. assert (x2 = width - 2) as -> by lia.
  unfold mupdate. cbn [s_x2 s_y2 s_w s_h s_window]. cbv zeta. replace (width - 2 - 1 + 1) with (width - 2) in * by ring.
  set (m := Z.max (width - 2) (y2 - y1 + 1)) in *. assert (M1 : width - 2 <= m) by (unfold m; lia). assert (M2 : y2 - y1 + 1 <= m) by (unfold m; lia). clearbody m.
  pose proof (round2_near (1 + (width - 2) + 1 - m * 2)) as N1. pose proof (round2_near (1 + (width - 2) + 1 + m * 2)) as N2. pose proof (round2_near (y1 + y2 + 1 - m * 2)) as N3. pose proof (round2_near (y1 + y2 + 1 + m * 2)) as N4.
  set (a := round2 (1 + (width - 2) + 1 - m * 2)) in *. set (b := round2 (1 + (width - 2) + 1 + m * 2)) in *. set (c := round2 (y1 + y2 + 1 - m * 2)) in *. set (d := round2 (y1 + y2 + 1 + m * 2)) in *. clearbody a b c d.
  rewrite (Z.max_l 1 a) by lia. rewrite (Z.min_l (width - 2) b) by lia. cbn [r_w r_h].
  replace ((Z.max 0 (Z.min (height - 2) d - Z.max 1 c + 1) <? Z.max 0 (y2 - y1 + 1)) || (Z.max 0 (width - 2 - 1 + 1) <? Z.max 0 (width - 2)))%bool with false by (symmetry; apply orb_false_iff; lia).
  rewrite (proj2 (Z.leb_le (Z.max 0 (width - 2 - 1 + 1) - (Z.max 0 (width - 2) - 1) - 1) 0)) by lia. reflexivity.
Qed.
(** An object as high as the picture without its outermost rows *)
Lemma tall_fails width height region t r v l : minit width height region = Some (t, r) -> 3 <= height -> r_h r = height - 2 -> 1 <= r_w r -> v_cols v = width -> v_rows v = height ->
  mtrack t (v :: l) = None.
Proof.
  intros E Wd W H Vc Vr. cbn [mtrack]. rewrite Vc, Vr.
  assert (G : exists x1 y1 x2 y2, 1 <= x1 /\ 1 <= y1 /\ x2 <= width - 2 /\ y2 <= height - 2 /\ r = mkRect x1 y1 (x2 - x1 + 1) (y2 - y1 + 1) /\ t = mkState (x1 + x2 + 1) (y1 + y2 + 1) (x2 - x1 + 1) (y2 - y1 + 1) (Z.max (x2 - x1 + 1) (y2 - y1 + 1) * 2)).
  { unfold minit in E. destruct (bounding region) as [b|]; [|discriminate E]. cbv zeta in E. set (x1 := Z.max 1 (r_x b)) in *. set (y1 := Z.max 1 (r_y b)) in *. set (x2 := Z.min (width - 2) _) in *. set (y2 := Z.min (height - 2) _) in *.
    exists x1, y1, x2, y2. split; [apply Z.le_max_l|]. split; [apply Z.le_max_l|]. split; [apply Z.le_min_l|]. split; [apply Z.le_min_l|]. clearbody x1 x2 y1 y2. split; congruence. }
  destruct G as (x1 & y1 & x2 & y2 & G1 & G2 & G3 & G4 & -> & ->). cbn [r_w r_h] in *. assert (y1 = 1) as -> by lia. assert (y2 = height - 2) as -> by lia.
  unfold mupdate. cbn [s_x2 s_y2 s_w s_h s_window]. cbv zeta. replace (height - 2 - 1 + 1) with (height - 2) in * by ring.
  set (m := Z.max (x2 - x1 + 1) (height - 2)) in *. assert (M1 : height - 2 <= m) by (unfold m; lia). assert (M2 : x2 - x1 + 1 <= m) by (unfold m; lia). clearbody m.
  pose proof (round2_near (1 + (height - 2) + 1 - m * 2)) as N1. pose proof (round2_near (1 + (height - 2) + 1 + m * 2)) as N2. pose proof (round2_near (x1 + x2 + 1 - m * 2)) as N3. pose proof (round2_near (x1 + x2 + 1 + m * 2)) as N4.
  set (a := round2 (1 + (height - 2) + 1 - m * 2)) in *. set (b := round2 (1 + (height - 2) + 1 + m * 2)) in *. set (c := round2 (x1 + x2 + 1 - m * 2)) in *. set (d := round2 (x1 + x2 + 1 + m * 2)) in *. clearbody a b c d.
  rewrite (Z.max_l 1 a) by lia. rewrite (Z.min_l (height - 2) b) by lia. cbn [r_w r_h].
  replace ((Z.max 0 (height - 2 - 1 + 1) <? Z.max 0 (height - 2)) || (Z.max 0 (Z.min (width - 2) d - Z.max 1 c + 1) <? Z.max 0 (x2 - x1 + 1)))%bool with false by (symmetry; apply orb_false_iff; lia).
  rewrite (proj2 (Z.leb_le (Z.max 0 (height - 2 - 1 + 1) - (Z.max 0 (height - 2) - 1) - 1) 0)) by lia. rewrite orb_true_r. reflexivity.
Qed.
(** The last place is never the answer *)
Lemma edge_lost width height region t r v : minit width height region = Some (t, r) -> 1 <= r_w r < width - 2 -> 1 <= r_h r < height - 2 -> 2 <= Z.max (r_w r) (r_h r) -> r_x r + r_w r = width - 1 ->
  proper_picture width height v -> exists p s, mtrack t [v] = Some [(p, s)] /\ l_x2 p < 2 * r_x r.
Proof.
  intros E W H M Ed Hv. destruct (run_matlab width height region t r [v] E W H M) as (answers & T & P); [apply Forall_cons; [left; exact Hv|apply Forall_nil]|].
  destruct answers as [|[p [part|]] answers]; cbn [places_ok] in P; [now destruct P| |destruct Hv as (V1 & V2 & _); destruct P as [[P|P] _]; lia]. destruct P as (r' & -> & W' & H' & I1 & (_ & _ & J3 & _) & _ & _ & _ & L & _ & P). destruct answers as [|[q [s|]] answers]; [|destruct P|destruct P].
  exists (whole_place r'), (Some part). split; [exact T|]. unfold whole_place. cbn [l_x2]. lia.
Qed.
Lemma m_round_whole n : m_round (n * 1048576) = n.
Proof. pose proof (m_round_near (n * 1048576)) as N. unfold near in N. lia. Qed.
Lemma left_border width height y w h : 1 <= y -> 1 <= w <= width - 1 -> 1 <= h -> y + h <= height - 1 ->
  exists t, minit width height [0; y * 1048576; w * 1048576; h * 1048576] = Some (t, mkRect 1 y (w - 1) h).
Proof.
  intros Hy Hw Hh Hn. unfold minit. cbn [bounding List.length Nat.ltb Nat.leb]. change 0 with (0 * 1048576). rewrite <- !Z.mul_add_distr_r, !m_round_whole. cbv zeta. cbn [r_x r_y r_w r_h].
  rewrite (Z.max_l 1 0), (Z.max_r 1 y), (Z.min_r (width - 2)), (Z.min_r (height - 2)) by lia. eexists. do 2 f_equal. f_equal; ring.
Qed.
Lemma outside_taken width height x y w h : 1 <= width -> width * 1048576 <= x -> exists t r, minit width height [x; y; w; h] = Some (t, r) /\ r_w r < 0.
Proof.
  intros Hd Hx. pose proof (m_round_near x) as N. unfold near in N. unfold minit. cbn [bounding List.length Nat.ltb Nat.leb]. cbv zeta. eexists _, _. split; [reflexivity|]. cbn [r_x r_y r_w r_h]. lia.
Qed.
