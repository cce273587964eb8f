(** Bounds of regions. *)
From Verif Require Import CBase Num NumProofs DecimalProofs NumSpec Buffer Region RegionSpec FloatOps FloatProofs RegionGeom GeomSpec GeomProofs.
Local Open Scope Z_scope.

Lemma units_fixed x : units x = fixed x.
Proof. reflexivity. Qed.
Lemma rep_is_int x z : rep x z -> is_int x z.
Proof. intros (F & _ & V). split; [destruct x; try discriminate F; exact I|exact V]. Qed.
Lemma finite_float_finite x : finite_float x -> finite x = true /\ - SH <= fexp x.
Proof.
  intros [V F]. destruct x as [s| | |s m e]; try contradiction; split; try reflexivity; cbn [fexp]; unfold SH; [lia|].
  apply valid_bounds in V. lia.
Qed.
Lemma is_int_rep x z : finite_float x -> is_int x z -> rep x z.
Proof.
  intros Hf [_ V]. destruct (finite_float_finite x Hf) as [F E]. split; [exact F|]. split; [|exact V].
  destruct x as [s| | |s m e]; try discriminate F; cbn [fexp] in *; [lia|].
  destruct (Z.le_gt_cases (-64) e) as [|C]; [assumption|exfalso].
  destruct Hf as [Vb _]. apply valid_bounds in Vb as (B1 & B2 & _). rewrite units_fixed in V. cbn [fixed] in V.
  change 1074 with SH in V.
  assert (P : 2 ^ 24 * 2 ^ (e + SH) <= 2 ^ SH) by (rewrite <- Z.pow_add_r by (unfold SH; lia); apply Z.pow_le_mono_r; unfold SH; lia).
  pose proof (pow2_pos (e + SH) ltac:(unfold SH; lia)) as P1. set (a := 2 ^ (e + SH)) in *. set (b := 2 ^ SH) in *.
  set (c := 2 ^ 24) in *. clearbody a b c. clear - V P P1 B1.
  assert (Q : 0 < Z.pos m * a < b) by nia. set (d := Z.pos m * a) in *. clearbody d. clear - V Q.
  assert (z = 0 \/ 1 <= z \/ z <= -1) as [->|[Hz|Hz]] by lia; [|assert (b <= z * b) by nia|assert (z * b <= - b) by nia]; destruct s; lia.
Qed.

(** ---- Masks ---- *)
Section MaskBounds.
  Variables (w h : Z) (data : list N).
  Hypothesis Hm : mask_ok w h data.
  Hypothesis Hw : w <= 2 ^ 24.
  Hypothesis Hh : h <= 2 ^ 24.

  Definition fg (i j : Z) : Prop := 0 <= i < h /\ 0 <= j < w /\ nth (Z.to_nat (i * w + j)) data 0%N <> 0%N.
  (** Set pixels visited before row i, column j *)
  Definition seen (i j r c : Z) : Prop := fg r c /\ (r < i \/ (r = i /\ c < j)).

  Definition zbounds (b : bounds) (t bo l r : Z) : Prop := rep (top b) t /\ rep (bottom b) bo /\ rep (left b) l /\ rep (right b) r.
  Definition bounds_inv (i j : Z) (b : bounds) : Prop :=
    ((forall r c, ~ seen i j r c) /\ b = start_bounds) \/
    exists t bo l r, zbounds b t bo l r /\
      (forall y x, seen i j y x -> l <= x <= r /\ t <= y <= bo) /\
      (exists y, seen i j y l) /\ (exists y, seen i j y r) /\ (exists x, seen i j t x) /\ (exists x, seen i j bo x).

  Lemma include_ok b t bo l r x y : zbounds b t bo l r -> Z.abs x <= 2 ^ 24 -> Z.abs y <= 2 ^ 24 ->
    zbounds (include b (float_of_int x) (float_of_int y)) (Z.min t y) (Z.max bo y) (Z.min l x) (Z.max r x).
  Proof.
    intros (B1 & B2 & B3 & B4) Hx Hy. pose proof (rep_float_of_int x Hx) as Rx. pose proof (rep_float_of_int y Hy) as Ry.
    unfold include, zbounds. cbn [top bottom left right]. auto using rep_MIN, rep_MAX.
  Qed.
  Lemma start_ok : zbounds start_bounds FM (- FM) FM (- FM).
  Proof. unfold zbounds, start_bounds. cbn [top bottom left right]. auto using rep_FLT_MAX, rep_fopp. Qed.

  Lemma seen_step i j r c : 0 <= j < w -> seen i (j + 1) r c <-> seen i j r c \/ (r = i /\ c = j /\ fg i j).
  Proof.
    intros Hj. unfold seen. split.
    - intros [F [L|[E L]]]; [left; auto|]. destruct (Z.eq_dec c j) as [->|]; [right; subst; auto|left; split; [exact F|]; right; lia].
    - intros [[F L]|(-> & -> & F)]; split; try exact F; lia.
  Qed.

  Lemma mask_pixel_inv i j b : 0 <= i < h -> 0 <= j < w -> bounds_inv i j b ->
    exists b', mask_pixel_step data w i j b = Ok b' /\ bounds_inv i (j + 1) b'.
  Proof.
    intros Hi Hj HI. unfold mask_pixel_step. rewrite (pixel_ok w h) by assumption. cbn [obind].
    eexists. split; [reflexivity|]. set (v := nth (Z.to_nat (i * w + j)) data 0%N) in *.
    destruct (v =? 0)%N eqn:Ev.
    - apply N.eqb_eq in Ev.
      assert (S : forall r c, seen i (j + 1) r c <-> seen i j r c).
      { intros r c. rewrite seen_step by exact Hj. split; [|tauto]. intros [H|(-> & -> & F)]; [exact H|].
        exfalso. apply F. exact Ev. }
      destruct HI as [[N E]|(t & bo & l & r & Z & A & A1 & A2 & A3 & A4)].
      + left. split; [|exact E]. intros r c H. apply S in H. exact (N r c H).
      + right. exists t, bo, l, r. split; [exact Z|]. split; [intros y x H; apply A, S, H|].
        split; [|split; [|split]];
          [destruct A1 as [y H]|destruct A2 as [y H]|destruct A3 as [y H]|destruct A4 as [y H]]; exists y; apply S; exact H.
    - apply N.eqb_neq in Ev. assert (F : fg i j) by (split; [exact Hi|split; [exact Hj|exact Ev]]).
      assert (G : seen i (j + 1) i j) by (apply seen_step; auto).
      assert (K : forall r c, seen i j r c -> seen i (j + 1) r c) by (intros; apply seen_step; auto).
      assert (Bi : Z.abs i <= 2 ^ 24) by lia. assert (Bj : Z.abs j <= 2 ^ 24) by lia.
      right. destruct HI as [[N ->]|(t & bo & l & r & Z & A & A1 & A2 & A3 & A4)].
      + exists i, i, j, j. split.
        * pose proof (include_ok _ _ _ _ _ j i start_ok Bj Bi) as Z.
          assert (HF : 2 ^ 24 < FM) by (vm_compute; reflexivity).
          rewrite !Z.min_r, !Z.max_r in Z by lia. exact Z.
        * split; [|repeat split; eexists; exact G].
          intros y x H. apply seen_step in H as [H|(-> & -> & _)]; [destruct (N _ _ H)|lia|exact Hj].
      + exists (Z.min t i), (Z.max bo i), (Z.min l j), (Z.max r j). split; [apply include_ok; assumption|].
        split.
        { intros y x H. apply seen_step in H as [H|(-> & -> & _)]; [|lia|exact Hj]. apply A in H. lia. }
        destruct A1 as [y1 S1], A2 as [y2 S2], A3 as [x3 S3], A4 as [x4 S4]. split; [|split; [|split]].
        * destruct (Z.min_dec l j) as [E|E]; rewrite E; eauto.
        * destruct (Z.max_dec r j) as [E|E]; rewrite E; eauto.
        * destruct (Z.min_dec t i) as [E|E]; rewrite E; eauto.
        * destruct (Z.max_dec bo i) as [E|E]; rewrite E; eauto.
  Qed.

  Lemma bounds_inv_same i j i' j' b : (forall r c, seen i j r c <-> seen i' j' r c) -> bounds_inv i j b -> bounds_inv i' j' b.
  Proof.
    intros S [[N E]|(t & bo & l & r & Z & A & A1 & A2 & A3 & A4)].
    - left. split; [|exact E]. intros r c H. apply S in H. exact (N r c H).
    - right. exists t, bo, l, r. split; [exact Z|]. split; [intros y x H; apply A, S, H|].
      split; [|split; [|split]];
        [destruct A1 as [y H]|destruct A2 as [y H]|destruct A3 as [y H]|destruct A4 as [y H]]; exists y; apply S; exact H.
  Qed.

  Lemma mask_scan : exists b, for_range (Z.to_nat h) 0 (mask_row_step data w) start_bounds = Ok b /\ bounds_inv h 0 b.
  Proof.
    destruct Hm as (W & H & _).
    destruct (for_range_to (fun i b => bounds_inv i 0 b) (mask_row_step data w) h start_bounds) as (b & E & I).
    - intros i s Hi HI. unfold mask_row_step.
      destruct (for_range_to (fun j b => bounds_inv i j b) (mask_pixel_step data w i) w s) as (s' & E & I).
      + intros j t Hj. apply mask_pixel_inv; assumption.
      + exact HI.
      + exists s'. split; [exact E|]. revert I. apply bounds_inv_same. intros r c.
        split; intros [(R & C & F) L]; (split; [split; [exact R|split; [exact C|exact F]]|lia]).
    - left. split; [|reflexivity]. intros r c [(F & C & _) L]. lia.
    - exists b. split; [exact E|]. rewrite Z.max_r in I by lia. exact I.
  Qed.
End MaskBounds.

Lemma set_at_fg mx my w h data i j : set_at mx my w h data (mx + j) (my + i) <-> fg w h data i j.
Proof.
  unfold set_at. split.
  - intros H. destruct (Z_le_dec 0 i); [destruct (Z_lt_dec i h); [destruct (Z_le_dec 0 j); [destruct (Z_lt_dec j w)|]|]|];
      try (exfalso; apply H, value_outside; lia).
    rewrite value_inside in H by lia. split; [lia|]. split; [lia|exact H].
  - intros (Hi & Hj & F). now rewrite value_inside.
Qed.

Lemma mask_bounds_tight x y w h data : mask_ok w h data -> exact_span x w -> exact_span y h ->
  (exists X Y, set_at x y w h data X Y) ->
  exists b l t r bo, bounds_mask x y w h data = Ok b /\ zbounds b t bo l r /\ tight_box (set_at x y w h data) l t r bo /\
    x <= l <= r /\ r < x + w /\ y <= t <= bo /\ bo < y + h.
Proof.
  intros Hm (X1 & X2 & X3) (Y1 & Y2 & Y3) (X & Y & HS). unfold bounds_mask.
  destruct (mask_scan w h data Hm X3 Y3) as (b & E & I). rewrite E. cbn [obind].
  assert (HS' : fg w h data (Y - y) (X - x)).
  { apply (set_at_fg x y). replace (x + (X - x)) with X by lia. replace (y + (Y - y)) with Y by lia. exact HS. }
  destruct I as [[N _]|(t & bo & l & r & Zb & A & [y1 S1] & [y2 S2] & [x3 S3] & [x4 S4])].
  { exfalso. apply (N (Y - y) (X - x)). split; [exact HS'|]. destruct HS' as (R & _). lia. }
  pose proof S1 as [(R1 & C1 & _) _]. pose proof S2 as [(R2 & C2 & _) _]. pose proof S3 as [(R3 & C3 & _) _]. pose proof S4 as [(R4 & C4 & _) _].
  pose proof (A _ _ S1). pose proof (A _ _ S3).
  exists (shift_bounds b (float_of_int x) (float_of_int y)), (x + l), (y + t), (x + r), (y + bo).
  split; [reflexivity|]. split.
  - destruct Zb as (B1 & B2 & B3 & B4). pose proof (rep_float_of_int x X1) as Rx. pose proof (rep_float_of_int y Y1) as Ry.
    unfold zbounds, shift_bounds. cbn [top bottom left right]. rewrite !(Z.add_comm x), !(Z.add_comm y).
    split; [|split; [|split]]; apply rep_fadd; try assumption; try apply fmt_float; lia.
  - split.
    + split.
      * intros X' Y' H'. assert (F' : fg w h data (Y' - y) (X' - x)).
        { apply (set_at_fg x y). replace (x + (X' - x)) with X' by lia. replace (y + (Y' - y)) with Y' by lia. exact H'. }
        assert (S' : seen w h data h 0 (Y' - y) (X' - x)) by (split; [exact F'|]; destruct F' as (R & _); lia).
        apply A in S'. lia.
      * split; [|split; [|split]]; eexists; apply set_at_fg; [apply S1|apply S2|apply S3|apply S4].
    + lia.
Qed.

Lemma convert_mask_rectangle legacy x y w h data : mask_ok w h data -> exact_span x w -> exact_span y h ->
  (exists X Y, set_at x y w h data X Y) ->
  exists rx ry rw rh l t r b, convert legacy (RMask x y w h data) RECTANGLE = Ok (Some (RRect rx ry rw rh)) /\
    is_int rx l /\ is_int ry t /\ is_int rw (r - l + 1) /\ is_int rh (b - t + 1) /\
    tight_box (set_at x y w h data) l t r b.
Proof.
  intros Hm Hx Hy HS. destruct (mask_bounds_tight x y w h data Hm Hx Hy HS) as (b & l & t & r & bo & E & (B1 & B2 & B3 & B4) & T & R).
  destruct Hx as (X1 & X2 & X3). destruct Hy as (Y1 & Y2 & Y3).
  cbn [convert]. rewrite E. cbn [obind]. do 8 eexists. split; [reflexivity|].
  split; [apply rep_is_int; exact B3|]. split; [apply rep_is_int; exact B1|].
  split; [|split; [|exact T]]; apply rep_is_int; apply rep_fadd; try apply rep_fsub; try assumption; try apply fmt_float; try apply rep_one; lia.
Qed.

(** ---- Polygons ---- *)
Lemma units_le_max x : finite_float x -> fixed x <= fixed FLT_MAX /\ fixed (fopp FLT_MAX) <= fixed x.
Proof.
  intros [V F]. assert (Fx : fixed (fopp FLT_MAX) = - fixed FLT_MAX) by (vm_compute; reflexivity). rewrite Fx.
  assert (P : 0 < fixed FLT_MAX) by (vm_compute; reflexivity).
  destruct x as [s| | |s m e]; try contradiction; [cbn [fixed]; lia|].
  apply valid_bounds in V as (B1 & B2 & _). unfold FLT_MAX in *. cbn [fixed] in *.
  assert (G : Z.pos m * 2 ^ (e + SH) <= 16777215 * 2 ^ (104 + SH)).
  { apply Z.mul_le_mono_nonneg; try lia. apply Z.pow_le_mono_r; unfold SH; lia. }
  assert (0 < Z.pos m * 2 ^ (e + SH)) by (apply Z.mul_pos_pos; [lia|apply pow2_pos; unfold SH; lia]).
  set (a := Z.pos m * 2 ^ (e + SH)) in *. set (b := 16777215 * 2 ^ (104 + SH)) in *. clearbody a b. destruct s; lia.
Qed.

Definition good (x : spec_float) : Prop := finite x = true /\ - SH <= fexp x.
Lemma fMIN_spec a b : good a -> good b ->
  (fMIN a b = a \/ fMIN a b = b) /\ good (fMIN a b) /\ fixed (fMIN a b) = Z.min (fixed a) (fixed b) /\
  (fixed b <= fixed a -> fMIN a b = b).
Proof.
  intros [F1 E1] [F2 E2]. unfold fMIN. rewrite flt_finite by assumption. destruct (fixed a <? fixed b) eqn:E.
  - repeat split; auto; lia.
  - repeat split; auto; lia.
Qed.
Lemma fMAX_spec a b : good a -> good b ->
  (fMAX a b = a \/ fMAX a b = b) /\ good (fMAX a b) /\ fixed (fMAX a b) = Z.max (fixed a) (fixed b) /\
  (fixed a <= fixed b -> fMAX a b = b).
Proof.
  intros [F1 E1] [F2 E2]. unfold fMAX. rewrite fgt_finite by assumption. destruct (fixed b <? fixed a) eqn:E.
  - repeat split; auto; lia.
  - repeat split; auto; lia.
Qed.

Definition bounds_good (b : bounds) : Prop := good (top b) /\ good (bottom b) /\ good (left b) /\ good (right b).
Lemma finite_float_good x : finite_float x -> good x.
Proof. exact (finite_float_finite x). Qed.

(** One more point: the bounds grow, contain it, and each side is an old side or the point's. *)
Lemma include_spec b p : bounds_good b -> point_finite p ->
  let b' := include b (fst p) (snd p) in
  bounds_good b' /\ bounds_contain b' p /\
  fixed (top b') <= fixed (top b) /\ fixed (bottom b) <= fixed (bottom b') /\
  fixed (left b') <= fixed (left b) /\ fixed (right b) <= fixed (right b') /\
  (top b' = top b \/ top b' = snd p) /\ (bottom b' = bottom b \/ bottom b' = snd p) /\
  (left b' = left b \/ left b' = fst p) /\ (right b' = right b \/ right b' = fst p) /\
  (fixed (snd p) <= fixed (top b) -> top b' = snd p) /\ (fixed (bottom b) <= fixed (snd p) -> bottom b' = snd p) /\
  (fixed (fst p) <= fixed (left b) -> left b' = fst p) /\ (fixed (right b) <= fixed (fst p) -> right b' = fst p).
Proof.
  intros (G1 & G2 & G3 & G4) [P1 P2]. apply finite_float_good in P1, P2. unfold include, bounds_contain, bounds_good.
  cbn [top bottom left right]. rewrite !units_fixed.
  destruct (fMIN_spec (top b) (snd p) G1 P2) as (T1 & T2 & T3 & T4).
  destruct (fMAX_spec (bottom b) (snd p) G2 P2) as (B1 & B2 & B3 & B4).
  destruct (fMIN_spec (left b) (fst p) G3 P1) as (L1 & L2 & L3 & L4).
  destruct (fMAX_spec (right b) (fst p) G4 P1) as (R1 & R2 & R3 & R4).
  repeat match goal with |- _ /\ _ => split end; try assumption; change units with fixed; lia.
Qed.

Lemma fold_include_spec pts : forall b, bounds_good b -> Forall point_finite pts ->
  let b' := fold_left (fun b p => include b (fst p) (snd p)) pts b in
  bounds_good b' /\ Forall (bounds_contain b') pts /\
  fixed (top b') <= fixed (top b) /\ fixed (bottom b) <= fixed (bottom b') /\
  fixed (left b') <= fixed (left b) /\ fixed (right b) <= fixed (right b') /\
  In (top b') (top b :: map snd pts) /\ In (bottom b') (bottom b :: map snd pts) /\
  In (left b') (left b :: map fst pts) /\ In (right b') (right b :: map fst pts).
Proof.
  induction pts as [|p pts IH]; intros b G F; cbv zeta.
  - cbn [fold_left map]. repeat split; try apply G; try constructor; try lia; try reflexivity.
  - inversion F as [|? ? Fp Fr]; subst. cbn [fold_left].
    pose proof (include_spec b p G Fp) as H. cbv zeta in H. destruct H as (G' & C' & M1 & M2 & M3 & M4 & T & B & L & R & _).
    set (b1 := include b (fst p) (snd p)) in *. clearbody b1.
    destruct (IH b1 G' Fr) as (J1 & J2 & J3 & J4 & J5 & J6 & J7 & J8 & J9 & J10).
    set (b2 := fold_left _ pts b1) in *. clearbody b2.
    split; [exact J1|]. split.
    { constructor; [|exact J2]. unfold bounds_contain in *. change units with fixed in *. lia. }
    split; [lia|]. split; [lia|]. split; [lia|]. split; [lia|]. cbn [map In] in *.
    split; [|split; [|split]].
    + destruct J7 as [J|J]; [rewrite <- J; intuition|auto].
    + destruct J8 as [J|J]; [rewrite <- J; intuition|auto].
    + destruct J9 as [J|J]; [rewrite <- J; intuition|auto].
    + destruct J10 as [J|J]; [rewrite <- J; intuition|auto].
Qed.

Lemma polygon_bounds_spec pts : pts <> [] -> Forall point_finite pts ->
  Forall (bounds_contain (bounds_polygon pts)) pts /\ bounds_attained (bounds_polygon pts) pts.
Proof.
  intros Hne F. destruct pts as [|p pts]; [congruence|]. inversion F as [|? ? Fp Fr]; subst.
  assert (G : bounds_good start_bounds) by (unfold bounds_good, good, start_bounds; cbn; unfold SH; repeat split; lia).
  unfold bounds_polygon. pose proof (include_spec start_bounds p G Fp) as H. cbv zeta in H.
  destruct H as (G' & C' & _ & _ & _ & _ & _ & _ & _ & _ & T & B & L & R).
  destruct Fp as [P1 P2]. apply units_le_max in P1 as [P1 P1'], P2 as [P2 P2'].
  specialize (T P2). specialize (B P2'). specialize (L P1). specialize (R P1').
  cbn [fold_left]. set (b1 := include start_bounds (fst p) (snd p)) in *. clearbody b1.
  destruct (fold_include_spec pts b1 G' Fr) as (J1 & J2 & J3 & J4 & J5 & J6 & J7 & J8 & J9 & J10).
  set (b2 := fold_left _ pts b1) in *. clearbody b2. split.
  - constructor; [|exact J2]. unfold bounds_contain in *. change units with fixed in *. lia.
  - unfold bounds_attained. cbn [map]. rewrite <- T at 1. rewrite <- B at 1. rewrite <- L at 1. rewrite <- R at 1. 
    rewrite L, R, T, B in *. auto.
Qed.

(** The conversion to a rectangle starts from the smallest normal float instead of the most negative one. *)
Lemma fold_include_parts pts : forall b,
  let b' := fold_left (fun b p => include b (fst p) (snd p)) pts b in
  top b' = fold_left fMIN (map snd pts) (top b) /\ bottom b' = fold_left fMAX (map snd pts) (bottom b) /\
  left b' = fold_left fMIN (map fst pts) (left b) /\ right b' = fold_left fMAX (map fst pts) (right b).
Proof. induction pts as [|p pts IH]; intros b; cbv zeta; cbn [fold_left map]; [auto|]. apply (IH (include b (fst p) (snd p))). Qed.

Lemma fold_max_start l : forall a1 a2, Forall finite_float l -> good a1 -> good a2 -> fixed a2 <= fixed a1 ->
  (exists x, In x l /\ fixed a1 <= fixed x) -> fold_left fMAX l a1 = fold_left fMAX l a2.
Proof.
  induction l as [|b l IH]; intros a1 a2 F G1 G2 L (x & Hin & Hx); [destruct Hin|].
  inversion F as [|? ? Fb Fl]; subst. apply finite_float_good in Fb. cbn [fold_left].
  destruct (fMAX_spec a1 b G1 Fb) as (_ & _ & V1 & E1). destruct (fMAX_spec a2 b G2 Fb) as (_ & G2' & V2 & E2).
  destruct (Z.le_gt_cases (fixed a1) (fixed b)) as [C|C].
  - rewrite E1, E2 by lia. reflexivity.
  - assert (E : fMAX a1 b = a1).
    { unfold fMAX. destruct G1, Fb. rewrite fgt_finite by assumption. now replace (fixed b <? fixed a1) with true by (symmetry; lia). }
    rewrite E. apply IH; try assumption; [lia|]. destruct Hin as [->|Hin]; [lia|]. exists x. auto.
Qed.

Lemma convert_polygon_rectangle legacy pts : Forall point_finite pts ->
  (exists p, In p pts /\ units FLT_MIN <= units (fst p)) -> (exists p, In p pts /\ units FLT_MIN <= units (snd p)) ->
  let b := bounds_polygon pts in
  convert legacy (RPoly pts) RECTANGLE = Ok (Some (RRect (left b) (top b) (subf (right b) (left b)) (subf (bottom b) (top b)))).
Proof.
  intros F (p1 & I1 & H1) (p2 & I2 & H2). cbv zeta. cbn [convert].
  pose proof (fold_include_parts pts (mkBounds FLT_MAX FLT_MIN FLT_MAX FLT_MIN)) as (A1 & A2 & A3 & A4).
  pose proof (fold_include_parts pts start_bounds) as (B1 & B2 & B3 & B4). cbv zeta in *.
  cbn [top bottom left right start_bounds] in *.
  assert (Fx : Forall finite_float (map fst pts)).
  { apply Forall_forall. intros x Hx. apply in_map_iff in Hx as (p & <- & Hp). rewrite Forall_forall in F. apply F, Hp. }
  assert (Fy : Forall finite_float (map snd pts)).
  { apply Forall_forall. intros x Hx. apply in_map_iff in Hx as (p & <- & Hp). rewrite Forall_forall in F. apply F, Hp. }
  assert (G1 : good FLT_MIN) by (split; [reflexivity|cbn; unfold SH; lia]).
  assert (G2 : good (fopp FLT_MAX)) by (split; [reflexivity|cbn; unfold SH; lia]).
  assert (L : fixed (fopp FLT_MAX) <= fixed FLT_MIN) by (vm_compute; discriminate).
  fold (convert_bounds_polygon pts) in *. fold (bounds_polygon pts) in *.
  rewrite A1, A2, A3, A4, B1, B2, B3, B4.
  rewrite (fold_max_start (map fst pts) FLT_MIN (fopp FLT_MAX)), (fold_max_start (map snd pts) FLT_MIN (fopp FLT_MAX));
    try assumption; [reflexivity| |].
  - exists (snd p2). split; [apply in_map, I2|exact H2].
  - exists (fst p1). split; [apply in_map, I1|exact H1].
Qed.

(** ---- Rectangles with integer coordinates ---- *)
Lemma rect_bounds_spec legacy x y w h X Y W H :
  finite_float x -> finite_float y -> finite_float w -> finite_float h ->
  is_int x X -> is_int y Y -> is_int w W -> is_int h H ->
  exact_span X W -> exact_span Y H -> 1 <= W -> 1 <= H ->
  exists b pts, compute_bounds legacy (RRect x y w h) = Ok b /\ convert legacy (RRect x y w h) POLYGON = Ok (Some (RPoly pts)) /\
    is_int (left b) X /\ is_int (right b) (if legacy then X + W else X + W - 1) /\
    is_int (top b) Y /\ is_int (bottom b) (if legacy then Y + H else Y + H - 1) /\
    Forall (bounds_contain b) pts /\ bounds_attained b pts.
Proof.
  intros Fx Fy Fw Fh Ix Iy Iw Ih (X1 & X2 & X3) (Y1 & Y2 & Y3) HW HH.
  pose proof (is_int_rep x X Fx Ix) as Rx. pose proof (is_int_rep y Y Fy Iy) as Ry.
  pose proof (is_int_rep w W Fw Iw) as Rw. pose proof (is_int_rep h H Fh Ih) as Rh.
  pose proof (rep_fadd 24 128 x w X W fmt_float Rx Rw X2) as Sx. pose proof (rep_fadd 24 128 y h Y H fmt_float Ry Rh Y2) as Sy.
  pose proof (rep_fsub 24 128 _ float_one _ 1 fmt_float Sx rep_one ltac:(lia)) as Dx.
  pose proof (rep_fsub 24 128 _ float_one _ 1 fmt_float Sy rep_one ltac:(lia)) as Dy.
  exists (bounds_rectangle legacy x y w h), (rect_points legacy x y w h).
  split; [reflexivity|]. split; [reflexivity|]. fold addf subf in *.
  assert (G : forall u v a b, rep u a -> rep v b -> a <= b -> units u <= units v).
  { intros u v a b (_ & _ & U) (_ & _ & V) L. change units with fixed; rewrite U, V. apply Z.mul_le_mono_nonneg_r; [|exact L].
    apply Z.lt_le_incl, pow_SH_pos. }
  unfold bounds_rectangle, rect_points, bounds_attained.
  destruct legacy; cbn [left right top bottom map fst snd In];
    (split; [exact Ix|]; split; [apply rep_is_int; assumption|]; split; [exact Iy|]; split; [apply rep_is_int; assumption|]; split; [|intuition]).
  - pose proof (G x (addf x w) X (X + W) Rx Sx ltac:(lia)). pose proof (G y (addf y h) Y (Y + H) Ry Sy ltac:(lia)).
    repeat apply Forall_cons; try apply Forall_nil; unfold bounds_contain; cbn [left right top bottom fst snd]; lia.
  - pose proof (G x _ X _ Rx Dx ltac:(lia)). pose proof (G y _ Y _ Ry Dy ltac:(lia)).
    repeat apply Forall_cons; try apply Forall_nil; unfold bounds_contain; cbn [left right top bottom fst snd]; lia.
Qed.
