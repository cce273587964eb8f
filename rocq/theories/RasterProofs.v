(** Rasterisation: the node sort, node computation and row filling. *)
From Coq Require Import Permutation Sorted.
From Verif Require Import CBase StrMap StrMapProofs Num NumProofs DecimalProofs NumSpec Buffer BufferProofs Region RegionSpec
  FloatOps FloatProofs RegionGeom GeomSpec GeomProofs BoundsProofs OverlapProofs.
Local Open Scope Z_scope.

(** ---- The sort ---- *)
Fixpoint count_lt (x : Z) (l : list Z) : nat :=
  match l with [] => O | y :: l' => ((if Z.ltb y x then 1 else 0) + count_lt x l')%nat end.
Fixpoint inversions (l : list Z) : nat := match l with [] => O | x :: l' => (count_lt x l' + inversions l')%nat end.

Lemma count_lt_perm x l l' : Permutation l l' -> count_lt x l = count_lt x l'.
Proof. induction 1; cbn [count_lt]; lia. Qed.
Lemma count_lt_length x l : (count_lt x l <= List.length l)%nat.
Proof. induction l as [|y l IH]; cbn [count_lt List.length]; [lia|]. destruct (y <? x); lia. Qed.
Lemma inversions_bound l : (2 * inversions l + List.length l <= List.length l * List.length l)%nat.
Proof.
  induction l as [|x l IH]; cbn [inversions List.length]; [lia|]. pose proof (count_lt_length x l). nia.
Qed.
Lemma inversions_swap l a b r : b < a -> inversions (l ++ a :: b :: r) = S (inversions (l ++ b :: a :: r)).
Proof.
  intros H. induction l as [|x l IH]; cbn [app inversions count_lt].
  - destruct (b <? a) eqn:E1; [|lia]. destruct (a <? b) eqn:E2; lia.
  - rewrite IH. rewrite (count_lt_perm x (l ++ a :: b :: r) (l ++ b :: a :: r)); [lia|].
    apply Permutation_app_head, perm_swap.
Qed.

Notation sorted := (StronglySorted Z.le).
Lemma sorted_snoc l a b : sorted (l ++ [a]) -> a <= b -> sorted (l ++ [a; b]).
Proof.
  induction l as [|x l IH]; cbn [app]; intros S H.
  - constructor; [constructor; constructor|]. constructor; [exact H|constructor].
  - inversion S as [|? ? S' F]; subst. constructor; [apply IH; assumption|].
    rewrite Forall_app in F |- *. destruct F as [F1 F2]. inversion F2; subst. split; [exact F1|].
    constructor; [assumption|]. constructor; [lia|constructor].
Qed.
Lemma sorted_app_l l l' : sorted (l ++ l') -> sorted l.
Proof.
  induction l as [|x l IH]; cbn [app]; intros S; [constructor|]. inversion S as [|? ? S' F]; subst.
  constructor; [apply IH, S'|]. rewrite Forall_app in F. apply F.
Qed.

Lemma bubble_spec fuel : forall before after, (2 * inversions (rev before ++ after) + List.length after < fuel)%nat ->
  (match after with [] => sorted (rev before) | a :: _ => sorted (rev before ++ [a]) end) ->
  exists l, bubble fuel before after = Ok l /\ Permutation (rev before ++ after) l /\ sorted l.
Proof.
  induction fuel as [|f IH]; intros before after Hf Hs; [lia|]. cbn [bubble].
  destruct after as [|a [|b rest]].
  - exists (rev before ++ []). split; [reflexivity|]. split; [apply Permutation_refl|]. now rewrite app_nil_r.
  - exists (rev before ++ [a]). split; [reflexivity|]. split; [apply Permutation_refl|exact Hs].
  - destruct (b <? a) eqn:E.
    + apply Z.ltb_lt in E. rewrite (inversions_swap _ a b rest E) in Hf. destruct before as [|p before']; cbn [rev app] in *.
      * destruct (IH [] (b :: a :: rest)) as (l & El & P & S).
        { cbn [rev app List.length] in *. lia. }
        { cbn [rev app]. constructor; constructor. }
        exists l. split; [exact El|]. split; [|exact S]. etransitivity; [apply perm_swap|exact P].
      * rewrite <- app_assoc in *. cbn [app] in *. destruct (IH before' (p :: b :: a :: rest)) as (l & El & P & S).
        { cbn [List.length] in *. lia. }
        { replace (rev before' ++ [p; a]) with ((rev before' ++ [p]) ++ [a]) in Hs by (rewrite <- app_assoc; reflexivity).
          apply sorted_app_l in Hs. exact Hs. }
        exists l. split; [exact El|]. split; [|exact S]. etransitivity; [|exact P].
        apply Permutation_app_head. constructor. apply perm_swap.
    + apply Z.ltb_ge in E. destruct (IH (a :: before) (b :: rest)) as (l & El & P & S).
      { cbn [rev]. rewrite <- app_assoc. cbn [app List.length] in *. lia. }
      { cbn [rev]. rewrite <- app_assoc. cbn [app]. apply sorted_snoc; assumption. }
      exists l. split; [exact El|]. split; [|exact S]. cbn [rev] in P. rewrite <- app_assoc in P. exact P.
Qed.
Lemma bubble_sort_spec l : exists l', bubble_sort l = Ok l' /\ Permutation l l' /\ sorted l'.
Proof.
  unfold bubble_sort. destruct (bubble_spec (S (List.length l * List.length l)) [] l) as (l' & E & P & S).
  - cbn [rev app]. pose proof (inversions_bound l). lia.
  - destruct l; cbn [rev app]; constructor; constructor.
  - eauto.
Qed.
Lemma sorted_unique l l' : Permutation l l' -> sorted l -> sorted l' -> l = l'.
Proof.
  revert l'. induction l as [|x l IH]; intros l' P S S'.
  - now rewrite (Permutation_nil P).
  - destruct l' as [|y l']; [symmetry in P; apply Permutation_nil in P; discriminate|].
    inversion S as [|? ? S1 F1]; subst. inversion S' as [|? ? S2 F2]; subst.
    assert (x = y).
    { assert (I1 : In y (x :: l)) by (eapply Permutation_in; [symmetry; exact P|left; reflexivity]).
      assert (I2 : In x (y :: l')) by (eapply Permutation_in; [exact P|left; reflexivity]).
      rewrite Forall_forall in F1, F2. destruct I1 as [->|I1]; [reflexivity|]. destruct I2 as [->|I2]; [reflexivity|].
      apply F1 in I1. apply F2 in I2. lia. }
    subst y. f_equal. apply IH; [eapply Permutation_cons_inv; exact P|assumption|assumption].
Qed.
Lemma bubble_sort_is l l' : Permutation l l' -> sorted l' -> bubble_sort l = Ok l'.
Proof.
  intros P S. destruct (bubble_sort_spec l) as (l2 & E & P2 & S2). rewrite E. f_equal.
  apply sorted_unique; try assumption. transitivity l; [symmetry; exact P2|exact P].
Qed.

(** ---- Magnitudes of rounded results ---- *)
(** |x| <= 2^j *)
Definition mag (x : spec_float) (j : Z) : Prop :=
  finite x = true /\ Z.abs (fmant x) * 2 ^ Z.max 0 (fexp x) <= 2 ^ Z.max 0 (- fexp x) * 2 ^ j.

Lemma pow2_nonneg z : 0 <= 2 ^ z. Proof. apply Z.pow_nonneg. lia. Qed.
Lemma p2 e : 0 < 2 ^ Z.max 0 e. Proof. apply pow2_pos, Z.le_max_l. Qed.

Lemma round_ratio_exponent p emax s num den m e : 1 < p -> - SH <= fmin p emax -> 0 < num -> 0 < den ->
  round_ratio p emax s num den = S754_finite s m e -> - SH <= e.
Proof.
  intros Hp Hmin Hn Hd. unfold round_ratio. pose proof (ratio_exp_spec p emax num den Hp Hmin Hn Hd) as (E1 & _). cbv zeta in *.
  destruct (_ =? 2 ^ p); destruct (_ =? 0); try discriminate; destruct (_ <? _); try discriminate; intros E; injection E as _ <-; lia.
Qed.

Lemma round_ratio_mag p emax s num den j : fmt p emax -> 0 <= j -> j + 1 < emax -> 0 < num -> 0 < den -> num <= den * 2 ^ j ->
  mag (round_ratio p emax s num den) (j + 1).
Proof.
  intros (F1 & F2 & F3 & F4) Hj0 Hj Hn Hd H. pose proof pow_SH_pos as P.
  pose proof (round_ratio_error p emax s num den (j + 1) ltac:(lia) F2 Hn Hd) as R. cbv zeta in R.
  destruct R as (R1 & _ & R3); [unfold fmin in *; lia|lia| |].
  { rewrite !Z.pow_add_r by (unfold SH; lia). change (2 ^ 1) with 2. pose proof (pow2_pos j Hj0) as Pj.
    set (a := 2 ^ SH) in *. set (b := 2 ^ j) in *. clearbody a b. assert (num * a <= den * b * a) by (apply Z.mul_le_mono_nonneg_r; lia).
    assert (0 < den * b * a) by (apply Z.mul_pos_pos; [apply Z.mul_pos_pos; lia|lia]). lia. }
  split; [exact R1|].
  destruct (round_ratio_finite_or p emax s num den) as [X|[X|(m & e & X)]]; rewrite X in *; try discriminate R1.
  - cbn [fmant fexp Z.abs]. change (Z.max 0 0) with 0. change (Z.max 0 (- 0)) with 0. rewrite Z.mul_0_l, !Z.mul_1_l. apply pow2_nonneg.
  - pose proof (round_ratio_exponent p emax s num den m e ltac:(lia) F2 Hn Hd X) as He.
    assert (B : Z.pos m * 2 ^ (e + SH) <= 2 ^ (j + 1 + SH)).
    { cbn [fixed] in R3. rewrite (Z.pow_add_r 2 (j + 1) SH), (Z.pow_add_r 2 j 1) by (unfold SH; lia). change (2 ^ 1) with 2.
      assert (Hp : 2 ^ (j + 1 - p + SH) <= 2 ^ (j + SH)) by (apply Z.pow_le_mono_r; lia).
      rewrite (Z.pow_add_r 2 j SH) in Hp by (unfold SH; lia). pose proof (pow2_pos j Hj0) as Pj. pose proof (pow2_pos (e + SH) ltac:(lia)) as Pe.
      set (a := 2 ^ SH) in *. set (b := 2 ^ j) in *. set (c := 2 ^ (j + 1 - p + SH)) in *. set (d := Z.pos m * 2 ^ (e + SH)) in *.
      assert (Hab : 0 < b * a) by (apply Z.mul_pos_pos; lia).
      assert (H' : num * a <= den * (b * a)) by (rewrite Z.mul_assoc; apply Z.mul_le_mono_nonneg_r; lia).
      assert (Hc : den * c <= den * (b * a)) by (apply Z.mul_le_mono_nonneg_l; lia).
      apply (Z.mul_le_mono_pos_l _ _ den Hd). replace (den * (b * 2 * a)) with (2 * (den * (b * a))) by ring.
      clearbody a b c d. destruct s; lia. }
    cbn [fmant fexp]. replace (Z.abs (if s then - Z.pos m else Z.pos m)) with (Z.pos m) by (destruct s; lia).
    apply (Z.mul_le_mono_pos_r _ _ (2 ^ SH) P). rewrite (finite_ratio (Z.pos m) e He).
    rewrite <- Z.mul_assoc. apply Z.mul_le_mono_nonneg_l; [apply pow2_nonneg|].
    rewrite <- Z.pow_add_r by (unfold SH; lia). exact B.
Qed.

Lemma round_dyadic_mag p emax zs m e j : fmt p emax -> 0 <= j -> j + 1 < emax ->
  Z.abs m * 2 ^ Z.max 0 e <= 2 ^ Z.max 0 (- e) * 2 ^ j -> mag (round_dyadic p emax zs m e) (j + 1).
Proof.
  intros F Hj Hj' H. unfold round_dyadic. destruct (m =? 0) eqn:E.
  - split; [reflexivity|]. cbn [fmant fexp Z.abs]. change (Z.max 0 0) with 0. rewrite Z.mul_0_l, Z.mul_1_l. apply pow2_nonneg.
  - apply Z.eqb_neq in E. apply round_ratio_mag; try assumption; [apply Z.mul_pos_pos; [lia|apply p2]|apply p2].
Qed.

Lemma mag_fmul p emax x y i j : fmt p emax -> 0 <= i -> 0 <= j -> i + j + 1 < emax -> mag x i -> mag y j -> mag (fmul p emax x y) (i + j + 1).
Proof.
  intros F Hi Hj Hb (F1 & M1) (F2 & M2).
  assert (G : Z.abs (fmant x * fmant y) * 2 ^ Z.max 0 (fexp x + fexp y) <= 2 ^ Z.max 0 (- (fexp x + fexp y)) * 2 ^ (i + j)).
  { rewrite Z.abs_mul, Z.pow_add_r by lia.
    set (e1 := fexp x) in *. set (e2 := fexp y) in *. set (m1 := Z.abs (fmant x)) in *. set (m2 := Z.abs (fmant y)) in *.
    assert (N1 : 0 <= m1) by apply Z.abs_nonneg. assert (N2 : 0 <= m2) by apply Z.abs_nonneg. clearbody e1 e2 m1 m2.
    set (c := Z.max 0 e1 + Z.max 0 e2 - Z.max 0 (e1 + e2)). assert (Hc : 0 <= c) by (unfold c; lia).
    apply (Z.mul_le_mono_pos_r _ _ (2 ^ c) (pow2_pos c Hc)).
    replace (m1 * m2 * 2 ^ Z.max 0 (e1 + e2) * 2 ^ c) with (m1 * 2 ^ Z.max 0 e1 * (m2 * 2 ^ Z.max 0 e2)).
    2:{ transitivity (m1 * m2 * (2 ^ Z.max 0 e1 * 2 ^ Z.max 0 e2)); [ring|]. rewrite <- !Z.mul_assoc. do 2 f_equal.
        rewrite <- !Z.pow_add_r by lia. f_equal. unfold c. lia. }
    replace (2 ^ Z.max 0 (- (e1 + e2)) * (2 ^ i * 2 ^ j) * 2 ^ c) with (2 ^ Z.max 0 (- e1) * 2 ^ i * (2 ^ Z.max 0 (- e2) * 2 ^ j)).
    2:{ transitivity (2 ^ i * 2 ^ j * (2 ^ Z.max 0 (- e1) * 2 ^ Z.max 0 (- e2))); [ring|].
        transitivity (2 ^ i * 2 ^ j * (2 ^ Z.max 0 (- (e1 + e2)) * 2 ^ c)); [|ring]. f_equal.
        rewrite <- !Z.pow_add_r by lia. f_equal. unfold c. lia. }
    apply Z.mul_le_mono_nonneg; try assumption; apply Z.mul_nonneg_nonneg; (assumption || apply pow2_nonneg). }
  assert (A1 : 0 <= i + j) by (clear - Hi Hj; lia). clear M1 M2.
  destruct x as [| | |? ? ?], y as [| | |? ? ?]; try discriminate F1; try discriminate F2; cbn [fmul]; (apply round_dyadic_mag; [exact F|exact A1|exact Hb|exact G]).
Qed.

Lemma mag_align m e e' j : e' <= e -> Z.abs m * 2 ^ Z.max 0 e <= 2 ^ Z.max 0 (- e) * 2 ^ j ->
  Z.abs m * 2 ^ (e - e') * 2 ^ Z.max 0 e' <= 2 ^ Z.max 0 (- e') * 2 ^ j.
Proof.
  intros He H. set (d := e - e' + Z.max 0 e' - Z.max 0 e). assert (Hd : 0 <= d) by (unfold d; lia).
  rewrite <- Z.mul_assoc, <- Z.pow_add_r by lia. replace (e - e' + Z.max 0 e') with (Z.max 0 e + d) by (unfold d; lia).
  replace (Z.max 0 (- e')) with (Z.max 0 (- e) + d) by (unfold d; lia). rewrite !Z.pow_add_r by lia.
  replace (Z.abs m * (2 ^ Z.max 0 e * 2 ^ d)) with (Z.abs m * 2 ^ Z.max 0 e * 2 ^ d) by ring.
  replace (2 ^ Z.max 0 (- e) * 2 ^ d * 2 ^ j) with (2 ^ Z.max 0 (- e) * 2 ^ j * 2 ^ d) by ring.
  apply Z.mul_le_mono_nonneg_r; [apply pow2_nonneg|exact H].
Qed.
Lemma mag_fadd p emax x y j : fmt p emax -> 0 <= j -> j + 2 < emax -> mag x j -> mag y j -> mag (fadd p emax x y) (j + 2).
Proof.
  intros F Hj Hb (F1 & M1) (F2 & M2).
  assert (G : forall e, e <= fexp x -> e <= fexp y ->
    Z.abs (fmant x * 2 ^ (fexp x - e) + fmant y * 2 ^ (fexp y - e)) * 2 ^ Z.max 0 e <= 2 ^ Z.max 0 (- e) * 2 ^ (j + 1)).
  { intros e E1 E2. pose proof (mag_align _ _ e _ E1 M1) as A1. pose proof (mag_align _ _ e _ E2 M2) as A2.
    rewrite Z.pow_add_r by lia. change (2 ^ 1) with 2.
    apply Z.le_trans with ((Z.abs (fmant x) * 2 ^ (fexp x - e) + Z.abs (fmant y) * 2 ^ (fexp y - e)) * 2 ^ Z.max 0 e).
    - apply Z.mul_le_mono_nonneg_r; [apply pow2_nonneg|]. etransitivity; [apply Z.abs_triangle|].
      rewrite !Z.abs_mul, !(Z.abs_eq (2 ^ _)) by apply pow2_nonneg. reflexivity.
    - rewrite Z.mul_add_distr_r. clear - A1 A2. set (u := Z.abs (fmant x) * _ * _) in *. set (v := Z.abs (fmant y) * _ * _) in *.
      rewrite Z.mul_assoc. set (w := _ * 2 ^ j) in *. clearbody u v w. lia. }
  replace (j + 2) with (j + 1 + 1) by ring. assert (A1 : 0 <= j + 1) by (clear - Hj; lia). assert (A2 : j + 1 + 1 < emax) by (clear - Hb; lia). clear M1 M2.
  destruct x as [| | |? ? ?], y as [| | |? ? ?]; try discriminate F1; try discriminate F2; cbn [fadd]; cbv zeta;
    (apply round_dyadic_mag; [exact F|exact A1|exact A2|apply G; [apply Z.le_min_l|apply Z.le_min_r]]).
Qed.

Lemma rep_mag x z j : rep x z -> Z.abs z <= 2 ^ j -> mag x j.
Proof.
  intros (Fx & Ex & Vx) H. split; [exact Fx|]. rewrite fixed_mant in Vx by exact Fx. pose proof pow_SH_pos as P.
  assert (He : - SH <= fexp x) by (unfold SH; lia). apply (Z.mul_le_mono_pos_r _ _ (2 ^ SH) P).
  rewrite (finite_ratio _ _ He), <- Z.mul_assoc. apply Z.mul_le_mono_nonneg_l; [apply pow2_nonneg|].
  assert (E : Z.abs (fmant x) * 2 ^ (fexp x + SH) = Z.abs z * 2 ^ SH).
  { rewrite <- (Z.abs_eq (2 ^ (fexp x + SH))) by apply pow2_nonneg. rewrite <- Z.abs_mul, Vx, Z.abs_mul, (Z.abs_eq (2 ^ SH)) by apply pow2_nonneg. reflexivity. }
  rewrite E. apply Z.mul_le_mono_nonneg_r; lia.
Qed.

Lemma mag_int x j : mag x j -> 0 <= j <= 30 -> exists v, int_of_float x = Ok v /\ Z.abs v <= 2 ^ j.
Proof.
  intros (Fx & M) Hj. destruct x as [s| | |s m e]; try discriminate Fx.
  - exists 0. split; [reflexivity|]. apply pow2_nonneg.
  - cbn [int_of_float fmant fexp] in *. replace (Z.abs (if s then - Z.pos m else Z.pos m)) with (Z.pos m) in M by (destruct s; lia).
    assert (T : 0 <= trunc_pos (Z.pos m) e <= 2 ^ j).
    { unfold trunc_pos. destruct (0 <=? e) eqn:E; [apply Z.leb_le in E|apply Z.leb_gt in E].
      - rewrite Z.max_r, Z.max_l in M by lia. rewrite Z.mul_1_l in M. split; [apply Z.mul_nonneg_nonneg; [lia|apply pow2_nonneg]|exact M].
      - rewrite Z.max_l, Z.max_r in M by lia. rewrite Z.mul_1_r in M. pose proof (pow2_pos (- e) ltac:(lia)).
        split; [apply Z.div_pos; lia|]. apply Z.div_le_upper_bound; lia. }
    assert (Pj : 2 ^ j <= 2 ^ 30) by (apply Z.pow_le_mono_r; lia). change (2 ^ 30) with 1073741824 in Pj.
    set (t := trunc_pos (Z.pos m) e) in *. clearbody t.
    exists (if s then - t else t). split; [|destruct s; lia].
    rewrite in_int_of; [reflexivity|]. unfold INT_MIN, INT_MAX. destruct s; lia.
Qed.

Lemma mag_fdiv x y a b : rep x a -> rep y b -> Z.abs a <= Z.abs b -> b <> 0 -> mag (divd x y) 1.
Proof.
  intros Hx Hy Hab Hb. pose proof Hx as (Fx & Ex & Vx). pose proof Hy as (Fy & Ey & Vy). pose proof pow_SH_pos as P.
  destruct y as [sy| | |sy my ey]; try discriminate Fy.
  { cbn [fixed] in Vy. exfalso. set (u := 2 ^ SH) in *. clearbody u. nia. }
  destruct x as [sx| | |sx mx ex]; try discriminate Fx.
  { cbn [divd fdiv]. split; [reflexivity|]. cbn. lia. }
  unfold divd. cbn [fdiv fmant fexp]. cbv zeta.
  replace (Z.abs (if sx then - Z.pos mx else Z.pos mx)) with (Z.pos mx) by (destruct sx; lia).
  replace (Z.abs (if sy then - Z.pos my else Z.pos my)) with (Z.pos my) by (destruct sy; lia).
  apply (round_ratio_mag 53 1024 _ _ _ 0 fmt_double); [lia|lia|apply Z.mul_pos_pos; [lia|apply p2]|apply Z.mul_pos_pos; [lia|apply p2]|].
  change (2 ^ 0) with 1. rewrite Z.mul_1_r. cbn [fexp fixed] in *.
  assert (E1 : Z.pos mx * 2 ^ (ex + SH) = Z.abs a * 2 ^ SH) by (set (u := 2 ^ SH) in *; pose proof (pow2_nonneg (ex + SH)); clearbody u; destruct sx; nia).
  assert (E2 : Z.pos my * 2 ^ (ey + SH) = Z.abs b * 2 ^ SH) by (set (u := 2 ^ SH) in *; pose proof (pow2_nonneg (ey + SH)); clearbody u; destruct sy; nia).
  assert (L : Z.pos mx * 2 ^ (ex + SH) <= Z.pos my * 2 ^ (ey + SH)) by (rewrite E1, E2; apply Z.mul_le_mono_nonneg_r; lia).
  set (c := Z.min ex ey + SH). assert (Hc : 0 <= c) by (unfold c, SH; lia).
  apply (Z.mul_le_mono_pos_r _ _ (2 ^ c) (pow2_pos c Hc)). rewrite <- !Z.mul_assoc, <- !Z.pow_add_r by lia.
  replace (Z.max 0 (ex - ey) + c) with (ex + SH) by (unfold c; lia). replace (Z.max 0 (- (ex - ey)) + c) with (ey + SH) by (unfold c; lia).
  exact L.
Qed.

(** ---- Rounding the vertices ---- *)
Lemma round_int_exact m e v : - SH <= e -> Z.pos m * 2 ^ (e + SH) = v * 2 ^ SH -> round_int (Z.pos m) e = v.
Proof.
  intros He H. pose proof (trunc_pos_value (Z.pos m) e v He H) as T. unfold trunc_pos in T. unfold round_int.
  destruct (0 <=? e) eqn:E; [exact T|]. apply Z.leb_gt in E. pose proof (pow2_pos (- e) ltac:(lia)) as P.
  assert (D : Z.pos m = v * 2 ^ (- e)).
  { apply (Z.mul_cancel_r _ _ (2 ^ (e + SH))); [pose proof (pow2_pos (e + SH) ltac:(lia)); lia|]. rewrite H, <- Z.mul_assoc. f_equal.
    rewrite <- Z.pow_add_r by lia. f_equal. lia. }
  rewrite D. replace (1 - e) with (1 + - e) by ring. rewrite Z.pow_add_r by lia. change (2 ^ 1) with 2.
  set (b := 2 ^ - e) in *. clearbody b. replace (2 * (v * b) + b) with (b + v * (2 * b)) by ring. rewrite Z.div_add by lia.
  rewrite Z.div_small by lia. lia.
Qed.
Lemma rep_fround x z : rep x z -> Z.abs z <= 2 ^ 24 -> rep (float_of_double (fround x)) z.
Proof.
  intros H Hz. pose proof H as (Fx & Ex & Vx). destruct x as [s| | |s m e]; try discriminate Fx.
  { cbn [fround]. apply rep_float_of_double; assumption. }
  apply rep_float_of_double; [|exact Hz]. cbn [fround]. cbn [fexp fixed] in *. pose proof pow_SH_pos as P.
  assert (He : - SH <= e) by (unfold SH; lia). pose proof (pow2_pos (e + SH) ltac:(lia)) as P1.
  rewrite (round_int_exact m e (Z.abs z) He).
  - apply round_dyadic_rep; [apply fmt_double|unfold SH; lia| |lia].
    rewrite Z.add_0_l. f_equal. set (a := 2 ^ SH) in *. set (b := 2 ^ (e + SH)) in *. clearbody a b. clear - P P1 Vx. destruct s; nia.
  - set (a := 2 ^ SH) in *. set (b := 2 ^ (e + SH)) in *. clearbody a b. clear - P P1 Vx. destruct s; nia.
Qed.
(** A finite coordinate of magnitude at most 2^23 rounds to an integer of that magnitude. *)
Lemma fround_bounded x : finite_float x -> Z.abs (units x) <= 2 ^ 23 * 2 ^ 1074 ->
  exists z, Z.abs z <= 2 ^ 23 /\ rep (float_of_double (fround x)) z.
Proof.
  intros (V & Fx) H. destruct x as [s| | |s m e]; try destruct Fx.
  { exists 0. split; [cbn; lia|]. cbn [fround float_of_double]. apply rep_zero. }
  assert (He : - SH <= e).
  { cbn in V. unfold bounded, canonical_mantissa in V. apply andb_prop in V as [V _]. apply Zeq_bool_eq in V.
    unfold SpecFloat.fexp, emin in V. unfold SH. lia. }
  change units with fixed in H. cbn [fixed] in H. change (2 ^ 1074) with (2 ^ SH) in H. pose proof pow_SH_pos as P.
  pose proof (pow2_pos (e + SH) ltac:(lia)) as P1.
  assert (B : Z.pos m * 2 ^ (e + SH) <= 2 ^ 23 * 2 ^ SH) by (destruct s; lia).
  assert (R : 0 <= round_int (Z.pos m) e <= 2 ^ 23).
  { unfold round_int. destruct (0 <=? e) eqn:E; [apply Z.leb_le in E|apply Z.leb_gt in E].
    - split; [apply Z.mul_nonneg_nonneg; [lia|apply pow2_nonneg]|]. apply (Z.mul_le_mono_pos_r _ _ (2 ^ SH) P).
      rewrite <- Z.mul_assoc, <- Z.pow_add_r by (unfold SH; lia). exact B.
    - pose proof (pow2_pos (- e) ltac:(lia)) as P2. replace (1 - e) with (1 + - e) by ring. rewrite Z.pow_add_r by lia. change (2 ^ 1) with 2.
      assert (B2 : Z.pos m <= 2 ^ 23 * 2 ^ (- e)).
      { apply (Z.mul_le_mono_pos_r _ _ (2 ^ (e + SH)) P1). rewrite <- Z.mul_assoc, <- (Z.pow_add_r 2 (- e)) by lia.
        replace (- e + (e + SH)) with SH by ring. exact B. }
      split; [apply Z.div_pos; lia|]. apply Z.lt_succ_r, Z.div_lt_upper_bound; [lia|].
      set (c := 2 ^ 23) in *. assert (0 < c) by reflexivity. clearbody c. nia. }
  exists ((if s then -1 else 1) * round_int (Z.pos m) e). split; [destruct s; lia|].
  apply rep_float_of_double; [|destruct s; lia]. cbn [fround].
  apply round_dyadic_rep; [apply fmt_double|unfold SH; lia|rewrite Z.add_0_l; reflexivity|destruct s; lia].
Qed.

(** ---- Nodes ---- *)
Definition rep_pt (p : spec_float * spec_float) (z : Z * Z) : Prop :=
  rep (fst p) (fst z) /\ rep (snd p) (snd z) /\ Z.abs (fst z) <= 2 ^ 23 /\ Z.abs (snd z) <= 2 ^ 23.
Definition on_row (row y1 y2 : Z) : bool := (Z.min y1 y2 <=? row) && (row <=? Z.max y1 y2).

Lemma rep_0_zero x : rep x 0 -> exists s, x = S754_zero s.
Proof.
  intros (F & E & V). destruct x as [s| | |s m e]; try discriminate F; [eauto|]. exfalso. cbn [fixed fexp] in *.
  pose proof (pow2_pos (e + SH) ltac:(unfold SH; lia)). destruct s; nia.
Qed.

Lemma edge_node_ok row pj pi zj zi : rep_pt pj zj -> rep_pt pi zi -> Z.abs row <= 2 ^ 23 ->
  exists n, edge_node row pj pi = Ok (if on_row row (snd zi) (snd zj) then [n] else []) /\ Z.abs n <= 2 ^ 28 /\
    (fst zi = fst zj \/ snd zi = snd zj -> n = fst zi).
Proof.
  destruct pj as [xj yj], pi as [xi yi], zj as [Xj Yj], zi as [Xi Yi]. unfold rep_pt. cbn [fst snd].
  intros (Rxj & Ryj & Bxj & Byj) (Rxi & Ryi & Bxi & Byi) Hrow. unfold edge_node.
  rewrite (rep_int _ _ Ryi) by (apply small_int; lia). cbn [obind].
  rewrite (rep_int _ _ Ryj) by (apply small_int; lia). cbn [obind].
  replace (((Yi <=? row) && (row <? Yj)) || ((Yj <=? row) && (row <? Yi)) || ((Yi <? row) && (row <=? Yj)) ||
     ((Yj <? row) && (row <=? Yi)) || ((Yi =? Yj) && (Yi =? row))) with (on_row row Yi Yj) by (unfold on_row; lia).
  destruct (on_row row Yi Yj) eqn:Eon.
  2:{ exists Xi. split; [reflexivity|]. split; [lia|reflexivity]. }
  assert (Hon : Z.min Yi Yj <= row <= Z.max Yi Yj) by (unfold on_row in Eon; lia).
  pose proof (rep_fsub 24 128 yj yi Yj Yi fmt_float Ryj Ryi ltac:(lia)) as Rr. fold subf in Rr.
  pose proof (rep_fsub 24 128 xj xi Xj Xi fmt_float Rxj Rxi ltac:(lia)) as Rk. fold subf in Rk.
  pose proof (rep_fsub 24 128 _ yi row Yi fmt_float (rep_float_of_int row ltac:(lia)) Ryi ltac:(lia)) as Ra. fold subf in Ra.
  rewrite (rep_eq _ _ _ _ Rr (rep_zero false)). destruct (Yj - Yi =? 0) eqn:Ez.
  - exists Xi. rewrite (rep_int _ _ Rxi) by (apply small_int; lia). split; [reflexivity|]. split; [lia|reflexivity].
  - apply Z.eqb_neq in Ez.
    pose proof (mag_fdiv _ _ _ _ Ra Rr ltac:(lia) Ez) as Mt.
    pose proof (mag_fmul 53 1024 _ _ 1 24 fmt_double ltac:(lia) ltac:(lia) ltac:(lia) Mt (rep_mag _ _ 24 Rk ltac:(lia))) as Mm.
    pose proof (mag_fadd 53 1024 _ _ 26 fmt_double ltac:(lia) ltac:(lia) (rep_mag _ _ 26 Rxi ltac:(lia)) Mm) as Ma.
    fold muld in Ma. fold addd in Ma. destruct (mag_int _ _ Ma ltac:(lia)) as (v & Ev & Bv). rewrite Ev. cbn [obind].
    exists v. split; [reflexivity|]. split; [exact Bv|]. intros [Hx|Hy]; [|lia].
    subst Xj. rewrite Z.sub_diag in Rk. apply rep_0_zero in Rk as (s & Ek). rewrite Ek in Ev. clear Ma Mm.
    set (t := divd _ _) in *. destruct Mt as (Ft & _).
    assert (Rm : rep (muld t (S754_zero s)) 0).
    { destruct t as [| | |? ? ?]; try discriminate Ft; cbn [muld fmul]; unfold round_dyadic; cbn [fmant]; rewrite ?Z.mul_0_r; apply rep_zero. }
    pose proof (rep_fadd 53 1024 _ _ _ _ fmt_double Rxi Rm ltac:(lia)) as Rs. fold addd in Rs. rewrite Z.add_0_r in Rs.
    rewrite (rep_int _ _ Rs) in Ev by (apply small_int; lia). congruence.
Qed.

Lemma row_nodes_ok row pts zs : Forall2 rep_pt pts zs -> Z.abs row <= 2 ^ 23 -> forall pj zj, rep_pt pj zj ->
  exists l, row_nodes edge_node row pj pts = Ok l /\ Forall (fun n => Z.abs n <= 2 ^ 28) l /\ (List.length l <= List.length pts)%nat.
Proof.
  intros H Hrow. induction H as [|p z pts zs Hp H IH]; intros pj zj Hj; cbn [row_nodes].
  - exists []. split; [reflexivity|]. split; [constructor|cbn; lia].
  - destruct (edge_node_ok row pj p zj z Hj Hp Hrow) as (n & E & B & _). rewrite E. cbn [obind].
    destruct (IH p z Hp) as (l & El & Fl & Ll). rewrite El. cbn [obind]. eexists. split; [reflexivity|].
    rewrite Forall_app, app_length. cbn [List.length]. destruct (on_row _ _ _); cbn [List.length]; repeat split; auto; lia.
Qed.

(** ---- Filling ---- *)
Lemma ones_set m k : ones (set_nth m k (Some 1%N)) <= ones m + 1.
Proof.
  unfold ones, zlen. revert k. induction m as [|c m IH]; intros [|k]; cbn [set_nth filter List.length]; try lia.
  - destruct c as [[|[?|?|]]|]; cbn [List.length]; lia.
  - specialize (IH k). destruct c as [[|[?|?|]]|]; cbn [List.length] in *; lia.
Qed.

Definition painted (m m' : block N) (P : Z -> bool) : Prop :=
  List.length m' = List.length m /\
  forall k, 0 <= k < Z.of_nat (List.length m) -> nth_error m' (Z.to_nat k) = if P k then Some (Some 1%N) else nth_error m (Z.to_nat k).
Lemma painted_refl m P : (forall k, P k = false) -> painted m m P.
Proof. intros H. split; [reflexivity|]. intros k _. now rewrite H. Qed.
Lemma painted_trans m m1 m2 P Q R : painted m m1 P -> painted m1 m2 Q -> (forall k, R k = P k || Q k) -> painted m m2 R.
Proof.
  intros [L1 H1] [L2 H2] HR. split; [congruence|]. intros k Hk. rewrite H2 by lia. rewrite H1, HR by lia.
  destruct (P k), (Q k); reflexivity.
Qed.
Lemma painted_ext m m' P Q : painted m m' P -> (forall k, P k = Q k) -> painted m m' Q.
Proof. intros [L H] E. split; [exact L|]. intros k Hk. now rewrite <- E, H. Qed.

Definition in_run (width row a b k : Z) : bool := (row * width + a <=? k) && (k <=? row * width + b).

Lemma run_ok width height row a b m s : 0 <= row < height -> 0 <= a -> b < width -> in_int (width * height) = true ->
  width * height <= Z.of_nat (List.length m) -> 0 <= s -> s + Z.max 0 (b - a + 1) <= INT_MAX ->
  exists m', for_range (Z.to_nat (b - a + 1)) a (set_pixel width row) (Some m, s) = Ok (Some m', s + Z.max 0 (b - a + 1)) /\
    painted m m' (in_run width row a b) /\ ones m' - ones m <= Z.max 0 (b - a + 1).
Proof.
  intros Hrow Ha Hb Hi Hlen Hs Hmax.
  destruct (for_range_inv (fun j st => exists m', st = (Some m', s + (j - a)) /\ painted m m' (in_run width row a (j - 1)) /\ ones m' - ones m <= j - a)
    (set_pixel width row) (Z.to_nat (b - a + 1)) a (Some m, s)) as (st & E & m' & -> & P & O).
  - intros j st Hj (m1 & -> & P & O). rewrite in_int_iff in Hi.
    pose proof (index_range width height row j ltac:(lia) Hrow) as Rg. unfold set_pixel. cbn [fst snd].
    assert (Hr : 0 <= row * width <= width * height) by nia.
    rewrite int_result_ok by (apply in_int_of; unfold INT_MIN in *; lia). cbn [obind].
    rewrite int_result_ok by (apply in_int_of; unfold INT_MIN in *; lia). cbn [obind].
    destruct P as [L P]. rewrite put_ok by lia. cbn [obind].
    rewrite int_result_ok by (apply in_int_of; unfold INT_MIN in *; lia). cbn [obind].
    eexists. split; [reflexivity|]. eexists. split; [f_equal; lia|]. split.
    + split; [rewrite set_nth_length; exact L|]. intros k Hk. unfold in_run in *.
      destruct (Z.eq_dec k (row * width + j)) as [->|Hne].
      * rewrite nth_error_set_nth_eq by lia.
        replace ((row * width + a <=? row * width + j) && (row * width + j <=? row * width + (j + 1 - 1))) with true by (symmetry; lia). reflexivity.
      * rewrite nth_error_set_nth_neq by lia. rewrite P by exact Hk.
        replace ((row * width + a <=? k) && (k <=? row * width + (j + 1 - 1))) with ((row * width + a <=? k) && (k <=? row * width + (j - 1))) by lia.
        reflexivity.
    + pose proof (ones_set m1 (Z.to_nat (row * width + j))). lia.
  - exists m. split; [now rewrite Z.sub_diag, Z.add_0_r|]. split; [|rewrite !Z.sub_diag; lia]. apply painted_refl. intros k. unfold in_run. lia.
  - exists m'. replace (a + Z.of_nat (Z.to_nat (b - a + 1)) - a) with (Z.max 0 (b - a + 1)) in * by lia.
    split; [exact E|]. split; [|lia]. apply (painted_ext _ _ _ _ P). intros k. unfold in_run. lia.
Qed.

(** The positions a row of sorted nodes covers *)
Fixpoint covered (nodes : list Z) (j : Z) : bool :=
  match nodes with
  | a :: ((b :: rest) as nodes') =>
      if (a =? b) && negb (match rest with [] => true | _ => false end) then covered nodes' j
      else ((a <=? j) && (j <=? b)) || covered rest j
  | _ => false
  end.
Lemma list_ind2 {A} (P : list A -> Prop) : P [] -> (forall a, P [a]) -> (forall a b l, P l -> P (b :: l) -> P (a :: b :: l)) -> forall l, P l.
Proof.
  intros H0 H1 H2 l. enough (G : P l /\ forall a, P (a :: l)) by apply G. induction l as [|b l [I1 I2]]; [auto|]. split; [apply I2|].
  intros a. apply H2; auto.
Qed.
Lemma covered_ge nodes j c : sorted nodes -> Forall (fun n => c <= n) nodes -> j < c -> covered nodes j = false.
Proof.
  intros S F Hj. revert S F. induction nodes as [|a|a b rest IH1 IH2] using list_ind2; intros S F; cbn [covered]; try reflexivity.
  inversion F as [|? ? Fa F']; subst. inversion F' as [|? ? Fb F'']; subst. inversion S as [|? ? S' _]; subst. inversion S' as [|? ? S'' _]; subst.
  change (match rest with [] => false | b0 :: rest0 => _ end) with (covered (b :: rest) j).
  destruct (_ && _); [apply IH2; assumption|]. rewrite IH1 by assumption. lia.
Qed.

Definition row_pixels (width row : Z) (nodes : list Z) (k : Z) : bool :=
  (row * width <=? k) && (k <? (row + 1) * width) && covered nodes (k - row * width).
Definition room_from (width : Z) (nodes : list Z) : Z :=
  match nodes with [] => 0 | a :: _ => Z.max 0 (width - Z.max 0 a) + zlen nodes end.

Lemma fill_ok width height row : 0 <= row < height -> in_int (width * height) = true -> 0 <= width ->
  forall nodes m s, sorted nodes -> width * height <= Z.of_nat (List.length m) -> 0 <= s -> s + room_from width nodes <= INT_MAX ->
  exists m' s', fill_pairs width row nodes (Some m, s) = Ok (Some m', s') /\ painted m m' (row_pixels width row nodes) /\
    s <= s' <= s + room_from width nodes /\ ones m' - ones m <= s' - s.
Proof.
  intros Hrow Hi Hw. induction nodes as [|a|a b rest IH1 IH2] using list_ind2; intros m s S Hlen Hs Hmax.
  - exists m, s. cbn [fill_pairs]. split; [reflexivity|]. split; [|cbn [room_from]; lia]. apply painted_refl. intros k. unfold row_pixels. cbn [covered]. lia.
  - exists m, s. cbn [fill_pairs]. split; [reflexivity|]. split; [|unfold room_from, zlen; cbn [List.length]; lia].
    apply painted_refl. intros k. unfold row_pixels. cbn [covered]. lia.
  - inversion S as [|? ? S' F]; subst. inversion F as [|? ? Fb Fr]; subst. inversion S' as [|? ? S'' F'']; subst.
    cbn [fill_pairs].
    change (match rest with [] => Ok (Some m, s) | _ => _ end) with (fill_pairs width row (b :: rest) (Some m, s)).
    destruct (width <=? a) eqn:Ewa.
    { apply Z.leb_le in Ewa. exists m, s. split; [reflexivity|]. split; [|unfold room_from, zlen; lia]. apply painted_refl. intros k. unfold row_pixels.
      destruct ((row * width <=? k) && (k <? (row + 1) * width)) eqn:Ek; [|reflexivity]. cbn [andb].
      apply (covered_ge _ _ a); [exact S| |nia]. constructor; [lia|]. constructor; assumption. }
    apply Z.leb_gt in Ewa.
    destruct ((a =? b) && negb match rest with [] => true | _ => false end) eqn:Esk.
    { destruct (IH2 m s S' Hlen Hs) as (m' & s' & E & P & Bs & O).
      { unfold room_from, zlen in *. cbn [List.length] in *. lia. }
      exists m', s'. split; [exact E|]. split; [|unfold room_from, zlen in *; cbn [List.length] in *; lia].
      apply (painted_ext _ _ _ _ P). intros k. unfold row_pixels. f_equal. cbn [covered].
      change (match rest with [] => false | b0 :: rest0 => _ end) with (covered (b :: rest) (k - row * width)). now rewrite Esk. }
    assert (Hrest : room_from width rest <= Z.max 0 (width - Z.max 0 b) + zlen rest).
    { unfold room_from. destruct rest as [|c rest]; [unfold zlen; cbn [List.length]; lia|]. inversion F''; subst. lia. }
    assert (Ecov : forall k, row_pixels width row (a :: b :: rest) k
      = ((row * width <=? k) && (k <? (row + 1) * width) && ((a <=? k - row * width) && (k - row * width <=? b))) || row_pixels width row rest k).
    { intros k. unfold row_pixels. cbn [covered]. rewrite Esk. destruct ((row * width <=? k) && (k <? (row + 1) * width)); reflexivity. }
    assert (Hz : zlen (a :: b :: rest) = zlen rest + 2) by (unfold zlen; cbn [List.length]; lia).
    cbn [room_from] in *. rewrite Hz in *.
    destruct (0 <=? b) eqn:E0b.
    + apply Z.leb_le in E0b. cbv zeta.
      set (a' := if a <? 0 then 0 else a). set (b' := if width <=? b then width - 1 else b).
      assert (Ha' : 0 <= a' /\ a' = Z.max 0 a) by (unfold a'; destruct (a <? 0) eqn:?; lia).
      assert (Hb' : b' < width /\ b' = Z.min b (width - 1)) by (unfold b'; destruct (width <=? b) eqn:?; lia).
      clearbody a' b'.
      destruct (run_ok width height row a' b' m s Hrow ltac:(lia) ltac:(lia) Hi Hlen Hs ltac:(unfold zlen in *; lia)) as (m1 & E1 & P1 & O1).
      rewrite E1. cbn [obind]. destruct P1 as [L1 P1].
      destruct (IH1 m1 (s + Z.max 0 (b' - a' + 1)) S'') as (m2 & s2 & E2 & P2 & B2 & O2); try lia.
      exists m2, s2. split; [exact E2|]. split; [|lia].
      eapply painted_trans; [exact (conj L1 P1)|exact P2|]. intros k. rewrite Ecov. f_equal. unfold in_run. rewrite Z.mul_add_distr_r, Z.mul_1_l. clear - Ha' Hb'. lia.
    + apply Z.leb_gt in E0b. cbn [obind]. destruct (IH1 m s S'') as (m2 & s2 & E2 & P2 & B2 & O2); try lia.
      exists m2, s2. split; [exact E2|]. split; [|lia]. apply (painted_ext _ _ _ _ P2). intros k. rewrite Ecov.
      destruct (row_pixels width row rest k); [now rewrite Bool.orb_true_r|]. rewrite Z.mul_add_distr_r, Z.mul_1_l. clear - E0b. lia.
Qed.

(** ---- Rows ---- *)
Definition sorted_nodes (points : list (spec_float * spec_float)) (row : Z) : list Z :=
  match (l <- row_nodes edge_node row (last points origin) points ;; bubble_sort l) with Ok l => l | _ => [] end.

Lemma rep_points pts : Forall (fun p => near (fst p) /\ near (snd p)) pts -> exists zs, Forall2 rep_pt (round_polygon pts) zs.
Proof.
  induction 1 as [|p pts [[F1 B1] [F2 B2]] H (zs & IH)]; cbn [round_polygon map]; [exists []; constructor|].
  destruct (fround_bounded _ F1 B1) as (x & Bx & Rx). destruct (fround_bounded _ F2 B2) as (y & By & Ry).
  exists ((x, y) :: zs). constructor; [|exact IH]. unfold rep_pt. cbn [fst snd]. auto.
Qed.
Lemma rep_origin : rep_pt origin (0, 0).
Proof. unfold rep_pt, origin. cbn [fst snd]. split; [apply rep_zero|]. split; [apply rep_zero|]. split; cbn; lia. Qed.
Lemma rep_last pts zs : Forall2 rep_pt pts zs -> rep_pt (last pts origin) (last zs (0, 0)).
Proof.
  induction 1 as [|p z pts zs Hp H IH]; [apply rep_origin|]. destruct H; cbn [last] in *; assumption.
Qed.

Lemma sorted_nodes_ok pts zs row : Forall2 rep_pt pts zs -> Z.abs row <= 2 ^ 23 ->
  (l <- row_nodes edge_node row (last pts origin) pts ;; bubble_sort l) = Ok (sorted_nodes pts row) /\
  sorted (sorted_nodes pts row) /\ (List.length (sorted_nodes pts row) <= List.length pts)%nat.
Proof.
  intros H Hrow. unfold sorted_nodes. destruct (row_nodes_ok row pts zs H Hrow _ _ (rep_last _ _ H)) as (l & E & F & L).
  rewrite E. cbn [obind]. destruct (bubble_sort_spec l) as (l' & E' & P & S). rewrite E'. split; [reflexivity|]. split; [exact S|].
  now rewrite <- (Permutation_length P).
Qed.

Lemma room_le width nodes n : 0 <= width -> (List.length nodes <= n)%nat -> 0 <= room_from width nodes <= width + Z.of_nat n.
Proof. intros Hw H. unfold room_from, zlen. destruct nodes; cbn [List.length] in *; lia. Qed.

Lemma row_pixels_at width nodes row i j : 0 <= j < width -> 
  row_pixels width row nodes (i * width + j) = (i =? row) && covered nodes j.
Proof.
  intros Hj. unfold row_pixels. destruct (Z.eq_dec i row) as [->|Hne].
  - replace (row * width <=? row * width + j) with true by (symmetry; lia). replace (row * width + j <? (row + 1) * width) with true by (symmetry; lia).
    rewrite Z.eqb_refl. cbn [andb]. f_equal. ring.
  - replace (i =? row) with false by (symmetry; lia). cbn [andb]. 
    replace ((row * width <=? i * width + j) && (i * width + j <? (row + 1) * width)) with false; [reflexivity|]. symmetry. nia.
Qed.

Lemma ones_zero n : ones (repeat (Some 0%N) n) = 0.
Proof. unfold ones, zlen. induction n; [reflexivity|exact IHn]. Qed.

(** The pixels a rasterised polygon gets: row i, column j is covered by the row's nodes. *)
Lemma rasterize_rep pts zs mask width height : Forall2 rep_pt (round_polygon pts) zs ->
  0 <= width -> 0 <= height <= 2 ^ 23 -> in_int (width * height) = true -> Z.of_nat (List.length mask) = width * height ->
  height * (width + Z.of_nat (List.length pts)) <= INT_MAX ->
  exists m' s, rasterize false pts (Some mask) width height = Ok (Some m', s) /\ List.length m' = List.length mask /\
    (forall i j, 0 <= i < height -> 0 <= j < width ->
      nth_error m' (Z.to_nat (i * width + j)) = Some (Some (if covered (sorted_nodes (round_polygon pts) i) j then 1%N else 0%N))) /\
    0 <= ones m' <= s /\ s <= height * (width + Z.of_nat (List.length pts)).
Proof.
  intros Hz Hw Hh Hi Hl Hmax. unfold rasterize. rewrite int_result_ok by exact Hi. cbn [obind].
  unfold mem_set. replace (0 <=? width * height) with true by (symmetry; lia).
  replace (Z.to_nat (width * height) <=? List.length mask)%nat with true by (symmetry; apply Nat.leb_le; lia). cbn [andb obind].
  rewrite skipn_all2 by lia. rewrite app_nil_r.
  assert (Hlen : List.length (round_polygon pts) = List.length pts) by apply map_length.
  set (rp := round_polygon pts) in *. set (n := Z.of_nat (List.length pts)) in *.
  destruct (for_range_inv (fun i st => exists m' s, st = (Some m', s) /\ List.length m' = List.length mask /\
      (forall i' j, 0 <= i' < height -> 0 <= j < width -> nth_error m' (Z.to_nat (i' * width + j))
         = Some (Some (if (i' <? i) && covered (sorted_nodes rp i') j then 1%N else 0%N))) /\
      ones m' <= s /\ 0 <= s <= i * (width + n))
    (raster_row false rp width) (Z.to_nat height) 0 (Some (repeat (Some 0%N) (Z.to_nat (width * height))), 0)) as (st & E & m' & s & -> & L & C & O & Bs).
  - intros i st Hr (m & s & -> & L & C & O & Bs). unfold raster_row.
    destruct (sorted_nodes_ok rp zs i Hz ltac:(lia)) as (E & So & Ln).
    destruct (row_nodes edge_node i (last rp origin) rp) as [l| | |] eqn:El; cbn [obind] in E |- *; try discriminate E. rewrite E. cbn [obind].
    pose proof (room_le width (sorted_nodes rp i) (List.length pts) Hw ltac:(lia)) as Hroom. fold n in Hroom.
    assert (Hstep : (i + 1) * (width + n) <= height * (width + n)) by (apply Z.mul_le_mono_nonneg_r; lia).
    rewrite Z.mul_add_distr_r, Z.mul_1_l in Hstep.
    destruct (fill_ok width height i ltac:(lia) Hi Hw (sorted_nodes rp i) m s So ltac:(lia) ltac:(lia) ltac:(lia)) as (m2 & s2 & E2 & [L2 P2] & B2 & O2).
    rewrite E2. eexists. split; [reflexivity|]. exists m2, s2. split; [reflexivity|]. split; [congruence|]. split; [|lia].
    intros i' j Hi' Hj. pose proof (index_range width height i' j Hj Hi'). rewrite P2 by lia. rewrite row_pixels_at by exact Hj.
    rewrite C by assumption. destruct (i' =? i) eqn:Ee.
    + apply Z.eqb_eq in Ee. subst i'. rewrite Z.ltb_irrefl. replace (i <? i + 1) with true by (symmetry; lia). cbn [andb].
      now destruct (covered _ j).
    + cbn [andb]. replace (i' <? i + 1) with (i' <? i) by lia. reflexivity.
  - exists (repeat (Some 0%N) (Z.to_nat (width * height))), 0. split; [reflexivity|]. split; [rewrite repeat_length; lia|].
    split; [|rewrite ones_zero; lia]. intros i j Hr Hj. pose proof (index_range width height i j Hj Hr).
    replace (i <? 0) with false by (symmetry; lia). cbn [andb]. apply nth_error_repeat. lia.
  - exists m', s. split; [exact E|]. split; [exact L|]. replace (0 + Z.of_nat (Z.to_nat height)) with height in * by lia. split; [|unfold ones, zlen in *; lia].
    intros i j Hr Hj. rewrite C by assumption. replace (i <? height) with true by (symmetry; lia). reflexivity.
Qed.

(** ---- Rectangles with integer sides ---- *)
Definition rect_value (X Y W H A B : Z) : N := if (X <=? A) && (A <? X + W) && (Y <=? B) && (B <? Y + H) then 1%N else 0%N.

Lemma rect_nodes x0 x1 y0 y1 X0 X1 Y0 Y1 row :
  rep x0 X0 -> rep x1 X1 -> rep y0 Y0 -> rep y1 Y1 -> Z.abs X0 <= 2 ^ 23 -> Z.abs X1 <= 2 ^ 23 -> Z.abs Y0 <= 2 ^ 23 -> Z.abs Y1 <= 2 ^ 23 ->
  X0 <= X1 -> Y0 <= Y1 -> Z.abs row <= 2 ^ 23 ->
  forall j, covered (sorted_nodes [(x0, y0); (x1, y0); (x1, y1); (x0, y1)] row) j = (X0 <=? j) && (j <=? X1) && (Y0 <=? row) && (row <=? Y1).
Proof.
  intros Rx0 Rx1 Ry0 Ry1 Bx0 Bx1 By0 By1 HX HY Hrow j.
  assert (P00 : rep_pt (x0, y0) (X0, Y0)) by (unfold rep_pt; cbn [fst snd]; auto).
  assert (P10 : rep_pt (x1, y0) (X1, Y0)) by (unfold rep_pt; cbn [fst snd]; auto).
  assert (P11 : rep_pt (x1, y1) (X1, Y1)) by (unfold rep_pt; cbn [fst snd]; auto).
  assert (P01 : rep_pt (x0, y1) (X0, Y1)) by (unfold rep_pt; cbn [fst snd]; auto).
  unfold sorted_nodes. cbn [last row_nodes].
  destruct (edge_node_ok row _ _ _ _ P01 P00 Hrow) as (n1 & -> & _ & N1). cbn [fst snd obind] in *.
  destruct (edge_node_ok row _ _ _ _ P00 P10 Hrow) as (n2 & -> & _ & N2). cbn [fst snd obind] in *.
  destruct (edge_node_ok row _ _ _ _ P10 P11 Hrow) as (n3 & -> & _ & N3). cbn [fst snd obind] in *.
  destruct (edge_node_ok row _ _ _ _ P11 P01 Hrow) as (n4 & -> & _ & N4). cbn [fst snd obind] in *.
  rewrite N1, N2, N3, N4 by auto. clear - HX HY. 
  assert (S : forall l l', Permutation l l' -> sorted l' -> bubble_sort l = Ok l') by apply bubble_sort_is.
  unfold on_row. rewrite !(Z.min_r Y1 Y0), !(Z.max_l Y1 Y0), !(Z.min_l Y0 Y1), !(Z.max_r Y0 Y1), !Z.min_id, !Z.max_id by exact HY.
  destruct (Z.leb_spec Y0 row), (Z.leb_spec row Y1); cbn [andb app]; rewrite ?Bool.andb_true_r, ?Bool.andb_false_r.
  - destruct (Z.leb_spec row Y0), (Z.leb_spec Y1 row); cbn [andb app].
    + rewrite (S _ [X0; X0; X1; X1]); [| |repeat constructor; lia].
      * cbn [covered]. rewrite Z.eqb_refl. cbn [negb andb]. destruct (Z.eqb_spec X0 X1); cbn [negb andb]; [subst; rewrite Z.eqb_refl; cbn [negb andb]|]; rewrite ?Bool.orb_false_r.
        -- reflexivity.
        -- destruct (X1 =? X1); cbn [andb]; lia.
      * apply (perm_trans (l' := X0 :: X0 :: [X1; X1])); [|reflexivity]. apply perm_skip. symmetry. apply (Permutation_cons_append [X1; X1] X0).
    + rewrite (S _ [X0; X1; X1]); [|reflexivity|repeat constructor; lia].
      cbn [covered]. destruct (Z.eqb_spec X0 X1); cbn [negb andb]; [subst; rewrite Z.eqb_refl; cbn [negb andb]|]; rewrite ?Bool.orb_false_r; lia.
    + rewrite (S _ [X0; X0; X1]); [|apply perm_skip, perm_swap|repeat constructor; lia].
      cbn [covered]. rewrite Z.eqb_refl. cbn [negb andb]. rewrite Bool.andb_false_r, Bool.orb_false_r. lia.
    + rewrite (S _ [X0; X1]); [|reflexivity|repeat constructor; lia]. cbn [covered negb andb]. rewrite Bool.andb_false_r, Bool.orb_false_r. lia.
  - replace (Y1 <=? row) with true by (symmetry; lia). replace (row <=? Y0) with false by (symmetry; lia). cbn [andb app]. 
    rewrite (S _ []) by (reflexivity || constructor). reflexivity.
  - replace (Y1 <=? row) with false by (symmetry; lia). cbn [andb app]. rewrite (S _ []) by (reflexivity || constructor). reflexivity.
  - lia.
Qed.

Lemma rect_window x y w h X Y W H wx wy ww wh :
  rep x X -> rep y Y -> rep w W -> rep h H -> 0 < W -> 0 < H -> 0 < ww -> 0 < wh -> ww * wh <= 2 ^ 24 ->
  - 2 ^ 21 <= X -> X + W - 1 <= 2 ^ 21 -> - 2 ^ 21 <= Y -> Y + H - 1 <= 2 ^ 21 ->
  - 2 ^ 21 <= wx -> wx + ww - 1 <= 2 ^ 21 -> - 2 ^ 21 <= wy -> wy + wh - 1 <= 2 ^ 21 ->
  get_mask_offset false (RRect x y w h) (blk_new (Z.to_nat (ww * wh))) wx wy ww wh
  = Ok (map Some (map (fun p => rect_value X Y W H (fst p) (snd p)) (window_pixels wx wy ww wh))).
Proof.
  intros Rx Ry Rw Rh HW HH Hww Hwh Harea X1 X2 Y1 Y2 WX1 WX2 WY1 WY2. cbn [get_mask_offset].
  rewrite !int_result_ok by (apply small_int; lia). cbn [obind]. 
  pose proof (rep_float_of_int (- wx) ltac:(lia)) as Rwx. pose proof (rep_float_of_int (- wy) ltac:(lia)) as Rwy.
  set (fx := float_of_int (- wx)) in *. set (fy := float_of_int (- wy)) in *. clearbody fx fy.
  unfold rect_points. cbn [offset_polygon map fst snd].
  assert (Rx1 : rep (subf (addf x w) float_one) (X + W - 1)).
  { apply rep_fsub; [apply fmt_float| |apply rep_one|lia]. apply rep_fadd; [apply fmt_float|exact Rx|exact Rw|lia]. }
  assert (Ry1 : rep (subf (addf y h) float_one) (Y + H - 1)).
  { apply rep_fsub; [apply fmt_float| |apply rep_one|lia]. apply rep_fadd; [apply fmt_float|exact Ry|exact Rh|lia]. }
  assert (Q : forall a b c d, rep a b -> rep c d -> Z.abs (b + d) <= 2 ^ 23 -> rep (float_of_double (fround (addf a c))) (b + d)).
  { intros a b c d Ra Rc Hb. apply rep_fround; [|lia]. apply rep_fadd; [apply fmt_float|assumption|assumption|lia]. }
  set (pts := [_; _; _; _]).
  pose proof (Q _ _ _ _ Rx Rwx ltac:(lia)) as Q1. pose proof (Q _ _ _ _ Ry Rwy ltac:(lia)) as Q2.
  pose proof (Q _ _ _ _ Rx1 Rwx ltac:(lia)) as Q3. pose proof (Q _ _ _ _ Ry1 Rwy ltac:(lia)) as Q4. clear Q.
  assert (F : Forall2 rep_pt (round_polygon pts) [(X + - wx, Y + - wy); (X + W - 1 + - wx, Y + - wy); (X + W - 1 + - wx, Y + H - 1 + - wy); (X + - wx, Y + H - 1 + - wy)]).
  { unfold pts. cbn [round_polygon map fst snd]. repeat (apply Forall2_cons; [unfold rep_pt; cbn [fst snd]; split; [assumption|split; [assumption|split; lia]]|]). apply Forall2_nil. }
  assert (P : 0 < ww * wh) by (apply Z.mul_pos_pos; lia). assert (Hwh' : wh <= 2 ^ 22 + 1) by lia.
  assert (Hlen : List.length (blk_new (A:=N) (Z.to_nat (ww * wh))) = Z.to_nat (ww * wh)) by (unfold blk_new; apply repeat_length).
  destruct (rasterize_rep pts _ (blk_new (Z.to_nat (ww * wh))) ww wh F) as (m & s & E & L & C & _).
  - lia.
  - lia.
  - apply small_int. lia.
  - rewrite Hlen. lia.
  - unfold pts. cbn [List.length]. rewrite Z.mul_add_distr_l, (Z.mul_comm wh ww). unfold INT_MAX. lia.
  - match type of E with ?l = _ => match goal with |- obind ?r _ = _ => change r with l end end. rewrite E. cbn [obind fst]. f_equal. apply nth_error_ext. intros k. rewrite Hlen in L. rewrite map_map. unfold window_pixels. rewrite map_map. cbn [fst snd].
    destruct (lt_dec k (Z.to_nat (ww * wh))) as [Hk|Hk].
    + rewrite nth_error_map. rewrite (nth_error_nth' (seq 0 (Z.to_nat (ww * wh))) O) by (rewrite seq_length; exact Hk).
      rewrite seq_nth by exact Hk. cbn [option_map Nat.add].
      pose proof (Z.mod_pos_bound (Z.of_nat k) ww Hww) as Bm. pose proof (Z.div_mod (Z.of_nat k) ww ltac:(lia)) as Dm.
      assert (B1 : 0 <= Z.of_nat k / ww) by (apply Z.div_pos; lia).
      assert (B2 : Z.of_nat k / ww < wh) by (apply Z.div_lt_upper_bound; lia).
      set (i := Z.of_nat k / ww) in *. set (j := Z.of_nat k mod ww) in *. clearbody i j.
      replace k with (Z.to_nat (i * ww + j)) by lia. rewrite C by lia. do 2 f_equal. unfold pts. cbn [round_polygon map fst snd].
      rewrite (rect_nodes _ _ _ _ _ _ _ _ i Q1 Q3 Q2 Q4) by lia. unfold rect_value. clear. f_equal.
      replace (X + - wx <=? j) with (X <=? wx + j) by lia. replace (j <=? X + W - 1 + - wx) with (wx + j <? X + W) by lia.
      replace (Y + - wy <=? i) with (Y <=? wy + i) by lia. replace (i <=? Y + H - 1 + - wy) with (wy + i <? Y + H) by lia. reflexivity.
    + rewrite !(proj2 (nth_error_None _ _)); [reflexivity| |lia]. rewrite map_length, seq_length. lia.
Qed.

Lemma rect_has_pixels x y w h X Y W H : rep x X -> rep y Y -> rep w W -> rep h H -> 0 < W -> 0 < H ->
  - 2 ^ 21 <= X -> X + W - 1 <= 2 ^ 21 -> - 2 ^ 21 <= Y -> Y + H - 1 <= 2 ^ 21 ->
  has_pixels false (RRect x y w h) (2 ^ 21) (rect_value X Y W H) X Y (X + W - 1) (Y + H - 1).
Proof.
  intros Rx Ry Rw Rh HW HH X1 X2 Y1 Y2. split; [|split; [|split]].
  - intros A B. unfold rect_value. destruct (_ && _) eqn:E; [|congruence]. intros _. lia.
  - lia.
  - eexists. split; [reflexivity|]. unfold bounds_rectangle, zbounds. cbn [top bottom left right].
    split; [exact Ry|]. split; [|split; [exact Rx|]]; (apply rep_fsub; [apply fmt_float| |apply rep_one|lia]);
      (apply rep_fadd; [apply fmt_float|assumption|assumption|lia]).
  - intros. apply rect_window; assumption.
Qed.

Lemma has_pixels_less legacy g K K' v l t r b : has_pixels legacy g K v l t r b -> K' <= K ->
  - K' <= l -> r <= K' -> - K' <= t -> b <= K' -> has_pixels legacy g K' v l t r b.
Proof.
  intros (H1 & _ & H3 & H4) HK E1 E2 E3 E4. split; [exact H1|]. split; [lia|]. split; [exact H3|]. intros. apply H4; lia.
Qed.

Lemma covers_pixels g S l t r b : covers g S -> tight_box S l t r b -> - 2 ^ 21 <= l -> r <= 2 ^ 21 -> - 2 ^ 21 <= t -> b <= 2 ^ 21 ->
  exists v, has_pixels false g (2 ^ 21) v l t r b /\ forall A B, v A B <> 0%N <-> S A B.
Proof.
  intros HC HT E1 E2 E3 E4. destruct g as [c|x y w h|pts|x y w h data]; cbn [covers] in HC; try destruct HC.
  - destruct H as (Y & W & H & F1 & F2 & F3 & F4 & I1 & I2 & I3 & I4 & HW & HH & HS). rename x0 into X.
    pose proof (is_int_rep _ _ F1 I1) as R1. pose proof (is_int_rep _ _ F2 I2) as R2.
    pose proof (is_int_rep _ _ F3 I3) as R3. pose proof (is_int_rep _ _ F4 I4) as R4.
    assert (HT' : tight_box S X Y (X + W - 1) (Y + H - 1)).
    { split; [intros A B Q; apply HS in Q; lia|]. split; [exists Y; apply HS; lia|]. split; [exists Y; apply HS; lia|].
      split; exists X; apply HS; lia. }
    destruct (tight_box_unique _ _ _ _ _ _ _ _ _ HT HT') as (-> & -> & -> & ->).
    exists (rect_value X Y W H). split; [apply rect_has_pixels; assumption|]. intros A B. rewrite HS. unfold rect_value.
    destruct (_ && _) eqn:E; split; intros Q; try lia; try discriminate; congruence.
  - destruct H0 as (Hx & Hy & HS). exists (value_at x y w h data). split; [|intros A B; rewrite HS; reflexivity].
    apply (has_pixels_less _ _ (2 ^ 24)); try assumption; [|lia]. apply mask_has_pixels; try assumption.
    destruct HT as (T0 & [a1 T1] & [a2 T2] & [a3 T3] & [a4 T4]). split; [intros A B Q; apply T0, HS, Q|].
    split; [exists a1; apply HS, T1|]. split; [exists a2; apply HS, T2|]. split; [exists a3; apply HS, T3|]. exists a4. apply HS, T4.
Qed.

Lemma overlap_of_covers g1 g2 S1 S2 bnd bl bt br bb l1 t1 r1 b1 l2 t2 r2 b2 both only1 only2 either :
  covers g1 S1 -> covers g2 S2 -> tight_box S1 l1 t1 r1 b1 -> tight_box S2 l2 t2 r2 b2 ->
  - 2 ^ 21 <= l1 -> r1 <= 2 ^ 21 -> - 2 ^ 21 <= t1 -> b1 <= 2 ^ 21 ->
  - 2 ^ 21 <= l2 -> r2 <= 2 ^ 21 -> - 2 ^ 21 <= t2 -> b2 <= 2 ^ 21 ->
  int_bounds bnd bl bt br bb ->
  let L1 := Z.max l1 bl in let U1 := Z.max t1 bt in let R1 := Z.min r1 br in let D1 := Z.min b1 bb in
  let L2 := Z.max l2 bl in let U2 := Z.max t2 bt in let R2 := Z.min r2 br in let D2 := Z.min b2 bb in
  L1 < R1 /\ U1 < D1 -> L2 < R2 /\ U2 < D2 ->
  (Z.max R1 R2 - Z.min L1 L2 + 1) * (Z.max D1 D2 - Z.min U1 U2 + 1) <= 2 ^ 23 ->
  (Z.max L1 L2 < Z.min R1 R2 /\ Z.max U1 U2 < Z.min D1 D2) \/ Z.min R1 R2 < Z.max L1 L2 \/ Z.min D1 D2 < Z.max U1 U2 ->
  let inside X Y := bl <= X <= br /\ bt <= Y <= bb in
  enumerates both (fun X Y => S1 X Y /\ S2 X Y /\ inside X Y) ->
  enumerates only1 (fun X Y => S1 X Y /\ ~ S2 X Y /\ inside X Y) ->
  enumerates only2 (fun X Y => S2 X Y /\ ~ S1 X Y /\ inside X Y) ->
  enumerates either (fun X Y => (S1 X Y \/ S2 X Y) /\ inside X Y) -> either <> [] ->
  exists o, compute_overlap false g1 g2 bnd = Ok o /\
    quotient (o_overlap o) (Z.of_nat (List.length both)) (Z.of_nat (List.length either)) /\
    quotient (o_only1 o) (Z.of_nat (List.length only1)) (Z.of_nat (List.length either)) /\
    quotient (o_only2 o) (Z.of_nat (List.length only2)) (Z.of_nat (List.length either)) /\
    Z.abs (units (o_overlap o) + units (o_only1 o) + units (o_only2 o) - 2 ^ 1074) * 2 ^ 25 <= 3 * 2 ^ 1074 /\
    compute_overlap false g2 g1 bnd = Ok (mkOverlap (o_overlap o) (o_only2 o) (o_only1 o)).
Proof.
  intros C1 C2 T1 T2 E1 E2 E3 E4 E5 E6 E7 E8 Hb L1 U1 R1 D1 L2 U2 R2 D2 B1 B2 Hull Sep inside N0 N1 N2 N3 Hne.
  destruct (covers_pixels _ _ _ _ _ _ C1 T1 E1 E2 E3 E4) as (v1 & P1 & Q1). destruct (covers_pixels _ _ _ _ _ _ C2 T2 E5 E6 E7 E8) as (v2 & P2 & Q2).
  apply (overlap_of_regions false g1 g2 (2 ^ 21) v1 v2 bnd bl bt br bb l1 t1 r1 b1 l2 t2 r2 b2 both only1 only2 either); try assumption; try lia;
    (eapply enumerates_ext; [|eassumption]); intros A B; cbv beta zeta; rewrite Q1, Q2; reflexivity.
Qed.

(** ---- Rectangles to masks and back ---- *)
Lemma rect_mask_exact legacy x y w h X Y W H : rep x X -> rep y Y -> rep w W -> rep h H -> 0 < W -> 0 < H ->
  exact_span X W -> exact_span Y H -> in_int (W * H) = true ->
  exists data, convert legacy (RRect x y w h) MASK = Ok (Some (RMask X Y W H data)) /\ mask_ok W H data /\
    forall A B, set_at X Y W H data A B <-> X <= A < X + W /\ Y <= B < Y + H.
Proof.
  intros Rx Ry Rw Rh HW HH (X1 & X2 & X3) (Y1 & Y2 & Y3) Hi. assert (P : 0 < W * H) by (apply Z.mul_pos_pos; lia).
  exists (repeat 255%N (Z.to_nat (W * H))). split; [|split].
  - cbn [convert]. rewrite (rep_int _ _ Rx), (rep_int _ _ Ry), (rep_int _ _ Rw), (rep_int _ _ Rh) by (apply small_int; lia). cbn [obind].
    rewrite create_mask_ok by assumption. cbn [obind]. rewrite int_result_ok by exact Hi. cbn [obind].
    unfold mem_set. replace (0 <=? W * H) with true by (symmetry; lia). unfold blk_new. rewrite repeat_length, Nat.leb_refl. cbn [andb obind].
    rewrite skipn_all2 by (rewrite repeat_length; lia). rewrite app_nil_r.
    replace (repeat (Some 255%N) (Z.to_nat (W * H))) with (map Some (repeat 255%N (Z.to_nat (W * H)))) by (induction (Z.to_nat (W * H)); cbn [repeat map]; congruence).
    rewrite blk_read_some by (now rewrite repeat_length). reflexivity.
  - repeat split; try assumption. rewrite repeat_length. lia.
  - intros A B. unfold set_at, value_at. destruct (_ && _) eqn:E.
    + rewrite !Bool.andb_true_iff in E. split; [lia|]. intros _.
      pose proof (index_range W H (B - Y) (A - X) ltac:(lia) ltac:(lia)) as R.
      rewrite nth_indep with (d' := 255%N), nth_repeat by (rewrite repeat_length; lia). discriminate.
    + split; [congruence|]. lia.
Qed.

Lemma is_int_unique x a b : is_int x a -> is_int x b -> a = b.
Proof. intros [_ H1] [_ H2]. rewrite H1 in H2. apply Z.mul_cancel_r in H2; [exact H2|]. pose proof pow_SH_pos as P. unfold SH in P. lia. Qed.

Lemma rect_mask_rect legacy x y w h X Y W H :
  finite_float x -> finite_float y -> finite_float w -> finite_float h ->
  is_int x X -> is_int y Y -> is_int w W -> is_int h H -> 0 < W -> 0 < H ->
  exact_span X W -> exact_span Y H -> in_int (W * H) = true ->
  exists data rx ry rw rh, convert legacy (RRect x y w h) MASK = Ok (Some (RMask X Y W H data)) /\ mask_ok W H data /\
    (forall A B, set_at X Y W H data A B <-> X <= A < X + W /\ Y <= B < Y + H) /\
    convert legacy (RMask X Y W H data) RECTANGLE = Ok (Some (RRect rx ry rw rh)) /\
    is_int rx X /\ is_int ry Y /\ is_int rw W /\ is_int rh H.
Proof.
  intros F1 F2 F3 F4 I1 I2 I3 I4 HW HH Sx Sy Hi.
  destruct (rect_mask_exact legacy x y w h X Y W H) as (data & E & M & HS); try assumption; try (apply is_int_rep; assumption).
  destruct (convert_mask_rectangle legacy X Y W H data M Sx Sy) as (rx & ry & rw & rh & l & t & r & b & E' & J1 & J2 & J3 & J4 & T).
  { exists X, Y. apply HS. lia. }
  assert (T' : tight_box (set_at X Y W H data) X Y (X + W - 1) (Y + H - 1)).
  { split; [intros A B Q; apply HS in Q; lia|]. split; [exists Y; apply HS; lia|]. split; [exists Y; apply HS; lia|]. split; exists X; apply HS; lia. }
  destruct (tight_box_unique _ _ _ _ _ _ _ _ _ T T') as (-> & -> & -> & ->).
  exists data, rx, ry, rw, rh. split; [exact E|]. split; [exact M|]. split; [exact HS|]. split; [exact E'|]. split; [exact J1|]. split; [exact J2|].
  replace (X + W - 1 - X + 1) with W in J3 by ring. replace (Y + H - 1 - Y + 1) with H in J4 by ring. split; assumption.
Qed.

(** ---- Points in masks ---- *)
Lemma int_of_float_floor x z : finite x = true -> - SH <= fexp x -> 0 <= z -> in_int z = true ->
  z * 2 ^ SH <= fixed x < (z + 1) * 2 ^ SH -> int_of_float x = Ok z.
Proof.
  intros Fx Ex Hz Hi B. pose proof pow_SH_pos as P. destruct x as [s| | |s m e]; try discriminate Fx.
  - cbn [fixed] in B. cbn [int_of_float]. f_equal. set (a := 2 ^ SH) in *. clearbody a. nia.
  - cbn [int_of_float]. cbn [fixed fexp] in *. pose proof (pow2_pos (e + SH) ltac:(lia)) as P1.
    assert (Hs : s = false). { destruct s; [|reflexivity]. exfalso. set (a := 2 ^ SH) in *. set (b := 2 ^ (e + SH)) in *. clearbody a b. nia. }
    subst s. rewrite Z.mul_1_l in B.
    assert (T : trunc_pos (Z.pos m) e = z).
    { unfold trunc_pos. destruct (0 <=? e) eqn:E; [apply Z.leb_le in E|apply Z.leb_gt in E].
      - rewrite Z.pow_add_r in B by (unfold SH; lia). set (a := 2 ^ SH) in *. set (b := 2 ^ e) in *. clearbody a b.
        rewrite Z.mul_assoc in B. nia.
      - symmetry. apply (Z.div_unique_pos _ _ _ (Z.pos m - 2 ^ (- e) * z)); [|ring]. pose proof (pow2_pos (- e) ltac:(lia)) as P2.
        assert (Q : 2 ^ SH = 2 ^ (- e) * 2 ^ (e + SH)) by (rewrite <- Z.pow_add_r by lia; f_equal; lia). rewrite Q in B.
        set (a := 2 ^ (- e)) in *. set (b := 2 ^ (e + SH)) in *. clearbody a b. nia. }
    rewrite T. now rewrite Hi.
Qed.

Lemma point_in_mask_ok mx my mw mh data x y X Y : mask_ok mw mh data -> exact_span mx mw -> exact_span my mh -> 0 <= mx -> 0 <= my ->
  finite_float x -> finite_float y -> is_floor x X -> is_floor y Y ->
  exists b, contains_point (RMask mx my mw mh data) x y = Ok b /\ (b = true <-> set_at mx my mw mh data X Y).
Proof.
  intros Hm (X1 & X2 & X3) (Y1 & Y2 & Y3) Hx0 Hy0 Fx Fy Ix Iy. pose proof Hm as (M1 & M2 & M3 & M4).
  destruct (finite_float_finite x Fx) as [Fx' Ex]. destruct (finite_float_finite y Fy) as [Fy' Ey].
  unfold is_floor in *. change units with fixed in *. change (2 ^ 1074) with (2 ^ SH) in *. pose proof pow_SH_pos as P.
  cbn [contains_point]. unfold point_in_mask.
  assert (LT : forall f F n, finite f = true -> - SH <= fexp f -> F * 2 ^ SH <= fixed f < (F + 1) * 2 ^ SH -> Z.abs n <= 2 ^ 24 ->
    flt f (float_of_int n) = (F <? n) /\ fge f (float_of_int n) = (n <=? F)).
  { intros f F n Ff Ef B Hn. destruct (rep_float_of_int n Hn) as (Fn & En & Vn).
    assert (C : fcmp f (float_of_int n) = Some (fixed f ?= n * 2 ^ SH)) by (rewrite fcmp_finite by (assumption || unfold SH; lia); now rewrite Vn).
    unfold flt, fge. rewrite C. set (a := 2 ^ SH) in *. clearbody a. destruct (Z.compare_spec (fixed f) (n * a)); split; symmetry; nia. }
  assert (SHx : - SH <= fexp x) by exact Ex. assert (SHy : - SH <= fexp y) by exact Ey.
  destruct (LT x X mx Fx' SHx Ix X1) as [-> _]. destruct (LT y Y my Fy' SHy Iy Y1) as [-> _].
  destruct (LT x X (mx + mw) Fx' SHx Ix X2) as [_ G1]. destruct (LT y Y (my + mh) Fy' SHy Iy Y2) as [_ G2].
  destruct ((X <? mx) || (Y <? my)) eqn:E1.
  { exists false. split; [reflexivity|]. split; [discriminate|]. unfold set_at, value_at. intros Q. exfalso. apply Q.
    replace ((mx <=? X) && _ && _ && _) with false by lia. reflexivity. }
  rewrite int_result_ok by (apply small_int; lia). cbn [obind]. rewrite G1. destruct (mx + mw <=? X) eqn:E2.
  { exists false. split; [reflexivity|]. split; [discriminate|]. unfold set_at, value_at. intros Q. exfalso. apply Q.
    replace ((mx <=? X) && _ && _ && _) with false by lia. reflexivity. }
  rewrite int_result_ok by (apply small_int; lia). cbn [obind]. rewrite G2. destruct (my + mh <=? Y) eqn:E3.
  { exists false. split; [reflexivity|]. split; [discriminate|]. unfold set_at, value_at. intros Q. exfalso. apply Q.
    replace ((mx <=? X) && _ && _ && _) with false by lia. reflexivity. }
  rewrite (int_of_float_floor x X Fx' SHx) by (assumption || lia || (apply small_int; lia)). cbn [obind].
  rewrite (int_of_float_floor y Y Fy' SHy) by (assumption || lia || (apply small_int; lia)). cbn [obind].
  rewrite !int_result_ok by (apply small_int; lia). cbn [obind].
  pose proof (pixel_ok mw mh data (Y - my) (X - mx) Hm ltac:(lia) ltac:(lia)) as Px. rewrite Px. cbn [obind].
  eexists. split; [reflexivity|]. unfold set_at, value_at. replace ((mx <=? X) && (X <? mx + mw) && (my <=? Y) && (Y <? my + mh)) with true by (symmetry; lia).
  rewrite Bool.negb_true_iff, N.eqb_neq. reflexivity.
Qed.

(** ---- The forms used in the property theorems ---- *)
Lemma cell_some m w i j v : nth_error m (Z.to_nat (i * w + j)) = Some (Some v) -> cell m w i j = Some v.
Proof. intros H. unfold cell. now rewrite H. Qed.
Lemma rasterize_safe pts mask width height : Forall (fun p => near (fst p) /\ near (snd p)) pts ->
  0 <= width -> 0 <= height <= 2 ^ 23 -> in_int (width * height) = true -> Z.of_nat (List.length mask) = width * height ->
  height * (width + Z.of_nat (List.length pts)) <= INT_MAX ->
  exists mask' sum, rasterize false pts (Some mask) width height = Ok (Some mask', sum) /\
    List.length mask' = List.length mask /\
    (forall i j, 0 <= i < height -> 0 <= j < width -> cell mask' width i j = Some 0%N \/ cell mask' width i j = Some 1%N) /\
    0 <= ones mask' <= sum.
Proof.
  intros Hp Hw Hh Hi Hl Hm. destruct (rep_points pts Hp) as (zs & Hz).
  destruct (rasterize_rep pts zs mask width height Hz Hw Hh Hi Hl Hm) as (m & s & E & L & C & O & _).
  exists m, s. split; [exact E|]. split; [exact L|]. split; [|exact O]. intros i j Hr Hj. specialize (C i j Hr Hj).
  destruct (covered _ j); [right|left]; apply cell_some; exact C.
Qed.

Lemma rect_window_cells x y w h X Y W H wx wy ww wh :
  finite_float x -> finite_float y -> finite_float w -> finite_float h ->
  is_int x X -> is_int y Y -> is_int w W -> is_int h H -> 0 < W -> 0 < H -> 0 < ww -> 0 < wh -> ww * wh <= 2 ^ 24 ->
  - 2 ^ 21 <= X -> X + W - 1 <= 2 ^ 21 -> - 2 ^ 21 <= Y -> Y + H - 1 <= 2 ^ 21 ->
  - 2 ^ 21 <= wx -> wx + ww - 1 <= 2 ^ 21 -> - 2 ^ 21 <= wy -> wy + wh - 1 <= 2 ^ 21 ->
  exists mask, get_mask_offset false (RRect x y w h) (blk_new (Z.to_nat (ww * wh))) wx wy ww wh = Ok mask /\
    Z.of_nat (List.length mask) = ww * wh /\
    forall i j, 0 <= i < wh -> 0 <= j < ww ->
      cell mask ww i j = Some (if (X <=? wx + j) && (wx + j <? X + W) && (Y <=? wy + i) && (wy + i <? Y + H) then 1%N else 0%N).
Proof.
  intros F1 F2 F3 F4 I1 I2 I3 I4 HW HH Hww Hwh Ha E1 E2 E3 E4 E5 E6 E7 E8. assert (P : 0 < ww * wh) by (apply Z.mul_pos_pos; lia).
  rewrite (rect_window x y w h X Y W H) by (try assumption; apply is_int_rep; assumption). eexists. split; [reflexivity|].
  rewrite !map_length, window_pixels_length. split; [lia|]. intros i j Hi Hj. apply cell_some. rewrite map_map. unfold window_pixels. rewrite map_map.
  pose proof (index_range ww wh i j Hj Hi) as R. rewrite nth_error_map.
  rewrite (nth_error_nth' (seq 0 (Z.to_nat (ww * wh))) O) by (rewrite seq_length; lia). rewrite seq_nth by lia. cbn [option_map Nat.add fst snd].
  rewrite Z2Nat.id by lia. rewrite (Z.add_comm (i * ww)). rewrite Z.mod_add, Z.div_add by lia. rewrite Z.mod_small, Z.div_small by lia. reflexivity.
Qed.

Lemma covers_example :
  covers (RRect (float_of_int 0) (float_of_int 0) (float_of_int 2) (float_of_int 2)) (set_at 0 0 2 2 (full 2 2)) /\
  covers (RMask 0 0 3 3 (full 3 3)) (set_at 0 0 3 3 (full 3 3)) /\
  compute_overlap false (RRect (float_of_int 0) (float_of_int 0) (float_of_int 2) (float_of_int 2)) (RMask 0 0 3 3 (full 3 3)) no_bounds
  = Ok (mkOverlap (divf (float_of_int 4) (float_of_int 9)) (S754_zero false) (divf (float_of_int 5) (float_of_int 9))).
Proof.
  split; [|split; [|now vm_compute]].
  - exists 0, 0, 2, 2. repeat (split; [vm_compute; (reflexivity || (split; reflexivity) || (split; [reflexivity|exact I]) || (split; [exact I|reflexivity]))|]).
    intros A B. apply set_at_full; lia.
  - split; [repeat split|]. split; [unfold exact_span; lia|]. split; [unfold exact_span; lia|]. reflexivity.
Qed.
