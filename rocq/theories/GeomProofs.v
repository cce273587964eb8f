(** Loops, pixel memory and windows of masks. *)
From Verif Require Import CBase StrMap StrMapProofs Num NumProofs Buffer BufferProofs Region RegionGeom GeomSpec.
Local Open Scope Z_scope.

(** ---- Counting loops ---- *)
Lemma for_range_inv {A} (P : Z -> A -> Prop) (body : Z -> A -> outcome A) n : forall i s,
  (forall k s, i <= k < i + Z.of_nat n -> P k s -> exists s', body k s = Ok s' /\ P (k + 1) s') ->
  P i s -> exists s', for_range n i body s = Ok s' /\ P (i + Z.of_nat n) s'.
Proof.
  induction n as [|n IH]; intros i s Hb HP.
  - exists s. cbn [for_range]. rewrite Z.add_0_r. auto.
  - destruct (Hb i s ltac:(lia) HP) as (s1 & E1 & P1). cbn [for_range]. rewrite E1. cbn [obind].
    destruct (IH (i + 1) s1) as (s2 & E2 & P2); [|exact P1|].
    + intros k t Hk. apply Hb. lia.
    + exists s2. split; [exact E2|]. replace (i + Z.of_nat (S n)) with (i + 1 + Z.of_nat n) by lia. exact P2.
Qed.
(** The same for a loop [for (k = 0; k < n; k++)] over an int n of any sign. *)
Lemma for_range_to {A} (P : Z -> A -> Prop) (body : Z -> A -> outcome A) n s :
  (forall k s, 0 <= k < n -> P k s -> exists s', body k s = Ok s' /\ P (k + 1) s') ->
  P 0 s -> exists s', for_range (Z.to_nat n) 0 body s = Ok s' /\ P (Z.max 0 n) s'.
Proof.
  intros Hb HP. destruct (for_range_inv P body (Z.to_nat n) 0 s) as (s' & E & H); [|exact HP|].
  - intros k t Hk. apply Hb. lia.
  - exists s'. split; [exact E|]. replace (Z.max 0 n) with (0 + Z.of_nat (Z.to_nat n)) by lia. exact H.
Qed.

(** ---- Memory ---- *)
Lemma int_result_ok z : in_int z = true -> int_result z = Ok z.
Proof. intros H. unfold int_result. now rewrite H. Qed.
Lemma in_int_iff z : in_int z = true <-> INT_MIN <= z <= INT_MAX.
Proof. unfold in_int. rewrite Bool.andb_true_iff, !Z.leb_le. reflexivity. Qed.
Lemma in_int_of z : INT_MIN <= z <= INT_MAX -> in_int z = true.
Proof. apply in_int_iff. Qed.

Lemma put_ok b k v : 0 <= k < Z.of_nat (List.length b) ->
  put b k v = Ok (set_nth b (Z.to_nat k) (Some v)).
Proof.
  intros H. unfold put, blk_write. replace (0 <=? k) with true by (symmetry; lia).
  destruct (Nat.ltb_spec (Z.to_nat k) (List.length b)); [reflexivity|lia].
Qed.

Lemma mem_set_ok b v n : 0 <= n <= Z.of_nat (List.length b) ->
  exists b', mem_set b v n = Ok b' /\ List.length b' = List.length b /\
    (forall k, 0 <= k < n -> nth_error b' (Z.to_nat k) = Some (Some v)) /\
    (forall k, n <= k -> nth_error b' (Z.to_nat k) = nth_error b (Z.to_nat k)).
Proof.
  intros H. unfold mem_set. replace (0 <=? n) with true by (symmetry; lia).
  destruct (Nat.leb_spec (Z.to_nat n) (List.length b)) as [L|L]; [|lia]. cbn [andb].
  eexists. split; [reflexivity|]. split; [rewrite app_length, repeat_length, skipn_length; lia|]. split.
  - intros k Hk. rewrite nth_error_app1 by (rewrite repeat_length; lia). apply nth_error_repeat. lia.
  - intros k Hk. rewrite nth_error_app2 by (rewrite repeat_length; lia). rewrite repeat_length.
    rewrite <- (firstn_skipn (Z.to_nat n) b) at 2. rewrite nth_error_app2 by (rewrite firstn_length; lia).
    rewrite firstn_length. f_equal. lia.
Qed.

Lemma nth_error_set_nth_eq {A} (l : list A) i x : (i < List.length l)%nat -> nth_error (set_nth l i x) i = Some x.
Proof. revert i. induction l as [|a l IH]; intros [|i] H; cbn in *; try lia; [reflexivity|]. apply IH. lia. Qed.
Lemma nth_error_set_nth_neq {A} (l : list A) i j x : i <> j -> nth_error (set_nth l i x) j = nth_error l j.
Proof. revert i j. induction l as [|a l IH]; intros [|i] [|j] H; cbn; try congruence. apply IH. congruence. Qed.

(** ---- Positions ---- *)
Lemma index_inj w i j i' j' : 0 <= j < w -> 0 <= j' < w -> i * w + j = i' * w + j' -> i = i' /\ j = j'.
Proof. intros. assert (i = i') by nia. subst. lia. Qed.
Lemma index_range w h i j : 0 <= j < w -> 0 <= i < h -> 0 <= i * w + j < w * h.
Proof. nia. Qed.

Lemma factor_le_l a b M : 0 <= a -> 0 < b -> a * b <= M -> a <= M.
Proof. nia. Qed.
Lemma factor_le_r a b M : 0 <= b -> 0 < a -> a * b <= M -> b <= M.
Proof. nia. Qed.

Lemma pixel_ok w h data i j : mask_ok w h data -> 0 <= i < h -> 0 <= j < w ->
  pixel data w i j = Ok (nth (Z.to_nat (i * w + j)) data 0%N).
Proof.
  intros (Hw & Hh & Hi & Hl) Hir Hjr. apply in_int_iff in Hi. pose proof (index_range w h i j Hjr Hir) as R.
  unfold pixel. rewrite !int_result_ok by (apply in_int_of; unfold INT_MIN, INT_MAX in *; nia). cbn [obind].
  rewrite int_result_ok by (apply in_int_of; unfold INT_MIN, INT_MAX in *; nia). cbn [obind].
  replace (0 <=? j + i * w) with true by (symmetry; lia). rewrite (Z.add_comm j).
  rewrite (nth_error_nth' data 0%N) by lia. reflexivity.
Qed.

Lemma value_inside mx my mw mh data i j : 0 <= i < mh -> 0 <= j < mw ->
  value_at mx my mw mh data (mx + j) (my + i) = nth (Z.to_nat (i * mw + j)) data 0%N.
Proof.
  intros Hi Hj. unfold value_at.
  replace ((mx <=? mx + j) && (mx + j <? mx + mw) && (my <=? my + i) && (my + i <? my + mh)) with true.
  - do 2 f_equal. nia.
  - symmetry. rewrite !Bool.andb_true_iff. lia.
Qed.
Lemma value_outside mx my mw mh data X Y : ~ (mx <= X < mx + mw /\ my <= Y < my + mh) -> value_at mx my mw mh data X Y = 0%N.
Proof.
  intros H. unfold value_at. destruct (_ && _ && _ && _) eqn:E; [|reflexivity].
  rewrite !Bool.andb_true_iff in E. lia.
Qed.

(** ---- Windows of masks ---- *)
Section Window.
  Variables (legacy : bool) (mx my mw mh : Z) (data : list N) (x y width height : Z) (mask : block N).
  Hypothesis Hm : mask_ok mw mh data.
  Hypothesis Hw : 0 <= width.
  Hypothesis Hh : 0 <= height.
  Hypothesis Hsize : in_int (width * height) = true.
  Hypothesis Hmem : width * height <= Z.of_nat (List.length mask).
  Hypothesis Hx : spans_fit mx mw x width.
  Hypothesis Hy : spans_fit my mh y height.

  Let tx := Z.max mx x.
  Let ty := Z.max my y.
  Let tw := Z.min (x + width) (mx + mw) - tx.
  Let th := Z.min (y + height) (my + mh) - ty.

  (** Cells already copied before row i, column j of the common part *)
  Definition copied (i j r c : Z) : Prop :=
    (ty - y <= r < ty - y + i /\ tx - x <= c < tx - x + tw) \/ (r = ty - y + i /\ tx - x <= c < tx - x + j).
  Definition window_inv (i j : Z) (b : block N) : Prop :=
    List.length b = List.length mask /\
    (forall r c, 0 <= r < height -> 0 <= c < width ->
       (copied i j r c -> nth_error b (Z.to_nat (r * width + c)) = Some (Some (value_at mx my mw mh data (x + c) (y + r)))) /\
       (~ copied i j r c -> nth_error b (Z.to_nat (r * width + c)) = Some (Some 0%N))) /\
    (forall k, width * height <= k -> nth_error b (Z.to_nat k) = nth_error mask (Z.to_nat k)).

  Lemma copy_pixel_inv i j b : 0 <= i < th -> 0 <= j < tw -> window_inv i j b ->
    exists b', copy_pixel data mw (tx - x) (ty - y) (tx - mx) (ty - my) width i j b = Ok b' /\ window_inv i (j + 1) b'.
  Proof.
    intros Hi Hj (I1 & I2 & I3). destruct Hm as (M1 & M2 & M3 & M4).
    apply in_int_iff in Hsize as Hs. apply in_int_iff in M3 as M3'.
    destruct Hx as (X1 & X2 & X3). destruct Hy as (Y1 & Y2 & Y3). apply in_int_iff in X1, X2, Y1, Y2.
    assert (R1 : 0 <= i + (ty - my) < mh) by (unfold th, ty in *; lia).
    assert (R2 : 0 <= j + (tx - mx) < mw) by (unfold tw, tx in *; lia).
    assert (R3 : 0 <= i + (ty - y) < height) by (unfold th, ty in *; lia).
    assert (R4 : 0 <= j + (tx - x) < width) by (unfold tw, tx in *; lia).
    pose proof (index_range width height _ _ R4 R3) as R5.
    assert (B1 : mh <= INT_MAX) by (eapply factor_le_r; [|exact M1|apply M3']; lia).
    assert (B2 : mw <= INT_MAX) by (eapply factor_le_l; [|exact M2|apply M3']; lia).
    assert (B3 : height <= INT_MAX) by (eapply factor_le_r; [| |apply Hs]; lia).
    assert (B4 : width <= INT_MAX) by (eapply factor_le_l; [| |apply Hs]; lia).
    assert (B5 : 0 <= (i + (ty - y)) * width) by (apply Z.mul_nonneg_nonneg; lia).
    unfold copy_pixel.
    rewrite (int_result_ok (i + (ty - my))) by (apply in_int_of; unfold INT_MIN in *; lia). cbn [obind].
    rewrite (int_result_ok (j + (tx - mx))) by (apply in_int_of; unfold INT_MIN in *; lia). cbn [obind].
    rewrite (pixel_ok mw mh) by assumption. cbn [obind].
    rewrite (int_result_ok (i + (ty - y))) by (apply in_int_of; unfold INT_MIN in *; lia). cbn [obind].
    rewrite (int_result_ok (j + (tx - x))) by (apply in_int_of; unfold INT_MIN in *; lia). cbn [obind].
    rewrite (int_result_ok ((i + (ty - y)) * width)) by (apply in_int_of; unfold INT_MIN in *; lia). cbn [obind].
    rewrite int_result_ok by (apply in_int_of; unfold INT_MIN in *; lia). cbn [obind].
    rewrite (Z.add_comm (j + (tx - x))).
    rewrite put_ok by lia. eexists. split; [reflexivity|].
    split; [now rewrite set_nth_length|]. split.
    - intros r c Hr Hc. destruct (Z.eq_dec (r * width + c) ((i + (ty - y)) * width + (j + (tx - x)))) as [E|E].
      + destruct (index_inj width r c _ _ Hc R4 E) as [-> ->]. split.
        * intros _. rewrite nth_error_set_nth_eq by lia. do 2 f_equal.
          replace (x + (j + (tx - x))) with (mx + (j + (tx - mx))) by lia.
          replace (y + (i + (ty - y))) with (my + (i + (ty - my))) by lia.
          symmetry. apply value_inside; assumption.
        * intros NC. exfalso. apply NC. right. lia.
      + pose proof (index_range width height _ _ Hc Hr) as R6.
        rewrite nth_error_set_nth_neq by lia. destruct (I2 r c Hr Hc) as [J1 J2]. split.
        * intros C. apply J1. destruct C as [C|(-> & C)]; [left; exact C|]. right. split; [reflexivity|].
          assert (c <> tx - x + j) by (intros ->; apply E; ring). lia.
        * intros NC. apply J2. intros C. apply NC. unfold copied in *. lia.
    - intros k Hk. rewrite nth_error_set_nth_neq by lia. apply I3, Hk.
  Qed.

  Lemma window_inv_row i b : 0 <= i < th -> window_inv i tw b -> window_inv (i + 1) 0 b.
  Proof.
    intros Hi (I1 & I2 & I3). split; [exact I1|]. split; [|exact I3].
    intros r c Hr Hc. destruct (I2 r c Hr Hc) as [J1 J2].
    split; intros C; [apply J1|apply J2]; unfold copied in *; lia.
  Qed.

  Lemma window_ok : exists mask', get_mask_offset legacy (RMask mx my mw mh data) mask x y width height = Ok mask' /\
    List.length mask' = List.length mask /\
    (forall i j, 0 <= i < height -> 0 <= j < width ->
       nth_error mask' (Z.to_nat (i * width + j)) = Some (Some (value_at mx my mw mh data (x + j) (y + i)))) /\
    (forall k, width * height <= k -> nth_error mask' (Z.to_nat k) = nth_error mask (Z.to_nat k)).
  Proof.
    pose proof Hm as (M1 & M2 & M3 & M4). apply in_int_iff in Hsize as Hs. apply in_int_iff in M3 as M3'.
    pose proof Hx as (X1 & X2 & X3). pose proof Hy as (Y1 & Y2 & Y3). apply in_int_iff in X1 as X1', X2 as X2', Y1 as Y1', Y2 as Y2'.
    assert (B1 : mh <= INT_MAX) by (eapply factor_le_r; [|exact M1|apply M3']; lia).
    assert (B2 : mw <= INT_MAX) by (eapply factor_le_l; [|exact M2|apply M3']; lia).
    cbn [get_mask_offset]. fold tx ty.
    rewrite (int_result_ok (tx - x)) by (apply in_int_of; unfold INT_MIN, INT_MAX, tx in *; lia). cbn [obind].
    rewrite (int_result_ok (ty - y)) by (apply in_int_of; unfold INT_MIN, INT_MAX, ty in *; lia). cbn [obind].
    rewrite (int_result_ok (tx - mx)) by (apply in_int_of; unfold INT_MIN, INT_MAX, tx in *; lia). cbn [obind].
    rewrite (int_result_ok (ty - my)) by (apply in_int_of; unfold INT_MIN, INT_MAX, ty in *; lia). cbn [obind].
    rewrite (int_result_ok (x + width)) by assumption. cbn [obind].
    rewrite (int_result_ok (mx + mw)) by assumption. cbn [obind]. fold tw.
    rewrite (int_result_ok tw) by (apply in_int_of; unfold INT_MIN, INT_MAX, tw, tx in *; lia). cbn [obind].
    rewrite (int_result_ok (y + height)) by assumption. cbn [obind].
    rewrite (int_result_ok (my + mh)) by assumption. cbn [obind]. fold th.
    rewrite (int_result_ok th) by (apply in_int_of; unfold INT_MIN, INT_MAX, th, ty in *; lia). cbn [obind].
    rewrite (int_result_ok (width * height)) by assumption. cbn [obind].
    destruct (mem_set_ok mask 0%N (width * height)) as (b & E & L & Z0 & Zk); [split; [apply Z.mul_nonneg_nonneg|]; assumption|]. rewrite E. cbn [obind].
    destruct (for_range_to (fun i b => window_inv i 0 b) (copy_row data mw (tx - x) (ty - y) (tx - mx) (ty - my) width tw) th b)
      as (b' & E' & I1 & I2 & I3).
    - intros i s Hi HI. unfold copy_row.
      destruct (for_range_to (fun j b => window_inv i j b) (copy_pixel data mw (tx - x) (ty - y) (tx - mx) (ty - my) width i) tw s)
        as (s' & Es & Is).
      + intros j t Hj. apply copy_pixel_inv; assumption.
      + exact HI.
      + exists s'. split; [exact Es|]. apply window_inv_row; [exact Hi|].
        destruct Is as (J1 & J2 & J3). split; [exact J1|]. split; [|exact J3].
        intros r c Hr Hc. destruct (J2 r c Hr Hc) as [K1 K2]. split; intros C; [apply K1|apply K2]; unfold copied in *; lia.
    - split; [exact L|]. split; [|exact Zk]. intros r c Hr Hc. split.
      + intros C. exfalso. unfold copied in C. lia.
      + intros _. apply Z0. apply index_range; assumption.
    - exists b'. split; [exact E'|]. split; [exact I1|]. split; [|exact I3].
      intros i j Hi Hj. destruct (I2 i j Hi Hj) as [J1 J2].
      destruct (Z_lt_dec (x + j) (mx + mw)); [destruct (Z_lt_dec (y + i) (my + mh));
        [destruct (Z_le_dec mx (x + j)); [destruct (Z_le_dec my (y + i))|]|]|].
      1: { apply J1. left. unfold th, tw, tx, ty in *. lia. }
      all: rewrite J2; [|unfold copied, th, tw, tx, ty in *; lia]; rewrite value_outside by lia; reflexivity.
  Qed.
End Window.

Lemma window_overflow mw mh data : mask_ok mw mh data -> get_mask_offset false (RMask 0 0 mw mh data) (blk_new 2) INT_MAX 0 2 1 = UB.
Proof.
  intros (H1 & H2 & H3 & _). apply in_int_iff in H3.
  assert (B1 : mh <= INT_MAX) by (eapply factor_le_r; [|exact H1|apply H3]; lia).
  assert (B2 : mw <= INT_MAX) by (eapply factor_le_l; [|exact H2|apply H3]; lia).
  cbn [get_mask_offset]. reflexivity.
Qed.
