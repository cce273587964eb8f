(** Proofs about the conversions to and from OpenCV *)
From Coq Require Import Floats.SpecFloat.
From Verif Require Import CBase Buffer BufferProofs Num NumSpec NumProofs FloatOps FloatProofs RasterProofs Region RegionGeom GeomProofs Image OpenCv OpenCvSpec.
Local Open Scope Z_scope.

Lemma load_ok b i : 0 <= i < Z.of_nat (List.length b) -> load b i = Ok (nth (Z.to_nat i) b None).
Proof.
  intros H. unfold load. rewrite (proj2 (Z.leb_le 0 i)) by lia.
  destruct (nth_error b (Z.to_nat i)) as [v|] eqn:E; [rewrite (nth_error_nth b _ None E); reflexivity|].
  apply nth_error_None in E. lia.
Qed.
Lemma gather_nth {A} (d : A) w f n : forall i, (forall j, i <= j < i + Z.of_nat n -> exists l, f j = Ok l /\ List.length l = w) ->
  exists L, gather n i f = Ok L /\ List.length L = (n * w)%nat /\
    forall q l s, (q < n)%nat -> f (i + Z.of_nat q) = Ok l -> (s < w)%nat -> nth (q * w + s) L d = nth s l d.
Proof.
  induction n as [|n IH]; intros i H; cbn [gather].
  - exists []. split; [reflexivity|]. split; [reflexivity|]. intros. lia.
  - destruct (H i ltac:(lia)) as (x & Ex & Lx). rewrite Ex. cbn [obind].
    destruct (IH (i + 1)) as (y & Ey & Ly & Hy); [intros j Hj; apply H; lia|]. rewrite Ey. cbn [obind].
    exists (x ++ y). split; [reflexivity|]. split; [rewrite app_length, Lx, Ly; lia|]. intros q l s Hq El Hs. destruct q as [|q].
    + rewrite Z.add_0_r, Ex in El. injection El as <-. rewrite app_nth1 by lia. f_equal.
    + rewrite app_nth2 by (rewrite Lx; lia). rewrite Lx. replace (S q * w + s - w)%nat with (q * w + s)%nat by lia.
      apply Hy; [lia| |exact Hs]. replace (i + 1 + Z.of_nat q) with (i + Z.of_nat (S q)) by lia. exact El.
Qed.
Lemma load_bytes_ok b i n : 0 <= i -> i + Z.of_nat n <= Z.of_nat (List.length b) ->
  exists l, load_bytes b i n = Ok l /\ List.length l = n /\ forall q, (q < n)%nat -> nth q l None = nth (Z.to_nat i + q) b None.
Proof.
  intros H1 H2. unfold load_bytes.
  destruct (gather_nth (None : option N) 1 (fun j => v <- load b j ;; Ok [v]) n i) as (L & E & Ln & Hn).
  { intros j Hj. rewrite load_ok by lia. cbn [obind]. eexists. split; reflexivity. }
  exists L. split; [exact E|]. split; [lia|]. intros q Hq. specialize (Hn q [nth (Z.to_nat (i + Z.of_nat q)) b None] 0%nat Hq).
  rewrite load_ok in Hn by lia. cbn [obind] in Hn. specialize (Hn eq_refl ltac:(lia)). rewrite Nat.mul_1_r, Nat.add_0_r in Hn. rewrite Hn.
  cbn [nth]. f_equal. lia.
Qed.
Lemma store_bytes_ok b i l : 0 <= i -> i + Z.of_nat (List.length l) <= Z.of_nat (List.length b) ->
  exists b', store_bytes b i l = Ok b' /\ List.length b' = List.length b /\
    forall p, nth p b' None = if (Z.to_nat i <=? p)%nat && (p <? Z.to_nat i + List.length l)%nat then nth (p - Z.to_nat i) l None else nth p b None.
Proof.
  intros H1 H2. unfold store_bytes. rewrite (proj2 (Z.leb_le 0 i)), (proj2 (Z.leb_le _ (Z.of_nat (List.length b)))) by lia. cbn [andb].
  eexists. split; [reflexivity|].
  assert (L1 : List.length (firstn (Z.to_nat i) b) = Z.to_nat i) by (rewrite firstn_length; lia).
  split; [rewrite !app_length, L1, skipn_length; lia|]. intros p.
  destruct (Z.to_nat i <=? p)%nat eqn:E1; cbn [andb].
  - apply Nat.leb_le in E1. rewrite app_nth2 by lia. rewrite L1. destruct (p <? Z.to_nat i + List.length l)%nat eqn:E2.
    + apply Nat.ltb_lt in E2. rewrite app_nth1 by lia. reflexivity.
    + apply Nat.ltb_ge in E2. rewrite app_nth2 by lia. rewrite <- (firstn_skipn (Z.to_nat i + List.length l) b) at 2.
      assert (L2 : List.length (firstn (Z.to_nat i + List.length l) b) = (Z.to_nat i + List.length l)%nat) by (rewrite firstn_length; lia).
      rewrite (app_nth2 (firstn _ _)) by lia. rewrite L2. f_equal. lia.
  - apply Nat.leb_gt in E1. rewrite app_nth1 by lia. rewrite <- (firstn_skipn (Z.to_nat i) b) at 2. rewrite app_nth1 by lia. reflexivity.
Qed.

(** ---- Images ---- *)
Lemma bgr_to_rgb_ok m : mat_ok m -> m_kind m = U8C3 ->
  exists l, bgr_to_rgb m = Ok (Some l) /\ Z.of_nat (List.length l) = m_rows m * m_cols m * 3 /\
    forall r c k, inside m r c -> 0 <= k < 3 -> image_channel l (m_cols m) r c k = byte_at m r c (2 - k).
Proof.
  intros (Hr & Hc & Hi) K. unfold bgr_to_rgb. rewrite K.
  assert (Hs : forall r c, inside m r c -> swapped m r c = Ok [byte_at m r c 2; byte_at m r c 1; byte_at m r c 0]).
  { intros r c H. destruct (Hi r c H) as [H1 H2]. rewrite K in H1, H2. cbn [channels] in H1, H2.
    unfold swapped, byte_at. rewrite K. cbn [channels]. cbv zeta.
    rewrite !load_ok by lia. cbn [obind]. rewrite Z.add_0_r. reflexivity. }
  assert (Hrow : forall r, 0 <= r < m_rows m ->
            exists l, gather (Z.to_nat (m_cols m)) 0 (fun c => swapped m r c) = Ok l /\ List.length l = (Z.to_nat (m_cols m) * 3)%nat /\
              forall c k, 0 <= c < m_cols m -> 0 <= k < 3 -> nth (Z.to_nat (c * 3 + k)) l None = byte_at m r c (2 - k)).
  { intros r Hr'. destruct (gather_nth (None : option N) 3 (fun c => swapped m r c) (Z.to_nat (m_cols m)) 0) as (L & E & Ln & Hn).
    { intros j Hj. eexists. split; [apply Hs; split; lia|reflexivity]. }
    exists L. split; [exact E|]. split; [exact Ln|]. intros c k Hc' Hk.
    specialize (Hn (Z.to_nat c) _ (Z.to_nat k) ltac:(lia) (Hs r (0 + Z.of_nat (Z.to_nat c)) ltac:(split; lia)) ltac:(lia)).
    replace (Z.to_nat c * 3 + Z.to_nat k)%nat with (Z.to_nat (c * 3 + k)) in Hn by lia. rewrite Hn.
    replace (0 + Z.of_nat (Z.to_nat c)) with c by lia. assert (D : k = 0 \/ k = 1 \/ k = 2) by lia. destruct D as [-> |[-> | ->]]; reflexivity. }
  destruct (gather_nth (None : option N) (Z.to_nat (m_cols m) * 3) (fun r => gather (Z.to_nat (m_cols m)) 0 (fun c => swapped m r c)) (Z.to_nat (m_rows m)) 0)
    as (L & E & Ln & Hn).
  { intros j Hj. destruct (Hrow j ltac:(lia)) as (l & El & Ll & _). exists l. split; assumption. }
  exists L. rewrite E. cbn [obind]. split; [reflexivity|]. split; [rewrite Ln; nia|]. intros r c k [Hr' Hc'] Hk.
  destruct (Hrow r Hr') as (l & El & Ll & Hl). unfold image_channel.
  specialize (Hn (Z.to_nat r) l (Z.to_nat (c * 3 + k)) ltac:(lia)). replace (0 + Z.of_nat (Z.to_nat r)) with r in Hn by lia.
  specialize (Hn El ltac:(lia)). rewrite (Hl c k Hc' Hk) in Hn. rewrite <- Hn. f_equal.
  transitivity (Z.to_nat (r * m_cols m * 3 + (c * 3 + k))); [f_equal; ring|].
  rewrite Z2Nat.inj_add by nia. rewrite !Z2Nat.inj_mul by nia. change (Z.to_nat 3) with 3%nat. nia.
Qed.
Lemma image_round_trip m : mat_ok m -> m_kind m = U8C3 -> in_int (m_rows m * m_cols m * 3) = true ->
  exists im m', mat_to_image m = Ok (Some im) /\ image_get_memory_header im = Ok (m_cols m, m_rows m, TRAX_IMAGE_MEMORY_RGB) /\
    (forall r c k, inside m r c -> 0 <= k < 3 -> image_channel (i_data im) (m_cols m) r c k = byte_at m r c (2 - k)) /\
    image_to_mat im = Ok (Some m') /\ same_size m' m /\ forall r c k, inside m r c -> 0 <= k < 3 -> byte_at m' r c k = byte_at m r c k.
Proof.
  intros M K B. destruct (bgr_to_rgb_ok m M K) as (l & E & Ll & Hl). destruct M as (Hr & Hc & Hi).
  unfold in_int, INT_MIN, INT_MAX in B. apply andb_prop in B. destruct B as [B1 B2]. apply Z.leb_le in B1, B2.
  assert (Ec : image_create_memory (m_cols m) (m_rows m) TRAX_IMAGE_MEMORY_RGB =
               Ok (mkImage TRAX_IMAGE_MEMORY (m_cols m) (m_rows m) TRAX_IMAGE_MEMORY_RGB (blk_new (Z.to_nat (m_rows m * m_cols m * 3))))).
  { unfold image_create_memory, memory_size. cbn [memory_depth memory_channels].
    change (memory_depth TRAX_IMAGE_MEMORY_RGB) with 1. change (memory_channels TRAX_IMAGE_MEMORY_RGB) with 3.
    assert (I1 : in_int (m_cols m * m_rows m) = true) by (apply in_int_of; unfold INT_MIN, INT_MAX; nia).
    assert (I2 : in_int (m_cols m * m_rows m * 1 * 3) = true) by (apply in_int_of; unfold INT_MIN, INT_MAX; nia).
    unfold int_result. rewrite I1. cbn [obind]. rewrite Z.mul_1_r in *. rewrite I1. cbn [obind]. rewrite I2. cbn [obind].
    change (_ || _) with true. cbv iota. rewrite (proj2 (Z.ltb_ge _ _)) by nia.
    replace (m_cols m * m_rows m * 3) with (m_rows m * m_cols m * 3) by ring. reflexivity. }
  destruct (store_bytes_ok (blk_new (Z.to_nat (m_rows m * m_cols m * 3))) 0 l) as (d & Ed & Ld & Hd); [lia| |].
  { unfold blk_new. rewrite repeat_length. rewrite Z2Nat.id by nia. lia. }
  assert (Dd : d = l).
  { unfold blk_new in Ld. rewrite repeat_length in Ld. apply (nth_ext d l None None); [lia|]. intros p Hp. rewrite Hd. cbn [Z.to_nat].
    rewrite (proj2 (Nat.leb_le 0 p)), (proj2 (Nat.ltb_lt p _)) by lia. cbn [andb]. f_equal. lia. }
  subst d. set (im := mkImage TRAX_IMAGE_MEMORY (m_cols m) (m_rows m) TRAX_IMAGE_MEMORY_RGB l).
  set (m1 := mkMat (m_rows m) (m_cols m) U8C3 l 0 (m_cols m * 3)).
  assert (M1 : mat_ok m1).
  { split; [exact Hr|]. split; [exact Hc|]. intros r c [Hr' Hc']. cbn [m_rows m_cols m_start m_step m_block m_kind channels m1] in *. rewrite Ll. nia. }
  destruct (bgr_to_rgb_ok m1 M1 eq_refl) as (l' & E' & Ll' & Hl').
  exists im, (mkMat (m_rows m) (m_cols m) U8C3 l' 0 (m_cols m * 3)). split.
  { unfold mat_to_image. rewrite K, Ec. cbn [obind]. unfold image_memory_row. cbn [i_type i_height i_format].
    rewrite Z.eqb_refl. rewrite (proj2 (Z.ltb_lt 0 (m_rows m)) Hr). change (0 <=? 0) with true. cbn [andb].
    change (memory_depth TRAX_IMAGE_MEMORY_RGB) with 1. change (memory_channels TRAX_IMAGE_MEMORY_RGB) with 3.
    change (int_result (1 * 3)) with (Ok 3). cbn [obind]. change (int_result (3 * 0)) with (Ok 0). cbn [obind]. rewrite E. cbn [obind i_data]. rewrite Ed. reflexivity. }
  split; [reflexivity|]. split; [exact Hl|]. split.
  { unfold image_to_mat. cbn [image_get_memory_header i_type im]. change (image_get_memory_header im) with (Ok (m_cols m, m_rows m, TRAX_IMAGE_MEMORY_RGB)).
    cbn [obind]. unfold image_memory_row. cbn [i_type i_height i_format im].
    rewrite Z.eqb_refl. rewrite (proj2 (Z.ltb_lt 0 (m_rows m)) Hr). change (0 <=? 0) with true. cbn [andb].
    change (memory_depth TRAX_IMAGE_MEMORY_RGB) with 1. change (memory_channels TRAX_IMAGE_MEMORY_RGB) with 3.
    change (int_result (1 * 3)) with (Ok 3). cbn [obind]. change (int_result (3 * 0)) with (Ok 0). cbn [obind]. cbv zeta.
    change (TRAX_IMAGE_MEMORY_RGB =? TRAX_IMAGE_MEMORY_RGB) with true. cbv iota.
    change (bgr_to_rgb _) with (bgr_to_rgb m1). rewrite E'. reflexivity. }
  split; [split; [reflexivity|split; [reflexivity|symmetry; exact K]]|].
  intros r c k H Hk. pose proof (Hl' r c k H Hk) as A. pose proof (Hl r c (2 - k) H ltac:(lia)) as B.
  unfold byte_at at 1. cbn [m_start m_step m_kind m_block channels].
  replace (0 + r * (m_cols m * 3) + c * 3 + k) with ((r * m_cols m + c) * 3 + k) by ring.
  unfold image_channel in A at 1. cbn [m_cols m1] in A. rewrite A.
  unfold byte_at at 1. cbn [m_start m_step m_kind m_block channels m1].
  replace (0 + r * (m_cols m * 3) + c * 3 + (2 - k)) with ((r * m_cols m + c) * 3 + (2 - k)) by ring.
  unfold image_channel in B at 1. rewrite B. f_equal. ring.
Qed.
Lemma gray_never_converts m : mat_ok m -> m_kind m = U8C1 \/ m_kind m = U16C1 -> in_int (m_rows m * m_cols m * 2) = true -> mat_to_image m = Ok None.
Proof.
  intros (Hr & Hc & _) K B. unfold in_int, INT_MIN, INT_MAX in B. apply andb_prop in B. destruct B as [B1 B2]. apply Z.leb_le in B1, B2.
  assert (I1 : in_int (m_cols m * m_rows m) = true) by (apply in_int_of; unfold INT_MIN, INT_MAX; nia).
  assert (I2 : in_int (m_cols m * m_rows m * 2) = true) by (apply in_int_of; unfold INT_MIN, INT_MAX; nia).
  unfold mat_to_image, image_create_memory, memory_size, int_result, bgr_to_rgb, image_memory_row.
  destruct K as [-> | ->].
  - change (memory_depth TRAX_IMAGE_MEMORY_GRAY8) with 1. change (memory_channels TRAX_IMAGE_MEMORY_GRAY8) with 1.
    change (_ || _) with true. cbv iota. do 4 (rewrite ?Z.mul_1_r, ?I1; cbn [obind]). rewrite (proj2 (Z.ltb_ge _ _)) by nia. cbn [obind i_type i_height i_format]. rewrite Z.eqb_refl.
    rewrite (proj2 (Z.ltb_lt 0 (m_rows m)) Hr). change (0 <=? 0) with true. cbn [andb]. vm_compute. reflexivity.
  - change (memory_depth TRAX_IMAGE_MEMORY_GRAY16) with 2. change (memory_channels TRAX_IMAGE_MEMORY_GRAY16) with 1.
    change (_ || _) with true. cbv iota. do 4 (rewrite ?Z.mul_1_r, ?I1, ?I2; cbn [obind]).
    rewrite (proj2 (Z.ltb_ge _ _)) by nia. cbn [obind i_type i_height i_format]. rewrite Z.eqb_refl.
    rewrite (proj2 (Z.ltb_lt 0 (m_rows m)) Hr). change (0 <=? 0) with true. cbn [andb]. vm_compute. reflexivity.
Qed.

(** ---- Masks ---- *)
Lemma mask_to_mat_ok y w h data : 0 < w -> 0 < h -> List.length data = Z.to_nat (w * h) -> 0 <= y -> in_int (w * (h + y)) = true ->
  exists m, region_to_mat (RMask 0 y w h data) = Ok (Some m) /\ m_rows m = h + y /\ m_cols m = w /\ m_kind m = U8C1 /\ mat_ok m /\ continuous m /\
    forall r c, inside m r c ->
      byte_at m r c 0 = if y <=? r then Some (nth (Z.to_nat ((r - y) * w + c)) data 0%N) else None.
Proof.
  intros Hw Hh Ld Hy B. unfold in_int, INT_MIN, INT_MAX in B. apply andb_prop in B. destruct B as [B1 B2]. apply Z.leb_le in B1, B2.
  assert (I : forall z, 0 <= z <= w * (h + y) -> in_int z = true) by (intros z Hz; apply in_int_of; unfold INT_MIN, INT_MAX; lia).
  unfold region_to_mat, int_result. rewrite (I (h + y)) by nia. cbn [obind]. rewrite Z.add_0_r. rewrite (I w) by nia. cbn [obind].
  unfold new_mat. rewrite !(proj2 (Z.ltb_ge _ _)) by lia. cbn [orb m_block element_size].
  set (P := fun (i : Z) (b : block N) => List.length b = Z.to_nat ((h + y) * w) /\
              forall p, nth p b None = if (Z.to_nat (y * w) <=? p)%nat && (p <? Z.to_nat ((y + i) * w))%nat
                                       then nth (p - Z.to_nat (y * w)) (map Some data) None else None).
  destruct (for_range_to P (fun i b => copy_mask_row 0 y w data i b) h (blk_new (Z.to_nat ((h + y) * w * 1)))) as (b & Eb & Lb & Pb).
  - intros i s Hi [Ls Ps]. unfold copy_mask_row, int_result. rewrite (I (w * i)) by nia. cbn [obind].
    destruct (load_bytes_ok (map Some data) (w * i) (Z.to_nat w)) as (l & El & Ll & Nl); [nia|rewrite map_length, Ld; rewrite !Z2Nat.id by nia; nia|].
    rewrite El. cbn [obind]. rewrite (I (i + y)) by nia. cbn [obind]. rewrite (I ((i + y) * w)) by nia. cbn [obind].
    rewrite Z.add_0_r. rewrite (I ((i + y) * w)) by nia. cbn [obind].
    destruct (store_bytes_ok s ((i + y) * w) l) as (b' & Eb' & Lb' & Nb'); [nia|rewrite Ll, Ls, !Z2Nat.id by nia; nia|].
    exists b'. split; [exact Eb'|]. split; [lia|]. intros p. rewrite Nb', Ll, Ps.
    assert (E1 : Z.to_nat ((i + y) * w) = (Z.to_nat (y * w) + Z.to_nat (w * i))%nat) by (rewrite <- Z2Nat.inj_add by nia; f_equal; ring).
    assert (E2 : Z.to_nat ((y + (i + 1)) * w) = (Z.to_nat (y * w) + Z.to_nat (w * i) + Z.to_nat w)%nat)
      by (rewrite <- !Z2Nat.inj_add by nia; f_equal; ring).
    assert (E3 : Z.to_nat ((y + i) * w) = (Z.to_nat (y * w) + Z.to_nat (w * i))%nat) by (rewrite <- Z2Nat.inj_add by nia; f_equal; ring).
    rewrite E1, E2, E3. clear E1 E2 E3. set (a := Z.to_nat (y * w)) in *. set (d := Z.to_nat (w * i)) in *. set (v := Z.to_nat w) in *.
    destruct (a + d <=? p)%nat eqn:Q1; [apply Nat.leb_le in Q1|apply Nat.leb_gt in Q1]; cbn [andb].
    + rewrite (proj2 (Nat.leb_le a p)) by lia. cbn [andb]. destruct (p <? a + d + v)%nat eqn:Q2; [apply Nat.ltb_lt in Q2|].
      * rewrite Nl by lia. f_equal. lia.
      * rewrite (proj2 (Nat.ltb_ge p (a + d))) by lia. reflexivity.
    + rewrite (proj2 (Nat.ltb_lt p (a + d))) by lia. rewrite (proj2 (Nat.ltb_lt p (a + d + v))) by lia. reflexivity.
  - split; [unfold blk_new; rewrite repeat_length; f_equal; ring|]. intros p. rewrite Z.add_0_r. unfold blk_new.
    replace (nth p (repeat None (Z.to_nat ((h + y) * w * 1))) None) with (None : option N) by (symmetry; apply nth_repeat).
    destruct (Z.to_nat (y * w) <=? p)%nat eqn:Q; [|reflexivity]. apply Nat.leb_le in Q. rewrite (proj2 (Nat.ltb_ge _ _)) by lia. reflexivity.
  - rewrite Eb. cbn [obind]. rewrite Z.max_r in Pb by lia. eexists. split; [reflexivity|]. cbn [m_rows m_cols m_kind].
    split; [reflexivity|]. split; [reflexivity|]. split; [reflexivity|].
    split; [split; [cbn [m_rows]; lia|split; [exact Hw|]]|].
    { intros r c [Hr Hc]. cbn [m_rows m_cols m_start m_step m_kind m_block channels] in *. rewrite Lb, Z2Nat.id by nia. nia. }
    split; [right; cbn; lia|]. intros r c [Hr Hc]. cbn [m_rows m_cols] in Hr, Hc. unfold byte_at. cbn [m_start m_step m_kind m_block channels].
    rewrite Pb. replace (0 + r * w + c * 1 + 0) with (r * w + c) by ring.
    rewrite (proj2 (Nat.ltb_lt _ _)) by (apply Z2Nat.inj_lt; nia). rewrite Bool.andb_true_r.
    destruct (y <=? r) eqn:Q; [apply Z.leb_le in Q|apply Z.leb_gt in Q].
    + rewrite (proj2 (Nat.leb_le _ _)) by (apply Z2Nat.inj_le; nia). rewrite <- Z2Nat.inj_sub by nia.
      replace (r * w + c - y * w) with ((r - y) * w + c) by ring.
      rewrite (nth_indep _ None (Some 0%N)) by (rewrite map_length, Ld; apply Z2Nat.inj_lt; nia). apply map_nth.
    + rewrite (proj2 (Nat.leb_gt _ _)); [reflexivity|]. apply Z2Nat.inj_lt; nia.
Qed.
Lemma mask_left_above x y w h data : 0 < w -> 0 < h -> List.length data = Z.to_nat (w * h) -> y * w + x < 0 -> 0 <= w + x -> 0 <= h + y ->
  in_int x = true -> in_int y = true -> region_to_mat (RMask x y w h data) = UB.
Proof.
  intros Hw Hh Ld Hi Hx Hy Ix Iy. unfold region_to_mat, int_result. destruct (in_int (h + y)); cbn [obind]; [|reflexivity].
  destruct (in_int (w + x)); cbn [obind]; [|reflexivity]. unfold new_mat. rewrite !(proj2 (Z.ltb_ge _ _)) by lia. cbn [orb m_block].
  assert (En : exists n, Z.to_nat h = S n) by (exists (Z.to_nat (h - 1)); lia). destruct En as [n ->]. cbn [for_range]. unfold copy_mask_row at 1, int_result.
  rewrite Z.mul_0_r, Z.add_0_l. change (in_int 0) with true. cbn [obind].
  destruct (load_bytes_ok (map Some data) 0 (Z.to_nat w)) as (l & El & Ll & Nl); [lia|rewrite map_length, Ld, !Z2Nat.id by nia; nia|].
  rewrite El. cbn [obind]. rewrite Iy. cbn [obind]. destruct (in_int (y * w)); cbn [obind]; [|reflexivity].
  destruct (in_int (y * w + x)); cbn [obind]; [|reflexivity]. unfold store_bytes. rewrite (proj2 (Z.leb_gt 0 (y * w + x)) Hi). reflexivity.
Qed.
Lemma mat_to_mask_ok m : mat_ok m -> continuous m -> m_kind m = U8C1 -> in_int (m_cols m * m_rows m) = true ->
  exists d, mat_to_region m = Ok (Some (m_cols m, m_rows m, d)) /\ List.length d = Z.to_nat (m_cols m * m_rows m) /\
    forall r c, inside m r c -> nth (Z.to_nat (r * m_cols m + c)) d None = byte_at m r c 0.
Proof.
  intros (Hr & Hc & Hi) Ct K B. unfold mat_to_region, create_mask, int_result. rewrite K. rewrite !(proj2 (Z.ltb_lt 0 _)) by lia. cbn [andb]. rewrite B. cbn [obind].
  destruct (Hi 0 0 ltac:(split; lia)) as [A1 _]. destruct (Hi (m_rows m - 1) (m_cols m - 1) ltac:(split; lia)) as [_ A2].
  rewrite K in A1, A2. cbn [channels] in A1, A2.
  assert (St : forall r, 0 <= r < m_rows m -> r * m_step m = r * m_cols m).
  { unfold continuous in Ct. rewrite K in Ct. cbn [channels] in Ct. intros r Hr'. destruct Ct as [Ct|Ct]; [assert (r = 0) by lia; subst r; ring|rewrite Ct; ring]. }
  rewrite (St (m_rows m - 1)) in A2 by lia.
  destruct (load_bytes_ok (m_block m) (m_start m) (Z.to_nat (m_cols m * m_rows m))) as (l & El & Ll & Nl); [lia|rewrite Z2Nat.id by nia; nia|].
  rewrite El. cbn [obind].
  destruct (store_bytes_ok (blk_new (Z.to_nat (m_cols m * m_rows m))) 0 l) as (d & Ed & Ld & Nd); [lia|unfold blk_new; rewrite repeat_length; lia|].
  rewrite Ed. cbn [obind]. exists d. split; [reflexivity|]. unfold blk_new in Ld. rewrite repeat_length in Ld. split; [exact Ld|].
  intros r c [Hr' Hc']. rewrite Nd. cbn [Z.to_nat].
  assert (Q : (Z.to_nat (r * m_cols m + c) < Z.to_nat (m_cols m * m_rows m))%nat) by (apply Z2Nat.inj_lt; nia).
  rewrite (proj2 (Nat.leb_le 0 _)), (proj2 (Nat.ltb_lt _ _)) by lia. cbn [andb]. rewrite Nat.sub_0_r, Nl by exact Q.
  unfold byte_at. rewrite K, (St r) by lia. cbn [channels]. f_equal. rewrite <- Z2Nat.inj_add by nia. f_equal. ring.
Qed.
Lemma mask_round_trip m : mat_ok m -> continuous m -> m_kind m = U8C1 -> in_int (m_cols m * m_rows m) = true ->
  (forall r c, inside m r c -> byte_at m r c 0 <> None) ->
  exists data m', mat_to_region m = Ok (Some (m_cols m, m_rows m, map Some data)) /\
    region_to_mat (RMask 0 0 (m_cols m) (m_rows m) data) = Ok (Some m') /\ same_size m' m /\
    forall r c, inside m r c -> byte_at m' r c 0 = byte_at m r c 0.
Proof.
  intros M Ct K B A. destruct (mat_to_mask_ok m M Ct K B) as (d & Ed & Ld & Nd). destruct M as (Hr & Hc & _).
  assert (D : exists data, d = map Some data).
  { exists (map (fun o : option N => match o with Some v => v | None => 0%N end) d). rewrite map_map.
    apply (nth_ext _ _ None None); [rewrite map_length; reflexivity|]. intros p Hp. rewrite Ld in Hp.
    set (g := fun o : option N => Some match o with Some v => v | None => 0%N end).
    rewrite (nth_indep (map g d) None (g None)) by (rewrite map_length; lia). rewrite map_nth.
    assert (Ip : inside m (Z.of_nat p / m_cols m) (Z.of_nat p mod m_cols m)).
    { pose proof (Z.mod_pos_bound (Z.of_nat p) (m_cols m) Hc). split; [split; [apply Z.div_pos; lia|apply Z.div_lt_upper_bound; lia]|lia]. }
    pose proof (Nd _ _ Ip) as E. specialize (A _ _ Ip). rewrite <- E in A.
    replace (Z.to_nat (Z.of_nat p / m_cols m * m_cols m + Z.of_nat p mod m_cols m)) with p in A
      by (rewrite (Z.mul_comm _ (m_cols m)), <- Z.div_mod by lia; lia).
    destruct (nth p d None); [reflexivity|congruence]. }
  destruct D as [data ->]. rewrite map_length in Ld.
  destruct (mask_to_mat_ok 0 (m_cols m) (m_rows m) data) as (m' & E' & R' & C' & K' & _ & _ & N'); [lia|lia|exact Ld|lia|rewrite Z.add_0_r; exact B|].
  rewrite Z.add_0_r in R'.
  exists data, m'. split; [exact Ed|]. split; [exact E'|]. split; [split; [exact R'|split; [exact C'|congruence]]|].
  intros r c [Hr' Hc']. rewrite N' by (split; lia). rewrite (proj2 (Z.leb_le 0 r)) by lia. rewrite Z.sub_0_r. rewrite <- Nd by (split; lia).
  rewrite (nth_indep _ None (Some 0%N)) by (rewrite map_length, Ld; apply Z2Nat.inj_lt; nia). rewrite map_nth. reflexivity.
Qed.

(** ---- Rectangles and points ---- *)
Lemma round_to_int_ok x : finite_float x -> Z.abs (units x) <= INT_MAX * 2 ^ 1074 -> exists z, round_to_int x = Ok z /\ nearest z x.
Proof.
  intros (V & Fx) H. destruct x as [s| | |s m e]; try destruct Fx.
  { exists 0. split; [reflexivity|]. unfold nearest. cbn [units]. rewrite Z.mul_0_l. change (2 * 0 <= 2 ^ SH). pose proof pow_SH_pos. lia. }
  assert (He : - SH <= e).
  { cbn in V. unfold bounded, canonical_mantissa in V. apply andb_prop in V as [V _]. apply Zeq_bool_eq in V.
    unfold SpecFloat.fexp, emin in V. unfold SH. lia. }
  unfold nearest. change units with fixed in *. cbn [fixed] in *. change (2 ^ 1074) with (2 ^ SH) in *. pose proof pow_SH_pos as P.
  pose proof (pow2_pos (e + SH) ltac:(lia)) as P1.
  assert (B : Z.pos m * 2 ^ (e + SH) <= INT_MAX * 2 ^ SH) by (destruct s; lia).
  assert (R : 0 <= round_int (Z.pos m) e <= INT_MAX /\ 2 * Z.abs (round_int (Z.pos m) e * 2 ^ SH - Z.pos m * 2 ^ (e + SH)) <= 2 ^ SH).
  { unfold round_int. destruct (0 <=? e) eqn:E; [apply Z.leb_le in E|apply Z.leb_gt in E].
    - assert (E2 : Z.pos m * 2 ^ e * 2 ^ SH = Z.pos m * 2 ^ (e + SH)) by (rewrite <- Z.mul_assoc, <- Z.pow_add_r by (unfold SH; lia); reflexivity).
      split; [split; [apply Z.mul_nonneg_nonneg; [lia|apply pow2_nonneg]|]|].
      + apply (Z.mul_le_mono_pos_r _ _ (2 ^ SH) P). rewrite E2. exact B.
      + rewrite E2, Z.sub_diag. cbn [Z.abs]. lia.
    - pose proof (pow2_pos (- e) ltac:(lia)) as P2. replace (1 - e) with (1 + - e) by ring. rewrite Z.pow_add_r by lia. change (2 ^ 1) with 2.
      assert (E3 : 2 ^ SH = 2 ^ (- e) * 2 ^ (e + SH)) by (rewrite <- (Z.pow_add_r 2 (- e)) by lia; f_equal; ring).
      assert (B2 : Z.pos m <= INT_MAX * 2 ^ (- e)).
      { apply (Z.mul_le_mono_pos_r _ _ (2 ^ (e + SH)) P1). rewrite <- Z.mul_assoc, <- E3. exact B. }
      rewrite E3. clear E3 B H V. set (u := 2 ^ (- e)) in *. set (t := 2 ^ (e + SH)) in *. assert (I : 0 <= INT_MAX) by (unfold INT_MAX; lia).
      clearbody u t. remember INT_MAX as M eqn:EM. clear EM. remember (Z.pos m) as n eqn:En. assert (Hn : 0 < n) by lia. clear En.
      pose proof (Z.div_mod (2 * n + u) (2 * u) ltac:(lia)) as D. pose proof (Z.mod_pos_bound (2 * n + u) (2 * u) ltac:(lia)) as D2.
      set (q := (2 * n + u) / (2 * u)) in *. set (w := (2 * n + u) mod (2 * u)) in *. clearbody q w.
      split; [split; [nia|nia]|]. replace (q * (u * t) - n * t) with ((q * u - n) * t) by ring. rewrite Z.abs_mul, (Z.abs_eq t) by lia.
      rewrite Z.mul_assoc. apply Z.mul_le_mono_nonneg_r; [lia|]. assert (2 * (q * u) = 2 * n + u - w) by lia. lia. }
  destruct R as [[R1 R2] R3]. set (v := round_int (Z.pos m) e) in *.
  assert (Rp : rep (fround (S754_finite s m e)) ((if s then -1 else 1) * v)).
  { cbn [fround]. fold v. apply round_dyadic_rep; [apply fmt_double|unfold SH; lia| |].
    - rewrite Z.add_0_l. reflexivity.
    - unfold INT_MAX in R2. destruct s; lia. }
  exists ((if s then -1 else 1) * v). split.
  - unfold round_to_int. apply rep_int; [exact Rp|]. apply in_int_of; unfold INT_MIN, INT_MAX in *; destruct s; lia.
  - clear - R3. set (U := 2 ^ SH) in *. set (t := Z.pos m * 2 ^ (e + SH)) in *. clearbody U t v. destruct s; [|rewrite !Z.mul_1_l; exact R3].
    replace (-1 * v * U - -1 * t) with (- (v * U - t)) by ring. rewrite Z.abs_opp. exact R3.
Qed.
Lemma rectangle_rounds legacy x y w h : (forall v, In v [x; y; w; h] -> finite_float v /\ Z.abs (units v) <= INT_MAX * 2 ^ 1074) ->
  exists a b c d, region_to_rect legacy (RRect x y w h) = Ok (a, b, c, d) /\ nearest a x /\ nearest b y /\ nearest c w /\ nearest d h.
Proof.
  intros H. unfold region_to_rect. cbn [convert obind].
  destruct (H x ltac:(cbn; tauto)) as [F1 B1]. destruct (H y ltac:(cbn; tauto)) as [F2 B2].
  destruct (H w ltac:(cbn; tauto)) as [F3 B3]. destruct (H h ltac:(cbn; tauto)) as [F4 B4].
  destruct (round_to_int_ok x F1 B1) as (a & Ea & Na). destruct (round_to_int_ok y F2 B2) as (b & Eb & Nb).
  destruct (round_to_int_ok w F3 B3) as (c & Ec & Nc). destruct (round_to_int_ok h F4 B4) as (d & Ed & Nd).
  rewrite Ea. cbn [obind]. rewrite Eb. cbn [obind]. rewrite Ec. cbn [obind]. rewrite Ed. cbn [obind].
  exists a, b, c, d. split; [reflexivity|]. split; [exact Na|]. split; [exact Nb|]. split; assumption.
Qed.
Lemma rep_round_to_int x z : rep x z -> Z.abs z <= 2 ^ 24 -> round_to_int x = Ok z.
Proof.
  intros R Hz. pose proof R as (F & E & V). unfold round_to_int. destruct x as [s| | |s m e]; try discriminate F.
  - cbn [fround]. apply rep_int; [exact R|]. apply in_int_of; unfold INT_MIN, INT_MAX; lia.
  - cbn [fexp fixed] in *. assert (He : - SH <= e) by (unfold SH; lia). pose proof pow_SH_pos as P. pose proof (pow2_pos (e + SH) ltac:(lia)) as P1.
    cbn [fround]. rewrite (round_int_exact m e (Z.abs z) He).
    + apply rep_int; [|apply in_int_of; unfold INT_MIN, INT_MAX; lia].
      apply round_dyadic_rep; [apply fmt_double|unfold SH; lia| |lia].
      rewrite Z.add_0_l. f_equal. set (a := 2 ^ SH) in *. set (b := 2 ^ (e + SH)) in *. clearbody a b. clear - P P1 V. destruct s; nia.
    + set (a := 2 ^ SH) in *. set (b := 2 ^ (e + SH)) in *. clearbody a b. clear - P P1 V. destruct s; nia.
Qed.
Lemma rect_round_trip legacy x y w h : (forall v, In v [x; y; w; h] -> Z.abs v <= 2 ^ 24) ->
  region_to_rect legacy (rect_to_region x y w h) = Ok (x, y, w, h).
Proof.
  intros H. unfold region_to_rect, rect_to_region. cbn [convert obind].
  assert (R : forall v, In v [x; y; w; h] -> round_to_int (float_of_int v) = Ok v).
  { intros v Hv. apply rep_round_to_int; [apply rep_float_of_int|]; exact (H v Hv). }
  rewrite !R by (cbn; tauto). reflexivity.
Qed.
Lemma gather_points {A} (l : list A) : forall before,
  gather (List.length l) (Z.of_nat (List.length before)) (fun i => match nth_error (before ++ l) (Z.to_nat i) with Some p => Ok [p] | None => UB end) = Ok l.
Proof.
  induction l as [|x l IH]; intros before; [reflexivity|]. cbn [List.length gather].
  rewrite Nat2Z.id, nth_error_app2, Nat.sub_diag by lia. cbn [nth_error obind].
  specialize (IH (before ++ [x])). rewrite app_length, <- app_assoc in IH. cbn [List.length app] in IH.
  replace (Z.of_nat (List.length before) + 1) with (Z.of_nat (List.length before + 1)) by lia. rewrite IH. reflexivity.
Qed.
Lemma points_round_trip legacy points : (2 < List.length points)%nat ->
  exists r, points_to_region points = Ok r /\ region_to_points legacy r = Ok points.
Proof.
  intros H. unfold points_to_region. rewrite (proj2 (Nat.ltb_lt 2 _) H).
  destruct (blk_write_list_end points (blk_new (List.length points)) []) as (b & E & Hb & _).
  { exists (blk_new (List.length points)). reflexivity. }
  { unfold blk_new. rewrite repeat_length. cbn [List.length]. lia. }
  cbn [List.length app] in E, Hb. rewrite E. cbn [obind]. rewrite (blk_read_holds points b Hb). cbn [obind].
  eexists. split; [reflexivity|]. unfold region_to_points. cbn [convert obind]. exact (gather_points points []).
Qed.
