(** Proofs about the Matlab conversions *)
From Coq Require Import Floats.SpecFloat.
From Verif Require Import CBase StrMap Props PropsSpec Buffer BufferProofs Num NumSpec NumProofs DecimalProofs PropsNum Region RegionGeom GeomProofs OverlapProofs
  Image Formats FormatsProofs Lists Matlab MatlabSpec.
Local Open Scope Z_scope.

(** ---- Loops that store ---- *)

Fixpoint puts {A} (l : list A) (ws : list (Z * A)) : outcome (list A) :=
  match ws with
  | [] => Ok l
  | (i, v) :: ws' => l' <- put l i v ;; puts l' ws'
  end.
Lemma puts_app {A} (ws1 ws2 : list (Z * A)) : forall l, puts l (ws1 ++ ws2) = (l' <- puts l ws1 ;; puts l' ws2).
Proof.
  induction ws1 as [|[i v] ws1 IH]; intros l; [reflexivity|].
  cbn [app puts]. destruct (put l i v) as [l'| | |]; cbn [obind]; [apply IH|reflexivity..].
Qed.
Fixpoint range (n : nat) (i : Z) : list Z := match n with O => [] | S n' => i :: range n' (i + 1) end.
Lemma range_in n : forall i x, In x (range n i) <-> i <= x < i + Z.of_nat n.
Proof.
  induction n as [|n IH]; intros i x; cbn [range In]; [lia|]. rewrite IH. lia.
Qed.
Lemma range_length n : forall i, List.length (range n i) = n.
Proof. induction n as [|n IH]; intros i; cbn [range List.length]; [reflexivity|]. now rewrite IH. Qed.
Lemma range_nth n : forall i k, (k < n)%nat -> nth_error (range n i) k = Some (i + Z.of_nat k).
Proof.
  induction n as [|n IH]; intros i k Hk; [lia|]. destruct k as [|k]; cbn [range nth_error]; [f_equal; lia|].
  rewrite IH by lia. f_equal. lia.
Qed.
Lemma for_range_puts {A} (body : Z -> list A -> outcome (list A)) (ws : Z -> list (Z * A)) (L : nat) n : forall i s,
  (forall j s, i <= j < i + Z.of_nat n -> List.length s = L -> body j s = puts s (ws j) /\
     forall s', puts s (ws j) = Ok s' -> List.length s' = L) ->
  List.length s = L ->
  for_range n i body s = puts s (flat_map ws (range n i)).
Proof.
  induction n as [|n IH]; intros i s H E; [reflexivity|].
  cbn [for_range range flat_map]. rewrite puts_app.
  destruct (H i s ltac:(lia) E) as [-> Hl]. destruct (puts s (ws i)) as [s'| | |] eqn:P; cbn [obind]; try reflexivity.
  apply IH; [|auto]. intros j s0 Hj. apply H. lia.
Qed.

Lemma set_cell_ok {A} (v : A) : forall l n, (n < List.length l)%nat ->
  exists l', set_cell l n v = Ok l' /\ List.length l' = List.length l /\ nth_error l' n = Some v /\
    forall k, k <> n -> nth_error l' k = nth_error l k.
Proof.
  induction l as [|y l IH]; intros n Hn; cbn [List.length] in Hn; [lia|].
  destruct n as [|n]; cbn [set_cell].
  - exists (v :: l). split; [reflexivity|]. split; [reflexivity|]. split; [reflexivity|]. intros [|k] Hk; [congruence|reflexivity].
  - destruct (IH n ltac:(lia)) as (l' & -> & L & X & K). cbn [obind]. exists (y :: l'). split; [reflexivity|].
    split; [cbn [List.length]; lia|]. split; [exact X|]. intros [|k] Hk; [reflexivity|]. cbn [nth_error]. apply K. lia.
Qed.
Lemma put_ok {A} (l : list A) i v : 0 <= i < Z.of_nat (List.length l) -> in_int i = true ->
  exists l', put l i v = Ok l' /\ List.length l' = List.length l /\ nth_error l' (Z.to_nat i) = Some v /\
    forall k, k <> Z.to_nat i -> nth_error l' k = nth_error l k.
Proof.
  intros Hi Hint. unfold put, int_result, put_cell. rewrite Hint. cbn [obind].
  replace (i <? 0) with false by lia. apply set_cell_ok. lia.
Qed.
Lemma put_length {A} (l : list A) i v l' : put l i v = Ok l' -> List.length l' = List.length l.
Proof.
  unfold put, int_result, put_cell. destruct (in_int i); cbn [obind]; [|discriminate].
  destruct (i <? 0); [discriminate|]. intros E. destruct (Nat.lt_ge_cases (Z.to_nat i) (List.length l)) as [Hl|Hl].
  - destruct (set_cell_ok v l _ Hl) as (l2 & E2 & L & _). congruence.
  - exfalso. revert E. generalize (Z.to_nat i) l' Hl. clear. induction l as [|y l IH]; intros n l' Hl E; [discriminate|].
    destruct n as [|n]; cbn [List.length] in Hl; [lia|]. cbn [set_cell] in E.
    destruct (set_cell l n v) as [a| | |] eqn:E2; cbn [obind] in E; try discriminate. apply (IH n a); [lia|exact E2].
Qed.
Lemma puts_length {A} (ws : list (Z * A)) : forall l l', puts l ws = Ok l' -> List.length l' = List.length l.
Proof.
  induction ws as [|[i v] ws IH]; intros l l' E; cbn [puts] in E; [congruence|].
  destruct (put l i v) as [l1| | |] eqn:P; cbn [obind] in E; try discriminate.
  rewrite (IH _ _ E). apply put_length in P. exact P.
Qed.
(** Stores with a value that only depends on the position *)
Lemma puts_ok {A} (g : Z -> A) (ws : list (Z * A)) : forall l,
  in_int (Z.of_nat (List.length l)) = true ->
  (forall i v, In (i, v) ws -> 0 <= i < Z.of_nat (List.length l) /\ v = g i) ->
  exists l', puts l ws = Ok l' /\ List.length l' = List.length l /\
    (forall i v, In (i, v) ws -> nth_error l' (Z.to_nat i) = Some (g i)) /\
    (forall n, (forall v, ~ In (Z.of_nat n, v) ws) -> nth_error l' n = nth_error l n).
Proof.
  induction ws as [|[i v] ws IH]; intros l Hl H.
  - exists l. cbn [puts]. split; [reflexivity|]. split; [reflexivity|]. split; [intros i v []|reflexivity].
  - destruct (H i v (or_introl eq_refl)) as [Hi Hv].
    assert (Hint : in_int i = true) by (unfold in_int, INT_MIN, INT_MAX in *; lia).
    destruct (put_ok l i v Hi Hint) as (l1 & P & L1 & X1 & K1).
    destruct (IH l1) as (l' & P' & L' & X' & K').
    { now rewrite L1. } { intros j w Hj. rewrite L1. apply H. now right. }
    exists l'. cbn [puts]. rewrite P. cbn [obind]. split; [exact P'|]. split; [lia|]. split.
    + intros j w [E|Hj].
      * injection E as <- <-. destruct (in_dec Z.eq_dec i (map fst ws)) as [D|D].
        -- apply in_map_iff in D as ([i' v'] & E & D). cbn [fst] in E. subst i'. apply (X' _ _ D).
        -- rewrite K'; [rewrite X1; now rewrite Hv|]. intros w D2. apply D. rewrite Z2Nat.id in D2 by lia.
           apply in_map_iff. exists (i, w). auto.
      * apply (X' _ _ Hj).
    + intros n Hn. rewrite K'; [|intros w D; apply (Hn w); now right].
      apply K1. intros ->. apply (Hn v). left. f_equal. lia.
Qed.
Lemma puts_full {A} (g : Z -> A) (ws : list (Z * A)) l n :
  List.length l = n -> in_int (Z.of_nat n) = true ->
  (forall i v, In (i, v) ws -> 0 <= i < Z.of_nat n /\ v = g i) ->
  (forall i, 0 <= i < Z.of_nat n -> exists v, In (i, v) ws) ->
  puts l ws = Ok (map g (range n 0)).
Proof.
  intros <- Hl H C. destruct (puts_ok g ws l Hl H) as (l' & -> & L & X & _). f_equal.
  apply nth_error_ext. intros k.
  destruct (Nat.lt_ge_cases k (List.length l)) as [Hk|Hk].
  - destruct (C (Z.of_nat k) ltac:(lia)) as [v Hv]. apply X in Hv. rewrite Nat2Z.id in Hv. rewrite Hv.
    rewrite nth_error_map, range_nth by exact Hk. reflexivity.
  - rewrite (proj2 (nth_error_None _ _)) by lia. symmetry. apply nth_error_None. rewrite map_length, range_length. lia.
Qed.
Lemma for2_puts {A} (body : Z -> Z -> list A -> outcome (list A)) (ws : Z -> Z -> list (Z * A)) n m s :
  (forall i j s, 0 <= i < n -> 0 <= j < m -> body i j s = puts s (ws i j)) ->
  for2 n m body s = puts s (flat_map (fun i => flat_map (ws i) (range (Z.to_nat m) 0)) (range (Z.to_nat n) 0)).
Proof.
  intros H. unfold for2. apply for_range_puts with (L := List.length s); [|reflexivity].
  intros i s1 Hi E1. split; [|intros s2 P; rewrite (puts_length _ _ _ P); exact E1].
  apply for_range_puts with (L := List.length s); [|exact E1].
  intros j s2 Hj E2. split; [apply H; lia|]. intros s3 P; rewrite (puts_length _ _ _ P); exact E2.
Qed.
Lemma in_writes {A} (ws : Z -> Z -> list (Z * A)) n m x :
  In x (flat_map (fun i => flat_map (ws i) (range (Z.to_nat m) 0)) (range (Z.to_nat n) 0)) <->
  exists i j, 0 <= i < n /\ 0 <= j < m /\ In x (ws i j).
Proof.
  rewrite in_flat_map. split.
  - intros (i & Hi & Hx). apply in_flat_map in Hx as (j & Hj & Hx). apply range_in in Hi, Hj. exists i, j. split; [lia|]. split; [lia|]. exact Hx.
  - intros (i & j & Hi & Hj & Hx). exists i. split; [apply range_in; lia|]. apply in_flat_map. exists j. split; [apply range_in; lia|]. exact Hx.
Qed.
Lemma for2_full {A} (g : Z -> A) (body : Z -> Z -> list A -> outcome (list A)) (ws : Z -> Z -> list (Z * A)) n m s N :
  List.length s = N -> in_int (Z.of_nat N) = true ->
  (forall i j s, 0 <= i < n -> 0 <= j < m -> body i j s = puts s (ws i j)) ->
  (forall i j p v, 0 <= i < n -> 0 <= j < m -> In (p, v) (ws i j) -> 0 <= p < Z.of_nat N /\ v = g p) ->
  (forall p, 0 <= p < Z.of_nat N -> exists i j v, 0 <= i < n /\ 0 <= j < m /\ In (p, v) (ws i j)) ->
  for2 n m body s = Ok (map g (range N 0)).
Proof.
  intros L Hi B F C. rewrite (for2_puts body ws n m s B). apply puts_full; [exact L|exact Hi| |].
  - intros p v Hp. apply in_writes in Hp as (i & j & H1 & H2 & H3). apply (F i j p v H1 H2 H3).
  - intros p Hp. destruct (C p Hp) as (i & j & v & H1 & H2 & H3). exists v. apply in_writes. exists i, j. auto.
Qed.

Lemma fetch_ok {A} (d : A) l i : 0 <= i < Z.of_nat (List.length l) -> in_int (Z.of_nat (List.length l)) = true ->
  fetch l i = Ok (nth (Z.to_nat i) l d).
Proof.
  intros Hi Hl. unfold fetch, int_result. replace (in_int i) with true by (unfold in_int, INT_MIN, INT_MAX in *; lia). cbn [obind].
  replace (0 <=? i) with true by lia. rewrite (nth_error_nth' l d) by lia. reflexivity.
Qed.
Lemma fetch8_ok bytes i : 0 <= i < Z.of_nat (List.length bytes) -> in_int (Z.of_nat (List.length bytes)) = true ->
  fetch8 (map Some bytes) i = Ok (nth (Z.to_nat i) bytes 0%N).
Proof.
  intros Hi Hl. unfold fetch8. rewrite (fetch_ok (Some 0%N)) by (rewrite map_length; assumption). cbn [obind].
  change (Some 0%N) with ((@Some N) 0%N). rewrite (map_nth (@Some N)). reflexivity.
Qed.

(** Rows and columns of a position *)
Lemma divmod_idx i j w : 0 <= i < w -> (i + j * w) / w = j /\ (i + j * w) mod w = i.
Proof.
  intros Hi. split.
  - rewrite Z.div_add by lia. rewrite Z.div_small by lia. lia.
  - rewrite Z.mod_add by lia. apply Z.mod_small. lia.
Qed.
Lemma idx_split p w h : 0 < w -> 0 <= p < w * h -> 0 <= p mod w < w /\ 0 <= p / w < h /\ p = p mod w + (p / w) * w.
Proof.
  intros Hw Hp. pose proof (Z.mod_pos_bound p w Hw). split; [lia|]. split.
  - split; [apply Z.div_pos; lia|]. apply Z.div_lt_upper_bound; lia.
  - rewrite (Z.div_mod p w) at 1 by lia. lia.
Qed.
Lemma idx_bound i j w h : 0 <= i < w -> 0 <= j < h -> 0 <= i + j * w < w * h.
Proof.
  intros Hi Hj. split; [nia|]. assert (j * w <= (h - 1) * w) by (apply Z.mul_le_mono_nonneg_r; lia). lia.
Qed.

(** ---- Images ---- *)

Lemma map_range_nth {A} (g : Z -> A) n k d : 0 <= k < Z.of_nat n -> nth (Z.to_nat k) (map g (range n 0)) d = g k.
Proof.
  intros Hk. apply nth_error_nth. rewrite nth_error_map, range_nth by lia. cbn [option_map]. do 2 f_equal. lia.
Qed.
Lemma map_range_eq {A} (g : Z -> A) (l : list A) d : (forall k, 0 <= k < Z.of_nat (List.length l) -> g k = nth (Z.to_nat k) l d) ->
  map g (range (List.length l) 0) = l.
Proof.
  intros H. apply nth_error_ext. intros k.
  destruct (Nat.lt_ge_cases k (List.length l)) as [Hk|Hk].
  - rewrite nth_error_map, range_nth by exact Hk. cbn [option_map]. rewrite H by lia. rewrite (nth_error_nth' l d) by exact Hk.
    do 3 f_equal. lia.
  - rewrite !(proj2 (nth_error_None _ _)); [reflexivity|lia|rewrite map_length, range_length; lia].
Qed.

(** Positions in the array and in the image: one plane *)
Definition to_arr (w h p : Z) : Z := p / w + h * (p mod w).
Definition to_img (w h q : Z) : Z := q / h + q mod h * w.
Lemma to_arr_at i j w h : 0 <= i < w -> to_arr w h (i + j * w) = j + h * i.
Proof. intros Hi. unfold to_arr. destruct (divmod_idx i j w Hi) as [-> ->]. reflexivity. Qed.
Lemma to_img_at i j w h : 0 <= j < h -> to_img w h (j + h * i) = i + j * w.
Proof. intros Hj. unfold to_img. rewrite (Z.mul_comm h i). destruct (divmod_idx j i h Hj) as [-> ->]. reflexivity. Qed.
Lemma to_arr_range w h p : 0 < w -> 0 <= p < w * h -> 0 <= to_arr w h p < w * h /\ to_img w h (to_arr w h p) = p.
Proof.
  intros Hw Hp. destruct (idx_split p w h Hw Hp) as (A & B & E). unfold to_arr. split.
  - pose proof (idx_bound (p / w) (p mod w) h w B A). lia.
  - rewrite to_img_at by exact B. lia.
Qed.
Lemma to_img_range w h q : 0 < h -> 0 <= q < w * h -> 0 <= to_img w h q < w * h /\ to_arr w h (to_img w h q) = q.
Proof.
  intros Hh Hq. destruct (idx_split q h w Hh ltac:(lia)) as (A & B & E). unfold to_img. split.
  - apply idx_bound; assumption.
  - rewrite to_arr_at by exact B. lia.
Qed.
(** Three planes *)
Definition to_arr3 (w h b : Z) : Z := (b / 3) / w + h * ((b / 3) mod w + b mod 3 * w).
Definition to_img3 (w h q : Z) : Z := 3 * ((q / h) mod w + q mod h * w) + (q / h) / w.
Lemma to_arr3_at i j k w h : 0 <= i < w -> 0 <= k < 3 -> to_arr3 w h (3 * (i + j * w) + k) = j + h * (i + k * w).
Proof.
  intros Hi Hk. unfold to_arr3. replace (3 * (i + j * w) + k) with (k + (i + j * w) * 3) by ring.
  destruct (divmod_idx k (i + j * w) 3 Hk) as [-> ->]. destruct (divmod_idx i j w Hi) as [-> ->]. reflexivity.
Qed.
Lemma to_img3_at i j k w h : 0 <= i < w -> 0 <= j < h -> to_img3 w h (j + h * (i + k * w)) = 3 * (i + j * w) + k.
Proof.
  intros Hi Hj. unfold to_img3. rewrite (Z.mul_comm h). destruct (divmod_idx j (i + k * w) h Hj) as [-> ->].
  destruct (divmod_idx i k w Hi) as [-> ->]. reflexivity.
Qed.
Lemma split3 w h b : 0 < w -> 0 <= b < 3 * (w * h) -> exists i j k, 0 <= i < w /\ 0 <= j < h /\ 0 <= k < 3 /\ b = 3 * (i + j * w) + k.
Proof.
  intros Hw Hb. destruct (idx_split b 3 (w * h) ltac:(lia) Hb) as (A & B & E). destruct (idx_split (b / 3) w h Hw B) as (C & D & F).
  exists ((b / 3) mod w), (b / 3 / w), (b mod 3). split; [exact C|]. split; [exact D|]. split; [exact A|]. rewrite <- F. lia.
Qed.
Lemma split3' w h q : 0 < w -> 0 < h -> 0 <= q < 3 * (w * h) ->
  exists i j k, 0 <= i < w /\ 0 <= j < h /\ 0 <= k < 3 /\ q = j + h * (i + k * w).
Proof.
  intros Hw Hh Hq. destruct (idx_split q h (3 * w) Hh) as (A & B & E); [split; [lia|]; replace (h * (3 * w)) with (3 * (w * h)) by ring; lia|].
  destruct (idx_split (q / h) w 3 Hw ltac:(lia)) as (C & D & F).
  exists ((q / h) mod w), (q mod h), (q / h / w). split; [exact C|]. split; [exact A|]. split; [exact D|]. rewrite <- F. lia.
Qed.
Lemma bound3 i j k w h : 0 <= i < w -> 0 <= j < h -> 0 <= k < 3 -> 0 <= 3 * (i + j * w) + k < 3 * (w * h).
Proof. intros Hi Hj Hk. pose proof (idx_bound i j w h Hi Hj). lia. Qed.
Lemma bound3' i j k w h : 0 <= i < w -> 0 <= j < h -> 0 <= k < 3 -> 0 <= j + h * (i + k * w) < 3 * (w * h).
Proof.
  intros Hi Hj Hk. pose proof (idx_bound i k w 3 Hi Hk) as B. pose proof (idx_bound j (i + k * w) h (w * 3) Hj B).
  replace (3 * (w * h)) with (h * (w * 3)) by ring. lia.
Qed.

Lemma int_le a b : in_int b = true -> 0 <= a <= b -> in_int a = true.
Proof. unfold in_int, INT_MIN, INT_MAX. lia. Qed.
Lemma create_ok w h format n : 0 < w -> 0 < h ->
  (format = 1 /\ n = w * h) \/ (format = 2 /\ n = 2 * (w * h)) \/ (format = 3 /\ n = 3 * (w * h)) ->
  in_int n = true -> image_create_memory w h format = Ok (mkImage TRAX_IMAGE_MEMORY w h format (blk_new (Z.to_nat n))).
Proof.
  intros Hw Hh F Hn. assert (P : 0 < w * h) by (apply Z.mul_pos_pos; assumption).
  assert (M : memory_size w h format = Ok n).
  { unfold memory_size, int_result. destruct F as [[-> ->]|[[-> ->]|[-> ->]]]; rewrite (int_le (w * h) _ Hn) by lia; cbn [obind].
    - change (memory_depth 1) with 1. change (memory_channels 1) with 1. rewrite !Z.mul_1_r, Hn. cbn [obind]. now rewrite Z.mul_1_r, Hn.
    - change (memory_depth 2) with 2. change (memory_channels 2) with 1. rewrite (Z.mul_comm (w * h) 2), Hn. cbn [obind]. now rewrite Z.mul_1_r, Hn.
    - change (memory_depth 3) with 1. change (memory_channels 3) with 3. rewrite !Z.mul_1_r, (int_le (w * h) _ Hn) by lia. cbn [obind].
      now rewrite (Z.mul_comm (w * h) 3), Hn. }
  unfold image_create_memory. rewrite M. cbn [obind]. assert (N : n <? 0 = false) by (destruct F as [[_ ->]|[[_ ->]|[_ ->]]]; lia). rewrite N.
  destruct F as [[-> _]|[[-> _]|[-> _]]]; reflexivity.
Qed.
Lemma row0 w h format d : 0 < h -> format = 1 \/ format = 2 \/ format = 3 -> image_memory_row (mkImage TRAX_IMAGE_MEMORY w h format d) 0 = Ok 0.
Proof.
  intros Hh F. unfold image_memory_row. cbn [i_type i_height i_format].
  change (TRAX_IMAGE_MEMORY =? TRAX_IMAGE_MEMORY) with true. replace ((0 <=? 0) && (0 <? h)) with true by lia.
  destruct F as [->|[->| ->]]; reflexivity.
Qed.
Lemma put8_one b e v : put8 b e v = puts b [(e, Some v)].
Proof. unfold put8. cbn [puts]. destruct (put b e (Some v)); reflexivity. Qed.
Lemma put_one {A} (b : list A) e v : put b e v = puts b [(e, v)].
Proof. cbn [puts]. destruct (put b e v); reflexivity. Qed.

Lemma gray8_in h w data : 0 < h -> 0 < w -> in_int (w * h) = true -> List.length data = Z.to_nat (w * h) ->
  array_to_image (MU8 [h; w] data) =
  done (mkImage TRAX_IMAGE_MEMORY w h 1 (map (fun p => Some (nth (Z.to_nat (to_arr w h p)) data 0%N)) (range (Z.to_nat (w * h)) 0))).
Proof.
  intros Hh Hw Hi L. assert (P : 0 < w * h) by (apply Z.mul_pos_pos; assumption).
  cbn [array_to_image]. unfold fill_image. change TRAX_IMAGE_MEMORY_GRAY8 with 1.
  rewrite (create_ok w h 1 (w * h)) by auto. cbn [obind]. rewrite row0 by auto. cbn [obind i_data].
  rewrite (for2_full (fun p => Some (nth (Z.to_nat (to_arr w h p)) data 0%N)) _
             (fun i j => [(i + j * w, Some (nth (Z.to_nat (j + h * i)) data 0%N))]) w h _ (Z.to_nat (w * h))).
  - reflexivity.
  - apply repeat_length.
  - rewrite Z2Nat.id by lia. exact Hi.
  - intros i j s Hi' Hj. unfold array_to_gray8. pose proof (idx_bound j i h w Hj Hi').
    rewrite (fetch_ok 0%N) by (rewrite L, Z2Nat.id by lia; first [exact Hi|lia]). cbn [obind]. rewrite Z.add_0_l. apply put8_one.
  - intros i j p v Hi' Hj [E|[]]. apply pair_equal_spec in E as [E1 E2]. pose proof (idx_bound i j w h Hi' Hj).
    rewrite Z2Nat.id by lia. split; [lia|]. rewrite <- E1, <- E2, to_arr_at by exact Hi'. reflexivity.
  - intros p Hp. rewrite Z2Nat.id in Hp by lia. destruct (idx_split p w h Hw Hp) as (A & B & E).
    exists (p mod w), (p / w). eexists. split; [exact A|]. split; [exact B|]. left. rewrite <- E. reflexivity.
Qed.
Lemma zeros_length d : List.length (zeros d) = Z.to_nat (fold_right Z.mul 1 d).
Proof. apply repeat_length. Qed.
Lemma gray8_out h w bytes : 0 < h -> 0 < w -> in_int (w * h) = true -> List.length bytes = Z.to_nat (w * h) ->
  image_to_array (Some (mkImage TRAX_IMAGE_MEMORY w h 1 (map Some bytes))) =
  Ok (Some (MU8 [h; w] (map (fun q => nth (Z.to_nat (to_img w h q)) bytes 0%N) (range (Z.to_nat (w * h)) 0)))).
Proof.
  intros Hh Hw Hi L. assert (P : 0 < w * h) by (apply Z.mul_pos_pos; assumption).
  unfold image_to_array, memory_to_array, image_get_memory_header. cbn [i_type i_width i_height i_format i_data].
  change (TRAX_IMAGE_MEMORY =? TRAX_IMAGE_PATH) with false. change (TRAX_IMAGE_MEMORY =? TRAX_IMAGE_URL) with false.
  change (TRAX_IMAGE_MEMORY =? TRAX_IMAGE_MEMORY) with true. cbn [obind]. change (1 =? TRAX_IMAGE_MEMORY_GRAY8) with true. cbn match.
  rewrite row0 by auto. cbn [obind].
  rewrite (for2_full (fun q => nth (Z.to_nat (to_img w h q)) bytes 0%N) _
             (fun i j => [(j + h * i, nth (Z.to_nat (i + j * w)) bytes 0%N)]) w h _ (Z.to_nat (w * h))).
  - reflexivity.
  - rewrite zeros_length. cbn [fold_right]. f_equal. ring.
  - rewrite Z2Nat.id by lia. exact Hi.
  - intros i j s Hi' Hj. unfold gray8_to_array. pose proof (idx_bound i j w h Hi' Hj). rewrite Z.add_0_l.
    rewrite fetch8_ok by (rewrite L, Z2Nat.id by lia; first [exact Hi|lia]). cbn [obind]. apply put_one.
  - intros i j p v Hi' Hj [E|[]]. apply pair_equal_spec in E as [E1 E2]. pose proof (idx_bound j i h w Hj Hi').
    rewrite Z2Nat.id by lia. split; [lia|]. rewrite <- E1, <- E2, to_img_at by exact Hj. reflexivity.
  - intros p Hp. rewrite Z2Nat.id in Hp by lia. destruct (idx_split p h w Hh ltac:(lia)) as (A & B & E).
    exists (p / h), (p mod h). eexists. split; [exact B|]. split; [exact A|]. left. rewrite (Z.mul_comm h), <- E. reflexivity.
Qed.

Definition byte16 (w h : Z) (data : list N) (b : Z) : option N :=
  let v := nth (Z.to_nat (to_arr w h (b / 2))) data 0%N in Some (if b mod 2 =? 0 then (v mod 256)%N else (v / 256)%N).
Lemma put16_two b e v : put16 b e v = puts b [(2 * e, Some (v mod 256)%N); (2 * e + 1, Some (v / 256)%N)].
Proof.
  unfold put16, put8. cbn [puts]. destruct (put b (2 * e) (Some (v mod 256)%N)) as [b1| | |]; cbn [obind]; try reflexivity.
  destruct (put b1 (2 * e + 1) (Some (v / 256)%N)); reflexivity.
Qed.
Lemma gray16_in h w data : 0 < h -> 0 < w -> in_int (2 * (w * h)) = true -> List.length data = Z.to_nat (w * h) ->
  array_to_image (MU16 [h; w] data) =
  done (mkImage TRAX_IMAGE_MEMORY w h 2 (map (byte16 w h data) (range (Z.to_nat (2 * (w * h))) 0))).
Proof.
  intros Hh Hw Hi L. assert (P : 0 < w * h) by (apply Z.mul_pos_pos; assumption).
  cbn [array_to_image]. unfold fill_image. change TRAX_IMAGE_MEMORY_GRAY16 with 2.
  rewrite (create_ok w h 2 (2 * (w * h))) by auto. cbn [obind]. rewrite row0 by auto. cbn [obind i_data].
  rewrite (for2_full (byte16 w h data) _
             (fun i j => [(2 * (i + j * w), Some (nth (Z.to_nat (j + h * i)) data 0 mod 256)%N);
                          (2 * (i + j * w) + 1, Some (nth (Z.to_nat (j + h * i)) data 0 / 256)%N)]) w h _ (Z.to_nat (2 * (w * h)))).
  - reflexivity.
  - apply repeat_length.
  - rewrite Z2Nat.id by lia. exact Hi.
  - intros i j s Hi' Hj. unfold array_to_gray16. pose proof (idx_bound j i h w Hj Hi').
    rewrite (fetch_ok 0%N) by (rewrite L, Z2Nat.id by lia; first [apply (int_le _ _ Hi); lia|lia]). cbn [obind]. rewrite Z.add_0_l. apply put16_two.
  - intros i j p v Hi' Hj HI. pose proof (idx_bound i j w h Hi' Hj). rewrite Z2Nat.id by lia. unfold byte16.
    destruct HI as [E|[E|[]]]; apply pair_equal_spec in E as [E1 E2]; (split; [lia|]).
    + replace (p / 2) with (i + j * w) by lia. replace (p mod 2 =? 0) with true by lia. rewrite to_arr_at by exact Hi'. now rewrite <- E2.
    + replace (p / 2) with (i + j * w) by lia. replace (p mod 2 =? 0) with false by lia. rewrite to_arr_at by exact Hi'. now rewrite <- E2.
  - intros p Hp. rewrite Z2Nat.id in Hp by lia. destruct (idx_split (p / 2) w h Hw ltac:(lia)) as (A & B & E).
    exists (p / 2 mod w), (p / 2 / w). destruct (Z.eq_dec (p mod 2) 0) as [D|D]; eexists; (split; [exact A|]); (split; [exact B|]).
    + left. rewrite <- E. replace (2 * (p / 2)) with p by lia. reflexivity.
    + right. left. rewrite <- E. replace (2 * (p / 2) + 1) with p by lia. reflexivity.
Qed.
Lemma gray16_out h w bytes : 0 < h -> 0 < w -> in_int (2 * (w * h)) = true -> List.length bytes = Z.to_nat (2 * (w * h)) ->
  image_to_array (Some (mkImage TRAX_IMAGE_MEMORY w h 2 (map Some bytes))) =
  Ok (Some (MU16 [h; w] (map (fun q => nth (Z.to_nat (2 * to_img w h q)) bytes 0 + 256 * nth (Z.to_nat (2 * to_img w h q + 1)) bytes 0)%N
                          (range (Z.to_nat (w * h)) 0)))).
Proof.
  intros Hh Hw Hi L. assert (P : 0 < w * h) by (apply Z.mul_pos_pos; assumption).
  unfold image_to_array, memory_to_array, image_get_memory_header. cbn [i_type i_width i_height i_format i_data].
  change (TRAX_IMAGE_MEMORY =? TRAX_IMAGE_PATH) with false. change (TRAX_IMAGE_MEMORY =? TRAX_IMAGE_URL) with false.
  change (TRAX_IMAGE_MEMORY =? TRAX_IMAGE_MEMORY) with true. cbn [obind]. change (2 =? TRAX_IMAGE_MEMORY_GRAY8) with false.
  change (2 =? TRAX_IMAGE_MEMORY_GRAY16) with true. cbn match.
  rewrite row0 by auto. cbn [obind].
  rewrite (for2_full (fun q => nth (Z.to_nat (2 * to_img w h q)) bytes 0 + 256 * nth (Z.to_nat (2 * to_img w h q + 1)) bytes 0)%N _
             (fun i j => [(j + h * i, (nth (Z.to_nat (2 * (i + j * w))) bytes 0 + 256 * nth (Z.to_nat (2 * (i + j * w) + 1)) bytes 0)%N)]) w h _
             (Z.to_nat (w * h))).
  - reflexivity.
  - rewrite zeros_length. cbn [fold_right]. f_equal. ring.
  - rewrite Z2Nat.id by lia. apply (int_le _ _ Hi). lia.
  - intros i j s Hi' Hj. unfold gray16_to_array, fetch16. pose proof (idx_bound i j w h Hi' Hj). rewrite Z.add_0_l.
    rewrite !fetch8_ok by (rewrite L, Z2Nat.id by lia; first [exact Hi|lia]). cbn [obind]. apply put_one.
  - intros i j p v Hi' Hj [E|[]]. apply pair_equal_spec in E as [E1 E2]. pose proof (idx_bound j i h w Hj Hi').
    rewrite Z2Nat.id by lia. split; [lia|]. rewrite <- E1, <- E2, to_img_at by exact Hj. reflexivity.
  - intros p Hp. rewrite Z2Nat.id in Hp by lia. destruct (idx_split p h w Hh ltac:(lia)) as (A & B & E).
    exists (p / h), (p mod h). eexists. split; [exact B|]. split; [exact A|]. left. rewrite (Z.mul_comm h), <- E. reflexivity.
Qed.

Lemma three_puts {A} (body : Z -> list A -> outcome (list A)) (ws : Z -> Z * A) s :
  (forall k s, 0 <= k < 3 -> body k s = puts s [ws k]) -> for_range 3 0 body s = puts s [ws 0; ws 1; ws 2].
Proof.
  intros H. rewrite (for_range_puts body (fun k => [ws k]) (List.length s)); [reflexivity| |reflexivity].
  intros k s1 Hk E. split; [apply H; lia|]. intros s2 P. rewrite (puts_length _ _ _ P). exact E.
Qed.
Lemma in_three {A} (f : Z -> A) x : In x [f 0; f 1; f 2] <-> exists k, 0 <= k < 3 /\ x = f k.
Proof.
  split.
  - intros [E|[E|[E|[]]]]; [exists 0|exists 1|exists 2]; split; [lia|now symmetry|lia|now symmetry|lia|now symmetry].
  - intros (k & Hk & ->). assert (C : k = 0 \/ k = 1 \/ k = 2) by lia. destruct C as [->|[->| ->]]; cbn [In]; auto.
Qed.
Lemma rgb_in h w data : 0 < h -> 0 < w -> in_int (3 * (w * h)) = true -> List.length data = Z.to_nat (3 * (w * h)) ->
  array_to_image (MU8 [h; w; 3] data) =
  done (mkImage TRAX_IMAGE_MEMORY w h 3 (map (fun b => Some (nth (Z.to_nat (to_arr3 w h b)) data 0%N)) (range (Z.to_nat (3 * (w * h))) 0))).
Proof.
  intros Hh Hw Hi L. assert (P : 0 < w * h) by (apply Z.mul_pos_pos; assumption).
  cbn [array_to_image]. change (negb ((3 =? 1) || (3 =? 3))) with false. change (3 =? 3) with true. cbn match.
  unfold fill_image. change TRAX_IMAGE_MEMORY_RGB with 3.
  rewrite (create_ok w h 3 (3 * (w * h))) by auto. cbn [obind]. rewrite row0 by auto. cbn [obind i_data].
  set (ws := fun i j k => (3 * (i + j * w) + k, Some (nth (Z.to_nat (j + h * (i + k * w))) data 0%N))).
  rewrite (for2_full (fun b => Some (nth (Z.to_nat (to_arr3 w h b)) data 0%N)) _
             (fun i j => [ws i j 0; ws i j 1; ws i j 2]) w h _ (Z.to_nat (3 * (w * h)))).
  - reflexivity.
  - apply repeat_length.
  - rewrite Z2Nat.id by lia. exact Hi.
  - intros i j s Hi' Hj. unfold array_to_rgb. apply three_puts. intros k s1 Hk. pose proof (bound3' i j k w h Hi' Hj Hk).
    rewrite (fetch_ok 0%N) by (rewrite L, Z2Nat.id by lia; first [exact Hi|lia]). cbn [obind]. rewrite Z.add_0_l. apply put8_one.
  - intros i j p v Hi' Hj HI. apply in_three in HI as (k & Hk & E). unfold ws in E. apply pair_equal_spec in E as [-> ->]. pose proof (bound3 i j k w h Hi' Hj Hk).
    rewrite Z2Nat.id by lia. split; [lia|]. now rewrite to_arr3_at.
  - intros p Hp. rewrite Z2Nat.id in Hp by lia. destruct (split3 w h p Hw Hp) as (i & j & k & A & B & C & E).
    exists i, j. eexists. split; [exact A|]. split; [exact B|]. apply in_three. exists k. split; [exact C|]. unfold ws. rewrite <- E. reflexivity.
Qed.
Lemma rgb_out h w bytes : 0 < h -> 0 < w -> in_int (3 * (w * h)) = true -> List.length bytes = Z.to_nat (3 * (w * h)) ->
  image_to_array (Some (mkImage TRAX_IMAGE_MEMORY w h 3 (map Some bytes))) =
  Ok (Some (MU8 [h; w; 3] (map (fun q => nth (Z.to_nat (to_img3 w h q)) bytes 0%N) (range (Z.to_nat (3 * (w * h))) 0)))).
Proof.
  intros Hh Hw Hi L. assert (P : 0 < w * h) by (apply Z.mul_pos_pos; assumption).
  unfold image_to_array, memory_to_array, image_get_memory_header. cbn [i_type i_width i_height i_format i_data].
  change (TRAX_IMAGE_MEMORY =? TRAX_IMAGE_PATH) with false. change (TRAX_IMAGE_MEMORY =? TRAX_IMAGE_URL) with false.
  change (TRAX_IMAGE_MEMORY =? TRAX_IMAGE_MEMORY) with true. cbn [obind]. change (3 =? TRAX_IMAGE_MEMORY_GRAY8) with false.
  change (3 =? TRAX_IMAGE_MEMORY_GRAY16) with false. cbn match.
  rewrite row0 by auto. cbn [obind].
  set (ws := fun i j k => (j + h * (i + k * w), nth (Z.to_nat (3 * (i + j * w) + k)) bytes 0%N)).
  rewrite (for2_full (fun q => nth (Z.to_nat (to_img3 w h q)) bytes 0%N) _
             (fun i j => [ws i j 0; ws i j 1; ws i j 2]) w h _ (Z.to_nat (3 * (w * h)))).
  - reflexivity.
  - rewrite zeros_length. cbn [fold_right]. f_equal. ring.
  - rewrite Z2Nat.id by lia. exact Hi.
  - intros i j s Hi' Hj. unfold rgb_to_array. apply three_puts. intros k s1 Hk. pose proof (bound3 i j k w h Hi' Hj Hk). rewrite Z.add_0_l.
    rewrite fetch8_ok by (rewrite L, Z2Nat.id by lia; first [exact Hi|lia]). cbn [obind]. apply put_one.
  - intros i j p v Hi' Hj HI. apply in_three in HI as (k & Hk & E). unfold ws in E. apply pair_equal_spec in E as [-> ->]. pose proof (bound3' i j k w h Hi' Hj Hk).
    rewrite Z2Nat.id by lia. split; [lia|]. now rewrite to_img3_at.
  - intros p Hp. rewrite Z2Nat.id in Hp by lia. destruct (split3' w h p Hw Hh Hp) as (i & j & k & A & B & C & E).
    exists i, j. eexists. split; [exact A|]. split; [exact B|]. apply in_three. exists k. split; [exact C|]. unfold ws. rewrite <- E. reflexivity.
Qed.

Lemma map_some_range {A} (g : Z -> A) l : map (fun p => Some (g p)) l = map Some (map g l).
Proof. symmetry. apply map_map. Qed.

Lemma array_round_trip a : image_array a ->
  exists im, array_to_image a = done im /\ same_picture im a /\ image_to_array (Some im) = Ok (Some a).
Proof.
  intros [h w data Hh Hw Hi L|h w data Hh Hw Hi L V|h w data Hh Hw Hi L]; assert (P : 0 < w * h) by (apply Z.mul_pos_pos; assumption).
  - eexists. split; [apply gray8_in; assumption|]. split.
    + cbn [same_picture i_width i_height i_format i_data]. split; [reflexivity|]. split; [reflexivity|]. split; [reflexivity|].
      intros x y Hx Hy. unfold image_byte, element. replace ((y * w + x) * 1 + 0) with (x + y * w) by ring.
      pose proof (idx_bound x y w h Hx Hy). rewrite map_range_nth by (rewrite Z2Nat.id; lia). rewrite to_arr_at by exact Hx. do 3 f_equal. ring.
    + rewrite map_some_range. rewrite gray8_out; try assumption; [|now rewrite map_length, range_length].
      do 3 f_equal. rewrite <- L at 1. apply (map_range_eq _ _ 0%N). intros q Hq. rewrite L, Z2Nat.id in Hq by lia.
      destruct (to_img_range w h q Hh Hq) as [B E]. rewrite map_range_nth by (rewrite Z2Nat.id; lia). now rewrite E.
  - eexists. split; [apply gray16_in; assumption|]. split.
    + cbn [same_picture i_width i_height i_format i_data]. split; [reflexivity|]. split; [reflexivity|]. split; [reflexivity|].
      intros x y Hx Hy. unfold image_byte, element. pose proof (idx_bound x y w h Hx Hy).
      rewrite !map_range_nth by (rewrite Z2Nat.id; lia). unfold byte16.
      replace (((y * w + x) * 2 + 0) / 2) with (x + y * w) by lia. replace (((y * w + x) * 2 + 1) / 2) with (x + y * w) by lia.
      replace (((y * w + x) * 2 + 0) mod 2 =? 0) with true by lia. replace (((y * w + x) * 2 + 1) mod 2 =? 0) with false by lia.
      rewrite to_arr_at by exact Hx. eexists _, _. split; [reflexivity|]. split; [reflexivity|].
      replace (y + h * (x + w * 0)) with (y + h * x) by ring. rewrite N.add_comm. apply N.div_mod'.
    + unfold byte16. rewrite map_some_range. rewrite gray16_out; try assumption; [|now rewrite map_length, range_length].
      do 3 f_equal. rewrite <- L at 1. apply (map_range_eq _ _ 0%N). intros q Hq. rewrite L, Z2Nat.id in Hq by lia.
      destruct (to_img_range w h q Hh Hq) as [B E]. rewrite !map_range_nth by (rewrite Z2Nat.id; lia).
      replace (2 * to_img w h q / 2) with (to_img w h q) by lia. replace ((2 * to_img w h q + 1) / 2) with (to_img w h q) by lia.
      replace (2 * to_img w h q mod 2 =? 0) with true by lia. replace ((2 * to_img w h q + 1) mod 2 =? 0) with false by lia.
      rewrite E. rewrite N.add_comm. symmetry. apply N.div_mod'.
  - eexists. split; [apply rgb_in; assumption|]. split.
    + cbn [same_picture i_width i_height i_format i_data]. split; [reflexivity|]. split; [reflexivity|]. split; [reflexivity|].
      intros x y k Hx Hy Hk. unfold image_byte, element. pose proof (bound3 x y k w h Hx Hy Hk).
      replace ((y * w + x) * 3 + k) with (3 * (x + y * w) + k) by ring.
      rewrite map_range_nth by (rewrite Z2Nat.id; lia). rewrite to_arr3_at by assumption. do 3 f_equal. ring.
    + rewrite map_some_range. rewrite rgb_out; try assumption; [|now rewrite map_length, range_length].
      do 3 f_equal. rewrite <- L at 1. apply (map_range_eq _ _ 0%N). intros q Hq. rewrite L, Z2Nat.id in Hq by lia.
      destruct (split3' w h q Hw Hh Hq) as (i & j & k & A & B & C & E). pose proof (bound3 i j k w h A B C).
      rewrite E, to_img3_at by assumption. rewrite map_range_nth by (rewrite Z2Nat.id; lia). now rewrite to_arr3_at.
Qed.
Lemma memory_round_trip im : memory_image im ->
  exists a, image_to_array (Some im) = Ok (Some a) /\ same_picture im a /\ array_to_image a = done im.
Proof.
  destruct im as [t w h f d]. unfold memory_image. cbn [i_type i_format i_width i_height i_data].
  intros (-> & F & Hw & Hh & Hi & bytes & -> & L & V). assert (P : 0 < w * h) by (apply Z.mul_pos_pos; assumption).
  change 4 with TRAX_IMAGE_MEMORY. destruct F as [->|[->| ->]]; unfold pixel_bytes in *;
    [change (1 =? 1) with true in *|change (2 =? 1) with false in *; change (2 =? 2) with true in *|
     change (3 =? 1) with false in *; change (3 =? 2) with false in *]; cbn match in *.
  - rewrite !Z.mul_1_l in *. assert (L' : List.length bytes = Z.to_nat (w * h)) by lia.
    eexists. split; [apply gray8_out; assumption|]. split.
    + cbn [same_picture i_width i_height i_format i_data]. split; [reflexivity|]. split; [reflexivity|]. split; [reflexivity|].
      intros x y Hx Hy. unfold image_byte, element. replace ((y * w + x) * 1 + 0) with (x + y * w) by ring.
      pose proof (idx_bound x y w h Hx Hy). pose proof (idx_bound y x h w Hy Hx).
      replace (y + h * (x + w * 0)) with (y + h * x) by ring.
      rewrite map_range_nth by (rewrite Z2Nat.id; lia). rewrite to_img_at by exact Hy.
      rewrite (nth_indep _ None (Some 0%N)) by (rewrite map_length; lia). apply (map_nth Some).
    + rewrite gray8_in; try assumption; [|now rewrite map_length, range_length]. unfold done. do 3 f_equal.
      rewrite map_some_range. f_equal. rewrite <- L' at 1. apply (map_range_eq _ _ 0%N). intros q Hq.
      destruct (to_arr_range w h q Hw ltac:(lia)) as [B E]. rewrite map_range_nth by (rewrite Z2Nat.id; lia). now rewrite E.
  - assert (L' : List.length bytes = Z.to_nat (2 * (w * h))) by lia.
    eexists. split; [apply gray16_out; assumption|]. split.
    + cbn [same_picture i_width i_height i_format i_data]. split; [reflexivity|]. split; [reflexivity|]. split; [reflexivity|].
      intros x y Hx Hy. unfold image_byte, element. pose proof (idx_bound x y w h Hx Hy). pose proof (idx_bound y x h w Hy Hx).
      replace (y + h * (x + w * 0)) with (y + h * x) by ring.
      rewrite !map_range_nth by (rewrite Z2Nat.id; lia). rewrite to_img_at by exact Hy.
      rewrite !(nth_indep _ None (Some 0%N)) by (rewrite map_length; lia). rewrite !(map_nth (@Some N)).
      eexists _, _. split; [reflexivity|]. split; [reflexivity|].
      replace ((y * w + x) * 2 + 0) with (2 * (x + y * w)) by ring. replace ((y * w + x) * 2 + 1) with (2 * (x + y * w) + 1) by ring. reflexivity.
    + assert (Vn : forall n, (nth n bytes 0 < 256)%N) by
        (intros n; destruct (Nat.lt_ge_cases n (List.length bytes)); [apply V, nth_In; assumption|rewrite nth_overflow by assumption; lia]).
      rewrite gray16_in; try assumption; [|now rewrite map_length, range_length]. unfold done, byte16. do 3 f_equal.
      rewrite map_some_range. f_equal. rewrite <- L' at 1. apply (map_range_eq _ _ 0%N). intros q Hq.
      destruct (to_arr_range w h (q / 2) Hw ltac:(lia)) as [B E]. rewrite map_range_nth by (rewrite Z2Nat.id; lia). rewrite E.
      pose proof (Vn (Z.to_nat (2 * (q / 2)))) as V1. pose proof (Vn (Z.to_nat (2 * (q / 2) + 1))) as V2.
      destruct (q mod 2 =? 0) eqn:D.
      * replace (2 * (q / 2)) with q in * by lia. rewrite (N.mul_comm 256), N.mod_add by lia. apply N.mod_small. exact V1.
      * replace (2 * (q / 2) + 1) with q in * by lia. rewrite (N.mul_comm 256), N.div_add by lia. rewrite N.div_small by exact V1. lia.
  - assert (L' : List.length bytes = Z.to_nat (3 * (w * h))) by lia.
    eexists. split; [apply rgb_out; assumption|]. split.
    + cbn [same_picture i_width i_height i_format i_data]. split; [reflexivity|]. split; [reflexivity|]. split; [reflexivity|].
      intros x y k Hx Hy Hk. unfold image_byte, element. pose proof (bound3 x y k w h Hx Hy Hk). pose proof (bound3' x y k w h Hx Hy Hk).
      replace (y + h * (x + w * k)) with (y + h * (x + k * w)) by ring.
      replace ((y * w + x) * 3 + k) with (3 * (x + y * w) + k) by ring.
      rewrite map_range_nth by (rewrite Z2Nat.id; lia). rewrite to_img3_at by assumption.
      rewrite (nth_indep _ None (Some 0%N)) by (rewrite map_length; lia). apply (map_nth Some).
    + rewrite rgb_in; try assumption; [|now rewrite map_length, range_length]. unfold done. do 3 f_equal.
      rewrite map_some_range. f_equal. rewrite <- L' at 1. apply (map_range_eq _ _ 0%N). intros q Hq.
      destruct (split3 w h q Hw ltac:(lia)) as (i & j & k & A & B & C & E). pose proof (bound3' i j k w h A B C).
      rewrite E, to_arr3_at by assumption. rewrite map_range_nth by (rewrite Z2Nat.id; lia). now rewrite to_img3_at.
Qed.

(** ---- Numbers ---- *)

Lemma canonical_unique m e m' e' : Z.pos m * 2 ^ (e + SH) = Z.pos m' * 2 ^ (e' + SH) -> - SH <= e -> e < e' ->
  Z.pos m < 2 ^ 24 -> 2 ^ 23 <= Z.pos m' -> False.
Proof.
  intros E H1 H2 H3 H4. assert (Pe : 0 < 2 ^ (e + SH)) by (apply Z.pow_pos_nonneg; lia).
  replace (e' + SH) with ((e' - e) + (e + SH)) in E by ring. rewrite (Z.pow_add_r 2 (e' - e) (e + SH)) in E by lia.
  rewrite Z.mul_assoc in E. apply Z.mul_cancel_r in E; [|lia].
  assert (2 ^ 1 <= 2 ^ (e' - e)) by (apply Z.pow_le_mono_r; lia).
  assert (Z.pos m' * 2 <= Z.pos m' * 2 ^ (e' - e)) by (apply Z.mul_le_mono_nonneg_l; lia).
  change (2 ^ 24) with (2 ^ 23 * 2) in H3. lia.
Qed.
Lemma double_exact s m e : single (S754_finite s m e) ->
  exists m1 e1, double_of_float (S754_finite s m e) = S754_finite s m1 e1 /\ Z.pos m1 * 2 ^ (e1 + SH) = Z.pos m * 2 ^ (e + SH) /\ - SH <= e1.
Proof.
  intros V. destruct (valid_bounds s m e V) as (Hm & He & _). cbn [double_of_float]. unfold to_double.
  destruct (round_ratio_exact 53 1024 s (Z.pos m * 2 ^ Z.max 0 e) (2 ^ Z.max 0 (- e)) (Z.pos m) e) as (m1 & e1 & E1 & E2 & E3 & _);
    try (unfold fmin, SH; lia).
  - rewrite finite_ratio by (unfold SH; lia). reflexivity.
  - exists m1, e1. split; [exact E1|]. split; [exact E2|]. unfold fmin, SH in *. lia.
Qed.
Lemma float_round_trip x : single x -> float_of_double (double_of_float x) = x.
Proof.
  destruct x as [s|s| |s m e]; intros V; try reflexivity.
  destruct (double_exact s m e V) as (m1 & e1 & -> & E & He1). destruct (valid_bounds s m e V) as (Hm & He & Hc).
  destruct (float_of_double_exact s m1 e1 (Z.pos m) e He1 E) as (m' & e' & -> & E' & He' & Hm' & Hc'); try lia.
  assert (SB : -149 + SH >= 0) by (unfold SH; lia).
  assert (e' = e).
  { destruct (Z.lt_trichotomy e' e) as [D|[D|D]]; [exfalso|exact D|exfalso].
    - apply (canonical_unique m' e' m e); try lia.
    - apply (canonical_unique m e m' e'); try lia. }
  subst e'. apply Z.mul_cancel_r in E'; [|apply Z.pow_nonzero; lia]. injection E' as ->. reflexivity.
Qed.

(** ---- Regions ---- *)

Lemma rect_round_trip x y w h : single x -> single y -> single w -> single h ->
  exists a, region_to_array (RRect x y w h) = done a /\ array_to_region a = done (RRect x y w h).
Proof.
  intros Hx Hy Hw Hh. eexists. split; [reflexivity|].
  cbn [array_to_region map]. change ((4 mod 2 =? 0) && (6 <=? 4)) with false. change (4 =? 4) with true. cbn match.
  rewrite !(fetch_ok S754_nan) by (reflexivity || (cbn [List.length]; lia)). cbn [obind].
  change (Z.to_nat 0) with 0%nat. change (Z.to_nat 1) with 1%nat. change (Z.to_nat 2) with 2%nat. change (Z.to_nat 3) with 3%nat. cbn [nth].
  now rewrite !float_round_trip.
Qed.
Lemma for_range_full {A} (g : Z -> A) (body : Z -> list A -> outcome (list A)) (ws : Z -> list (Z * A)) n s N :
  List.length s = N -> in_int (Z.of_nat N) = true ->
  (forall i s, 0 <= i < Z.of_nat n -> body i s = puts s (ws i)) ->
  (forall i p v, 0 <= i < Z.of_nat n -> In (p, v) (ws i) -> 0 <= p < Z.of_nat N /\ v = g p) ->
  (forall p, 0 <= p < Z.of_nat N -> exists i v, 0 <= i < Z.of_nat n /\ In (p, v) (ws i)) ->
  for_range n 0 body s = Ok (map g (range N 0)).
Proof.
  intros L Hi B F C. rewrite (for_range_puts body ws (List.length s)); [|intros i s1 Hi' E; split; [apply B; lia|intros s2 P; rewrite (puts_length _ _ _ P); exact E]|reflexivity].
  apply puts_full; [exact L|exact Hi| |].
  - intros p v Hp. apply in_flat_map in Hp as (i & H1 & H2). apply range_in in H1. apply (F i p v); [lia|exact H2].
  - intros p Hp. destruct (C p Hp) as (i & v & H1 & H2). exists v. apply in_flat_map. exists i. split; [apply range_in; lia|exact H2].
Qed.
Definition coordinate (points : list (spec_float * spec_float)) (p : Z) : spec_float :=
  let v := nth (Z.to_nat (p / 2)) points (S754_nan, S754_nan) in double_of_float (if p mod 2 =? 0 then fst v else snd v).
Lemma poly_out points : in_int (2 * Z.of_nat (List.length points)) = true ->
  region_to_array (RPoly points) = done (MDouble 1 (Z.of_nat (List.length points) * 2) (map (coordinate points) (range (2 * List.length points) 0))).
Proof.
  intros Hi. cbn [region_to_array].
  rewrite (for_range_full (coordinate points) _
             (fun i => [(i * 2, double_of_float (fst (nth (Z.to_nat i) points (S754_nan, S754_nan))));
                        (i * 2 + 1, double_of_float (snd (nth (Z.to_nat i) points (S754_nan, S754_nan))))]) (List.length points) _
             (2 * List.length points)).
  - reflexivity.
  - apply repeat_length.
  - now rewrite Nat2Z.inj_mul.
  - intros i s H. unfold point_to_array. rewrite (fetch_ok (S754_nan, S754_nan)); [|lia|apply (int_le _ _ Hi); lia]. cbn [obind puts].
    destruct (put s (i * 2) _) as [s1| | |]; cbn [obind]; try reflexivity. destruct (put s1 _ _); reflexivity.
  - intros i p v H [E|[E|[]]]; apply pair_equal_spec in E as [E1 E2]; (split; [lia|]); unfold coordinate; rewrite <- E2.
    + replace (p / 2) with i by lia. replace (p mod 2 =? 0) with true by lia. reflexivity.
    + replace (p / 2) with i by lia. replace (p mod 2 =? 0) with false by lia. reflexivity.
  - intros p Hp. exists (p / 2). destruct (Z.eq_dec (p mod 2) 0) as [D|D]; eexists; (split; [lia|]).
    + left. replace (p / 2 * 2) with p by lia. reflexivity.
    + right. left. replace (p / 2 * 2 + 1) with p by lia. reflexivity.
Qed.
Lemma poly_in r rows n : 3 <= n -> in_int (2 * n) = true -> 2 * n <= Z.of_nat (List.length r) -> in_int (Z.of_nat (List.length r)) = true ->
  array_to_region (MDouble rows (n * 2) r) =
  done (RPoly (map (fun i => (float_of_double (nth (Z.to_nat (i * 2)) r S754_nan), float_of_double (nth (Z.to_nat (i * 2 + 1)) r S754_nan)))
                 (range (Z.to_nat n) 0))).
Proof.
  intros Hn Hi L Li. cbn [array_to_region]. replace ((n * 2 mod 2 =? 0) && (6 <=? n * 2)) with true by (rewrite Z.mod_mul by lia; lia).
  replace (n * 2 / 2) with n by (rewrite Z.div_mul by lia; lia).
  rewrite (for_range_full (fun i => Some (float_of_double (nth (Z.to_nat (i * 2)) r S754_nan), float_of_double (nth (Z.to_nat (i * 2 + 1)) r S754_nan))) _
             (fun i => [(i, Some (float_of_double (nth (Z.to_nat (i * 2)) r S754_nan), float_of_double (nth (Z.to_nat (i * 2 + 1)) r S754_nan)))])
             (Z.to_nat n) _ (Z.to_nat n)).
  - cbn [obind]. rewrite map_some_range. rewrite map_length. rewrite blk_read_holds; [reflexivity|]. exists []. now rewrite app_nil_r.
  - apply repeat_length.
  - rewrite Z2Nat.id by lia. apply (int_le _ _ Hi). lia.
  - intros i s H. rewrite Z2Nat.id in H by lia. unfold array_to_point. rewrite !(fetch_ok S754_nan) by (assumption || lia). cbn [obind]. apply put_one.
  - intros i p v H [E|[]]. apply pair_equal_spec in E as [E1 E2]. split; [lia|]. now rewrite <- E1, <- E2.
  - intros p Hp. exists p. eexists. split; [lia|]. left. reflexivity.
Qed.
Lemma poly_round_trip points : (2 < List.length points)%nat -> in_int (2 * Z.of_nat (List.length points)) = true ->
  (forall x y, In (x, y) points -> single x /\ single y) ->
  exists a, region_to_array (RPoly points) = done a /\ array_to_region a = done (RPoly points).
Proof.
  intros Hn Hi V. eexists. split; [apply poly_out; exact Hi|].
  rewrite poly_in; [|lia|exact Hi|rewrite map_length, range_length; lia|rewrite map_length, range_length; rewrite Nat2Z.inj_mul; exact Hi].
  unfold done. do 3 f_equal. rewrite Nat2Z.id. apply (map_range_eq _ _ (S754_nan, S754_nan)). intros k Hk.
  rewrite !map_range_nth by lia. unfold coordinate. replace (k * 2 / 2) with k by lia. replace ((k * 2 + 1) / 2) with k by lia.
  replace (k * 2 mod 2 =? 0) with true by lia. replace ((k * 2 + 1) mod 2 =? 0) with false by lia.
  destruct (nth (Z.to_nat k) points (S754_nan, S754_nan)) as [x y] eqn:E. cbn [fst snd].
  destruct (V x y) as [Vx Vy]; [rewrite <- E; apply nth_In; lia|]. now rewrite !float_round_trip.
Qed.

Lemma mask_in dims data w h : get_m (MU8 dims data) = h -> get_n (MU8 dims data) = w -> 0 < h -> 0 < w -> in_int (w * h) = true ->
  List.length data = Z.to_nat (w * h) ->
  array_to_region (MU8 dims data) = done (RMask 0 0 w h (map (fun p => nth (Z.to_nat (to_arr w h p)) data 0%N) (range (Z.to_nat (w * h)) 0))).
Proof.
  intros Em En Hh Hw Hi L. assert (P : 0 < w * h) by (apply Z.mul_pos_pos; assumption).
  unfold array_to_region. rewrite Em, En. rewrite create_mask_ok by assumption. cbn [obind].
  rewrite (for2_full (fun p => Some (nth (Z.to_nat (to_arr w h p)) data 0%N)) _
             (fun i j => [(i * w + j, Some (nth (Z.to_nat (j * h + i)) data 0%N))]) h w _ (Z.to_nat (w * h))).
  - cbn [obind]. rewrite map_some_range. rewrite map_length. rewrite blk_read_holds; [reflexivity|]. exists []. now rewrite app_nil_r.
  - apply repeat_length.
  - rewrite Z2Nat.id by lia. exact Hi.
  - intros i j s Hi' Hj. unfold array_to_mask. pose proof (idx_bound i j h w Hi' Hj).
    rewrite (fetch_ok 0%N) by (rewrite L, Z2Nat.id by lia; first [exact Hi|lia]). cbn [obind]. apply put8_one.
  - intros i j p v Hi' Hj [E|[]]. apply pair_equal_spec in E as [E1 E2]. pose proof (idx_bound j i w h Hj Hi').
    rewrite Z2Nat.id by lia. split; [lia|]. rewrite <- E1, <- E2, (Z.add_comm (i * w) j), to_arr_at by exact Hj. do 3 f_equal. ring.
  - intros p Hp. rewrite Z2Nat.id in Hp by lia. destruct (idx_split p w h Hw Hp) as (A & B & E).
    exists (p / w), (p mod w). eexists. split; [exact B|]. split; [exact A|]. left. rewrite Z.add_comm, <- E. reflexivity.
Qed.
Lemma value_at_origin w h mask X Y : 0 <= X < w -> 0 <= Y < h -> GeomSpec.value_at 0 0 w h mask X Y = nth (Z.to_nat (X + Y * w)) mask 0%N.
Proof.
  intros HX HY. unfold GeomSpec.value_at. replace ((0 <=? X) && (X <? 0 + w) && (0 <=? Y) && (Y <? 0 + h)) with true by lia.
  do 2 f_equal. lia.
Qed.
Lemma mask_array h w data : 0 < h -> 0 < w -> in_int (w * h) = true -> List.length data = Z.to_nat (w * h) ->
  exists mask, array_to_region (MU8 [h; w] data) = done (RMask 0 0 w h mask) /\ List.length mask = Z.to_nat (w * h) /\
    forall X Y, 0 <= X < w -> 0 <= Y < h -> GeomSpec.value_at 0 0 w h mask X Y = element h w data Y X 0.
Proof.
  intros Hh Hw Hi L. eexists. split; [apply mask_in; try assumption; [reflexivity|cbn [get_n List.tl fold_right]; ring]|].
  split; [now rewrite map_length, range_length|]. intros X Y HX HY. rewrite value_at_origin by assumption.
  pose proof (idx_bound X Y w h HX HY). rewrite map_range_nth by (rewrite Z2Nat.id; lia). rewrite to_arr_at by exact HX.
  unfold element. do 2 f_equal. ring.
Qed.
Lemma mask_shown_ok x y w h mask : 0 <= x -> 0 <= y -> 0 < w -> 0 < h -> in_int ((w + x) * (h + y)) = true ->
  List.length mask = Z.to_nat (w * h) ->
  exists data, region_to_array (RMask x y w h mask) = done (MU8 [h + y; w + x] data) /\ List.length data = Z.to_nat ((w + x) * (h + y)) /\
    forall X Y, 0 <= X < w + x -> 0 <= Y < h + y -> element (h + y) (w + x) data Y X 0 = GeomSpec.value_at x y w h mask X Y.
Proof.
  intros Hx Hy Hw Hh Hi L. assert (P : 0 < w * h) by (apply Z.mul_pos_pos; assumption).
  assert (A1 : (w + x) * 1 <= (w + x) * (h + y)) by (apply Z.mul_le_mono_nonneg_l; lia).
  assert (A2 : 1 * (h + y) <= (w + x) * (h + y)) by (apply Z.mul_le_mono_nonneg_r; lia).
  assert (A3 : w * h <= (w + x) * (h + y)) by (apply Z.mul_le_mono_nonneg; lia).
  cbn [region_to_array]. rewrite !int_result_ok by (apply (int_le _ _ Hi); lia). cbn [obind].
  replace ((h + y <? 0) || (w + x <? 0)) with false by lia.
  set (R := h + y) in *. set (C := w + x) in *.
  rewrite (for2_puts _ (fun i j => [((j + x) * R + y + i, nth (Z.to_nat (i * w + j)) mask 0%N)])).
  2:{ intros i j s Hi' Hj. unfold mask_to_array. pose proof (idx_bound j i w h Hj Hi').
      rewrite (fetch_ok 0%N) by (rewrite L, Z2Nat.id by lia; first [apply (int_le _ _ Hi); lia|lia]). cbn [obind]. apply put_one. }
  set (ws := flat_map _ _).
  assert (Lz : List.length (zeros [R; C]) = Z.to_nat (C * R)) by (rewrite zeros_length; cbn [fold_right]; f_equal; ring).
  assert (HR : forall i j, 0 <= i < h -> 0 <= j < w -> 0 <= y + i < R /\ 0 <= j + x < C) by (intros i j ? ?; unfold R, C; lia).
  destruct (puts_ok (fun p => GeomSpec.value_at x y w h mask (p / R) (p mod R)) ws (zeros [R; C])) as (data & E & Ld & X1 & K1).
  { rewrite Lz, Z2Nat.id by lia. exact Hi. }
  { intros p v Hp. apply in_writes in Hp as (i & j & Hi' & Hj & [Ep|[]]). apply pair_equal_spec in Ep as [E1 E2].
    destruct (HR i j Hi' Hj) as [B1 B2]. replace p with ((y + i) + (j + x) * R) by lia. rewrite Lz, Z2Nat.id by lia.
    split; [rewrite (Z.mul_comm C); apply idx_bound; assumption|].
    destruct (divmod_idx (y + i) (j + x) R B1) as [-> ->]. rewrite <- E2. unfold GeomSpec.value_at.
    replace ((x <=? j + x) && (j + x <? x + w) && (y <=? y + i) && (y + i <? y + h)) with true by lia. do 2 f_equal.
    replace (y + i - y) with i by lia. replace (j + x - x) with j by lia. reflexivity. }
  rewrite E. cbn [obind]. exists data. split; [reflexivity|]. split; [lia|]. intros X Y HX HY. unfold element.
  replace (Y + R * (X + C * 0)) with (Y + X * R) by ring. pose proof (idx_bound Y X R C HY HX) as BX.
  destruct ((x <=? X) && (X <? x + w) && (y <=? Y) && (Y <? y + h)) eqn:In1.
  - assert (H1 : 0 <= Y - y < h) by lia. assert (H2 : 0 <= X - x < w) by lia.
    specialize (X1 (Y + X * R) (nth (Z.to_nat ((Y - y) * w + (X - x))) mask 0%N)).
    rewrite (nth_error_nth data _ 0%N (X1 ltac:(apply in_writes; exists (Y - y), (X - x); split; [exact H1|]; split; [exact H2|];
      left; f_equal; replace (X - x + x) with X by lia; lia))).
    destruct (divmod_idx Y X R HY) as [-> ->]. reflexivity.
  - unfold GeomSpec.value_at. rewrite In1. 
    assert (K2 : nth_error data (Z.to_nat (Y + X * R)) = nth_error (zeros [R; C]) (Z.to_nat (Y + X * R))).
    { apply K1. intros v Hv. rewrite Z2Nat.id in Hv by lia. apply in_writes in Hv as (i & j & Hi' & Hj & [Ep|[]]).
      apply pair_equal_spec in Ep as [E1 _]. destruct (HR i j Hi' Hj) as [B1 B2].
      assert (D : (y + i) + (j + x) * R = Y + X * R) by lia.
      destruct (divmod_idx (y + i) (j + x) R B1) as [D1 D2]. destruct (divmod_idx Y X R HY) as [D3 D4].
      rewrite D, D3 in D1. rewrite D, D4 in D2. clear - D1 D2 In1 Hi' Hj. lia. }
    unfold zeros in K2. rewrite (nth_error_repeat 0%N) in K2.
    + apply (nth_error_nth data _ 0%N) in K2. exact K2.
    + cbn [fold_right]. rewrite Z.mul_1_r, (Z.mul_comm R C). clear - BX. lia.
Qed.
Lemma element_ext h w d1 d2 : 0 < h -> List.length d1 = Z.to_nat (w * h) -> List.length d2 = Z.to_nat (w * h) ->
  (forall X Y, 0 <= X < w -> 0 <= Y < h -> element h w d1 Y X 0 = element h w d2 Y X 0) -> d1 = d2.
Proof.
  intros Hh L1 L2 H. apply (nth_ext d1 d2 0%N 0%N); [congruence|]. intros n Hn.
  destruct (idx_split (Z.of_nat n) h w Hh ltac:(lia)) as (A & B & E). specialize (H _ _ B A). unfold element in H.
  replace (Z.of_nat n mod h + h * (Z.of_nat n / h + w * 0)) with (Z.of_nat n) in H by (rewrite E at 1; ring). now rewrite Nat2Z.id in H.
Qed.
Lemma mask_array_round_trip h w data : 0 < h -> 0 < w -> in_int (w * h) = true -> List.length data = Z.to_nat (w * h) ->
  exists mask, array_to_region (MU8 [h; w] data) = done (RMask 0 0 w h mask) /\ region_to_array (RMask 0 0 w h mask) = done (MU8 [h; w] data).
Proof.
  intros Hh Hw Hi L. destruct (mask_array h w data Hh Hw Hi L) as (mask & E & Lm & V). exists mask. split; [exact E|].
  destruct (mask_shown_ok 0 0 w h mask) as (d & E2 & Ld & V2); try lia; try assumption; [now rewrite !Z.add_0_r|].
  rewrite !Z.add_0_r in *. rewrite E2. replace d with data; [reflexivity|]. apply (element_ext h w); try assumption.
  intros X Y HX HY. rewrite V2, V by assumption. reflexivity.
Qed.
Lemma mask_moves x y w h mask : 0 <= x -> 0 <= y -> 0 < w -> 0 < h -> in_int ((w + x) * (h + y)) = true -> List.length mask = Z.to_nat (w * h) ->
  exists a mask', region_to_array (RMask x y w h mask) = done a /\ array_to_region a = done (RMask 0 0 (w + x) (h + y) mask') /\
    List.length mask' = Z.to_nat ((w + x) * (h + y)) /\
    forall X Y, GeomSpec.value_at 0 0 (w + x) (h + y) mask' X Y = GeomSpec.value_at x y w h mask X Y.
Proof.
  intros Hx Hy Hw Hh Hi L. destruct (mask_shown_ok x y w h mask) as (d & E & Ld & V); try assumption.
  destruct (mask_array (h + y) (w + x) d) as (mask' & E' & Lm & V'); try assumption; try lia.
  exists (MU8 [h + y; w + x] d), mask'. split; [exact E|]. split; [exact E'|]. split; [exact Lm|]. intros X Y.
  destruct ((0 <=? X) && (X <? w + x) && (0 <=? Y) && (Y <? h + y)) eqn:I.
  - rewrite V' by lia. apply V; lia.
  - unfold GeomSpec.value_at. replace ((0 <=? X) && (X <? 0 + (w + x)) && (0 <=? Y) && (Y <? 0 + (h + y))) with false by lia.
    replace ((x <=? X) && (X <? x + w) && (y <=? Y) && (Y <? y + h)) with false by lia. reflexivity.
Qed.
Lemma regions_exchanged r : exchanged r -> exists a, region_to_array r = done a /\ array_to_region a = done r.
Proof.
  intros [x y w h Hx Hy Hw Hh|points Hn Hi V|w h data Hw Hh Hi L].
  - apply rect_round_trip; assumption.
  - apply poly_round_trip; assumption.
  - destruct (mask_moves 0 0 w h data) as (a & m & E & E2 & Lm & V); try lia; try assumption; [now rewrite !Z.add_0_r|].
    rewrite !Z.add_0_r in *. exists a. split; [exact E|]. rewrite E2. unfold done. do 3 f_equal. apply (nth_ext m data 0%N 0%N); [congruence|].
    intros n Hn. destruct (idx_split (Z.of_nat n) w h Hw ltac:(lia)) as (A & B & D). specialize (V (Z.of_nat n mod w) (Z.of_nat n / w)).
    rewrite !value_at_origin in V by assumption. rewrite <- D in V. now rewrite Nat2Z.id in V.
Qed.
Lemma mask_left x y w h mask : x < 0 -> 0 <= y -> 0 < w -> 0 < h -> 0 <= w + x -> in_int (h + y) = true -> in_int (w + x) = true ->
  List.length mask = Z.to_nat (w * h) -> in_int (w * h) = true -> region_to_array (RMask x y w h mask) = UB.
Proof.
  intros Hx Hy Hw Hh Hwx I1 I2 L Hi. assert (P : 0 < w * h) by (apply Z.mul_pos_pos; assumption).
  cbn [region_to_array]. rewrite !int_result_ok by assumption. cbn [obind].
  replace ((h + y <? 0) || (w + x <? 0)) with false by lia. unfold for2.
  destruct (Z.to_nat h) as [|nh] eqn:Eh; [lia|]. destruct (Z.to_nat w) as [|nw] eqn:Ew; [lia|].
  cbn [for_range]. unfold mask_to_array at 1. rewrite (fetch_ok 0%N); [|lia|rewrite L, Z2Nat.id by lia; exact Hi]. cbn [obind].
  unfold put, int_result. destruct (in_int ((0 + x) * (h + y) + y + 0)); [|reflexivity]. cbn [obind]. unfold put_cell.
  assert (N : (0 + x) * (h + y) + y + 0 < 0).
  { assert (x * (h + y) <= -1 * (h + y)) by (apply Z.mul_le_mono_nonneg_r; lia). lia. }
  replace ((0 + x) * (h + y) + y + 0 <? 0) with true by lia. reflexivity.
Qed.
