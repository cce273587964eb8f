(** Proofs about Python regions *)
From Verif Require Import CBase Buffer BufferProofs Num NumSpec NumProofs DecimalProofs FloatOps FloatProofs BoundsProofs CppValuesProofs Region Lists Matlab
  MatlabSpec MatlabProofs PyText PyArrays PyArraysProofs PySession PyRegions PyRegionsSpec.
Local Open Scope Z_scope.

(** ---- Numbers ---- *)

Definition near24 (v y : Z) : Prop := 2 ^ 24 * Z.abs (y - v) <= Z.max (Z.abs v) (2 ^ (1074 - 126)).
(** (float) d is close to d. *)
Lemma cast_near d : finite d = true -> -1074 <= fexp d -> Z.abs (fixed d) < 2 ^ (127 + SH) ->
  finite (float_of_double d) = true /\ near24 (fixed d) (fixed (float_of_double d)).
Proof.
  intros F He Hb. destruct d as [s| | |s m e]; try discriminate F.
  - cbn [float_of_double]. split; [reflexivity|]. unfold near24. cbn [fixed]. rewrite Z.sub_diag, Z.abs_0, Z.mul_0_r. apply Z.le_max_l.
  - cbn [fexp] in He. assert (Ev : Z.abs (fixed (S754_finite s m e)) = Z.pos m * 2 ^ (e + SH)).
    { cbn [fixed]. pose proof (pow2_pos (e + SH) ltac:(unfold SH; lia)) as P. set (b := 2 ^ (e + SH)) in *. clearbody b. clear - P. destruct s; nia. }
    rewrite Ev in Hb. set (V := Z.pos m * 2 ^ (e + SH)) in *.
    assert (HV : 0 < V) by (apply Z.mul_pos_pos; [lia|apply pow2_pos; unfold SH; lia]).
    pose proof (Z.log2_spec V HV) as [L1 L2]. set (k := Z.log2 V) in *.
    assert (Kb : k < 127 + SH). { apply (Z.pow_lt_mono_r_iff 2); [lia|unfold SH; lia|]. lia. }
    assert (K0 : 0 <= k) by apply Z.log2_nonneg.
    set (j := Z.max (-125) (k + 1 - SH)).
    assert (Hlt : V < 2 ^ (j + SH)).
    { eapply Z.lt_le_trans; [exact L2|]. apply Z.pow_le_mono_r; [lia|]. unfold j. lia. }
    destruct (float_of_double_error s m e j) as (Fy & _ & B); [unfold SH; lia|unfold j; lia|unfold j, SH in *; lia|exact Hlt|].
    split; [exact Fy|]. unfold near24. rewrite Ev. cbv zeta in B. set (a := fixed (S754_finite s m e)) in *. set (y := fixed (float_of_double _)) in *.
    assert (G : 2 ^ 24 * Z.abs (y - a) * 2 <= 2 ^ (j + SH)).
    { replace (2 ^ (j + SH)) with (2 ^ 24 * 2 ^ (j - 24 + SH)) by (rewrite <- Z.pow_add_r by (unfold j, SH; lia); f_equal; lia).
      set (Q := 2 ^ (j - 24 + SH)) in *. clearbody Q a y. clear - B. lia. }
    destruct (Z.max_spec (-125) (k + 1 - SH)) as [[Hc Ej]|[Hc Ej]]; fold j in Ej.
    + assert (2 ^ (j + SH) <= 2 * V).
      { replace (j + SH) with (Z.succ k) by lia. rewrite Z.pow_succ_r by exact K0. lia. }
      clear - G H. lia.
    + replace (2 ^ (j + SH)) with (2 * 2 ^ (1074 - 126)) in G by (rewrite Ej; unfold SH; rewrite <- Z.pow_succ_r by lia; reflexivity).
      clear - G. lia.
Qed.
(** A float is a double with the same value. *)
Lemma back_finite d : finite (float_of_double d) = true ->
  finite (double_of_float (float_of_double d)) = true /\ fixed (double_of_float (float_of_double d)) = fixed (float_of_double d).
Proof.
  intros F. pose proof (double_units d F) as U. rewrite !units_fixed in U. split; [|exact U].
  destruct (float_of_double d) as [s| | |s m e] eqn:E; try discriminate; [reflexivity|]. destruct d as [| | |s0 m0 e0]; try discriminate.
  cbn [float_of_double] in E. apply round_ratio_valid in E as (_ & He & Hm & _); [|lia|unfold fmin, SH; lia| |apply Z.pow_pos_nonneg; lia].
  - unfold fmin in He. cbn [double_of_float]. unfold to_double.
    destruct (round_ratio_exact 53 1024 s (Z.pos m * 2 ^ Z.max 0 e) (2 ^ Z.max 0 (- e)) (Z.pos m) e) as (m1 & e1 & E1 & E2 & E3 & _);
      try (unfold fmin, SH; lia).
    + rewrite finite_ratio by (unfold SH; lia). reflexivity.
    + rewrite E1. reflexivity.
  - apply Z.mul_pos_pos; [lia|]. apply Z.pow_pos_nonneg; lia.
Qed.
Lemma finite_shape x : finite x = true -> match x with S754_zero _ | S754_finite _ _ _ => True | _ => False end.
Proof. destruct x; intros H; try discriminate H; exact Logic.I. Qed.
(** A float with a value that single precision can hold keeps it. *)
Lemma cast_exact d x : finite d = true -> -1074 <= fexp d -> finite_float x -> fixed x = fixed d -> fixed (float_of_double d) = fixed d.
Proof.
  intros F He [Vx Fx] E. destruct d as [s| | |s m e]; try discriminate F; [reflexivity|]. cbn [fexp] in He.
  assert (P : 0 < 2 ^ (e + SH)) by (apply pow2_pos; unfold SH; lia).
  destruct x as [s'| | |s' m' e']; try contradiction.
  - exfalso. cbn [fixed] in E. set (b := 2 ^ (e + SH)) in *. clearbody b. clear - E P. destruct s; nia.
  - destruct (valid_bounds s' m' e' Vx) as (B1 & B2 & _). assert (P' : 0 < 2 ^ (e' + SH)) by (apply pow2_pos; unfold SH; lia).
    assert (Em : Z.pos m * 2 ^ (e + SH) = Z.pos m' * 2 ^ (e' + SH)).
    { cbn [fixed] in E. set (b := 2 ^ (e + SH)) in *. set (b' := 2 ^ (e' + SH)) in *. clearbody b b'. clear - E P P'.
      assert (0 < Z.pos m * b) by nia. assert (0 < Z.pos m' * b') by nia. destruct s, s'; lia. }
    destruct (float_of_double_exact s m e (Z.pos m') e') as (m2 & e2 & -> & E2 & _); try (unfold SH; lia); [exact Em|].
    cbn [fixed]. rewrite E2, Em. reflexivity.
Qed.

Lemma float_comes_back d : ordinary (NFloat d) -> exists x, as_float (NFloat d) = ret x /\ comes_back (NFloat d) (double_of_float x).
Proof.
  intros [Hb Hs]. cbn [value] in Hb. assert (F : finite d = true) by (destruct d; try contradiction; reflexivity).
  assert (He : -1074 <= fexp d) by (destruct d; try contradiction; [discriminate|exact Hs]).
  rewrite units_fixed in Hb. change (2 ^ 1074) with (2 ^ SH) in Hb. rewrite <- Z.pow_add_r in Hb by (unfold SH; lia).
  assert (Hb' : Z.abs (fixed d) < 2 ^ (127 + SH)) by (eapply Z.le_lt_trans; [exact Hb|]; apply Z.pow_lt_mono_r; unfold SH; lia).
  destruct (cast_near d F He Hb') as [Fy N]. destruct (back_finite d Fy) as [Fz U].
  eexists. split; [reflexivity|]. split; [apply finite_shape, Fz|]. cbn [value]. change units with fixed in *. rewrite U. split.
  - intros (x & Vx & Ex). exact (cast_exact d x F He Vx Ex).
  - unfold near24 in N. change (2 ^ 24) with 16777216 in N. change (2 ^ 23) with 8388608.
    set (a := fixed (float_of_double d)) in *. set (b := fixed d) in *. set (T := 2 ^ (1074 - 126)) in *. clearbody a b T. clear - N. lia.
Qed.
Lemma int_double z : z <> 0 -> Z.abs z <= 2 ^ 126 -> let d := double_of_int z in
  finite d = true /\ -1074 <= fexp d /\ 2 ^ 53 * Z.abs (fixed d - z * 2 ^ SH) <= Z.abs z * 2 ^ SH.
Proof.
  intros Hz Hb. cbv zeta. unfold double_of_int. replace (z =? 0) with false by lia. unfold to_double.
  set (a := Z.abs z) in *. assert (Ha : 0 < a) by lia. pose proof (Z.log2_spec a Ha) as [L1 L2]. set (k := Z.log2 a) in *.
  assert (K0 : 0 <= k) by apply Z.log2_nonneg.
  assert (Kb : k < 127). { apply (Z.pow_lt_mono_r_iff 2); [lia|lia|]. change (2 ^ 127) with (2 * 2 ^ 126). lia. }
  destruct (round_ratio_error 53 1024 (z <? 0) a 1 (Z.succ k)) as (F & _ & B); try lia; try (unfold fmin, SH; lia).
  { rewrite Z.pow_add_r by (unfold SH; lia). pose proof pow_SH_pos. rewrite Z.mul_1_l. apply Z.mul_lt_mono_pos_r; assumption. }
  split; [exact F|]. split.
  - destruct (round_ratio 53 1024 (z <? 0) a 1) as [| | |s m e] eqn:E; try discriminate F; [discriminate|].
    apply round_ratio_valid in E as (_ & E & _); [|lia|unfold fmin, SH; lia|lia|lia]. unfold fmin in E. cbn [fexp]. lia.
  - cbv zeta in B. set (y := fixed (round_ratio 53 1024 (z <? 0) a 1)) in *. rewrite !Z.mul_1_l in B.
    assert (G : 2 ^ 53 * 2 ^ (Z.succ k - 53 + SH) = 2 * 2 ^ k * 2 ^ SH).
    { rewrite <- Z.pow_succ_r by lia. rewrite <- !Z.pow_add_r by (unfold SH; lia). f_equal. lia. }
    replace ((if z <? 0 then -1 else 1) * (a * 2 ^ SH)) with (z * 2 ^ SH) in B by (unfold a; destruct (Z.ltb_spec z 0); [rewrite Z.abs_neq by lia|rewrite Z.abs_eq by lia]; ring).
    pose proof pow_SH_pos as P. set (b := 2 ^ SH) in *. set (q := 2 ^ (Z.succ k - 53 + SH)) in *. set (t := 2 ^ k) in *. clearbody b q t y.
    assert (Z.abs (2 * (z * b - y)) = 2 * Z.abs (y - z * b)) by lia. rewrite H in B. assert (t * b <= a * b) by (apply Z.mul_le_mono_nonneg_r; lia). 
    clear - B G H0. change (2 ^ 53) with 9007199254740992 in *. lia.
Qed.
Lemma int_comes_back z : ordinary (NInt z) -> exists x, as_float (NInt z) = ret x /\ comes_back (NInt z) (double_of_float x).
Proof.
  intros [Hb _]. cbn [value] in Hb. destruct (Z.eq_dec z 0) as [->|Hz].
  { eexists. split; [reflexivity|]. split; [exact Logic.I|]. split; [intros _; reflexivity|]. cbn [value double_of_float float_of_double units]. cbn. discriminate. }
  assert (Hb1 : Z.abs z <= 2 ^ 126).
  { rewrite Z.abs_mul in Hb. rewrite (Z.abs_eq (2 ^ 1074)) in Hb by (apply Z.pow_nonneg; lia). apply Z.mul_le_mono_pos_r in Hb; [exact Hb|]. apply pow2_pos; lia. }
  clear Hb. destruct (int_double z Hz Hb1) as (F & He & N). set (d := double_of_int z) in *.
  pose proof pow_SH_pos as P.
  assert (Hb' : Z.abs (fixed d) < 2 ^ (127 + SH)).
  { replace (2 ^ (127 + SH)) with (2 * 2 ^ 126 * 2 ^ SH) by (rewrite <- Z.pow_succ_r by lia; rewrite <- Z.pow_add_r by (unfold SH; lia); reflexivity).
    assert (Z.abs (fixed d) <= Z.abs z * 2 ^ SH + Z.abs (fixed d - z * 2 ^ SH)).
    { replace (Z.abs z * 2 ^ SH) with (Z.abs (z * 2 ^ SH)) by (rewrite Z.abs_mul, (Z.abs_eq (2 ^ SH)); [reflexivity|apply Z.lt_le_incl, P]). 
      set (b := z * 2 ^ SH). clearbody b. lia. }
    set (b := 2 ^ SH) in *. assert (Z.abs z * b <= 2 ^ 126 * b) by (apply Z.mul_le_mono_nonneg_r; lia).
    assert (0 < Z.abs z * b) by (apply Z.mul_pos_pos; lia).
    set (w := fixed d - z * b) in *. set (c := 2 ^ 126) in *. set (q := Z.abs z * b) in *. clearbody w b c q d. change (2 ^ 53) with 9007199254740992 in N. clear - N H H0 H1. nia. }
  destruct (cast_near d F He Hb') as [Fy NN]. destruct (back_finite d Fy) as [Fz U].
  exists (float_of_double d). split.
  { cbn [as_float]. fold d. destruct d; try discriminate F; reflexivity. }
  split; [apply finite_shape, Fz|]. cbn [value fits]. change units with fixed in *. rewrite U. split.
  - intros Hf. assert (R : rep d z).
    { unfold d, double_of_int. replace (z =? 0) with false by lia. assert (Hs : z = signed (z <? 0) (Z.abs z)) by (unfold signed; destruct (z <? 0) eqn:?; lia).
      rewrite Hs at 3. destruct fmt_double as (F1 & F2 & F3 & F4). apply round_ratio_rep; try assumption; try lia. }
    destruct (rep_float_of_double d z R Hf) as (_ & _ & E). exact E.
  - change (2 ^ 1074) with (2 ^ SH). unfold near24 in NN. set (a := fixed (float_of_double d)) in *. set (b := fixed d) in *.
    rewrite (Z.abs_mul z). rewrite (Z.abs_eq (2 ^ SH)) by (apply Z.lt_le_incl, P).
    assert (A : Z.abs b <= Z.abs z * 2 ^ SH + Z.abs (b - z * 2 ^ SH)).
    { replace (Z.abs z * 2 ^ SH) with (Z.abs (z * 2 ^ SH)) by (rewrite Z.abs_mul, (Z.abs_eq (2 ^ SH)); [reflexivity|apply Z.lt_le_incl, P]).
      set (w := z * 2 ^ SH). clearbody w. lia. }
    assert (0 < Z.abs z * 2 ^ SH) by (apply Z.mul_pos_pos; lia).
    set (w := z * 2 ^ SH) in *. set (v := Z.abs z * 2 ^ SH) in *. set (T := 2 ^ (1074 - 126)) in *.
    assert (HT : 0 < T) by (apply pow2_pos; lia).
    clearbody w v T a b. change (2 ^ 53) with 9007199254740992 in N. change (2 ^ 24) with 16777216 in NN. change (2 ^ 23) with 8388608.
    clear - N NN A H HT. lia.
Qed.
Lemma number_comes_back n : ordinary n -> exists x, as_float n = ret x /\ comes_back n (double_of_float x).
Proof.
  destruct n as [z|d|]; intros H; [exact (int_comes_back z H)|exact (float_comes_back d H)|destruct H as [_ []]].
Qed.

(** ---- Rectangles and special regions ---- *)

Lemma rectangle_lemma x y w h : ordinary x -> ordinary y -> ordinary w -> ordinary h ->
  exists o bx yb wb hb, rectangle_create x y w h = ret o /\ rectangle_bounds o = ret (bx, yb, wb, hb) /\ type_name (o_class o) = str "rectangle" /\
    comes_back x bx /\ comes_back y yb /\ comes_back w wb /\ comes_back h hb.
Proof.
  intros Hx Hy Hw Hh. destruct (number_comes_back x Hx) as (fx & Ex & Bx). destruct (number_comes_back y Hy) as (fy & Ey & By).
  destruct (number_comes_back w Hw) as (fw & Ew & Bw). destruct (number_comes_back h Hh) as (fh & Eh & Bh).
  eexists _, _, _, _, _. unfold rectangle_create. rewrite Ex, Ey, Ew, Eh. unfold pbind, ret. cbn [obind].
  split; [reflexivity|]. cbn [o_region rectangle_bounds]. split; [reflexivity|]. split; [reflexivity|]. exact (conj Bx (conj By (conj Bw Bh))).
Qed.
Lemma rectangle_refused x y w h : In NOther [x; y; w; h] -> (forall n, In n [x; y; w; h] -> n = NOther \/ ordinary n) ->
  rectangle_create x y w h = raise ArgumentError.
Proof.
  intros Hi Ha. unfold rectangle_create.
  assert (D : forall n, In n [x; y; w; h] -> n = NOther \/ exists f, as_float n = ret f).
  { intros n Hn. destruct (Ha n Hn) as [->|O]; [now left|right]. destruct (number_comes_back n O) as (f & E & _). now exists f. }
  cbn [In] in *.
  destruct (D x ltac:(tauto)) as [->|[fx Ex]]; [reflexivity|]. rewrite Ex. unfold pbind at 1. unfold ret at 1. cbn [obind].
  destruct (D y ltac:(tauto)) as [->|[fy Ey]]; [reflexivity|]. rewrite Ey. unfold pbind at 1. unfold ret at 1. cbn [obind].
  destruct (D w ltac:(tauto)) as [->|[fw Ew]]; [reflexivity|]. rewrite Ew. unfold pbind at 1. unfold ret at 1. cbn [obind].
  destruct (D h ltac:(tauto)) as [->|[fh Eh]]; [reflexivity|]. exfalso.
  destruct Hi as [Q|[Q|[Q|[Q|[]]]]]; subst; discriminate.
Qed.
Lemma special_lemma z : INT_MIN <= z <= INT_MAX ->
  exists o, special_create (NInt z) = ret o /\ special_code o = ret z /\ type_name (o_class o) = str "special".
Proof.
  intros H. unfold special_create, as_int. rewrite in_range_c_int by exact H. eexists. unfold pbind, ret. cbn [obind].
  split; [reflexivity|]. split; reflexivity.
Qed.
Lemma special_wraps z k : INT_MIN <= z <= INT_MAX -> exists o, special_create (NInt (z + k * 2 ^ 32)) = ret o /\ special_code o = ret z.
Proof.
  intros H. unfold special_create, as_int. eexists. unfold pbind, ret. cbn [obind]. split; [reflexivity|]. unfold special_code. cbn [o_region]. unfold ret.
  do 2 f_equal. unfold c_int, Image.int_of_long, INT_MIN, INT_MAX in *. replace (z + k * 2 ^ 32 + 2147483648) with (z + 2147483648 + k * 4294967296) by (change (2 ^ 32) with 4294967296; ring).
  rewrite Z_mod_plus_full. rewrite Z.mod_small by lia. lia.
Qed.
Lemma wrap_lemma r : exists o, wrap (Some r) = Some o /\ o_region o = r /\
  encode_name region_codes (type_name (o_class o)) = ret (native_type (Some r)).
Proof.
  destruct r; eexists; (split; [reflexivity|]); (split; [reflexivity|]); vm_compute; reflexivity.
Qed.

(** ---- Polygons ---- *)

Lemma set_point_good p b l i : good_point p -> holds b l -> (List.length l < List.length b)%nat -> Z.of_nat (List.length b) <= INT_MAX -> i = Z.of_nat (List.length l) ->
  exists q b', set_point b i p = ret b' /\ holds b' (l ++ [q]) /\ List.length b' = List.length b /\
    point_back p (double_of_float (fst q), double_of_float (snd q)).
Proof.
  intros (x & y & G & Ox & Oy) Hb Hl HI ->. inversion G as [x' y' more E1 E2 E3]; subst x' y' p.
  destruct (number_comes_back x Ox) as (fx & Ex & Bx). destruct (number_comes_back y Oy) as (fy & Ey & By).
  destruct (blk_write_end b l (fx, fy) Hb Hl) as (b' & E & Hb' & Lb).
  exists (fx, fy), b'. split.
  - cbn [set_point]. rewrite Ex, Ey. unfold pbind, ret, lift. cbn [obind]. unfold set_polygon_point.
    rewrite in_range_c_int by (unfold INT_MIN; lia).
    replace (Z.of_nat (List.length l) <? 0) with false by lia. replace (0 <=? Z.of_nat (List.length l)) with true by lia.
    replace (Z.of_nat (List.length l) <? Z.of_nat (List.length b)) with true by lia. cbn [andb]. rewrite Nat2Z.id, E. reflexivity.
  - split; [exact Hb'|]. split; [exact Lb|]. apply (point_back_intro _ x y); [exact G|exact Bx|exact By].
Qed.
Lemma set_points_good ps : forall b l, Forall good_point ps -> holds b l -> (List.length l + List.length ps <= List.length b)%nat ->
  Z.of_nat (List.length b) <= INT_MAX ->
  exists qs b', set_points b (Z.of_nat (List.length l)) ps = ret b' /\ holds b' (l ++ qs) /\ List.length b' = List.length b /\
    Forall2 (fun p q => point_back p (double_of_float (fst q), double_of_float (snd q))) ps qs.
Proof.
  induction ps as [|p ps IH]; intros b l Hp Hb Hl HI.
  - exists [], b. split; [reflexivity|]. rewrite app_nil_r. split; [exact Hb|]. split; [reflexivity|constructor].
  - inversion Hp as [|? ? P1 P2]; subst. cbn [List.length] in Hl.
    destruct (set_point_good p b l _ P1 Hb ltac:(lia) HI eq_refl) as (q & b1 & E & Hb1 & L1 & B).
    destruct (IH b1 (l ++ [q]) P2 Hb1) as (qs & b2 & E2 & Hb2 & L2 & F).
    + rewrite app_length. cbn [List.length]. lia.
    + now rewrite L1.
    + exists (q :: qs), b2. split.
      * cbn [set_points]. rewrite E. unfold pbind, ret. cbn [obind]. replace (Z.of_nat (List.length l) + 1) with (Z.of_nat (List.length (l ++ [q]))) by (rewrite app_length; cbn [List.length]; lia). exact E2.
      * rewrite <- app_assoc in Hb2. split; [exact Hb2|]. split; [congruence|]. constructor; [exact B|exact F].
Qed.
Lemma good_tuple p : good_point p -> is_tuple p = true.
Proof. intros (x & y & G & _). inversion G. reflexivity. Qed.
Lemma bad_tuple p : bad_point p -> is_tuple p = true.
Proof. intros G. inversion G; reflexivity. Qed.
Lemma forall2_same_length {A B} (R : A -> B -> Prop) l m : Forall2 R l m -> List.length l = List.length m.
Proof. induction 1; cbn [List.length]; congruence. Qed.
Lemma blk_new_length {A} n : List.length (@blk_new A n) = n.
Proof. apply repeat_length. Qed.

Lemma created ps : Forall good_point ps -> 2 < Z.of_nat (List.length ps) <= INT_MAX ->
  exists qs, polygon_create (PList ps) = Ok (inl (mkObject CPolygon (RPoly qs)), 0%nat) /\
    Forall2 (fun p q => point_back p (double_of_float (fst q), double_of_float (snd q))) ps qs.
Proof.
  intros Hg Hl. unfold polygon_create. replace (2 <? Z.of_nat (List.length ps)) with true by lia. cbn [negb].
  replace (forallb is_tuple ps) with true. 2: { symmetry. apply forallb_forall. intros p Hp. apply good_tuple. rewrite Forall_forall in Hg. now apply Hg. }
  cbn [negb]. rewrite in_range_c_int by (unfold INT_MIN; lia). unfold create_polygon. replace (2 <? Z.of_nat (List.length ps)) with true by lia. cbn [obind].
  rewrite Nat2Z.id. destruct (set_points_good ps (blk_new (List.length ps)) []) as (qs & b & E & Hb & Lb & F).
  - exact Hg.
  - now exists (blk_new (List.length ps)).
  - rewrite blk_new_length. cbn [List.length]. lia.
  - rewrite blk_new_length. lia.
  - change (Z.of_nat (List.length (@nil (spec_float * spec_float)))) with 0 in E. rewrite E. unfold ret. cbn [obind]. cbn [app] in Hb.
    assert (Lq : List.length b = List.length qs) by (rewrite Lb, blk_new_length; apply (forall2_same_length _ _ _ F)).
    rewrite Lq, blk_read_holds by exact Hb. cbn [obind]. exists qs. split; [reflexivity|exact F].
Qed.
Lemma get_inside qs i q : Z.of_nat (List.length qs) <= INT_MAX -> 0 <= i -> nth_error qs (Z.to_nat i) = Some q ->
  polygon_get (mkObject CPolygon (RPoly qs)) i = ret (double_of_float (fst q), double_of_float (snd q)).
Proof.
  intros HI Hi E. assert (L : (Z.to_nat i < List.length qs)%nat) by (apply nth_error_Some; congruence).
  unfold polygon_get, polygon_size. cbn [o_region]. unfold pbind, ret, lift. cbn [obind].
  replace (i <? 0) with false by lia. replace (Z.of_nat (List.length qs) <=? i) with false by lia. cbn [orb].
  rewrite in_range_c_int by (unfold INT_MIN; lia). unfold get_polygon_point. replace (i <? 0) with false by lia. cbn [andb]. rewrite E. reflexivity.
Qed.
Lemma get_outside qs i : i < 0 \/ Z.of_nat (List.length qs) <= i -> polygon_get (mkObject CPolygon (RPoly qs)) i = raise IndexError.
Proof.
  intros H. unfold polygon_get, polygon_size. cbn [o_region]. unfold pbind, ret. cbn [obind].
  replace ((i <? 0) || (Z.of_nat (List.length qs) <=? i)) with true by lia. reflexivity.
Qed.
Lemma drain_all qs : Z.of_nat (List.length qs) <= INT_MAX -> forall rest done fuel, qs = done ++ rest -> (List.length rest < fuel)%nat ->
  drain fuel (mkIterator (mkObject CPolygon (RPoly qs)) (Z.of_nat (List.length done)) (Z.of_nat (List.length qs))) =
  ret (map (fun q => (double_of_float (fst q), double_of_float (snd q))) rest).
Proof.
  intros HI. induction rest as [|q rest IH]; intros dn fuel E Hf; (destruct fuel as [|fuel]; [lia|]); cbn [drain].
  - unfold iterator_next. cbn [it_position it_size]. replace (Z.of_nat (List.length dn) =? Z.of_nat (List.length qs)) with true; [reflexivity|].
    rewrite E, app_nil_r. lia.
  - unfold iterator_next. cbn [it_position it_size it_polygon]. cbn [List.length] in Hf.
    replace (Z.of_nat (List.length dn) =? Z.of_nat (List.length qs)) with false by (rewrite E, app_length; cbn [List.length]; lia).
    rewrite (get_inside qs (Z.of_nat (List.length dn)) q HI (Nat2Z.is_nonneg _)) by (rewrite Nat2Z.id, E, nth_error_app2, Nat.sub_diag by lia; reflexivity).
    unfold pbind, ret. cbn [obind]. replace (Z.of_nat (List.length dn) + 1) with (Z.of_nat (List.length (dn ++ [q]))) by (rewrite app_length; cbn [List.length]; lia).
    rewrite IH by (rewrite ?E, <- ?app_assoc; cbn [app]; reflexivity || lia). reflexivity.
Qed.
Lemma forall2_map_r {A B C} (R : A -> C -> Prop) (f : B -> C) l m : Forall2 (fun a b => R a (f b)) l m -> Forall2 R l (map f m).
Proof. induction 1; cbn [map]; constructor; assumption. Qed.

Lemma polygon_lemma ps : Forall good_point ps -> 2 < Z.of_nat (List.length ps) <= INT_MAX ->
  exists o back, polygon_create (PList ps) = Ok (inl o, 0%nat) /\ Forall2 point_back ps back /\
    type_name (o_class o) = str "polygon" /\ polygon_size o = ret (Z.of_nat (List.length ps)) /\
    (forall i q, 0 <= i -> nth_error back (Z.to_nat i) = Some q -> polygon_get o i = ret q) /\
    (forall i, i < 0 \/ Z.of_nat (List.length ps) <= i -> polygon_get o i = raise IndexError) /\
    (forall fuel, (List.length ps < fuel)%nat -> for_in fuel (IPolygon o) = ret back).
Proof.
  intros Hg Hl. destruct (created ps Hg Hl) as (qs & E & F). pose proof (forall2_same_length _ _ _ F) as L.
  exists (mkObject CPolygon (RPoly qs)), (map (fun q => (double_of_float (fst q), double_of_float (snd q))) qs).
  split; [exact E|]. split; [apply forall2_map_r, F|]. split; [reflexivity|]. split; [unfold polygon_size; cbn [o_region]; now rewrite L|].
  split; [|split].
  - intros i q Hi Hq. rewrite nth_error_map in Hq. destruct (nth_error qs (Z.to_nat i)) as [p|] eqn:Ep; [|discriminate]. cbn [option_map] in Hq. injection Hq as <-.
    apply get_inside; [lia|exact Hi|exact Ep].
  - intros i Hi. rewrite L in Hi. exact (get_outside qs i Hi).
  - intros fuel Hf. unfold for_in, python_iter, polygon_iter, polygon_size. cbn [o_region]. unfold pbind, ret. cbn [obind].
    assert (HI : Z.of_nat (List.length qs) <= INT_MAX) by (rewrite <- L; apply Hl). assert (Hf' : (List.length qs < fuel)%nat) by (rewrite <- L; exact Hf).
    exact (drain_all qs HI qs [] fuel eq_refl Hf').
Qed.
(** A bad point after good ones *)
Lemma as_float_never n : exists r, as_float n = Ok r.
Proof. destruct n as [z|d|]; cbn [as_float]; [destruct (double_of_int z)| |]; eexists; reflexivity. Qed.
Lemma set_point_bad p b i : bad_point p -> exists e, set_point b i p = raise e.
Proof.
  intros B. inversion B as [|x|y more|x more]; subst; cbn [set_point]; try (eexists; reflexivity).
  destruct (as_float_never x) as [[f|e] ->]; eexists; reflexivity.
Qed.
Lemma set_points_bad good : forall b l bad rest, Forall good_point good -> bad_point bad -> holds b l -> (List.length l + List.length good < List.length b)%nat ->
  Z.of_nat (List.length b) <= INT_MAX -> exists e, set_points b (Z.of_nat (List.length l)) (good ++ bad :: rest) = raise e.
Proof.
  induction good as [|p good IH]; intros b l bad rest Hg B Hb Hl HI.
  - cbn [app set_points]. destruct (set_point_bad bad b (Z.of_nat (List.length l)) B) as [e ->]. exists e. reflexivity.
  - inversion Hg as [|? ? P1 P2]; subst. cbn [List.length] in Hl. cbn [app set_points].
    destruct (set_point_good p b l _ P1 Hb ltac:(lia) HI eq_refl) as (q & b1 & E & Hb1 & L1 & _). rewrite E. unfold pbind, ret. cbn [obind].
    replace (Z.of_nat (List.length l) + 1) with (Z.of_nat (List.length (l ++ [q]))) by (rewrite app_length; cbn [List.length]; lia).
    apply IH; [exact P2|exact B|exact Hb1|rewrite app_length; cbn [List.length]; lia|now rewrite L1].
Qed.
Lemma polygon_leaks good bad rest : Forall good_point good -> bad_point bad -> Forall (fun p => is_tuple p = true) rest ->
  2 < Z.of_nat (List.length (good ++ bad :: rest)) <= INT_MAX ->
  exists e, polygon_create (PList (good ++ bad :: rest)) = Ok (inr e, 1%nat).
Proof.
  intros Hg B Hr Hl. set (ps := good ++ bad :: rest) in *. unfold polygon_create. replace (2 <? Z.of_nat (List.length ps)) with true by lia. cbn [negb].
  replace (forallb is_tuple ps) with true.
  2: { symmetry. apply forallb_forall. intros p Hp. unfold ps in Hp. apply in_app_iff in Hp as [Hp|[<-|Hp]];
       [apply good_tuple; rewrite Forall_forall in Hg; now apply Hg|apply bad_tuple, B|rewrite Forall_forall in Hr; now apply Hr]. }
  cbn [negb]. rewrite in_range_c_int by (unfold INT_MIN; lia). unfold create_polygon. replace (2 <? Z.of_nat (List.length ps)) with true by lia. cbn [obind].
  rewrite Nat2Z.id. destruct (set_points_bad good (blk_new (List.length ps)) [] bad rest Hg B) as [e E].
  - now exists (blk_new (List.length ps)).
  - rewrite blk_new_length. unfold ps. rewrite app_length. cbn [List.length]. lia.
  - rewrite blk_new_length. lia.
  - fold ps in E. change (Z.of_nat (List.length (@nil (spec_float * spec_float)))) with 0 in E. rewrite E. exists e. reflexivity.
Qed.
Lemma polygon_refused a : a = PNoList \/ (exists l, a = PList l /\ ((List.length l < 3)%nat \/ In PNoTuple l)) ->
  polygon_create a = Ok (inr AssertionError, 0%nat).
Proof.
  intros [->|(l & -> & H)]; [reflexivity|]. unfold polygon_create. destruct (2 <? Z.of_nat (List.length l)) eqn:L; [|reflexivity]. cbn [negb].
  destruct H as [H|H]; [lia|]. replace (forallb is_tuple l) with false; [reflexivity|]. symmetry. apply not_true_is_false. intros T.
  rewrite forallb_forall in T. discriminate (T _ H).
Qed.
(** ---- The limits ---- *)
Lemma rounded_int : ~ fits (NInt 16777217) /\ exists o, rectangle_create (NInt 16777217) (NInt 0) (NInt 1) (NInt 1) = ret o /\
  exists x y w h, rectangle_bounds o = ret (x, y, w, h) /\ x = double_of_int 16777216.
Proof.
  split; [cbn; lia|]. eexists. split; [vm_compute; reflexivity|]. eexists _, _, _, _. split; [vm_compute; reflexivity|]. vm_compute. reflexivity.
Qed.
Lemma not_iterable it fuel : for_in fuel (IIterator it) = raise TypeError.
Proof. reflexivity. Qed.
Lemma infinite_lemma : exists o, rectangle_create (NFloat (double_of_int (2 ^ 200))) (NInt 0) (NInt 1) (NInt 1) = ret o /\
  exists y w h, rectangle_bounds o = ret (S754_infinity false, y, w, h).
Proof. eexists. split; [vm_compute; reflexivity|]. eexists _, _, _. vm_compute. reflexivity. Qed.
