(** Format negotiation: conversions of regions before they are sent, and sessions with them. *)
From Verif Require Import CBase StrMap Props PropsSpec StrMapProofs PropsProofs Message MessageSpec Num NumSpec NumProofs DecimalProofs FloatOps FloatProofs Region RegionSpec
  RegionProofs Buffer RegionGeom GeomSpec GeomProofs BoundsProofs OverlapProofs RasterProofs Image Formats FormatsProofs Handle SessionSpec HandleProofs SessionProofs
  HandshakeProofs SendableProofs NegotiateSpec.
Local Open Scope Z_scope.

(** ---- results of float arithmetic are float values ---- *)
Lemma round_dyadic_finite zs m e : finite (round_dyadic 24 128 zs m e) = true -> finite_float (round_dyadic 24 128 zs m e).
Proof.
  unfold round_dyadic. destruct (m =? 0) eqn:E; intros F; [split; [reflexivity|exact Logic.I]|].
  apply round_ratio_finite; [|apply Z.pow_pos_nonneg; lia|exact F]. apply Z.mul_pos_pos; [lia|apply Z.pow_pos_nonneg; lia].
Qed.
Lemma addf_finite x y : finite (addf x y) = true -> finite_float (addf x y).
Proof.
  unfold addf, fadd. destruct x; try discriminate; destruct y; try discriminate; try apply round_dyadic_finite.
  destruct (Bool.eqb _ _); discriminate.
Qed.
Lemma subf_finite x y : finite (subf x y) = true -> finite_float (subf x y).
Proof. apply addf_finite. Qed.
Lemma float_of_int_finite z : finite (float_of_int z) = true -> finite_float (float_of_int z).
Proof.
  unfold float_of_int. destruct (z =? 0) eqn:E; intros F; [split; [reflexivity|exact Logic.I]|]. apply round_ratio_finite; try lia. exact F.
Qed.

(** Float values that are integers *)
Definition fint (x : spec_float) (z : Z) : Prop := finite_float x /\ rep x z.
Lemma fint_add x y a b : fint x a -> fint y b -> Z.abs (a + b) <= 2 ^ 24 -> fint (addf x y) (a + b).
Proof.
  intros [Fx Rx] [Fy Ry] H. pose proof (rep_fadd 24 128 x y a b fmt_float Rx Ry H) as R. split; [|exact R].
  apply addf_finite, R.
Qed.
Lemma fint_sub x y a b : fint x a -> fint y b -> Z.abs (a - b) <= 2 ^ 24 -> fint (subf x y) (a - b).
Proof.
  intros [Fx Rx] [Fy Ry] H. pose proof (rep_fsub 24 128 x y a b fmt_float Rx Ry H) as R. split; [|exact R].
  apply subf_finite, R.
Qed.
Lemma fint_of_int z : Z.abs z <= 2 ^ 24 -> fint (float_of_int z) z.
Proof. intros H. pose proof (rep_float_of_int z H) as R. split; [|exact R]. apply float_of_int_finite, R. Qed.
Lemma fint_one : fint float_one 1.
Proof. split; [split; [reflexivity|exact Logic.I]|exact rep_one]. Qed.
Lemma fint_is x z : finite_float x -> is_int x z -> fint x z.
Proof. intros F H. split; [exact F|now apply is_int_rep]. Qed.
Lemma fint_int x z : fint x z -> is_int x z.
Proof. intros [_ R]. now apply rep_is_int. Qed.
Lemma fint_close x z y : fint x z -> coord_close y x -> is_int y z.
Proof.
  intros I H. destruct (H (proj1 I)) as [_ C]. rewrite C; [now apply fint_int|]. right. destruct I as [_ (_ & _ & V)].
  exists (16 * z). rewrite <- Z.mul_assoc. f_equal. exact V.
Qed.

(** ---- announced formats ---- *)
Definition format_mask (f : format) : Z := match f with Rectangle => 2 | Polygon => 4 | Pixels => 8 end.
Lemma supports_announces z f : supports z (format_mask f) = announces z f.
Proof. destruct f; [apply (supports_bit z 1)|apply (supports_bit z 2)|apply (supports_bit z 3)]; lia. Qed.
Lemma supports_client z f : supports (Z.land z 14) (format_mask f) = announces z f.
Proof.
  rewrite supports_announces. unfold announces. destruct f; rewrite Z.land_spec; cbn [Z.testbit Pos.testbit]; apply andb_true_r.
Qed.
Lemma format_of r f : in_format f r -> region_bit r = format_mask f.
Proof. destruct f, r; cbn [in_format]; intros H; try contradiction; reflexivity. Qed.

Lemma argument_converted legacy z r s f : announces z f = false -> in_format f r -> (exists f, announces z f = true) ->
  convert legacy r (match preferred z with Pixels => MASK | Polygon => POLYGON | Rectangle => RECTANGLE end) = Ok (Some s) ->
  in_format (preferred z) s -> region_argument legacy (Z.land z 14) r = region_argument legacy (Z.land z 14) s /\ announces z (preferred z) = true.
Proof.
  intros Hf Hr (g & Hg) E Hs. assert (P : announces z (preferred z) = true).
  { unfold preferred. destruct (announces z Pixels) eqn:E1; [exact E1|]. destruct (announces z Polygon) eqn:E2; [exact E2|].
    destruct g; congruence. }
  split; [|exact P]. unfold region_argument. rewrite (format_of r f Hr), (format_of s (preferred z) Hs), !supports_client, Hf, P. cbn [negb].
  replace (region_autoconvert legacy r (Z.land z 14)) with (Ok (Some s)); [reflexivity|]. rewrite <- E. unfold region_autoconvert.
  change TRAX_REGION_MASK with (format_mask Pixels). change TRAX_REGION_POLYGON with (format_mask Polygon).
  change TRAX_REGION_RECTANGLE with (format_mask Rectangle). rewrite !supports_client. unfold preferred in *.
  destruct (announces z Pixels); [reflexivity|]. destruct (announces z Polygon); [reflexivity|]. now rewrite P.
Qed.

(** What a client sends for [r]: the text of [s], which arrives as [q]. *)
Definition sent_as (legacy : bool) (z : Z) (r s q : region) : Prop :=
  region_argument legacy (Z.land z 14) r = region_argument legacy (Z.land z 14) s /\ (forall c, s <> RSpecial c) /\
  supports z (region_bit s) = true /\ region_arrives s q.

Lemma own_format legacy z r q f : announces z f = true -> in_format f r -> in_format f q -> region_arrives r q ->
  sent_as legacy z r r q /\ received legacy z r q.
Proof.
  intros Ha Hr Hq A. split.
  - split; [reflexivity|]. split; [intros c ->; destruct f; contradiction|]. split; [|exact A].
    rewrite (format_of r f Hr), supports_announces. exact Ha.
  - split; [now exists f|]. left. split; [|exact A]. exists f. auto.
Qed.
Lemma other_format legacy z r s q f : announces z f = false -> in_format f r -> (exists f, announces z f = true) ->
  convert legacy r (match preferred z with Pixels => MASK | Polygon => POLYGON | Rectangle => RECTANGLE end) = Ok (Some s) ->
  in_format (preferred z) s -> in_format (preferred z) q -> region_arrives s q -> same_place legacy r q ->
  sent_as legacy z r s q /\ received legacy z r q.
Proof.
  intros Ha Hr He E Hs Hq A P. destruct (argument_converted legacy z r s f Ha Hr He E Hs) as [X Y]. split.
  - split; [exact X|]. split; [intros c ->; destruct (preferred z); contradiction|]. split; [|exact A].
    rewrite (format_of s _ Hs), supports_announces. exact Y.
  - split; [now exists (preferred z)|]. right. split; [|split; [exact Hq|exact P]].
    intros g Hg. destruct r, f, g; try contradiction; exact Ha.
Qed.

(** ---- arrival of regions with integer coordinates ---- *)
Lemma fints_rect x y w h X Y W H : fint x X -> fint y Y -> fint w W -> fint h H ->
  exists qx qy qw qh, region_arrives (RRect x y w h) (RRect qx qy qw qh) /\ is_int qx X /\ is_int qy Y /\ is_int qw W /\ is_int qh H.
Proof.
  intros Hx Hy Hw Hh. destruct (rect_arrives x y w h (proj1 Hx) (proj1 Hy) (proj1 Hw) (proj1 Hh)) as (a & b & c & d & A & C1 & C2 & C3 & C4).
  exists a, b, c, d. split; [exact A|]. split; [exact (fint_close _ _ _ Hx C1)|]. split; [exact (fint_close _ _ _ Hy C2)|].
  split; [exact (fint_close _ _ _ Hw C3)|exact (fint_close _ _ _ Hh C4)].
Qed.
Definition fint_point (p : spec_float * spec_float) (q : Z * Z) : Prop := fint (fst p) (fst q) /\ fint (snd p) (snd q).
Lemma fints_poly pts l : (3 <= List.length pts)%nat -> Forall2 fint_point pts l ->
  exists qs, region_arrives (RPoly pts) (RPoly qs) /\ Forall2 int_point qs l.
Proof.
  intros Hn H. destruct (poly_arrives pts Hn) as (qs & A & C).
  { clear - H. induction H as [|p q ps ls [H1 H2] H IH]; constructor; [split; [apply H1|apply H2]|exact IH]. }
  exists qs. split; [exact A|]. clear - H C. revert l H. induction C as [|q p qs ps [C1 C2] C IH]; intros l H; inversion H as [|? z ? zs [H1 H2] H']; subst; constructor.
  - split; [exact (fint_close _ _ _ H1 C1)|exact (fint_close _ _ _ H2 C2)].
  - now apply IH.
Qed.
Lemma value_foreground x y w h data data' A B : foreground data = foreground data' ->
  set_at x y w h data A B <-> set_at x y w h data' A B.
Proof.
  intros E. unfold set_at, value_at. destruct (_ && _ && _ && _); [|reflexivity].
  assert (X : forall d, nth (Z.to_nat ((B - y) * w + (A - x))) d 0%N <> 0%N <-> nth (Z.to_nat ((B - y) * w + (A - x))) (foreground d) false = true).
  { intros d. unfold foreground. change false with (negb (0 =? 0)%N). rewrite (map_nth (fun d => negb (d =? 0)%N)).
    destruct (nth _ d 0%N =? 0)%N eqn:Z; cbn [negb]; [apply N.eqb_eq in Z|apply N.eqb_neq in Z]; split; intros; congruence. }
  rewrite !X, E. reflexivity.
Qed.
Lemma foreground_length data data' : foreground data = foreground data' -> List.length data = List.length data'.
Proof. intros E. apply (f_equal (@List.length bool)) in E. unfold foreground in E. now rewrite !map_length in E. Qed.

Section OTHER.
  Variables (legacy : bool) (z : Z).
  Hypothesis some_format : exists f, announces z f = true.

  Lemma rect_other x y w h X Y W H : announces z Rectangle = false -> fint x X -> fint y Y -> fint w W -> fint h H ->
    Z.abs X <= 2 ^ 22 -> Z.abs Y <= 2 ^ 22 -> 0 < W -> 0 < H -> W * H <= 2 ^ 22 ->
    exists s q, sent_as legacy z (RRect x y w h) s q /\ received legacy z (RRect x y w h) q.
  Proof.
    intros Hn Hx Hy Hw Hh BX BY HW HH BA.
    assert (BW : W <= 2 ^ 22) by (apply (Z.le_trans _ (W * H)); [|exact BA]; rewrite <- (Z.mul_1_r W) at 1; apply Z.mul_le_mono_nonneg_l; lia).
    assert (BH : H <= 2 ^ 22) by (apply (Z.le_trans _ (W * H)); [|exact BA]; rewrite <- (Z.mul_1_l H) at 1; apply Z.mul_le_mono_nonneg_r; lia).
    assert (P : preferred z = Pixels \/ preferred z = Polygon).
    { unfold preferred. destruct (announces z Pixels) eqn:E1; [now left|]. destruct (announces z Polygon) eqn:E2; [now right|].
      destruct some_format as ([| |] & E); congruence. }
    destruct P as [P|P].
    - destruct (rect_mask_exact legacy x y w h X Y W H (proj2 Hx) (proj2 Hy) (proj2 Hw) (proj2 Hh) HW HH) as (data & E & M & HS);
        try (unfold exact_span; lia); try (apply in_int_of; unfold INT_MIN, INT_MAX; lia).
      assert (HS' : set_at X Y W H data X Y) by (apply HS; lia).
      pose proof M as (_ & _ & Mi & Ml).
      destruct (mask_arrives X Y W H data) as (data' & A & F); try (unfold exact_int; lia); try assumption.
      { unfold set_at, value_at in HS'. destruct (_ && _ && _ && _) in HS'; [|congruence].
        eexists. split; [|exact HS']. destruct (nth_in_or_default (Z.to_nat ((Y - Y) * W + (X - X))) data 0%N) as [I0|D]; [exact I0|congruence]. }
      { intros a m b v E' _. apply (f_equal (@List.length bool)) in E'. rewrite !app_length in E'. unfold foreground in E'. rewrite map_length in E'. lia. }
      exists (RMask X Y W H data), (RMask X Y W H data').
      apply (other_format legacy z _ _ _ Rectangle); try assumption; try (rewrite P; exact Logic.I); [exact Logic.I|rewrite P; exact E|].
      cbn [same_place]. split; [now apply fint_int|]. split; [now apply fint_int|]. split; [now apply fint_int|]. split; [now apply fint_int|].
      split; [split; [exact HW|split; [exact HH|split; [exact Mi|rewrite (foreground_length _ _ F); exact Ml]]]|].
      intros a b. rewrite (value_foreground X Y W H data' data a b F). apply HS.
    - set (l := if legacy then corners X Y (X + W) (Y + H) else corners X Y (X + W - 1) (Y + H - 1)).
      destruct (fints_poly (rect_points legacy x y w h) l) as (qs & A & C); [cbn; lia| |].
      { pose proof (fint_add _ _ _ _ Hx Hw ltac:(lia)) as Sx. pose proof (fint_add _ _ _ _ Hy Hh ltac:(lia)) as Sy.
        pose proof (fint_sub _ _ _ _ Sx fint_one ltac:(lia)) as Dx. pose proof (fint_sub _ _ _ _ Sy fint_one ltac:(lia)) as Dy.
        unfold l, rect_points, corners. destruct legacy; repeat (apply Forall2_cons; [split; assumption|]); apply Forall2_nil. }
      exists (RPoly (rect_points legacy x y w h)), (RPoly qs).
      apply (other_format legacy z _ _ _ Rectangle); try assumption; try (rewrite P; exact Logic.I); [exact Logic.I|rewrite P; reflexivity|].
      cbn [same_place]. exists X, Y, W, H. split; [now apply fint_int|]. split; [now apply fint_int|]. split; [now apply fint_int|]. split; [now apply fint_int|]. exact C.
  Qed.

  Lemma mask_box x y w h data : mask_ok w h data -> exact_span x w -> exact_span y h -> (exists X Y, set_at x y w h data X Y) ->
    exists b l t r bo, bounds_mask x y w h data = Ok b /\ fint (left b) l /\ fint (top b) t /\ fint (right b) r /\ fint (bottom b) bo /\
      tight_box (set_at x y w h data) l t r bo /\ x <= l <= r /\ r < x + w /\ y <= t <= bo /\ bo < y + h.
  Proof.
    intros Hm Hx Hy HS. destruct (mask_bounds_tight x y w h data Hm Hx Hy HS) as (b & l & t & r & bo & E & (B1 & B2 & B3 & B4) & T & R).
    exists b, l, t, r, bo. split; [exact E|].
    unfold bounds_mask in E. destruct (for_range _ _ _ _) as [b0| | |]; try discriminate. cbn [obind] in E. injection E as <-.
    unfold shift_bounds in *. cbn [left top right bottom] in *.
    split; [split; [apply addf_finite, B3|exact B3]|]. split; [split; [apply addf_finite, B1|exact B1]|].
    split; [split; [apply addf_finite, B4|exact B4]|]. split; [split; [apply addf_finite, B2|exact B2]|]. split; [exact T|exact R].
  Qed.
  Lemma mask_other x y w h data : announces z Pixels = false -> mask_ok w h data -> exact_span x w -> exact_span y h ->
    (exists X Y, set_at x y w h data X Y) ->
    exists s q, sent_as legacy z (RMask x y w h data) s q /\ received legacy z (RMask x y w h data) q.
  Proof.
    intros Hn Hm Hx Hy HS. destruct (mask_box x y w h data Hm Hx Hy HS) as (b & l & t & r & bo & E & F1 & F2 & F3 & F4 & T & R).
    destruct Hx as (X1 & X2 & X3). destruct Hy as (Y1 & Y2 & Y3).
    assert (P : preferred z = Polygon \/ preferred z = Rectangle).
    { unfold preferred. rewrite Hn. destruct (announces z Polygon); auto. }
    destruct P as [P|P].
    - destruct (fints_poly [(left b, top b); (right b, top b); (right b, bottom b); (left b, bottom b)] (corners l t r bo)) as (qs & A & C);
        [cbn; lia|unfold corners; repeat (apply Forall2_cons; [split; assumption|]); apply Forall2_nil|].
      exists (RPoly [(left b, top b); (right b, top b); (right b, bottom b); (left b, bottom b)]), (RPoly qs).
      apply (other_format legacy z _ _ _ Pixels); try assumption; try (rewrite P; exact Logic.I); [exact Logic.I|rewrite P; cbn [convert]; rewrite E; reflexivity|].
      cbn [same_place]. exists l, t, r, bo. now split.
    - pose proof (fint_add _ _ _ _ (fint_sub _ _ _ _ F3 F1 ltac:(lia)) fint_one ltac:(lia)) as Hw.
      pose proof (fint_add _ _ _ _ (fint_sub _ _ _ _ F4 F2 ltac:(lia)) fint_one ltac:(lia)) as Hh.
      destruct (fints_rect _ _ _ _ _ _ _ _ F1 F2 Hw Hh) as (a & c & d & e & A & C1 & C2 & C3 & C4).
      eexists. exists (RRect a c d e).
      apply (other_format legacy z _ _ _ Pixels); try assumption; try (rewrite P; exact Logic.I); [exact Logic.I|rewrite P; cbn [convert]; rewrite E; reflexivity|rewrite P; exact Logic.I|exact A|].
      cbn [same_place]. exists l, t, r, bo. auto.
  Qed.

  Lemma min_units c v : is_int c v -> 1 <= v -> units FLT_MIN <= units c.
  Proof.
    intros [_ V] Hv. rewrite V. replace (units FLT_MIN) with (8388608 * 2 ^ 925) by reflexivity.
    replace (2 ^ 1074) with (2 ^ 149 * 2 ^ 925) by (rewrite <- Z.pow_add_r by lia; reflexivity).
    rewrite Z.mul_assoc. apply Z.mul_le_mono_nonneg_r; [apply Z.pow_nonneg; lia|]. change (2 ^ 149) with 713623846352979940529142984724747568191373312. lia.
  Qed.
  Lemma whole_in c cs : Forall whole_coordinate cs -> In c cs -> exists v, fint c v /\ Z.abs v <= 2 ^ 22.
  Proof. intros H I0. rewrite Forall_forall in H. destruct (H c I0) as (F & v & Hv & B). exists v. split; [now apply fint_is|exact B]. Qed.
  Lemma poly_other pts : announces z Polygon = false -> announces z Pixels = false -> (3 <= List.length pts)%nat ->
    Forall (fun p => whole_coordinate (fst p) /\ whole_coordinate (snd p)) pts ->
    (exists p v, In p pts /\ is_int (fst p) v /\ 1 <= v) -> (exists p v, In p pts /\ is_int (snd p) v /\ 1 <= v) ->
    exists s q, sent_as legacy z (RPoly pts) s q /\ received legacy z (RPoly pts) q.
  Proof.
    intros Hn Hm Hl Hw (p1 & v1 & I1 & V1 & L1) (p2 & v2 & I2 & V2 & L2).
    assert (Hf : Forall point_finite pts) by (apply Forall_forall; intros p Hp; rewrite Forall_forall in Hw; destruct (Hw p Hp) as [[A _] [B _]]; now split).
    assert (Wx : Forall whole_coordinate (map fst pts)).
    { apply Forall_forall. intros c Hc. apply in_map_iff in Hc as (p & <- & Hp). rewrite Forall_forall in Hw. apply Hw, Hp. }
    assert (Wy : Forall whole_coordinate (map snd pts)).
    { apply Forall_forall. intros c Hc. apply in_map_iff in Hc as (p & <- & Hp). rewrite Forall_forall in Hw. apply Hw, Hp. }
    pose proof (convert_polygon_rectangle legacy pts Hf
      (ex_intro _ p1 (conj I1 (min_units _ _ V1 L1))) (ex_intro _ p2 (conj I2 (min_units _ _ V2 L2)))) as E. cbv zeta in E.
    destruct (polygon_bounds_spec pts) as (Hc & A1 & A2 & A3 & A4); [intros ->; cbn in Hl; lia|exact Hf|].
    set (b := bounds_polygon pts) in *. clearbody b.
    destruct (whole_in _ _ Wx A1) as (l & F1 & B1). destruct (whole_in _ _ Wx A2) as (r & F2 & B2).
    destruct (whole_in _ _ Wy A3) as (t & F3 & B3). destruct (whole_in _ _ Wy A4) as (bo & F4 & B4).
    pose proof (fint_sub _ _ _ _ F2 F1 ltac:(lia)) as Gw. pose proof (fint_sub _ _ _ _ F4 F3 ltac:(lia)) as Gh.
    destruct (fints_rect _ _ _ _ _ _ _ _ F1 F3 Gw Gh) as (a & c & d & e & A & C1 & C2 & C3 & C4).
    assert (P : preferred z = Rectangle) by (unfold preferred; now rewrite Hm, Hn).
    eexists. exists (RRect a c d e).
    apply (other_format legacy z _ _ _ Polygon); try assumption; try (rewrite P; exact Logic.I);
      [exact Logic.I|rewrite P; exact E|rewrite P; exact Logic.I|exact A|].
    cbn [same_place]. exists l, t, r, bo.
    destruct (fint_int _ _ F1) as [_ U1]. destruct (fint_int _ _ F2) as [_ U2]. destruct (fint_int _ _ F3) as [_ U3]. destruct (fint_int _ _ F4) as [_ U4].
    split; [|split; [|auto]].
    - split; [|split; [exists (left b); split; [exact A1|now apply fint_int]|exists (right b); split; [exact A2|now apply fint_int]]].
      apply Forall_forall. intros u Hu. apply in_map_iff in Hu as (p & <- & Hp). rewrite Forall_forall in Hc. destruct (Hc p Hp) as [Q _].
      rewrite U1, U2 in Q. exact Q.
    - split; [|split; [exists (top b); split; [exact A3|now apply fint_int]|exists (bottom b); split; [exact A4|now apply fint_int]]].
      apply Forall_forall. intros u Hu. apply in_map_iff in Hu as (p & <- & Hp). rewrite Forall_forall in Hc. destruct (Hc p Hp) as [_ Q].
      rewrite U3, U4 in Q. exact Q.
  Qed.
End OTHER.

Lemma presented legacy z r : presentable z r -> exists s q, sent_as legacy z r s q /\ received legacy z r q.
Proof.
  intros [Hz H]. destruct r as [c|x y w h|pts|x y w h data].
  - contradiction.
  - destruct H as (Fx & Fy & Fw & Fh & H). destruct (announces z Rectangle) eqn:Ha.
    + destruct (rect_arrives x y w h Fx Fy Fw Fh) as (a & b & c & d & A & _). exists (RRect x y w h), (RRect a b c d).
      now apply (own_format legacy z _ _ Rectangle).
    + destruct (H eq_refl) as (X & Y & W & HH & I1 & I2 & I3 & I4 & B1 & B2 & B3 & B4 & B5).
      apply (rect_other legacy z Hz x y w h X Y W HH); try assumption; now apply fint_is.
  - destruct H as (Hf & Hl & H). destruct (announces z Polygon) eqn:Ha.
    + destruct (poly_arrives pts Hl Hf) as (qs & A & _). exists (RPoly pts), (RPoly qs). now apply (own_format legacy z _ _ Polygon).
    + destruct (H eq_refl) as (Hm & Hw & P1 & P2). now apply (poly_other legacy z Hz pts).
  - destruct H as (Hm & Hx & Hy & (d & Hd & Nd) & Hs). destruct (announces z Pixels) eqn:Ha.
    + pose proof Hm as (M1 & M2 & M3 & M4).
      destruct (mask_arrives x y w h data) as (data' & A & _); try assumption; try (unfold exact_span, exact_int in *; lia); [now exists d|].
      exists (RMask x y w h data), (RMask x y w h data'). now apply (own_format legacy z _ _ Pixels).
    + apply (mask_other legacy z Hz); try assumption. apply In_nth_error in Hd as (k & Hk).
      assert (Lk : (k < List.length data)%nat) by (apply nth_error_Some; congruence). destruct Hm as (M1 & M2 & M3 & M4).
      exists (x + Z.of_nat k mod w), (y + Z.of_nat k / w). unfold set_at, value_at.
      pose proof (Z.mod_pos_bound (Z.of_nat k) w M1) as Hmod. pose proof (Z.div_mod (Z.of_nat k) w ltac:(lia)) as Hdm.
      assert (D0 : 0 <= Z.of_nat k / w) by (apply Z.div_pos; lia).
      assert (D1 : Z.of_nat k / w < h) by (apply Z.div_lt_upper_bound; lia).
      replace ((x <=? x + Z.of_nat k mod w) && (x + Z.of_nat k mod w <? x + w) && (y <=? y + Z.of_nat k / w) && (y + Z.of_nat k / w <? y + h)) with true
        by (symmetry; rewrite !andb_true_iff; lia).
      replace (Z.to_nat ((y + Z.of_nat k / w - y) * w + (x + Z.of_nat k mod w - x))) with k
        by (replace ((y + Z.of_nat k / w - y) * w + (x + Z.of_nat k mod w - x)) with (Z.of_nat k) by lia; now rewrite Nat2Z.id).
      now rewrite (nth_error_nth _ _ 0%N Hk).
Qed.

(** ---- sessions ---- *)
Definition same_argument (legacy : bool) (z : Z) (a b : region * props) : Prop :=
  region_argument legacy (Z.land z 14) (fst a) = region_argument legacy (Z.land z 14) (fst b) /\ snd a = snd b.
Lemma send_objects_same legacy z l l' : Forall2 (same_argument legacy z) l l' -> forall h, md_region (h_meta h) = Z.land z 14 ->
  send_objects legacy h l = send_objects legacy h l'.
Proof.
  induction 1 as [|[a p] [b p'] l l' [E E'] H IH]; intros h Hh; [reflexivity|]. cbn [fst snd] in *. subst p'. cbn [send_objects].
  rewrite Hh, E. destruct (region_argument legacy (Z.land z 14) b); try reflexivity. cbn [obind]. apply IH. exact Hh.
Qed.
Lemma same_lengths legacy z l l' : Forall2 (same_argument legacy z) l l' -> List.length l = List.length l'.
Proof. induction 1; cbn; congruence. Qed.
Lemma frame_same legacy z l l' c images p : Forall2 (same_argument legacy z) l l' -> md_region (h_meta c) = Z.land z 14 ->
  client_frame legacy c images (Some l) p = client_frame legacy c images (Some l') p.
Proof.
  intros H Hc. unfold client_frame. rewrite (same_lengths _ _ _ _ H). rewrite (send_objects_same legacy z l l' H (clear_error c) Hc). reflexivity.
Qed.
Lemma initialize_same legacy z l l' c images p : Forall2 (same_argument legacy z) l l' -> md_region (h_meta c) = Z.land z 14 -> is_version_4 c = true ->
  client_initialize legacy c images l p = client_initialize legacy c images l' p.
Proof.
  intros H Hc Hv.
  assert (X : client_frame legacy (if 0 <? h_objects (clear_error c) then set_objects (handle_write (clear_error c) MInitialize [] None) 0 else clear_error c) images (Some l) p
    = client_frame legacy (if 0 <? h_objects (clear_error c) then set_objects (handle_write (clear_error c) MInitialize [] None) 0 else clear_error c) images (Some l') p).
  { apply (frame_same legacy z); [exact H|]. destruct (0 <? h_objects (clear_error c)); exact Hc. }
  unfold client_initialize. cbv zeta. rewrite (same_lengths _ _ _ _ H).
  replace (is_version_4 (clear_error c)) with true by (symmetry; exact Hv).
  destruct (h_server c); [reflexivity|]. destruct (negb (alive (clear_error c))); [reflexivity|].
  destruct (Z.of_nat (List.length l') <? 1); [reflexivity|]. destruct (is_multi_object (clear_error c)) as [mo| | |]; try reflexivity. cbn [obind].
  destruct (negb mo && (1 <? Z.of_nat (List.length l'))); [reflexivity|exact X].
Qed.

Definition with_objects (r : round) (l : object_list) : round :=
  mkRound (rd_init r) (rd_images r) l (rd_props r) (rd_reply r) (rd_cut1 r) (rd_cut2 r).
Lemma round_same legacy slack z c s r l : Forall2 (same_argument legacy z) (rd_objects r) l -> md_region (h_meta c) = Z.land z 14 -> is_version_4 c = true ->
  play_round legacy slack c s r = play_round legacy slack c s (with_objects r l).
Proof.
  intros H Hc Hv. unfold play_round, with_objects. cbn [rd_init rd_images rd_objects rd_props rd_reply rd_cut1 rd_cut2].
  rewrite (same_lengths _ _ _ _ H). destruct (rd_init r).
  - rewrite (initialize_same legacy z _ _ c (rd_images r) (rd_props r) H Hc Hv). reflexivity.
  - pose proof (frame_same legacy z _ _ c (rd_images r) (rd_props r) H Hc) as E.
    match type of E with ?x = _ => match goal with |- obind ?y _ = _ => change y with x end end. rewrite E. reflexivity.
Qed.

Lemma presented_all legacy z l : Forall (object_presentable z) l ->
  exists l', Forall2 (same_argument legacy z) l l' /\ Forall (object_sendable z) l' /\
    forall k, objects_arrive l' k -> Forall2 (object_received legacy z) l k.
Proof.
  induction 1 as [|[r p] l [Hr Hp] H (l' & A & B & C)].
  - exists []. split; [constructor|]. split; [constructor|]. intros k Hk. inversion Hk. constructor.
  - cbn [fst snd] in *. destruct (presented legacy z r Hr) as (s & q & (E1 & E2 & E3 & E4) & Hq).
    exists ((s, p) :: l'). split; [constructor; [now split|exact A]|].
    split; [constructor; [split; [exact E2|split; [exact E3|split; [now exists q|exact Hp]]]|exact B]|].
    intros k Hk. inversion Hk as [|? [q' p'] ? k' (Q1 & Q2 & Q3) Hk']; subst. cbn [fst snd] in *. constructor; [|now apply C].
    rewrite <- (arrives_unique _ _ _ E4 Q1). split; [exact Hq|]. now split.
Qed.

Lemma any_round_delivers legacy slack m multi n c s r : client_side m multi n c -> server_side m multi n s ->
  1 <= md_channels m <= 7 -> any_round slack m multi n r ->
  exists c' s' sn, play_round legacy slack c s r = Ok (c', s', sn) /\ client_side m multi (tracked n r) c' /\
    server_side m multi (tracked n r) s' /\ any_seen legacy slack m n r sn.
Proof.
  intros Hc Hs Hch (R1 & R2 & R3 & R4 & R5 & R6 & R7 & R8 & R9 & R10).
  destruct (presented_all legacy (md_region m) (rd_objects r) R4) as (l & A & B & C).
  pose proof (same_lengths _ _ _ _ A) as HL.
  assert (HT : tracked n (with_objects r l) = tracked n r) by (unfold tracked, with_objects; cbn [rd_init rd_objects]; now rewrite HL).
  assert (HR : round_ok slack m multi n (with_objects r l)).
  { unfold round_ok. rewrite HT. unfold with_objects. cbn [rd_init rd_images rd_objects rd_props rd_reply rd_cut1 rd_cut2].
    refine (conj R1 (conj R2 (conj R3 (conj B (conj R5 (conj _ (conj R7 (conj R8 (conj R9 R10))))))))).
    intros Hi. specialize (R6 Hi). intros ->. apply R6. now destruct (rd_objects r). }
  destruct (round_delivers legacy slack m multi n c s _ Hc Hs Hch HR) as (c' & s' & sn & E & Hc' & Hs' & Hsn). rewrite HT in *.
  exists c', s', sn. split.
  { rewrite <- E. destruct Hc as (_ & _ & H4 & Hm & _). now apply (round_same legacy slack (md_region m)). }
  split; [exact Hc'|]. split; [exact Hs'|].
  destruct Hsn as (S1 & S2 & S3 & S4 & S5 & S6 & S7 & S8). unfold with_objects in *. cbn [rd_init rd_images rd_objects rd_props rd_reply] in *.
  refine (conj S1 (conj S2 (conj S3 (conj _ (conj S5 (conj S6 (conj S7 S8))))))).
  destruct (rd_objects r) as [|o os]; destruct l as [|o' os']; try discriminate HL; [exact S4|].
  destruct S4 as (k & K1 & K2). exists k. split; [exact K1|]. now apply C.
Qed.

Lemma any_play_delivers legacy slack m multi : 1 <= md_channels m <= 7 -> forall rs n c s, client_side m multi n c -> server_side m multi n s ->
  any_rounds slack m multi n rs ->
  exists c' s' sns, play legacy slack c s rs = Ok (c', s', sns) /\ client_side m multi (tracked_all n rs) c' /\
    server_side m multi (tracked_all n rs) s' /\ all_any_seen legacy slack m n rs sns.
Proof.
  intros Hch. induction rs as [|r rs IH]; intros n c s Hc Hs H; cbn [any_rounds play] in *.
  - exists c, s, []. cbn [tracked_all all_any_seen]. auto.
  - destruct H as (Hr & Hrs). destruct (any_round_delivers legacy slack m multi n c s r Hc Hs Hch Hr) as (c1 & s1 & sn & E & Hc1 & Hs1 & Hsn).
    rewrite E. cbn [obind]. destruct (IH _ _ _ Hc1 Hs1 Hrs) as (c2 & s2 & sns & E' & Hc2 & Hs2 & Hsns). rewrite E'. cbn [obind].
    exists c2, s2, (sn :: sns). cbn [tracked_all all_any_seen]. auto.
Qed.

Lemma any_session_delivers legacy slack m version cut sched_s sched_c rs : metadata_ok m version -> spoken version = 4 -> cutter cut ->
  no_error sched_s -> no_error sched_c -> any_rounds slack m (multi_object m version) 0 rs ->
  exists c s c' s' sns, connect m version cut sched_s sched_c = Ok (Some (c, s)) /\ play legacy slack c s rs = Ok (c', s', sns) /\
    all_any_seen legacy slack m 0 rs sns.
Proof.
  intros Hm H4 Hcut Hs Hc Hrs. pose proof Hm as (_ & _ & _ & _ & Hch & _).
  destruct (connect_ok m version cut sched_s sched_c Hm Hcut Hs Hc)
    as (c & s & E & Vc & Vs & Hcv & A1 & A2 & A3 & A4 & A5 & A6 & A7 & A8 & A9 & A10 & A11 & A12 & A13).
  destruct Hcv as (B1 & B2 & B3 & B4 & B5 & B6 & B7 & B8). rewrite H4 in B3. cbn [Z.eqb Pos.eqb] in B3.
  assert (Hcs : client_side m (multi_object m version) 0 c).
  { unfold client_side. repeat match goal with |- _ /\ _ => split end; try assumption.
    - unfold is_version_4. rewrite Vc, H4. reflexivity.
    - unfold is_multi_object. rewrite B8. now destruct (multi_object m version). }
  assert (Hss : server_side m (multi_object m version) 0 s).
  { unfold server_side. repeat match goal with |- _ /\ _ => split end; try assumption. now apply A13. }
  destruct (any_play_delivers legacy slack m (multi_object m version) Hch rs 0%nat c s Hcs Hss Hrs) as (c' & s' & sns & E' & _ & _ & Hsn).
  now exists c, s, c', s', sns.
Qed.

(** Versions 1 to 3 *)
Definition with_region (r : sround) (o : option region) : sround :=
  mkSround o (sr_images r) (sr_props r) (sr_reply r) (sr_cut1 r) (sr_cut2 r).
Lemma sround_same legacy slack z c s r reg reg' : sr_object r = Some reg ->
  region_argument legacy (Z.land z 14) reg = region_argument legacy (Z.land z 14) reg' ->
  (forall k, reg <> RSpecial k) -> (forall k, reg' <> RSpecial k) -> md_region (h_meta c) = Z.land z 14 -> is_version_4 c = false ->
  play_sround legacy slack c s r = play_sround legacy slack c s (with_region r (Some reg')).
Proof.
  intros Ho E N N' Hc Hv. unfold play_sround, with_region. cbn [sr_object sr_images sr_props sr_reply sr_cut1 sr_cut2]. rewrite Ho.
  replace (client_initialize legacy c (sr_images r) [(reg', props_create)] (sr_props r))
    with (client_initialize legacy c (sr_images r) [(reg, props_create)] (sr_props r)); [reflexivity|].
  unfold client_initialize. replace (is_version_4 (clear_error c)) with false by (symmetry; exact Hv).
  replace (md_region (h_meta (clear_error c))) with (Z.land z 14) by (symmetry; exact Hc). rewrite E.
  assert (X : forall q, (forall k, q <> RSpecial k) -> (region_bit q =? 1) = false) by (intros [k| | |] Hq; [now destruct (Hq k)|reflexivity..]).
  rewrite (X reg N), (X reg' N'). reflexivity.
Qed.
Lemma any_sround_delivers legacy slack m n c s r : sclient m n c -> sserver m s -> 1 <= md_channels m <= 7 ->
  any_sround slack m r -> n = 1 \/ sr_object r <> None ->
  exists c' s' sn, play_sround legacy slack c s r = Ok (c', s', sn) /\ sclient m 1 c' /\ sserver m s' /\ any_sseen legacy slack m r sn.
Proof.
  intros Hc Hs Hch (R1 & R2 & R3 & R4 & R5 & R6) Hn. destruct (sr_object r) as [reg|] eqn:Eo.
  - destruct (presented legacy (md_region m) reg R4) as (q & q' & (E1 & E2 & E3 & E4) & Hq).
    assert (HR : sround_ok slack m (with_region r (Some q))).
    { unfold sround_ok, with_region. cbn [sr_object sr_images sr_props sr_reply sr_cut1 sr_cut2].
      refine (conj R1 (conj R2 (conj R3 (conj _ (conj R5 R6))))). split; [exact E2|]. split; [exact E3|]. now exists q'. }
    destruct (sround_delivers legacy slack m n c s _ Hc Hs Hch HR) as (c' & s' & sn & E & Hc' & Hs' & Hsn); [right; discriminate|].
    exists c', s', sn. split.
    { rewrite <- E. destruct Hc as (_ & _ & H4 & Hm & _). apply (sround_same legacy slack (md_region m) c s r reg q Eo E1); try assumption.
      intros k ->. destruct R4 as [_ []]. }
    split; [exact Hc'|]. split; [exact Hs'|].
    destruct Hsn as (S1 & S2 & S3 & (g & G1 & G2) & S5). unfold with_region in *. cbn [sr_object sr_images sr_props sr_reply] in *.
    unfold any_sseen. rewrite Eo. refine (conj S1 (conj S2 (conj S3 (conj _ S5)))).
    exists g. split; [exact G1|]. now rewrite <- (arrives_unique _ _ _ E4 G2).
  - assert (HR : sround_ok slack m r).
    { unfold sround_ok. rewrite Eo. exact (conj R1 (conj R2 (conj R3 (conj Logic.I (conj R5 R6))))). }
    destruct (sround_delivers legacy slack m n c s r Hc Hs Hch HR ltac:(rewrite Eo; exact Hn)) as (c' & s' & sn & E & Hc' & Hs' & Hsn).
    exists c', s', sn. split; [exact E|]. split; [exact Hc'|]. split; [exact Hs'|].
    unfold any_sseen. unfold sseen_ok in Hsn. rewrite Eo in *. exact Hsn.
Qed.
Lemma any_splay_delivers legacy slack m : 1 <= md_channels m <= 7 -> forall rs n c s, sclient m n c -> sserver m s ->
  Forall (any_sround slack m) rs -> n = 1 \/ match rs with [] => True | r :: _ => sr_object r <> None end ->
  exists c' s' sns, splay legacy slack c s rs = Ok (c', s', sns) /\ Forall2 (any_sseen legacy slack m) rs sns.
Proof.
  intros Hch. induction rs as [|r rs IH]; intros n c s Hc Hs H Hn; cbn [splay].
  - exists c, s, []. now split.
  - inversion H as [|? ? Hr Hrs]; subst.
    destruct (any_sround_delivers legacy slack m n c s r Hc Hs Hch Hr Hn) as (c1 & s1 & sn & E & Hc1 & Hs1 & Hsn).
    rewrite E. cbn [obind]. destruct (IH 1 c1 s1 Hc1 Hs1 Hrs ltac:(now left)) as (c2 & s2 & sns & E' & Hsns). rewrite E'. cbn [obind].
    exists c2, s2, (sn :: sns). split; [reflexivity|]. now constructor.
Qed.
Lemma any_ssession_delivers legacy slack m version cut sched_s sched_c rs : metadata_ok m version -> spoken version <> 4 ->
  (spoken version = 1 -> md_channels m = TRAX_CHANNEL_COLOR) -> cutter cut ->
  no_error sched_s -> no_error sched_c -> any_srounds slack m rs ->
  exists c s c' s' sns, connect m version cut sched_s sched_c = Ok (Some (c, s)) /\ splay legacy slack c s rs = Ok (c', s', sns) /\
    Forall2 (any_sseen legacy slack m) rs sns.
Proof.
  intros Hm H4 H1 Hcut Hs Hc (Hrs & Hfst). pose proof Hm as (Hv & _ & _ & _ & Hch & _). pose proof (spoken_range version Hv) as Hsv.
  destruct (connect_ok m version cut sched_s sched_c Hm Hcut Hs Hc)
    as (c & s & E & Vc & Vs & Hcv & A1 & A2 & A3 & A4 & A5 & A6 & A7 & A8 & A9 & A10 & A11 & A12 & A13).
  destruct Hcv as (B1 & B2 & B3 & B4 & B5 & B6 & B7 & B8).
  assert (Hcs : sclient m 0 c).
  { unfold sclient. repeat match goal with |- _ /\ _ => split end; try assumption.
    - unfold is_version_4. rewrite Vc. lia.
    - rewrite B3. destruct (spoken version =? 1) eqn:E1; [|reflexivity]. symmetry. apply H1. lia.
    - unfold is_multi_object. rewrite B8. unfold multi_object. replace (spoken version =? 4) with false by lia. reflexivity. }
  assert (Hss : sserver m s).
  { unfold sserver. repeat match goal with |- _ /\ _ => split end; try assumption. unfold is_version_4. rewrite Vs. lia. }
  destruct (any_splay_delivers legacy slack m Hch rs 0 c s Hcs Hss Hrs ltac:(now right)) as (c' & s' & sns & E' & Hsn).
  now exists c, s, c', s', sns.
Qed.

(** ---- samples ---- *)
Lemma tracker_for_ok z version : version <= 4 -> metadata_ok (tracker_for z) version.
Proof.
  intros Hv. unfold metadata_ok, tracker_for. cbn [md_custom md_name md_description md_family md_channels md_flags]. split; [exact Hv|]. split; [apply clean_create|].
  split.
  { intros k v E. rewrite props_get_spec in E by apply props_create_ok. unfold props_create in E. rewrite sm_new_lookup in E. discriminate. }
  split; [repeat (apply Forall_cons; [exact Logic.I|]); apply Forall_nil|]. split; [lia|discriminate].
Qed.
Lemma one_picture_arrives : exists ims, images_arrive 0 1 1 one_picture ims.
Proof.
  destruct (path_arrives 0 (str "/a.jpg") _ eq_refl eq_refl) as (a & Ha & Ta & _).
  exists [Some a; None; None]. split; [reflexivity|]. split; [reflexivity|]. intros k Hk.
  destruct k as [|[|[|k]]]; [| | |lia]; cbn [Z.testbit Z.of_nat Pos.of_succ_nat Pos.succ Pos.testbit nth one_picture]; [|reflexivity..].
  eexists. exists a. split; [reflexivity|]. split; [reflexivity|]. split; [exact Ha|]. now rewrite Ta.
Qed.
Ltac float_value := split; [vm_compute; reflexivity|vm_compute; exact Logic.I].
Ltac int_value := split; [vm_compute; exact Logic.I|vm_compute; reflexivity].
Lemma sample_mask_presentable z : (exists f, announces z f = true) -> presentable z sample_mask.
Proof.
  intros Hz. split; [exact Hz|]. unfold sample_mask. split; [unfold mask_ok; cbn [List.length]; split; [lia|]; split; [lia|]; split; reflexivity|].
  split; [unfold exact_span; lia|]. split; [unfold exact_span; lia|]. split; [exists 1%N; split; [now left|discriminate]|].
  intros a m b v E _. apply (f_equal (@List.length bool)) in E. rewrite !app_length in E. cbn [foreground map List.length] in E. lia.
Qed.
Lemma rect_presentable z x y w h X Y W H : (exists f, announces z f = true) -> finite_float x -> finite_float y -> finite_float w -> finite_float h ->
  is_int x X -> is_int y Y -> is_int w W -> is_int h H -> Z.abs X <= 2 ^ 22 -> Z.abs Y <= 2 ^ 22 -> 0 < W -> 0 < H -> W * H <= 2 ^ 22 -> presentable z (RRect x y w h).
Proof.
  intros Hz F1 F2 F3 F4 I1 I2 I3 I4 B1 B2 B3 B4 B5. split; [exact Hz|]. split; [exact F1|]. split; [exact F2|]. split; [exact F3|]. split; [exact F4|].
  intros _. exists X, Y, W, H. auto 10.
Qed.
Ltac arriving := first [apply special_sends|apply mask_sends|apply poly_sends|eexists; apply special_arrives; unfold exact_int; lia].
Ltac reporting := repeat (apply Forall_cons; [split; cbn [fst snd]; [arriving|apply clean_create]|]); apply Forall_nil.
Lemma sample_any_ok z : (exists f, announces z f = true) -> any_rounds 0 (tracker_for z) true 0 sample_any.
Proof.
  intros Hz. unfold sample_any, any_rounds, any_round, present. cbn [md_channels md_image md_region tracker_for].
  assert (R : forall x y w h, finite_float (fl x) -> finite_float (fl y) -> finite_float (fl w) -> finite_float (fl h) ->
    is_int (fl x) x -> is_int (fl y) y -> is_int (fl w) w -> is_int (fl h) h -> Z.abs x <= 2 ^ 22 -> Z.abs y <= 2 ^ 22 -> 0 < w -> 0 < h -> w * h <= 2 ^ 22 ->
    object_presentable z (whole_rect x y w h, props_create)).
  { intros. split; [|apply clean_create]. cbn [fst]. now apply (rect_presentable z _ _ _ _ x y w h). }
  split; [|split; [|exact Logic.I]]; cbn [rd_cut1 rd_cut2 rd_images rd_objects rd_props rd_init rd_reply map].
  - split; [apply byte_cutter|]. split; [apply whole_cutter|]. split; [apply one_picture_arrives|].
    split.
    { apply Forall_cons; [split; [now apply sample_mask_presentable|apply clean_create]|]. apply Forall_cons; [|apply Forall_nil].
      apply R; try float_value; try int_value; lia. }
    split; [exact Logic.I|]. split; [discriminate|]. unfold tracked. cbn [rd_init rd_objects List.length].
    split; [lia|]. split; [discriminate|]. split; [reflexivity|]. reporting.
  - split; [apply whole_cutter|]. split; [apply byte_cutter|]. split; [apply one_picture_arrives|].
    split.
    { apply Forall_cons; [|apply Forall_nil]. apply R; try float_value; try int_value; lia. }
    split; [exact Logic.I|]. split; [discriminate|]. unfold tracked. cbn [rd_init rd_objects List.length plus].
    split; [lia|]. split; [discriminate|]. split; [reflexivity|]. reporting.
Qed.
Lemma square_presentable : presentable 2 square.
Proof.
  split; [now exists Rectangle|]. unfold square. split; [repeat (apply Forall_cons; [split; float_value|]); apply Forall_nil|]. split; [cbn; lia|].
  assert (W0 : whole_coordinate (fl 0)) by (split; [float_value|]; exists 0; split; [int_value|lia]).
  assert (W4 : whole_coordinate (fl 4)) by (split; [float_value|]; exists 4; split; [int_value|lia]).
  intros _. split; [reflexivity|]. split; [repeat (apply Forall_cons; [split; assumption|]); apply Forall_nil|].
  split; exists (fl 4, fl 4), 4; (split; [right; right; now left|]); (split; [int_value|lia]).
Qed.
Lemma sample_any_single_ok : any_srounds 0 (tracker_for 2) sample_any_single.
Proof.
  assert (Hz : exists f, announces 2 f = true) by now exists Rectangle.
  split; [|discriminate]. unfold sample_any_single. repeat (apply Forall_cons; [unfold any_sround; cbn [sr_cut1 sr_cut2 sr_images sr_object sr_props sr_reply md_channels md_image md_region tracker_for];
    (split; [first [apply byte_cutter|apply whole_cutter]|]); (split; [first [apply byte_cutter|apply whole_cutter]|]);
    (split; [apply one_picture_arrives|]); (split; [first [exact Logic.I|now apply sample_mask_presentable|exact square_presentable]|]);
    (split; [exact Logic.I|]); (split; [cbn [fst]; arriving|apply clean_create])|]). apply Forall_nil.
Qed.
