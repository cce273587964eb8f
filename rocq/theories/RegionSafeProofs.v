(** Proofs: exactly the harmless texts are read as regions without harm *)
From Verif Require Import CBase StrMapProofs Buffer Num NumSpec NumProofs Region RegionSpec RegionProofs RegionSafeSpec.
Local Open Scope Z_scope.

(** ---- The prefix ---- *)

Definition ptype (k : option kind) : region_type :=
  match k with None => EMPTY | Some Rect => RECTANGLE | Some Poly => POLYGON | Some RegionSafeSpec.Mask => MASK | Some Special => SPECIAL end.
Lemma ptype_inj a b : ptype a = ptype b -> a = b.
Proof. destruct a as [[]|], b as [[]|]; cbn; congruence. Qed.
Lemma scheme_char_iff c : scheme_char c = true <-> scheme_letter c.
Proof.
  unfold scheme_char, scheme_letter. rewrite !orb_true_iff, andb_true_iff, !N.leb_le, !N.eqb_eq. tauto.
Qed.
Lemma scheme_char_colon : scheme_char 58 = false.
Proof. reflexivity. Qed.
Lemma scan_scheme buffer d s : forall i fuel, Forall scheme_letter s -> (List.length s < fuel)%nat ->
  scan_prefix buffer (s ++ 58%N :: d) i fuel = (prefix_type buffer (i + List.length s), d).
Proof.
  induction s as [|c s IH]; intros i fuel F L; (destruct fuel as [|fuel]; [cbn [List.length] in L; lia|]).
  - cbn [app List.length scan_prefix]. rewrite scheme_char_colon. cbn. now rewrite Nat.add_0_r.
  - inversion F as [|? ? F1 F2]; subst. cbn [app List.length scan_prefix] in *. rewrite (proj2 (scheme_char_iff c) F1). rewrite IH by (assumption || lia).
    f_equal. f_equal. lia.
Qed.
Lemma scan_plain buffer : forall l i fuel, (forall s d, l = s ++ 58%N :: d -> (List.length s < fuel)%nat -> Forall scheme_letter s -> False) ->
  scan_prefix buffer l i fuel = (EMPTY, buffer).
Proof.
  induction l as [|c l IH]; intros i fuel H; (destruct fuel as [|fuel]; [reflexivity|]); [reflexivity|]. cbn [scan_prefix].
  destruct (scheme_char c) eqn:E.
  - apply IH. intros s d -> L F. apply (H (c :: s) d); [reflexivity|cbn [List.length]; lia|]. constructor; [now apply scheme_char_iff|exact F].
  - destruct (c =? 58)%N eqn:C; [|reflexivity]. exfalso. apply N.eqb_eq in C as ->. apply (H [] l); [reflexivity|cbn; lia|constructor].
Qed.
Lemma begins_iff a b : begins a b = true <-> a = firstn (List.length a) b.
Proof.
  revert b; induction a as [|x a IH]; intros b; [split; reflexivity|]. destruct b as [|y b]; cbn [begins List.length firstn]; [split; discriminate|].
  rewrite andb_true_iff, N.eqb_eq, IH. split; [intros [-> <-]; reflexivity|]. intros E. injection E as -> E. split; [reflexivity|exact E].
Qed.
Lemma removelast_length {A} (x : A) s : List.length (removelast (x :: s)) = List.length s.
Proof. revert x; induction s as [|y s IH]; intros x; [reflexivity|]. change (removelast (x :: y :: s)) with (x :: removelast (y :: s)). cbn [List.length]. now rewrite IH. Qed.
Lemma removelast_firstn {A} (x : A) s : removelast (x :: s) = firstn (List.length s) (x :: s).
Proof. revert x; induction s as [|y s IH]; intros x; [reflexivity|]. change (removelast (x :: y :: s)) with (x :: removelast (y :: s)). cbn [List.length firstn]. now rewrite IH. Qed.
Lemma compare_prefix x s d name : strncmp_eq ((x :: s) ++ 58%N :: d) name (List.length s) = begins (removelast (x :: s)) name.
Proof.
  unfold strncmp_eq. rewrite firstn_app. replace (List.length s - List.length (x :: s))%nat with 0%nat by (cbn [List.length]; lia). cbn [firstn]. rewrite app_nil_r.
  rewrite <- removelast_firstn. pose proof (begins_iff (removelast (x :: s)) name) as B. rewrite removelast_length in B.
  destruct (begins (removelast (x :: s)) name).
  - apply bytes_eqb_eq. now apply B.
  - apply not_true_is_false. intros E. apply bytes_eqb_eq in E. now apply B in E.
Qed.
Lemma kind_right s d : Forall scheme_letter s -> prefix_type (s ++ 58%N :: d) (List.length s) = ptype (kind_of s).
Proof.
  intros F. destruct s as [|x s].
  - cbn [app List.length kind_of ptype]. unfold prefix_type, strncmp_eq. cbn [firstn List.length Nat.add]. reflexivity.
  - unfold prefix_type. cbn [List.length]. rewrite !compare_prefix. unfold kind_of. cbv zeta.
    destruct (begins _ (str "rect")); [reflexivity|]. destruct (begins _ (str "poly")); [reflexivity|]. destruct (begins _ (str "mask")); [reflexivity|].
    destruct (begins _ (str "special")); reflexivity.
Qed.
Lemma splits_parse t k d : splits t k d -> parse_uri_prefix t = (ptype k, d).
Proof.
  intros H. destruct H as [t s d (-> & L & F)|t H]; unfold parse_uri_prefix, MAX_URI_SCHEME.
  - rewrite scan_scheme by (assumption || lia). cbn [Nat.add]. now rewrite kind_right.
  - apply scan_plain. intros s d E L F. apply (H s d). split; [exact E|]. split; [lia|exact F].
Qed.
Lemma scheme_dec t : (exists s d, scheme t s d) \/ (forall s d, ~ scheme t s d).
Proof.
  assert (G : forall n t, (exists s d, t = s ++ 58%N :: d /\ (List.length s <= n)%nat /\ Forall scheme_letter s) \/
                          (forall s d, ~ (t = s ++ 58%N :: d /\ (List.length s <= n)%nat /\ Forall scheme_letter s))).
  { induction n as [|n IH]; intros l.
    - destruct l as [|c l]; [right; intros [|] d (E & _); discriminate|]. destruct (N.eq_dec c 58) as [->|C].
      + left. exists [], l. split; [reflexivity|]. split; [cbn; lia|constructor].
      + right. intros [|x s] d (E & L & _); [injection E; congruence|cbn in L; lia].
    - destruct l as [|c l]; [right; intros [|] d (E & _); discriminate|]. destruct (N.eq_dec c 58) as [->|C].
      + left. exists [], l. split; [reflexivity|]. split; [cbn; lia|constructor].
      + destruct (scheme_char c) eqn:Ec.
        * destruct (IH l) as [(s & d & -> & L & F)|H].
          -- left. exists (c :: s), d. split; [reflexivity|]. split; [cbn; lia|]. constructor; [now apply scheme_char_iff|exact F].
          -- right. intros [|x s] d (E & L & F); [injection E; congruence|]. injection E as -> ->. inversion F; subst. apply (H s d). split; [reflexivity|]. split; [cbn in L; lia|assumption].
        * right. intros [|x s] d (E & L & F); [injection E; congruence|]. injection E as -> ->. inversion F as [|? ? F1 F2]; subst. apply scheme_char_iff in F1. congruence. }
  exact (G 15%nat t).
Qed.
Lemma splits_total t : exists k d, splits t k d.
Proof.
  destruct (scheme_dec t) as [(s & d & H)|H]; [exists (kind_of s), d; now constructor|exists None, t; now constructor].
Qed.
Lemma splits_unique t k d k' d' : splits t k d -> splits t k' d' -> k = k' /\ d = d'.
Proof.
  intros A B. apply splits_parse in A. apply splits_parse in B. rewrite A in B. apply pair_equal_spec in B as [B1 B2]. split; [now apply ptype_inj|exact B2].
Qed.

(** ---- The numbers ---- *)

Lemma behind_same d : behind_commas d = after_commas d.
Proof. induction d as [|c d IH]; [reflexivity|]. cbn [behind_commas after_commas]. destruct (c =? 44)%N; now rewrite IH. Qed.
Lemma numbers_same d : numbers d = read_fields d.
Proof. unfold numbers, read_fields. now rewrite behind_same. Qed.
Lemma nonempty_dec d : nonempty_data d \/ Forall (fun c => c = 44%N) d.
Proof.
  induction d as [|c d IH]; [right; constructor|]. destruct (N.eq_dec c 44) as [->|C]; [|left; exists c; split; [now left|exact C]].
  destruct IH as [(x & Hx & Cx)|IH]; [left; exists x; split; [now right|exact Cx]|right; now constructor].
Qed.
Lemma sequence_overrun d : Forall (fun c => c = 44%N) d -> parse_sequence d = UB.
Proof.
  intros F. unfold parse_sequence. replace (Nat.leb _ _) with false; [reflexivity|]. symmetry. apply Nat.leb_gt.
  assert (G : List.length (after_commas d) = List.length d) by (clear - F; induction F as [|c d E F IH]; [reflexivity|]; subst c; cbn; congruence). cbn [List.length]. lia.
Qed.
Lemma valid_iff l : is_valid_sequence l = true <-> Forall (fun x => a_number x = true) l.
Proof.
  unfold is_valid_sequence. rewrite forallb_forall, Forall_forall. split; intros H x Hx; specialize (H x Hx); destruct x; (reflexivity || discriminate).
Qed.

(** Single precision numbers have exponents from -149 on. *)
Definition regular (x : spec_float) : Prop := match x with S754_finite _ _ e => -1074 <= e | _ => True end.
Lemma cast_regular d : regular (float_of_double d).
Proof.
  destruct d as [s|s| |s m e]; try exact Logic.I. cbn [float_of_double]. set (x := round_ratio _ _ _ _ _).
  destruct x as [| | |s1 m1 e1] eqn:E; try exact Logic.I. unfold x in E. apply round_ratio_valid in E as (_ & E & _); [|lia|unfold fmin, SH; lia| |apply Z.pow_pos_nonneg; lia].
  - unfold fmin in E. cbn. lia.
  - apply Z.mul_pos_pos; [lia|]. apply Z.pow_pos_nonneg; lia.
Qed.
Lemma numbers_regular d : Forall regular (numbers d).
Proof. unfold numbers. apply Forall_forall. intros x Hx. apply in_map_iff in Hx as (f & <- & _). apply cast_regular. Qed.
Lemma trunc_whole m e : -1074 <= e -> trunc_pos (Z.pos m) e = Z.quot (Z.pos m * 2 ^ (e + 1074)) (2 ^ 1074).
Proof.
  intros H. assert (P : 0 < 2 ^ 1074) by (apply Z.pow_pos_nonneg; lia). assert (Q : 0 < 2 ^ (e + 1074)) by (apply Z.pow_pos_nonneg; lia).
  rewrite Z.quot_div_nonneg; [|apply Z.mul_nonneg_nonneg; lia|exact P]. unfold trunc_pos. destruct (Z.leb_spec 0 e).
  - rewrite Z.pow_add_r by lia. rewrite Z.mul_assoc, Z.div_mul by lia. reflexivity.
  - replace (2 ^ 1074) with (2 ^ (- e) * 2 ^ (e + 1074)) by (rewrite <- Z.pow_add_r by lia; f_equal; lia).
    rewrite Z.div_mul_cancel_r; [reflexivity| |lia]. apply Z.pow_nonzero; lia.
Qed.
Lemma int_whole x : regular x -> fits_int x -> int_of_float x = Ok (whole x).
Proof.
  intros R F. destruct x as [s|s| |s m e]; try contradiction.
  - reflexivity.
  - cbn [regular] in R. cbn [fits_int] in F. cbn [int_of_float]. cbv zeta. rewrite trunc_whole by exact R. unfold whole in *. cbn [units] in *.
    set (q := Z.pos m * 2 ^ (e + 1074)) in *. destruct s.
    + replace (-1 * q) with (- q) in * by ring. rewrite Z.quot_opp_l in * by (apply Z.pow_nonzero; lia).
      replace (in_int _) with true by (symmetry; unfold in_int; rewrite andb_true_iff, !Z.leb_le; exact F). reflexivity.
    + rewrite Z.mul_1_l in *. replace (in_int _) with true by (symmetry; unfold in_int; rewrite andb_true_iff, !Z.leb_le; exact F). reflexivity.
Qed.
Lemma int_fits x z : regular x -> int_of_float x = Ok z -> fits_int x /\ z = whole x.
Proof.
  intros R E. destruct x as [s|s| |s m e]; try discriminate.
  - assert (W : whole (S754_zero s) = 0) by (unfold whole; cbn [units]; apply Z.quot_0_l; apply Z.pow_nonzero; lia).
    cbn [int_of_float] in E. injection E as <-. cbn [fits_int]. rewrite W. unfold INT_MIN, INT_MAX. lia.
  - assert (W : whole (S754_finite s m e) = (if s then - trunc_pos (Z.pos m) e else trunc_pos (Z.pos m) e)).
    { cbn [regular] in R. rewrite trunc_whole by exact R. unfold whole. cbn [units]. destruct s.
      - replace (-1 * (Z.pos m * 2 ^ (e + 1074))) with (- (Z.pos m * 2 ^ (e + 1074))) by ring. apply Z.quot_opp_l. apply Z.pow_nonzero; lia.
      - now rewrite Z.mul_1_l. }
    cbn [int_of_float] in E. cbv zeta in E. cbn [fits_int]. rewrite W. destruct (in_int _) eqn:I in E; [|discriminate]. injection E as <-.
    split; [|reflexivity]. unfold in_int in I. now rewrite andb_true_iff, !Z.leb_le in I.
Qed.
Lemma int_never_aborts x : int_of_float x <> Abort /\ int_of_float x <> NoFuel.
Proof. destruct x; cbn [int_of_float]; try (split; discriminate). cbv zeta. destruct (in_int _); split; discriminate. Qed.

(** ---- Runs ---- *)

Lemma fill_ok v : forall room c, INT_MIN <= c <= INT_MAX -> (c < 0 -> INT_MIN <= c - Z.of_nat room) ->
  exists l, rle_fill room c v = Ok (l, Z.to_nat (if c <? 0 then 0 else Z.max 0 (Z.of_nat room - c))).
Proof.
  induction room as [|room IH]; intros c Hc Hn.
  - exists []. cbn [rle_fill]. do 2 f_equal. destruct (c <? 0) eqn:L; [reflexivity|]. rewrite Z.max_l by lia. reflexivity.
  - cbn [rle_fill]. destruct (c =? 0) eqn:C.
    + exists []. apply Z.eqb_eq in C as ->. cbn [Z.ltb Z.compare]. do 2 f_equal. rewrite Z.max_r by lia. rewrite Z.sub_0_r. now rewrite Nat2Z.id.
    + apply Z.eqb_neq in C. assert (I : in_int (c - 1) = true) by (unfold in_int; rewrite andb_true_iff, !Z.leb_le; unfold INT_MIN, INT_MAX in *; lia).
      unfold int_result. rewrite I. cbn [obind]. destruct (IH (c - 1)) as [l E]; [unfold INT_MIN, INT_MAX in *; lia|lia|]. rewrite E. cbn [obind fst snd]. exists (v :: l). do 2 f_equal.
      destruct (c <? 0) eqn:L, (c - 1 <? 0) eqn:L1; try lia. 
Qed.
Lemma fill_bad v : forall room c p, INT_MIN <= c <= INT_MAX -> rle_fill room c v = Ok p -> c < 0 -> INT_MIN <= c - Z.of_nat room.
Proof.
  induction room as [|room IH]; intros c p Hc E Hn; [lia|]. cbn [rle_fill] in E. replace (c =? 0) with false in E by lia.
  unfold int_result in E. destruct (in_int (c - 1)) eqn:I; [|discriminate]. cbn [obind] in E. destruct (rle_fill room (c - 1) v) as [q| | |] eqn:F; try discriminate.
  unfold in_int in I. rewrite andb_true_iff, !Z.leb_le in I. specialize (IH (c - 1) q ltac:(lia) F ltac:(lia)). lia.
Qed.
Lemma runs_iff : forall counts room v, Forall regular counts ->
  (runs_fit (Z.of_nat room) counts <-> exists l, rle_decode room counts v = Ok l).
Proof.
  induction counts as [|c counts IH]; intros room v R; [split; [intros _; eexists; reflexivity|reflexivity]|].
  inversion R as [|? ? R1 R2]; subst. cbn [runs_fit rle_decode]. split.
  - intros (F & N & H). rewrite (int_whole c R1 F). cbn [obind]. assert (B : INT_MIN <= whole c <= INT_MAX) by (destruct c; try contradiction; exact F).
    destruct (fill_ok v room (whole c) B N) as [l E]. rewrite E. cbn [obind snd fst].
    set (rm := if whole c <? 0 then 0 else Z.max 0 (Z.of_nat room - whole c)) in *.
    assert (P : 0 <= rm) by (unfold rm; destruct (whole c <? 0); lia).
    destruct (proj1 (IH (Z.to_nat rm) (if (v =? 0)%N then 1%N else 0%N) R2)) as [l2 E2]; [now rewrite Z2Nat.id|]. rewrite E2. cbn [obind]. eexists. reflexivity.
  - intros [l E]. destruct (int_of_float c) as [z| | |] eqn:Ei; try discriminate. destruct (int_fits c z R1 Ei) as [F ->]. cbn [obind] in E.
    assert (B : INT_MIN <= whole c <= INT_MAX) by (destruct c; try contradiction; exact F).
    destruct (rle_fill room (whole c) v) as [p| | |] eqn:Ef; try discriminate. pose proof (fill_bad v room (whole c) p B Ef) as N.
    split; [exact F|]. split; [exact N|]. destruct (fill_ok v room (whole c) B N) as [l1 E1]. rewrite E1 in Ef. injection Ef as <-. cbn [obind snd fst] in E.
    set (rm := if whole c <? 0 then 0 else Z.max 0 (Z.of_nat room - whole c)) in *.
    assert (P : 0 <= rm) by (unfold rm; destruct (whole c <? 0); lia).
    destruct (rle_decode (Z.to_nat rm) counts _) as [l2| | |] eqn:E2 in E; try discriminate.
    rewrite <- (Z2Nat.id rm) by exact P. apply (IH (Z.to_nat rm) (if (v =? 0)%N then 1%N else 0%N) R2). now exists l2.
Qed.

(** ---- The theorem ---- *)

Definition harm_free (t : list N) : Prop := exists ok r, region_parse t = Ok (ok, r) /\ (ok = true <-> r <> None).
Lemma some_free (r : region) : true = true <-> Some r <> None.
Proof. split; [discriminate|reflexivity]. Qed.
Lemma parse_start t k d : splits t k d -> nonempty_data d -> exists c t', t = c :: t' /\ parse_uri_prefix t = (ptype k, d) /\
  parse_sequence d = Ok (numbers d) /\ List.length (numbers d) = n_fields d.
Proof.
  intros H N. destruct (parse_sequence_ok d N) as [E L]. rewrite numbers_same.
  destruct t as [|c t].
  - exfalso. inversion H as [? s ? (E1 & _)|]; subst; [now destruct s|]. destruct N as (c & [] & _).
  - exists c, t. split; [reflexivity|]. split; [now apply splits_parse|]. split; [exact E|exact L].
Qed.
Lemma numbers_some d : numbers d <> [].
Proof. unfold numbers. discriminate. Qed.
Lemma length_zero d : Nat.eqb (List.length (numbers d)) 0 = false.
Proof. reflexivity. Qed.
Lemma number_nan x : is_nan x = negb (a_number x).
Proof. destruct x; reflexivity. Qed.
Lemma in_int_iff z : in_int z = true <-> INT_MIN <= z <= INT_MAX.
Proof. unfold in_int. rewrite andb_true_iff, !Z.leb_le. tauto. Qed.
Lemma fits_bounds x : fits_int x -> INT_MIN <= whole x <= INT_MAX.
Proof. destruct x; intros H; (exact H || contradiction). Qed.
Lemma even_half n : (Nat.leb 6 n && Nat.eqb (n mod 2) 0) = true <-> exists m, n = (2 * m)%nat /\ (3 <= m)%nat.
Proof.
  rewrite andb_true_iff, Nat.leb_le, Nat.eqb_eq. split.
  - intros [A B]. exists (n / 2)%nat. pose proof (Nat.div_mod n 2 ltac:(lia)). lia.
  - intros (m & -> & H). split; [lia|]. rewrite Nat.mul_comm. apply Nat.mod_mul. lia.
Qed.

Lemma harmless_free t : harmless t -> harm_free t.
Proof.
  intros H. unfold harm_free. destruct H as [t k d Hs N V H4|t k d x Hs N V K E F|t d Hs N V E|t d n Hs N V E L|t d Hs N V E|t d x y w h runs Hs N V E R Fx Fy Fw Fh P Q];
    destruct (parse_start _ _ _ Hs N) as (c & t' & -> & Ep & Es & Le); unfold region_parse; rewrite Ep; cbv beta iota; rewrite Es; cbn [obind]; cbv zeta; rewrite length_zero, orb_false_r.
  - assert (V' : is_valid_sequence (numbers d) = false) by (apply not_true_is_false; intros X; apply V; now apply valid_iff). rewrite V'. cbn [negb].
    pose proof (numbers_regular d) as R. destruct (numbers d) as [|a0 [|b0 [|c0 [|x0 [|y0 l]]]]]; try (eexists _, _; split; [reflexivity|apply some_free]).
    destruct (is_nan x0) eqn:Nx; [eexists _, _; split; [reflexivity|apply some_free]|]. rewrite number_nan in Nx. apply negb_false_iff in Nx.
    destruct (H4 a0 b0 c0 x0 eq_refl Nx) as [F W]. inversion R as [|? ? _ R1]; inversion R1 as [|? ? _ R2]; inversion R2 as [|? ? _ R3]; inversion R3 as [|? ? R4 _]; subst.
    rewrite (int_whole x0 R4 F). cbn [obind]. pose proof (fits_bounds x0 F) as B. unfold int_result. rewrite (proj2 (in_int_iff (- whole x0))) by (unfold INT_MIN, INT_MAX in *; lia).
    cbn [obind]. eexists _, _. split; [reflexivity|apply some_free].
  - assert (V' : is_valid_sequence (numbers d) = true) by now apply valid_iff. rewrite V'. cbn [negb]. pose proof (numbers_regular d) as R. rewrite E in *. inversion R as [|? ? R1 _]; subst.
    destruct K as [->| ->]; cbn [ptype List.length Nat.eqb]; rewrite (int_whole x R1 F); cbn [obind]; eexists _, _; (split; [reflexivity|apply some_free]).
  - assert (V' : is_valid_sequence (numbers d) = true) by now apply valid_iff. rewrite V'. cbn [negb ptype]. rewrite E in Le.
    destruct (numbers d) as [|a0 [|b0 [|c0 [|x0 [|y0 l]]]]]; try discriminate. eexists _, _. split; [reflexivity|apply some_free].
  - assert (V' : is_valid_sequence (numbers d) = true) by now apply valid_iff. rewrite V'. cbn [negb ptype]. rewrite Le.
    rewrite (proj2 (even_half (n_fields d))) by (exists n; split; assumption). eexists _, _. split; [reflexivity|apply some_free].
  - assert (V' : is_valid_sequence (numbers d) = true) by now apply valid_iff. rewrite V'. cbn [negb ptype]. rewrite Le.
    replace (Nat.eqb (n_fields d) 1) with false by (symmetry; now apply Nat.eqb_neq).
    destruct (Nat.eqb (n_fields d) 4) eqn:E4.
    + apply Nat.eqb_eq in E4. rewrite E4 in Le. destruct (numbers d) as [|a0 [|b0 [|c0 [|x0 [|y0 l]]]]]; try discriminate. eexists _, _. split; [reflexivity|apply some_free].
    + destruct (Nat.leb 6 (n_fields d) && Nat.eqb (n_fields d mod 2) 0) eqn:E6.
      * eexists _, _. split; [reflexivity|apply some_free].
      * exists false, None. split; [reflexivity|]. split; [discriminate|]. congruence.
  - assert (V' : is_valid_sequence (numbers d) = true) by now apply valid_iff. rewrite V'. cbn [negb ptype]. pose proof (numbers_regular d) as G. rewrite E in *.
    destruct runs as [|r runs]; [congruence|]. inversion G as [|? ? G1 G']; inversion G' as [|? ? G2 G'']; inversion G'' as [|? ? G3 G3']; inversion G3' as [|? ? G4 G5]; subst.
    rewrite (int_whole x G1 Fx), (int_whole y G2 Fy), (int_whole w G3 Fw), (int_whole h G4 Fh). cbn [obind]. unfold int_result. rewrite (proj2 (in_int_iff _) P). cbn [obind].
    destruct (proj1 (runs_iff (r :: runs) (Z.to_nat (whole w * whole h)) 0%N G5)) as [l El].
    { replace (Z.of_nat (Z.to_nat (whole w * whole h))) with (Z.max 0 (whole w * whole h)) by lia. exact Q. }
    change (skipn 4 (x :: y :: w :: h :: r :: runs)) with (r :: runs). rewrite El. cbn [obind]. eexists _, _. split; [reflexivity|apply some_free].
Qed.
Lemma free_harmless t : harm_free t -> harmless t.
Proof.
  intros (ok & r & E & O). destruct (splits_total t) as (k & d & Hs). destruct (nonempty_dec d) as [N|N].
  - destruct (parse_start _ _ _ Hs N) as (c & t' & -> & Ep & Es & Le). unfold region_parse in E. rewrite Ep in E. cbv beta iota in E. rewrite Es in E. cbn [obind] in E. cbv zeta in E.
    rewrite length_zero, orb_false_r in E. pose proof (numbers_regular d) as G. destruct (is_valid_sequence (numbers d)) eqn:V; cbn [negb] in E.
    + assert (V' : all_numbers d) by now apply valid_iff. destruct k as [[]|]; cbn [ptype] in E.
      * apply (harmless_rect _ d Hs N V'). destruct (numbers d) as [|a0 [|b0 [|c0 [|x0 [|y0 l]]]]]; try discriminate. rewrite <- Le. reflexivity.
      * destruct (Nat.leb 6 (List.length (numbers d)) && Nat.eqb (List.length (numbers d) mod 2) 0) eqn:E6; [|discriminate]. apply even_half in E6 as (m & Em & Lm).
        apply (harmless_poly _ d m Hs N V'); [congruence|exact Lm].
      * destruct (numbers d) as [|x [|y [|w [|h [|r0 runs]]]]] eqn:En; try discriminate.
        inversion G as [|? ? G1 G']; inversion G' as [|? ? G2 G'']; inversion G'' as [|? ? G3 G3']; inversion G3' as [|? ? G4 G5]; subst.
        destruct (int_of_float x) as [zx| | |] eqn:Ex; try discriminate. destruct (int_fits x zx G1 Ex) as [Fx ->].
        destruct (int_of_float y) as [zy| | |] eqn:Ey; try discriminate. destruct (int_fits y zy G2 Ey) as [Fy ->].
        destruct (int_of_float w) as [zw| | |] eqn:Ew; try discriminate. destruct (int_fits w zw G3 Ew) as [Fw ->].
        destruct (int_of_float h) as [zh| | |] eqn:Eh; try discriminate. destruct (int_fits h zh G4 Eh) as [Fh ->]. cbn [obind] in E.
        unfold int_result in E. destruct (in_int (whole w * whole h)) eqn:I; [|discriminate]. apply in_int_iff in I. cbn [obind] in E.
        change (skipn 4 (x :: y :: w :: h :: r0 :: runs)) with (r0 :: runs) in E.
        destruct (rle_decode (Z.to_nat (whole w * whole h)) (r0 :: runs) 0%N) as [l| | |] eqn:El; try discriminate.
        apply (harmless_mask _ d x y w h (r0 :: runs) Hs N V' En); try assumption; [discriminate|].
        replace (Z.max 0 (whole w * whole h)) with (Z.of_nat (Z.to_nat (whole w * whole h))) by lia. apply (runs_iff _ _ 0%N G5). now exists l.
      * destruct (numbers d) as [|x [|y l]] eqn:En; try discriminate. inversion G as [|? ? G1 _]; subst.
        destruct (int_of_float x) as [zx| | |] eqn:Ex; try discriminate. destruct (int_fits x zx G1 Ex) as [Fx ->].
        apply (harmless_special _ (Some Special) d x Hs N V'); [now left|exact En|exact Fx].
      * destruct (Nat.eq_dec (n_fields d) 1) as [E1|E1]; [|exact (harmless_plain _ d Hs N V' E1)].
        rewrite Le, E1 in E. cbn [Nat.eqb] in E.
        destruct (numbers d) as [|x [|y l]] eqn:En; try discriminate. inversion G as [|? ? G1 _]; subst.
        destruct (int_of_float x) as [zx| | |] eqn:Ex; try discriminate. destruct (int_fits x zx G1 Ex) as [Fx ->].
        apply (harmless_special _ None d x Hs N V'); [now right|exact En|exact Fx].
    + apply (harmless_nan _ k d Hs N); [intros X; apply valid_iff in X; congruence|]. intros a0 b0 c0 x0 En Nx. rewrite En in *.
      inversion G as [|? ? _ R1]; inversion R1 as [|? ? _ R2]; inversion R2 as [|? ? _ R3]; inversion R3 as [|? ? R4 _]; subst.
      rewrite number_nan, Nx in E. cbn [negb] in E. destruct (int_of_float x0) as [z| | |] eqn:Ex; try discriminate. destruct (int_fits x0 z R4 Ex) as [Fx ->].
      split; [exact Fx|]. intros W. rewrite W in E. cbn [obind] in E. discriminate E.
  - destruct t as [|c t].
    + cbn [region_parse] in E. injection E as <- <-. destruct O as [O _]. exfalso. now apply O.
    + unfold region_parse in E. rewrite (splits_parse _ _ _ Hs) in E. cbv beta iota in E. rewrite (sequence_overrun d N) in E. discriminate E.
Qed.
Lemma safe_iff t : harmless t <-> harm_free t.
Proof. split; [apply harmless_free|apply free_harmless]. Qed.

(** ---- Assertions ---- *)

Lemma fill_never_aborts v : forall room c, rle_fill room c v <> Abort.
Proof.
  induction room as [|room IH]; intros c; cbn [rle_fill]; [discriminate|]. destruct (c =? 0); [discriminate|]. unfold int_result. destruct (in_int _); [|discriminate].
  cbn [obind]. specialize (IH (c - 1)). destruct (rle_fill room (c - 1) v); (discriminate || congruence).
Qed.
Lemma decode_never_aborts : forall counts room v, rle_decode room counts v <> Abort.
Proof.
  induction counts as [|c counts IH]; intros room v; cbn [rle_decode]; [discriminate|]. destruct (int_never_aborts c) as [A _]. destruct (int_of_float c) as [z| | |]; try (discriminate || congruence).
  cbn [obind]. pose proof (fill_never_aborts v room z) as B. destruct (rle_fill room z v) as [p| | |]; try (discriminate || congruence). cbn [obind].
  specialize (IH (snd p) (if (v =? 0)%N then 1%N else 0%N)). destruct (rle_decode _ counts _); (discriminate || congruence).
Qed.
Lemma parse_poly_count n : (Nat.leb 6 n && Nat.eqb (n mod 2) 0) = false -> ~ right_count Poly n.
Proof. intros E H. apply even_half in H. congruence. Qed.
Lemma abort_iff t : region_parse t = Abort <-> miscounted t.
Proof.
  destruct (splits_total t) as (k & d & Hs). split.
  - intros E. destruct (nonempty_dec d) as [N|N].
    2: { destruct t as [|c t]; [discriminate E|]. unfold region_parse in E. rewrite (splits_parse _ _ _ Hs) in E. cbv beta iota in E. rewrite (sequence_overrun d N) in E. discriminate E. }
    destruct (parse_start _ _ _ Hs N) as (c & t' & -> & Ep & Es & Le). unfold region_parse in E. rewrite Ep in E. cbv beta iota in E. rewrite Es in E. cbn [obind] in E. cbv zeta in E.
    rewrite length_zero, orb_false_r in E. destruct (is_valid_sequence (numbers d)) eqn:V; cbn [negb] in E.
    + assert (V' : all_numbers d) by now apply valid_iff. destruct k as [kk|].
      2: { exfalso. cbn [ptype] in E. rewrite Le in E. destruct (Nat.eqb (n_fields d) 1) eqn:E1.
           - apply Nat.eqb_eq in E1. rewrite E1 in Le. destruct (numbers d) as [|x [|y l]]; try discriminate Le.
             destruct (int_never_aborts x) as [A _]. destruct (int_of_float x); (discriminate || congruence).
           - destruct (Nat.eqb (n_fields d) 4) eqn:E4.
             + apply Nat.eqb_eq in E4. rewrite E4 in Le. destruct (numbers d) as [|a0 [|b0 [|c0 [|x0 [|y0 l]]]]]; discriminate.
             + destruct (Nat.leb 6 (n_fields d) && Nat.eqb (n_fields d mod 2) 0) eqn:E6; [|discriminate]. discriminate. }
      apply (miscounted_intro _ kk d Hs N V'). destruct kk; cbn [ptype] in E.
      * intros H. cbn [right_count] in H. rewrite H in Le. destruct (numbers d) as [|a0 [|b0 [|c0 [|x0 [|y0 l]]]]]; discriminate.
      * apply parse_poly_count. rewrite <- Le. destruct (Nat.leb _ _ && Nat.eqb _ _); [discriminate|reflexivity].
      * intros H. cbn [right_count] in H. destruct (numbers d) as [|x [|y [|w [|h [|r runs]]]]]; cbn [List.length] in Le; try lia.
        destruct (int_never_aborts x) as [A1 _]. destruct (int_never_aborts y) as [A2 _]. destruct (int_never_aborts w) as [A3 _]. destruct (int_never_aborts h) as [A4 _].
        destruct (int_of_float x); try (discriminate || congruence). destruct (int_of_float y); try (discriminate || congruence).
        destruct (int_of_float w); try (discriminate || congruence). destruct (int_of_float h); try (discriminate || congruence). cbn [obind] in E.
        unfold int_result in E. destruct (in_int _); [|discriminate]. cbn [obind] in E.
        match type of E with context [rle_decode ?a ?b ?v] => pose proof (decode_never_aborts b a v); destruct (rle_decode a b v); (discriminate || congruence) end.
      * intros H. cbn [right_count] in H. rewrite H in Le. destruct (numbers d) as [|x [|y l]]; try discriminate Le.
        destruct (int_never_aborts x) as [A _]. destruct (int_of_float x); (discriminate || congruence).
    + exfalso. destruct (numbers d) as [|a0 [|b0 [|c0 [|x0 [|y0 l]]]]]; try discriminate. destruct (is_nan x0); [discriminate|].
      destruct (int_never_aborts x0) as [A _]. destruct (int_of_float x0); try (discriminate || congruence). cbn [obind] in E. unfold int_result in E. destruct (in_int _); discriminate.
  - intros H. destruct H as [t kk d' Hs' N V C]. destruct (parse_start _ _ _ Hs' N) as (c & t' & -> & Ep & Es & Le). unfold region_parse. rewrite Ep. cbv beta iota. rewrite Es. cbn [obind]. cbv zeta.
    rewrite length_zero, orb_false_r. rewrite (proj2 (valid_iff _) V). cbn [negb]. rewrite <- Le in C. destruct kk; cbn [ptype right_count] in *.
    + destruct (numbers d') as [|a0 [|b0 [|c0 [|x0 [|y0 l]]]]]; try reflexivity. now destruct C.
    + destruct (Nat.leb _ _ && Nat.eqb _ _) eqn:E6; [|reflexivity]. apply even_half in E6. contradiction.
    + destruct (numbers d') as [|x [|y [|w [|h [|r runs]]]]]; try reflexivity. exfalso. apply C. cbn [List.length]. lia.
    + destruct (numbers d') as [|x [|y l]]; try reflexivity. now destruct C.
Qed.
