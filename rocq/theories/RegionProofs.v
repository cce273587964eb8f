(** Proofs about the text form of regions. *)
From Verif Require Import CBase Num NumProofs DecimalProofs NumSpec PropsNumProofs Buffer BufferSpec BufferProofs Region RegionSpec.
Local Open Scope Z_scope.

(** ---- Comma separated fields ---- *)
Definition no_comma (f : list N) : Prop := forallb (fun c => negb (c =? 44)%N) f = true.
Definition comma_or_end (rest : list N) : Prop := match rest with [] => True | c :: _ => c = 44%N end.
Lemma comma_stop rest : comma_or_end rest -> stop rest = true.
Proof. destruct rest as [|c rest]; [reflexivity|]. intros ->. reflexivity. Qed.

Fixpoint join (fs : list (list N)) : list N :=
  match fs with [] => [] | [f] => f | f :: fs' => f ++ 44%N :: join fs' end.
(** Fields each preceded by a comma. *)
Definition tails (fs : list (list N)) : list N := flat_map (fun f => 44%N :: f) fs.
Lemma join_tails f fs : join (f :: fs) = f ++ tails fs.
Proof.
  revert f. induction fs as [|g fs IH]; intros f; [cbn; now rewrite app_nil_r|].
  change (join (f :: g :: fs)) with (f ++ 44%N :: join (g :: fs)). rewrite IH. reflexivity.
Qed.
Lemma tails_app a b : tails (a ++ b) = tails a ++ tails b.
Proof. apply flat_map_app. Qed.

Lemma after_commas_skip f l : no_comma f -> after_commas (f ++ l) = after_commas l.
Proof.
  induction f as [|c f IH]; intros H; [reflexivity|]. unfold no_comma in H. cbn [forallb] in H.
  apply andb_true_iff in H as [Hc H]. cbn [app after_commas]. destruct (c =? 44)%N; [discriminate|]. now apply IH.
Qed.

Definition reads (f : list N) (v : spec_float) : Prop :=
  no_comma f /\ f <> [] /\ forall rest, comma_or_end rest -> float_of_double (atof (f ++ rest)) = v.

Lemma tails_end fs : comma_or_end (tails fs).
Proof. destruct fs; [exact I|reflexivity]. Qed.

Lemma suffix_values fs vs : Forall2 reads fs vs ->
  map (fun p => float_of_double (atof p)) (after_commas (tails fs)) = vs /\
  List.length (after_commas (tails fs)) = List.length fs /\ (2 * List.length fs <= List.length (tails fs))%nat.
Proof.
  induction 1 as [|f v fs vs (Hc & Hne & Hr) HF (IH1 & IH2 & IH3)]; [repeat split; cbn; lia|].
  cbn [tails flat_map]. fold (tails fs). cbn [app after_commas]. change (44 =? 44)%N with true. cbn [map List.length].
  rewrite after_commas_skip by exact Hc. rewrite IH1, Hr by apply tails_end. split; [reflexivity|].
  rewrite IH2. split; [reflexivity|]. rewrite app_length. destruct f; [congruence|]. cbn [List.length]. lia.
Qed.

Lemma parse_join fs vs : fs <> [] -> Forall2 reads fs vs -> parse_sequence (join fs) = Ok vs.
Proof.
  intros Hne HF. destruct HF as [|f v fs vs (Hc & Hf & Hr) HF]; [congruence|].
  rewrite join_tails. unfold parse_sequence. rewrite after_commas_skip by exact Hc.
  destruct (suffix_values fs vs HF) as (E1 & E2 & E3).
  replace (Nat.leb _ _) with true.
  - cbn [map]. rewrite E1, Hr by apply tails_end. reflexivity.
  - symmetry. apply Nat.leb_le. cbn [List.length]. rewrite E2, app_length. destruct f; [congruence|]. cbn [List.length]. lia.
Qed.

(** ---- Number fields ---- *)
Lemma digits_no_comma ds : forallb is_digit ds = true -> no_comma ds.
Proof.
  unfold no_comma. rewrite !forallb_forall. intros H c Hc. specialize (H c Hc). unfold is_digit in H. lia.
Qed.
Lemma no_comma_app a b : no_comma a -> no_comma b -> no_comma (a ++ b).
Proof. unfold no_comma. intros Ha Hb. now rewrite forallb_app, Ha, Hb. Qed.
Lemma print_Z_no_comma z : no_comma (print_Z z).
Proof. rewrite print_Z_sign. apply no_comma_app; [destruct (z <? 0); reflexivity|apply digits_no_comma, print_N_digits]. Qed.
Lemma print_Z_nonempty z : print_Z z <> [].
Proof. rewrite print_Z_sign. intros H. apply app_eq_nil in H as [_ H]. now apply print_N_nonempty in H. Qed.

(** The float read from the text of an int. *)
Definition int_float (z : Z) : spec_float := float_of_double (atof (print_Z z)).
Lemma int_reads z : reads (print_Z z) (int_float z).
Proof.
  split; [apply print_Z_no_comma|]. split; [apply print_Z_nonempty|]. intros rest H.
  unfold int_float. f_equal. unfold atof. rewrite strtod_print_Z by now apply comma_stop.
  pose proof (strtod_print_Z z [] eq_refl) as E. rewrite app_nil_r in E. now rewrite E.
Qed.
Lemma int_float_exact z : exact_int z -> int_of_float (int_float z) = Ok z /\ is_nan (int_float z) = false.
Proof.
  intros H. pose proof (read_print_float_int z [] eq_refl H) as E. rewrite app_nil_r in E. exact E.
Qed.

Lemma print_float_no_comma x : finite x = true -> no_comma (print_float 4 x) /\ print_float 4 x <> [].
Proof.
  intros F. rewrite print_float_finite by exact F. unfold print_fixed.
  destruct (pad_digits_spec 4 (Z.to_N (dround (Z.of_nat 4) x) mod 10 ^ N.of_nat 4)%N []) as (fs & E & _ & Hf & _).
  { apply N.mod_lt. apply N.pow_nonzero. lia. }
  rewrite E, app_nil_r. split.
  - apply no_comma_app; [destruct (sign x); reflexivity|]. apply no_comma_app; [apply digits_no_comma, print_N_digits|].
    apply no_comma_app; [reflexivity|now apply digits_no_comma].
  - intros H. apply app_eq_nil in H as [_ H]. apply app_eq_nil in H as [H _]. now apply print_N_nonempty in H.
Qed.
(** The float read from the text of a float. *)
Definition coord (x : spec_float) : spec_float := reread 4 x.
Lemma coord_reads x : finite_float x -> reads (print_float 4 x) (coord x).
Proof.
  intros [HV HF]. assert (F : finite x = true) by (destruct x; try contradiction; reflexivity).
  destruct (print_float_no_comma x F) as [H1 H2]. split; [exact H1|]. split; [exact H2|].
  intros rest Hr. unfold coord, reread. f_equal. rewrite atof_print; [|exact F|now apply comma_stop].
  pose proof (atof_print 4 x [] F eq_refl) as E. rewrite app_nil_r in E. now rewrite E.
Qed.
Lemma coord_spec x : finite_float x ->
  print_float 4 (coord x) = print_float 4 x /\ is_nan (coord x) = false /\
  closer_than 10000 (coord x) x /\ (at_least 1024 x \/ sixteenths x -> coord x = x).
Proof.
  intros [HV HF]. assert (F : finite x = true) by (destruct x; try contradiction; reflexivity).
  pose proof (reread_spec x [] HV F eq_refl) as R. cbv zeta in R. rewrite app_nil_r in R. fold (reread 4 x) in R.
  fold (coord x) in R. destruct R as (R1 & R2 & R3 & R4). split; [exact R2|].
  split; [destruct (coord x); try reflexivity; discriminate R1|]. split; [exact R3|].
  intros A. apply (reread_same x HV F). destruct A as [A|A]; [left|right; exact A].
  replace (2 ^ (10 + SH)) with (1024 * 2 ^ 1074); [exact A|]. rewrite Z.pow_add_r by (unfold SH; lia). reflexivity.
Qed.

(** ---- No prefix in texts that begin with a number ---- *)
Definition number_start (l : list N) : Prop :=
  match l with
  | c :: l' => if (c =? 45)%N then match l' with d :: _ => is_digit d = true | [] => False end else is_digit c = true
  | [] => False
  end.
Lemma no_prefix l : number_start l -> parse_uri_prefix l = (EMPTY, l).
Proof.
  assert (D : forall d, is_digit d = true -> scheme_char d = false /\ (d =? 58)%N = false).
  { intros d. unfold is_digit, scheme_char. lia. }
  destruct l as [|c l]; intros H; [destruct H|]. cbn [number_start] in H. unfold parse_uri_prefix.
  change MAX_URI_SCHEME with 16%nat. cbn [scan_prefix]. destruct (c =? 45)%N eqn:E.
  - apply N.eqb_eq in E as ->. destruct l as [|d l]; [destruct H|]. destruct (D d H) as [D1 D2].
    change (scheme_char 45) with true. cbn [scan_prefix]. now rewrite D1, D2.
  - destruct (D c H) as [D1 D2]. now rewrite D1, D2.
Qed.
Lemma number_start_digits (s : bool) ds rest : forallb is_digit ds = true -> ds <> [] ->
  number_start ((if s then [45%N] else []) ++ ds ++ rest).
Proof.
  intros H Hne. destruct ds as [|d ds]; [congruence|]. cbn in H. apply andb_true_iff in H as [H _].
  destruct s; cbn.
  - exact H.
  - destruct (d =? 45)%N eqn:E; [|exact H]. apply N.eqb_eq in E as ->. discriminate H.
Qed.
Lemma number_start_int z rest : number_start (print_Z z ++ rest).
Proof. rewrite print_Z_sign, <- app_assoc. apply number_start_digits; [apply print_N_digits|apply print_N_nonempty]. Qed.
Lemma number_start_float x rest : finite x = true -> number_start (print_float 4 x ++ rest).
Proof.
  intros F. rewrite print_float_finite by exact F. unfold print_fixed. rewrite <- !app_assoc.
  apply number_start_digits; [apply print_N_digits|apply print_N_nonempty].
Qed.

(** ---- Buffers that print a text ---- *)
Lemma append_text B l s : buf_ok B l -> exists B', buffer_append B s = Ok B' /\ buf_ok B' (l ++ s).
Proof. apply buffer_append_ok. Qed.
Lemma extract_text B l : buf_ok B l -> forallb (fun c => negb (c =? 0)%N) l = true -> l <> [] ->
  (if Nat.ltb 0 (b_pos B) then s <- buffer_extract B ;; t <- blk_string s ;; Ok (Some t) else Ok None) = Ok (Some l).
Proof.
  intros HB H0 Hne. destruct HB as (Hs & Hp & Hle & Hh) eqn:EB.
  rewrite Hp. destruct l as [|c l]; [congruence|]. change (Nat.ltb 0 (List.length (c :: l))) with true. cbn match.
  rewrite (buffer_extract_ok B (c :: l)) by exact HB. cbn [obind]. rewrite blk_string_block. cbn [obind].
  do 2 f_equal. clear -H0. revert H0. generalize (c :: l) as m. induction m as [|d m IH]; intros H; [reflexivity|].
  cbn in H |- *. destruct (d =? 0)%N; [discriminate|]. f_equal. now apply IH.
Qed.
Definition no_nul (l : list N) : Prop := forallb (fun c => negb (c =? 0)%N) l = true.
Lemma no_nul_app a b : no_nul a -> no_nul b -> no_nul (a ++ b).
Proof. unfold no_nul. intros Ha Hb. now rewrite forallb_app, Ha, Hb. Qed.
Lemma digits_no_nul ds : forallb is_digit ds = true -> no_nul ds.
Proof. unfold no_nul. rewrite !forallb_forall. intros H c Hc. specialize (H c Hc). unfold is_digit in H. lia. Qed.
Lemma print_Z_no_nul z : no_nul (print_Z z).
Proof. rewrite print_Z_sign. apply no_nul_app; [destruct (z <? 0); reflexivity|apply digits_no_nul, print_N_digits]. Qed.
Lemma print_float_no_nul x : no_nul (print_float 4 x).
Proof.
  assert (G : forall s D, no_nul (print_fixed 4 s D)).
  { intros s D. unfold print_fixed.
    destruct (pad_digits_spec 4 (Z.to_N D mod 10 ^ N.of_nat 4)%N []) as (fs & E & _ & Hf & _).
    { apply N.mod_lt. apply N.pow_nonzero. lia. }
    rewrite E, app_nil_r. apply no_nul_app; [destruct s; reflexivity|]. apply no_nul_app; [apply digits_no_nul, print_N_digits|].
    apply no_nul_app; [reflexivity|now apply digits_no_nul]. }
  destruct x; cbn [print_float]; [apply G|destruct s; reflexivity|reflexivity|apply G].
Qed.
Lemma tails_no_nul fs : Forall no_nul fs -> no_nul (tails fs).
Proof. induction 1 as [|f fs H HF IH]; [reflexivity|]. cbn [tails flat_map]. apply no_nul_app; [|exact IH]. unfold no_nul in *. cbn. exact H. Qed.

(** ---- C24: special regions ---- *)
Lemma special_string c : region_string (RSpecial c) = Ok (Some (print_Z c)).
Proof.
  unfold region_string. destruct (append_text (buffer_create 32) [] (print_Z c) (buffer_create_ok 32)) as (B & -> & H).
  cbn [obind]. apply extract_text; [exact H|apply print_Z_no_nul|apply print_Z_nonempty].
Qed.
Lemma special_round_trip c : exact_int c ->
  exists t, region_string (RSpecial c) = Ok (Some t) /\ region_parse t = Ok (true, Some (RSpecial c)).
Proof.
  intros H. exists (print_Z c). split; [apply special_string|]. unfold region_parse.
  pose proof (number_start_int c []) as S. rewrite app_nil_r in S. rewrite (no_prefix _ S).
  destruct (print_Z c) as [|d l] eqn:E; [now apply print_Z_nonempty in E|]. rewrite <- E.
  pose proof (parse_join [print_Z c] [int_float c] ltac:(discriminate)) as P. cbn [join] in P.
  rewrite P by (repeat constructor; apply int_reads). cbn [obind List.length].
  destruct (int_float_exact c H) as [E1 E2]. cbn [is_valid_sequence forallb]. rewrite E2. cbn. now rewrite E1.
Qed.

(** ---- C25: rectangles and polygons ---- *)
Lemma finite_of x : finite_float x -> finite x = true.
Proof. intros [_ H]. destruct x; try contradiction; reflexivity. Qed.

Lemma rect_string x y w h : region_string (RRect x y w h)
  = Ok (Some (join [print_float 4 x; print_float 4 y; print_float 4 w; print_float 4 h])).
Proof.
  unfold region_string.
  destruct (append_text (buffer_create 32) [] (format_point x y ++ c_comma ++ format_point w h) (buffer_create_ok 32)) as (B & -> & H).
  cbn [obind]. rewrite (extract_text _ _ H).
  - do 2 f_equal. unfold format_point. cbn [app join]. rewrite <- !app_assoc. reflexivity.
  - cbn [app]. unfold format_point. repeat apply no_nul_app; try apply print_float_no_nul; reflexivity.
  - cbn [app]. intros E. apply app_eq_nil in E as [_ E]. discriminate E.
Qed.
Lemma rect_round_trip x y w h : finite_float x -> finite_float y -> finite_float w -> finite_float h ->
  exists t x' y' w' h', region_string (RRect x y w h) = Ok (Some t) /\
    region_parse t = Ok (true, Some (RRect x' y' w' h')) /\
    region_string (RRect x' y' w' h') = Ok (Some t) /\
    coord_close x' x /\ coord_close y' y /\ coord_close w' w /\ coord_close h' h.
Proof.
  intros Hx Hy Hw Hh. rewrite rect_string. eexists. exists (coord x), (coord y), (coord w), (coord h).
  destruct (coord_spec x Hx) as (X1 & X2 & X3). destruct (coord_spec y Hy) as (Y1 & Y2 & Y3).
  destruct (coord_spec w Hw) as (W1 & W2 & W3). destruct (coord_spec h Hh) as (H1 & H2 & H3).
  split; [reflexivity|]. split.
  - set (t := join _).
    assert (St : number_start t).
    { unfold t. rewrite join_tails. apply number_start_float, finite_of, Hx. }
    unfold region_parse. rewrite (no_prefix _ St). destruct t as [|c0 t'] eqn:Et; [destruct St|]. rewrite <- Et. unfold t.
    rewrite (parse_join _ [coord x; coord y; coord w; coord h]);
      [|discriminate|repeat (apply Forall2_cons; [apply coord_reads; assumption|]); constructor].
    cbn [obind]. unfold is_valid_sequence. cbn [forallb]. rewrite X2, Y2, W2, H2. reflexivity.
  - split; [rewrite rect_string; now rewrite X1, Y1, W1, H1|].
    refine (conj _ (conj _ (conj _ _))); intros _; assumption.
Qed.

Definition point_fields (p : spec_float * spec_float) : list (list N) := [print_float 4 (fst p); print_float 4 (snd p)].
Lemma append_points_ok pts : forall B l, buf_ok B l ->
  exists B', append_points B false pts = Ok B' /\ buf_ok B' (l ++ tails (flat_map point_fields pts)).
Proof.
  induction pts as [|[x y] pts IH]; intros B l H.
  - exists B. split; [reflexivity|]. cbn. now rewrite app_nil_r.
  - cbn [append_points]. destruct (append_text B l (c_comma ++ format_point x y) H) as (B1 & -> & H1). cbn [obind].
    destruct (IH B1 _ H1) as (B2 & E & H2). exists B2. split; [exact E|].
    cbn [flat_map]. rewrite tails_app. rewrite app_assoc. replace (tails (point_fields (x, y))) with (c_comma ++ format_point x y); [exact H2|].
    unfold tails, point_fields, format_point. cbn. now rewrite app_nil_r.
Qed.
Lemma poly_string p pts : region_string (RPoly (p :: pts)) = Ok (Some (join (flat_map point_fields (p :: pts)))).
Proof.
  destruct p as [x y]. unfold region_string. cbn [append_points].
  destruct (append_text (buffer_create 32) [] ([] ++ format_point x y) (buffer_create_ok 32)) as (B & -> & H). cbn [obind].
  destruct (append_points_ok pts B _ H) as (B' & -> & H'). cbn [obind]. cbn [app] in H'.
  assert (E : format_point x y ++ tails (flat_map point_fields pts) = join (flat_map point_fields ((x, y) :: pts))).
  { cbn [flat_map point_fields app fst snd]. rewrite join_tails. cbn [tails flat_map]. unfold format_point.
    rewrite <- !app_assoc. reflexivity. }
  rewrite E in H'. apply extract_text; [exact H'| |].
  - rewrite <- E. apply no_nul_app.
    + unfold format_point. repeat apply no_nul_app; try apply print_float_no_nul; reflexivity.
    + apply tails_no_nul. apply Forall_flat_map. apply Forall_forall. intros q _. repeat constructor; apply print_float_no_nul.
  - rewrite <- E. unfold format_point. intros X. apply app_eq_nil in X as [X _]. apply app_eq_nil in X as [_ X]. discriminate X.
Qed.

Definition coord_point (p : spec_float * spec_float) := (coord (fst p), coord (snd p)).
Lemma pair_points_flat pts : pair_points (flat_map (fun p => [coord (fst p); coord (snd p)]) pts) = map coord_point pts.
Proof. induction pts as [|p pts IH]; [reflexivity|]. cbn. now rewrite IH. Qed.
Lemma point_reads pts : Forall point_finite pts ->
  Forall2 reads (flat_map point_fields pts) (flat_map (fun p => [coord (fst p); coord (snd p)]) pts).
Proof.
  induction 1 as [|p pts [H1 H2] HF IH]; [constructor|]. cbn [flat_map point_fields app].
  constructor; [now apply coord_reads|]. constructor; [now apply coord_reads|exact IH].
Qed.
Lemma coords_length pts : List.length (flat_map (fun p : spec_float * spec_float => [coord (fst p); coord (snd p)]) pts) = (2 * List.length pts)%nat.
Proof. induction pts as [|p pts IH]; [reflexivity|]. cbn [flat_map app List.length]. rewrite IH. lia. Qed.
Lemma coords_valid pts : Forall point_finite pts -> is_valid_sequence (flat_map (fun p => [coord (fst p); coord (snd p)]) pts) = true.
Proof.
  induction 1 as [|p pts [H1 H2] HF IH]; [reflexivity|]. cbn [flat_map app is_valid_sequence forallb].
  destruct (coord_spec _ H1) as (_ & -> & _). destruct (coord_spec _ H2) as (_ & -> & _). exact IH.
Qed.
Lemma poly_fields_stable pts : Forall point_finite pts -> flat_map point_fields (map coord_point pts) = flat_map point_fields pts.
Proof.
  induction 1 as [|p pts [H1 H2] HF IH]; [reflexivity|]. cbn [map flat_map]. rewrite IH. unfold point_fields. cbn [coord_point fst snd].
  destruct (coord_spec _ H1) as (-> & _). destruct (coord_spec _ H2) as (-> & _). reflexivity.
Qed.

Lemma points_close pts : Forall point_finite pts -> Forall2 point_close (map coord_point pts) pts.
Proof.
  induction 1 as [|q qs [H1 H2] HF IH]; [constructor|]. cbn [map]. constructor; [|exact IH].
  destruct (coord_spec _ H1) as (_ & _ & C1). destruct (coord_spec _ H2) as (_ & _ & C2).
  split; intros _; assumption.
Qed.

Lemma poly_round_trip pts : (3 <= List.length pts)%nat -> Forall point_finite pts ->
  exists t pts', region_string (RPoly pts) = Ok (Some t) /\
    region_parse t = Ok (true, Some (RPoly pts')) /\ region_string (RPoly pts') = Ok (Some t) /\
    Forall2 point_close pts' pts.
Proof.
  intros Hn HF. destruct pts as [|p pts]; [cbn in Hn; lia|]. rewrite poly_string.
  eexists. exists (map coord_point (p :: pts)). split; [reflexivity|].
  assert (Hp : point_finite p) by (now inversion HF).
  split.
  - set (t := join _).
    assert (St : number_start t).
    { unfold t. cbn [flat_map point_fields app]. rewrite join_tails. apply number_start_float, finite_of, Hp. }
    unfold region_parse. rewrite (no_prefix _ St). destruct t as [|c0 t'] eqn:Et; [destruct St|]. rewrite <- Et. unfold t.
    rewrite (parse_join (flat_map point_fields (p :: pts)) _ ltac:(discriminate) (point_reads _ HF)). cbn [obind].
    rewrite (coords_valid _ HF), coords_length.
    set (n := List.length (p :: pts)) in *.
    replace (Nat.eqb (2 * n) 0) with false by (symmetry; apply Nat.eqb_neq; lia).
    replace (Nat.eqb (2 * n) 1) with false by (symmetry; apply Nat.eqb_neq; lia).
    replace (Nat.eqb (2 * n) 4) with false by (symmetry; apply Nat.eqb_neq; lia).
    replace (Nat.leb 6 (2 * n)) with true by (symmetry; apply Nat.leb_le; lia).
    replace (Nat.eqb ((2 * n) mod 2) 0) with true
      by (symmetry; apply Nat.eqb_eq; rewrite Nat.mul_comm; now apply Nat.mod_mul).
    cbn [negb orb andb]. now rewrite pair_points_flat.
  - split.
    + cbn [map]. rewrite poly_string. rewrite <- map_cons. now rewrite poly_fields_stable.
    + now apply points_close.
Qed.

(** ---- C26: masks ---- *)
Fixpoint expand (v : bool) (cs : list Z) : list bool :=
  match cs with [] => [] | c :: cs' => repeat v (Z.to_nat c) ++ expand (negb v) cs' end.
Fixpoint after_runs (v : bool) (cs : list Z) : bool := match cs with [] => v | _ :: cs' => after_runs (negb v) cs' end.
Definition ints_text (cs : list Z) : list N := tails (map print_Z cs).
Definition total (cs : list Z) : Z := fold_right Z.add 0 cs.

Lemma ints_text_app a b : ints_text (a ++ b) = ints_text a ++ ints_text b.
Proof. unfold ints_text. now rewrite map_app, tails_app. Qed.
Lemma ints_text_no_nul cs : no_nul (ints_text cs).
Proof. apply tails_no_nul. apply Forall_map, Forall_forall. intros z _. apply print_Z_no_nul. Qed.

Lemma repeat_snoc {A} (v : A) k l : repeat v k ++ v :: l = repeat v (S k) ++ l.
Proof. induction k as [|k IH]; [reflexivity|]. cbn in *. now rewrite IH. Qed.

(** The encoder's loop: [cs] are the runs it prints, then [count'] pixels of [value'] remain pending. *)
Lemma rle_loop_ok data : forall B l count value, buf_ok B l -> 0 <= count ->
  count + Z.of_nat (List.length data) <= INT_MAX ->
  exists B' cs count', rle_loop B data (List.length data) count value = Ok (B', count', after_runs value cs) /\
    buf_ok B' (l ++ ints_text cs) /\ 0 <= count' /\ Forall (fun c => 0 <= c) cs /\
    repeat value (Z.to_nat count) ++ foreground data = expand value cs ++ repeat (after_runs value cs) (Z.to_nat count').
Proof.
  induction data as [|d data IH]; intros B l count value HB Hc Hb.
  - exists B, [], count. cbn [rle_loop List.length after_runs ints_text tails map flat_map foreground expand].
    rewrite !app_nil_r. refine (conj eq_refl (conj HB (conj Hc (conj _ eq_refl)))). constructor.
  - cbn [rle_loop List.length foreground map]. cbn [List.length] in Hb.
    destruct (Bool.eqb (negb (d =? 0)%N) value) eqn:E.
    + apply eqb_prop in E. unfold int_result.
      assert (in_int (count + 1) = true) as -> by (unfold in_int, INT_MIN, INT_MAX in *; lia). cbn [obind].
      destruct (IH B l (count + 1) value HB ltac:(lia) ltac:(lia)) as (B' & cs & count' & R1 & R2 & R3 & R4 & R5).
      exists B', cs, count'. split; [exact R1|]. split; [exact R2|]. split; [exact R3|]. split; [exact R4|].
      rewrite <- R5. rewrite E. fold (foreground data). rewrite repeat_snoc. do 2 f_equal. lia.
    + destruct (append_text B l (44%N :: print_Z count) HB) as (B1 & -> & H1). cbn [obind].
      destruct (IH B1 _ 1 (negb value) H1 ltac:(lia) ltac:(lia)) as (B' & cs & count' & R1 & R2 & R3 & R4 & R5).
      exists B', (count :: cs), count'. split; [exact R1|]. split.
      { change (ints_text (count :: cs)) with ((44%N :: print_Z count) ++ ints_text cs). rewrite app_assoc. exact R2. }
      split; [exact R3|]. split; [constructor; [exact Hc|exact R4]|].
      cbn [expand after_runs]. rewrite <- app_assoc, <- R5. f_equal.
      replace (negb (d =? 0)%N) with (negb value); [reflexivity|]. now destruct (negb (d =? 0)%N), value.
Qed.

Lemma map_repeat {A B} (f : A -> B) v n : map f (repeat v n) = repeat (f v) n.
Proof. induction n as [|n IH]; [reflexivity|]. cbn. now rewrite IH. Qed.

(** The decoder. *)
Definition pixel (v : bool) : N := if v then 1%N else 0%N.
Lemma rle_fill_ok v c : forall room, (c <= room)%nat -> Z.of_nat c <= INT_MAX ->
  rle_fill room (Z.of_nat c) v = Ok (repeat v c, (room - c)%nat).
Proof.
  induction c as [|c IH]; intros room Hr Hi.
  - destruct room; [reflexivity|]. cbn. reflexivity.
  - destruct room as [|room]; [lia|]. cbn [rle_fill].
    replace (Z.of_nat (S c) =? 0) with false by lia. unfold int_result.
    replace (Z.of_nat (S c) - 1) with (Z.of_nat c) by lia.
    assert (in_int (Z.of_nat c) = true) as -> by (unfold in_int, INT_MIN, INT_MAX in *; lia).
    cbn [obind]. rewrite IH by lia. cbn [obind fst snd repeat]. reflexivity.
Qed.
Lemma rle_decode_ok cs : forall v room, Forall (fun c => 0 <= c /\ exact_int c) cs -> (Z.to_nat (total cs) <= room)%nat ->
  rle_decode room (map int_float cs) (pixel v) = Ok (map pixel (expand v cs) ++ repeat 0%N (room - Z.to_nat (total cs))).
Proof.
  induction cs as [|c cs IH]; intros v room HF Hr.
  - cbn [map rle_decode expand total fold_right app]. do 2 f_equal. cbn. lia.
  - inversion HF as [|? ? [Hc He] HF']; subst. cbn [map rle_decode].
    destruct (int_float_exact c He) as [-> _]. cbn [obind].
    assert (T : 0 <= total cs).
    { clear - HF'. induction HF' as [|? ? [? _] _ IH]; [cbn; lia|]. cbn [total fold_right] in *. unfold total in IH. lia. }
    cbn [total fold_right] in Hr. fold (total cs) in Hr.
    pose proof (rle_fill_ok (pixel v) (Z.to_nat c) room ltac:(lia)) as RF. rewrite Z2Nat.id in RF by exact Hc.
    rewrite RF by (unfold exact_int, INT_MAX in *; lia). cbn [obind fst snd].
    replace (if (pixel v =? 0)%N then 1%N else 0%N) with (pixel (negb v)) by (now destruct v).
    rewrite IH by (try exact HF'; lia). cbn [obind expand]. f_equal. rewrite map_app, <- app_assoc. f_equal.
    + now rewrite map_repeat.
    + f_equal. f_equal. cbn [total fold_right]. fold (total cs). lia.
Qed.

Lemma expand_length v cs : Forall (fun c => 0 <= c) cs -> Z.of_nat (List.length (expand v cs)) = total cs.
Proof.
  intros H. revert v. induction H as [|c cs Hc HF IH]; intros v; [reflexivity|].
  cbn [expand total fold_right]. rewrite app_length, repeat_length, Nat2Z.inj_add, IH. unfold total. lia.
Qed.
Lemma expand_runs n v cs b : Forall (fun c => 0 <= c) cs -> short_runs n (expand v cs ++ b) -> Forall (fun c => c <= n) cs.
Proof.
  intros H. revert v. induction H as [|c cs Hc HF IH]; intros v HS; [constructor|]. constructor.
  - specialize (HS [] (repeat v (Z.to_nat c)) (expand (negb v) cs ++ b) v).
    rewrite repeat_length in HS. cbn [expand app] in HS. rewrite <- app_assoc in HS.
    specialize (HS eq_refl ltac:(intros x Hx; now apply repeat_spec in Hx)). lia.
  - apply (IH (negb v)). intros a m b' w E. apply (HS (repeat v (Z.to_nat c) ++ a) m b' w).
    cbn [expand]. rewrite <- !app_assoc. now rewrite E.
Qed.

Lemma all_false_repeat l : (forall x, In x l -> x = false) -> l = repeat false (List.length l).
Proof. induction l as [|x l IH]; intros H; [reflexivity|]. cbn. rewrite <- IH by (intros y Hy; apply H; now right). now rewrite (H x (or_introl eq_refl)). Qed.

(** What the encoder prints for the pixels: runs [cs] that expand to them up to a tail of background. *)
Lemma mask_runs data : data <> [] -> Z.of_nat (List.length data) <= INT_MAX -> forall B1 l, buf_ok B1 l ->
  exists B cs k,
    append_pixels B1 data (List.length data) = Ok B /\ buf_ok B (l ++ ints_text cs) /\ Forall (fun c => 0 <= c) cs /\
    foreground data = expand false cs ++ repeat false k.
Proof.
  intros Hne Hlen B1 l HB. destruct data as [|d0 data]; [congruence|]. unfold append_pixels. cbv zeta.
  set (start := negb (d0 =? 0)%N).
  assert (S2 : exists B2, (if start then buffer_append B1 (str ",0") else Ok B1) = Ok B2 /\
     buf_ok B2 (l ++ ints_text (if start then [0] else []))).
  { destruct start.
    - destruct (append_text B1 l (str ",0") HB) as (B2 & E & H). exists B2. split; [exact E|exact H].
    - exists B1. split; [reflexivity|]. cbn. now rewrite app_nil_r. }
  destruct S2 as (B2 & -> & H2). cbn [obind].
  destruct (rle_loop_ok (d0 :: data) B2 _ 0 start H2 ltac:(lia) ltac:(lia)) as (B3 & cs & count & -> & R2 & R3 & R4 & R5).
  cbn [obind]. change (Z.to_nat 0) with O in R5. cbn [repeat app] in R5.
  rewrite <- app_assoc, <- ints_text_app in R2.
  set (cs0 := (if start then [0] else []) ++ cs) in *.
  assert (E0 : expand false cs0 = expand start cs).
  { unfold cs0. destruct start; [|reflexivity]. cbn [app expand]. reflexivity. }
  assert (F0 : Forall (fun c => 0 <= c) cs0).
  { unfold cs0. apply Forall_app. split; [|exact R4]. destruct start; repeat constructor; lia. }
  assert (A0 : after_runs false cs0 = after_runs start cs) by (unfold cs0; now destruct start).
  destruct (negb (count =? 0) && after_runs start cs) eqn:Ec.
  - apply andb_true_iff in Ec as [Ec1 Ec2].
    destruct (append_text B3 _ (44%N :: print_Z count) R2) as (B & -> & HB').
    exists B, (cs0 ++ [count]), O. split; [reflexivity|]. split.
    { rewrite ints_text_app, app_assoc. change (ints_text [count]) with ((44%N :: print_Z count) ++ []). now rewrite app_nil_r. }
    split; [apply Forall_app; split; [exact F0|repeat constructor; exact R3]|].
    cbn [repeat]. rewrite app_nil_r. rewrite R5, <- E0, <- A0. clear.
    generalize false at 2 4 as v || generalize false as v. revert cs0.
    induction cs0 as [|c cs0 IH]; intros v; cbn [app expand after_runs]; [now rewrite app_nil_r|].
    rewrite <- app_assoc. f_equal. apply IH.
  - exists B3, cs0, (Z.to_nat count). split; [reflexivity|]. split; [exact R2|]. split; [exact F0|].
    rewrite R5, <- E0. f_equal. destruct (count =? 0) eqn:Ez; [apply Z.eqb_eq in Ez as ->; reflexivity|].
    cbn [negb andb] in Ec. now rewrite Ec.
Qed.

Lemma mask_round_trip x y w h data : exact_int x -> exact_int y -> exact_int w -> exact_int h ->
  in_int (w * h) = true -> Z.of_nat (List.length data) = w * h ->
  (exists d, In d data /\ d <> 0%N) -> short_runs (2 ^ 24) (foreground data) ->
  exists t data', region_string (RMask x y w h data) = Ok (Some t) /\
    region_parse t = Ok (true, Some (RMask x y w h data')) /\ foreground data' = foreground data.
Proof.
  intros Hx Hy Hw Hh Hi Hl (d & Hd & Hd0) HS.
  assert (Hne : data <> []) by (intros ->; destruct Hd).
  unfold region_string, int_result at 1. rewrite Hi. cbn [obind].
  set (hd := str "mask:" ++ _).
  destruct (append_text (buffer_create 32) [] hd (buffer_create_ok 32)) as (B1 & -> & H1). cbn [obind]. cbn [app] in H1.
  rewrite <- Hl, Nat2Z.id.
  destruct (mask_runs data Hne ltac:(unfold in_int, INT_MAX in *; lia) B1 hd H1) as (B & cs & k & -> & HB & HF & HE).
  cbn [obind].
  set (t0 := join (map print_Z (x :: y :: w :: h :: cs))).
  assert (Ehd : hd ++ ints_text cs = str "mask:" ++ t0).
  { unfold t0, hd, c_comma. cbn [map]. rewrite join_tails. unfold ints_text. rewrite <- !app_assoc.
    cbn [tails flat_map]. fold (tails (map print_Z cs)). cbn [app]. rewrite <- ?app_assoc. reflexivity. }
  rewrite (extract_text _ _ HB).
  - eexists. exists (map pixel (foreground data)). split; [reflexivity|]. rewrite Ehd.
    assert (HE24 : Forall (fun c => 0 <= c /\ exact_int c) cs).
    { rewrite HE in HS. pose proof (expand_runs _ _ _ _ HF HS) as HU. rewrite Forall_forall in *.
      intros c Hc. specialize (HF c Hc). specialize (HU c Hc). cbv beta in *. unfold exact_int. lia. }
    assert (Hcs : cs <> []).
    { intros ->. cbn [expand app] in HE. assert (In true (foreground data)) as HT.
      { apply in_map_iff. exists d. split; [|exact Hd]. now apply N.eqb_neq in Hd0 as ->. }
      rewrite HE in HT. now apply repeat_spec in HT. }
    split.
    + unfold region_parse. change (str "mask:" ++ t0) with (109%N :: 97%N :: 115%N :: 107%N :: 58%N :: t0).
      change (parse_uri_prefix (109%N :: 97%N :: 115%N :: 107%N :: 58%N :: t0)) with (MASK, t0). cbv iota.
      unfold t0. rewrite (parse_join _ (map int_float (x :: y :: w :: h :: cs))).
      * cbn [obind map List.length].
        assert (V : is_valid_sequence (int_float x :: int_float y :: int_float w :: int_float h :: map int_float cs) = true).
        { unfold is_valid_sequence. cbn [forallb].
          destruct (int_float_exact x Hx) as [_ ->], (int_float_exact y Hy) as [_ ->], (int_float_exact w Hw) as [_ ->],
            (int_float_exact h Hh) as [_ ->]. cbn [negb andb]. apply forallb_forall. intros f Hf.
          apply in_map_iff in Hf as (c & <- & Hc). rewrite Forall_forall in HE24. destruct (HE24 c Hc) as [_ Hc'].
          now destruct (int_float_exact c Hc') as [_ ->]. }
        rewrite V. cbn [negb orb Nat.eqb]. destruct cs as [|c cs]; [congruence|]. cbn [map].
        destruct (int_float_exact x Hx) as [-> _], (int_float_exact y Hy) as [-> _], (int_float_exact w Hw) as [-> _],
            (int_float_exact h Hh) as [-> _]. cbn [obind]. unfold int_result. rewrite Hi. cbn [obind skipn].
        assert (EL : Z.of_nat (List.length (foreground data)) = total (c :: cs) + Z.of_nat k).
        { rewrite HE, app_length, repeat_length, Nat2Z.inj_add, expand_length by exact HF. reflexivity. }
        unfold foreground in EL at 1. rewrite map_length, Hl in EL.
        assert (T : 0 <= total (c :: cs)) by (rewrite <- (expand_length false) by exact HF; lia).
        change (int_float c :: map int_float cs) with (map int_float (c :: cs)). change 0%N with (pixel false).
        rewrite rle_decode_ok; [|exact HE24|lia]. cbn [obind]. do 4 f_equal.
        rewrite HE, map_app. f_equal. rewrite map_repeat. cbn [pixel]. f_equal. lia.
      * discriminate.
      * clear. generalize (x :: y :: w :: h :: cs) as l. induction l as [|z l IH]; [constructor|].
        cbn [map]. constructor; [apply int_reads|exact IH].
    + unfold foreground at 1. rewrite map_map. clear. induction (foreground data) as [|b l IH]; [reflexivity|].
      cbn [map]. rewrite IH. now destruct b.
  - apply no_nul_app; [|apply ints_text_no_nul]. unfold hd.
    repeat apply no_nul_app; try apply print_Z_no_nul; reflexivity.
  - unfold hd. discriminate.
Qed.

(** ---- C27: decoding foreign texts ---- *)
Lemma no_colon_no_prefix t : ~ In 58%N t -> parse_uri_prefix t = (EMPTY, t).
Proof.
  intros H. unfold parse_uri_prefix. generalize MAX_URI_SCHEME as fuel. generalize O as i.
  assert (G : forall l i fuel, ~ In 58%N l -> scan_prefix t l i fuel = (EMPTY, t)).
  { induction l as [|c l IH]; intros i fuel Hl; destruct fuel as [|fuel]; try reflexivity. cbn [scan_prefix].
    destruct (scheme_char c); [apply IH; intros X; apply Hl; now right|].
    destruct (c =? 58)%N eqn:E; [|reflexivity]. exfalso. apply Hl. left. now apply N.eqb_eq. }
  intros i fuel. now apply G.
Qed.

Lemma after_commas_count t : S (List.length (after_commas t)) = n_fields t.
Proof.
  unfold n_fields. f_equal. induction t as [|c t IH]; [reflexivity|]. cbn [after_commas count_occ].
  destruct (c =? 44)%N eqn:E.
  - apply N.eqb_eq in E as ->. destruct (N.eq_dec 44 44); [|congruence]. cbn [List.length]. now rewrite IH.
  - destruct (N.eq_dec c 44) as [->|]; [discriminate E|exact IH].
Qed.
Lemma fields_fit t : (exists c, In c t /\ c <> 44%N) -> (n_fields t <= List.length t)%nat.
Proof.
  intros (c & Hc & Hn). unfold n_fields.
  induction t as [|d t IH]; [destruct Hc|]. cbn [count_occ List.length].
  pose proof (count_occ_bound N.eq_dec 44%N t) as CB.
  destruct Hc as [->|Hc].
  - destruct (N.eq_dec c 44); [congruence|]. lia.
  - specialize (IH Hc). destruct (N.eq_dec d 44); lia.
Qed.
Definition read_fields (t : list N) : list spec_float := map (fun pch => float_of_double (atof pch)) (t :: after_commas t).
Lemma parse_sequence_ok t : (exists c, In c t /\ c <> 44%N) -> parse_sequence t = Ok (read_fields t) /\ List.length (read_fields t) = n_fields t.
Proof.
  intros H. unfold parse_sequence, read_fields. rewrite map_length. cbn [List.length]. rewrite after_commas_count.
  split; [|reflexivity]. pose proof (fields_fit t H) as F. apply Nat.leb_le in F. now rewrite F.
Qed.

(** A text without the letter n has no NaN. *)
Lemma round_ratio_not_nan p emax s n d : is_nan (round_ratio p emax s n d) = false.
Proof. unfold round_ratio. repeat match goal with |- context [match ?x with _ => _ end] => destruct x end; reflexivity. Qed.
Lemma float_of_double_not_nan d : is_nan d = false -> is_nan (float_of_double d) = false.
Proof.
  destruct d; intros H; try discriminate H; try reflexivity. unfold float_of_double.
  repeat match goal with |- context [match ?x with _ => _ end] => destruct x end; apply round_ratio_not_nan || reflexivity.
Qed.
Lemma scaled_not_nan s b m e : is_nan (scaled_double s b m e) = false.
Proof.
  unfold scaled_double, to_double.
  repeat match goal with |- context [if ?x then _ else _] => destruct x end; apply round_ratio_not_nan || reflexivity.
Qed.
Definition no_n (l : list N) : Prop := forall c, In c l -> (to_lower c =? 110)%N = false.
Lemma word_has_n p : word_text p -> ~ no_n p.
Proof.
  unfold word_text, no_n. intros H Hn.
  assert (G : forall c, In c (map to_lower p) -> (c =? 110)%N = false).
  { intros c Hc. apply in_map_iff in Hc as (d & <- & Hd). now apply Hn. }
  destruct H as [H|[H|[H|(n & H & _)]]].
  1-3: rewrite H in G; specialize (G 110%N ltac:(cbn; tauto)); discriminate G.
  destruct p as [|c p]; [discriminate H|]. cbn [firstn map] in H. injection H as H _.
  specialize (Hn c (or_introl eq_refl)). rewrite H in Hn. discriminate Hn.
Qed.
Lemma strtod_decimal_not_nan s l v r : strtod_decimal s l = Some (v, r) -> is_nan v = false.
Proof.
  unfold strtod_decimal. destruct (span is_digit l) as [ip r1]. destruct (read_fraction is_digit r1) as [fp r2].
  destruct (ip ++ fp); [discriminate|]. destruct (read_exponent 101 r2). intros H. injection H as <- _. apply scaled_not_nan.
Qed.
Lemma strtod_hex_not_nan s l v r : strtod_hex s l = Some (v, r) -> is_nan v = false.
Proof.
  unfold strtod_hex. destruct (span is_hex l) as [ip r1]. destruct (read_fraction is_hex r1) as [fp r2].
  destruct (ip ++ fp); [discriminate|]. destruct (read_exponent 112 r2). intros H. injection H as <- _. apply scaled_not_nan.
Qed.
Lemma atof_not_nan l : no_n l -> is_nan (atof l) = false.
Proof.
  intros Hn. unfold atof. destruct (strtod l) as [[v r]|] eqn:E; [|reflexivity]. unfold strtod in E.
  destruct (span is_space l) as [w l0] eqn:E0. cbn [snd] in E. destruct (read_sign l0) as [s l1] eqn:E1.
  apply span_inv in E0 as [-> _]. apply read_sign_inv in E1 as (t & _ & ->).
  assert (Hn1 : no_n l1) by (intros c Hc; apply Hn; apply in_or_app; right; apply in_or_app; now right).
  destruct (strtod_word s l1) as [[v' r']|] eqn:Ew.
  - exfalso. apply strtod_word_inv in Ew as (p & Hp & ->). apply (word_has_n p Hp).
    intros c Hc. apply Hn1. apply in_or_app. now left.
  - destruct (drop_word (str "0x") l1) as [r1|]; [|now apply strtod_decimal_not_nan in E].
    destruct (strtod_hex s r1) as [[v' r']|] eqn:Eh; [|now apply strtod_decimal_not_nan in E].
    injection E as -> ->. now apply strtod_hex_not_nan in Eh.
Qed.
Lemma no_n_suffix t p : no_n t -> In p (t :: after_commas t) -> no_n p.
Proof.
  intros Hn [<-|Hp]; [exact Hn|]. revert Hp. induction t as [|c t IH]; intros Hp; [destruct Hp|]. cbn [after_commas] in Hp.
  assert (Hn' : no_n t) by (intros d Hd; apply Hn; now right).
  destruct (c =? 44)%N; [destruct Hp as [<-|Hp]; [exact Hn'|]|]; now apply IH.
Qed.
Lemma no_n_valid t : no_n t -> is_valid_sequence (read_fields t) = true.
Proof.
  intros H. apply forallb_forall. intros x Hx. apply in_map_iff in Hx as (p & <- & Hp).
  rewrite float_of_double_not_nan; [reflexivity|]. apply atof_not_nan. now apply (no_n_suffix t).
Qed.
Lemma no_n_spec t : ~ In 110%N t -> ~ In 78%N t -> no_n t.
Proof.
  intros H1 H2 c Hc. apply N.eqb_neq. intros E. apply lower_eq in E as [->| ->]; [now apply H1|now apply H2|lia].
Qed.

Lemma decode_plain_safe t : ~ In 58%N t -> (exists c, In c t /\ c <> 44%N) -> n_fields t <> 1%nat ->
  (n_fields t = 4%nat -> ~ In 110%N t /\ ~ In 78%N t) ->
  exists ok r, region_parse t = Ok (ok, r) /\ (ok = true <-> r <> None).
Proof.
  intros Hc Hx H1 H4. destruct (parse_sequence_ok t Hx) as [E L].
  assert (Fin : forall ok r, (ok = true <-> r <> None) -> exists ok' r', Ok (ok, r) = Ok (ok', r') /\ (ok' = true <-> r' <> None :> option region)).
  { intros ok r H. exists ok, r. now split. }
  unfold region_parse. destruct t as [|c0 t0] eqn:Et; [destruct Hx as (c & [] & _)|]. rewrite <- Et in *.
  rewrite (no_colon_no_prefix t Hc), E. cbn [obind]. rewrite L.
  replace (Nat.eqb (n_fields t) 0) with false by (symmetry; apply Nat.eqb_neq; unfold n_fields; lia). rewrite orb_false_r.
  replace (Nat.eqb (n_fields t) 1) with false by (symmetry; now apply Nat.eqb_neq).
  destruct (Nat.eq_dec (n_fields t) 4) as [E4|N4].
  - destruct (H4 E4) as [Hn HN]. rewrite (no_n_valid t (no_n_spec t Hn HN)). cbn [negb]. rewrite E4 in *. cbn [Nat.eqb].
    destruct (read_fields t) as [|a [|b [|c [|d [|]]]]]; try discriminate L. apply Fin. split; congruence.
  - destruct (is_valid_sequence (read_fields t)); cbn [negb].
    + replace (Nat.eqb (n_fields t) 4) with false by (symmetry; now apply Nat.eqb_neq).
      destruct (Nat.leb 6 (n_fields t) && Nat.eqb (n_fields t mod 2) 0) eqn:E6; apply Fin; split; congruence.
    + destruct (read_fields t) as [|a [|b [|c [|d [|e l]]]]]; cbn [List.length] in L; try (exfalso; congruence);
        apply Fin; split; congruence.
Qed.

Lemma decode_rect_safe t : (exists c, In c t /\ c <> 44%N) -> n_fields t = 4%nat -> ~ In 110%N t -> ~ In 78%N t ->
  exists x y w h, region_parse (str "rect:" ++ t) = Ok (true, Some (RRect x y w h)) /\ read_fields t = [x; y; w; h].
Proof.
  intros Hx H4 Hn HN. destruct (parse_sequence_ok t Hx) as [E L]. rewrite H4 in L.
  pose proof (no_n_valid t (no_n_spec t Hn HN)) as V.
  destruct (read_fields t) as [|a [|b [|c [|d [|]]]]] eqn:Er; try discriminate L.
  exists a, b, c, d. split; [|reflexivity]. unfold region_parse.
  change (str "rect:" ++ t) with (114%N :: 101%N :: 99%N :: 116%N :: 58%N :: t). cbv iota.
  change (parse_uri_prefix (114%N :: 101%N :: 99%N :: 116%N :: 58%N :: t)) with (RECTANGLE, t). cbv iota.
  rewrite E. cbn [obind]. rewrite V. reflexivity.
Qed.
Lemma decode_poly_safe t : (exists c, In c t /\ c <> 44%N) -> (3 <= n_fields t / 2)%nat -> (n_fields t mod 2 = 0)%nat ->
  ~ In 110%N t -> ~ In 78%N t ->
  exists pts, region_parse (str "poly:" ++ t) = Ok (true, Some (RPoly pts)) /\ List.length pts = (n_fields t / 2)%nat.
Proof.
  intros Hx H6 Hm Hn HN. destruct (parse_sequence_ok t Hx) as [E L].
  pose proof (no_n_valid t (no_n_spec t Hn HN)) as V.
  exists (pair_points (read_fields t)). split.
  - unfold region_parse.
    change (str "poly:" ++ t) with (112%N :: 111%N :: 108%N :: 121%N :: 58%N :: t). cbv iota.
    change (parse_uri_prefix (112%N :: 111%N :: 108%N :: 121%N :: 58%N :: t)) with (POLYGON, t). cbv iota.
    rewrite E. cbn [obind]. rewrite V, L. cbn [negb orb].
    replace (Nat.eqb (n_fields t) 0) with false by (symmetry; apply Nat.eqb_neq; unfold n_fields; lia).
    replace (Nat.leb 6 (n_fields t)) with true by (symmetry; apply Nat.leb_le; lia). rewrite Hm. reflexivity.
  - rewrite <- L. clear. generalize (read_fields t) as l. fix IH 1. intros [|x [|y l]]; try reflexivity.
    cbn [pair_points List.length]. rewrite IH. clear. generalize (List.length l) as n. intros n. lia.
Qed.
