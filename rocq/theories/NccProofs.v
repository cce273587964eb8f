(** Proofs for the tutorial tracker. *)
From Verif Require Import CBase Num NumProofs Region Image ImageProofs GeomProofs Sockets Ncc NccSpec.
Local Open Scope Z_scope.

(** ---- Files ---- *)
Lemma until_found d a r : ~ In d a -> until d (a ++ d :: r) = (a, Some r).
Proof.
  induction a as [|c a IH]; intros H; cbn [app until]; [now rewrite N.eqb_refl|].
  replace (c =? d)%N with false by (symmetry; apply N.eqb_neq; intros ->; apply H; now left). rewrite IH; [reflexivity|]. intros X. apply H. now right.
Qed.
Lemma until_end d a : ~ In d a -> until d a = (a, None).
Proof.
  induction a as [|c a IH]; intros H; cbn [until]; [reflexivity|].
  replace (c =? d)%N with false by (symmetry; apply N.eqb_neq; intros ->; apply H; now left). rewrite IH; [reflexivity|]. intros X. apply H. now right.
Qed.
Lemma getline_found d a r t : ~ In d a -> getline d (mkStream (a ++ d :: r) false) t = (mkStream r false, a).
Proof. intros H. unfold getline. cbn [f_eof f_left]. now rewrite until_found. Qed.
Lemma getline_end d a t : ~ In d a -> getline d (mkStream a false) t = (mkStream [] true, a).
Proof. intros H. unfold getline. cbn [f_eof f_left]. now rewrite until_end. Qed.
Lemma sequence_lines lines : forall fuel rest t acc, Forall a_line lines ->
  sequence_loop (List.length lines + fuel) (mkStream (ended lines ++ rest) false) t acc = match lines with [] => sequence_loop fuel (mkStream rest false) t acc | _ => sequence_loop fuel (mkStream rest false) (last lines t) (acc ++ lines) end.
Proof.
  induction lines as [|x lines IH]; intros fuel rest t acc H; [reflexivity|]. inversion_clear H as [|? ? [Hx Hn] H']. cbn [List.length Nat.add sequence_loop].
  unfold ended. cbn [map concat]. fold (ended lines). rewrite <- !app_assoc. cbn [app]. rewrite (getline_found newline x _ t Hn). destruct x as [|c x]; [congruence|].
  rewrite (IH fuel rest (c :: x) _ H'). destruct lines as [|y lines]; [reflexivity|]. rewrite <- app_assoc. cbn [app]. f_equal. change (last (y :: lines) (c :: x) = last (y :: lines) t). clear. revert y. induction lines as [|z l IH]; intros y; [reflexivity|]. exact (IH z).
Qed.
Lemma sequence_read fuel lines rest : Forall a_line lines -> (rest = [] \/ exists r, rest = newline :: r) -> (List.length lines < fuel)%nat -> readsequence fuel (ended lines ++ rest) = Ok lines.
Proof.
  intros H Hr Hf. unfold readsequence. replace fuel with (List.length lines + S (fuel - S (List.length lines)))%nat by lia. rewrite (sequence_lines _ _ _ _ _ H).
  assert (E : forall t, getline newline (mkStream rest false) t = (mkStream (tl rest) (match rest with [] => true | _ => false end), [])) by (intros t; destruct Hr as [->|(r & ->)]; reflexivity).
  destruct lines as [|x lines]; cbn [sequence_loop]; change 10%N with newline; rewrite E; reflexivity.
Qed.
Lemma sequence_stuck fuel : forall t acc, t <> [] -> sequence_loop fuel (mkStream [] true) t acc = NoFuel.
Proof. induction fuel as [|fuel IH]; intros t acc H; [reflexivity|]. cbn [sequence_loop getline f_eof]. unfold getline. cbn [f_eof]. destruct t; [congruence|]. now apply IH. Qed.
Lemma loop_less f : forall s t acc n, sequence_loop (f + n) s t acc = NoFuel -> sequence_loop f s t acc = NoFuel.
Proof.
  induction f as [|f IH]; intros s t acc n H; [reflexivity|]. cbn [sequence_loop Nat.add] in *. destruct (getline 10 s t) as [s' p]. destruct p; [discriminate H|]. exact (IH _ _ _ _ H).
Qed.
Lemma sequence_forever fuel lines l : Forall a_line lines -> a_line l -> readsequence fuel (ended lines ++ l) = NoFuel.
Proof.
  intros H [Hl Hn]. unfold readsequence. apply (loop_less fuel _ _ _ (List.length lines + 1)%nat). replace (fuel + (List.length lines + 1))%nat with (List.length lines + S fuel)%nat by lia. rewrite (sequence_lines _ _ _ _ _ H).
  assert (E : forall t acc, sequence_loop (S fuel) (mkStream l false) t acc = NoFuel).
  { intros t acc. cbn [sequence_loop]. change 10%N with newline. rewrite (getline_end newline l t Hn). destruct l as [|c l]; [congruence|]. apply sequence_stuck. discriminate. }
  destruct lines; apply E.
Qed.

Lemma span_digits d r : Forall (fun c => (48 <= c <= 57)%N) d -> no_digit r -> span is_digit (d ++ r) = (d, r).
Proof.
  intros H Hr. apply span_app; [|destruct r as [|c r]; [exact Logic.I|unfold no_digit in Hr; unfold is_digit; lia]].
  apply forallb_forall. intros c Hc. rewrite Forall_forall in H. specialize (H _ Hc). unfold is_digit. lia.
Qed.
Lemma atoi_number t z r : number_text t z -> no_digit r -> atoi (t ++ r) = z.
Proof.
  intros [Hz Ht] Hr. unfold atoi.
  assert (E : fst (strtol (t ++ r)) = z).
  { destruct Ht as [(Hn & Hd & Hv)|(d & -> & Hn & Hd & Hv)].
    - destruct t as [|c t]; [congruence|]. unfold strtol. pose proof Hd as Hd'. inversion_clear Hd' as [|? ? Hc _]. cbn [app span].
      replace (is_space c) with false by (symmetry; unfold is_space; lia). cbn [snd read_sign]. replace (c =? 45)%N with false by (symmetry; apply N.eqb_neq; lia). replace (c =? 43)%N with false by (symmetry; apply N.eqb_neq; lia).
      change (c :: t ++ r) with ((c :: t) ++ r). rewrite (span_digits _ _ Hd Hr). unfold digits_val. rewrite Hv. cbn [fst]. unfold LONG_MIN, LONG_MAX. lia.
    - unfold strtol. cbn [app span]. change (is_space 45%N) with false. cbn [snd read_sign]. change (45 =? 45)%N with true. cbv iota. rewrite (span_digits _ _ Hd Hr).
      destruct d as [|c d]; [congruence|]. unfold digits_val. rewrite Hv. cbn [fst]. unfold LONG_MIN, LONG_MAX. lia. }
  rewrite E. unfold Image.int_of_long. lia.
Qed.
Lemma no_comma t z : number_text t z -> ~ In comma t.
Proof.
  intros [_ [(_ & H & _)|(d & -> & _ & H & _)]] X; rewrite Forall_forall in H; [specialize (H _ X); unfold comma in H; lia|].
  destruct X as [X|X]; [discriminate X|]. specialize (H _ X). unfold comma in H. lia.
Qed.
Lemma atoi_all t z : number_text t z -> atoi t = z.
Proof. intros H. rewrite <- (app_nil_r t). exact (atoi_number t z [] H Logic.I). Qed.
Lemma rectangle_read tx ty tw th x y w h rest : number_text tx x -> number_text ty y -> number_text tw w -> number_text th h -> no_digit rest ->
  readrectangle (tx ++ comma :: ty ++ comma :: tw ++ comma :: th ++ rest) = mkRect x y w h.
Proof.
  intros Hx Hy Hw Hh Hr. unfold readrectangle. change 44%N with comma. rewrite (getline_found comma tx _ [] (no_comma _ _ Hx)), (getline_found comma ty _ tx (no_comma _ _ Hy)), (getline_found comma tw _ ty (no_comma _ _ Hw)).
  assert (E : exists s t, getline comma (mkStream (th ++ rest) false) tw = (s, t) /\ atoi t = h).
  { destruct (in_dec N.eq_dec comma rest) as [Hin|Hout].
    - assert (Hs : exists a b, rest = a ++ comma :: b /\ ~ In comma a).
      { clear Hr. induction rest as [|c rest IH]; [destruct Hin|]. destruct (N.eq_dec c comma) as [->|Hc]; [exists [], rest; split; [reflexivity|intros []]|].
        destruct Hin as [X|X]; [congruence|]. destruct (IH X) as (a & b & -> & Ha). exists (c :: a), b. split; [reflexivity|]. intros [Y|Y]; [congruence|contradiction]. }
      destruct Hs as (a & b & -> & Ha). rewrite app_assoc, getline_found; [|intros X; apply in_app_or in X as [X|X]; [exact (no_comma _ _ Hh X)|exact (Ha X)]].
      eexists _, _. split; [reflexivity|]. apply atoi_number; [exact Hh|]. destruct a as [|c a]; [exact Logic.I|exact Hr].
    - rewrite getline_end; [|intros X; apply in_app_or in X as [X|X]; [exact (no_comma _ _ Hh X)|exact (Hout X)]]. eexists _, _. split; [reflexivity|]. apply atoi_number; assumption. }
  destruct E as (s & t & -> & ->). now rewrite (atoi_all _ _ Hx), (atoi_all _ _ Hy), (atoi_all _ _ Hw).
Qed.
Lemma rectangle_short tx ty tw x y w : number_text tx x -> number_text ty y -> number_text tw w ->
  readrectangle (tx ++ comma :: ty ++ comma :: tw) = mkRect x y w w.
Proof.
  intros Hx Hy Hw. unfold readrectangle. change 44%N with comma. rewrite (getline_found comma tx _ [] (no_comma _ _ Hx)), (getline_found comma ty _ tx (no_comma _ _ Hy)), (getline_end comma tw ty (no_comma _ _ Hw)).
  unfold getline. cbn [f_eof]. now rewrite (atoi_all _ _ Hx), (atoi_all _ _ Hy), (atoi_all _ _ Hw).
Qed.

(** ---- The tracker ---- *)
Lemma cut_inside cols rows r : cut cols rows r = Some r <-> inside cols rows r.
Proof.
  unfold cut, inside. split.
  - destruct (_ && _)%bool eqn:E; [|discriminate]. intros _. repeat rewrite andb_true_iff in E. lia.
  - intros H. replace (_ && _)%bool with true; [reflexivity|]. symmetry. repeat rewrite andb_true_iff. lia.
Qed.
Lemma cut_some cols rows r p : cut cols rows r = Some p -> p = r /\ inside cols rows r.
Proof. intros H. assert (p = r) as -> by (unfold cut in H; destruct (_ && _)%bool in H; congruence). split; [reflexivity|]. now apply cut_inside. Qed.
Lemma init_seen cols rows r : size_ok cols rows -> moderate_rect r ->
  (init cols rows r = Ok None /\ (cols - 1 < r_x r \/ rows - 1 < r_y r \/ r_x r + r_w r < 0 \/ r_y r + r_h r < 0)) \/
  (exists t part, init cols rows r = Ok (Some (t, part)) /\ inside cols rows part /\ r_x r <= cols - 1 /\ r_y r <= rows - 1 /\ 0 <= r_x r + r_w r /\ 0 <= r_y r + r_h r /\
     t = mkNcc (2 * r_x r + r_w r) (2 * r_y r + r_h r) (r_w r) (r_h r) (2 * Z.max (r_w r) (r_h r)) (r_w part) (r_h part) /\
     part = mkRect (Z.max (r_x r) 0) (Z.max (r_y r) 0) (Z.min (r_x r + r_w r) (cols - 1) - Z.max (r_x r) 0) (Z.min (r_y r + r_h r) (rows - 1) - Z.max (r_y r) 0)).
Proof.
  intros [Hc Hr] (Hx & Hy & Hw & Hh). unfold moderate in *. change (2 ^ 20) with 1048576 in *. unfold init, int_result.
  replace (in_int (r_x r + r_w r)) with true by (symmetry; apply in_int_of; unfold INT_MIN, INT_MAX; lia). replace (in_int (r_y r + r_h r)) with true by (symmetry; apply in_int_of; unfold INT_MIN, INT_MAX; lia). cbn [obind].
  destruct (cut cols rows _) as [part|] eqn:E.
  - right. apply cut_some in E as [-> E]. eexists _, _. split; [reflexivity|]. split; [exact E|]. unfold inside in E. cbn [r_x r_y r_w r_h] in E |- *. repeat (split; [lia|]). split; reflexivity.
  - left. split; [reflexivity|]. destruct (Z_lt_ge_dec (cols - 1) (r_x r)); [lia|]. destruct (Z_lt_ge_dec (rows - 1) (r_y r)); [lia|]. destruct (Z_lt_ge_dec (r_x r + r_w r) 0); [lia|]. destruct (Z_lt_ge_dec (r_y r + r_h r) 0); [lia|].
    exfalso. assert (F : cut cols rows (mkRect (Z.max (r_x r) 0) (Z.max (r_y r) 0) (Z.min (r_x r + r_w r) (cols - 1) - Z.max (r_x r) 0) (Z.min (r_y r + r_h r) (rows - 1) - Z.max (r_y r) 0)) =
      Some (mkRect (Z.max (r_x r) 0) (Z.max (r_y r) 0) (Z.min (r_x r + r_w r) (cols - 1) - Z.max (r_x r) 0) (Z.min (r_y r + r_h r) (rows - 1) - Z.max (r_y r) 0))).
    { apply cut_inside. unfold inside. cbn [r_x r_y r_w r_h]. lia. }
    congruence.
Qed.
Definition at_rect (t : ncc) (r : irect) : Prop := n_x2 t = 2 * r_x r + r_w r /\ n_y2 t = 2 * r_y r + r_h r /\ n_w t = r_w r /\ n_h t = r_h r /\ n_cols t = r_w r /\ n_rows t = r_h r /\ n_window t = 2 * Z.max (r_w r) (r_h r) /\ 0 <= r_x r /\ 0 <= r_y r /\ 0 <= r_w r /\ 0 <= r_h r.
Lemma int2_odd x w : 0 <= x -> 0 <= w -> int2 (2 * x + w - 2 * Z.quot w 2) = x.
Proof. intros Hx Hw. unfold int2. rewrite Z.quot_div_nonneg, Z.quot_div_nonneg by (rewrite ?Z.quot_div_nonneg by lia; lia). lia. Qed.
Lemma round2_near h : Z.abs (2 * round2 h - h) <= 1.
Proof. unfold round2. destruct (0 <=? h) eqn:E; lia. Qed.
Lemma around_round n x w m : around n x w m (Z.max (round2 (2 * x + w - 2 * m)) 0) (Z.max (round2 (2 * x + w - 2 * m)) 0 + (Z.min (round2 (2 * x + w + 2 * m)) (n - 1) - Z.max (round2 (2 * x + w - 2 * m)) 0)).
Proof.
  unfold around. replace (Z.max (round2 (2 * x + w - 2 * m)) 0 + (Z.min (round2 (2 * x + w + 2 * m)) (n - 1) - Z.max (round2 (2 * x + w - 2 * m)) 0)) with (Z.min (round2 (2 * x + w + 2 * m)) (n - 1)) by lia.
  pose proof (round2_near (2 * x + w - 2 * m)) as A. pose proof (round2_near (2 * x + w + 2 * m)) as B.
  assert (C : round2 (2 * x + w - 2 * m) <= 0 -> 2 * x + w - 2 * m <= 0) by (unfold round2; destruct (0 <=? 2 * x + w - 2 * m) eqn:E; lia).
  set (a := round2 (2 * x + w - 2 * m)) in *. set (b := round2 (2 * x + w + 2 * m)) in *. clearbody a b. split.
  - destruct (Z_le_gt_dec a 0) as [Ha|Ha]; [right; rewrite Z.max_r by lia; auto|left; rewrite Z.max_l by lia; lia].
  - destruct (Z_le_gt_dec b (n - 1)) as [Hb|Hb]; [left; rewrite Z.min_l by lia; lia|right; rewrite Z.min_r by lia; lia].
Qed.
Lemma update_ok t r v : at_rect t r -> proper_view (r_w r) (r_h r) v ->
  exists u, update (v_cols v) (v_rows v) (v_best v) t = Some u /\ at_rect (u_state u) (u_result u) /\ r_w (u_result u) = r_w r /\ r_h (u_result u) = r_h r /\
    match u_searched u with
    | None => u_result u = r
    | Some part => around (v_cols v) (r_x r) (r_w r) (Z.max (r_w r) (r_h r)) (r_x part) (r_x part + r_w part) /\
        around (v_rows v) (r_y r) (r_h r) (Z.max (r_w r) (r_h r)) (r_y part) (r_y part + r_h part) /\
        inside (v_cols v) (v_rows v) part /\ inside (v_cols v) (v_rows v) (u_result u) /\
        r_x part <= r_x (u_result u) /\ r_y part <= r_y (u_result u) /\ r_x (u_result u) + r_w r <= r_x part + r_w part /\ r_y (u_result u) + r_h r <= r_y part + r_h part
    end.
Proof.
  intros (Hx & Hy & Hw & Hh & Hc & Hr & Wn & Px & Py & Pw & Ph) [[Sc Sr] Hb]. unfold update.
  set (left := Z.max (round2 (n_x2 t - n_window t)) 0). set (top := Z.max (round2 (n_y2 t - n_window t)) 0).
  set (right := Z.min (round2 (n_x2 t + n_window t)) (v_cols v - 1)). set (bottom := Z.min (round2 (n_y2 t + n_window t)) (v_rows v - 1)).
  cbn [r_w r_h]. rewrite Hc, Hr. destruct ((right - left <? r_w r) || (bottom - top <? r_h r))%bool eqn:E.
  - eexists. split; [reflexivity|]. cbn [u_result u_state u_searched r_w r_h]. rewrite Hx, Hy, Hw, Hh, !int2_odd by assumption.
    split; [|split; [reflexivity|split; [reflexivity|destruct r; reflexivity]]]. unfold at_rect. cbn [r_x r_y r_w r_h]. auto 12.
  - apply orb_false_iff in E as [E1 E2]. apply Z.ltb_ge in E1, E2.
    assert (A1 : around (v_cols v) (r_x r) (r_w r) (Z.max (r_w r) (r_h r)) left (left + (right - left))) by (unfold left, right; rewrite Hx, Wn; apply around_round).
    assert (A2 : around (v_rows v) (r_y r) (r_h r) (Z.max (r_w r) (r_h r)) top (top + (bottom - top))) by (unfold top, bottom; rewrite Hy, Wn; apply around_round).
    assert (L0 : 0 <= left) by (unfold left; lia). assert (T0 : 0 <= top) by (unfold top; lia). assert (R0 : right <= v_cols v - 1) by (unfold right; lia). assert (B0 : bottom <= v_rows v - 1) by (unfold bottom; lia). clearbody left top right bottom.
    set (part := mkRect left top (right - left) (bottom - top)). assert (I : inside (v_cols v) (v_rows v) part) by (unfold inside, part; cbn [r_x r_y r_w r_h]; lia).
    rewrite (proj2 (cut_inside _ _ _) I). destruct (Hb part I) as [B1 B2]; [exact E1|exact E2|]. destruct (v_best v part) as [mx my]. cbn [fst snd] in B1, B2. unfold part in B1, B2. cbn [r_w r_h] in B1, B2.
    eexists. split; [reflexivity|]. cbn [u_result u_state u_searched r_w r_h r_x r_y]. rewrite ?Hw, ?Hh, ?Hc, ?Hr. split; [|split; [reflexivity|split; [reflexivity|split; [exact A1|split; [exact A2|split; [exact I|]]]]]].
    + unfold at_rect. cbn [r_x r_y r_w r_h n_x2 n_y2 n_w n_h n_cols n_rows n_window]. repeat (split; [lia|]). lia.
    + unfold inside, part. cbn [r_x r_y r_w r_h]. lia.
Qed.
Lemma track_ok l : forall t r, at_rect t r -> Forall (proper_view (r_w r) (r_h r)) l -> exists answers, track t l = Some answers /\ answers_ok (r_w r) (r_h r) r l answers.
Proof.
  induction l as [|v l IH]; intros t r Ht Hl; cbn [track]; [exists []; split; [reflexivity|exact Logic.I]|]. inversion_clear Hl as [|? ? Hv Hl'].
  destruct (update_ok t r v Ht Hv) as (u & E & Hu & W & H & Hs). rewrite E. destruct (IH (u_state u) (u_result u) Hu) as (a & Ea & Ha); [rewrite W, H; exact Hl'|]. rewrite Ea. eexists. split; [reflexivity|].
  cbn [answers_ok]. split; [exact W|]. split; [exact H|]. split; [exact Hs|]. rewrite W, H in Ha. exact Ha.
Qed.
Lemma ncc_run cols rows r l : size_ok cols rows -> moderate_rect r -> inside (cols - 1) (rows - 1) r -> Forall (proper_view (r_w r) (r_h r)) l ->
  exists t answers, init cols rows r = Ok (Some (t, r)) /\ track t l = Some answers /\ answers_ok (r_w r) (r_h r) r l answers.
Proof.
  intros Hs Hm Hi Hl. unfold inside in Hi. destruct (init_seen cols rows r Hs Hm) as [(_ & X)|(t & part & E & _ & _ & _ & _ & _ & Et & Ep)]; [destruct Hm as (_ & _ & ? & ?); lia|].
  assert (part = r) as ->. { rewrite Ep. destruct r as [x y w h]. cbn [r_x r_y r_w r_h] in *. f_equal; lia. }
  assert (A : at_rect t r). { rewrite Et. unfold at_rect. cbn [n_x2 n_y2 n_w n_h n_cols n_rows n_window]. repeat (split; [lia|]). lia. }
  destruct (track_ok l t r A Hl) as (answers & Ea & Ha). exists t, answers. auto.
Qed.
Lemma init_none cols rows r : size_ok cols rows -> moderate_rect r ->
  (init cols rows r = Ok None <-> cols - 1 < r_x r \/ rows - 1 < r_y r \/ r_x r + r_w r < 0 \/ r_y r + r_h r < 0) /\
  (forall t part, init cols rows r = Ok (Some (t, part)) -> inside cols rows part) /\
  (exists q, init cols rows r = Ok q).
Proof.
  intros Hs Hm. destruct (init_seen cols rows r Hs Hm) as [(E & X)|(t & part & E & I & X1 & X2 & X3 & X4 & _)].
  - split; [tauto|]. split; [intros t part E'; congruence|eauto].
  - split; [split; [congruence|lia]|]. split; [|eauto]. intros t' part' E'. rewrite E in E'. injection E' as <- <-. exact I.
Qed.
Lemma border cols rows r : size_ok cols rows -> moderate_rect r -> 0 <= r_x r -> 0 <= r_y r -> 1 <= r_w r -> r_x r + r_w r = cols -> r_y r + r_h r <= rows - 1 ->
  exists t, init cols rows r = Ok (Some (t, mkRect (r_x r) (r_y r) (r_w r - 1) (r_h r))).
Proof.
  intros Hs Hm X Y W C R. destruct (init_seen cols rows r Hs Hm) as [(_ & Z0)|(t & part & E & _ & _ & _ & _ & _ & Et & Ep)]; [destruct Hm as (_ & _ & ? & ?); lia|].
  exists t. rewrite E. do 3 f_equal. rewrite Ep. destruct Hm as (_ & _ & ? & ?). f_equal; lia.
Qed.
Lemma round2_low h : round2 h <= Z.max 0 ((h + 1) / 2).
Proof. unfold round2. destruct (0 <=? h) eqn:E; lia. Qed.
Lemma clipped cols rows r v : size_ok cols rows -> moderate_rect r -> r_x r < 0 -> 0 <= r_y r -> 1 <= r_x r + r_w r <= cols - 1 -> 1 <= r_h r -> r_y r + r_h r <= rows - 1 ->
  v_cols v = cols -> v_rows v = rows -> unmoved 0 (r_y r) v ->
  exists t part s, init cols rows r = Ok (Some (t, part)) /\ track t [v] = Some [(mkRect 0 (r_y r) (r_w r) (r_h r), s)].
Proof.
  intros Hs Hm X Y W H R Vc Vr U. destruct (init_seen cols rows r Hs Hm) as [(_ & Z0)|(t & part & E & _ & _ & _ & _ & _ & Et & Ep)]; [destruct Hm as (_ & _ & ? & ?); lia|].
  exists t, part. enough (K : exists s, track t [v] = Some [(mkRect 0 (r_y r) (r_w r) (r_h r), s)]) by (destruct K as (s & K); exists s; split; [exact E|exact K]). destruct Hm as (_ & _ & Mw & Mh).
  assert (Pc : r_w part = r_x r + r_w r) by (rewrite Ep; cbn [r_w]; lia). assert (Pr : r_h part = r_h r) by (rewrite Ep; cbn [r_h]; lia).
  cbn [track]. rewrite Vc, Vr. unfold update. rewrite Et. cbn [n_x2 n_y2 n_w n_h n_window n_cols n_rows]. rewrite Pc, Pr.
  set (m := Z.max (r_w r) (r_h r)). assert (Hm1 : r_w r <= m) by (unfold m; lia). assert (Hm2 : r_h r <= m) by (unfold m; lia). clearbody m.
  assert (L : Z.max (round2 (2 * r_x r + r_w r - 2 * m)) 0 = 0) by (pose proof (round2_low (2 * r_x r + r_w r - 2 * m)); lia). rewrite L.
  set (top := Z.max (round2 (2 * r_y r + r_h r - 2 * m)) 0). assert (T : 0 <= top <= r_y r) by (unfold top; pose proof (round2_low (2 * r_y r + r_h r - 2 * m)); lia).
  set (right := Z.min (round2 (2 * r_x r + r_w r + 2 * m)) (cols - 1)).
  assert (Rt : r_x r + r_w r <= right <= cols - 1). { unfold right, round2. destruct (0 <=? 2 * r_x r + r_w r + 2 * m) eqn:Q; lia. }
  set (bottom := Z.min (round2 (2 * r_y r + r_h r + 2 * m)) (rows - 1)).
  assert (Bt : r_y r + r_h r <= bottom <= rows - 1). { unfold bottom, round2. destruct (0 <=? 2 * r_y r + r_h r + 2 * m) eqn:Q; lia. }
  clearbody top right bottom. cbn [r_w r_h]. replace ((right - 0 <? r_x r + r_w r) || (bottom - top <? r_h r))%bool with false by (symmetry; apply orb_false_iff; lia).
  rewrite (proj2 (cut_inside _ _ _)) by (unfold inside; cbn [r_x r_y r_w r_h]; lia). rewrite U. cbn [r_x r_y u_result u_state u_searched track]. eexists. do 2 f_equal. f_equal. f_equal; lia.
Qed.
Lemma drifted cols rows r best t part : size_ok cols rows -> moderate_rect r -> r_x r < 0 -> 0 <= r_y r -> Z.odd (r_w r) = true -> init cols rows r = Ok (Some (t, part)) -> 1 <= r_w part ->
  track t [mkView 1 1 best] = Some [(mkRect (r_x r + 1) (r_y r) (r_w r) (r_h r), None)].
Proof.
  intros Hs Hm X Y O E W. destruct (init_seen cols rows r Hs Hm) as [(E' & _)|(t' & part' & E' & _ & _ & _ & _ & _ & Et & _)]; rewrite E in E'; [discriminate E'|]. injection E' as <- <-. destruct Hm as (_ & _ & Mw & Mh).
  cbn [track v_cols v_rows v_best]. unfold update. rewrite Et. cbn [n_x2 n_y2 n_w n_h n_window n_cols n_rows r_w r_h].
  match goal with |- context [(?a <? r_w part) || ?b] => replace ((a <? r_w part) || b)%bool with true by (symmetry; apply orb_true_iff; left; lia) end.
  cbn [u_result u_state u_searched track]. rewrite (int2_odd (r_y r) (r_h r)) by lia. do 4 f_equal.
  unfold int2. rewrite (Z.quot_div_nonneg (r_w r)) by lia. apply Z.odd_spec in O as [k Hk]. replace (2 * r_x r + r_w r - 2 * (r_w r / 2)) with (- (- (2 * r_x r + 1))) by lia.
  rewrite Z.quot_opp_l, Z.quot_div_nonneg by lia. lia.
Qed.
