(** Proofs about the client support library. *)
From Verif Require Import CBase Lists ListsSpec ListsProofs Support SupportSpec.
Local Open Scope Z_scope.

(** ---- the log ---- *)
Definition emitted (n : Z) (c : N) : list N := if 256 <=? n + 1 then if n + 1 =? 256 then [c_nl] else [] else [c].
Definition next_count (n : Z) (c : N) : Z := if (c =? c_nl)%N then 0 else n + 1.
Fixpoint clip (n : Z) (l : list N) : list N :=
  match l with [] => [] | c :: l' => emitted n c ++ clip (next_count n c) l' end.
Fixpoint count (n : Z) (l : list N) : Z := match l with [] => n | c :: l' => count (next_count n c) l' end.
Fixpoint fits (n : Z) (l : list N) : Prop := match l with [] => True | c :: l' => n + 1 <= INT_MAX /\ fits (next_count n c) l' end.

Lemma clip_app l1 : forall n l2, clip n (l1 ++ l2) = clip n l1 ++ clip (count n l1) l2.
Proof. induction l1 as [|c l1 IH]; intros n l2; cbn [app clip count]; [reflexivity|]. rewrite IH, app_assoc. reflexivity. Qed.
Lemma count_app l1 : forall n l2, count n (l1 ++ l2) = count (count n l1) l2.
Proof. induction l1 as [|c l1 IH]; intros n l2; cbn [app count]; [reflexivity|apply IH]. Qed.
Lemma fits_app l1 : forall n l2, fits n (l1 ++ l2) <-> fits n l1 /\ fits (count n l1) l2.
Proof. induction l1 as [|c l1 IH]; intros n l2; cbn [app fits count]; [tauto|]. rewrite IH. tauto. Qed.

Definition line_text (n : Z) (x : list N) : list N := firstn (Z.to_nat (255 - n)) x ++ (if n <=? 255 then [c_nl] else []).
Definition tail_text (n : Z) (x : list N) : list N :=
  firstn (Z.to_nat (255 - n)) x ++ (if (255 <? n + Z.of_nat (List.length x)) && (n <=? 255) then [c_nl] else []).
Lemma line_text_cons n c x : 0 <= n -> line_text n (c :: x) = emitted n c ++ line_text (n + 1) x.
Proof.
  intros H. unfold line_text, emitted. destruct (256 <=? n + 1) eqn:A.
  - replace (Z.to_nat (255 - n)) with O by lia. replace (Z.to_nat (255 - (n + 1))) with O by lia. cbn [firstn app].
    destruct (n + 1 =? 256) eqn:B; destruct (n <=? 255) eqn:C; destruct (n + 1 <=? 255) eqn:D; try lia; reflexivity.
  - replace (Z.to_nat (255 - n)) with (S (Z.to_nat (255 - (n + 1)))) by lia. cbn [firstn app].
    destruct (n <=? 255) eqn:C; destruct (n + 1 <=? 255) eqn:D; try lia; reflexivity.
Qed.
Lemma tail_text_cons n c x : 0 <= n -> tail_text n (c :: x) = emitted n c ++ tail_text (n + 1) x.
Proof.
  intros H. unfold tail_text, emitted. cbn [List.length]. destruct (256 <=? n + 1) eqn:A.
  - replace (Z.to_nat (255 - n)) with O by lia. replace (Z.to_nat (255 - (n + 1))) with O by lia. cbn [firstn app].
    replace (n + 1 <=? 255) with false by lia. rewrite andb_false_r. replace (255 <? n + Z.of_nat (S (List.length x))) with true by lia. cbn [andb].
    destruct (n + 1 =? 256) eqn:B; destruct (n <=? 255) eqn:C; try lia; reflexivity.
  - replace (Z.to_nat (255 - n)) with (S (Z.to_nat (255 - (n + 1)))) by lia. cbn [firstn app].
    replace (n + Z.of_nat (S (List.length x))) with (n + 1 + Z.of_nat (List.length x)) by lia.
    replace (n <=? 255) with true by lia. replace (n + 1 <=? 255) with true by lia. reflexivity.
Qed.
Lemma tail_zero r : tail_text 0 r = cut r ++ (if (255 <? List.length r)%nat then [c_nl] else []).
Proof. unfold tail_text, cut. change (Z.to_nat (255 - 0)) with 255%nat. change (0 <=? 255) with true. rewrite andb_true_r. f_equal. destruct (255 <? 0 + Z.of_nat (List.length r)) eqn:A; destruct (255 <? List.length r)%nat eqn:B; try lia; reflexivity. Qed.
Lemma line_zero x : line_text 0 x = cut x ++ [c_nl].
Proof. reflexivity. Qed.

Lemma clip_lines l : forall n, 0 <= n ->
  clip n l = match fst (text_lines l) with
             | [] => tail_text n (snd (text_lines l))
             | x :: ls => line_text n x ++ concat (map (fun x => cut x ++ [c_nl]) ls) ++ tail_text 0 (snd (text_lines l))
             end.
Proof.
  induction l as [|c l IH]; intros n Hn; cbn [clip text_lines].
  - cbn [fst snd]. unfold tail_text. cbn [firstn List.length]. rewrite firstn_nil. destruct (255 <? n + Z.of_nat 0) eqn:A; destruct (n <=? 255) eqn:B; try lia; reflexivity.
  - unfold next_count. destruct (text_lines l) as (ls, r) eqn:E. cbn [fst snd] in IH. destruct (c =? c_nl)%N eqn:C; cbn [fst snd].
    + rewrite IH by lia. assert (c = c_nl) by lia. subst c. assert (emitted n c_nl = line_text n []) as ->.
      { unfold emitted, line_text. rewrite firstn_nil. cbn [app]. destruct (256 <=? n + 1) eqn:A; destruct (n + 1 =? 256) eqn:B; destruct (n <=? 255) eqn:D; try lia; reflexivity. }
      f_equal. destruct ls as [|x ls]; cbn [map concat]; [reflexivity|]. rewrite line_zero, <- !app_assoc. reflexivity.
    + rewrite IH by lia. destruct ls as [|x ls]; cbn [fst snd].
      * symmetry. now apply tail_text_cons.
      * rewrite line_text_cons by exact Hn. now rewrite <- app_assoc.
Qed.
Lemma clip_clipped l : clip 0 l = clipped l.
Proof.
  rewrite clip_lines by lia. unfold clipped. destruct (text_lines l) as ([|x ls], r); cbn [fst snd map concat].
  - apply tail_zero.
  - rewrite line_zero, tail_zero, <- !app_assoc. reflexivity.
Qed.
Lemma lines_fits l : forall n, 0 <= n -> n + Z.of_nat (List.length (match fst (text_lines l) with [] => snd (text_lines l) | x :: _ => x end)) < INT_MAX ->
  Forall (fun x => Z.of_nat (List.length x) < INT_MAX) (snd (text_lines l) :: fst (text_lines l)) -> fits n l.
Proof.
  induction l as [|c l IH]; intros n Hn Hf Hl; cbn [fits]; [exact I|]. cbn [text_lines] in *. unfold next_count.
  destruct (text_lines l) as (ls, r) eqn:E. cbn [fst snd] in IH. destruct (c =? c_nl)%N eqn:C; cbn [fst snd] in *.
  - split; [cbn [List.length] in Hf; lia|]. inversion Hl as [|? ? H1 H2]; subst. inversion H2 as [|? ? H3 H4]; subst. apply IH; [lia| |constructor; assumption].
    destruct ls as [|x ls]; [lia|]. inversion H4; subst. lia.
  - destruct ls as [|x ls]; cbn [fst snd List.length] in *.
    + split; [lia|]. apply IH; [lia|lia|]. inversion Hl; subst. constructor; [cbn [List.length] in *; lia|constructor].
    + split; [lia|]. apply IH; [lia|lia|]. inversion Hl as [|? ? H1 H2]; subst. inversion H2 as [|? ? H3 H4]; subst.
      constructor; [assumption|]. constructor; [cbn [List.length] in *; lia|assumption].
Qed.
Lemma lines_fit_fits l : lines_fit l -> fits 0 l.
Proof.
  unfold lines_fit. intros H. apply lines_fits; destruct (text_lines l) as (ls, r); cbn [fst snd]; [lia| |exact H].
  inversion H as [|? ? H1 H2]; subst. destruct ls; [lia|]. inversion H2; subst. lia.
Qed.
Lemma count_nonneg l : forall n, 0 <= n -> 0 <= count n l.
Proof. induction l as [|c l IH]; intros n Hn; cbn [count]; [exact Hn|]. apply IH. unfold next_count. destruct (c =? c_nl)%N; lia. Qed.

(** the state of one buffer *)
Definition line_ok (b : line_buffer) : Prop := Z.of_nat (List.length (lb_cells b)) = LOGGER_BUFFER_SIZE /\ 0 <= lb_position b <= 1022 /\ 0 <= lb_length b.
Definition pending (b : line_buffer) : list N := firstn (Z.to_nat (lb_position b)) (lb_cells b).
Lemma put_end (cells : list N) p c : 0 <= p < Z.of_nat (List.length cells) ->
  exists cells', put_cell cells p c = Ok cells' /\ List.length cells' = List.length cells /\
    firstn (Z.to_nat p) cells' = firstn (Z.to_nat p) cells /\ firstn (Z.to_nat (p + 1)) cells' = firstn (Z.to_nat p) cells ++ [c].
Proof.
  intros H. unfold put_cell. destruct (p <? 0) eqn:L; [lia|]. rewrite set_cell_ok by lia. exists (update cells (Z.to_nat p) c).
  split; [reflexivity|]. split; [apply update_length|].
  replace (Z.to_nat (p + 1)) with (S (Z.to_nat p)) by lia. assert (Hl : (Z.to_nat p < List.length cells)%nat) by lia. revert Hl. clear. generalize (Z.to_nat p). intros n. revert cells.
  induction n as [|n IH]; intros [|x cells] Hl; cbn [List.length] in Hl; try lia; [split; reflexivity|]. destruct (IH cells) as (A & B); [lia|].
  change (update (x :: cells) (S n) c) with (x :: update cells n c). split; [cbn [firstn]; now rewrite A|].
  change (firstn (S (S n)) (x :: update cells n c)) with (x :: firstn (S n) (update cells n c)). rewrite B. reflexivity.
Qed.
Lemma push_ok b c : line_ok b -> lb_length b + 1 <= INT_MAX ->
  exists b' f, line_buffer_push b c line_truncate = Ok (b', f) /\ Z.of_nat (List.length (lb_cells b')) = LOGGER_BUFFER_SIZE /\ 0 <= lb_position b' <= 1023 /\
    pending b' = pending b ++ emitted (lb_length b) c /\ lb_length b' = next_count (lb_length b) c /\ (f = false -> lb_position b' <= 1022) /\
    f = (lb_position b' =? 1023) || (c =? c_nl)%N.
Proof.
  intros (Hc & Hp & Hl) Hn. unfold line_buffer_push, LOGGER_BUFFER_SIZE, line_truncate in *. assert (Hi : in_int (lb_length b + 1) = true) by (unfold in_int, INT_MIN; lia).
  rewrite Hi. cbn [negb]. unfold emitted, pending. change (1024 - 1) with 1023. destruct (256 <=? lb_length b + 1) eqn:A.
  - destruct (lb_length b + 1 =? 256) eqn:B.
    + destruct (put_end (lb_cells b) (lb_position b) c_nl ltac:(lia)) as (cs & E & L & _ & F). rewrite E. cbn [obind lb_cells lb_position lb_length].
      eexists _, _. split; [reflexivity|]. cbn [lb_cells lb_position lb_length]. split; [lia|]. split; [lia|]. split; [exact F|]. split; [reflexivity|]. split; [lia|reflexivity].
    + cbn [obind lb_cells lb_position lb_length]. eexists _, _. split; [reflexivity|]. cbn [lb_cells lb_position lb_length].
      split; [lia|]. split; [lia|]. split; [now rewrite app_nil_r|]. split; [reflexivity|]. split; [lia|reflexivity].
  - destruct (put_end (lb_cells b) (lb_position b) c ltac:(lia)) as (cs & E & L & _ & F). rewrite E. cbn [obind lb_cells lb_position lb_length].
    eexists _, _. split; [reflexivity|]. cbn [lb_cells lb_position lb_length]. split; [lia|]. split; [lia|]. split; [exact F|]. split; [reflexivity|]. split; [lia|reflexivity].
Qed.
Lemma flush_ok b : Z.of_nat (List.length (lb_cells b)) = LOGGER_BUFFER_SIZE -> 0 <= lb_position b <= 1023 -> 0 <= lb_length b ->
  exists b', line_buffer_flush b = Ok (b', pending b) /\ line_ok b' /\ lb_position b' = 0 /\ lb_length b' = lb_length b.
Proof.
  intros Hc Hp Hl. unfold line_buffer_flush, LOGGER_BUFFER_SIZE in *. destruct (put_end (lb_cells b) (lb_position b) 0%N ltac:(lia)) as (cs & E & L & F & _). rewrite E. cbn [obind].
  eexists. split; [rewrite F; reflexivity|]. unfold line_ok, LOGGER_BUFFER_SIZE. cbn [lb_cells lb_position lb_length]. repeat split; lia.
Qed.

(** the two streams *)
Lemma side_set err e l b w : log_side e (set_log err l b w) = if Bool.eqb err e then b else log_side e l.
Proof. destruct err, e; reflexivity. Qed.
Lemma written_set err l b w : written (set_log err l b w) = written l ++ w.
Proof. now destruct err. Qed.
Lemma set_set err l b w b' w' : set_log err (set_log err l b w) b' w' = set_log err l b' (w ++ w').
Proof. destruct err; unfold set_log; cbn [out_buffer err_buffer written]; now rewrite app_assoc. Qed.
Lemma printed_app err w1 w2 : printed err (w1 ++ w2) = printed err w1 ++ printed err w2.
Proof. induction w1 as [|(e, t) w1 IH]; cbn [app printed]; [reflexivity|]. now rewrite IH, app_assoc. Qed.
Lemma waiting_pending err l : waiting err l = pending (log_side err l).
Proof. reflexivity. Qed.
Lemma eqb_refl_true e : Bool.eqb e e = true.
Proof. now destruct e. Qed.

Definition logged (l : logger) (text : bool -> list N) : Prop :=
  forall e, line_ok (log_side e l) /\ printed e (written l) ++ waiting e l = clip 0 (text e) /\ lb_length (log_side e l) = count 0 (text e).
Definition add (text : bool -> list N) (err : bool) (t : list N) (e : bool) : list N := text e ++ (if Bool.eqb err e then t else []).

Lemma flush_logged err l text : logged l text -> exists l', log_flush err l = Ok l' /\ logged l' text.
Proof.
  intros H. destruct (H err) as ((Hc & Hp & Hl) & _). unfold log_flush. destruct (flush_ok (log_side err l) Hc ltac:(lia) Hl) as (b' & E & Hb & P & L). rewrite E. cbn [obind].
  eexists. split; [reflexivity|]. intros e. destruct (H e) as (K & T & C). rewrite side_set, written_set, printed_app. cbn [printed]. unfold waiting. rewrite side_set. destruct (Bool.eqb err e) eqn:Q.
  - apply eqb_prop in Q. subst e. split; [exact Hb|]. split; [|now rewrite L].
    rewrite P. cbn [Z.to_nat firstn]. rewrite !app_nil_r. exact T.
  - split; [exact K|]. split; [|exact C]. cbn [app]. rewrite app_nil_r. exact T.
Qed.
Lemma byte_logged err l text c : logged l text -> count 0 (text err) + 1 <= INT_MAX ->
  exists l', log_byte err l c = Ok l' /\ logged l' (add text err [c]).
Proof.
  intros H Hn. destruct (H err) as (Hb & T & C). unfold log_byte. destruct (push_ok (log_side err l) c Hb ltac:(lia)) as (b' & f & E & Lc & P & W & N & F & _). rewrite E. cbn [obind].
  assert (G : forall e, clip 0 (add text err [c] e) = (printed e (written l) ++ waiting e l) ++ (if Bool.eqb err e then emitted (lb_length (log_side err l)) c else [])).
  { intros e. unfold add. rewrite clip_app. destruct (H e) as (_ & -> & C'). destruct (Bool.eqb err e) eqn:Q; [|reflexivity]. apply eqb_prop in Q. subst e. cbn [clip]. now rewrite C', app_nil_r. }
  assert (G2 : forall e, count 0 (add text err [c] e) = if Bool.eqb err e then next_count (lb_length (log_side err l)) c else lb_length (log_side e l)).
  { intros e. unfold add. rewrite count_app. destruct (H e) as (_ & _ & C'). destruct (Bool.eqb err e) eqn:Q; [|now rewrite C']. apply eqb_prop in Q. subst e. cbn [count]. now rewrite C'. }
  assert (Hn' : 0 <= lb_length b') by (rewrite N; destruct Hb as (_ & _ & ?); unfold next_count; destruct (c =? c_nl)%N; lia).
  destruct f.
  - unfold log_flush. rewrite side_set, eqb_refl_true. destruct (flush_ok b' Lc P Hn') as (b2 & E2 & Hb2 & P2 & L2). rewrite E2. cbn [obind].
    eexists. split; [reflexivity|]. rewrite set_set. cbn [app]. intros e. rewrite G, G2, side_set, written_set, printed_app. cbn [printed]. unfold waiting at 1. rewrite side_set. destruct (H e) as (K & _ & _). destruct (Bool.eqb err e) eqn:Q.
    + apply eqb_prop in Q. subst e. split; [exact Hb2|]. split; [|now rewrite L2].
      rewrite P2, W. cbn [Z.to_nat firstn]. rewrite !app_nil_r, app_assoc. reflexivity.
    + split; [exact K|]. split; [|reflexivity]. cbn [app]. rewrite !app_nil_r. reflexivity.
  - eexists. split; [reflexivity|]. intros e. rewrite G, G2, side_set, written_set, app_nil_r. unfold waiting at 1. rewrite side_set. destruct (H e) as (K & _ & _). destruct (Bool.eqb err e) eqn:Q.
    + apply eqb_prop in Q. subst e. split; [split; [exact Lc|split; [specialize (F eq_refl); lia|exact Hn']]|]. split; [|exact N].
      rewrite <- app_assoc. f_equal. exact W.
    + split; [exact K|]. split; [|reflexivity]. rewrite app_nil_r. reflexivity.
Qed.
Lemma logged_ext l t t' : (forall e, t e = t' e) -> logged l t -> logged l t'.
Proof. intros H K e. rewrite <- H. apply K. Qed.
Lemma bytes_logged err t : forall l text, logged l text -> fits (count 0 (text err)) t -> exists l', log_bytes err l t = Ok l' /\ logged l' (add text err t).
Proof.
  induction t as [|c t IH]; intros l text H F; cbn [log_bytes].
  - exists l. split; [reflexivity|]. eapply logged_ext; [|exact H]. intros e. unfold add. destruct (Bool.eqb err e); now rewrite app_nil_r.
  - cbn [fits] in F. destruct F as (F1 & F2). destruct (byte_logged err l text c H F1) as (l1 & E & H1). rewrite E. cbn [obind].
    destruct (IH l1 (add text err [c]) H1) as (l2 & E2 & H2).
    { unfold add. rewrite eqb_refl_true, count_app. exact F2. }
    exists l2. split; [exact E2|]. eapply logged_ext; [|exact H2]. intros e. unfold add. destruct (Bool.eqb err e); cbn [app]; rewrite <- ?app_assoc, ?app_nil_r; reflexivity.
Qed.
Lemma run_logged ops : forall l text, logged l text -> (forall e, fits 0 (text e ++ arrived e ops)) ->
  exists l', run_log l ops = Ok l' /\ logged l' (fun e => text e ++ arrived e ops).
Proof.
  induction ops as [|[err t|err] ops IH]; intros l text H F; cbn [run_log arrived run_logop] in *.
  - exists l. split; [reflexivity|]. eapply logged_ext; [|exact H]. intros e. now rewrite app_nil_r.
  - destruct (bytes_logged err t l text H) as (l1 & E & H1).
    { specialize (F err). rewrite eqb_refl_true, app_assoc, fits_app, fits_app in F. tauto. }
    rewrite E. cbn [obind]. destruct (IH l1 (add text err t) H1) as (l2 & E2 & H2).
    { intros e. unfold add. rewrite <- app_assoc. apply F. }
    exists l2. split; [exact E2|]. eapply logged_ext; [|exact H2]. intros e. unfold add. now rewrite <- app_assoc.
  - destruct (flush_logged err l text H) as (l1 & E & H1). rewrite E. cbn [obind]. now apply IH.
Qed.
Lemma fresh_logged l : fresh_logger l -> logged l (fun _ => []).
Proof.
  intros (W & H) e. destruct (H e) as (A & B & C). cbn [clip count]. split; [split; [exact A|lia]|]. split; [|exact C]. unfold waiting. rewrite W, B. reflexivity.
Qed.
Lemma log_complete l ops : fresh_logger l -> (forall e, lines_fit (arrived e ops)) ->
  exists l', run_log l ops = Ok l' /\ forall e, printed e (written l') ++ waiting e l' = clipped (arrived e ops).
Proof.
  intros H F. destruct (run_logged ops l (fun _ => []) (fresh_logged l H)) as (l' & E & K); [intros e; cbn [app]; apply lines_fit_fits, F|].
  exists l'. split; [exact E|]. intros e. rewrite <- clip_clipped. apply (K e).
Qed.

(** without explicit flushes every piece printed is one line *)
Definition line_wise (l : logger) (err : bool) : Prop :=
  exists x, ~ In c_nl x /\ lb_length (log_side err l) = Z.of_nat (List.length x) /\ pending (log_side err l) = clip 0 x.
Lemma count_plain x : forall n, ~ In c_nl x -> count n x = n + Z.of_nat (List.length x).
Proof.
  induction x as [|c x IH]; intros n H; cbn [count List.length]; [lia|]. rewrite IH by (intros K; apply H; now right).
  unfold next_count. destruct (c =? c_nl)%N eqn:E; [exfalso; apply H; left; lia|lia].
Qed.
Lemma plain_lines x : ~ In c_nl x -> text_lines x = ([], x).
Proof.
  induction x as [|c x IH]; intros H; cbn [text_lines]; [reflexivity|]. rewrite IH by (intros K; apply H; now right).
  destruct (c =? c_nl)%N eqn:E; [exfalso; apply H; left; lia|reflexivity].
Qed.
Lemma clip_plain_length x : ~ In c_nl x -> (List.length (clip 0 x) <= 256)%nat.
Proof.
  intros H. rewrite clip_clipped. unfold clipped. rewrite plain_lines by exact H. cbn [map concat app]. unfold cut. rewrite app_length, firstn_length. destruct (255 <? List.length x)%nat; cbn [List.length]; lia.
Qed.
Lemma clip_line x : ~ In c_nl x -> clip 0 (x ++ [c_nl]) = cut x ++ [c_nl].
Proof.
  intros H. rewrite clip_clipped. unfold clipped.
  assert (text_lines (x ++ [c_nl]) = ([x], [])) as ->; [|cbn [map concat]; rewrite !app_nil_r; reflexivity].
  induction x as [|c x IH]; cbn [app text_lines]; [reflexivity|]. rewrite IH by (intros K; apply H; now right).
  destruct (c =? c_nl)%N eqn:E; [exfalso; apply H; left; lia|reflexivity].
Qed.
Lemma byte_line_wise err l c : (forall e, line_ok (log_side e l)) -> (forall e, line_wise l e) -> Forall (fun p => one_line (snd p)) (written l) -> lb_length (log_side err l) + 1 <= INT_MAX ->
  exists l', log_byte err l c = Ok l' /\ (forall e, line_ok (log_side e l')) /\ (forall e, line_wise l' e) /\ Forall (fun p => one_line (snd p)) (written l') /\
    (forall e, lb_length (log_side e l') = if Bool.eqb err e then next_count (lb_length (log_side e l)) c else lb_length (log_side e l)).
Proof.
  intros Hok Hl Hw Hn. pose proof (Hok err) as Hb. destruct (Hl err) as (x & Hx & Hc & Hp).
  unfold log_byte. destruct (push_ok (log_side err l) c Hb Hn) as (b' & f & E & Lc & P & W & N & F & Ff). rewrite E. cbn [obind].
  assert (Hn' : 0 <= lb_length b') by (rewrite N; destruct Hb as (_ & _ & ?); unfold next_count; destruct (c =? c_nl)%N; lia).
  assert (Hcx : pending b' = clip 0 (x ++ [c])).
  { rewrite W, Hp, clip_app, count_plain by exact Hx. cbn [clip]. rewrite app_nil_r. f_equal. f_equal. lia. }
  destruct (c =? c_nl)%N eqn:Ec.
  - assert (c = c_nl) by lia. subst c. rewrite orb_true_r in Ff. subst f. unfold log_flush. rewrite side_set, eqb_refl_true.
    destruct (flush_ok b' Lc P Hn') as (b2 & E2 & Hb2 & P2 & L2). rewrite E2. cbn [obind]. eexists. split; [reflexivity|]. rewrite set_set. cbn [app].
    split; [intros e; rewrite side_set; destruct (Bool.eqb err e); [exact Hb2|apply Hok]|]. split; [|split].
    + intros e. unfold line_wise. rewrite side_set. destruct (Bool.eqb err e); [|apply Hl]. exists []. split; [intros []|].
      rewrite L2, N. unfold pending. rewrite P2. split; reflexivity.
    + rewrite written_set. apply Forall_app. split; [exact Hw|]. constructor; [|constructor]. cbn [snd]. exists x. split; [exact Hx|]. rewrite Hcx. now apply clip_line.
    + intros e. rewrite side_set. destruct (Bool.eqb err e) eqn:Q; [|reflexivity]. apply eqb_prop in Q. subst e. rewrite L2. exact N.
  - assert (Hxc : ~ In c_nl (x ++ [c])) by (intros K; apply in_app_or in K as [K|[K|[]]]; [exact (Hx K)|lia]).
    assert (lb_position b' =? 1023 = false).
    { pose proof (clip_plain_length (x ++ [c]) Hxc) as K. rewrite <- Hcx in K. unfold pending in K. rewrite firstn_length in K. unfold LOGGER_BUFFER_SIZE in *. lia. }
    rewrite H in Ff. cbn [orb] in Ff. subst f. eexists. split; [reflexivity|].
    split; [intros e; rewrite side_set; destruct (Bool.eqb err e); [split; [exact Lc|split; [specialize (F eq_refl); lia|exact Hn']]|apply Hok]|]. split; [|split].
    + intros e. unfold line_wise. rewrite side_set. destruct (Bool.eqb err e); [|apply Hl]. exists (x ++ [c]). split; [exact Hxc|].
      split; [|exact Hcx]. rewrite N. unfold next_count. rewrite Ec, app_length. cbn [List.length]. lia.
    + rewrite written_set, app_nil_r. exact Hw.
    + intros e. rewrite side_set. destruct (Bool.eqb err e) eqn:Q; [|reflexivity]. apply eqb_prop in Q. subst e. exact N.
Qed.
Lemma bytes_line_wise err t : forall l, (forall e, line_ok (log_side e l)) -> (forall e, line_wise l e) -> Forall (fun p => one_line (snd p)) (written l) ->
  fits (lb_length (log_side err l)) t ->
  exists l', log_bytes err l t = Ok l' /\ (forall e, line_ok (log_side e l')) /\ (forall e, line_wise l' e) /\ Forall (fun p => one_line (snd p)) (written l') /\
    (forall e, lb_length (log_side e l') = if Bool.eqb err e then count (lb_length (log_side e l)) t else lb_length (log_side e l)).
Proof.
  induction t as [|c t IH]; intros l A B C F; cbn [log_bytes].
  - exists l. split; [reflexivity|]. split; [exact A|]. split; [exact B|]. split; [exact C|]. intros e. now destruct (Bool.eqb err e).
  - cbn [fits] in F. destruct F as (F1 & F2). destruct (byte_line_wise err l c A B C F1) as (l1 & E & A1 & B1 & C1 & D1). rewrite E. cbn [obind].
    destruct (IH l1 A1 B1 C1) as (l2 & E2 & A2 & B2 & C2 & D2); [rewrite D1, eqb_refl_true; exact F2|].
    exists l2. split; [exact E2|]. split; [exact A2|]. split; [exact B2|]. split; [exact C2|]. intros e. rewrite D2, D1. now destruct (Bool.eqb err e).
Qed.
Lemma run_line_wise ops : forall l, (forall e, line_ok (log_side e l)) -> (forall e, line_wise l e) -> Forall (fun p => one_line (snd p)) (written l) ->
  Forall no_flush ops -> (forall e, fits (lb_length (log_side e l)) (arrived e ops)) ->
  exists l', run_log l ops = Ok l' /\ Forall (fun p => one_line (snd p)) (written l').
Proof.
  induction ops as [|[err t|err] ops IH]; intros l A B C Hf F; cbn [run_log run_logop arrived] in *.
  - eauto.
  - inversion Hf; subst. destruct (bytes_line_wise err t l A B C) as (l1 & E & A1 & B1 & C1 & D1).
    { specialize (F err). rewrite eqb_refl_true, fits_app in F. tauto. }
    rewrite E. cbn [obind]. apply IH; try assumption. intros e. specialize (F e). rewrite fits_app in F. rewrite D1. destruct (Bool.eqb err e); cbn [count] in F; tauto.
  - inversion Hf; subst. contradiction.
Qed.
Lemma log_lines l ops : fresh_logger l -> (forall e, lines_fit (arrived e ops)) -> Forall no_flush ops ->
  exists l', run_log l ops = Ok l' /\ Forall (fun p => one_line (snd p)) (written l').
Proof.
  intros H F Hf. pose proof (fresh_logged l H) as K. destruct H as (W & H). apply run_line_wise; [intros e; apply K| |rewrite W; constructor|exact Hf|].
  - intros e. destruct (H e) as (A & B & C). exists []. split; [intros []|]. rewrite C. unfold pending. rewrite B. split; reflexivity.
  - intros e. destruct (H e) as (A & B & C). rewrite C. now apply lines_fit_fits.
Qed.

(** a line whose bytes cannot be counted *)
Lemma many_bytes err n : forall l, line_ok (log_side err l) -> lb_length (log_side err l) + Z.of_nat n = INT_MAX -> log_bytes err l (repeat 97%N (S n)) = UB.
Proof.
  induction n as [|n IH]; intros l Hb Hn.
  - cbn [repeat log_bytes]. unfold log_byte, line_buffer_push. replace (in_int (lb_length (log_side err l) + 1)) with false by (unfold in_int; lia). reflexivity.
  - change (repeat 97%N (S (S n))) with (97%N :: repeat 97%N (S n)). cbn [log_bytes]. unfold log_byte.
    destruct (push_ok (log_side err l) 97%N Hb ltac:(lia)) as (b' & f & E & Lc & P & W & N & F & _). rewrite E. cbn [obind].
    change (next_count (lb_length (log_side err l)) 97) with (lb_length (log_side err l) + 1) in N. destruct Hb as (_ & _ & Hb). destruct f.
    + unfold log_flush. rewrite side_set, eqb_refl_true. destruct (flush_ok b' Lc P ltac:(lia)) as (b2 & E2 & Hb2 & P2 & L2). rewrite E2. cbn [obind]. apply IH.
      * rewrite set_set, side_set, eqb_refl_true. exact Hb2.
      * rewrite set_set, side_set, eqb_refl_true. lia.
    + cbn [obind]. apply IH; rewrite side_set, eqb_refl_true; [|lia]. split; [exact Lc|]. split; [specialize (F eq_refl); lia|lia].
Qed.
Lemma line_overflow l err : fresh_logger l -> log_bytes err l (repeat 97%N (S (Z.to_nat INT_MAX))) = UB.
Proof. intros (W & H). destruct (H err) as (A & B & C). apply many_bytes; [split; [exact A|lia]|rewrite C, Z2Nat.id; [reflexivity|discriminate]]. Qed.
