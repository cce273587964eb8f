(** Proofs for the tutorial client. *)
From Verif Require Import CBase Num NumProofs Region Handle GeomProofs Process ProcessSpec Tracker TrackerSpec TrackerProofs TutorialClient TutorialClientSpec.
Local Open Scope Z_scope.

(** ---- Names of pictures ---- *)
Lemma dec_digits_short f : forall k n, (n < 10 ^ N.of_nat (S k))%N -> (List.length (dec_digits f n []) <= S k)%nat.
Proof.
  induction f as [|f IH]; intros k n H; [cbn; lia|]. cbn [dec_digits]. destruct (n / 10 =? 0)%N eqn:E; [cbn; lia|].
  rewrite dec_digits_acc, app_length. cbn [List.length]. destruct k as [|k].
  - change (n < 10)%N in H. apply N.eqb_neq in E. rewrite (N.div_small n 10 H) in E. now destruct E.
  - rewrite Nat2N.inj_succ, N.pow_succ_r' in H. assert (G : (n / 10 < 10 ^ N.of_nat (S k))%N) by (apply N.div_lt_upper_bound; [discriminate|exact H]).
    specialize (IH k _ G). lia.
Qed.
Lemma value_zeros k l : decimal_value (repeat 48%N k ++ l) = decimal_value l.
Proof. induction k as [|k IH]; [reflexivity|]. cbn [repeat app]. unfold decimal_value in *. cbn [fold_left]. exact IH. Qed.
Lemma named number : 1 <= number <= INT_MAX -> picture_file number (image_name number).
Proof.
  intros H. unfold INT_MAX in H. set (d := print_N (Z.abs_N number)).
  assert (L10 : (List.length d <= 10)%nat) by (apply dec_digits_short; change (10 ^ N.of_nat 10)%N with 10000000000%N; lia).
  assert (Ez : zero_padded number = repeat 48%N (8 - List.length d) ++ d).
  { unfold zero_padded. replace (number <? 0) with false by (symmetry; apply Z.ltb_ge; lia). reflexivity. }
  assert (L : List.length (zero_padded number) = Nat.max 8 (List.length d)) by (rewrite Ez, app_length, repeat_length; lia).
  exists (zero_padded number). split; [|split; [lia|split; [|split]]].
  - unfold image_name. apply firstn_all2. rewrite app_length, L. cbn [str List.length]. change (List.length (str ".jpg")) with 4%nat. lia.
  - rewrite Ez. apply Forall_app. split; [apply Forall_forall; intros c Hc; apply repeat_spec in Hc; subst c; lia|].
    pose proof (print_N_digits (Z.abs_N number)) as D. fold d in D. rewrite forallb_forall in D. apply Forall_forall. intros c Hc. specialize (D _ Hc). unfold is_digit in D. lia.
  - rewrite Ez, value_zeros. change (decimal_value d) with (digits_val d). unfold d. rewrite print_N_val. lia.
  - rewrite L. intros G. destruct (Z_lt_ge_dec number (10 ^ 8)) as [Hn|Hn]; [|exact Hn].
    assert (List.length d <= 8)%nat; [|lia]. apply dec_digits_short. change (10 ^ N.of_nat 8)%N with 100000000%N. change (10 ^ 8) with 100000000 in Hn. lia.
Qed.

(** ---- Frames that go well ---- *)
Lemma ten : in_int (10 * 10) = true. Proof. reflexivity. Qed.
Definition set (base : table) (s : tracker) : Prop := Inv 10 true base s /\ alive_now s /\ t_client s = Some Alive /\ t_tracking s = Some true.
Lemma alive_ready base s : Inv 10 true base s -> alive_now s -> t_client s = Some Alive -> ready s = Ok (true, s).
Proof.
  intros H A Hc. apply (ready_alive 10 base s H). destruct A as (p & b & Ep & (u0 & u3 & x & y & z & id & _ & _ & _ & St)).
  unfold is_ready, ready, process_running. rewrite Ep, (look_alive _ _ _ _ _ _ _ St). cbn [set_process t_client]. rewrite Hc. eexists. reflexivity.
Qed.
Lemma asked base s k a : Inv 10 true base s -> alive_now s -> answers_well k a -> exists s', ask s k a = Ok (Returned true, s') /\ set base s'.
Proof.
  intros H A (Hw & Hl & Hc & Ha). pose proof H as ([Hi1 Hi2] & _). destruct (ask_inv 10 base s k a H) as (b & s' & E & H' & Ht & _). revert E.
  unfold ask, start_watchdog, int_result. rewrite Hi1, Hi2. cbn [obind].
  assert (A' : alive_now (record s (Sent k))) by exact A.
  destruct (ticks_calm (a_waiting a) (record s (Sent k)) (10 * 10) A' Hw) as (m & Em); [right; lia|].
  match goal with |- context [ticks ?s2 _] => change s2 with (set_count (record s (Sent k)) (10 * 10)) end. rewrite Em. cbn [obind].
  destruct A as (p & q & Ep & St). cbn [set_count record t_process]. rewrite Ep, Hc, Ha.
  replace (success k =? TRAX_ERROR) with false by (destruct k; reflexivity). replace (success k =? wanted k) with true by (destruct k; reflexivity).
  intros E. injection E as <- Es. eexists. split; [reflexivity|]. rewrite Es. split; [exact H'|]. rewrite <- Es. split; [exists p, q; split; [exact Ep|exact St]|]. split; reflexivity.
Qed.
Lemma first_asked base s l a s0 : Inv 10 true base s -> process_running s = (false, s0) -> starts_well l -> answers_well Initialise a ->
  exists s', initialize s l a = Ok (Returned true, s') /\ set base s'.
Proof.
  intros H Er (Hok & (id & Es) & Hf & Hw & Hl & v & Ev & Hv) Ha. unfold initialize.
  destruct (start_in_time 10 base s s0 l id v H Er Hok Es Hf Hw ltac:(right; lia) Ev Hv) as (s1 & E & R).
  destruct (start_inv 10 base s l Hok H) as (r & s2 & E2 & H2 & _). rewrite E in E2. injection E2 as <- <-. rewrite E. cbn [obind].
  destruct (ready_alive 10 base s1 H2 R) as (A & Hc & Er1). rewrite Er1. cbn [obind]. apply asked; [exact H2|exact A|exact Ha].
Qed.
Lemma later_asked base s i w : set base s -> answers_well (request_at i) (w_request w) -> exists s', ask_frame s i w = Ok (Returned true, s') /\ set base s'.
Proof.
  intros (H & A & Hc & Ht) Ha. unfold ask_frame, request_at in *. pose proof (alive_ready _ _ H A Hc) as Er. destruct (Nat.eqb (i mod 50) 0).
  - destruct (able_asks 10 base s (Initialize (w_launch w) (w_request w)) Initialise (w_request w) H (ex_intro _ s Er) eq_refl) as (s1 & E & H1 & A1 & _). cbn [do_call] in E. rewrite E.
    apply asked; assumption.
  - unfold frame, continue. rewrite Er. cbn [obind]. rewrite Ht. cbn [fetch obind]. apply asked; assumption.
Qed.
Lemma awaited base s a : set base s -> answers_well AwaitState a -> exists s', wait s a = Ok (Returned true, s') /\ set base s'.
Proof.
  intros (H & A & Hc & Ht) Ha. unfold wait, continue. rewrite (alive_ready _ _ H A Hc). cbn [obind]. rewrite Ht. cbn [fetch obind]. apply asked; assumption.
Qed.
Lemma frame_well base s i w : ((i mod 50 = 0)%nat /\ Inv 10 true base s /\ (exists s0, process_running s = (false, s0)) /\ starts_well (w_launch w)) \/ set base s ->
  answers_well (request_at i) (w_request w) -> exists s', ask_frame s i w = Ok (Returned true, s') /\ set base s'.
Proof.
  intros [(Em & H & (s0 & Er) & Hs)|H] Ha; [|exact (later_asked _ _ _ _ H Ha)]. unfold ask_frame, request_at in *. rewrite Em in *. exact (first_asked _ _ _ _ _ H Er Hs Ha).
Qed.

(** Frames [i] to [i + length before - 1] go well; then the loop goes on from there. *)
Definition starting (base : table) (s : tracker) (i : nat) (m : nat -> moment) : Prop :=
  ((i mod 50 = 0)%nat /\ Inv 10 true base s /\ (exists s0, process_running s = (false, s0)) /\ starts_well (w_launch (m i))) \/ set base s.
Fixpoint plan (i : nat) (truth : list region) : list told :=
  match truth with [] => [] | g :: rest => say i (image_name (Z.of_nat i + 1)) g :: plan (S i) rest end.
Lemma frames_well base m rest : forall before s i, starting base s i m -> Z.of_nat (i + List.length before) <= INT_MAX ->
  (forall j, (i <= j < i + List.length before)%nat -> answers_well (request_at j) (w_request (m j)) /\ answers_well AwaitState (w_state (m j))) ->
  exists s', starting base s' (i + List.length before) m /\ (before <> [] -> set base s') /\ (before = [] -> s' = s) /\
    frames s i (before ++ rest) m = (q <- frames s' (i + List.length before) rest m ;; Ok (fst q, plan i before ++ snd q)).
Proof.
  induction before as [|g before IH]; intros s i Hs Hi Hw; cbn [List.length app plan].
  - exists s. rewrite Nat.add_0_r. split; [exact Hs|]. split; [congruence|]. split; [reflexivity|]. destruct (frames s i rest m) as [[c t]| | |]; reflexivity.
  - cbn [List.length] in Hi, Hw. cbn [frames]. unfold int_result. replace (in_int (Z.of_nat i + 1)) with true by (symmetry; apply in_int_of; unfold INT_MIN, INT_MAX in *; lia). cbn [obind].
    destruct (Hw i ltac:(lia)) as [Hr Hst].
    destruct (frame_well _ _ _ _ Hs Hr) as (s1 & E1 & H1). rewrite E1. cbn [obind]. destruct (awaited _ _ _ H1 Hst) as (s2 & E2 & H2). rewrite E2. cbn [obind].
    destruct (IH s2 (S i) (or_intror H2) ltac:(lia) ltac:(intros j Hj; apply Hw; lia)) as (s' & H' & Hset & Hsame & E'). exists s'. replace (i + S (List.length before))%nat with (S i + List.length before)%nat by lia.
    split; [exact H'|]. split; [|split; [discriminate|]; rewrite E'; destruct (frames s' _ rest m) as [[c t]| | |]; reflexivity].
    intros _. destruct before as [|g' b]; [rewrite (Hsame eq_refl); exact H2|apply Hset; discriminate].
Qed.
Lemma plan_length truth : forall i, List.length (plan i truth) = List.length truth.
Proof. induction truth; intros i; cbn; [reflexivity|now rewrite IHtruth]. Qed.
Lemma plan_nth truth : forall i j g, nth_error truth j = Some g -> nth_error (plan i truth) j = Some (say (i + j) (image_name (Z.of_nat (i + j) + 1)) g).
Proof.
  induction truth as [|g truth IH]; intros i [|j] g' E; cbn [nth_error plan] in *; try discriminate E.
  - injection E as <-. now rewrite Nat.add_0_r.
  - rewrite (IH (S i) j g' E). now replace (S i + j)%nat with (i + S j)%nat by lia.
Qed.
Lemma planned truth : Z.of_nat (List.length truth) <= INT_MAX -> as_planned truth (plan 0 truth).
Proof.
  intros H. split; [apply plan_length|]. intros i g E. assert (L : (i < List.length truth)%nat) by (apply nth_error_Some; congruence).
  exists (image_name (Z.of_nat i + 1)). split; [apply named; lia|]. rewrite (plan_nth _ 0 i g E). cbn [Nat.add]. unfold say. destruct (Nat.eqb (i mod 50) 0); reflexivity.
Qed.
Lemma beginning o m : starts_well (w_launch (m O)) -> starting (files o) (tracker_create o false [] 10) 0 m.
Proof. intros H. left. split; [reflexivity|]. split; [exact (create_inv 10 o false [] ten)|]. split; [eexists; reflexivity|exact H]. Qed.

Lemma tutorial_well o truth m : Z.of_nat (List.length truth) <= INT_MAX -> goes_well (List.length truth) m ->
  exists s asked, tutorial o truth m = Ok (Finished, s, asked) /\ as_planned truth asked /\ (truth <> [] -> is_ready s).
Proof.
  intros L [Hs Hw]. unfold tutorial. destruct (frames_well (files o) m [] truth (tracker_create o false [] 10) 0 (beginning o m Hs) L) as (s' & H' & Hset & _ & E); [intros j Hj; apply Hw; lia|].
  rewrite app_nil_r in E. rewrite E. cbn [frames obind fst snd]. rewrite app_nil_r. eexists _, _. split; [reflexivity|]. split; [exact (planned _ L)|].
  intros X. destruct (Hset X) as (I1 & A & Hc & _). exists s'. exact (alive_ready _ _ I1 A Hc).
Qed.

(** ---- A missing state ---- *)
Lemma unanswered base s a : set base s -> no_state a -> exists s', wait s a = Ok (Returned false, s') /\ Inv 10 true base s' /\ (t_process s' = None \/ t_client s' <> Some Alive) /\ (no_answer a -> t_process s' = None).
Proof.
  intros (H & A & Hc & Ht) [Hok Hn]. unfold wait, continue. rewrite (alive_ready _ _ H A Hc). cbn [obind]. rewrite Ht. cbn [fetch obind].
  destruct (ask_inv 10 base s AwaitState a H) as (b & s' & E & H' & _ & _ & N & _).
  assert (Hg : no_answer a -> t_process s' = None).
  { intros [He|[Hw Hl]]; [|destruct (ask_late 10 base s AwaitState a H A Hw ltac:(lia) ltac:(lia)) as (s2 & E2 & P2 & _); rewrite E in E2; injection E2 as _ <-; exact P2].
    revert E. unfold ask, start_watchdog, int_result. pose proof H as ([-> ->] & _). cbn [obind].
    match goal with |- obind (ticks ?s0 ?l) _ = _ -> _ => destruct (ticks_inv 10 true base l s0) as (s1 & E1 & H1 & _); [exact H|rewrite E1] end. cbn [obind].
    rewrite He. change (TRAX_ERROR =? TRAX_ERROR) with true. destruct (t_process s1) as [p|] eqn:Ep; cbv iota; change (TRAX_ERROR =? TRAX_ERROR) with true; cbv iota;
      match goal with |- obind (stop_process ?s0 ?l) _ = _ -> _ => destruct (stop_inv 10 true base s0 l) as (b2 & s2 & E2 & St & _); [|rewrite E2; cbn [obind snd]; intros X; injection X as _ <-; exact (proj1 St)] end.
    - destruct H1 as (Hi1 & base1 & Hl1 & H1). split; [exact Hi1|]. exists base1. split; [exact Hl1|]. cbn [set_tracking set_count record set_client t_process t_os t_client]. rewrite Ep in *.
      destruct H1 as [(q & St & _)|F]; [left; exists q; split; [exact St|discriminate]|right; exact F].
    - exact H1. }
  assert (b = false); [|subst b; exists s'; auto].
  destruct Hn as [Hn|[Hw Hl]].
  - revert E. unfold ask, start_watchdog, int_result. destruct H as ([-> ->] & _). cbn [obind].
    match goal with |- obind ?t _ = _ -> _ => destruct t as [s1| | |] end; cbn [obind]; try discriminate. destruct (t_process s1).
    + destruct (a_code a =? TRAX_ERROR); [match goal with |- obind ?t _ = _ -> _ => destruct t as [[]| | |] end; cbn [obind]; try discriminate; congruence|].
      replace (a_code a =? wanted AwaitState) with false by (symmetry; apply Z.eqb_neq; exact Hn). congruence.
    + change (TRAX_ERROR =? TRAX_ERROR) with true. cbv iota. match goal with |- obind ?t _ = _ -> _ => destruct t as [[]| | |] end; cbn [obind]; try discriminate; congruence.
  - destruct (ask_late 10 base s AwaitState a H A Hw ltac:(lia) ltac:(lia)) as (s2 & E2 & _). rewrite E in E2. congruence.
Qed.
Lemma missing o before g rest m : let k := List.length before in Z.of_nat (S k) <= INT_MAX -> goes_well k m -> answers_well (request_at k) (w_request (m k)) -> no_state (w_state (m k)) ->
  exists s, frames (tracker_create o false [] 10) 0 (before ++ g :: rest) m = (q <- frames s (S k) rest m ;; Ok (fst q, plan 0 (before ++ [g]) ++ snd q)) /\
    Inv 10 true (files o) s /\ (t_process s = None \/ t_client s <> Some Alive) /\ (no_answer (w_state (m k)) -> t_process s = None).
Proof.
  intros k L [Hs Hw] Hr Hn. destruct (frames_well (files o) m (g :: rest) before (tracker_create o false [] 10) 0 (beginning o m Hs) ltac:(cbn [Nat.add]; fold k; lia)) as (s & H & _ & _ & E); [intros j Hj; apply Hw; lia|].
  cbn [Nat.add] in H, E. fold k in H, E. rewrite E. cbn [frames]. unfold int_result. replace (in_int (Z.of_nat k + 1)) with true by (symmetry; apply in_int_of; unfold INT_MIN, INT_MAX in *; lia). cbn [obind].
  destruct (frame_well _ _ _ _ H Hr) as (s1 & E1 & H1). rewrite E1. cbn [obind]. destruct (unanswered _ _ _ H1 Hn) as (s2 & E2 & H2 & D & Gn). rewrite E2. cbn [obind].
  destruct (ready_inv 10 _ _ H2) as (b & o' & p' & Er & H3 & Hnone & Hb & _). rewrite Er. cbn [obind fst snd].
  destruct b; [destruct (Hb eq_refl) as (Hc & _ & _ & (p2 & b2 & Ep2 & _)); destruct D as [D|D]; congruence|].
  exists (set_process s2 o' p'). split; [|split; [exact H3|split; [|intros X; cbn [set_process t_process]; apply Hnone; exact (Gn X)]]].
  - destruct (frames (set_process s2 o' p') (S k) rest m) as [[c t]| | |]; cbn [obind fst snd]; try reflexivity. f_equal. f_equal.
    assert (Pl : forall b j, plan j (b ++ [g]) = plan j b ++ [say (j + List.length b) (image_name (Z.of_nat (j + List.length b) + 1)) g]).
    { induction b as [|x b IH]; intros j; cbn [app plan List.length]; [now rewrite Nat.add_0_r|]. rewrite IH. now replace (S j + List.length b)%nat with (j + S (List.length b))%nat by lia. }
    rewrite Pl. cbn [Nat.add]. fold k. now rewrite <- app_assoc.
  - cbn [set_process t_process t_client]. destruct D as [D|D]; [left; apply Hnone; exact D|right; exact D].
Qed.
Lemma dead_frame base s i w : Inv 10 true base s -> (t_process s = None \/ t_client s <> Some Alive) -> (i mod 50 <> 0)%nat -> exists s', ask_frame s i w = Ok (Threw, s').
Proof.
  intros H D Hm. destruct (not_ready_of 10 base s H D) as (s' & E). unfold ask_frame. rewrite (proj2 (Nat.eqb_neq _ _) Hm). unfold frame, continue. rewrite E. cbn [obind]. eexists. reflexivity.
Qed.
Lemma missing_last o before g m : let k := List.length before in Z.of_nat (S k) <= INT_MAX -> goes_well k m -> answers_well (request_at k) (w_request (m k)) -> no_state (w_state (m k)) ->
  exists s asked, tutorial o (before ++ [g]) m = Ok (Finished, s, asked).
Proof.
  intros k L Hw Hr Hn. destruct (missing o before g [] m L Hw Hr Hn) as (s & E & _). unfold tutorial. rewrite E. cbn [frames obind fst snd]. eexists _, _. reflexivity.
Qed.
Lemma missing_next o before g g' rest m : let k := List.length before in Z.of_nat (S (S k)) <= INT_MAX -> goes_well k m -> answers_well (request_at k) (w_request (m k)) -> no_state (w_state (m k)) ->
  (S k mod 50 <> 0)%nat -> exists s asked, tutorial o (before ++ g :: g' :: rest) m = Ok (Uncaught (S k), s, asked).
Proof.
  intros k L Hw Hr Hn Hm. destruct (missing o before g (g' :: rest) m ltac:(fold k; lia) Hw Hr Hn) as (s & E & H & D & _). unfold tutorial. rewrite E. fold k. cbn [frames]. unfold int_result.
  replace (in_int (Z.of_nat (S k) + 1)) with true by (symmetry; apply in_int_of; unfold INT_MIN, INT_MAX in *; lia). cbn [obind].
  destruct (dead_frame _ _ (S k) (m (S k)) H D Hm) as (s' & E'). rewrite E'. cbn [obind fst snd]. eexists _, _. reflexivity.
Qed.

Lemma restarted o before g rest m : let k := List.length before in Z.of_nat (S k + List.length rest) <= INT_MAX -> goes_well k m -> answers_well (request_at k) (w_request (m k)) ->
  answer_ok AwaitState (w_state (m k)) -> no_answer (w_state (m k)) -> (S k mod 50 = 0)%nat -> starts_well (w_launch (m (S k))) ->
  (forall i, (S k <= i < S k + List.length rest)%nat -> answers_well (request_at i) (w_request (m i)) /\ answers_well AwaitState (w_state (m i))) ->
  exists s asked, tutorial o (before ++ g :: rest) m = Ok (Finished, s, asked) /\ as_planned (before ++ g :: rest) asked.
Proof.
  intros k L Hw Hr Hok Hn Hm Hl Hlater.
  assert (Hns : no_state (w_state (m k))) by (split; [exact Hok|]; destruct Hn as [X|X]; [left; rewrite X; discriminate|right; exact X]).
  destruct (missing o before g rest m ltac:(fold k; lia) Hw Hr Hns) as (s & E & H & _ & Hp). fold k in E, Hp. specialize (Hp Hn).
  assert (St : starting (files o) s (S k) m).
  { left. split; [exact Hm|]. split; [exact H|]. split; [|exact Hl]. unfold process_running. rewrite Hp. eexists. reflexivity. }
  destruct (frames_well (files o) m [] rest s (S k) St ltac:(lia) Hlater) as (s' & _ & _ & _ & E'). rewrite app_nil_r in E'. unfold tutorial. rewrite E, E'. cbn [frames obind fst snd].
  eexists _, _. split; [reflexivity|]. rewrite app_nil_r.
  assert (Pl : forall a j, plan j (a ++ rest) = plan j a ++ plan (j + List.length a) rest).
  { induction a as [|x a IH]; intros j; cbn [app plan List.length]; [now rewrite Nat.add_0_r|]. rewrite IH. now replace (S j + List.length a)%nat with (j + S (List.length a))%nat by lia. }
  change (g :: rest) with ([g] ++ rest). rewrite app_assoc. replace (S k) with (0 + List.length (before ++ [g]))%nat by (rewrite app_length; cbn [List.length]; unfold k; lia).
  rewrite <- Pl. apply planned. rewrite !app_length. cbn [List.length]. unfold k in L. lia.
Qed.

(** ---- Any course ---- *)
Lemma frames_any base m truth : forall s i, Inv 10 true base s -> (t_tracking s <> None \/ (i mod 50 = 0)%nat) -> Z.of_nat (i + List.length truth) <= INT_MAX ->
  (forall j, (i <= j < i + List.length truth)%nat -> proper_moment j (m j)) ->
  exists c s' asked, frames s i truth m = Ok (c, s', asked) /\ (forall j, c <> Requested j).
Proof.
  induction truth as [|g truth IH]; intros s i H Ht L Hm; cbn [frames]; [eexists _, _, _; split; [reflexivity|discriminate]|]. cbn [List.length] in L, Hm.
  unfold int_result. replace (in_int (Z.of_nat i + 1)) with true by (symmetry; apply in_int_of; unfold INT_MIN, INT_MAX in *; lia). cbn [obind].
  destruct (Hm i ltac:(lia)) as (Hl & _ & Ha).
  assert (First : exists r s1, ask_frame s i (m i) = Ok (r, s1) /\ Inv 10 true base s1 /\ (r <> Threw -> t_tracking s1 <> None)).
  { unfold ask_frame. destruct (Nat.eqb (i mod 50) 0) eqn:Em.
    - destruct (call_inv 10 base s (Initialize (w_launch (m i)) (w_request (m i))) H Hl ltac:(intros [])) as (r & s1 & E & H1 & _ & _ & _ & F). exists r, s1. split; [exact E|]. split; [exact H1|]. exact (F _ _ eq_refl).
    - apply Nat.eqb_neq in Em. assert (Ht' : t_tracking s <> None) by (destruct Ht; [assumption|contradiction]).
      destruct (continue_inv 10 base s NewFrame (w_request (m i)) H Ht') as (r & s1 & E & H1 & T1 & _). exists r, s1. split; [exact E|]. auto. }
  destruct First as (r & s1 & E1 & H1 & T1). rewrite E1. cbn [obind]. destruct r as [[]|]; try (eexists _, _, _; split; [reflexivity|discriminate]).
  destruct (continue_inv 10 base s1 AwaitState (w_state (m i)) H1 (T1 ltac:(discriminate))) as (r & s2 & E2 & H2 & T2 & _ & D). change (continue s1 AwaitState (w_state (m i))) with (wait s1 (w_state (m i))) in E2. rewrite E2. cbn [obind].
  destruct r as [[]|].
  - destruct (IH s2 (S i) H2 (or_introl T2) ltac:(lia) ltac:(intros j Hj; apply Hm; lia)) as (c & s' & asked & E & N). rewrite E. cbn [obind fst snd]. eexists _, _, _. split; [reflexivity|exact N].
  - destruct (ready_inv 10 _ _ H2) as (b & o' & p' & Er & H3 & _ & Hb & _). rewrite Er. cbn [obind fst snd].
    destruct b; [destruct (Hb eq_refl) as (Hc & _ & _ & (p2 & b2 & Ep2 & _)); destruct (D Ha eq_refl); congruence|].
    destruct (IH (set_process s2 o' p') (S i) H3 (or_introl T2) ltac:(lia) ltac:(intros j Hj; apply Hm; lia)) as (c & s' & asked & E & N). rewrite E. cbn [obind fst snd]. eexists _, _, _. split; [reflexivity|exact N].
  - eexists _, _, _. split; [reflexivity|discriminate].
Qed.
Lemma tutorial_any o truth m : Z.of_nat (List.length truth) <= INT_MAX -> (forall j, (j < List.length truth)%nat -> proper_moment j (m j)) ->
  exists c s asked, tutorial o truth m = Ok (c, s, asked) /\ (forall j, c <> Requested j).
Proof. intros L Hm. apply (frames_any (files o)); [exact (create_inv 10 o false [] ten)|right; reflexivity|exact L|]. intros j Hj. apply Hm. lia. Qed.
