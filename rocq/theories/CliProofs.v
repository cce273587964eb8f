(** Proofs about the evaluation loop of the command-line client. *)
From Verif Require Import CBase Num Region Image Formats Handle SessionSpec Cli CliSpec.
Local Open Scope nat_scope.

Definition account (e : evaluation) (l : list (option region * bool)) : list (option region) * nat :=
  (ev_output e ++ map fst l, ev_timings e + count_true (map snd l)).
Lemma account_timed e x l : account e ((x, true) :: l) = account (timed (push e x)) l.
Proof. unfold account. cbn [timed push ev_output ev_timings map fst snd count_true]. rewrite <- app_assoc. f_equal. lia. Qed.
Lemma account_untimed e x l : account e ((x, false) :: l) = account (push e x) l.
Proof. unfold account. cbn [timed push ev_output ev_timings map fst snd count_true]. rewrite <- app_assoc. reflexivity. Qed.
Lemma account_next e l : account (next e) l = account e l.
Proof. reflexivity. Qed.
Lemma fill_account n : forall e l, account (fill n e) l = account e (repeat (special 0, true) n ++ l).
Proof. induction n as [|n IH]; intros e l; cbn [fill repeat app]; [reflexivity|]. rewrite IH. symmetry. apply account_timed. Qed.

Section Loop.
  Variables (frames : nat) (initialization : list (option region)) (fails : nat -> region -> bool) (tracker : nat -> answer) (reinitialize : nat).
  Hypothesis enough : frames <= List.length initialization.
  Let rest (f : nat) (ph : phase) := expected (init_of initialization) fails (state_of tracker) reinitialize (frames - f) f ph.

  Lemma rest_end f ph : frames <= f -> rest f ph = [].
  Proof. intros H. unfold rest. replace (frames - f) with 0 by lia. reflexivity. Qed.
  Lemma rest_step f ph : f < frames -> rest f ph =
    match ph with
    | Over => (special 0, true) :: rest (S f) Over
    | Rest k => (special 0, true) :: rest (S f) (match k with S (S k') => Rest (S k') | _ => Start end)
    | Start =>
        match init_of initialization f with
        | None => (special 0, false) :: rest (S f) Start
        | Some _ => if fails f (state_of tracker f) then (special 2, true) :: rest (S f) (after_failure reinitialize) else (special 1, true) :: rest (S f) Running
        end
    | Running => if fails f (state_of tracker f) then (special 2, true) :: rest (S f) (after_failure reinitialize) else (Some (state_of tracker f), true) :: rest (S f) Running
    end.
  Proof. intros H. unfold rest. replace (frames - f) with (S (frames - S f)) by lia. reflexivity. Qed.
  Lemma rest_over n : forall f, n = frames - f -> rest f Over = repeat (special 0, true) n.
  Proof.
    induction n as [|n IH]; intros f H; [apply rest_end; lia|]. rewrite rest_step by lia. cbn [repeat]. f_equal. apply IH. lia.
  Qed.
  Lemma rest_rest k : forall f, rest f (Rest (S k)) = repeat (special 0, true) (Nat.min (S k) (frames - f)) ++ rest (f + Nat.min (S k) (frames - f)) Start.
  Proof.
    induction k as [|k IH]; intros f; destruct (Nat.le_gt_cases frames f) as [H|H].
    - replace (Nat.min 1 (frames - f)) with 0 by lia. cbn [repeat app]. rewrite !rest_end by lia. reflexivity.
    - replace (Nat.min 1 (frames - f)) with 1 by lia. rewrite rest_step by lia. cbn [repeat app]. replace (f + 1) with (S f) by lia. reflexivity.
    - replace (Nat.min (S (S k)) (frames - f)) with 0 by lia. cbn [repeat app]. rewrite !rest_end by lia. reflexivity.
    - replace (Nat.min (S (S k)) (frames - f)) with (S (Nat.min (S k) (frames - S f))) by lia. rewrite rest_step by lia. cbn [repeat app]. rewrite IH.
      replace (f + S (Nat.min (S k) (frames - S f))) with (S f + Nat.min (S k) (frames - S f)) by lia. reflexivity.
  Qed.
  Lemma rest_pause g k : g < frames -> reinitialize = S k -> let j := Nat.max (S g) (Nat.min (g + reinitialize) frames) in
    rest (S g) (after_failure reinitialize) = repeat (special 0, true) (j - S g) ++ rest j Start.
  Proof.
    intros H R j. replace (after_failure reinitialize) with (match k with O => Start | S n => Rest (S n) end) by (rewrite R; destruct k; reflexivity). destruct k as [|k].
    - replace j with (S g) by lia. rewrite Nat.sub_diag. reflexivity.
    - rewrite rest_rest. replace (j - S g) with (Nat.min (S k) (frames - S g)) by lia. f_equal. f_equal. lia.
  Qed.

  Lemma skip_ok fuel : forall e, ev_frame e <= frames -> frames - ev_frame e < fuel ->
    exists e', skip_frames frames initialization fuel e = Ok e' /\ ev_frame e <= ev_frame e' <= frames /\
      account e (rest (ev_frame e) Start) = account e' (rest (ev_frame e') Start) /\
      (ev_frame e' < frames -> init_of initialization (ev_frame e') <> None).
  Proof.
    induction fuel as [|fuel IH]; intros e H F; [lia|]. cbn [skip_frames]. destruct (Nat.ltb_spec (ev_frame e) frames) as [L|L].
    - destruct (nth_error initialization (ev_frame e)) as [[r|]|] eqn:E.
      + exists e. repeat split; auto. intros _. unfold init_of. rewrite E. discriminate.
      + destruct (IH (next (push e (special 0)))) as (e' & A & B & C & D); cbn [next push ev_frame] in *; [lia|lia|].
        exists e'. split; [exact A|]. split; [lia|]. split; [|exact D]. rewrite rest_step by lia. unfold init_of at 1. rewrite E.
        rewrite account_untimed. rewrite <- C. symmetry. apply account_next.
      + apply nth_error_None in E. lia.
    - exists e. repeat split; auto. lia.
  Qed.
  Lemma track_ok fuel : forall e (first : bool), ev_frame e < frames -> frames - ev_frame e < fuel -> (first = true -> init_of initialization (ev_frame e) <> None) ->
    exists e' how, track frames fails tracker fuel e first = Ok (e', how) /\
      match how with
      | Exception => exists f, f < frames /\ forall r, tracker f <> State r
      | Sequence_end => ev_frame e' = frames /\ account e (rest (ev_frame e) (if first then Start else Running)) = account e' []
      | Failure => ev_frame e <= ev_frame e' < frames /\ account e (rest (ev_frame e) (if first then Start else Running)) = account e' ((special 2, true) :: rest (S (ev_frame e')) (after_failure reinitialize))
      end.
  Proof.
    induction fuel as [|fuel IH]; intros e first H F I; [lia|]. cbn [track]. destruct (tracker (ev_frame e)) as [r| |] eqn:T.
    - assert (ST : state_of tracker (ev_frame e) = r) by (unfold state_of; now rewrite T).
      assert (R : rest (ev_frame e) (if first then Start else Running) =
        if fails (ev_frame e) r then (special 2, true) :: rest (S (ev_frame e)) (after_failure reinitialize) else ((if first then special 1 else Some r), true) :: rest (S (ev_frame e)) Running).
      { rewrite rest_step by lia. rewrite ST. destruct first; [|reflexivity]. destruct (init_of initialization (ev_frame e)) eqn:Q; [reflexivity|]. now contradiction (I eq_refl). }
      rewrite R. destruct (fails (ev_frame e) r).
      + exists e, Failure. split; [reflexivity|]. split; [lia|reflexivity].
      + set (e1 := next (timed (push e (if first then special 1 else Some r)))). assert (E1 : ev_frame e1 = S (ev_frame e)) by reflexivity.
        rewrite account_timed, <- account_next. fold e1. destruct (Nat.leb_spec frames (ev_frame e1)).
        * exists e1, Sequence_end. split; [reflexivity|]. split; [lia|]. rewrite rest_end by lia. reflexivity.
        * destruct (IH e1 false) as (e' & how & A & B); [lia|lia|discriminate|]. exists e', how. split; [exact A|].
          rewrite E1 in B. destruct how; [exact B| |exact B]. split; [lia|apply B].
    - exists e, Exception. split; [reflexivity|]. exists (ev_frame e). split; [exact H|]. rewrite T. discriminate.
    - exists e, Exception. split; [reflexivity|]. exists (ev_frame e). split; [exact H|]. rewrite T. discriminate.
  Qed.

  Lemma evaluate_ok fuel : forall e, ev_frame e <= frames -> frames - ev_frame e < fuel ->
    exists v, evaluate frames initialization fails tracker reinitialize fuel e = Ok v /\
      match v with
      | Saved out t => (out, t) = account e (rest (ev_frame e) Start)
      | Threw => exists f, f < frames /\ forall r, tracker f <> State r
      end.
  Proof.
    induction fuel as [|fuel IH]; intros e H F; [lia|]. cbn [evaluate]. destruct (Nat.ltb_spec (ev_frame e) frames) as [L|L].
    2: { eexists. split; [reflexivity|]. cbv beta iota. rewrite rest_end by lia. unfold account. cbn [map count_true]. rewrite app_nil_r, Nat.add_0_r. reflexivity. }
    destruct (skip_ok (S frames) e H ltac:(lia)) as (e1 & -> & F1 & A1 & I1). cbn [obind]. rewrite A1. destruct (Nat.eqb_spec (ev_frame e1) frames) as [Q|Q].
    { eexists. split; [reflexivity|]. cbv beta iota. rewrite rest_end by lia. unfold account. cbn [map count_true]. rewrite app_nil_r, Nat.add_0_r. reflexivity. }
    destruct (track_ok (S frames) e1 true ltac:(lia) ltac:(lia) (fun _ => I1 ltac:(lia))) as (e2 & how & -> & B). cbn [obind]. destruct how.
    - destruct B as (B1 & B2). rewrite B2. assert ((ev_frame e2 <? frames) = false) as -> by (apply Nat.ltb_ge; lia).
      destruct fuel as [|fuel']; [lia|]. cbn [evaluate]. assert ((ev_frame e2 <? frames) = false) as -> by (apply Nat.ltb_ge; lia).
      eexists. split; [reflexivity|]. cbv beta iota. unfold account. cbn [map count_true]. rewrite app_nil_r, Nat.add_0_r. reflexivity.
    - destruct B as (B1 & B2). rewrite B2. assert ((ev_frame e2 <? frames) = true) as -> by (apply Nat.ltb_lt; lia). rewrite account_timed.
      assert (C : reinitialize = 0 \/ exists k, reinitialize = S k) by (clear; destruct reinitialize; eauto). destruct C as [R|(k & R)].
      + assert ((0 <? reinitialize) = false) as -> by (rewrite R; reflexivity). eexists. split; [reflexivity|]. cbv beta iota. replace (after_failure reinitialize) with Over by (rewrite R; reflexivity). rewrite (rest_over (frames - S (ev_frame e2))) by reflexivity.
        rewrite <- (app_nil_r (repeat (special 0, true) (frames - S (ev_frame e2)))), <- fill_account. unfold account. cbn [map count_true]. rewrite app_nil_r, Nat.add_0_r. reflexivity.
      + assert ((0 <? reinitialize) = true) as -> by (rewrite R; reflexivity). cbv beta iota zeta.
        rewrite (rest_pause (ev_frame e2) k ltac:(lia) R). set (j := Nat.max (S (ev_frame e2)) (Nat.min (ev_frame e2 + reinitialize) frames)).
        rewrite <- fill_account. set (e4 := fill (j - S (ev_frame e2)) (timed (push e2 (special 2)))).
        destruct (IH (mkEval j (ev_output e4) (ev_timings e4))) as (v & E & V); cbn [ev_frame] in *; [lia|lia|]. exists v. split; [exact E|exact V].
    - exists Threw. split; [reflexivity|exact B].
  Qed.
  Theorem client_ok : exists v, run_client frames initialization fails tracker reinitialize = Ok v /\
    match v with
    | Saved out t => let l := expected (init_of initialization) fails (state_of tracker) reinitialize frames 0 Start in out = map fst l /\ t = count_true (map snd l)
    | Threw => exists f, f < frames /\ forall r, tracker f <> State r
    end.
  Proof.
    unfold run_client. destruct (evaluate_ok (S frames) (mkEval 0 [] 0)) as (v & E & V); cbn [ev_frame] in *; [lia|lia|]. exists v. split; [exact E|].
    destruct v as [out t|]; [|exact V]. unfold rest in V. rewrite Nat.sub_0_r in V. unfold account in V. cbn [ev_output ev_timings app] in V. injection V as -> ->. split; reflexivity.
  Qed.
End Loop.

Lemma expected_length init fails state r n : forall f ph, List.length (expected init fails state r n f ph) = n.
Proof.
  induction n as [|n IH]; intros f ph; [reflexivity|]. cbn [expected]. destruct ph; cbn [List.length]; rewrite ?IH; try reflexivity.
  - destruct (init f); [destruct (fails _ _)|]; cbn [List.length]; now rewrite IH.
  - destruct (fails _ _); cbn [List.length]; now rewrite IH.
Qed.
Lemma timed_all init fails state r n : forall f ph, (forall g, f <= g < f + n -> exists x, init g = Some x) -> count_true (map snd (expected init fails state r n f ph)) = n.
Proof.
  induction n as [|n IH]; intros f ph H; [reflexivity|].
  assert (H' : forall g, S f <= g < S f + n -> exists x, init g = Some x) by (intros g G; apply H; lia).
  destruct (H f ltac:(lia)) as (x & X). cbn [expected]. rewrite X.
  destruct ph; [destruct (fails f (state f))|destruct (fails f (state f))| |]; cbn [map snd count_true]; rewrite IH by exact H'; lia.
Qed.
Theorem timings_complete frames initialization fails tracker reinitialize out t : frames <= List.length initialization ->
  (forall f, f < frames -> exists r, nth_error initialization f = Some (Some r)) ->
  run_client frames initialization fails tracker reinitialize = Ok (Saved out t) -> t = frames.
Proof.
  intros L H E. destruct (client_ok frames initialization fails tracker reinitialize L) as (v & E' & V). rewrite E in E'. injection E' as <-. destruct V as (_ & ->).
  apply timed_all. intros g G. destruct (H g ltac:(lia)) as (x & X). exists x. unfold init_of. now rewrite X.
Qed.
