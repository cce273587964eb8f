(** Proofs about tracker processes. *)
From Verif Require Import CBase Num Region Handle GeomProofs Process ProcessSpec ProcessProofs Tracker TrackerSpec.
Local Open Scope Z_scope.

(** ---- Sleeping and looking ---- *)
Lemma sleep_none o : sleep o None = o.
Proof. reflexivity. Qed.
Lemma sleep_ends o e : sleep o (Some e) = child_ends o e.
Proof. reflexivity. Qed.
Lemma sleep_steady h f o i e id q s p x : steady h f o i e id q s p -> exists q', steady h f o i e id q' (sleep s x) p.
Proof. intros H. destruct x as [y|]; [|exists q; exact H]. exists (next_end q (ChildEnds y)). rewrite sleep_ends. exact (ends_steady _ _ _ _ _ _ _ _ _ _ H). Qed.
Lemma sleep_signals s x : signals (sleep s x) = signals s.
Proof. unfold sleep. destruct x; [|reflexivity]. destruct (the_child s) as [c|]; [|reflexivity]. destruct (c_life c); reflexivity. Qed.
Lemma look_alive f o i e id s p : steady true f o i e id None s p -> is_alive s p = (true, Some 0, s, p).
Proof.
  intros (Hf & Ho & Hi & He & Ha & Hp & c & Ec & Ep & R & L). unfold is_alive. rewrite R. cbn [negb]. unfold sys_waitpid. now rewrite Ec, Hp, Ep, Z.eqb_refl, L.
Qed.
Lemma look_dead f o i e id x s p : steady true f o i e id (Some x) s p ->
  exists s' p', is_alive s p = (false, Some (status_of x), s', p') /\ steady true f o i e id (Some x) s' p' /\ signals s' = signals s /\ running p' = false.
Proof.
  intros H. pose proof (alive_steady _ _ _ _ _ _ _ _ _ H) as H'. destruct H as (Hf & Ho & Hi & He & Ha & Hp & c & Ec & Ep & Hq). revert H'. unfold is_alive.
  destruct Hq as [[R L]|[R [L St]]]; rewrite R; cbn [negb].
  - unfold sys_waitpid. rewrite Ec, Hp, Ep, Z.eqb_refl, L. cbn [fst snd]. intros H'. eexists _, _. split; [reflexivity|]. split; [exact H'|]. split; reflexivity.
  - cbn [fst snd]. intros H'. exists s, p. rewrite (St eq_refl). split; [reflexivity|]. split; [exact H'|]. split; [reflexivity|exact R].
Qed.
Lemma poll_dead n f o i e id x s p l : steady true f o i e id (Some x) s p ->
  exists s' p', poll n s p l = (s', p', l) /\ steady true f o i e id (Some x) s' p' /\ signals s' = signals s.
Proof.
  intros H. destruct n as [|n]; cbn [poll]; [exists s, p; auto|]. destruct (look_dead _ _ _ _ _ _ _ _ H) as (s' & p' & E & H' & S & _). rewrite E. exists s', p'. auto.
Qed.
Lemma poll_alive n : forall f o i e id s p l, steady true f o i e id None s p -> quiet n l -> poll n s p l = (s, p, skipn n l).
Proof.
  induction n as [|n IH]; intros f o i e id s p l H Hl; cbn [poll]; [reflexivity|]. rewrite (look_alive _ _ _ _ _ _ _ H).
  destruct l as [|x l]; cbn [next].
  - rewrite sleep_none, (IH _ _ _ _ _ _ _ _ H) by (intros j Hj; destruct j; reflexivity). destruct n; reflexivity.
  - rewrite (Hl 0%nat (Nat.lt_0_succ n) : x = None). rewrite sleep_none, (IH _ _ _ _ _ _ _ _ H); [reflexivity|]. intros j Hj. exact (Hl (S j) ltac:(lia)).
Qed.
Lemma poll_dies n : forall f o i e id s p l k x, steady true f o i e id None s p -> quiet k l -> nth k l None = Some x -> (k < n)%nat ->
  exists s' p' l', poll n s p l = (s', p', l') /\ steady true f o i e id (Some x) s' p' /\ signals s' = signals s.
Proof.
  induction n as [|n IH]; intros f o i e id s p l k x H Hq Hk Hn; [lia|]. cbn [poll]. rewrite (look_alive _ _ _ _ _ _ _ H).
  destruct l as [|y l]; [destruct k; discriminate Hk|]. cbn [next]. destruct k as [|k].
  - cbn [nth] in Hk. subst y. rewrite sleep_ends. pose proof (ends_steady _ _ _ _ _ _ _ _ _ x H) as H'. cbn [next_end] in H'.
    destruct (poll_dead n _ _ _ _ _ _ _ _ l H') as (s' & p' & E & H2 & S). exists s', p', l. split; [exact E|]. split; [exact H2|]. rewrite S.
    rewrite <- sleep_ends. apply sleep_signals.
  - rewrite (Hq 0%nat (Nat.lt_0_succ k) : y = None), sleep_none. apply (IH _ _ _ _ _ _ _ _ k x H); [|exact Hk|lia]. intros j Hj. exact (Hq (S j) ltac:(lia)).
Qed.
Lemma signal_alive f o i e id s p g : steady true f o i e id None s p ->
  signal_child s p g = (sys_kill s (pid p) g, p) /\ steady true f o i e id None (sys_kill s (pid p) g) p.
Proof.
  intros H. assert (H' : steady true f o i e id None (sys_kill s (pid p) g) p) by exact H. split; [|exact H'].
  unfold signal_child. rewrite (look_alive _ _ _ _ _ _ _ H'). destruct H as (_ & _ & _ & _ & _ & _ & c & _ & _ & R & _). now rewrite R.
Qed.
Lemma signal_dead f o i e id x s p g : steady true f o i e id (Some x) s p -> running p = false -> signal_child s p g = (s, p).
Proof. intros _ R. unfold signal_child. now rewrite R. Qed.

(** ---- Ending the process ---- *)
Lemma end_dead f o i e id x s p l : steady true f o i e id (Some x) s p ->
  exists s' p', end_process s p l = (Some (status_of x), s', p') /\ steady true f o i e id (Some x) s' p' /\ running p' = false /\ signals s' = signals s.
Proof.
  intros H. unfold end_process. destruct (poll_dead 5 _ _ _ _ _ _ _ _ l H) as (s1 & p1 & E1 & H1 & S1). rewrite E1.
  destruct (look_dead _ _ _ _ _ _ _ _ H1) as (s2 & p2 & E2 & H2 & S2 & R2). rewrite E2. exists s2, p2. split; [reflexivity|]. split; [exact H2|]. split; [exact R2|congruence].
Qed.
Lemma end_self f o i e id s p l k x : steady true f o i e id None s p -> quiet k l -> nth k l None = Some x -> (k < 5)%nat ->
  exists s' p', end_process s p l = (Some (status_of x), s', p') /\ steady true f o i e id (Some x) s' p' /\ running p' = false /\ signals s' = signals s.
Proof.
  intros H Hq Hk Hn. unfold end_process. destruct (poll_dies 5 _ _ _ _ _ _ _ _ k x H Hq Hk Hn) as (s1 & p1 & l1 & E1 & H1 & S1). rewrite E1.
  destruct (look_dead _ _ _ _ _ _ _ _ H1) as (s2 & p2 & E2 & H2 & S2 & R2). rewrite E2. exists s2, p2. split; [reflexivity|]. split; [exact H2|]. split; [exact R2|congruence].
Qed.
Lemma nth_skip {A} n k (l : list A) d : nth k (skipn n l) d = nth (n + k) l d.
Proof. revert l. induction n as [|n IH]; intros [|x l]; cbn [skipn Nat.add nth]; try reflexivity; [destruct k; reflexivity|apply IH]. Qed.
Lemma end_term f o i e id s p l k x : steady true f o i e id None s p -> quiet (5 + k) l -> nth (5 + k) l None = Some x -> (k < 5)%nat ->
  exists s' p', end_process s p l = (Some (status_of x), s', p') /\ steady true f o i e id (Some x) s' p' /\ running p' = false /\ map fst (signals s') = 15 :: map fst (signals s).
Proof.
  intros H Hq Hk Hn. unfold end_process. rewrite (poll_alive 5 _ _ _ _ _ _ _ _ H) by (intros j Hj; apply Hq; lia). rewrite (look_alive _ _ _ _ _ _ _ H).
  unfold process_stop. destruct (signal_alive _ _ _ _ _ _ _ 15 H) as [Es H']. rewrite Es.
  destruct (poll_dies 5 _ _ _ _ _ _ _ (skipn 5 l) k x H') as (s1 & p1 & l1 & E1 & H1 & S1); [intros j Hj; rewrite nth_skip; apply Hq; lia|now rewrite nth_skip|exact Hn|].
  rewrite E1. unfold escalate. destruct (look_dead _ _ _ _ _ _ _ _ H1) as (s2 & p2 & E2 & H2 & S2 & R2). rewrite E2. exists s2, p2. split; [reflexivity|]. split; [exact H2|].
  split; [exact R2|]. rewrite S2, S1. reflexivity.
Qed.
Lemma end_kill f o i e id s p l : steady true f o i e id None s p -> quiet 10 l ->
  exists s' p', map fst (signals s') = 9 :: 15 :: map fst (signals s) /\
    match nth 10 l None with
    | Some x => end_process s p l = (Some (status_of x), s', p') /\ steady true f o i e id (Some x) s' p' /\ running p' = false
    | None => end_process s p l = (Some 0, s', p') /\ steady true f o i e id None s' p'
    end.
Proof.
  intros H Hq. unfold end_process. rewrite (poll_alive 5 _ _ _ _ _ _ _ _ H) by (intros j Hj; apply Hq; lia). rewrite (look_alive _ _ _ _ _ _ _ H).
  unfold process_stop. destruct (signal_alive _ _ _ _ _ _ _ 15 H) as [Es H']. rewrite Es.
  rewrite (poll_alive 5 _ _ _ _ _ _ _ _ H') by (intros j Hj; rewrite nth_skip; apply Hq; lia).
  unfold escalate. rewrite (look_alive _ _ _ _ _ _ _ H'). unfold process_kill. destruct (signal_alive _ _ _ _ _ _ _ 9 H') as [Ek H2]. rewrite Ek.
  assert (En : fst (next (skipn 5 (skipn 5 l))) = nth 10 l None).
  { replace (nth 10 l None) with (nth 0 (skipn 5 (skipn 5 l)) None) by now rewrite !nth_skip. destruct (skipn 5 (skipn 5 l)); reflexivity. }
  rewrite En. destruct (nth 10 l None) as [x|].
  - rewrite sleep_ends. pose proof (ends_steady _ _ _ _ _ _ _ _ _ x H2) as H3. cbn [next_end] in H3.
    destruct (look_dead _ _ _ _ _ _ _ _ H3) as (s4 & p4 & E4 & H4 & S4 & R4). rewrite E4. exists s4, p4. split; [|auto].
    rewrite S4, <- sleep_ends, sleep_signals. reflexivity.
  - rewrite sleep_none, (look_alive _ _ _ _ _ _ _ H2). eexists _, _. split; [|split; [reflexivity|exact H2]]. reflexivity.
Qed.

(** ---- Invariants ---- *)
Definition started (base : table) (q : option ending) (o : os) (p : process) : Prop :=
  exists s0 s3 x y z id, three s0 s3 x y z /\ same_table (files s0) base /\ 0 < id /\ steady true (files s3) x y z id q o p.
Definition failed (base : table) (o : os) (p : process) : Prop :=
  same_table (files o) base /\ running p = false /\ p_out p = (Some (-1), Some (-1)) /\ p_in p = (Some (-1), Some (-1)) /\ p_err p = (Some (-1), Some (-1)) /\
  exit_status p = Some (-1) /\ exists b, action_initialized p = Some b.
Section Timeout.
Variable T : Z.
Definition Inv (w : bool) (base : table) (s : tracker) : Prop :=
  (t_timeout s = T /\ in_int (T * 10) = true) /\
  exists base', (t_lost s = 0%nat -> same_table base' base) /\
  match t_process s with
  | None => same_table (files (t_os s)) base' /\ t_client s <> Some Alive
  | Some p => (exists q, started base' q (t_os s) p /\ (w = true -> q = None -> t_client s <> None)) \/ failed base' (t_os s) p
  end.
Lemma same_trans a b c : same_table a b -> same_table b c -> same_table a c.
Proof. intros H1 H2 m. now rewrite H1. Qed.
Lemma same_refl a : same_table a a.
Proof. intros m. reflexivity. Qed.

Lemma destroy_started base q o p : started base q o p ->
  exists o', process_destroy o p = Ok o' /\ same_table (files o') base /\ signals o' = signals (fst (signal_child o p 9)).
Proof.
  intros (s0 & s3 & x & y & z & id & Th & B & Hid & H). apply (signal_steady _ _ _ _ _ _ _ _ _ 9) in H. unfold process_destroy, process_kill.
  destruct (signal_child o p 9) as [o1 p1]. cbn [fst snd] in *. destruct H as (Hf & Ho & Hi & He & Ha & _).
  destruct (cleanup_three _ _ _ _ _ o1 p1 Th Hf Ho Hi He Ha) as (o2 & p2 & E & S). rewrite E. cbn [obind fst]. exists o2. split; [reflexivity|].
  split; [exact (same_trans _ _ _ S B)|]. exact (proj1 (cleanup_signals _ _ _ _ E)).
Qed.
Lemma destroy_failed base o p : failed base o p -> process_destroy o p = Ok o.
Proof.
  intros (S & R & Eo & Ei & Ee & _ & b & Eb). unfold process_destroy, process_kill, signal_child. rewrite R. unfold cleanup. rewrite Eo, Ei, Ee, Eb. reflexivity.
Qed.
Lemma end_failed base o p l : failed base o p -> end_process o p l = (Some (-1), o, p).
Proof.
  intros (_ & R & _ & _ & _ & St & _). unfold end_process. cbn [poll]. unfold is_alive at 1. rewrite R. cbn [negb]. unfold is_alive. rewrite R, St. reflexivity.
Qed.
Lemma first_death n l : quiet n l \/ exists k x, (k < n)%nat /\ quiet k l /\ nth k l None = Some x.
Proof.
  induction n as [|n IH]; [left; intros j Hj; lia|]. destruct IH as [Q|(k & x & Hk & Q & E)]; [|right; exists k, x; split; [lia|auto]].
  destruct (nth n l None) as [x|] eqn:E; [right; exists n, x; split; [lia|auto]|]. left. intros j Hj. destruct (Nat.eq_dec j n) as [->|]; [exact E|apply Q; lia].
Qed.
Lemma end_any f x y z id q o p l : steady true f x y z id q o p ->
  exists st o' p' q', end_process o p l = (Some st, o', p') /\ steady true f x y z id q' o' p'.
Proof.
  intros H. destruct q as [d|].
  { destruct (end_dead _ _ _ _ _ _ _ _ l H) as (o' & p' & E & H' & _). eexists _, _, _, _. split; [exact E|exact H']. }
  destruct (first_death 5 l) as [Q5|(k & d & Hk & Q & E)].
  2:{ destruct (end_self _ _ _ _ _ _ _ _ _ _ H Q E Hk) as (o' & p' & E' & H' & _). eexists _, _, _, _. split; [exact E'|exact H']. }
  destruct (first_death 10 l) as [Q10|(k & d & Hk & Q & E)].
  - destruct (end_kill _ _ _ _ _ _ _ _ H Q10) as (o' & p' & _ & E). destruct (nth 10 l None) as [d|].
    + destruct E as (E & H' & _). eexists _, _, _, _. split; [exact E|exact H'].
    + destruct E as (E & H'). eexists _, _, _, _. split; [exact E|exact H'].
  - assert (Hge : (5 <= k)%nat). { destruct (le_lt_dec 5 k) as [|L]; [assumption|]. rewrite (Q5 k L) in E. discriminate E. }
    destruct (end_term _ _ _ _ _ _ _ l (k - 5) d H) as (o' & p' & E' & H' & _); [now replace (5 + (k - 5))%nat with k by lia|now replace (5 + (k - 5))%nat with k by lia|lia|].
    eexists _, _, _, _. split; [exact E'|exact H'].
Qed.

Definition stopped (s s' : tracker) : Prop :=
  t_process s' = None /\ t_count s' = 0 /\ t_client s' = (match t_client s with Some Alive => Some Terminated | c => c end) /\
  t_tracking s' = t_tracking s /\ t_timeout s' = t_timeout s /\ t_explicit s' = t_explicit s /\ t_env s' = t_env s /\ t_lost s' = t_lost s /\
  t_events s' = (match t_client s with Some Alive => QuitSent :: t_events s | _ => t_events s end).
Lemma terminate_eq s : t_process (client_terminate s) = t_process s /\ t_os (client_terminate s) = t_os s.
Proof. unfold client_terminate. destruct (t_client s) as [[]|]; split; reflexivity. Qed.
Lemma stop_inv w base s l : Inv w base s -> exists b s', stop_process s l = Ok (b, s') /\ stopped s s' /\ Inv true base s'.
Proof.
  intros (Hi & base' & Hl & H). unfold stop_process. destruct (terminate_eq (set_count s 0)) as [E1 E2]. rewrite E1, E2. cbn [set_count t_process t_os].
  assert (K : forall o', same_table (files o') base' -> stopped s (set_process (client_terminate (set_count s 0)) o' None) /\
     Inv true base (set_process (client_terminate (set_count s 0)) o' None)).
  { intros o' So. split.
    - unfold client_terminate. cbn [set_count t_client]. unfold stopped. destruct (t_client s) as [[]|] eqn:Ec; cbn [set_process record set_client set_count t_process t_count t_client t_tracking t_timeout t_explicit t_env t_lost t_events]; rewrite ?Ec; auto 12.
    - unfold client_terminate. cbn [set_count t_client]. destruct (t_client s) as [[]|] eqn:Ec; (split; [exact Hi|]; exists base'; split; [exact Hl|]; cbn [set_process record set_client set_count t_process t_os t_client]; rewrite ?Ec; split; [exact So|discriminate]). }
  destruct (t_process s) as [p|] eqn:Ep.
  - destruct H as [(q & St & _)|F].
    + pose proof St as (s0 & s3 & x & y & z & id & Th & B & Hid & H). destruct (end_any _ _ _ _ _ _ _ _ l H) as (st & o1 & p1 & q1 & E & H1). rewrite E.
      destruct (destroy_started base' q1 o1 p1) as (o2 & E3 & S3 & _); [exists s0, s3, x, y, z, id; auto|]. rewrite E3. cbn [obind fetch].
      eexists _, _. split; [reflexivity|]. apply K. exact S3.
    + rewrite (end_failed _ _ _ l F), (destroy_failed _ _ _ F). cbn [obind fetch]. eexists _, _. split; [reflexivity|]. apply K. exact (proj1 F).
  - destruct H as [So Hc]. eexists _, _. split; [reflexivity|]. destruct (K (t_os s) So) as [K1 K2].
    assert (Eq : set_process (client_terminate (set_count s 0)) (t_os s) None = client_terminate (set_count s 0)).
    { destruct s as [a1 a2 a3 a4 a5 a6 a7 a8 a9 a10]. cbn in Ep. subst a2. unfold client_terminate. cbn. destruct a3 as [[]|]; reflexivity. }
    rewrite Eq in K1, K2. auto.
Qed.

(** Looking at the process *)
Definition alive_now (s : tracker) : Prop := exists p b, t_process s = Some p /\ started b None (t_os s) p.
Lemma started_none b b' q o p : started b None o p -> started b' q o p -> q = None.
Proof.
  intros (u0 & u3 & ux & uy & uz & uid & _ & _ & _ & U) (v0 & v3 & vx & vy & vz & vid & _ & _ & _ & V).
  destruct U as (_ & _ & _ & _ & _ & _ & c & Ec & _ & R & L). destruct V as (_ & _ & _ & _ & _ & _ & c' & Ec' & _ & Q). rewrite Ec in Ec'. injection Ec' as <-.
  destruct q; [|reflexivity]. destruct Q as [[_ Q]|[Q _]]; congruence.
Qed.
Lemma started_failed b b' o p : started b None o p -> failed b' o p -> False.
Proof. intros (u0 & u3 & ux & uy & uz & uid & _ & _ & _ & U) (_ & F & _). destruct U as (_ & _ & _ & _ & _ & _ & c & Ec & _ & R & L). congruence. Qed.
Lemma running_inv w base s : Inv w base s -> exists a o p, process_running s = (a, set_process s o p) /\ Inv w base (set_process s o p) /\
  (p = None <-> t_process s = None) /\ (a = true -> exists p' base', p = Some p' /\ started base' None o p' /\ o = t_os s /\ p = t_process s) /\
  (a = false -> ~ alive_now (set_process s o p)).
Proof.
  intros (Hi & base' & Hl & H). unfold process_running. destruct (t_process s) as [p|] eqn:Ep.
  - destruct H as [(q & St & Hq)|F].
    + pose proof St as (s0 & s3 & x & y & z & id & Th & B & Hid & H). destruct q as [d|].
      * destruct (look_dead _ _ _ _ _ _ _ _ H) as (o' & p' & E & H' & _). rewrite E. exists false, o', (Some p'). split; [reflexivity|].
        split; [split; [exact Hi|]; exists base'; split; [exact Hl|]; cbn [set_process t_process]; left; exists (Some d); split; [exists s0, s3, x, y, z, id; auto|discriminate]|].
        split; [split; discriminate|]. split; [discriminate|]. intros _ (p2 & b2 & Ep2 & St2). cbn [set_process t_process t_os] in *. injection Ep2 as <-.
        assert (X : started base' (Some d) o' p') by (exists s0, s3, x, y, z, id; auto). discriminate (started_none _ _ _ _ _ St2 X).
      * rewrite (look_alive _ _ _ _ _ _ _ H). exists true, (t_os s), (Some p). split; [reflexivity|].
        split; [split; [exact Hi|]; exists base'; split; [exact Hl|]; cbn [set_process t_process]; left; exists None; split; [exact St|exact Hq]|].
        split; [split; discriminate|]. split; [|discriminate]. intros _. exists p, base'. auto.
    + unfold is_alive. rewrite (proj1 (proj2 F)). cbn [negb]. exists false, (t_os s), (Some p). split; [reflexivity|].
      split; [split; [exact Hi|]; exists base'; split; [exact Hl|]; cbn [set_process t_process]; right; exact F|]. split; [split; discriminate|]. split; [discriminate|].
      intros _ (p2 & b2 & Ep2 & St2). cbn [set_process t_process t_os] in *. injection Ep2 as <-. exact (started_failed _ _ _ _ St2 F).
  - exists false, (t_os s), None. split; [destruct s; cbn in Ep |- *; now subst|]. split; [|split; [split; reflexivity|split; [discriminate|intros _ (p2 & b2 & Ep2 & _); discriminate Ep2]]].
    split; [exact Hi|]. exists base'. split; [exact Hl|]. exact H.
Qed.

Definition unsent (e : event) : Prop := match e with Sent _ => False | _ => True end.
Definition grew (s s' : tracker) : Prop := exists l, t_events s' = l ++ t_events s /\ Forall unsent l.
Lemma grew_refl s : grew s s.
Proof. exists []. split; [reflexivity|constructor]. Qed.
Lemma grew_same s s' : t_events s' = t_events s -> grew s s'.
Proof. intros E. exists []. split; [exact E|constructor]. Qed.
Lemma grew_trans a b c : grew a b -> grew b c -> grew a c.
Proof. intros (l & E & F) (l' & E' & F'). exists (l' ++ l). split; [now rewrite E', E, app_assoc|]. apply Forall_app. auto. Qed.
Definition kept (s s' : tracker) : Prop :=
  grew s s' /\
  t_tracking s' = t_tracking s /\ t_timeout s' = t_timeout s /\ t_explicit s' = t_explicit s /\ t_env s' = t_env s /\ t_lost s' = t_lost s /\
  (t_process s = None -> t_process s' = None) /\
  ((t_process s' = None /\ t_client s' <> Some Alive /\ (t_client s <> None -> t_client s' <> None)) \/
   (t_process s' <> None /\ t_client s' = t_client s /\ t_events s' = t_events s /\ (alive_now s' -> alive_now s))).
Lemma kept_refl w base s : Inv w base s -> kept s s.
Proof. intros (Hi & base' & Hl & H). unfold kept. refine (conj (grew_refl s) (conj eq_refl (conj eq_refl (conj eq_refl (conj eq_refl (conj eq_refl (conj (fun E => E) _))))))). destruct (t_process s); [right; split; [discriminate|auto]|]. left. destruct H. auto. Qed.
Lemma kept_trans a b c : kept a b -> kept b c -> kept a c.
Proof.
  intros (A0 & A1 & A2 & A3 & A4 & A5 & A6 & A7) (B0 & B1 & B2 & B3 & B4 & B5 & B6 & B7). unfold kept.
  split; [exact (grew_trans _ _ _ A0 B0)|].
  refine (conj _ (conj _ (conj _ (conj _ (conj _ (conj _ _)))))); try congruence; [auto|].
  destruct B7 as [(B7 & B8 & B9)|(B7 & B8 & B9 & B10)].
  - left. split; [exact B7|]. split; [exact B8|]. intros Hc. apply B9. destruct A7 as [(_ & _ & X)|(_ & X & _)]; [auto|congruence].
  - right. destruct A7 as [(X & _)|(X & Y & Z & W)]; [destruct (B7 (B6 X))|]. split; [exact B7|]. split; [congruence|]. split; [congruence|auto].
Qed.
Lemma stopped_kept s s' : stopped s s' -> kept s s'.
Proof.
  intros (A1 & A2 & A3 & A4 & A5 & A6 & A7 & A8 & A9). unfold kept.
  split; [destruct (t_client s) as [[]|]; (exists []; split; [exact A9|constructor]) || (exists [QuitSent]; split; [exact A9|constructor; [exact Logic.I|constructor]])|].
  refine (conj A4 (conj A5 (conj A6 (conj A7 (conj A8 (conj (fun _ => A1) _)))))). left. split; [exact A1|]. rewrite A3. destruct (t_client s) as [[]|]; split; discriminate || auto; try (intros; discriminate).
Qed.
Lemma sleep_inv w base s x : Inv w base s -> Inv w base (set_process s (sleep (t_os s) x) (t_process s)).
Proof.
  intros (Hi & base' & Hl & H). split; [exact Hi|]. exists base'. split; [exact Hl|]. cbn [set_process t_process t_os t_client].
  assert (Fs : files (sleep (t_os s) x) = files (t_os s)). { unfold sleep. destruct x; [|reflexivity]. destruct (the_child (t_os s)) as [c|]; [|reflexivity]. destruct (c_life c); reflexivity. }
  destruct (t_process s) as [p|]; [|rewrite Fs; exact H]. destruct H as [(q & (s0 & s3 & a & b & c & id & Th & B & Hid & H) & Hq)|F].
  - left. destruct x as [d|].
    + exists (next_end q (ChildEnds d)). split; [exists s0, s3, a, b, c, id; split; [exact Th|]; split; [exact B|]; split; [exact Hid|]; rewrite sleep_ends; exact (ends_steady _ _ _ _ _ _ _ _ _ _ H)|].
      intros _ E. destruct q; discriminate E.
    + exists q. rewrite sleep_none. split; [exists s0, s3, a, b, c, id; auto|exact Hq].
  - right. destruct F as (F1 & F2). unfold failed. rewrite Fs. auto.
Qed.
Lemma awake b o x p : started b None (sleep o x) p -> started b None o p.
Proof.
  intros (u0 & u3 & ux & uy & uz & uid & U1 & U2 & U3 & U). exists u0, u3, ux, uy, uz, uid. split; [exact U1|]. split; [exact U2|]. split; [exact U3|].
  destruct x as [d|]; [|exact U]. revert U. unfold sleep. destruct (the_child o) as [c|] eqn:Ec; [|exact (fun U => U)]. destruct (c_life c) eqn:Lc; try exact (fun U => U).
  intros (_ & _ & _ & _ & _ & _ & c2 & Ec2 & _ & _ & L2). injection Ec2 as <-. discriminate L2.
Qed.
Lemma set_count_inv w base s n : Inv w base s -> Inv w base (set_count s n).
Proof. exact (fun H => H). Qed.
Lemma tick_inv w base s u : Inv w base s -> exists s', tick s u = Ok s' /\ Inv w base s' /\ kept s s'.
Proof.
  intros H. unfold tick. pose proof (sleep_inv w base s (u_before u) H) as H1. destruct (running_inv _ _ _ H1) as (a & o & p & E & H2 & Hn & Ha & Hna). rewrite E.
  set (s2 := set_process (set_process s (sleep (t_os s) (u_before u)) (t_process s)) o p) in *.
  assert (K2 : kept s s2).
  { destruct (kept_refl _ _ _ H2) as (_ & _ & _ & _ & _ & _ & _ & K). unfold kept. cbn [s2 set_process t_tracking t_timeout t_explicit t_env t_lost t_process t_client t_events] in *.
    refine (conj (grew_same _ _ eq_refl) (conj eq_refl (conj eq_refl (conj eq_refl (conj eq_refl (conj eq_refl (conj (proj2 Hn) _))))))). destruct K as [(K1 & K3 & K4)|(K1 & K3 & K4 & _)]; [left; auto|right]. split; [exact K1|]. split; [exact K3|]. split; [exact K4|].
    intros A. destruct a; [|destruct (Hna eq_refl A)]. destruct (Ha eq_refl) as (p' & b' & Ep' & St' & Eo & Ep2). cbn [t_process t_os] in *.
    exists p', b'. split; [congruence|]. rewrite Eo in St'. exact (awake _ _ _ _ St'). }
  assert (Stop : forall s3, Inv w base s3 -> kept s s3 -> exists s', (r <- stop_process s3 (u_sleeps u) ;; Ok (snd r)) = Ok s' /\ Inv w base s' /\ kept s s').
  { intros s3 H3 K3. destruct (stop_inv _ _ _ (u_sleeps u) H3) as (b & s' & E' & St & H'). rewrite E'. cbn [obind snd]. exists s'. split; [reflexivity|].
    split; [|exact (kept_trans _ _ _ K3 (stopped_kept _ _ St))]. destruct H' as (Hi & base' & Hl & H'). split; [exact Hi|]. exists base'. split; [exact Hl|].
    destruct St as (Ep' & _). rewrite Ep' in *. exact H'. }
  destruct (negb a || u_callbacks u); [exact (Stop s2 H2 K2)|]. destruct (0 <? t_count s2); [|exists s2; auto].
  assert (H3 : Inv w base (set_count s2 (t_count s2 - 1))) by exact H2. assert (K3 : kept s (set_count s2 (t_count s2 - 1))) by exact K2.
  destruct (t_count (set_count s2 (t_count s2 - 1)) =? 0); [exact (Stop _ H3 K3)|]. eexists. split; [reflexivity|]. auto.
Qed.
Lemma ticks_inv w base l : forall s, Inv w base s -> exists s', ticks s l = Ok s' /\ Inv w base s' /\ kept s s'.
Proof.
  induction l as [|u l IH]; intros s H; cbn [ticks]; [exists s; split; [reflexivity|]; split; [exact H|exact (kept_refl _ _ _ H)]|].
  destruct (tick_inv _ _ _ u H) as (s1 & E1 & H1 & K1). rewrite E1. cbn [obind]. destruct (IH _ H1) as (s2 & E2 & H2 & K2). exists s2. split; [exact E2|]. split; [exact H2|].
  exact (kept_trans _ _ _ K1 K2).
Qed.

(** ---- Starting ---- *)
Lemma cleanup_shape s p s' p' : cleanup s p = Ok (s', p') ->
  running p' = false /\ p_out p' = (Some (-1), Some (-1)) /\ p_in p' = (Some (-1), Some (-1)) /\ p_err p' = (Some (-1), Some (-1)) /\
  exit_status p' = exit_status p /\ action_initialized p' = Some false.
Proof.
  unfold cleanup, close_var. intros E.
  repeat match type of E with context [fetch ?v] => destruct v; cbn [fetch obind] in E; try discriminate E end.
  injection E as <- <-. auto 10.
Qed.
Lemma start_fail s explicit en a : (3 <= pipes_possible a)%nat -> spawned a = None ->
  exists s' p', process_start s (with_env (process_create explicit) en) a = Ok (false, s', p') /\ failed (files s) s' p'.
Proof.
  intros Hp Hs. unfold process_start. cbn [with_env process_create running pid Z.eqb negb explicit_mode exit_status p_out p_in p_err env].
  destruct (pipes_possible a) as [|[|[|n]]]; try lia. pose proof (three_pipes s) as Tq.
  destruct (sys_pipe s) as [o s1]. destruct (sys_pipe s1) as [i s2]. destruct (sys_pipe s2) as [e s3]. rewrite Hs.
  match goal with |- context [cleanup s3 ?q] => set (p3 := q) end.
  destruct (cleanup_three s s3 o i e s3 p3 Tq eq_refl eq_refl eq_refl eq_refl) as (s4 & p4 & E & Sm); [eexists; reflexivity|]. rewrite E. cbn [obind fst snd].
  exists s4, p4. split; [reflexivity|]. destruct (cleanup_shape _ _ _ _ E) as (R & C1 & C2 & C3 & C4 & C5).
  refine (conj Sm (conj R (conj C1 (conj C2 (conj C3 (conj _ _)))))); [exact C4|]. eexists. exact C5.
Qed.

Lemma connect_inv base s id l : l_after l = [] -> Inv false base s ->
  exists r s', connect s id l = Ok (r, s') /\ Inv true base s' /\ t_tracking s' = t_tracking s /\ t_lost s' = t_lost s /\ t_timeout s' = t_timeout s /\ grew s s' /\
    (r = Threw -> (forall v, l_version l = Some v -> v <= 4) -> t_client s' <> Some Alive) /\ (r = Threw \/ r = Returned true).
Proof.
  intros La H. unfold connect, start_watchdog. destruct H as (Hi & H). unfold int_result. replace (in_int (t_timeout s * 10)) with true by (rewrite (proj1 Hi); symmetry; exact (proj2 Hi)). cbn [obind].
  assert (H1 : Inv false base (set_count s (t_timeout s * 10))) by exact (conj Hi H).
  destruct (ticks_inv _ _ (l_waiting l) _ H1) as (s1 & E1 & (Hi1 & base' & Hl1 & H2) & K1). rewrite E1. cbn [obind].
  destruct K1 as (K0 & K1 & K2 & K3 & K4 & K5 & K6 & K7). cbn [set_count t_tracking t_lost t_timeout] in *.
  assert (No : exists r s', Ok (Threw, set_client s1 (Some NoHandle)) = Ok (r, s') /\ Inv true base s' /\ t_tracking s' = t_tracking s /\ t_lost s' = t_lost s /\ t_timeout s' = t_timeout s /\ grew s s' /\
     (r = Threw -> (forall v, l_version l = Some v -> v <= 4) -> t_client s' <> Some Alive) /\ (r = Threw \/ r = Returned true)).
  { eexists _, _. split; [reflexivity|]. split.
    - split; [exact Hi1|]. exists base'. split; [exact Hl1|]. cbn [set_client t_process t_os t_client]. destruct (t_process s1) as [p|].
      + destruct H2 as [(q & St & _)|F]; [left; exists q; split; [exact St|discriminate]|right; exact F].
      + split; [exact (proj1 H2)|discriminate].
    - split; [exact K1|]. split; [exact K5|]. split; [exact K2|]. split; [exact K0|]. split; [discriminate|auto]. }
  destruct (t_process s1) as [p|] eqn:Ep; [|exact No]. destruct (l_version l) as [v|] eqn:Ev; [|exact No]. clear No.
  rewrite La. cbn [ticks obind]. cbn [set_count set_client t_process]. rewrite Ep.
  eexists _, _. split; [reflexivity|]. split.
  - split; [exact Hi1|]. exists base'. split; [exact Hl1|]. cbn [set_count set_client t_process t_os t_client]. rewrite Ep.
    destruct H2 as [(q & St & _)|F]; [left; exists q; split; [exact St|discriminate]|right; exact F].
  - split; [exact K1|]. split; [exact K5|]. split; [exact K2|]. split; [exact K0|]. split; [|destruct (_ <? _); auto].
    intros X Hv. specialize (Hv v eq_refl). exfalso. replace (TRAX_VERSION <? v) with false in X by (symmetry; apply Z.ltb_ge; exact Hv). discriminate X.
Qed.
Lemma start_inv base s l : launch_ok l -> Inv true base s ->
  exists r s', start_process s l = Ok (r, s') /\ Inv true base s' /\ t_tracking s' = t_tracking s /\ t_timeout s' = t_timeout s /\ grew s s' /\
    (r = Threw -> (forall v, l_version l = Some v -> v <= 4) -> t_client s' <> Some Alive) /\
    (r = Returned false -> exists o p, s' = set_process s o p /\ t_process s <> None /\ o = t_os s /\ p = t_process s) /\
    (t_lost s' = t_lost s \/ t_process s <> None).
Proof.
  intros (Hp & Hid & Ha) H. unfold start_process. destruct (running_inv _ _ _ H) as (a & o & p & E & H1 & Hn & Hr & _). rewrite E. destruct a.
  { eexists _, _. split; [reflexivity|]. split; [exact H1|]. split; [reflexivity|]. split; [reflexivity|]. split; [exact (grew_same _ _ eq_refl)|]. split; [discriminate|]. split; [intros _; destruct (Hr eq_refl) as (p' & b' & -> & _ & -> & Ep); exists (t_os s), (Some p'); split; [reflexivity|]; split; [congruence|]; split; [reflexivity|exact Ep]|left; reflexivity]. }
  destruct H1 as (Hi & base1 & Hl & H1). cbn [set_client set_lost set_process t_os t_process t_explicit t_env t_lost].
  cbn [set_process t_process t_lost t_os t_timeout] in H1, Hl, Hi.
  set (lost' := match p with Some _ => S (t_lost s) | None => t_lost s end).
  assert (B : exists base2, (lost' = 0%nat -> same_table base2 base) /\ same_table (files o) base2).
  { unfold lost'. destruct p as [p|]; [exists (files o); split; [discriminate|apply same_refl]|]. exists base1. split; [exact Hl|exact (proj1 H1)]. }
  assert (L : lost' = t_lost s \/ t_process s <> None). { unfold lost'. destruct p as [p|]; [right; intros X; apply Hn in X; discriminate X|left; reflexivity]. }
  destruct B as (base2 & B1 & B2). destruct (spawned (l_answers l)) as [id|] eqn:Es.
  - destruct (start_ok o (t_explicit s) (t_env s) (l_answers l) id Hp Es) as (s3 & x & y & z & t & Th & _ & _ & Est).
    change (with_env (process_create (t_explicit s)) (t_env s)) with (prepared (t_explicit s) (t_env s)). rewrite Est. cbn [obind].
    set (o4 := mkOs (files s3) (pipes s3) (Some (mkChild id t (spawn_vars (prepared (t_explicit s) (t_env s)) x y) Running)) (signals s3)).
    set (p4 := launched (prepared (t_explicit s) (t_env s)) id x y z).
    assert (St : steady true (files s3) x y z id None o4 p4) by apply launched_steady.
    destruct (sleep_steady _ _ _ _ _ _ _ _ _ (l_first l) St) as (q & St2).
    match goal with |- context [process_running ?s5] => set (S5 := s5) end.
    assert (H5 : Inv false base S5).
    { split; [exact Hi|]. exists base2. split; [exact B1|]. cbn [S5 record set_process t_process t_os]. left. exists q. split; [|discriminate].
      exists o, s3, x, y, z, id. split; [exact Th|]. split; [exact B2|]. split; [exact (Hid id eq_refl)|exact St2]. }
    assert (Glaunch : forall o6 p6, grew s (set_process S5 o6 p6)) by (intros; exists [Launched (pid p4)]; split; [reflexivity|constructor; [exact Logic.I|constructor]]).
    destruct (running_inv _ _ _ H5) as (a & o6 & p6 & E6 & H6 & Hn6 & Hr6 & _). rewrite E6. destruct a.
    + destruct (connect_inv base (set_process S5 o6 p6) (pid p4) l Ha H6) as (r & s' & Ec & H7 & T7 & L7 & I7 & G7 & C7 & R7). exists r, s'.
      split; [exact Ec|]. split; [exact H7|]. split; [exact T7|]. split; [exact I7|]. split; [refine (grew_trans _ _ _ _ G7); apply Glaunch|]. split; [exact C7|].
      split; [intros ->; destruct R7 as [R7|R7]; discriminate R7|]. rewrite L7. exact L.
    + eexists _, _. split; [reflexivity|]. split; [|split; [reflexivity|]; split; [reflexivity|]; split; [apply Glaunch|]; split; [discriminate|]; split; [discriminate|exact L]].
      destruct H6 as (Hi6 & base6 & Hl6 & H6). split; [exact Hi6|]. exists base6. split; [exact Hl6|]. cbn [set_process t_process t_os t_client S5 record set_client set_lost] in *.
      destruct p6 as [p6|]; [|exact H6]. destruct H6 as [(q6 & St6 & _)|F6]; [|right; exact F6]. left. exists q6. split; [exact St6|]. intros _ ->. exfalso.
      clear - E6 St6 St2. unfold process_running in E6. cbn [S5 record set_process t_process t_os] in E6. destruct q as [d|].
      * destruct (look_dead _ _ _ _ _ _ _ _ St2) as (o' & p' & E & St' & _). rewrite E in E6. injection E6 as <- <-.
        destruct St6 as (u0 & u3 & ux & uy & uz & uid & _ & _ & _ & U). destruct St' as (_ & _ & _ & _ & _ & _ & c & Ec & _ & Q). destruct U as (_ & _ & _ & _ & _ & _ & c' & Ec' & _ & R' & L').
        rewrite Ec in Ec'. injection Ec' as <-. destruct Q as [[_ Q]|[Q _]]; congruence.
      * rewrite (look_alive _ _ _ _ _ _ _ St2) in E6. discriminate E6.
  - destruct (start_fail o (t_explicit s) (t_env s) (l_answers l) Hp Es) as (s4 & p4 & E4 & F4). rewrite E4. cbn [obind].
    eexists _, _. split; [reflexivity|]. split.
    + split; [exact Hi|]. exists base2. split; [exact B1|]. cbn [set_process t_process t_os]. right. destruct F4 as (F1 & F2). split; [exact (same_trans _ _ _ F1 B2)|exact F2].
    + split; [reflexivity|]. split; [reflexivity|]. split; [exact (grew_same _ _ eq_refl)|]. split; [discriminate|]. split; [discriminate|exact L].
Qed.

(** ---- Calls ---- *)
Lemma ready_inv base s : Inv true base s -> exists b o p, ready s = Ok (b, set_process s o p) /\ Inv true base (set_process s o p) /\
  (p = None <-> t_process s = None) /\
  (b = true -> t_client s = Some Alive /\ o = t_os s /\ p = t_process s /\ alive_now s) /\ (b = false -> t_client s = Some Alive -> ~ alive_now (set_process s o p)).
Proof.
  intros H. unfold ready. destruct (running_inv _ _ _ H) as (a & o & p & E & H1 & Hn & Hr & Hna). rewrite E. destruct a.
  - destruct (Hr eq_refl) as (p' & base' & -> & St & -> & Hp). cbn [set_process t_client].
    assert (Hc : t_client s <> None).
    { destruct H as (_ & b' & _ & H). rewrite <- Hp in H. destruct H as [(q & St' & Hq)|F].
      - apply Hq; [reflexivity|]. exact (started_none _ _ _ _ _ St St').
      - destruct (started_failed _ _ _ _ St F). }
    destruct (t_client s) as [[]|] eqn:Ec; [| | |congruence].
    + eexists _, _, _. split; [reflexivity|]. split; [exact H1|]. split; [exact Hn|]. split; [discriminate|discriminate].
    + eexists _, _, _. split; [reflexivity|]. split; [exact H1|]. split; [exact Hn|]. split; [|discriminate]. intros _. split; [reflexivity|]. split; [reflexivity|]. split; [exact Hp|]. exists p', base'. auto.
    + eexists _, _, _. split; [reflexivity|]. split; [exact H1|]. split; [exact Hn|]. split; [discriminate|discriminate].
  - eexists _, _, _. split; [reflexivity|]. split; [exact H1|]. split; [exact Hn|]. split; [discriminate|]. intros _ _. exact (Hna eq_refl).
Qed.
Lemma not_ready_of base s : Inv true base s -> t_process s = None \/ t_client s <> Some Alive -> not_ready s.
Proof.
  intros H Hd. destruct (ready_inv _ _ H) as (b & o & p & E & _ & Hn & Hb & _). destruct b; [|eexists; exact E].
  destruct (Hb eq_refl) as (Hc & _ & _ & p' & base' & Ep & _). destruct Hd; congruence.
Qed.

Definition ordered (s : tracker) : Prop :=
  in_order (t_events s) /\
  (t_tracking s = Some true -> t_client s = Some Alive -> alive_now s -> exists r rest, t_events s = Answered r (success r) :: Sent r :: rest).
Lemma order_grew s s' : grew s s' -> in_order (t_events s) -> in_order (t_events s').
Proof.
  intros (l & E & F) H. rewrite E. clear E. induction F as [|e l He F IH]; [exact H|]. intros later r earlier Eq Hr. destruct later as [|x later].
  - injection Eq as -> _. destruct He.
  - injection Eq as _ Eq. exact (IH later r earlier Eq Hr).
Qed.
Lemma order_sent evs r : in_order evs -> (r <> Initialise -> exists r' rest, evs = Answered r' (success r') :: Sent r' :: rest) -> in_order (Sent r :: evs).
Proof.
  intros H Hr later r1 earlier Eq Hne. destruct later as [|x later].
  - injection Eq as E1 E2. subst r1 earlier. exact (Hr Hne).
  - injection Eq as _ Eq. exact (H later r1 earlier Eq Hne).
Qed.
Lemma order_answered evs r c : in_order evs -> in_order (Answered r c :: evs).
Proof. intros H [|x later] r1 earlier Eq Hne; [discriminate Eq|]. injection Eq as _ Eq. exact (H later r1 earlier Eq Hne). Qed.

Lemma ask_inv base s r a : Inv true base s -> exists b s', ask s r a = Ok (Returned b, s') /\ Inv true base s' /\ t_tracking s' = Some b /\ t_lost s' = t_lost s /\
  (answer_ok r a -> b = false -> t_process s' = None \/ t_client s' <> Some Alive) /\
  (in_order (t_events s) -> (r <> Initialise -> exists r' rest, t_events s = Answered r' (success r') :: Sent r' :: rest) -> ordered s').
Proof.
  intros (Hi & H). unfold ask, start_watchdog, int_result. replace (in_int (t_timeout s * 10)) with true by (rewrite (proj1 Hi); symmetry; exact (proj2 Hi)). cbn [obind].
  set (s0 := record (set_count s (t_timeout s * 10)) (Sent r)). assert (H0 : Inv true base s0) by exact (conj Hi H).
  destruct (ticks_inv _ _ (a_waiting a) _ H0) as (s1 & E1 & H1 & K0 & K1 & K2 & K3 & K4 & K5 & K6 & K7). rewrite E1. cbn [obind].
  assert (Ew : forall c, (c =? wanted r) = (c =? success r)) by (intros; reflexivity).
  assert (Ord : in_order (t_events s) -> (r <> Initialise -> exists r' rest, t_events s = Answered r' (success r') :: Sent r' :: rest) -> in_order (t_events s1)).
  { intros O1 O2. apply (order_grew s0 s1 K0). exact (order_sent _ _ O1 O2). }
  destruct (t_process s1) as [p|] eqn:Ep.
  - destruct K7 as [(X & _)|(_ & Kc & Ke & _)]; [congruence|].
    set (c' := Some (if a_alive a then Alive else Terminated)).
    set (s2 := set_tracking (set_count (record (set_client s1 c') (Answered r (a_code a))) 0) (a_code a =? wanted r)).
    assert (H2 : Inv true base s2).
    { destruct H1 as (Hi1 & base1 & Hl1 & H1). split; [exact Hi1|]. exists base1. split; [exact Hl1|]. cbn [s2 set_tracking set_count record set_client t_process t_os t_client]. rewrite Ep in *.
      destruct H1 as [(q & St & _)|F]; [left; exists q; split; [exact St|discriminate]|right; exact F]. }
    change (exists b s', (if a_code a =? TRAX_ERROR then r' <- stop_process s2 (a_sleeps a);; Ok (Returned false, snd r') else Ok (Returned (a_code a =? wanted r), s2)) = Ok (Returned b, s') /\ Inv true base s' /\ t_tracking s' = Some b /\ t_lost s' = t_lost s /\
      (answer_ok r a -> b = false -> t_process s' = None \/ t_client s' <> Some Alive) /\
      (in_order (t_events s) -> (r <> Initialise -> exists r' rest, t_events s = Answered r' (success r') :: Sent r' :: rest) -> ordered s')).
    destruct (Z.eqb_spec (a_code a) TRAX_ERROR) as [Ee|Ee].
    + destruct (stop_inv _ _ _ (a_sleeps a) H2) as (b & s3 & E3 & St & H3). rewrite E3. cbn [obind snd].
      assert (Tf : t_tracking s3 = Some false). { destruct St as (_ & _ & _ & -> & _). cbn [s2 set_tracking t_tracking]. rewrite Ee. destruct r; reflexivity. }
      exists false, s3. split; [reflexivity|]. split; [exact H3|]. split; [exact Tf|]. pose proof (stopped_kept _ _ St) as (G & _).
      split; [destruct St as (_ & _ & _ & _ & _ & _ & _ & -> & _); exact K5|]. split; [intros _ _; left; exact (proj1 St)|].
      intros O1 O2. split; [|rewrite Tf; discriminate]. apply (order_grew _ _ G). exact (order_answered _ r (a_code a) (Ord O1 O2)).
    + exists (a_code a =? wanted r), s2. split; [reflexivity|]. split; [exact H2|]. split; [reflexivity|]. split; [exact K5|]. split.
      * intros Ha Hb. right. cbn [s2 set_tracking set_count record set_client t_client]. unfold c'. destruct Ha as [Ha|[Ha|Ha]]; [|contradiction|rewrite Ha; discriminate].
        exfalso. apply Z.eqb_neq in Hb. apply Hb. destruct r; exact Ha.
      * intros O1 O2. split; [exact (order_answered _ r (a_code a) (Ord O1 O2))|]. cbn [s2 set_tracking set_count record set_client t_tracking t_events]. intros Tq _ _.
        injection Tq as Tq. apply Z.eqb_eq in Tq. exists r. rewrite Ke. exists (t_events s). cbn [s0 record t_events set_count]. f_equal. f_equal. rewrite Tq. destruct r; reflexivity.
  - set (s2 := set_tracking (set_count (record s1 (Answered r TRAX_ERROR)) 0) (TRAX_ERROR =? wanted r)).
    assert (H2 : Inv true base s2) by exact H1.
    change (exists b s', (r' <- stop_process s2 (a_sleeps a);; Ok (Returned false, snd r')) = Ok (Returned b, s') /\ Inv true base s' /\ t_tracking s' = Some b /\ t_lost s' = t_lost s /\
      (answer_ok r a -> b = false -> t_process s' = None \/ t_client s' <> Some Alive) /\
      (in_order (t_events s) -> (r <> Initialise -> exists r' rest, t_events s = Answered r' (success r') :: Sent r' :: rest) -> ordered s')).
    destruct (stop_inv _ _ _ (a_sleeps a) H2) as (b & s3 & E3 & St & H3). rewrite E3. cbn [obind snd].
    assert (Tf : t_tracking s3 = Some false). { destruct St as (_ & _ & _ & -> & _). cbn [s2 set_tracking t_tracking]. destruct r; reflexivity. }
    exists false, s3. split; [reflexivity|]. split; [exact H3|]. split; [exact Tf|]. pose proof (stopped_kept _ _ St) as (G & _).
    split; [destruct St as (_ & _ & _ & _ & _ & _ & _ & -> & _); exact K5|]. split; [intros _ _; left; exact (proj1 St)|].
    intros O1 O2. split; [|rewrite Tf; discriminate]. apply (order_grew _ _ G). exact (order_answered _ r TRAX_ERROR (Ord O1 O2)).
Qed.

Lemma continue_inv base s k a : Inv true base s -> t_tracking s <> None ->
  exists r s', continue s k a = Ok (r, s') /\ Inv true base s' /\ t_tracking s' <> None /\ (ordered s -> ordered s') /\
    (answer_ok k a -> r = Returned false -> t_process s' = None \/ t_client s' <> Some Alive).
Proof.
  intros H Ht. unfold continue. destruct (ready_inv _ _ H) as (b & o & p & E & H1 & Hn & Hb & Hnb). rewrite E. cbn [obind]. destruct b.
  - destruct (Hb eq_refl) as (Hc & -> & -> & A). cbn [set_process t_tracking]. destruct (t_tracking s) as [t|] eqn:Et; [|congruence]. cbn [fetch obind].
    assert (Es : set_process s (t_os s) (t_process s) = s) by (destruct s; reflexivity). rewrite Es. destruct t.
    + destruct (ask_inv base s k a H) as (b & s' & E' & H' & T' & _ & N' & O'). exists (Returned b), s'. split; [exact E'|]. split; [exact H'|]. split; [congruence|].
      split; [|intros Ha Hr; injection Hr as ->; auto]. intros [O1 O2]. apply O'; [exact O1|]. intros _. auto.
    + exists Threw, s. split; [reflexivity|]. split; [exact H|]. split; [congruence|]. split; [auto|discriminate].
  - exists Threw, (set_process s o p). split; [reflexivity|]. split; [exact H1|]. split; [exact Ht|]. split; [|discriminate].
    intros [O1 O2]. split; [exact O1|]. cbn [set_process t_tracking t_client t_events]. intros _ Hc A. destruct (Hnb eq_refl Hc A).
Qed.
Lemma call_inv base s c : Inv true base s -> call_ok c -> (needs_tracking c -> t_tracking s <> None) ->
  exists r s', do_call s c = Ok (r, s') /\ Inv true base s' /\ (t_tracking s <> None -> t_tracking s' <> None) /\
    (ordered s -> no_bare_launch c -> ordered s') /\
    (forall k a, asks c = Some (k, a) -> answer_ok k a -> r = Returned false -> t_process s' = None \/ t_client s' <> Some Alive) /\
    (forall l a, c = Initialize l a -> r <> Threw -> t_tracking s' <> None).
Proof.
  intros H Hok Ht. destruct c as [l|l a|a|a|x l| | |u|d]; cbn [do_call call_ok needs_tracking no_bare_launch asks] in *.
  - destruct (start_inv base s l Hok H) as (r & s' & E & H' & Tq & _). exists r, s'. split; [exact E|]. split; [exact H'|]. split; [congruence|]. split; [intros _ []|]. split; [discriminate|discriminate].
  - unfold initialize. destruct (start_inv base s l Hok H) as (r & s1 & E & H1 & T1 & _ & G1 & C1 & F1 & _). rewrite E. cbn [obind]. destruct r as [b|].
    + destruct (ready_inv _ _ H1) as (b' & o & p & E' & H2 & Hn & Hb & Hnb). rewrite E'. cbn [obind]. destruct b'.
      * destruct (ask_inv base (set_tracking (set_process s1 o p) false) Initialise a H2) as (b2 & s' & E2 & H3 & T3 & _ & N3 & O3). rewrite E2.
        exists (Returned b2), s'. split; [reflexivity|]. split; [exact H3|]. split; [congruence|].
        split; [|split; [intros k a' X Ha Hr; injection X as <- <-; injection Hr as ->; auto|congruence]].
        intros [O1 O2] _. apply O3; [|congruence]. exact (order_grew _ _ G1 O1).
      * exists Threw, (set_process s1 o p). split; [reflexivity|]. split; [exact H2|]. split; [cbn [set_process t_tracking]; congruence|].
        split; [|split; [discriminate|congruence]]. intros [O1 O2] _. split; [exact (order_grew _ _ G1 O1)|]. cbn [set_process t_tracking t_client t_events]. intros _ Hc A. destruct (Hnb eq_refl Hc A).
    + exists Threw, s1. split; [reflexivity|]. split; [exact H1|]. split; [congruence|]. split; [|split; [discriminate|congruence]].
      intros [O1 O2] Hv. split; [exact (order_grew _ _ G1 O1)|]. intros _ Hc. destruct (C1 eq_refl Hv Hc).
  - unfold frame. destruct (continue_inv base s NewFrame a H (Ht Logic.I)) as (r & s' & E & H' & T' & O' & N'). exists r, s'. split; [exact E|]. split; [exact H'|]. split; [auto|]. split; [auto|].
    split; [|discriminate]. intros k a' X. injection X as <- <-. exact N'.
  - unfold wait. destruct (continue_inv base s AwaitState a H (Ht Logic.I)) as (r & s' & E & H' & T' & O' & N'). exists r, s'. split; [exact E|]. split; [exact H'|]. split; [auto|]. split; [auto|].
    split; [|discriminate]. intros k a' X. injection X as <- <-. exact N'.
  - unfold reset. destruct (stop_inv _ _ _ x H) as (b & s1 & E1 & St & H1). rewrite E1. cbn [obind snd].
    destruct (start_inv base s1 l Hok H1) as (r & s' & E & H' & Tq & _). exists r, s'. split; [exact E|]. split; [exact H'|]. split; [destruct St as (_ & _ & _ & X & _); congruence|].
    split; [intros _ []|]. split; discriminate.
  - destruct (ready_inv _ _ H) as (b & o & p & E & H1 & Hn & Hb & Hnb). rewrite E. cbn [obind fst snd]. eexists _, _. split; [reflexivity|]. split; [exact H1|]. split; [exact (fun X => X)|].
    split; [|split; discriminate]. intros [O1 O2] _. destruct b.
    + destruct (Hb eq_refl) as (_ & -> & -> & _). assert (Es : set_process s (t_os s) (t_process s) = s) by (destruct s; reflexivity). rewrite Es. split; assumption.
    + split; [exact O1|]. intros _ Hc A. destruct (Hnb eq_refl Hc A).
  - unfold is_tracking. destruct (ready_inv _ _ H) as (b & o & p & E & H1 & Hn & Hb & Hnb). rewrite E. cbn [obind].
    assert (O : ordered s -> ordered (set_process s o p)).
    { intros [O1 O2]. destruct b.
      + destruct (Hb eq_refl) as (_ & -> & -> & _). assert (Es : set_process s (t_os s) (t_process s) = s) by (destruct s; reflexivity). rewrite Es. split; assumption.
      + split; [exact O1|]. intros _ Hc A. destruct (Hnb eq_refl Hc A). }
    destruct b.
    + cbn [set_process t_tracking]. destruct (t_tracking s) as [t|] eqn:Et; [|destruct (Ht Logic.I eq_refl)]. cbn [fetch obind fst snd]. eexists _, _. split; [reflexivity|]. split; [exact H1|].
      split; [cbn [set_process t_tracking]; congruence|]. split; [auto|split; discriminate].
    + cbn [obind fst snd]. eexists _, _. split; [reflexivity|]. split; [exact H1|]. split; [exact (fun X => X)|]. split; [auto|split; discriminate].
  - destruct (tick_inv _ _ _ u H) as (s1 & E1 & H1 & K0 & K1 & K2 & K3 & K4 & K5 & K6 & K7). rewrite E1. cbn [obind]. eexists _, _. split; [reflexivity|]. split; [exact H1|]. split; [congruence|].
    split; [|split; discriminate]. intros [O1 O2] _. split; [exact (order_grew _ _ K0 O1)|]. intros Tq C A. destruct K7 as [(_ & X & _)|(_ & Kc & Ke & Ka)]; [contradiction|]. rewrite Ke. apply O2; [congruence|congruence|auto].
  - eexists _, _. split; [reflexivity|]. split; [exact (sleep_inv _ _ _ (Some d) H)|]. split; [exact (fun X => X)|]. split; [|split; discriminate].
    intros [O1 O2] _. split; [exact O1|]. intros Tq C A. apply O2; [exact Tq|exact C|]. destruct A as (p & b & Ep & St). cbn [set_process t_process t_os] in *. exists p, b. split; [exact Ep|].
    exact (awake _ _ _ _ St).
Qed.

(** ---- Histories ---- *)
Lemma create_inv o explicit en : in_int (T * 10) = true -> Inv true (files o) (tracker_create o explicit en T).
Proof. intros H. split; [split; [reflexivity|exact H]|]. exists (files o). split; [intros _; apply same_refl|]. split; [apply same_refl|discriminate]. Qed.
Lemma blind_inv base s c r s' : Inv true base s -> t_tracking s = None -> needs_tracking c -> do_call s c = Ok (r, s') -> Inv true base s' /\ t_tracking s' = None /\ (ordered s -> ordered s').
Proof.
  intros H Ht Hc E. destruct (ready_inv _ _ H) as (b & o & p & Er & H1 & Hn & Hb & Hnb).
  destruct c; cbn [needs_tracking] in Hc; try (destruct Hc; fail); cbn [do_call] in E; unfold frame, wait, continue, is_tracking in E; rewrite Er in E; cbn [obind] in E;
    (destruct b; [cbn [set_process t_tracking] in E; rewrite Ht in E; discriminate E|]); cbn [obind fst snd] in E; injection E as <- <-;
    (split; [exact H1|]; split; [exact Ht|]; intros [O1 O2]; split; [exact O1|]; intros X; cbn [set_process t_tracking] in X; congruence).
Qed.
Lemma needs_dec c : {needs_tracking c} + {~ needs_tracking c}.
Proof. destruct c; cbn; auto. Qed.
Lemma call_any base s c r s' : Inv true base s -> call_ok c -> do_call s c = Ok (r, s') -> Inv true base s' /\ (ordered s -> no_bare_launch c -> ordered s').
Proof.
  intros H Hok E. destruct (needs_dec c) as [N|N]; [destruct (t_tracking s) eqn:Et|].
  - destruct (call_inv base s c H Hok) as (r1 & s1 & E1 & H1 & _ & O1 & _); [congruence|]. rewrite E in E1. injection E1 as <- <-. auto.
  - destruct (blind_inv base s c r s' H Et N E) as (H1 & _ & O1). auto.
  - destruct (call_inv base s c H Hok) as (r1 & s1 & E1 & H1 & _ & O1 & _); [contradiction|]. rewrite E in E1. injection E1 as <- <-. auto.
Qed.
Lemma run_any base l : forall s rs s', Inv true base s -> Forall call_ok l -> run s l = Ok (rs, s') -> Inv true base s' /\ (ordered s -> Forall no_bare_launch l -> ordered s').
Proof.
  induction l as [|c l IH]; intros s rs s' H Hok E; cbn [run] in E; [injection E as <- <-; auto|].
  inversion_clear Hok as [|? ? Hc Hl]. destruct (do_call s c) as [[r s1]| | |] eqn:Ec; cbn [obind fst snd] in E; try discriminate E.
  destruct (call_any _ _ _ _ _ H Hc Ec) as [H1 O1]. destruct (run s1 l) as [[rs2 s2]| | |] eqn:Er; cbn [obind fst snd] in E; try discriminate E. injection E as <- <-.
  destruct (IH _ _ _ H1 Hl Er) as [H2 O2]. split; [exact H2|]. intros O Hn. inversion_clear Hn. auto.
Qed.
Lemma run_free base l : forall s, Inv true base s -> Forall call_ok l -> (t_tracking s <> None \/ Forall (fun c => ~ needs_tracking c) l) -> exists rs s', run s l = Ok (rs, s') /\ Inv true base s'.
Proof.
  induction l as [|c l IH]; intros s H Hok Ht; cbn [run]; [eexists _, _; split; [reflexivity|exact H]|]. inversion_clear Hok as [|? ? Hc Hl].
  destruct (call_inv base s c H Hc) as (r & s1 & E & H1 & T1 & _); [intros N; destruct Ht as [Ht|Ht]; [exact Ht|inversion_clear Ht; contradiction]|]. rewrite E. cbn [obind fst snd].
  destruct (IH s1 H1 Hl) as (rs & s2 & E2 & H2); [destruct Ht as [Ht|Ht]; [left; auto|right; now inversion_clear Ht]|]. rewrite E2. cbn [obind fst snd]. eexists _, _. split; [reflexivity|exact H2].
Qed.
Lemma reachable_inv o s : reachable o T s -> Inv true (files o) s.
Proof. intros (ex & en & calls & rs & F & Hi & Hok & E). exact (proj1 (run_any _ _ _ _ _ (create_inv o ex en Hi) Hok E)). Qed.

Lemma destroy_inv base s x : Inv true base s -> exists o', tracker_destroy s x = Ok o' /\ (t_lost s = 0%nat -> same_table (files o') base).
Proof.
  intros H. unfold tracker_destroy. destruct (stop_inv _ _ _ x H) as (b & s1 & E & St & (_ & base' & Hl & H1)). rewrite E. cbn [obind snd]. eexists. split; [reflexivity|].
  intros L. destruct St as (Ep & _ & _ & _ & _ & _ & _ & El & _). rewrite Ep in H1. exact (same_trans _ _ _ (proj1 H1) (Hl (eq_trans El L))).
Qed.

(** ---- The watchdog ---- *)
Lemma tick_calm s u : alive_now s -> calm u -> t_count s <> 1 -> tick s u = Ok (set_count s (if 0 <? t_count s then t_count s - 1 else t_count s)).
Proof.
  intros (p & b & Ep & (s0 & s3 & x & y & z & id & _ & _ & _ & St)) [U1 U2] Hc. unfold tick. rewrite U1, U2, sleep_none. unfold process_running. cbn [set_process t_process t_os].
  rewrite Ep, (look_alive _ _ _ _ _ _ _ St). cbn [negb orb set_process t_count].
  assert (Es : set_process (set_process s (t_os s) (Some p)) (t_os s) (Some p) = s) by (destruct s; cbn in *; now subst). rewrite Es.
  destruct (0 <? t_count s) eqn:E0.
  - cbn [set_count t_count]. replace (t_count s - 1 =? 0) with false by (symmetry; apply Z.eqb_neq; lia). reflexivity.
  - destruct s; reflexivity.
Qed.
Lemma tick_last base s u : Inv true base s -> alive_now s -> calm u -> t_count s = 1 -> exists s', tick s u = Ok s' /\ t_process s' = None /\ Inv true base s' /\ kept s s'.
Proof.
  intros H (p & b & Ep & (s0 & s3 & x & y & z & id & _ & _ & _ & St)) [U1 U2] Hc. destruct (tick_inv _ _ _ u H) as (s' & E & H' & K). exists s'. split; [exact E|]. split; [|auto].
  revert E. unfold tick. rewrite U1, U2, sleep_none. unfold process_running. cbn [set_process t_process t_os].
  rewrite Ep, (look_alive _ _ _ _ _ _ _ St). cbn [negb orb set_process t_count set_count]. rewrite Hc. cbn [Z.ltb Z.compare Z.sub Z.eqb Z.opp Z.add Z.pos_sub].
  intros E. match type of E with (r <- stop_process ?s2 ?l ;; _) = _ => destruct (stop_inv true base s2 l) as (b2 & s4 & E4 & St4 & _) end.
  - assert (Es : set_process (set_process s (t_os s) (Some p)) (t_os s) (Some p) = s) by (destruct s; cbn in *; now subst). rewrite Es. exact H.
  - rewrite E4 in E. cbn [obind snd] in E. injection E as <-. exact (proj1 St4).
Qed.
Lemma tick_gone base s u : Inv true base s -> t_process s = None -> exists s', tick s u = Ok s' /\ t_process s' = None /\ Inv true base s'.
Proof. intros H E. destruct (tick_inv _ _ _ u H) as (s' & Es & H' & _ & _ & _ & _ & _ & _ & K & _). exists s'. auto. Qed.
Lemma ticks_gone base l : forall s, Inv true base s -> t_process s = None -> exists s', ticks s l = Ok s' /\ t_process s' = None /\ Inv true base s'.
Proof.
  induction l as [|u l IH]; intros s H E; cbn [ticks]; [exists s; auto|]. destruct (tick_gone _ _ u H E) as (s1 & E1 & P1 & H1). rewrite E1. cbn [obind]. exact (IH _ H1 P1).
Qed.
Lemma set_count_twice s n m : set_count (set_count s n) m = set_count s m.
Proof. reflexivity. Qed.
Lemma ticks_calm l : forall s n, alive_now s -> Forall calm l -> n <= 0 \/ Z.of_nat (List.length l) < n -> exists m, ticks (set_count s n) l = Ok (set_count s m).
Proof.
  induction l as [|u l IH]; intros s n A Hl Hn; cbn [ticks]; [exists n; reflexivity|]. inversion_clear Hl as [|? ? Hu Hl']. cbn [List.length] in Hn.
  assert (A' : alive_now (set_count s n)) by exact A. rewrite (tick_calm _ _ A' Hu) by (cbn [set_count t_count]; lia). cbn [obind set_count t_count]. 
  match goal with |- context [ticks ?s2 l] => change s2 with (set_count s (if 0 <? n then n - 1 else n)) end.
  destruct (Z.ltb_spec 0 n); apply IH; try assumption; lia.
Qed.
Lemma ticks_late base l : forall s n, Inv true base s -> alive_now s -> Forall calm l -> 0 < n <= Z.of_nat (List.length l) -> exists s', ticks (set_count s n) l = Ok s' /\ t_process s' = None /\ Inv true base s'.
Proof.
  induction l as [|u l IH]; intros s n H A Hl Hn; cbn [List.length] in Hn; [lia|]. cbn [ticks]. inversion_clear Hl as [|? ? Hu Hl'].
  assert (A' : alive_now (set_count s n)) by exact A. destruct (Z.eq_dec n 1) as [->|Hne].
  - destruct (tick_last base (set_count s 1) u H A' Hu eq_refl) as (s1 & E1 & P1 & H1 & _). rewrite E1. cbn [obind]. exact (ticks_gone _ _ _ H1 P1).
  - rewrite (tick_calm _ _ A' Hu) by (cbn [set_count t_count]; exact Hne). cbn [obind set_count t_count].
    match goal with |- context [ticks ?s2 l] => change s2 with (set_count s (if 0 <? n then n - 1 else n)) end.
    replace (0 <? n) with true by (symmetry; apply Z.ltb_lt; lia). apply IH; try assumption; lia.
Qed.
Lemma ready_alive base s : Inv true base s -> is_ready s -> alive_now s /\ t_client s = Some Alive /\ ready s = Ok (true, s).
Proof.
  intros H (s' & E). destruct (ready_inv _ _ H) as (b & o & p & E' & _ & _ & Hb & _). rewrite E in E'. injection E' as <- _. destruct (Hb eq_refl) as (Hc & _ & _ & A). split; [exact A|]. split; [exact Hc|].
  unfold ready, process_running. pose proof A as (p' & b' & Ep & (s0 & s3 & x & y & z & id & _ & _ & _ & St)). rewrite Ep, (look_alive _ _ _ _ _ _ _ St). cbn [set_process t_client]. rewrite Hc.
  f_equal. f_equal. destruct s; cbn in *; now subst.
Qed.
Lemma ask_in_time base s k a : Inv true base s -> alive_now s -> Forall calm (a_waiting a) -> T <= 0 \/ Z.of_nat (List.length (a_waiting a)) < T * 10 -> a_code a <> TRAX_ERROR ->
  exists s', ask s k a = Ok (Returned (a_code a =? success k), s') /\ t_process s' = t_process s /\ t_os s' = t_os s.
Proof.
  intros ([Hi1 Hi2] & _) A Hw Hl He. unfold ask, start_watchdog, int_result. rewrite Hi1, Hi2. cbn [obind].
  assert (A' : alive_now (record s (Sent k))) by exact A.
  destruct (ticks_calm (a_waiting a) (record s (Sent k)) (T * 10) A' Hw) as (m & Em); [destruct Hl; [left|right]; lia|].
  match goal with |- context [ticks ?s2 _] => change s2 with (set_count (record s (Sent k)) (T * 10)) end. rewrite Em. cbn [obind].
  destruct A as (p & b & Ep & _). cbn [set_count record t_process]. rewrite Ep. apply Z.eqb_neq in He. rewrite He. eexists. split; [destruct k; reflexivity|]. split; [exact Ep|reflexivity].
Qed.
Lemma ask_late base s k a : Inv true base s -> alive_now s -> Forall calm (a_waiting a) -> 0 < T -> T * 10 <= Z.of_nat (List.length (a_waiting a)) ->
  exists s', ask s k a = Ok (Returned false, s') /\ t_process s' = None /\ Inv true base s'.
Proof.
  intros H A Hw Hp Hl. pose proof H as ([Hi1 Hi2] & _). destruct (ask_inv base s k a H) as (b & s' & E & H' & _). revert E. unfold ask, start_watchdog, int_result. rewrite Hi1, Hi2. cbn [obind].
  assert (A' : alive_now (record s (Sent k))) by exact A. assert (H1 : Inv true base (record s (Sent k))) by exact H.
  destruct (ticks_late base (a_waiting a) _ (T * 10) H1 A' Hw) as (s1 & E1 & P1 & H2); [lia|].
  match goal with |- context [ticks ?s2 _] => change s2 with (set_count (record s (Sent k)) (T * 10)) end. rewrite E1. cbn [obind]. rewrite P1. cbn [Z.eqb TRAX_ERROR]. 
  replace (TRAX_ERROR =? TRAX_ERROR) with true by reflexivity.
  match goal with |- context [stop_process ?s3 ?l] => destruct (stop_inv true base s3 l) as (b4 & s4 & E4 & St4 & H4); [exact H2|] end.
  rewrite E4. cbn [obind snd]. intros _. eexists. split; [reflexivity|]. split; [exact (proj1 St4)|exact H4].
Qed.

(** ---- Starting, with time ---- *)
Lemma launch_runs base s s0 l id : Inv true base s -> process_running s = (false, s0) -> launch_ok l -> spawned (l_answers l) = Some id -> l_first l = None ->
  exists s1 i, start_process s l = connect s1 i l /\ Inv false base s1 /\ alive_now s1.
Proof.
  intros H Er (Hp & Hid & Ha) Es Hf. unfold start_process. destruct (running_inv _ _ _ H) as (a & o & p & E & H1 & _). rewrite Er in E. injection E as <- ->. rewrite Er.
  destruct H1 as (Hi & base1 & Hl & H1). cbn [set_client set_lost set_process t_os t_process t_explicit t_env t_lost].
  cbn [set_process t_process t_lost t_os t_timeout] in H1, Hl, Hi.
  set (lost' := match p with Some _ => S (t_lost s) | None => t_lost s end).
  assert (B : exists base2, (lost' = 0%nat -> same_table base2 base) /\ same_table (files o) base2).
  { unfold lost'. destruct p as [p|]; [exists (files o); split; [discriminate|apply same_refl]|]. exists base1. split; [exact Hl|exact (proj1 H1)]. }
  destruct B as (base2 & B1 & B2).
  destruct (start_ok o (t_explicit s) (t_env s) (l_answers l) id Hp Es) as (s3 & x & y & z & t & Th & _ & _ & Est).
  change (with_env (process_create (t_explicit s)) (t_env s)) with (prepared (t_explicit s) (t_env s)). rewrite Est. cbn [obind].
  set (o4 := mkOs (files s3) (pipes s3) (Some (mkChild id t (spawn_vars (prepared (t_explicit s) (t_env s)) x y) Running)) (signals s3)).
  set (p4 := launched (prepared (t_explicit s) (t_env s)) id x y z).
  assert (St : steady true (files s3) x y z id None o4 p4) by apply launched_steady.
  rewrite Hf, sleep_none. match goal with |- context [process_running ?s5] => set (S5 := s5) end.
  assert (H5 : Inv false base S5).
  { split; [exact Hi|]. exists base2. split; [exact B1|]. cbn [S5 record set_process t_process t_os]. left. exists None. split; [|discriminate].
    exists o, s3, x, y, z, id. split; [exact Th|]. split; [exact B2|]. split; [exact (Hid id Es)|exact St]. }
  assert (E6 : process_running S5 = (true, S5)) by (unfold process_running; cbn [S5 record set_process t_process t_os]; rewrite (look_alive _ _ _ _ _ _ _ St); reflexivity).
  rewrite E6. exists S5, (pid p4). split; [reflexivity|]. split; [exact H5|]. exists p4, base2. split; [reflexivity|]. exists o, s3, x, y, z, id. split; [exact Th|]. split; [exact B2|]. split; [exact (Hid id Es)|exact St].
Qed.
Lemma ticks_late_any w base l s n : Inv w base s -> alive_now s -> Forall calm l -> 0 < n <= Z.of_nat (List.length l) -> exists s', ticks (set_count s n) l = Ok s' /\ t_process s' = None.
Proof.
  intros H A Hl Hn. destruct (ticks_late base l (set_client s (Some NoHandle)) n) as (s' & E & P & _); try assumption.
  - destruct H as (Hi & b & Hb & H). split; [exact Hi|]. exists b. split; [exact Hb|]. cbn [set_client t_process t_os t_client]. destruct (t_process s); [|destruct H; split; [assumption|discriminate]].
    destruct H as [(q & St & _)|F]; [left; exists q; split; [exact St|discriminate]|right; exact F].
  - clear E P s'. revert s n H A Hn. induction l as [|u l IH]; intros s n H A Hn; cbn [List.length] in Hn; [lia|]. cbn [ticks]. inversion_clear Hl as [|? ? Hu Hl'].
    assert (A' : alive_now (set_count s n)) by exact A. destruct (Z.eq_dec n 1) as [->|Hne].
    + destruct (tick_inv _ _ (set_count s 1) u H) as (s1 & E1 & H1 & K1). rewrite E1. cbn [obind]. destruct (ticks_inv _ _ l _ H1) as (s2 & E2 & H2 & K2). exists s2. split; [exact E2|].
      destruct K2 as (_ & _ & _ & _ & _ & _ & K2 & _). apply K2.
      pose proof A as (p & b & Ep & (s0 & s3 & x & y & z & id & _ & _ & _ & St)). destruct Hu as [U1 U2].
      revert E1. unfold tick. rewrite U1, U2, sleep_none. unfold process_running. cbn [set_count set_process t_process t_os].
      rewrite Ep, (look_alive _ _ _ _ _ _ _ St). cbn [negb orb set_process t_count set_count]. cbn [Z.ltb Z.compare Z.sub Z.eqb Z.opp Z.add Z.pos_sub].
      intros E. match type of E with (r <- stop_process ?s2 ?l ;; _) = _ => destruct (stop_inv w base s2 l) as (b2 & s4 & E4 & St4 & _) end.
      * exact (eq_ind _ (fun q => Inv w base q) H _ (ltac:(destruct s; cbn in *; now subst) : s = set_process (set_process s (t_os s) (Some p)) (t_os s) (Some p))).
      * rewrite E4 in E. cbn [obind snd] in E. injection E as <-. exact (proj1 St4).
    + rewrite (tick_calm _ _ A' Hu) by (cbn [set_count t_count]; exact Hne). cbn [obind set_count t_count].
      match goal with |- context [ticks ?s2 l] => change s2 with (set_count s (if 0 <? n then n - 1 else n)) end.
      replace (0 <? n) with true by (symmetry; apply Z.ltb_lt; lia). apply IH; try assumption; lia.
Qed.
Lemma start_in_time base s s0 l id v : Inv true base s -> process_running s = (false, s0) -> launch_ok l -> spawned (l_answers l) = Some id -> l_first l = None ->
  Forall calm (l_waiting l) -> T <= 0 \/ Z.of_nat (List.length (l_waiting l)) < T * 10 -> l_version l = Some v -> v <= 4 ->
  exists s', start_process s l = Ok (Returned true, s') /\ is_ready s'.
Proof.
  intros H Er Hok Es Hf Hw Hl Ev Hv. destruct (launch_runs _ _ _ _ _ H Er Hok Es Hf) as (s1 & i & E & ([Hi1 Hi2] & H1) & A). rewrite E. unfold connect, start_watchdog, int_result.
  rewrite Hi1, Hi2. cbn [obind]. destruct (ticks_calm (l_waiting l) s1 (T * 10) A Hw) as (m & Em); [destruct Hl; [left|right]; lia|]. rewrite Em. cbn [obind set_count t_process].
  destruct A as (p & b & Ep & St). rewrite Ep, Ev. destruct Hok as (_ & _ & ->). cbn [ticks obind set_count set_client t_process]. rewrite Ep.
  replace (TRAX_VERSION <? v) with false by (symmetry; unfold TRAX_VERSION; apply Z.ltb_ge; exact Hv). eexists. split; [reflexivity|].
  destruct St as (u0 & u3 & x & y & z & id' & _ & _ & _ & St). unfold is_ready, ready, process_running. cbn [set_count set_client t_process t_os]. rewrite Ep, (look_alive _ _ _ _ _ _ _ St). cbn [set_process t_client]. eexists. reflexivity.
Qed.
Lemma start_late base s s0 l id : Inv true base s -> process_running s = (false, s0) -> launch_ok l -> spawned (l_answers l) = Some id -> l_first l = None ->
  Forall calm (l_waiting l) -> 0 < T -> T * 10 <= Z.of_nat (List.length (l_waiting l)) ->
  exists s', start_process s l = Ok (Threw, s') /\ t_process s' = None /\ not_ready s'.
Proof.
  intros H Er Hok Es Hf Hw Hp Hl. destruct (launch_runs _ _ _ _ _ H Er Hok Es Hf) as (s1 & i & E & H1 & A). rewrite E. pose proof H1 as ([Hi1 Hi2] & _). unfold connect, start_watchdog, int_result.
  rewrite Hi1, Hi2. cbn [obind]. destruct (ticks_late_any false base (l_waiting l) s1 (T * 10) H1 A Hw) as (s2 & E2 & P2); [lia|]. rewrite E2. cbn [obind]. rewrite P2.
  eexists. split; [reflexivity|]. split; [exact P2|]. unfold not_ready, ready, process_running. cbn [set_client t_process]. rewrite P2. eexists. reflexivity.
Qed.

(** ---- Requests, with time ---- *)
Lemma able_asks base s c k a : Inv true base s -> able s c -> asks c = Some (k, a) -> exists s1, do_call s c = ask s1 k a /\ Inv true base s1 /\ alive_now s1 /\ t_process s1 = t_process s /\ t_os s1 = t_os s.
Proof.
  intros H Ab As. destruct c as [l|l b|b|b|x l| | |u|d]; cbn [asks able] in *; try discriminate As; injection As as <- <-; cbn [do_call].
  - destruct (ready_alive _ _ H Ab) as (A & Hc & Er). unfold initialize, start_process.
    assert (Ep : process_running s = (true, s)).
    { unfold ready in Er. unfold process_running in *. destruct (t_process s) as [p|] eqn:Ep; [|discriminate Er]. destruct (is_alive (t_os s) p) as [[[q st] o'] p'] eqn:Ea.
      destruct A as (p2 & b2 & Ep2 & (u0 & u3 & x & y & z & id & _ & _ & _ & St)). rewrite Ep in Ep2. injection Ep2 as <-. rewrite (look_alive _ _ _ _ _ _ _ St) in Ea. injection Ea as <- <- <- <-.
      f_equal. destruct s; cbn in *; now subst. }
    rewrite Ep. cbn [obind]. rewrite Er. cbn [obind]. exists (set_tracking s false). split; [reflexivity|]. split; [exact H|]. split; [exact A|]. split; reflexivity.
  - destruct Ab as (s' & Et). unfold frame, continue. unfold is_tracking in Et. destruct (ready s) as [[b2 s2]| | |] eqn:Er; cbn [obind] in *; try discriminate Et. destruct b2; [|discriminate Et].
    destruct (ready_alive _ _ H (ex_intro _ s2 Er)) as (A & Hc & Er'). rewrite Er in Er'. injection Er' as ->. destruct (t_tracking s) as [t|]; cbn [fetch obind] in *; [|discriminate Et]. injection Et as -> ->.
    exists s'. split; [reflexivity|]. split; [exact H|]. split; [exact A|]. split; reflexivity.
  - destruct Ab as (s' & Et). unfold wait, continue. unfold is_tracking in Et. destruct (ready s) as [[b2 s2]| | |] eqn:Er; cbn [obind] in *; try discriminate Et. destruct b2; [|discriminate Et].
    destruct (ready_alive _ _ H (ex_intro _ s2 Er)) as (A & Hc & Er'). rewrite Er in Er'. injection Er' as ->. destruct (t_tracking s) as [t|]; cbn [fetch obind] in *; [|discriminate Et]. injection Et as -> ->.
    exists s'. split; [reflexivity|]. split; [exact H|]. split; [exact A|]. split; reflexivity.
Qed.
Lemma answered_in_time o s c k a : reachable o T s -> able s c -> asks c = Some (k, a) -> Forall calm (a_waiting a) -> T <= 0 \/ Z.of_nat (List.length (a_waiting a)) < T * 10 -> a_code a <> TRAX_ERROR ->
  exists s', do_call s c = Ok (Returned (a_code a =? success k), s') /\ t_process s' = t_process s /\ t_os s' = t_os s.
Proof.
  intros R Ab As Hw Hl He. pose proof (reachable_inv _ _ R) as H. destruct (able_asks _ _ _ _ _ H Ab As) as (s1 & E & H1 & A1 & P1 & O1). rewrite E, <- P1, <- O1. exact (ask_in_time _ _ _ _ H1 A1 Hw Hl He).
Qed.
Lemma timed_out o s c k a : reachable o T s -> able s c -> asks c = Some (k, a) -> Forall calm (a_waiting a) -> 0 < T -> T * 10 <= Z.of_nat (List.length (a_waiting a)) ->
  exists s', do_call s c = Ok (Returned false, s') /\ t_process s' = None /\ not_ready s'.
Proof.
  intros R Ab As Hw Hp Hl. pose proof (reachable_inv _ _ R) as H. destruct (able_asks _ _ _ _ _ H Ab As) as (s1 & E & H1 & A1 & P1 & O1). rewrite E.
  destruct (ask_late _ _ k _ H1 A1 Hw Hp Hl) as (s' & E' & P' & H'). exists s'. split; [exact E'|]. split; [exact P'|]. exact (not_ready_of _ _ H' (or_introl P')).
Qed.

(** ---- Stopping ---- *)
Lemma stop_signals base s x : Inv true base s -> alive_now s -> exists o', tracker_destroy s x = Ok o' /\
  (forall k d, (k < 5)%nat -> quiet k x -> nth k x None = Some d -> sent_since (t_os s) o' []) /\
  (forall k d, (5 <= k < 10)%nat -> quiet k x -> nth k x None = Some d -> sent_since (t_os s) o' [15]) /\
  (forall d, quiet 10 x -> nth 10 x None = Some d -> sent_since (t_os s) o' [15; 9]) /\
  (quiet 11 x -> sent_since (t_os s) o' [15; 9; 9]).
Proof.
  intros H (p & b & Ep & Sd). pose proof Sd as (s0 & s3 & u & v & z & id & Th & B & Hid & St). unfold tracker_destroy, stop_process.
  destruct (terminate_eq (set_count s 0)) as [E1 E2]. rewrite E1, E2. cbn [set_count t_process t_os]. rewrite Ep.
  assert (K : forall q st o1 p1, end_process (t_os s) p x = (Some st, o1, p1) -> steady true (files s3) u v z id q o1 p1 ->
     exists o', (r <- (let '(st, o, p0) := end_process (t_os s) p x in o0 <- process_destroy o p0;; st0 <- fetch st;; Ok (st0 =? 0, set_process (client_terminate (set_count s 0)) o0 None)) ;; Ok (t_os (snd r))) = Ok o' /\
       signals o' = signals (fst (signal_child o1 p1 9))).
  { intros q st o1 p1 E S1. rewrite E. destruct (destroy_started b q o1 p1) as (o2 & E3 & S3 & G3); [exists s0, s3, u, v, z, id; auto|]. rewrite E3. cbn [obind fetch snd set_process t_os]. exists o2. auto. }
  destruct (first_death 5 x) as [Q5|(k & d & Hk & Q & E)].
  2:{ destruct (end_self _ _ _ _ _ _ _ _ _ _ St Q E Hk) as (o1 & p1 & E3 & S3 & R3 & G3). destruct (K _ _ _ _ E3 S3) as (o' & Eo & Go). exists o'. split; [exact Eo|].
      assert (G : sent_since (t_os s) o' []) by (unfold sent_since; rewrite Go; unfold signal_child; rewrite R3; cbn [fst]; now rewrite G3).
      split; [intros; exact G|]. split; [|split]; intros.
      - match goal with Q2 : quiet ?n x |- _ => rewrite (Q2 k ltac:(lia)) in E end. discriminate E.
      - match goal with Q2 : quiet ?n x |- _ => rewrite (Q2 k ltac:(lia)) in E end. discriminate E.
      - match goal with Q2 : quiet ?n x |- _ => rewrite (Q2 k ltac:(lia)) in E end. discriminate E. }
  assert (C5 : forall k d, (k < 5)%nat -> nth k x None = Some d -> False) by (intros k d Hk E; rewrite (Q5 k Hk) in E; discriminate E).
  destruct (first_death 10 x) as [Q10|(k & d & Hk & Q & E)].
  - destruct (end_kill _ _ _ _ _ _ _ _ St Q10) as (o1 & p1 & G3 & E). destruct (nth 10 x None) as [d|] eqn:E10.
    + destruct E as (E3 & S3 & R3). destruct (K _ _ _ _ E3 S3) as (o' & Eo & Go). exists o'. split; [exact Eo|]. split; [intros k d2 Hk _ E; destruct (C5 _ _ Hk E)|].
      split; [intros k d2 Hk _ E; rewrite (Q10 k ltac:(lia)) in E; discriminate E|]. split; [intros d2 _ _; unfold sent_since; rewrite Go; unfold signal_child; rewrite R3; cbn [fst]; now rewrite G3|].
      intros Q11. rewrite (Q11 10%nat ltac:(lia)) in E10. discriminate E10.
    + destruct E as (E3 & S3). destruct (K _ _ _ _ E3 S3) as (o' & Eo & Go). exists o'. split; [exact Eo|]. split; [intros k d2 Hk _ E; destruct (C5 _ _ Hk E)|].
      split; [intros k d2 Hk _ E; rewrite (Q10 k ltac:(lia)) in E; discriminate E|]. split; [discriminate|].
      intros _. unfold sent_since. rewrite Go. destruct (signal_alive _ _ _ _ _ _ _ 9 S3) as [Es _]. rewrite Es. cbn [fst]. unfold sys_kill. cbn [signals map fst]. now rewrite G3.
  - assert (Hge : (5 <= k)%nat). { destruct (le_lt_dec 5 k) as [|L]; [assumption|]. destruct (C5 k d L E). }
    destruct (end_term _ _ _ _ _ _ _ x (k - 5) d St) as (o1 & p1 & E3 & S3 & R3 & G3); [now replace (5 + (k - 5))%nat with k by lia|now replace (5 + (k - 5))%nat with k by lia|lia|].
    destruct (K _ _ _ _ E3 S3) as (o' & Eo & Go). exists o'. split; [exact Eo|]. split; [intros k2 d2 Hk2 _ E2'; destruct (C5 _ _ Hk2 E2')|].
    split; [intros _ _ _ _ _; unfold sent_since; rewrite Go; unfold signal_child; rewrite R3; cbn [fst]; now rewrite G3|].
    split; [intros d2 Q2 _; rewrite (Q2 k ltac:(lia)) in E; discriminate E|intros Q2; rewrite (Q2 k ltac:(lia)) in E; discriminate E].
Qed.
Lemma polite o s x : reachable o T s -> is_ready s -> exists o', tracker_destroy s x = Ok o' /\
  (forall k d, (k < 5)%nat -> quiet k x -> nth k x None = Some d -> sent_since (t_os s) o' []) /\
  (forall k d, (5 <= k < 10)%nat -> quiet k x -> nth k x None = Some d -> sent_since (t_os s) o' [15]) /\
  (forall d, quiet 10 x -> nth 10 x None = Some d -> sent_since (t_os s) o' [15; 9]) /\
  (quiet 11 x -> sent_since (t_os s) o' [15; 9; 9]).
Proof. intros R Ry. pose proof (reachable_inv _ _ R) as H. exact (stop_signals _ _ _ H (proj1 (ready_alive _ _ H Ry))). Qed.
Lemma reset_quits o s x l r s' : reachable o T s -> is_ready s -> launch_ok l -> do_call s (Reset x l) = Ok (r, s') ->
  exists later, t_events s' = later ++ QuitSent :: t_events s.
Proof.
  intros R Ry Hl E. pose proof (reachable_inv _ _ R) as H. cbn [do_call] in E. unfold reset in E. destruct (stop_inv _ _ _ x H) as (b & s1 & E1 & St & H1). rewrite E1 in E. cbn [obind snd] in E.
  destruct (start_inv _ _ _ Hl H1) as (r2 & s2 & E2 & _ & _ & _ & (later & Ev & _) & _). rewrite E in E2. injection E2 as <- <-. exists later. rewrite Ev. f_equal.
  destruct St as (_ & _ & _ & _ & _ & _ & _ & _ & St). destruct (ready_alive _ _ H Ry) as (_ & Hc & _). now rewrite Hc in St.
Qed.

(** ---- Crashes ---- *)
Lemma dead_looks base s d : Inv true base s -> exists s0, process_running (set_process s (sleep (t_os s) (Some d)) (t_process s)) = (false, s0).
Proof.
  intros (Hi & base' & Hl & H). unfold process_running. cbn [set_process t_process t_os]. destruct (t_process s) as [p|]; [|eexists; reflexivity]. destruct H as [(q & (s0 & s3 & u & v & z & id & Th & B & Hid & H) & _)|F].
  - rewrite sleep_ends. apply (ends_steady _ _ _ _ _ _ _ _ _ d) in H. assert (X : exists d', next_end q (ChildEnds d) = Some d') by (destruct q; eexists; reflexivity). destruct X as (d' & X). rewrite X in H.
    destruct (look_dead _ _ _ _ _ _ _ _ H) as (o' & p' & E & _). rewrite E. eexists. reflexivity.
  - unfold is_alive. rewrite (proj1 (proj2 F)). eexists. reflexivity.
Qed.
Lemma tick_stops base s u : Inv true base s -> (u_callbacks u = true \/ exists s0, process_running (set_process s (sleep (t_os s) (u_before u)) (t_process s)) = (false, s0)) ->
  exists s', tick s u = Ok s' /\ t_process s' = None /\ Inv true base s' /\ t_lost s' = t_lost s.
Proof.
  intros H Hd. destruct (tick_inv _ _ _ u H) as (s' & E & H' & K). exists s'. split; [exact E|]. split; [|split; [exact H'|exact (proj1 (proj2 (proj2 (proj2 (proj2 (proj2 K))))))]].
  revert E. unfold tick. pose proof (sleep_inv _ _ _ (u_before u) H) as H1. destruct (running_inv _ _ _ H1) as (a & o & p & E & H2 & _). rewrite E.
  replace (negb a || u_callbacks u) with true.
  2:{ destruct Hd as [->|(s0 & Hd)]; [symmetry; apply Bool.orb_true_r|]. rewrite E in Hd. injection Hd as -> _. reflexivity. }
  destruct (stop_inv _ _ _ (u_sleeps u) H2) as (b2 & s4 & E4 & St4 & _). rewrite E4. cbn [obind snd]. intros X. injection X as <-. exact (proj1 St4).
Qed.
Lemma crash_noticed o s d r s1 u : reachable o T s -> do_call s (Dies d) = Ok (r, s1) ->
  not_ready s1 /\ exists s2, do_call s1 (Turn u) = Ok (Returned true, s2) /\ t_process s2 = None /\ not_ready s2 /\ (t_lost s = 0%nat -> same_table (files (t_os s2)) (files o)).
Proof.
  intros R E. pose proof (reachable_inv _ _ R) as H. cbn [do_call] in E. injection E as _ E. pose proof (sleep_inv _ _ _ (Some d) H) as H1. destruct (dead_looks _ _ d H) as (s0 & Ed).
  change (set_process s (sleep (t_os s) (Some d)) (t_process s) = s1) in E. rewrite E in *.
  split; [unfold not_ready, ready; rewrite Ed; eexists; reflexivity|].
  destruct (tick_stops _ s1 u H1) as (s2 & E2 & P2 & H2 & L2).
  { right. subst s1. cbn [set_process t_os t_process]. destruct (u_before u) as [d2|].
    - assert (Ess : sleep (sleep (t_os s) (Some d)) (Some d2) = sleep (t_os s) (Some d)).
      { unfold sleep at 2 3. destruct (the_child (t_os s)) as [c|] eqn:Ec; [destruct (c_life c) eqn:Lc|]; unfold sleep; cbn [the_child c_life]; rewrite ?Ec, ?Lc; reflexivity. }
      exists s0. rewrite <- Ed. f_equal. cbn [set_process t_os t_process]. rewrite Ess. reflexivity.
    - exists s0. rewrite sleep_none. exact Ed. }
  exists s2. cbn [do_call]. rewrite E2. cbn [obind]. split; [reflexivity|]. split; [exact P2|]. split; [exact (not_ready_of _ _ H2 (or_introl P2))|].
  intros L. destruct H2 as (_ & base' & Hl & H2). rewrite P2 in H2. refine (same_trans _ _ _ (proj1 H2) (Hl _)). rewrite L2, <- E. exact L.
Qed.
Lemma callback_stops o s u : reachable o T s -> u_callbacks u = true -> exists s2, do_call s (Turn u) = Ok (Returned true, s2) /\ t_process s2 = None /\ not_ready s2.
Proof.
  intros R Hu. pose proof (reachable_inv _ _ R) as H. destruct (tick_stops _ _ u H (or_introl Hu)) as (s2 & E2 & P2 & H2 & _). exists s2. cbn [do_call]. rewrite E2. cbn [obind].
  split; [reflexivity|]. split; [exact P2|exact (not_ready_of _ _ H2 (or_introl P2))].
Qed.
Lemma failure_not_ready o s c k a s' : reachable o T s -> call_ok c -> asks c = Some (k, a) -> answer_ok k a -> do_call s c = Ok (Returned false, s') -> not_ready s'.
Proof.
  intros R Hok As Ha E. pose proof (reachable_inv _ _ R) as H. destruct (needs_dec c) as [N|N]; [destruct (t_tracking s) eqn:Et|].
  - destruct (call_inv _ s c H Hok) as (r1 & s1 & E1 & H1 & _ & _ & F1 & _); [congruence|]. rewrite E in E1. injection E1 as <- <-. exact (not_ready_of _ _ H1 (F1 k a As Ha eq_refl)).
  - exfalso. destruct (ready_inv _ _ H) as (b & o2 & p2 & Er & _).
    destruct c; cbn [needs_tracking asks] in *; try (destruct N; fail); try discriminate As; cbn [do_call] in E; unfold frame, wait, continue in E; rewrite Er in E; cbn [obind] in E;
      (destruct b; [cbn [set_process t_tracking] in E; rewrite Et in E; discriminate E|discriminate E]).
  - destruct (call_inv _ s c H Hok) as (r1 & s1 & E1 & H1 & _ & _ & F1 & _); [contradiction|]. rewrite E in E1. injection E1 as <- <-. exact (not_ready_of _ _ H1 (F1 k a As Ha eq_refl)).
Qed.

(** ---- Lost processes ---- *)
Definition settled (s : tracker) : Prop := t_process s = None \/ alive_now s.
Lemma tick_settled base s u s' : Inv true base s -> tick s u = Ok s' -> settled s' /\ t_lost s' = t_lost s.
Proof.
  intros H E. destruct (tick_inv _ _ _ u H) as (s2 & E2 & _ & K). rewrite E in E2. injection E2 as <-. split; [|exact (proj1 (proj2 (proj2 (proj2 (proj2 (proj2 K))))))]. clear K.
  revert E. unfold tick. pose proof (sleep_inv _ _ _ (u_before u) H) as H1. destruct (running_inv _ _ _ H1) as (a & o & p & E & H2 & _ & Ha & _). rewrite E.
  assert (Stop : forall s3, Inv true base s3 -> (r <- stop_process s3 (u_sleeps u) ;; Ok (snd r)) = Ok s' -> settled s').
  { intros s3 H3 X. destruct (stop_inv _ _ _ (u_sleeps u) H3) as (b2 & s4 & E4 & St4 & _). rewrite E4 in X. cbn [obind snd] in X. injection X as <-. left. exact (proj1 St4). }
  destruct a; cbn [negb orb]; [|exact (Stop _ H2)]. destruct (u_callbacks u); [exact (Stop _ H2)|].
  assert (A : alive_now (set_process (set_process s (sleep (t_os s) (u_before u)) (t_process s)) o p)).
  { destruct (Ha eq_refl) as (p' & b' & Ep & St & _). exists p', b'. split; [exact Ep|exact St]. }
  match goal with |- (if 0 <? t_count ?q then _ else _) = _ -> _ => set (s2 := q) in * end.
  destruct (0 <? t_count s2); [|intros X; injection X as <-; right; exact A].
  destruct (t_count (set_count s2 (t_count s2 - 1)) =? 0); [refine (Stop _ _); exact H2|]. intros X. injection X as <-. right. exact A.
Qed.
Lemma ready_lost s b s' : ready s = Ok (b, s') -> t_lost s' = t_lost s.
Proof.
  unfold ready, process_running. destruct (t_process s) as [p|]; [|intros E; injection E as <- <-; reflexivity]. destruct (is_alive (t_os s) p) as [[[a st] o'] p'].
  destruct a; [cbn [set_process t_client]; destruct (t_client s) as [[]|]|]; intros E; try discriminate E; injection E as <- <-; reflexivity.
Qed.
Lemma start_lost base s l r s' : Inv true base s -> settled s -> launch_ok l -> start_process s l = Ok (r, s') -> t_lost s' = t_lost s.
Proof.
  intros H St Hl E. destruct (start_inv _ _ _ Hl H) as (r2 & s2 & E2 & _ & _ & _ & _ & _ & _ & L). rewrite E in E2. injection E2 as <- <-. destruct L as [L|L]; [exact L|].
  destruct St as [St|(p & b & Ep & (s0 & s3 & x & y & z & id & _ & _ & _ & Sd))]; [contradiction|]. unfold start_process, process_running in E. rewrite Ep, (look_alive _ _ _ _ _ _ _ Sd) in E. injection E as <- <-. reflexivity.
Qed.
Lemma ask_lost base s k a r s' : Inv true base s -> ask s k a = Ok (r, s') -> t_lost s' = t_lost s.
Proof. intros H E. destruct (ask_inv _ _ k a H) as (b & s2 & E2 & _ & _ & L & _). rewrite E in E2. injection E2 as _ E2. now rewrite E2. Qed.
Lemma continue_lost base s k a r s' : Inv true base s -> continue s k a = Ok (r, s') -> t_lost s' = t_lost s.
Proof.
  intros H. unfold continue. destruct (ready_inv _ _ H) as (b & o & p & Er & H1 & _). rewrite Er. cbn [obind]. destruct b; [|intros E; injection E as <- <-; reflexivity].
  destruct (t_tracking (set_process s o p)) as [[]|]; cbn [fetch obind]; intros E; try discriminate E; [|injection E as <- <-; reflexivity]. exact (ask_lost _ _ _ _ _ _ H1 E).
Qed.
Definition launches (c : call) : Prop := (exists l, c = Query l) \/ (exists l a, c = Initialize l a).
Lemma call_lost base s c r s' : Inv true base s -> call_ok c -> (launches c -> settled s) -> do_call s c = Ok (r, s') -> t_lost s' = t_lost s /\ (forall u, c = Turn u -> settled s').
Proof.
  intros H Hok Hs E. destruct c as [l|l a|a|a|x l| | |u|d]; cbn [do_call call_ok] in *.
  - split; [|discriminate]. exact (start_lost _ _ _ _ _ H (Hs (or_introl (ex_intro _ l eq_refl))) Hok E).
  - split; [|discriminate]. assert (St : settled s) by (apply Hs; right; eauto). unfold initialize in E. destruct (start_inv _ _ _ Hok H) as (r1 & s1 & E1 & H1 & _). rewrite E1 in E. cbn [obind] in E.
    pose proof (start_lost _ _ _ _ _ H St Hok E1) as L1. destruct r1; [|injection E as <- <-; exact L1]. destruct (ready_inv _ _ H1) as (b2 & o2 & p2 & Er & H2 & _). rewrite Er in E. cbn [obind] in E.
    destruct b2; [|injection E as <- <-; exact L1]. rewrite <- L1. exact (ask_lost base (set_tracking (set_process s1 o2 p2) false) _ _ _ _ H2 E).
  - split; [|discriminate]. exact (continue_lost _ _ _ _ _ _ H E).
  - split; [|discriminate]. exact (continue_lost _ _ _ _ _ _ H E).
  - split; [|discriminate]. unfold reset in E. destruct (stop_inv _ _ _ x H) as (b & s1 & E1 & St & H1). rewrite E1 in E. cbn [obind snd] in E.
    rewrite (start_lost _ _ _ _ _ H1 (or_introl (proj1 St)) Hok E). exact (proj1 (proj2 (proj2 (proj2 (proj2 (proj2 (proj2 (proj2 St)))))))).
  - split; [|discriminate]. destruct (ready s) as [[b s1]| | |] eqn:Er; cbn [obind] in E; try discriminate E. injection E as <- <-. exact (ready_lost _ _ _ Er).
  - split; [|discriminate]. unfold is_tracking in E. destruct (ready s) as [[b s1]| | |] eqn:Er; cbn [obind] in E; try discriminate E. destruct b.
    + destruct (t_tracking s1); cbn [fetch obind] in E; [|discriminate E]. injection E as <- <-. exact (ready_lost _ _ _ Er).
    + cbn [obind] in E. injection E as <- <-. exact (ready_lost _ _ _ Er).
  - destruct (tick s u) as [s1| | |] eqn:Et; cbn [obind] in E; try discriminate E. injection E as <- <-. destruct (tick_settled _ _ _ _ H Et) as [A B]. auto.
  - split; [|discriminate]. injection E as <- <-. reflexivity.
Qed.
Lemma watched_lost base l : forall before s rs s', Inv true base s -> Forall call_ok l -> watched (before ++ l) -> (before = [] \/ (exists earlier u, before = earlier ++ [Turn u]) -> settled s) ->
  run s l = Ok (rs, s') -> t_lost s' = t_lost s.
Proof.
  induction l as [|c l IH]; intros before s rs s' H Hok W Hs E; cbn [run] in E; [injection E as <- <-; reflexivity|]. inversion_clear Hok as [|? ? Hc Hl].
  destruct (do_call s c) as [[r s1]| | |] eqn:Ec; cbn [obind fst snd] in E; try discriminate E. destruct (run s1 l) as [[rs2 s2]| | |] eqn:Er; cbn [obind fst snd] in E; try discriminate E. injection E as <- <-.
  assert (X : launches c -> settled s) by (intros La; apply Hs; exact (W before c l eq_refl La)). destruct (call_lost _ _ _ _ _ H Hc X Ec) as [L1 S1]. clear X. rewrite <- L1.
  refine (IH (before ++ [c]) s1 _ _ (proj1 (call_any _ _ _ _ _ H Hc Ec)) Hl _ _ Er); [rewrite <- app_assoc; exact W|].
  intros [X|(earlier & u & X)]; [destruct before; discriminate X|]. apply app_inj_tail in X. destruct X as [_ X]. exact (S1 u X).
Qed.

(** ---- Whole histories ---- *)
Lemma histories o explicit en pre l a post : in_int (T * 10) = true -> Forall call_ok (pre ++ Initialize l a :: post) -> Forall (fun c => ~ needs_tracking c) pre ->
  exists rs s r s1, run (tracker_create o explicit en T) pre = Ok (rs, s) /\ do_call s (Initialize l a) = Ok (r, s1) /\
    (r <> Threw -> exists rs' s2, run s1 post = Ok (rs', s2) /\ forall x, exists o', tracker_destroy s2 x = Ok o').
Proof.
  intros Hi Hok Hn. apply Forall_app in Hok. destruct Hok as [Hpre Hok]. inversion_clear Hok as [|? ? Hc Hpost]. pose proof (create_inv o explicit en Hi) as H.
  destruct (run_free _ _ _ H Hpre (or_intror Hn)) as (rs & s & E & H1). destruct (call_inv _ s (Initialize l a) H1 Hc) as (r & s1 & E1 & H2 & _ & _ & _ & T1); [intros []|].
  exists rs, s, r, s1. split; [exact E|]. split; [exact E1|]. intros Hr. destruct (run_free _ _ _ H2 Hpost (or_introl (T1 _ _ eq_refl Hr))) as (rs' & s2 & E2 & H3). exists rs', s2. split; [exact E2|].
  intros x. destruct (destroy_inv _ _ x H3) as (o' & Eo & _). exists o'. exact Eo.
Qed.
Lemma all_returned o explicit en calls rs s x : in_int (T * 10) = true -> Forall call_ok calls -> watched calls -> run (tracker_create o explicit en T) calls = Ok (rs, s) ->
  exists o', tracker_destroy s x = Ok o' /\ same_table (files o') (files o).
Proof.
  intros Hi Hok W E. pose proof (create_inv o explicit en Hi) as H. destruct (run_any _ _ _ _ _ H Hok E) as [H1 _]. destruct (destroy_inv _ _ x H1) as (o' & Eo & So). exists o'. split; [exact Eo|]. apply So.
  exact (watched_lost _ _ [] _ _ _ H Hok W (fun _ => or_introl eq_refl) E).
Qed.
Lemma frames_in_order o explicit en calls rs s : in_int (T * 10) = true -> Forall call_ok calls -> Forall no_bare_launch calls -> run (tracker_create o explicit en T) calls = Ok (rs, s) -> in_order (t_events s).
Proof.
  intros Hi Hok Hn E. destruct (run_any _ _ _ _ _ (create_inv o explicit en Hi) Hok E) as [_ O]. refine (proj1 (O _ Hn)). split; [intros [|? ?] ? ? X; discriminate X|discriminate].
Qed.
Lemma start_in_time_r o s s0 l id v : reachable o T s -> process_running s = (false, s0) -> launch_ok l -> spawned (l_answers l) = Some id -> l_first l = None ->
  Forall calm (l_waiting l) -> T <= 0 \/ Z.of_nat (List.length (l_waiting l)) < T * 10 -> l_version l = Some v -> v <= 4 ->
  exists s', do_call s (Query l) = Ok (Returned true, s') /\ is_ready s'.
Proof. intros R. exact (start_in_time _ _ _ _ _ _ (reachable_inv _ _ R)). Qed.
Lemma start_late_r o s s0 l id : reachable o T s -> process_running s = (false, s0) -> launch_ok l -> spawned (l_answers l) = Some id -> l_first l = None ->
  Forall calm (l_waiting l) -> 0 < T -> T * 10 <= Z.of_nat (List.length (l_waiting l)) ->
  exists s', do_call s (Query l) = Ok (Threw, s') /\ t_process s' = None /\ not_ready s'.
Proof. intros R. exact (start_late _ _ _ _ _ (reachable_inv _ _ R)). Qed.
End Timeout.

Lemma long_timeout o explicit en n l a : 214748364 < n -> launch_ok l -> spawned (l_answers l) <> None -> l_first l = None ->
  do_call (tracker_create o explicit en n) (Initialize l a) = UB.
Proof.
  intros Hn (Hp & Hid & Ha) Hs Hf. destruct (spawned (l_answers l)) as [id|] eqn:Es; [|congruence]. cbn [do_call]. unfold initialize, start_process, process_running.
  cbn [tracker_create t_process set_client set_lost t_os t_explicit t_env]. change (with_env (process_create explicit) en) with (prepared explicit en).
  destruct (start_ok o explicit en (l_answers l) id Hp Es) as (s3 & x & y & z & t & _ & _ & _ & E). rewrite E. cbn [obind]. rewrite Hf, sleep_none.
  cbn [record set_process t_process t_os]. rewrite (look_alive _ _ _ _ _ _ _ (launched_steady _ _ _ _ _ _ _ _ _)). unfold connect, start_watchdog, int_result.
  cbn [set_process record set_client set_lost tracker_create t_timeout]. replace (in_int (n * 10)) with false; [reflexivity|]. symmetry. unfold in_int, INT_MIN, INT_MAX. lia.
Qed.
