(** Proofs about the recursive mutex. *)
From Verif Require Import CBase Lists ListsSpec ListsProofs Mutex MutexSpec.
Local Open Scope Z_scope.

Definition outer (d : nat) : bool := negb (d =? 0)%nat.
Definition holds (d : nat) (p : pc) : bool :=
  match p with
  | Idle | AEq1 | REq1 => outer d
  | AEq2 | AEq3 | REq2 | REq3 | ALock => false
  | _ => true
  end.
Definition owns (d : nat) (p : pc) : bool := match p with AOwner | RUnlock => false | _ => holds d p end.
Definition pcinv (c : Z) (d : nat) (p : pc) : Prop :=
  match p with
  | Idle | AEq1 | REq1 => (0 < d)%nat -> c = Z.of_nat d
  | AEq2 | AEq3 | REq2 | REq3 | ALock | AOwner | AZero => d = 0%nat
  | ARead => c = Z.of_nat d
  | AWrite x => x = Z.of_nat d
  | RRead => (0 < d)%nat /\ c = Z.of_nat d
  | RWrite x => (0 < d)%nat /\ x = Z.of_nat d
  | RTest => (0 < d)%nat /\ c = Z.of_nat d - 1
  | ROwner | RUnlock => d = 1%nat
  end.
Definition tinv (s : mstate) (t : thread) : Prop :=
  let d := depth (tid t) (history s) in
  (holder s = Some (tid t) <-> holds d (at_pc t) = true) /\ (owner s = tid t <-> owns d (at_pc t) = true) /\ pcinv (counter s) d (at_pc t).
Record minv (s : mstate) : Prop := mkMinv {
  mi_nodup : NoDup (map tid (threads s));
  mi_tid : forall t, In t (threads s) -> tid t <> THREAD_NONE;
  mi_thread : forall t, In t (threads s) -> tinv s t;
  mi_holder : forall h, holder s = Some h -> In h (map tid (threads s));
  mi_history : forall u c, In (u, c) (history s) -> In u (map tid (threads s))
}.

Lemma owns_holds d p : owns d p = true -> holds d p = true.
Proof. destruct p; cbn [owns holds]; auto; discriminate. Qed.
Lemma pcinv_count c c' d p : holds d p = false -> pcinv c d p -> pcinv c' d p.
Proof. destruct p; cbn [holds pcinv]; unfold outer; try discriminate; auto; intros H _ Hd; destruct (Nat.eqb_spec d 0); cbn in H; try discriminate; lia. Qed.

(** what a step of thread [t] may change *)
Definition allowed (s s' : mstate) (t : nat) : Prop :=
  (holder s' = holder s \/ (holder s = None /\ holder s' = Some t) \/ (holder s = Some t /\ holder s' = None)) /\
  (owner s' = owner s \/ (holder s = Some t /\ (owner s' = t \/ owner s' = THREAD_NONE))) /\
  (counter s' = counter s \/ holder s = Some t) /\
  (history s' = history s \/ exists c, history s' = (t, c) :: history s).
Lemma other_inv s s' t u : allowed s s' t -> tid u <> t -> tid u <> THREAD_NONE -> tinv s u -> tinv s' u.
Proof.
  intros (A & B & C & D) Hne H0 (Hh & Ho & Hp). assert (Hd : depth (tid u) (history s') = depth (tid u) (history s)).
  { destruct D as [->|(c & ->)]; [reflexivity|]. cbn [depth]. destruct (Nat.eqb_spec t (tid u)); [congruence|reflexivity]. }
  unfold tinv. rewrite Hd. set (d := depth (tid u) (history s)) in *. clearbody d.
  assert (Hn : holder s = Some t -> holds d (at_pc u) = false).
  { intros E. destruct (holds d (at_pc u)) eqn:K; [|reflexivity]. pose proof (proj2 Hh eq_refl). congruence. }
  assert (Hn2 : holder s = Some t -> owns d (at_pc u) = false).
  { intros E. destruct (owns d (at_pc u)) eqn:K; [|reflexivity]. apply owns_holds in K. rewrite (Hn E) in K. discriminate. }
  split; [|split].
  - destruct A as [->|[(E & ->)|(E & ->)]]; [exact Hh| |].
    + split; intros K; [congruence|]. apply Hh in K. congruence.
    + rewrite (Hn E). split; discriminate.
  - destruct B as [->|(E & [->| ->])]; [exact Ho| |]; rewrite (Hn2 E); split; congruence.
  - destruct C as [->|E]; [exact Hp|]. eapply pcinv_count; [exact (Hn E)|exact Hp].
Qed.

Lemma set_thread s i t p : nth_error (threads s) i = Some t -> set_cell (threads s) i p = Ok (update (threads s) i p).
Proof. intros H. apply set_cell_ok. apply nth_error_Some. congruence. Qed.
Lemma map_tid l i t t' : nth_error l i = Some t -> tid t' = tid t -> map tid (update l i t') = map tid l.
Proof. revert i. induction l as [|x l IH]; intros [|i] H E; try discriminate; cbn [nth_error] in H; [injection H as ->; cbn; now rewrite E|]. cbn [update map]. f_equal. now apply IH. Qed.
Lemma in_update l i (t t' u : thread) : nth_error l i = Some t -> NoDup (map tid l) -> tid t' = tid t -> In u (update l i t') -> u = t' \/ (In u l /\ tid u <> tid t).
Proof.
  revert i. induction l as [|x l IH]; intros [|i] H N E U; try discriminate; cbn [nth_error] in H.
  - injection H as ->. cbn [update map] in *. destruct U as [<-|U]; [now left|]. right. split; [now right|]. inversion N; subst. intros K. apply H1. rewrite <- K. now apply in_map.
  - cbn [update map] in *. inversion N; subst. destruct U as [<-|U].
    + right. split; [now left|]. intros K. apply H2. rewrite K. apply in_map. now apply nth_error_In in H.
    + destruct (IH i H H3 E U) as [|(A & B)]; [now left|right]. split; [now right|exact B].
Qed.
Lemma keep_inv s i t t' h o c hist : minv s -> nth_error (threads s) i = Some t -> tid t' = tid t ->
  allowed s (mkM h o c (update (threads s) i t') hist) (tid t) -> tinv (mkM h o c (update (threads s) i t') hist) t' ->
  minv (mkM h o c (update (threads s) i t') hist).
Proof.
  intros I E Et A T. pose proof (nth_error_In _ _ E) as Hin. constructor; cbn [threads holder history].
  - rewrite (map_tid _ _ _ _ E Et). apply (mi_nodup _ I).
  - intros u U. destruct (in_update _ _ _ _ _ E (mi_nodup _ I) Et U) as [->|(U' & _)]; [rewrite Et|]; eapply mi_tid; eauto.
  - intros u U. destruct (in_update _ _ _ _ _ E (mi_nodup _ I) Et U) as [->|(U' & N)]; [exact T|]. eapply other_inv; [exact A|exact N|eapply mi_tid; eauto|eapply mi_thread; eauto].
  - intros k K. rewrite (map_tid _ _ _ _ E Et). destruct A as ([A|[(_ & A)|(_ & A)]] & _); cbn [holder] in A; rewrite A in K.
    + now apply (mi_holder _ I).
    + injection K as <-. now apply in_map.
    + discriminate.
  - intros u k K. rewrite (map_tid _ _ _ _ E Et). destruct A as (_ & _ & _ & [A|(k' & A)]); cbn [history] in A; rewrite A in K.
    + eapply mi_history; eauto.
    + destruct K as [K|K]; [injection K as <- <-; now apply in_map|eapply mi_history; eauto].
Qed.

Lemma depth_ret t h c : depth t ((t, c) :: h) = match c with Acquire => S (depth t h) | Release => pred (depth t h) end.
Proof. cbn [depth]. now rewrite Nat.eqb_refl. Qed.

Ltac split_iff := match goal with |- _ <-> _ => split; intros ?K end.
Lemma step_inv s i : minv s -> exists r, step s i = Ok r /\ match r with Some s' => minv s' /\ map tid (threads s') = map tid (threads s) | None => True end.
Proof.
  intros I. unfold step. destruct (nth_error (threads s) i) as [t|] eqn:E; [|exists None; split; [reflexivity|constructor]].
  pose proof (mi_thread _ I t (nth_error_In _ _ E)) as (Hh & Ho & Hp). pose proof (mi_tid _ I t (nth_error_In _ _ E)) as H0.
  assert (R : forall t' h o c hist, tid t' = tid t -> allowed s (mkM h o c (update (threads s) i t') hist) (tid t) -> tinv (mkM h o c (update (threads s) i t') hist) t' ->
    exists r, (Ok (Some (mkM h o c (update (threads s) i t') hist)) : outcome (option mstate)) = Ok r /\ match r with Some s' => minv s' /\ map tid (threads s') = map tid (threads s) | None => True end).
  { intros t' h o c hist Et A T. eexists. split; [reflexivity|]. split; [eapply keep_inv; eassumption|]. cbn [threads]. eapply map_tid; eassumption. }
  assert (NR : forall P : mstate -> Prop, exists r, (Ok None : outcome (option mstate)) = Ok r /\ match r with Some s' => P s' | None => True end) by (intros P; now exists None).
  unfold goto, return_call, set_holder, set_owner, set_count. cbn [threads holder owner counter history].
  set (d := depth (tid t) (history s)) in *.
  destruct (at_pc t) eqn:P; cbn [holds owns pcinv] in *.
  - destruct (todo t) as [|c rest]; [apply NR|]. rewrite (set_thread _ _ _ _ E). cbn [obind]. apply R; [reflexivity| |].
    + repeat split; cbn [holder owner counter history]; auto.
    + unfold tinv. cbn [tid at_pc holder owner counter history]. fold d. destruct c; cbn [holds owns pcinv]; auto.
  - rewrite (set_thread _ _ _ _ E). cbn [obind]. apply R; [reflexivity| |].
    + repeat split; cbn [holder owner counter history]; auto.
    + unfold tinv. cbn [tid at_pc holder owner counter history]. fold d. destruct (Nat.eqb_spec (tid t) (owner s)) as [K|K]; cbn [holds owns pcinv].
      * symmetry in K. pose proof (proj1 Ho K) as Q. unfold outer in *. destruct (Nat.eqb_spec d 0); [discriminate|]. repeat split; auto; [intros _; now apply Hh|]. apply Hp. lia.
      * assert (d = 0%nat) by (destruct (Nat.eqb_spec d 0); [assumption|]; exfalso; apply K; symmetry; apply Ho; unfold outer; destruct (Nat.eqb_spec d 0); [lia|reflexivity]).
        unfold outer in *. rewrite H in *. cbn in Hh, Ho. repeat split; auto; intros Q; first [discriminate|now apply Hh in Q|now apply Ho in Q].
  - rewrite (set_thread _ _ _ _ E). cbn [obind]. apply R; [reflexivity| |].
    + repeat split; cbn [holder owner counter history]; auto.
    + unfold tinv. cbn [tid at_pc holder owner counter history]. fold d. destruct (Nat.eqb_spec (owner s) THREAD_NONE) as [K|K]; cbn [holds owns pcinv]; auto.
  - rewrite (set_thread _ _ _ _ E). cbn [obind]. apply R; [reflexivity| |].
    + repeat split; cbn [holder owner counter history]; auto.
    + unfold tinv. cbn [tid at_pc holder owner counter history]. fold d. destruct (Nat.eqb_spec (tid t) (owner s)) as [K|K]; cbn [holds owns pcinv]; auto.
      symmetry in K. apply Ho in K. discriminate.
  - destruct (holder s) as [h|] eqn:Hd; [apply NR|]. rewrite (set_thread _ _ _ _ E). cbn [obind]. apply R; [reflexivity| |].
    + repeat split; cbn [holder owner counter history]; auto.
    + unfold tinv. cbn [tid at_pc holder owner counter history]. fold d. cbn [holds owns pcinv]. repeat split; auto; intros Q; first [discriminate|now apply Ho in Q].
  - rewrite (set_thread _ _ _ _ E). cbn [obind]. pose proof (proj2 Hh eq_refl) as Hd. apply R; [reflexivity| |].
    + repeat split; cbn [holder owner counter history]; auto.
    + unfold tinv. cbn [tid at_pc holder owner counter history]. fold d. cbn [holds owns pcinv]. repeat split; auto.
  - rewrite (set_thread _ _ _ _ E). cbn [obind]. pose proof (proj2 Hh eq_refl) as Hd. apply R; [reflexivity| |].
    + repeat split; cbn [holder owner counter history]; auto.
    + unfold tinv. cbn [tid at_pc holder owner counter history]. fold d. cbn [holds owns pcinv]. rewrite Hp. repeat split; auto; intros _; first [now apply Ho|now apply Hh].
  - rewrite (set_thread _ _ _ _ E). cbn [obind]. apply R; [reflexivity| |].
    + repeat split; cbn [holder owner counter history]; auto.
    + unfold tinv. cbn [tid at_pc holder owner counter history]. fold d. cbn [holds owns pcinv]. auto.
  - rewrite (set_thread _ _ _ _ E). cbn [obind]. pose proof (proj2 Hh eq_refl) as Hd. apply R; [reflexivity| |].
    + repeat split; cbn [holder owner counter history]; eauto.
    + unfold tinv. cbn [tid at_pc holder owner counter history]. rewrite depth_ret. fold d. cbn [holds owns pcinv outer Nat.eqb negb]. repeat split; auto; intros; first [now apply Ho|lia].
  - rewrite (set_thread _ _ _ _ E). cbn [obind]. apply R; [reflexivity| |].
    + repeat split; cbn [holder owner counter history]; auto.
    + unfold tinv. cbn [tid at_pc holder owner counter history]. fold d. destruct (Nat.eqb_spec (tid t) (owner s)) as [K|K]; cbn [holds owns pcinv].
      * symmetry in K. pose proof (proj1 Ho K) as Q. unfold outer in *. destruct (Nat.eqb_spec d 0); [discriminate|]. repeat split; auto; [intros _; now apply Hh|lia|apply Hp; lia].
      * assert (d = 0%nat) by (destruct (Nat.eqb_spec d 0); [assumption|]; exfalso; apply K; symmetry; apply Ho; unfold outer; destruct (Nat.eqb_spec d 0); [lia|reflexivity]).
        unfold outer in *. rewrite H in *. cbn in Hh, Ho. repeat split; auto; intros Q; first [discriminate|now apply Hh in Q|now apply Ho in Q].
  - destruct (owner s =? THREAD_NONE)%nat; rewrite (set_thread _ _ _ _ E); cbn [obind]; (apply R; [reflexivity| |]).
    + repeat split; cbn [holder owner counter history]; eauto.
    + unfold tinv. cbn [tid at_pc holder owner counter history]. rewrite depth_ret. fold d. rewrite Hp. cbn [holds owns pcinv outer Nat.eqb negb pred]. repeat split; auto; try (intros Q; first [now apply Hh in Q|now apply Ho in Q|discriminate|lia]).
    + repeat split; cbn [holder owner counter history]; auto.
    + unfold tinv. cbn [tid at_pc holder owner counter history]. fold d. cbn [holds owns pcinv]. auto.
  - destruct (Nat.eqb_spec (tid t) (owner s)) as [K|K]; [symmetry in K; apply Ho in K; discriminate|]. rewrite (set_thread _ _ _ _ E); cbn [obind]; (apply R; [reflexivity| |]).
    + repeat split; cbn [holder owner counter history]; eauto.
    + unfold tinv. cbn [tid at_pc holder owner counter history]. rewrite depth_ret. fold d. rewrite Hp. cbn [holds owns pcinv outer Nat.eqb negb pred]. repeat split; auto; try (intros Q; first [now apply Hh in Q|now apply Ho in Q|discriminate|lia]).
  - rewrite (set_thread _ _ _ _ E). cbn [obind]. apply R; [reflexivity| |].
    + repeat split; cbn [holder owner counter history]; auto.
    + unfold tinv. cbn [tid at_pc holder owner counter history]. fold d. cbn [holds owns pcinv]. auto.
  - rewrite (set_thread _ _ _ _ E). cbn [obind]. pose proof (proj2 Hh eq_refl) as Hd. apply R; [reflexivity| |].
    + repeat split; cbn [holder owner counter history]; auto.
    + unfold tinv. cbn [tid at_pc holder owner counter history]. fold d. cbn [holds owns pcinv]. destruct Hp as (Hp1 & Hp2). split; [exact (conj (fun _ => eq_refl) (fun _ => Hd))|]. split; [exact Ho|]. split; [exact Hp1|lia].
  - destruct Hp as (Hp1 & Hp2). pose proof (proj2 Hh eq_refl) as Hd. pose proof (proj2 Ho eq_refl) as Hw. destruct (counter s <? 1) eqn:L; rewrite (set_thread _ _ _ _ E); cbn [obind]; (apply R; [reflexivity| |]).
    + repeat split; cbn [holder owner counter history]; auto.
    + unfold tinv. cbn [tid at_pc holder owner counter history]. fold d. cbn [holds owns pcinv]. split; [exact Hh|]. split; [exact Ho|]. lia.
    + repeat split; cbn [holder owner counter history]; eauto.
    + unfold tinv. cbn [tid at_pc holder owner counter history]. rewrite depth_ret. fold d. cbn [holds owns pcinv]. unfold outer. destruct d as [|[|d']]; [lia|lia|]. cbn [pred Nat.eqb negb]. repeat split; auto. lia.
  - rewrite (set_thread _ _ _ _ E). cbn [obind]. pose proof (proj2 Hh eq_refl) as Hd. apply R; [reflexivity| |].
    + repeat split; cbn [holder owner counter history]; auto.
    + unfold tinv. cbn [tid at_pc holder owner counter history]. fold d. cbn [holds owns pcinv]. split; [exact Hh|]. split; [|exact Hp]. split; [|discriminate]. intros Q. congruence.
  - pose proof (proj2 Hh eq_refl) as Hd. rewrite Hd, Nat.eqb_refl, (set_thread _ _ _ _ E). cbn [obind]. apply R; [reflexivity| |].
    + repeat split; cbn [holder owner counter history]; eauto.
    + unfold tinv. cbn [tid at_pc holder owner counter history]. rewrite depth_ret. fold d. rewrite Hp. cbn [holds owns pcinv outer Nat.eqb negb pred]. repeat split; try discriminate; try lia.
Qed.

Lemma start_tids programs : map tid (start_threads programs) = seq 1 (List.length programs).
Proof.
  unfold start_threads. rewrite map_map. cbn [tid]. rewrite <- seq_shift. generalize (seq 0 (List.length programs)) as l, (eq_sym (seq_length (List.length programs) 0)).
  induction programs as [|p ps IH]; intros [|n l] E; cbn [List.length] in E; try discriminate; [reflexivity|]. cbn [combine map fst]. f_equal. apply IH. now injection E.
Qed.
Lemma start_idle programs t : In t (start_threads programs) -> at_pc t = Idle /\ In (todo t) programs.
Proof. unfold start_threads. intros H. apply in_map_iff in H. destruct H as ((n & p) & <- & H). split; [reflexivity|]. cbn [todo snd]. now apply in_combine_r in H. Qed.
Lemma start_inv programs : minv (start_mutex programs).
Proof.
  assert (T : forall t, In t (start_threads programs) -> tid t <> 0%nat).
  { intros t H K. apply (in_map tid) in H. rewrite start_tids in H. apply in_seq in H. lia. }
  constructor; cbn [start_mutex threads holder history]; try (intros; contradiction); try discriminate.
  - rewrite start_tids. apply seq_NoDup.
  - exact T.
  - intros t H. unfold tinv. cbn [start_mutex holder owner counter history]. destruct (start_idle _ _ H) as (-> & _). cbn [depth holds owns pcinv outer Nat.eqb negb].
    split; [split; discriminate|]. split; [|lia]. split; [|discriminate]. intros K. exfalso. exact (T t H (eq_sym K)).
Qed.
Lemma run_inv schedule : forall s, minv s -> exists s', run s schedule = Ok s' /\ minv s' /\ map tid (threads s') = map tid (threads s).
Proof.
  induction schedule as [|i schedule IH]; intros s I; cbn [run]; [eauto|]. destruct (step_inv s i I) as (r & -> & R). cbn [obind].
  destruct r as [s1|]; [|now apply IH]. destruct R as (I1 & T1). destruct (IH s1 I1) as (s' & E & I' & T'). exists s'. split; [exact E|]. split; [exact I'|]. congruence.
Qed.
Lemma reached_inv programs s : reached programs s -> minv s.
Proof. intros (sch & E). destruct (run_inv sch _ (start_inv programs)) as (s' & E' & I & _). rewrite E in E'. now injection E' as ->. Qed.

Lemma depth_in t h : (0 < depth t h)%nat -> exists c, In (t, c) h.
Proof.
  induction h as [|(u & c) h IH]; cbn [depth]; [lia|]. destruct (Nat.eqb_spec u t) as [->|N].
  - intros _. exists c. now left.
  - intros H. destruct (IH H) as (c' & K). exists c'. now right.
Qed.
Lemma inside_holds s t : minv s -> (0 < depth t (history s))%nat -> holder s = Some t.
Proof.
  intros I H. destruct (depth_in _ _ H) as (c & K). apply (mi_history _ I) in K. apply in_map_iff in K. destruct K as (x & <- & K).
  destruct (mi_thread _ I x K) as (Hh & _ & Hp). apply Hh. unfold outer in *. destruct (at_pc x); cbn [holds pcinv] in *; try lia; auto; unfold outer; destruct (Nat.eqb_spec (depth (tid x) (history s)) 0); auto; lia.
Qed.
Theorem exclusion programs s t u : reached programs s -> (0 < depth t (history s))%nat -> (0 < depth u (history s))%nat -> t = u.
Proof. intros R A B. apply reached_inv in R. pose proof (inside_holds s t R A). pose proof (inside_holds s u R B). congruence. Qed.

Lemma step_some s i t : minv s -> nth_error (threads s) i = Some t -> ~ finished t -> (at_pc t = ALock -> holder s = None) -> exists s', step s i = Ok (Some s').
Proof.
  intros I E F L. destruct (step_inv s i I) as (r & S & _). destruct r as [s'|]; [eauto|]. exfalso. revert S. unfold step. rewrite E.
  unfold goto, return_call, set_holder, set_owner, set_count. cbn [threads holder owner counter history]. rewrite ?(set_thread _ _ _ _ E). unfold finished in F.
  destruct (at_pc t); cbn [obind]; try discriminate.
  - destruct (todo t); [exfalso; auto|]. rewrite (set_thread _ _ _ _ E). discriminate.
  - rewrite L by reflexivity. rewrite ?(set_thread _ _ _ _ E). discriminate.
  - destruct (_ =? _)%nat; discriminate.
  - destruct (_ =? _)%nat; discriminate.
  - destruct (_ <? _); discriminate.
  - destruct (holder s) as [h|]; [destruct (h =? tid t)%nat|]; discriminate.
Qed.
Theorem reentrant programs s i t : reached programs s -> nth_error (threads s) i = Some t -> (0 < depth (tid t) (history s))%nat -> ~ finished t ->
  exists s', step s i = Ok (Some s').
Proof.
  intros R E D F. apply reached_inv in R. eapply step_some; eauto. intros P. exfalso. pose proof (nth_error_In _ _ E) as K.
  destruct (mi_thread _ R t K) as (_ & _ & Hp). rewrite P in Hp. cbn [pcinv] in Hp. lia.
Qed.
Theorem blocked programs s i t : reached programs s -> nth_error (threads s) i = Some t -> ~ finished t -> stuck s i ->
  exists u, In u (threads s) /\ tid u <> tid t /\ ((0 < depth (tid u) (history s))%nat \/ at_pc u <> Idle).
Proof.
  intros R E F S. apply reached_inv in R. unfold stuck in S. pose proof (nth_error_In _ _ E) as K. destruct (mi_thread _ R t K) as (Hh & _ & _).
  destruct (holder s) as [h|] eqn:H; [|destruct (step_some s i t R E F (fun _ => H)) as (s' & Q); congruence].
  pose proof (mi_holder _ R h H) as M. apply in_map_iff in M. destruct M as (u & <- & M). exists u. split; [exact M|].
  assert (P : at_pc t = ALock). { destruct (at_pc t) eqn:P; try reflexivity; destruct (step_some s i t R E F ltac:(congruence)) as (s' & Q); congruence. }
  rewrite P in Hh. cbn [holds] in Hh. split; [intros Q; rewrite Q in Hh; now apply proj1 in Hh; specialize (Hh eq_refl)|].
  destruct (mi_thread _ R u M) as (Uh & _ & _). apply proj1 in Uh. specialize (Uh H). destruct (at_pc u); cbn [holds] in Uh; try (right; discriminate).
  left. unfold outer in Uh. destruct (Nat.eqb_spec (depth (tid u) (history s)) 0); [discriminate|lia].
Qed.
Theorem free_when_outside programs s : reached programs s -> quiet s -> (holder s = None <-> forall t, depth t (history s) = 0%nat).
Proof.
  intros R Q. apply reached_inv in R. split.
  - intros H t. destruct (depth t (history s)) eqn:D; [reflexivity|]. rewrite (inside_holds s t R ltac:(lia)) in H. discriminate.
  - intros H. destruct (holder s) as [h|] eqn:E; [|reflexivity]. pose proof (mi_holder _ R h E) as M. apply in_map_iff in M. destruct M as (u & <- & M).
    destruct (mi_thread _ R u M) as (Uh & _ & _). apply proj1 in Uh. specialize (Uh E). unfold quiet in Q. rewrite Forall_forall in Q. rewrite (Q u M), H in Uh. discriminate.
Qed.

(** progress *)
Definition pending (p : pc) : list call :=
  match p with
  | Idle => []
  | AEq1 | AEq2 | AEq3 | ALock | AOwner | AZero | ARead | AWrite _ => [Acquire]
  | _ => [Release]
  end.
Definition ends (s : mstate) (t : thread) : Prop := depth_after (depth (tid t) (history s)) (pending (at_pc t) ++ todo t) = 0%nat.
Definition weight (p : pc) : nat :=
  match p with
  | Idle => 0 | AEq1 => 8 | AEq2 => 7 | AEq3 => 6 | ALock => 5 | AOwner => 4 | AZero => 3 | ARead => 2 | AWrite _ => 1
  | REq1 => 8 | REq2 => 7 | REq3 => 6 | RRead => 5 | RWrite _ => 4 | RTest => 3 | ROwner => 2 | RUnlock => 1
  end.
Definition left_over (t : thread) : nat := (weight (at_pc t) + 9 * List.length (todo t))%nat.
Fixpoint total (l : list thread) : nat := match l with [] => 0 | t :: l' => left_over t + total l' end.
Lemma total_update l i t t' : nth_error l i = Some t -> (left_over t' < left_over t)%nat -> (total (update l i t') < total l)%nat.
Proof. revert i. induction l as [|x l IH]; intros [|i] E H; try discriminate; cbn [nth_error update total] in *; [injection E as ->; lia|]. specialize (IH i E H). lia. Qed.
Lemma step_shape s i s' : step s i = Ok (Some s') -> exists t t', nth_error (threads s) i = Some t /\ threads s' = update (threads s) i t' /\ tid t' = tid t /\
  (left_over t' < left_over t)%nat /\
  ((history s' = history s /\ pending (at_pc t') ++ todo t' = pending (at_pc t) ++ todo t) \/
   exists c, history s' = (tid t, c) :: history s /\ c :: pending (at_pc t') ++ todo t' = pending (at_pc t) ++ todo t).
Proof.
  unfold step. destruct (nth_error (threads s) i) as [t|] eqn:E; [|discriminate]. unfold goto, return_call, set_holder, set_owner, set_count. cbn [threads holder owner counter history].
  rewrite ?(set_thread _ _ _ _ E).
  assert (G : forall h o c hist t', tid t' = tid t -> (left_over t' < left_over t)%nat ->
     ((hist = history s /\ pending (at_pc t') ++ todo t' = pending (at_pc t) ++ todo t) \/ exists c, hist = (tid t, c) :: history s /\ c :: pending (at_pc t') ++ todo t' = pending (at_pc t) ++ todo t) ->
     (Ok (Some (mkM h o c (update (threads s) i t') hist)) : outcome (option mstate)) = Ok (Some s') -> exists t0 t', Some t = Some t0 /\ threads s' = update (threads s) i t' /\ tid t' = tid t0 /\ (left_over t' < left_over t0)%nat /\
  ((history s' = history s /\ pending (at_pc t') ++ todo t' = pending (at_pc t0) ++ todo t0) \/
   exists c, history s' = (tid t0, c) :: history s /\ c :: pending (at_pc t') ++ todo t' = pending (at_pc t0) ++ todo t0)).
  { intros h o c hist t' A B C H. injection H as <-. exists t, t'. repeat split; auto. }
  destruct (at_pc t) eqn:P; cbn [obind].
  all: try (apply G; [reflexivity|unfold left_over; cbn [at_pc todo]; rewrite ?P; repeat match goal with |- context [if ?b then _ else _] => destruct b end; cbn [weight]; lia|
    left; split; [reflexivity|]; cbn [at_pc todo]; rewrite ?P; repeat match goal with |- context [if ?b then _ else _] => destruct b end; reflexivity]).
  - destruct (todo t) as [|c rest] eqn:T; [discriminate|]. rewrite ?(set_thread _ _ _ _ E). cbn [obind]. apply G; [reflexivity| |].
    + unfold left_over. cbn [at_pc todo]. rewrite ?P, ?T. destruct c; cbn [weight List.length]; lia.
    + left. split; [reflexivity|]. cbn [at_pc todo]. destruct c; reflexivity.

  - destruct (holder s); [discriminate|]. rewrite ?(set_thread _ _ _ _ E). cbn [obind].
    apply G; [reflexivity|unfold left_over; cbn [at_pc todo]; rewrite ?P; cbn [weight]; lia|left; split; [reflexivity|cbn [at_pc todo]; rewrite ?P; reflexivity]].
  - apply G; [reflexivity|unfold left_over; cbn [at_pc todo]; rewrite ?P; cbn [weight]; lia|right; eexists; split; [reflexivity|cbn [at_pc todo]; rewrite ?P; reflexivity]].
  - destruct (_ =? _)%nat; cbn [obind]; (apply G; [reflexivity|unfold left_over; cbn [at_pc todo]; rewrite ?P; cbn [weight]; lia|]); [right; eexists; split; [reflexivity|cbn [at_pc todo]; rewrite ?P; reflexivity]|left; split; [reflexivity|cbn [at_pc todo]; rewrite ?P; reflexivity]].
  - destruct (_ =? _)%nat; cbn [obind]; (apply G; [reflexivity|unfold left_over; cbn [at_pc todo]; rewrite ?P; cbn [weight]; lia|]); [left; split; [reflexivity|cbn [at_pc todo]; rewrite ?P; reflexivity]|right; eexists; split; [reflexivity|cbn [at_pc todo]; rewrite ?P; reflexivity]].
  - destruct (_ <? _); cbn [obind]; (apply G; [reflexivity|unfold left_over; cbn [at_pc todo]; rewrite ?P; cbn [weight]; lia|]); [left; split; [reflexivity|cbn [at_pc todo]; rewrite ?P; reflexivity]|right; eexists; split; [reflexivity|cbn [at_pc todo]; rewrite ?P; reflexivity]].
  - destruct (holder s) as [h|]; [|discriminate]. destruct (h =? tid t)%nat; [|discriminate]. cbn [obind].
    apply G; [reflexivity|unfold left_over; cbn [at_pc todo]; rewrite ?P; cbn [weight]; lia|right; eexists; split; [reflexivity|cbn [at_pc todo]; rewrite ?P; reflexivity]].
Qed.
Lemma step_measure s i s' : step s i = Ok (Some s') -> (total (threads s') < total (threads s))%nat.
Proof. intros H. destruct (step_shape s i s' H) as (t & t' & E & -> & _ & L & _). eapply total_update; eassumption. Qed.
Lemma step_ends s i s' : minv s -> step s i = Ok (Some s') -> (forall t, In t (threads s) -> ends s t) -> forall t, In t (threads s') -> ends s' t.
Proof.
  intros I H A u U. destruct (step_shape s i s' H) as (t & t' & E & Th & Et & _ & D). rewrite Th in U. pose proof (A t (nth_error_In _ _ E)) as At.
  destruct (in_update _ _ _ _ _ E (mi_nodup _ I) Et U) as [->|(U' & N)].
  - unfold ends in *. rewrite Et. destruct D as [(-> & ->)|(c & -> & D)]; [exact At|]. rewrite depth_ret. rewrite <- D in At. destruct c; exact At.
  - unfold ends. replace (depth (tid u) (history s')) with (depth (tid u) (history s)); [now apply A|]. destruct D as [(-> & _)|(c & -> & _)]; [reflexivity|].
    cbn [depth]. destruct (Nat.eqb_spec (tid t) (tid u)); [congruence|reflexivity].
Qed.
Lemma run_ends schedule : forall s s', minv s -> (forall t, In t (threads s) -> ends s t) -> run s schedule = Ok s' -> forall t, In t (threads s') -> ends s' t.
Proof.
  induction schedule as [|i schedule IH]; intros s s' I A E; cbn [run] in E; [now injection E as <-|]. destruct (step_inv s i I) as (r & S & R). rewrite S in E. cbn [obind] in E.
  destruct r as [s1|]; [|eapply IH; eassumption]. destruct R as (I1 & _). eapply IH; [exact I1| |exact E]. exact (step_ends s i s1 I S A).
Qed.
Lemma start_ends programs : Forall balanced programs -> forall t, In t (threads (start_mutex programs)) -> ends (start_mutex programs) t.
Proof. intros B t H. cbn [start_mutex threads] in H. destruct (start_idle _ _ H) as (P & T). unfold ends. rewrite P. cbn [start_mutex history depth pending app]. rewrite Forall_forall in B. now apply B. Qed.

Lemma can_step s : minv s -> (forall t, In t (threads s) -> ends s t) -> Forall finished (threads s) \/ exists i s', step s i = Ok (Some s').
Proof.
  intros I A. destruct (Forall_Exists_dec (fun t => finished t) ) with (l := threads s) as [F|X].
  - intros t. unfold finished. destruct (at_pc t); try (right; intros (? & ?); discriminate). destruct (todo t); [now left|right; intros (? & ?); discriminate].
  - now left.
  - right. apply Exists_exists in X. destruct X as (t & Hin & F). destruct (holder s) as [h|] eqn:H.
    + pose proof (mi_holder _ I h H) as M. apply in_map_iff in M. destruct M as (u & <- & M). destruct (In_nth_error _ _ M) as (j & J). exists j.
      destruct (mi_thread _ I u M) as (Uh & _ & _). apply proj1 in Uh. specialize (Uh H). eapply step_some; eauto.
      * intros (P & T). pose proof (A u M) as Ue. unfold ends in Ue. rewrite P, T in Ue. cbn [pending app depth_after] in Ue. rewrite P, Ue in Uh. discriminate.
      * intros P. rewrite P in Uh. discriminate.
    + destruct (In_nth_error _ _ Hin) as (j & J). exists j. eapply step_some; eauto.
Qed.
Theorem no_deadlock programs s : Forall balanced programs -> reached programs s -> Forall finished (threads s) \/ exists i s', step s i = Ok (Some s').
Proof.
  intros B R. pose proof (reached_inv _ _ R) as I. destruct R as (sch & E). apply can_step; [exact I|]. eapply run_ends; [apply start_inv| |exact E]. now apply start_ends.
Qed.

Lemma busy_bound schedule : forall s, minv s -> (busy s schedule <= total (threads s))%nat.
Proof.
  induction schedule as [|i schedule IH]; intros s I; cbn [busy]; [lia|]. destruct (step_inv s i I) as (r & S & R). rewrite S. destruct r as [s'|]; [|now apply IH].
  pose proof (step_measure _ _ _ S). specialize (IH s' (proj1 R)). lia.
Qed.
Lemma total_start programs : total (start_threads programs) = (9 * list_sum (map (@List.length call) programs))%nat.
Proof.
  unfold start_threads. generalize (seq 0 (List.length programs)) as l, (eq_sym (seq_length (List.length programs) 0)).
  induction programs as [|p ps IH]; intros [|n l] E; cbn [List.length] in E; try discriminate; [reflexivity|]. cbn [combine map total list_sum fold_right]. injection E as E. rewrite (IH l E).
  unfold left_over. cbn [at_pc todo weight fst snd]. cbn [list_sum fold_right]. unfold list_sum. lia.
Qed.
Theorem bounded_steps programs schedule : (busy (start_mutex programs) schedule <= 9 * list_sum (map (@List.length call) programs))%nat.
Proof. rewrite <- total_start. exact (busy_bound schedule _ (start_inv programs)). Qed.

Lemma run_app a : forall b s, run s (a ++ b) = (s' <- run s a ;; run s' b).
Proof. induction a as [|i a IH]; intros b s; [reflexivity|]. cbn [app run]. destruct (step s i) as [r| | |]; cbn [obind]; try reflexivity. apply IH. Qed.
Theorem finishes programs s : Forall balanced programs -> reached programs s ->
  exists more s', run s more = Ok s' /\ Forall finished (threads s') /\ holder s' = None /\ forall t, depth t (history s') = 0%nat.
Proof.
  intros B. remember (total (threads s)) as n eqn:N. revert s N. induction n as [n IH] using lt_wf_ind. intros s N R. destruct (no_deadlock programs s B R) as [F|(i & s1 & S)].
  - exists [], s. split; [reflexivity|]. split; [exact F|]. pose proof (reached_inv _ _ R) as I.
    assert (D : forall t, depth t (history s) = 0%nat).
    { intros t. destruct (depth t (history s)) eqn:D; [reflexivity|]. destruct (depth_in t (history s) ltac:(lia)) as (c & K). apply (mi_history _ I) in K. apply in_map_iff in K. destruct K as (x & <- & K).
      destruct R as (sch & E). pose proof (run_ends sch _ _ (start_inv programs) (start_ends programs B) E x K) as X. unfold ends in X. rewrite Forall_forall in F. destruct (F x K) as (P & T). rewrite P, T in X. cbn [pending app depth_after] in X. congruence. }
    split; [|exact D]. apply (free_when_outside programs s R); [|exact D]. unfold quiet. eapply Forall_impl; [|exact F]. now intros t (P & _).
  - pose proof (step_measure _ _ _ S) as M. destruct (IH (total (threads s1)) ltac:(lia) s1 eq_refl) as (more & s' & E & Z).
    + destruct R as (sch & E). exists (sch ++ [i]). rewrite run_app, E. cbn [obind run]. now rewrite S.
    + exists (i :: more), s'. split; [|exact Z]. cbn [run]. now rewrite S.
Qed.

(** Lock *)
Lemma lock_steps_depth cs : forall (locked : bool) (d : nat), depth_after (if locked then S d else d) (snd (lock_steps locked cs)) = (if fst (lock_steps locked cs) then S d else d).
Proof.
  induction cs as [|c cs IH]; intros locked d; [reflexivity|]. cbn [lock_steps]. destruct (lock_step locked c) as (l1 & a) eqn:E. specialize (IH l1 d).
  destruct (lock_steps l1 cs) as (l2 & b). cbn [fst snd] in *. destruct c, locked; cbn [lock_step] in E; injection E as <- <-; exact IH.
Qed.
Lemma lock_steps_app a : forall b l, lock_steps l (a ++ b) = (fst (lock_steps (fst (lock_steps l a)) b), snd (lock_steps l a) ++ snd (lock_steps (fst (lock_steps l a)) b)).
Proof.
  induction a as [|c a IH]; intros b l; [cbn [app lock_steps fst snd]; now destruct (lock_steps l b)|]. cbn [app lock_steps]. destruct (lock_step l c) as (l1 & x). rewrite IH. destruct (lock_steps l1 a) as (l2 & y). cbn [fst snd]. destruct (lock_steps l2 b). cbn [fst snd]. now rewrite app_assoc.
Qed.
Theorem lock_scope cs d : depth_after d (lock_life cs) = d.
Proof.
  unfold lock_life. pose proof (lock_steps_depth (LockCall :: cs ++ [UnlockCall]) false d) as H. cbn match in H. rewrite H.
  change (LockCall :: cs ++ [UnlockCall]) with ((LockCall :: cs) ++ [UnlockCall]). rewrite lock_steps_app. cbn [fst]. destruct (fst (lock_steps false (LockCall :: cs))); reflexivity.
Qed.
Theorem lock_state cs d : depth_after d (snd (lock_steps false cs)) = (if fst (lock_steps false cs) then S d else d).
Proof. exact (lock_steps_depth cs false d). Qed.
