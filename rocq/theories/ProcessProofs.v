(** Proofs about child processes. *)
From Verif Require Import CBase Num StrMapProofs CommandProofs Process ProcessSpec.
Local Open Scope Z_scope.

(** ---- Descriptor tables ---- *)
Lemma get_set t n k m : fd_get (fd_set t n k) m = if (m =? n)%nat then k else fd_get t m.
Proof.
  unfold fd_get. revert n m. induction t as [|x t IH]; intros n.
  - induction n as [|n IHn]; intros [|m]; cbn [fd_set nth Nat.eqb]; try reflexivity.
    + now destruct m.
    + rewrite IHn. destruct (m =? n)%nat; [reflexivity|now destruct m].
  - destruct n as [|n]; intros [|m]; cbn [fd_set nth Nat.eqb]; try reflexivity. apply IH.
Qed.
Lemma get_new t k : let '(n, t') := fd_new t k in
  fd_get t n = None /\ (forall m, fd_get t' m = if (m =? n)%nat then Some k else fd_get t m) /\ (forall m, (m < n)%nat -> fd_get t m <> None).
Proof.
  unfold fd_get. induction t as [|[x|] t IH]; cbn [fd_new].
  - split; [reflexivity|]. split; [intros [|[|m]]; reflexivity|lia].
  - destruct (fd_new t k) as [n t']. destruct IH as (I1 & I2 & I3). cbn [fst snd]. split; [exact I1|]. split.
    + intros [|m]; [reflexivity|]. cbn [nth Nat.eqb]. apply I2.
    + intros [|m] H; [discriminate|]. cbn [nth]. apply I3. lia.
  - split; [reflexivity|]. split; [intros [|m]; reflexivity|lia].
Qed.

(** One pipe: two descriptors that were closed, the second above the first, everything below them open. *)
Lemma pipe_spec s : let '((r, w), s') := sys_pipe s in
  (r < w)%nat /\ fd_get (files s) r = None /\ fd_get (files s) w = None /\
  (forall m, fd_get (files s') m = if (m =? r)%nat then Some (ReadEnd (pipes s)) else if (m =? w)%nat then Some (WriteEnd (pipes s)) else fd_get (files s) m) /\
  (forall m, (m < w)%nat -> fd_get (files s') m <> None) /\ (forall m, (m < r)%nat -> fd_get (files s) m <> None) /\
  pipes s' = S (pipes s) /\ the_child s' = the_child s /\ signals s' = signals s.
Proof.
  unfold sys_pipe. pose proof (get_new (files s) (ReadEnd (pipes s))) as H1. destruct (fd_new (files s) _) as [r t1]. destruct H1 as (A1 & A2 & A3).
  pose proof (get_new t1 (WriteEnd (pipes s))) as H2. destruct (fd_new t1 _) as [w t2]. destruct H2 as (B1 & B2 & B3). cbn [files pipes the_child signals].
  assert (Hw : w <> r) by (intros ->; rewrite A2, Nat.eqb_refl in B1; discriminate).
  assert (Hrw : (r < w)%nat).
  { destruct (lt_dec w r) as [L|L]; [|lia]. exfalso. rewrite A2 in B1. destruct (Nat.eqb_spec w r); [lia|]. apply (A3 w L B1). }
  split; [exact Hrw|]. split; [exact A1|]. split.
  { rewrite A2 in B1. now destruct (Nat.eqb_spec w r). }
  split. { intros m. rewrite B2, A2. destruct (Nat.eqb_spec m w), (Nat.eqb_spec m r); try reflexivity. lia. }
  split. { intros m Hm. rewrite B2. destruct (Nat.eqb_spec m w); [discriminate|]. apply B3, Hm. }
  split; [exact A3|]. repeat split.
Qed.

(** The three pipes of a start. *)
Record three (s s3 : os) (o i e : nat * nat) : Prop := mkThree {
  th_order : (fst o < snd o < fst i)%nat /\ (fst i < snd i < fst e)%nat /\ (fst e < snd e)%nat;
  th_get : forall m, fd_get (files s3) m =
    if (m =? fst o)%nat then Some (ReadEnd (pipes s)) else if (m =? snd o)%nat then Some (WriteEnd (pipes s)) else
    if (m =? fst i)%nat then Some (ReadEnd (S (pipes s))) else if (m =? snd i)%nat then Some (WriteEnd (S (pipes s))) else
    if (m =? fst e)%nat then Some (ReadEnd (S (S (pipes s)))) else if (m =? snd e)%nat then Some (WriteEnd (S (S (pipes s)))) else fd_get (files s) m;
  th_free : forall m, In m [fst o; snd o; fst i; snd i; fst e; snd e] -> fd_get (files s) m = None;
  th_low : forall m, (m < fst o)%nat -> fd_get (files s) m <> None;
  th_rest : the_child s3 = the_child s /\ signals s3 = signals s
}.
Lemma three_pipes s : let '(o, s1) := sys_pipe s in let '(i, s2) := sys_pipe s1 in let '(e, s3) := sys_pipe s2 in three s s3 o i e.
Proof.
  pose proof (pipe_spec s) as P1. destruct (sys_pipe s) as [[o0 o1] s1]. destruct P1 as (A1 & A2 & A3 & A4 & A5 & A6 & A7 & A8 & A9).
  pose proof (pipe_spec s1) as P2. destruct (sys_pipe s1) as [[i0 i1] s2]. destruct P2 as (B1 & B2 & B3 & B4 & B5 & B6 & B7 & B8 & B9).
  pose proof (pipe_spec s2) as P3. destruct (sys_pipe s2) as [[e0 e1] s3]. destruct P3 as (C1 & C2 & C3 & C4 & C5 & C6 & C7 & C8 & C9).
  assert (O1 : (o1 < i0)%nat).
  { destruct (lt_dec o1 i0) as [L|L]; [exact L|exfalso]. destruct (Nat.eq_dec i0 o1) as [->|N].
    - rewrite A4 in B2. rewrite Nat.eqb_refl in B2. destruct (Nat.eqb_spec o1 o0); discriminate B2.
    - apply (A5 i0); [lia|exact B2]. }
  assert (O2 : (i1 < e0)%nat).
  { destruct (lt_dec i1 e0) as [L|L]; [exact L|exfalso]. destruct (Nat.eq_dec e0 i1) as [->|N].
    - rewrite B4 in C2. rewrite Nat.eqb_refl in C2. destruct (Nat.eqb_spec i1 i0); discriminate C2.
    - apply (B5 e0); [lia|exact C2]. }
  constructor; cbn [fst snd].
  - lia.
  - intros m. rewrite C4, B4, A4, B7, A7. 
    destruct (Nat.eqb_spec m e0), (Nat.eqb_spec m e1), (Nat.eqb_spec m i0), (Nat.eqb_spec m i1), (Nat.eqb_spec m o0), (Nat.eqb_spec m o1); try reflexivity; lia.
  - assert (F : forall m, (fd_get (files s1) m = None -> m <> o0 /\ m <> o1 /\ fd_get (files s) m = None) /\
                          (fd_get (files s2) m = None -> m <> i0 /\ m <> i1 /\ fd_get (files s1) m = None)).
    { intros m. rewrite B4, A4. split; intros H.
      - destruct (Nat.eqb_spec m o0), (Nat.eqb_spec m o1); try discriminate H; auto.
      - destruct (Nat.eqb_spec m i0), (Nat.eqb_spec m i1); try discriminate H; auto. }
    intros m [<-|[<-|[<-|[<-|[<-|[<-|[]]]]]]]; try assumption.
    + now apply F.
    + now apply F.
    + apply F, (F e0), C2.
    + apply F, (F e1), C3.
  - exact A6.
  - split; congruence.
Qed.

(** ---- Starting ---- *)
Lemma getenv_skip name e rest : names_ok e -> ~ In c_eq name -> unset name e ->
  getenv (map entry e ++ rest) name = getenv rest name.
Proof.
  unfold unset. intros Hk Hn Hu. induction Hk as [|[k v] e Hk1 Hk2 IH]; [reflexivity|]. cbn [map app getenv].
  destruct (starts_with (name ++ [c_eq]) (entry (k, v))) eqn:E.
  - exfalso. apply Hu. left. cbn [fst] in *. unfold entry in E. cbn [fst snd app] in E. clear - E Hk1 Hn. revert k Hk1 E. induction name as [|c name IH]; intros k Hk E.
    + destruct k as [|x k]; [reflexivity|]. cbn [app starts_with] in E. apply andb_true_iff in E as [E _]. apply N.eqb_eq in E. subst x. exfalso. apply Hk. now left.
    + destruct k as [|x k]; cbn [app starts_with] in E; apply andb_true_iff in E as [E1 E2]; apply N.eqb_eq in E1.
      * subst c. exfalso. apply Hn. now left.
      * subst x. f_equal. apply IH; [intros H; apply Hn; now right|intros H; apply Hk; now right|exact E2].
  - apply IH. intros H. apply Hu. now right.
Qed.

Ltac eqbs := repeat match goal with |- context [(?a =? ?b)%nat] => destruct (Nat.eqb_spec a b); try lia end.
Ltac eqbs_in H := repeat match type of H with context [(?a =? ?b)%nat] => destruct (Nat.eqb_spec a b); try lia end.

Lemma default_actions t o i e : (fst o < snd o < fst i)%nat -> (fst i < snd i < fst e)%nat -> (fst e < snd e)%nat ->
  forall ko ki ke, fd_get t (fst o) = Some ko -> fd_get t (snd i) = Some ki -> fd_get t (snd e) = Some ke ->
  exists t', perform_all t (spawn_actions false o i e) = Some t' /\ forall m, fd_get t' m =
    if (m =? 2)%nat then Some ke else if (m =? 1)%nat then Some ki else if (m =? 0)%nat then Some ko
    else if (m =? snd o)%nat || (m =? fst i)%nat || (m =? fst e)%nat then None else fd_get t m.
Proof.
  intros H1 H2 H3 ko ki ke G1 G2 G3. unfold spawn_actions. cbn [app perform_all perform].
  rewrite !get_set. replace (fst o =? fst e)%nat with false by (symmetry; apply Nat.eqb_neq; lia).
  replace (fst o =? fst i)%nat with false by (symmetry; apply Nat.eqb_neq; lia). replace (fst o =? snd o)%nat with false by (symmetry; apply Nat.eqb_neq; lia).
  rewrite G1. rewrite !get_set. replace (snd i =? 0)%nat with false by (symmetry; apply Nat.eqb_neq; lia).
  replace (snd i =? fst e)%nat with false by (symmetry; apply Nat.eqb_neq; lia). replace (snd i =? fst i)%nat with false by (symmetry; apply Nat.eqb_neq; lia).
  replace (snd i =? snd o)%nat with false by (symmetry; apply Nat.eqb_neq; lia). rewrite G2. rewrite !get_set.
  replace (snd e =? 0)%nat with false by (symmetry; apply Nat.eqb_neq; lia). replace (snd e =? 1)%nat with false by (symmetry; apply Nat.eqb_neq; lia).
  replace (snd e =? fst e)%nat with false by (symmetry; apply Nat.eqb_neq; lia). replace (snd e =? fst i)%nat with false by (symmetry; apply Nat.eqb_neq; lia).
  replace (snd e =? snd o)%nat with false by (symmetry; apply Nat.eqb_neq; lia). rewrite G3.
  eexists. split; [reflexivity|]. intros m. rewrite !get_set.
  destruct (m =? 2)%nat, (m =? 1)%nat, (m =? 0)%nat, (m =? snd o)%nat, (m =? fst i)%nat, (m =? fst e)%nat; reflexivity.
Qed.
Lemma explicit_actions t o i e : (fst o < snd o < fst i)%nat -> (fst i < snd i < fst e)%nat -> (fst e < snd e)%nat ->
  forall ke, fd_get t (snd e) = Some ke ->
  exists t', perform_all t (spawn_actions true o i e) = Some t' /\ forall m, fd_get t' m =
    if (m =? 2)%nat then Some ke else if (m =? snd o)%nat || (m =? fst i)%nat || (m =? fst e)%nat then None else fd_get t m.
Proof.
  intros H1 H2 H3 ke G3. unfold spawn_actions. cbn [app perform_all perform]. rewrite !get_set.
  replace (snd e =? fst e)%nat with false by (symmetry; apply Nat.eqb_neq; lia). replace (snd e =? fst i)%nat with false by (symmetry; apply Nat.eqb_neq; lia).
  replace (snd e =? snd o)%nat with false by (symmetry; apply Nat.eqb_neq; lia). rewrite G3.
  eexists. split; [reflexivity|]. intros m. rewrite !get_set.
  destruct (m =? 2)%nat, (m =? snd o)%nat, (m =? fst i)%nat, (m =? fst e)%nat; reflexivity.
Qed.

(** The state after a successful start *)
Definition launched (p : process) (id : Z) (o i e : nat * nat) : process :=
  mkProcess true (explicit_mode p) id (Some (-1)) (Some (Z.of_nat (snd o))) (Some (Z.of_nat (fst i))) (Some (Z.of_nat (fst e)))
            (pair_vars o) (pair_vars i) (pair_vars e) (Some true) (env p).
Lemma start_ok s explicit en a id : (3 <= pipes_possible a)%nat -> spawned a = Some id ->
  exists s3 o i e t, three s s3 o i e /\ perform_all (files s3) (spawn_actions explicit o i e) = Some t /\
    (forall m, fd_get t m = if (m =? 2)%nat then Some (WriteEnd (S (S (pipes s)))) else
       if negb explicit && (m =? 1)%nat then Some (WriteEnd (S (pipes s))) else if negb explicit && (m =? 0)%nat then Some (ReadEnd (pipes s))
       else if (m =? snd o)%nat || (m =? fst i)%nat || (m =? fst e)%nat then None else fd_get (files s3) m) /\
    process_start s (prepared explicit en) a =
      Ok (true, mkOs (files s3) (pipes s3) (Some (mkChild id t (spawn_vars (prepared explicit en) o i) Running)) (signals s3), launched (prepared explicit en) id o i e).
Proof.
  intros Hp Hs. unfold process_start. cbn [prepared with_env process_create running pid Z.eqb negb explicit_mode exit_status p_out p_in p_err env].
  destruct (pipes_possible a) as [|[|[|n]]]; try lia. pose proof (three_pipes s) as T.
  destruct (sys_pipe s) as [o s1]. destruct (sys_pipe s1) as [i s2]. destruct (sys_pipe s2) as [e s3]. rewrite Hs.
  pose proof (th_order _ _ _ _ _ T) as (O1 & O2 & O3). pose proof (th_get _ _ _ _ _ T) as G.
  assert (G1 : fd_get (files s3) (fst o) = Some (ReadEnd (pipes s))) by (rewrite G; eqbs; reflexivity).
  assert (G2 : fd_get (files s3) (snd i) = Some (WriteEnd (S (pipes s)))) by (rewrite G; eqbs; reflexivity).
  assert (G3 : fd_get (files s3) (snd e) = Some (WriteEnd (S (S (pipes s))))) by (rewrite G; eqbs; reflexivity).
  destruct explicit.
  - destruct (explicit_actions _ o i e O1 O2 O3 _ G3) as (t & Et & Gt). exists s3, o, i, e, t. rewrite Et.
    split; [exact T|]. split; [reflexivity|]. split; [|reflexivity]. intros m. rewrite Gt. cbn [negb andb]. reflexivity.
  - destruct (default_actions _ o i e O1 O2 O3 _ _ _ G1 G2 G3) as (t & Et & Gt). exists s3, o, i, e, t. rewrite Et.
    split; [exact T|]. split; [reflexivity|]. split; [|reflexivity]. intros m. rewrite Gt. cbn [negb andb]. reflexivity.
Qed.

Lemma streams_default s en a id : fresh_os s -> (3 <= pipes_possible a)%nat -> spawned a = Some id ->
  exists s' p' c inp outp errp, process_start s (prepared false en) a = Ok (true, s', p') /\
    the_child s' = Some c /\ c_pid c = id /\ c_life c = Running /\ c_vars c = map (fun kv => fst kv ++ [c_eq] ++ snd kv) en /\
    fd_get (c_files c) 0 = Some (ReadEnd inp) /\ fd_get (c_files c) 1 = Some (WriteEnd outp) /\ fd_get (c_files c) 2 = Some (WriteEnd errp) /\
    refers (files s') (get_input p') (WriteEnd inp) /\ refers (files s') (get_output p') (ReadEnd outp) /\ refers (files s') (get_error p') (ReadEnd errp) /\
    nowhere (c_files c) (WriteEnd inp) /\ nowhere (c_files c) (ReadEnd outp) /\ nowhere (c_files c) (ReadEnd errp) /\
    inp <> outp /\ inp <> errp /\ outp <> errp /\
    (forall m k, fd_get (files s) m = Some k -> fd_get (files s') m = Some k /\ ((2 < m)%nat -> fd_get (c_files c) m = Some k)).
Proof.
  intros (F1 & F2 & F3) Hp Hs. destruct (start_ok s false en a id Hp Hs) as (s3 & o & i & e & t & T & Et & Gt & E).
  destruct T as [(O1 & O2 & O3) G Fr Lo _]. cbn [negb andb] in Gt.
  assert (Old : forall m k, fd_get (files s) m = Some k -> m <> fst o /\ m <> snd o /\ m <> fst i /\ m <> snd i /\ m <> fst e /\ m <> snd e).
  { intros m k Hk. cbn [In] in Fr. repeat split; intros ->; rewrite Fr in Hk by auto 10; discriminate Hk. }
  eexists _, _, _, (pipes s), (S (pipes s)), (S (S (pipes s))). split; [exact E|]. cbn [the_child c_pid c_life c_vars c_files files].
  split; [reflexivity|]. split; [reflexivity|]. split; [reflexivity|].
  split. { unfold spawn_vars. cbn [explicit_mode prepared with_env process_create env]. now rewrite app_nil_r. }
  split. { rewrite Gt. eqbs; reflexivity. } split. { rewrite Gt. reflexivity. } split. { rewrite Gt. reflexivity. }
  split. { exists (snd o). split; [reflexivity|]. rewrite G. eqbs; reflexivity. }
  split. { exists (fst i). split; [reflexivity|]. rewrite G. eqbs; reflexivity. }
  split. { exists (fst e). split; [reflexivity|]. rewrite G. eqbs; reflexivity. }
  assert (NoOld : forall m k, fd_get (files s) m = Some k -> older (pipes s) k) by exact F3.
  split. { intros m Hm. rewrite Gt, G in Hm. repeat (match type of Hm with context [(?a =? ?b)%nat] => destruct (Nat.eqb_spec a b) end; cbn [orb] in Hm; try discriminate Hm; try lia);
    try (injection Hm; intros; lia); apply F3 in Hm; cbn [older] in Hm; lia. }
  split. { intros m Hm. rewrite Gt, G in Hm. repeat (match type of Hm with context [(?a =? ?b)%nat] => destruct (Nat.eqb_spec a b) end; cbn [orb] in Hm; try discriminate Hm; try lia);
    try (injection Hm; intros; lia); apply F3 in Hm; cbn [older] in Hm; lia. }
  split. { intros m Hm. rewrite Gt, G in Hm. repeat (match type of Hm with context [(?a =? ?b)%nat] => destruct (Nat.eqb_spec a b) end; cbn [orb] in Hm; try discriminate Hm; try lia);
    try (injection Hm; intros; lia); apply F3 in Hm; cbn [older] in Hm; lia. }
  split; [lia|]. split; [lia|]. split; [lia|].
  intros m k Hk. destruct (Old m k Hk) as (N1 & N2 & N3 & N4 & N5 & N6). 
  pose proof (proj2 (Nat.eqb_neq _ _) N1) as M1. pose proof (proj2 (Nat.eqb_neq _ _) N2) as M2. pose proof (proj2 (Nat.eqb_neq _ _) N3) as M3.
  pose proof (proj2 (Nat.eqb_neq _ _) N4) as M4. pose proof (proj2 (Nat.eqb_neq _ _) N5) as M5. pose proof (proj2 (Nat.eqb_neq _ _) N6) as M6.
  split; [rewrite G, M1, M2, M3, M4, M5, M6; exact Hk|]. intros Hm. rewrite Gt, G, M1, M2, M3, M4, M5, M6.
  replace (m =? 0)%nat with false by (symmetry; apply Nat.eqb_neq; clear - Hm; lia). replace (m =? 1)%nat with false by (symmetry; apply Nat.eqb_neq; clear - Hm; lia). replace (m =? 2)%nat with false by (symmetry; apply Nat.eqb_neq; clear - Hm; lia). exact Hk.
Qed.

Lemma streams_explicit s en a id k2 : fresh_os s -> (3 <= pipes_possible a)%nat -> spawned a = Some id ->
  fd_get (files s) 2 = Some k2 -> names_ok en -> unset (str "TRAX_IN") en -> unset (str "TRAX_OUT") en ->
  exists s' p' c inp outp errp fi fo, process_start s (prepared true en) a = Ok (true, s', p') /\
    the_child s' = Some c /\ c_pid c = id /\ c_life c = Running /\
    getenv (c_vars c) (str "TRAX_IN") = Some (print_Z (Z.of_nat fi)) /\ fd_get (c_files c) fi = Some (ReadEnd inp) /\
    getenv (c_vars c) (str "TRAX_OUT") = Some (print_Z (Z.of_nat fo)) /\ fd_get (c_files c) fo = Some (WriteEnd outp) /\
    fd_get (c_files c) 2 = Some (WriteEnd errp) /\
    refers (files s') (get_input p') (WriteEnd inp) /\ refers (files s') (get_output p') (ReadEnd outp) /\ refers (files s') (get_error p') (ReadEnd errp) /\
    nowhere (c_files c) (WriteEnd inp) /\ nowhere (c_files c) (ReadEnd outp) /\ nowhere (c_files c) (ReadEnd errp) /\
    inp <> outp /\ inp <> errp /\ outp <> errp /\
    (forall m k, fd_get (files s) m = Some k -> fd_get (files s') m = Some k /\ (m <> 2%nat -> fd_get (c_files c) m = Some k)).
Proof.
  intros (F1 & F2 & F3) Hp Hs H2 Hn Hi Ho. destruct (start_ok s true en a id Hp Hs) as (s3 & o & i & e & t & T & Et & Gt & E).
  destruct T as [(O1 & O2 & O3) G Fr Lo _]. cbn [negb andb] in Gt.
  assert (Old : forall m k, fd_get (files s) m = Some k -> m <> fst o /\ m <> snd o /\ m <> fst i /\ m <> snd i /\ m <> fst e /\ m <> snd e).
  { intros m k Hk. cbn [In] in Fr. repeat split; intros ->; rewrite Fr in Hk by auto 10; discriminate Hk. }
  destruct (Old _ _ H2) as (Q1 & Q2 & Q3 & Q4 & Q5 & Q6).
  eexists _, _, _, (pipes s), (S (pipes s)), (S (S (pipes s))), (fst o), (snd i). split; [exact E|]. cbn [the_child c_pid c_life c_vars c_files files].
  split; [reflexivity|]. split; [reflexivity|]. split; [reflexivity|].
  cbn [c_vars c_files].
  assert (V : spawn_vars (prepared true en) o i = map entry en ++ [str "TRAX_OUT=" ++ print_Z (Z.of_nat (snd i)); str "TRAX_IN=" ++ print_Z (Z.of_nat (fst o))]) by reflexivity.
  split. { rewrite V, getenv_skip by (try assumption; vm_compute; intuition discriminate). reflexivity. }
  split. { rewrite Gt, G. eqbs; reflexivity. }
  split. { rewrite V, getenv_skip by (try assumption; vm_compute; intuition discriminate). reflexivity. }
  split. { rewrite Gt, G. eqbs; reflexivity. }
  split. { rewrite Gt. reflexivity. }
  split. { exists (snd o). split; [reflexivity|]. rewrite G. eqbs; reflexivity. }
  split. { exists (fst i). split; [reflexivity|]. rewrite G. eqbs; reflexivity. }
  split. { exists (fst e). split; [reflexivity|]. rewrite G. eqbs; reflexivity. }
  split. { intros m Hm. rewrite Gt, G in Hm. repeat (match type of Hm with context [(?a =? ?b)%nat] => destruct (Nat.eqb_spec a b) end; cbn [orb] in Hm; try discriminate Hm; try lia);
    try (injection Hm; intros; lia); apply F3 in Hm; cbn [older] in Hm; lia. }
  split. { intros m Hm. rewrite Gt, G in Hm. repeat (match type of Hm with context [(?a =? ?b)%nat] => destruct (Nat.eqb_spec a b) end; cbn [orb] in Hm; try discriminate Hm; try lia);
    try (injection Hm; intros; lia); apply F3 in Hm; cbn [older] in Hm; lia. }
  split. { intros m Hm. rewrite Gt, G in Hm. repeat (match type of Hm with context [(?a =? ?b)%nat] => destruct (Nat.eqb_spec a b) end; cbn [orb] in Hm; try discriminate Hm; try lia);
    try (injection Hm; intros; lia); apply F3 in Hm; cbn [older] in Hm; lia. }
  split; [lia|]. split; [lia|]. split; [lia|].
  intros m k Hk. destruct (Old m k Hk) as (N1 & N2 & N3 & N4 & N5 & N6). 
  pose proof (proj2 (Nat.eqb_neq _ _) N1) as M1. pose proof (proj2 (Nat.eqb_neq _ _) N2) as M2. pose proof (proj2 (Nat.eqb_neq _ _) N3) as M3.
  pose proof (proj2 (Nat.eqb_neq _ _) N4) as M4. pose proof (proj2 (Nat.eqb_neq _ _) N5) as M5. pose proof (proj2 (Nat.eqb_neq _ _) N6) as M6.
  split; [rewrite G, M1, M2, M3, M4, M5, M6; exact Hk|]. intros Hm. rewrite Gt, G, M1, M2, M3, M4, M5, M6.
  rewrite (proj2 (Nat.eqb_neq _ _) Hm). exact Hk.
Qed.

(** ---- Signals ---- *)
Definition ours (s : os) (p : process) : Prop :=
  Forall (fun x => snd x = OurChild) (signals s) /\
  (running p = true -> exists c, the_child s = Some c /\ c_pid c = pid p /\ c_life c <> Gone).
Lemma pipe_signals s : signals (snd (sys_pipe s)) = signals s.
Proof. unfold sys_pipe. destruct (fd_new _ _) as [r t1]. destruct (fd_new _ _) as [w t2]. reflexivity. Qed.
Lemma cleanup_signals s p s' p' : cleanup s p = Ok (s', p') -> signals s' = signals s /\ running p' = false.
Proof.
  unfold cleanup, close_var. intros E.
  repeat match type of E with context [fetch ?v] => destruct v; cbn [fetch obind] in E; try discriminate E end.
  injection E as <- <-. split; [|reflexivity].
  repeat match goal with |- context [if ?b then _ else _] => destruct b end; reflexivity.
Qed.
Lemma start_ours s p a b s' p' : ours s p -> process_start s p a = Ok (b, s', p') -> ours s' p'.
Proof.
  intros [H1 H2] E. unfold process_start in E. destruct (running p) eqn:R.
  { injection E as <- <- <-. split; [exact H1|]. intros _. exact (H2 eq_refl). }
  destruct (negb (pid p =? 0)). { injection E as <- <- <-. split; [exact H1|]. discriminate. }
  destruct (pipes_possible a) as [|n]. { injection E as <- <- <-. split; [exact H1|]. discriminate. }
  pose proof (pipe_signals s) as P1. destruct (sys_pipe s) as [o s1]. cbn [snd] in P1.
  destruct n as [|n]. { injection E as <- <- <-. split; [now rewrite P1|]. discriminate. }
  pose proof (pipe_signals s1) as P2. destruct (sys_pipe s1) as [i s2]. cbn [snd] in P2.
  destruct n as [|n]. { injection E as <- <- <-. split; [now rewrite P2, P1|]. discriminate. }
  pose proof (pipe_signals s2) as P3. destruct (sys_pipe s2) as [e s3]. cbn [snd] in P3.
  assert (C : forall q, (r <- cleanup s3 q ;; Ok (false, fst r, snd r)) = Ok (b, s', p') -> ours s' p').
  { intros q. destruct (cleanup s3 q) as [[s4 p4]| | |] eqn:Ec; cbn [obind fst snd]; intros E2; try discriminate E2. injection E2 as <- <- <-.
    destruct (cleanup_signals _ _ _ _ Ec) as [Sg Rf]. split; [now rewrite Sg, P3, P2, P1|]. rewrite Rf. discriminate. }
  destruct (spawned a) as [id|]; [|exact (C _ E)].
  destruct (perform_all (files s3) (spawn_actions (explicit_mode p) o i e)) as [t|]; [|exact (C _ E)].
  injection E as <- <- <-. split; [cbn [signals]; now rewrite P3, P2, P1|]. intros _. eexists. split; [reflexivity|]. split; [reflexivity|]. discriminate.
Qed.
Lemma alive_ours s p : ours s p -> ours (snd (fst (is_alive s p))) (snd (is_alive s p)).
Proof.
  intros [H1 H2]. unfold is_alive. destruct (running p) eqn:R; cbn [negb]; [|split; [exact H1|cbn [snd]; congruence]].
  destruct (H2 eq_refl) as (c & Ec & Ep & El). unfold sys_waitpid. rewrite Ec, Ep, Z.eqb_refl.
  destruct (c_life c) eqn:L; cbn [fst snd].
  - split; [exact H1|]. intros _. exists c. rewrite L. auto.
  - split; [exact H1|]. discriminate.
  - congruence.
Qed.
Lemma signal_ours s p g : ours s p -> ours (fst (signal_child s p g)) (snd (signal_child s p g)).
Proof.
  intros [H1 H2]. unfold signal_child. destruct (running p) eqn:R; [|split; [exact H1|cbn [snd]; congruence]].
  assert (O : ours (sys_kill s (pid p) g) p).
  { destruct (H2 eq_refl) as (c & Ec & Ep & El). unfold sys_kill. rewrite Ec, Ep, Z.eqb_refl. split; cbn [signals].
    - constructor; [|exact H1]. cbn [snd]. destruct (c_life c); [reflexivity|reflexivity|congruence].
    - intros _. exists c. auto. }
  apply alive_ours in O. destruct (is_alive (sys_kill s (pid p) g) p) as [[[a st] s'] p']. exact O.
Qed.
Lemma deed_ours s p d s' p' : ours s p -> do_deed s p d = Ok (s', p') -> ours s' p'.
Proof.
  intros H E. destruct d as [a| | | |e]; cbn [do_deed] in E.
  - destruct (process_start s p a) as [[[b s1] p1]| | |] eqn:Es; cbn [obind fst snd] in E; try discriminate E. injection E as <- <-. exact (start_ours _ _ _ _ _ _ H Es).
  - injection E as <- <-. exact (alive_ours _ _ H).
  - unfold process_stop in E. destruct (signal_child s p 15) as [s1 p1] eqn:E1. injection E as <- <-. pose proof (signal_ours s p 15 H) as O. now rewrite E1 in O.
  - unfold process_kill in E. destruct (signal_child s p 9) as [s1 p1] eqn:E1. injection E as <- <-. pose proof (signal_ours s p 9 H) as O. now rewrite E1 in O.
  - injection E as <- <-. destruct H as [H1 H2]. unfold child_ends. destruct (the_child s) as [c|] eqn:Ec; [|split; [exact H1|rewrite Ec; exact H2]].
    destruct (c_life c) eqn:L; try (split; [exact H1|rewrite Ec; exact H2]). split; [exact H1|].
    intros R. destruct (H2 R) as (c' & E' & Ep & _). injection E' as <-. eexists. split; [reflexivity|]. split; [exact Ep|discriminate].
Qed.
Lemma deeds_ours l : forall s p s' p', ours s p -> do_deeds s p l = Ok (s', p') -> ours s' p'.
Proof.
  induction l as [|d l IH]; intros s p s' p' H E; cbn [do_deeds] in E; [injection E as <- <-; exact H|].
  destruct (do_deed s p d) as [[s1 p1]| | |] eqn:Ed; cbn [obind fst snd] in E; try discriminate E.
  exact (IH _ _ _ _ (deed_ours _ _ _ _ _ H Ed) E).
Qed.
Lemma start_defined s p a : exists r, process_start s p a = Ok r.
Proof.
  unfold process_start. destruct (running p); [eauto|]. destruct (negb (pid p =? 0)); [eauto|]. destruct (pipes_possible a) as [|n]; [eauto|].
  destruct (sys_pipe s) as [o s1]. destruct n as [|n]; [eauto|]. destruct (sys_pipe s1) as [i s2]. destruct n as [|n]; [eauto|].
  destruct (sys_pipe s2) as [e s3]. unfold cleanup, close_var. cbn [pair_vars fst snd p_out p_in p_err action_initialized fetch obind].
  destruct (spawned a); [|eauto]. destruct (perform_all _ _); eauto.
Qed.
Lemma deeds_defined l : forall s p, exists s' p', do_deeds s p l = Ok (s', p').
Proof.
  induction l as [|d l IH]; intros s p; cbn [do_deeds]; [eauto|].
  assert (D : exists s1 p1, do_deed s p d = Ok (s1, p1)).
  { destruct d as [a| | | |e]; cbn [do_deed]; eauto.
    - destruct (start_defined s p a) as [r ->]. cbn [obind]. eauto.
    - destruct (process_stop s p); eauto.
    - destruct (process_kill s p); eauto. }
  destruct D as (s1 & p1 & ->). cbn [obind fst snd]. apply IH.
Qed.
Lemma signals_ours s explicit en l : fresh_os s ->
  exists s' p', do_deeds s (prepared explicit en) l = Ok (s', p') /\ Forall (fun x => snd x = OurChild) (signals s').
Proof.
  intros (F1 & F2 & F3). destruct (deeds_defined l s (prepared explicit en)) as (s' & p' & E). exists s', p'. split; [exact E|].
  refine (proj1 (deeds_ours l s (prepared explicit en) s' p' _ E)). split; [now rewrite F2|]. discriminate.
Qed.

(** ---- After a successful start ---- *)
Definition steady (h : bool) (f : table) (o i e : nat * nat) (id : Z) (q : option ending) (s : os) (p : process) : Prop :=
  files s = f /\ p_out p = pair_vars o /\ p_in p = pair_vars i /\ p_err p = pair_vars e /\ (exists b, action_initialized p = Some b) /\
  pid p = id /\ exists c, the_child s = Some c /\ c_pid c = id /\
  match q with
  | None => running p = true /\ c_life c = Running
  | Some e => (running p = true /\ c_life c = Ended e) \/ (running p = false /\ c_life c = Gone /\ (h = true -> exit_status p = Some (status_of e)))
  end.
Definition next_end (q : option ending) (d : deed) : option ending :=
  match q with Some e => Some e | None => match d with ChildEnds e => Some e | _ => None end end.
Lemma alive_steady h f o i e id q s p : steady h f o i e id q s p -> steady h f o i e id q (snd (fst (is_alive s p))) (snd (is_alive s p)).
Proof.
  intros H. pose proof H as (Hf & Ho & Hi & He & Ha & Hp & c & Ec & Ep & Hq). unfold is_alive.
  destruct (running p) eqn:R; cbn [negb]; [|exact H]. unfold sys_waitpid. rewrite Ec, Hp, Ep, Z.eqb_refl.
  destruct (c_life c) as [|x|] eqn:L; [exact H| |exact H]. cbn [fst snd].
  destruct q as [y|]; [|destruct Hq as [_ Hq]; discriminate Hq]. destruct Hq as [[_ Hq]|[Hq _]]; [|discriminate Hq]. injection Hq as <-.
  refine (conj Hf (conj Ho (conj Hi (conj He (conj Ha (conj Hp _)))))). eexists. split; [reflexivity|]. split; [reflexivity|]. right. split; [reflexivity|]. split; reflexivity.
Qed.
Lemma signal_steady h f o i e id q s p g : steady h f o i e id q s p -> steady h f o i e id q (fst (signal_child s p g)) (snd (signal_child s p g)).
Proof.
  intros H. unfold signal_child. destruct (running p) eqn:R; [|exact H].
  assert (O : steady h f o i e id q (sys_kill s (pid p) g) p) by exact H.
  apply alive_steady in O. destruct (is_alive (sys_kill s (pid p) g) p) as [[[a st] s'] p']. exact O.
Qed.
Lemma start_steady h f o i e id q s p a b s' p' : 0 < id -> steady h f o i e id q s p -> process_start s p a = Ok (b, s', p') -> steady false f o i e id q s' p'.
Proof.
  intros Hid (Hf & Ho & Hi & He & Ha & Hp & c & Ec & Ep & Hq) E. unfold process_start in E. destruct (running p) eqn:R.
  { injection E as <- <- <-. refine (conj Hf (conj Ho (conj Hi (conj He (conj Ha (conj Hp _)))))). exists c. split; [exact Ec|]. split; [exact Ep|].
    destruct q; [|split; [exact R|apply Hq]]. destruct Hq as [Hq|[Hq _]]; [left; rewrite R; exact Hq|discriminate Hq]. }
  replace (pid p =? 0) with false in E by (symmetry; apply Z.eqb_neq; lia). cbn [negb] in E. injection E as <- <- <-.
  refine (conj Hf (conj Ho (conj Hi (conj He (conj _ (conj Hp _)))))); [eexists; reflexivity|]. exists c. split; [exact Ec|]. split; [exact Ep|].
  destruct q; [|destruct Hq as [Hq _]; discriminate Hq]. destruct Hq as [[Hq _]|[_ [Hq _]]]; [discriminate Hq|]. right. split; [reflexivity|]. split; [exact Hq|discriminate].
Qed.
Lemma ends_steady h f o i e id q s p x : steady h f o i e id q s p -> steady h f o i e id (next_end q (ChildEnds x)) (child_ends s x) p.
Proof.
  intros H. pose proof H as (Hf & Ho & Hi & He & Ha & Hp & c & Ec & Ep & Hq). unfold child_ends. rewrite Ec. destruct q as [y|]; cbn [next_end].
  - destruct Hq as [[_ ->]|[_ [-> _]]]; exact H.
  - destruct Hq as [R ->]. refine (conj Hf (conj Ho (conj Hi (conj He (conj Ha (conj Hp _)))))). eexists. split; [reflexivity|]. split; [exact Ep|]. left. split; [exact R|reflexivity].
Qed.
Lemma weaken h f o i e id q s p : steady h f o i e id q s p -> steady false f o i e id q s p.
Proof.
  intros (Hf & Ho & Hi & He & Ha & Hp & c & Ec & Ep & Hq). refine (conj Hf (conj Ho (conj Hi (conj He (conj Ha (conj Hp _)))))). exists c. split; [exact Ec|]. split; [exact Ep|].
  destruct q; [|exact Hq]. destruct Hq as [Hq|[H1 [H2 _]]]; [now left|right; split; [exact H1|split; [exact H2|discriminate]]].
Qed.
Lemma deed_steady h f o i e id q s p d s' p' : 0 < id -> (h = true -> no_start d) -> steady h f o i e id q s p -> do_deed s p d = Ok (s', p') ->
  steady h f o i e id (next_end q d) s' p'.
Proof.
  intros Hid Hd H E. assert (N : forall d, match d with ChildEnds _ => True | _ => next_end q d = q end) by (intros []; destruct q; try reflexivity; exact Logic.I).
  destruct d as [a| | | |x]; cbn [do_deed] in E.
  - destruct (process_start s p a) as [[[b s1] p1]| | |] eqn:Es; cbn [obind fst snd] in E; try discriminate E. injection E as <- <-.
    destruct h; [destruct (Hd eq_refl)|]. rewrite (N (Start a)). exact (start_steady _ _ _ _ _ _ _ _ _ _ _ _ _ Hid H Es).
  - injection E as <- <-. rewrite (N Ask). exact (alive_steady _ _ _ _ _ _ _ _ _ H).
  - unfold process_stop in E. destruct (signal_child s p 15) as [s1 p1] eqn:E1. injection E as <- <-. rewrite (N Terminate). pose proof (signal_steady _ _ _ _ _ _ _ _ _ 15 H) as O. now rewrite E1 in O.
  - unfold process_kill in E. destruct (signal_child s p 9) as [s1 p1] eqn:E1. injection E as <- <-. rewrite (N KillIt). pose proof (signal_steady _ _ _ _ _ _ _ _ _ 9 H) as O. now rewrite E1 in O.
  - injection E as <- <-. exact (ends_steady _ _ _ _ _ _ _ _ _ _ H).
Qed.
Lemma deeds_steady l : forall h f o i e id q s p s' p', 0 < id -> (h = true -> Forall no_start l) -> steady h f o i e id q s p -> do_deeds s p l = Ok (s', p') ->
  steady h f o i e id (match q with Some x => Some x | None => first_end l end) s' p'.
Proof.
  induction l as [|d l IH]; intros h f o i e id q s p s' p' Hid Hl H E; cbn [do_deeds] in E.
  - injection E as <- <-. destruct q; exact H.
  - destruct (do_deed s p d) as [[s1 p1]| | |] eqn:Ed; cbn [obind fst snd] in E; try discriminate E.
    assert (H1 : h = true -> no_start d) by (intros Q; specialize (Hl Q); now inversion Hl).
    assert (H2 : h = true -> Forall no_start l) by (intros Q; specialize (Hl Q); now inversion Hl).
    pose proof (IH _ _ _ _ _ _ _ _ _ _ _ Hid H2 (deed_steady _ _ _ _ _ _ _ _ _ _ _ _ Hid H1 H Ed) E) as K.
    destruct q; [exact K|]. destruct d; exact K.
Qed.
Lemma launched_steady s3 o i e id t v explicit en : steady true (files s3) o i e id None
  (mkOs (files s3) (pipes s3) (Some (mkChild id t v Running)) (signals s3)) (launched (prepared explicit en) id o i e).
Proof.
  refine (conj eq_refl (conj eq_refl (conj eq_refl (conj eq_refl (conj _ (conj eq_refl _)))))); [eexists; reflexivity|].
  eexists. split; [reflexivity|]. split; [reflexivity|]. split; reflexivity.
Qed.

Lemma status_true s explicit en a id l : (3 <= pipes_possible a)%nat -> spawned a = Some id -> 0 < id -> Forall no_start l ->
  exists s' p', do_deeds s (prepared explicit en) (Start a :: l) = Ok (s', p') /\
    fst (fst (is_alive s' p')) = match first_end l with
                           | None => (true, Some 0)
                           | Some (Exited c) => (false, Some c)
                           | Some (Signaled g) => (false, Some (- g))
                           end.
Proof.
  intros Hp Hs Hid Hl. destruct (start_ok s explicit en a id Hp Hs) as (s3 & o & i & e & t & T & Et & Gt & E).
  cbn [do_deeds do_deed]. rewrite E. cbn [obind fst snd].
  match goal with |- context [do_deeds ?a ?b l] => destruct (deeds_defined l a b) as (s' & p' & Ed) end. exists s', p'. split; [exact Ed|].
  pose proof (deeds_steady l _ _ _ _ _ _ _ _ _ _ _ Hid (fun _ => Hl) (launched_steady s3 o i e id t _ explicit en) Ed) as H. cbv beta iota in H.
  destruct H as (Hf & Ho & Hi & He & Ha & Hpid & c & Ec & Ep & Hq). unfold is_alive.
  destruct (first_end l) as [x|].
  - destruct Hq as [[R L]|[R [L St]]]; rewrite R; cbn [negb].
    + unfold sys_waitpid. rewrite Ec, Hpid, Ep, Z.eqb_refl, L. cbn [fst]. destruct x; reflexivity.
    + cbn [fst]. rewrite (St eq_refl). destruct x; reflexivity.
  - destruct Hq as [R L]. rewrite R. cbn [negb]. unfold sys_waitpid. rewrite Ec, Hpid, Ep, Z.eqb_refl, L. reflexivity.
Qed.

(** The parent keeps the ends of the child. *)
Lemma never_ends s explicit en a id l : (3 <= pipes_possible a)%nat -> spawned a = Some id -> 0 < id ->
  exists s' p' s1 p1 outp errp, process_start s (prepared explicit en) a = Ok (true, s1, p1) /\ do_deeds s1 p1 l = Ok (s', p') /\
    refers (files s1) (get_output p1) (ReadEnd outp) /\ refers (files s1) (get_error p1) (ReadEnd errp) /\
    ~ end_of_file s' outp /\ ~ end_of_file s' errp.
Proof.
  intros Hp Hs Hid. destruct (start_ok s explicit en a id Hp Hs) as (s3 & o & i & e & t & T & Et & Gt & E).
  match type of E with _ = Ok (_, ?a, ?b) => destruct (deeds_defined l a b) as (s' & p' & Ed) end.
  pose proof (deeds_steady l false _ _ _ _ _ _ _ _ _ _ Hid (fun Q => False_ind _ (Bool.diff_false_true Q)) (weaken _ _ _ _ _ _ _ _ _ (launched_steady s3 o i e id t _ explicit en)) Ed) as H.
  destruct H as (Hf & _). destruct T as [(O1 & O2 & O3) G Fr Lo _].
  eexists s', p', _, _, (S (pipes s)), (S (S (pipes s))). split; [exact E|]. split; [exact Ed|].
  split. { exists (fst i). split; [reflexivity|]. cbn [files]. rewrite G. eqbs; reflexivity. }
  split. { exists (fst e). split; [reflexivity|]. cbn [files]. rewrite G. eqbs; reflexivity. }
  split; intros [X _].
  - apply (X (snd i)). rewrite Hf, G. eqbs; reflexivity.
  - apply (X (snd e)). rewrite Hf, G. eqbs; reflexivity.
Qed.

(** ---- Destruction ---- *)
Lemma close_some s n : close_var s (Some (Z.of_nat n)) = Ok (sys_close s n).
Proof. unfold close_var. cbn [fetch obind]. replace (Z.of_nat n =? -1) with false by (symmetry; apply Z.eqb_neq; lia). now rewrite Nat2Z.id. Qed.
Lemma cleanup_three s s3 o i e s' p : three s s3 o i e -> files s' = files s3 -> p_out p = pair_vars o -> p_in p = pair_vars i -> p_err p = pair_vars e ->
  (exists b, action_initialized p = Some b) -> exists s'' p'', cleanup s' p = Ok (s'', p'') /\ same_table (files s'') (files s).
Proof.
  intros [(O1 & O2 & O3) G Fr Lo _] Ef Eo Ei Ee [b Eb]. unfold cleanup. rewrite Eo, Ei, Ee, Eb. cbn [pair_vars fst snd].
  rewrite !close_some. cbn [obind]. rewrite !close_some. cbn [obind]. rewrite !close_some. cbn [obind]. rewrite !close_some. cbn [obind].
  rewrite !close_some. cbn [obind]. rewrite !close_some. cbn [obind fetch]. eexists _, _. split; [reflexivity|].
  intros m. unfold sys_close, set_files. cbn [files]. rewrite !get_set, Ef, G. cbn [In] in Fr.
  destruct (Nat.eqb_spec m (fst i)) as [->|]; [symmetry; apply Fr; auto 10|]. destruct (Nat.eqb_spec m (snd e)) as [->|]; [symmetry; apply Fr; auto 10|].
  destruct (Nat.eqb_spec m (snd o)) as [->|]; [symmetry; apply Fr; auto 10|]. destruct (Nat.eqb_spec m (snd i)) as [->|]; [symmetry; apply Fr; auto 10|].
  destruct (Nat.eqb_spec m (fst e)) as [->|]; [symmetry; apply Fr; auto 10|]. destruct (Nat.eqb_spec m (fst o)) as [->|]; [symmetry; apply Fr; auto 10|]. reflexivity.
Qed.
Lemma destroy_restores s explicit en a id l : fresh_os s -> (3 <= pipes_possible a)%nat -> spawned a = Some id -> 0 < id ->
  exists s' p' s'', do_deeds s (prepared explicit en) (Start a :: l) = Ok (s', p') /\ process_destroy s' p' = Ok s'' /\ same_table (files s'') (files s) /\
    Forall (fun x => snd x = OurChild) (signals s'').
Proof.
  intros F Hp Hs Hid. destruct (start_ok s explicit en a id Hp Hs) as (s3 & o & i & e & t & T & Et & Gt & E).
  destruct (deeds_defined (Start a :: l) s (prepared explicit en)) as (s' & p' & Ed).
  assert (O : ours s' p'). { refine (deeds_ours _ _ _ _ _ _ Ed). destruct F as (F1 & F2 & F3). split; [now rewrite F2|]. discriminate. }
  pose proof Ed as Ed'. cbn [do_deeds do_deed] in Ed'. rewrite E in Ed'. cbn [obind fst snd] in Ed'.
  pose proof (deeds_steady l false _ _ _ _ _ _ _ _ _ _ Hid (fun Q => False_ind _ (Bool.diff_false_true Q)) (weaken _ _ _ _ _ _ _ _ _ (launched_steady s3 o i e id t _ explicit en)) Ed') as H.
  apply (signal_steady _ _ _ _ _ _ _ _ _ 9) in H. apply (signal_ours _ _ 9) in O.
  destruct (signal_child s' p' 9) as [s4 p4] eqn:E4. cbn [fst snd] in *. destruct H as (Hf & Ho & Hi & He & Ha & _).
  destruct (cleanup_three _ _ _ _ _ s4 p4 T Hf Ho Hi He Ha) as (s5 & p5 & E5 & S5).
  exists s', p', s5. split; [exact Ed|]. split. { unfold process_destroy, process_kill. rewrite E4, E5. reflexivity. }
  split; [exact S5|]. destruct (cleanup_signals _ _ _ _ E5) as [-> _]. exact (proj1 O).
Qed.

(** ---- The environment ---- *)
Fixpoint assoc (e : list (list N * list N)) (name : list N) : option (list N) :=
  match e with [] => None | (k, v) :: e' => if bytes_eqb name k then Some v else assoc e' name end.
Lemma starts_self l r : starts_with l (l ++ r) = true.
Proof. induction l as [|c l IH]; [destruct r; reflexivity|]. cbn [app starts_with]. now rewrite N.eqb_refl. Qed.
Lemma getenv_assoc e name : names_ok e -> ~ In c_eq name -> getenv (map entry e) name = assoc e name.
Proof.
  intros He Hn. induction e as [|[k v] e IH]; [reflexivity|]. inversion_clear He. cbn [assoc].
  destruct (bytes_eqb name k) eqn:E.
  - apply bytes_eqb_eq in E. subst k. cbn [map getenv]. unfold entry at 1 2. cbn [fst snd]. rewrite app_assoc, starts_self. f_equal. apply skipn_app_length.
  - rewrite <- (IH H0). apply (getenv_skip name [(k, v)] (map entry e)); [constructor; [exact H|constructor]|exact Hn|].
    intros [X|[]]. cbn [fst] in X. subst k. rewrite bytes_eqb_refl in E. discriminate E.
Qed.
Lemma assoc_set e k v name : assoc (map_set e k v) name = if bytes_eqb name k then Some v else assoc e name.
Proof.
  induction e as [|[k' v'] e IH]; cbn [map_set assoc]; [reflexivity|]. destruct (bytes_eqb k k') eqn:E.
  - apply bytes_eqb_eq in E. subst k'. cbn [assoc]. destruct (bytes_eqb name k); reflexivity.
  - cbn [assoc]. rewrite IH. destruct (bytes_eqb name k') eqn:E1; [|reflexivity]. destruct (bytes_eqb name k) eqn:E2; [|reflexivity].
    apply bytes_eqb_eq in E1, E2. subst. rewrite bytes_eqb_refl in E. discriminate E.
Qed.
Lemma names_set e k v : names_ok e -> ~ In c_eq k -> names_ok (map_set e k v).
Proof.
  intros He Hk. induction He as [|[k' v'] e H1 H2 IH]; cbn [map_set]; [constructor; [exact Hk|constructor]|].
  destruct (bytes_eqb k k'); constructor; try assumption.
Qed.
Lemma split_entry k v : ~ In c_eq k -> split_eq (entry (k, v)) = Some (k, v).
Proof.
  unfold entry. cbn [fst snd app]. induction k as [|c k IH]; intros H; cbn [app split_eq]; [reflexivity|].
  destruct (N.eqb_spec c c_eq) as [->|]; [exfalso; apply H; now left|]. rewrite IH; [reflexivity|]. intros X. apply H. now right.
Qed.
Lemma copy_assoc l : names_ok l -> forall p, names_ok (env p) ->
  names_ok (env (copy_environment p (map entry l))) /\
  forall name, assoc (env (copy_environment p (map entry l))) name = match assoc (rev l) name with Some v => Some v | None => assoc (env p) name end.
Proof.
  unfold copy_environment. induction l as [|[k v] l IH]; intros Hl p Hp; [split; [exact Hp|reflexivity]|].
  inversion_clear Hl as [|? ? Hk Hl']. cbn [fst] in Hk. cbn [map fold_left]. unfold copy_variable at 2 4. rewrite (split_entry k v Hk).
  destruct (IH Hl' (set_environment p k v) (names_set _ k v Hp Hk)) as [I1 I2]. split; [exact I1|]. intros name. rewrite I2. cbn [set_environment with_env env]. rewrite assoc_set.
  cbn [rev]. clear. induction (rev l) as [|[k' v'] r IH]; cbn [assoc app]; [destruct (bytes_eqb name k); reflexivity|].
  destruct (bytes_eqb name k'); [reflexivity|exact IH].
Qed.
Lemma assoc_rev l name : NoDup (map fst l) -> assoc (rev l) name = assoc l name.
Proof.
  induction l as [|[k v] l IH]; intros H; [reflexivity|]. cbn [map fst] in H. inversion_clear H as [|? ? H1 H2]. cbn [rev assoc]. specialize (IH H2).
  assert (A : forall r, assoc (r ++ [(k, v)]) name = match assoc r name with Some x => Some x | None => if bytes_eqb name k then Some v else None end).
  { clear. induction r as [|[k' v'] r IH]; cbn [app assoc]; [destruct (bytes_eqb name k); reflexivity|]. destruct (bytes_eqb name k'); [reflexivity|exact IH]. }
  rewrite A, IH. destruct (bytes_eqb name k) eqn:E; [|destruct (assoc l name); reflexivity].
  apply bytes_eqb_eq in E. subst k. assert (assoc l name = None) as ->; [|reflexivity].
  clear - H1. induction l as [|[k' v'] l IH]; [reflexivity|]. cbn [map fst In] in H1. cbn [assoc]. destruct (bytes_eqb name k') eqn:E.
  - apply bytes_eqb_eq in E. exfalso. apply H1. left. symmetry. exact E.
  - apply IH. intros X. apply H1. now right.
Qed.
Lemma environment_copied l explicit : names_ok l -> NoDup (map fst l) ->
  exists e, copy_environment (process_create explicit) (map entry l) = prepared explicit e /\ names_ok e /\
    forall name, ~ In c_eq name -> getenv (map entry e) name = getenv (map entry l) name.
Proof.
  intros Hl Hd. exists (env (copy_environment (process_create explicit) (map entry l))).
  destruct (copy_assoc l Hl (process_create explicit) ltac:(constructor)) as [C1 C2]. split; [|split; [exact C1|]].
  - unfold prepared. clear. unfold copy_environment.
    assert (A : forall p, fold_left copy_variable (map entry l) p = with_env p (env (fold_left copy_variable (map entry l) p))).
    { induction (map entry l) as [|x r IH]; intros p; [destruct p; reflexivity|]. cbn [fold_left]. rewrite IH at 1.
      unfold copy_variable. destruct (split_eq x) as [[k v]|]; reflexivity. }
    apply A.
  - intros name Hn. rewrite !getenv_assoc by assumption. rewrite C2, assoc_rev by assumption. cbn [env process_create assoc]. destruct (assoc l name); reflexivity.
Qed.
Lemma environment_set explicit e k v : names_ok e -> ~ In c_eq k ->
  exists e', set_environment (prepared explicit e) k v = prepared explicit e' /\ names_ok e' /\
    getenv (map entry e') k = Some v /\ forall name, ~ In c_eq name -> name <> k -> getenv (map entry e') name = getenv (map entry e) name.
Proof.
  intros He Hk. exists (map_set e k v). split; [reflexivity|]. pose proof (names_set e k v He Hk) as Hs. split; [exact Hs|].
  split; [rewrite getenv_assoc, assoc_set, bytes_eqb_refl by assumption; reflexivity|].
  intros name Hn Hne. rewrite !getenv_assoc, assoc_set by assumption. destruct (bytes_eqb name k) eqn:E; [|reflexivity]. apply bytes_eqb_eq in E. contradiction.
Qed.
Lemma child_environment s l a id : (3 <= pipes_possible a)%nat -> spawned a = Some id -> names_ok l -> NoDup (map fst l) ->
  exists s' p' c, process_start s (copy_environment (process_create false) (map setting l)) a = Ok (true, s', p') /\ the_child s' = Some c /\
    forall name, ~ In c_eq name -> getenv (c_vars c) name = getenv (map setting l) name.
Proof.
  intros Hp Hs Hl Hd. destruct (environment_copied l false Hl Hd) as (e & Ee & He & Hg).
  change (map setting l) with (map entry l). rewrite Ee.
  destruct (start_ok s false e a id Hp Hs) as (s3 & o & i & er & t & _ & _ & _ & E). eexists _, _, _. split; [exact E|]. split; [reflexivity|].
  intros name Hn. cbn [c_vars]. unfold spawn_vars. cbn [explicit_mode env prepared with_env process_create]. rewrite app_nil_r. exact (Hg name Hn).
Qed.
Lemma child_variable s l k v a id : (3 <= pipes_possible a)%nat -> spawned a = Some id -> names_ok l -> NoDup (map fst l) -> ~ In c_eq k ->
  exists s' p' c, process_start s (set_environment (copy_environment (process_create false) (map setting l)) k v) a = Ok (true, s', p') /\ the_child s' = Some c /\
    getenv (c_vars c) k = Some v /\ forall name, ~ In c_eq name -> name <> k -> getenv (c_vars c) name = getenv (map setting l) name.
Proof.
  intros Hp Hs Hl Hd Hk. destruct (environment_copied l false Hl Hd) as (e & Ee & He & Hg).
  change (map setting l) with (map entry l). rewrite Ee. destruct (environment_set false e k v He Hk) as (e' & Ee' & He' & Hg1 & Hg2). rewrite Ee'.
  destruct (start_ok s false e' a id Hp Hs) as (s3 & o & i & er & t & _ & _ & _ & E). eexists _, _, _. split; [exact E|]. split; [reflexivity|].
  cbn [c_vars]. unfold spawn_vars. cbn [explicit_mode env prepared with_env process_create]. rewrite app_nil_r. split; [exact Hg1|].
  intros name Hn Hne. rewrite (Hg2 name Hn Hne). exact (Hg name Hn).
Qed.
Lemma destroy_no_pipes s explicit en n id : (n < 3)%nat ->
  exists s' p', do_deeds s (prepared explicit en) [Start (mkAnswers n id)] = Ok (s', p') /\ process_destroy s' p' = UB.
Proof.
  intros Hn. cbn [do_deeds do_deed]. unfold process_start. cbn [prepared with_env process_create running pid Z.eqb negb explicit_mode exit_status p_out p_in p_err env pipes_possible].
  destruct n as [|[|[|n]]]; [| | |lia].
  - eexists _, _. split; [reflexivity|]. reflexivity.
  - destruct (sys_pipe s) as [o s1]. eexists _, _. split; [reflexivity|]. unfold process_destroy, process_kill, signal_child. cbn [snd running].
    unfold cleanup. cbn [p_out p_err p_in fst snd pair_vars]. rewrite close_some. reflexivity.
  - destruct (sys_pipe s) as [o s1]. destruct (sys_pipe s1) as [i s2]. eexists _, _. split; [reflexivity|]. unfold process_destroy, process_kill, signal_child. cbn [snd running].
    unfold cleanup. cbn [p_out p_err p_in fst snd pair_vars]. rewrite close_some. reflexivity.
Qed.
