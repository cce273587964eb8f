(** Proofs about connections between clients and trackers. *)
From Coq Require Import Permutation.
From Verif Require Import CBase Num Image ImageProofs StrMapProofs CommandProofs Process ProcessSpec ProcessProofs Sockets SocketsSpec.
Local Open Scope Z_scope.

(** ---- Ports ---- *)
Definition range (p : Z) : Prop := 9090 <= p <= 65535.
Lemma next_range p : range p -> range (next_port p).
Proof. unfold range, next_port, TRAX_DEFAULT_PORT. intros H. destruct (Z.ltb_spec 65535 (p + 1)); lia. Qed.
Lemma htons_range p : range p -> htons p = p.
Proof. unfold range, htons. intros H. apply Z.mod_small. lia. Qed.
Lemma candidate_0 p : range p -> candidate p 0 = p.
Proof. unfold range, candidate. intros H. cbn [Z.of_nat]. rewrite Z.mod_small; lia. Qed.
Lemma candidate_S p i : range p -> candidate p (S i) = candidate (next_port p) i.
Proof.
  unfold range, candidate, next_port, TRAX_DEFAULT_PORT. intros H. f_equal. destruct (Z.ltb_spec 65535 (p + 1)).
  - replace (p - 9090 + Z.of_nat (S i)) with (9090 - 9090 + Z.of_nat i + 1 * (65536 - 9090)) by lia. now rewrite Z.mod_add by lia.
  - f_equal. lia.
Qed.
Lemma in_use_spec b p : in_use b p = true <-> In p (map snd b).
Proof.
  unfold in_use. rewrite existsb_exists, in_map_iff. split; intros (x & H1 & H2).
  - exists x. split; [lia|exact H1].
  - exists x. split; [exact H2|lia].
Qed.
Lemma get_app_none t n : fd_get t n = None -> forall m, fd_get (fd_set t n None) m = fd_get t m.
Proof. intros H m. rewrite get_set. destruct (Nat.eqb_spec m n); [subst; now rewrite H|reflexivity]. Qed.
Lemma filter_all {A} (f : A -> bool) l : (forall x, In x l -> f x = true) -> filter f l = l.
Proof.
  induction l as [|x l IH]; intros H; [reflexivity|]. cbn [filter]. rewrite (H x) by now left. f_equal. apply IH. intros y Hy. apply H. now right.
Qed.

(** The sockets that listen are open, distinct, and on distinct ports. *)
Record sound (s : net) : Prop := mkSound {
  so_open : forall n p, In (n, p) (n_bound s) -> fd_get (n_files s) n <> None /\ range p;
  so_files : NoDup (map fst (n_bound s));
  so_ports : NoDup (map snd (n_bound s))
}.
Lemma not_bound s n : sound s -> fd_get (n_files s) n = None -> ~ In n (map fst (n_bound s)).
Proof. intros Hs Hn H. apply in_map_iff in H as ([n' p] & E & H). cbn [fst] in E. subst n'. destruct (so_open s Hs _ _ H) as [X _]. contradiction. Qed.

(** One attempt. *)
Lemma create_spec s port a : sound s -> range port ->
  let '(sid, s') := create_server_socket s port a in
  sound s' /\
  ((exists n, usable s port a /\ sid = Z.of_nat n /\ fd_get (n_files s) n = None /\ (forall m, (m < n)%nat -> fd_get (n_files s) m <> None) /\
      n_bound s' = (n, port) :: n_bound s /\ forall m, fd_get (n_files s') m = if (m =? n)%nat then Some a_socket else fd_get (n_files s) m) \/
   (~ usable s port a /\ sid = -1 /\ n_bound s' = n_bound s /\
      (forall m, fd_get (n_files s) m <> None -> fd_get (n_files s') m <> None) /\
      (t_option a = true -> forall m, fd_get (n_files s') m = fd_get (n_files s) m))).
Proof.
  intros Hs Hp. unfold create_server_socket. rewrite (htons_range port Hp).
  destruct (t_socket a) eqn:E1; cbn [negb].
  2:{ split; [exact Hs|]. right. split; [intros (X & _); congruence|]. split; [reflexivity|]. split; [reflexivity|]. split; [auto|]. auto. }
  pose proof (get_new (n_files s) a_socket) as Hg. destruct (fd_new (n_files s) a_socket) as [n t]. destruct Hg as (G1 & G2 & G3).
  assert (Ho : forall m, fd_get (n_files s) m <> None -> fd_get t m <> None). { intros m H. rewrite G2. now destruct (m =? n)%nat. }
  assert (Hsound : sound (mkNet t (n_bound s))).
  { constructor; cbn [n_files n_bound]; [|exact (so_files s Hs)|exact (so_ports s Hs)]. intros m p H. destruct (so_open s Hs m p H) as [X Y]. split; [exact (Ho m X)|exact Y]. }
  assert (Hclose : close_socket (mkNet t (n_bound s)) n = mkNet (fd_set t n None) (n_bound s)).
  { unfold close_socket. cbn [n_files n_bound]. f_equal. apply filter_all. intros [m p] H. cbn [fst]. destruct (Nat.eqb_spec m n); [|reflexivity]. subst m.
    destruct (so_open s Hs n p H) as [X _]. contradiction. }
  assert (Hsame : forall m, fd_get (fd_set t n None) m = fd_get (n_files s) m).
  { intros m. rewrite get_set, G2. destruct (Nat.eqb_spec m n); [subst; now rewrite G1|reflexivity]. }
  assert (Hclosed : sound (mkNet (fd_set t n None) (n_bound s))).
  { constructor; cbn [n_files n_bound]; [|exact (so_files s Hs)|exact (so_ports s Hs)]. intros m p H. rewrite Hsame. exact (so_open s Hs m p H). }
  destruct (t_option a) eqn:E2; cbn [negb].
  2:{ split; [exact Hsound|]. right. split; [intros (_ & X & _); congruence|]. split; [reflexivity|]. split; [reflexivity|]. split; [exact Ho|discriminate]. }
  destruct (negb (t_free a) || in_use (n_bound s) port) eqn:E3.
  { rewrite Hclose. split; [exact Hclosed|]. right. split.
    - intros (_ & _ & X & _ & Y). rewrite X in E3. cbn [negb orb] in E3. apply in_use_spec in E3. contradiction.
    - split; [reflexivity|]. split; [reflexivity|]. cbn [n_files]. split; [intros m H; rewrite Hsame; exact H|intros _; exact Hsame]. }
  apply orb_false_iff in E3 as [E3 E4]. apply negb_false_iff in E3.
  destruct (t_listen a) eqn:E5; cbn [negb].
  2:{ rewrite Hclose. split; [exact Hclosed|]. right. split; [intros (_ & _ & _ & X & _); congruence|].
      split; [reflexivity|]. split; [reflexivity|]. cbn [n_files]. split; [intros m H; rewrite Hsame; exact H|intros _; exact Hsame]. }
  assert (Hport : ~ In port (map snd (n_bound s))). { intros X. apply in_use_spec in X. congruence. }
  split.
  - constructor; cbn [n_files n_bound map fst snd].
    + intros m p [E|H]; [injection E as <- <-; split; [rewrite G2, Nat.eqb_refl; discriminate|exact Hp]|]. destruct (so_open s Hs m p H) as [X Y]. split; [exact (Ho m X)|exact Y].
    + constructor; [exact (not_bound s n Hs G1)|exact (so_files s Hs)].
    + constructor; [exact Hport|exact (so_ports s Hs)].
  - left. exists n. split; [exact (conj E1 (conj E2 (conj E3 (conj E5 Hport))))|]. split; [reflexivity|]. split; [exact G1|]. split; [exact G3|]. split; [reflexivity|exact G2].
Qed.

(** What the loop keeps: everything that listened goes on listening. *)
Lemma nth_tl l i : attempt (tl l) i = attempt l (S i).
Proof. unfold attempt. destruct l; [destruct i; reflexivity|reflexivity]. Qed.
Definition told (port : Z) : Z := if port =? 65535 then 9089 else port.
Lemma next_told p : range p -> next_port p - 1 = told p.
Proof. unfold range, next_port, told, TRAX_DEFAULT_PORT. intros H. destruct (Z.ltb_spec 65535 (p + 1)), (Z.eqb_spec p 65535); lia. Qed.

(** The loop, with at least one attempt. *)
Lemma try_sound n : forall sid port s l sid' port' s', sound s -> range port -> try_ports (S n) sid port s l = (sid', port', s') ->
  sound s' /\ range port' /\ (forall m, fd_get (n_files s) m <> None -> fd_get (n_files s') m <> None) /\
  incl (n_bound s) (n_bound s') /\
  (0 <= sid' -> exists k p, sid' = Z.of_nat k /\ fd_get (n_files s) k = None /\ In (k, p) (n_bound s') /\ port' - 1 = told p).
Proof.
  induction n as [|n IH]; intros sid port s l sid' port' s' Hs Hp E; change (try_ports (S ?n) sid port s l) with
    (let '(sid', s') := create_server_socket s port (hd all_well l) in
      if 0 <? sid' then (sid', next_port port, s') else try_ports n sid' (next_port port) s' (tl l)) in E;
  pose proof (create_spec s port (hd all_well l) Hs Hp) as C; destruct (create_server_socket s port (hd all_well l)) as [sid1 s1]; destruct C as [Hs1 C];
  (assert (Hkeep : forall m, fd_get (n_files s) m <> None -> fd_get (n_files s1) m <> None);
   [destruct C as [(k & _ & _ & _ & _ & _ & G)|(_ & _ & _ & G & _)]; [|exact G]; intros m H; rewrite G; now destruct (m =? k)%nat|]);
  (assert (Hincl : incl (n_bound s) (n_bound s1));
   [destruct C as [(k & _ & _ & _ & _ & B & _)|(_ & _ & B & _ & _)]; rewrite B; [apply incl_tl|]; apply incl_refl|]);
  (assert (Hnew : 0 <= sid1 -> exists k p, sid1 = Z.of_nat k /\ fd_get (n_files s) k = None /\ In (k, p) (n_bound s1) /\ next_port port - 1 = told p);
   [intros Hz; destruct C as [(k & _ & E1 & G1 & _ & B & _)|(_ & E1 & _)]; [|lia]; exists k, port; split; [exact E1|]; split; [exact G1|];
    split; [rewrite B; now left|exact (next_told port Hp)]|]).
  - cbn [try_ports] in E. assert (E' : (sid1, next_port port, s1) = (sid', port', s')) by (now destruct (0 <? sid1)). injection E' as <- <- <-.
    split; [exact Hs1|]. split; [exact (next_range port Hp)|]. split; [exact Hkeep|]. split; [exact Hincl|exact Hnew].
  - destruct (Z.ltb_spec 0 sid1).
    + injection E as <- <- <-. split; [exact Hs1|]. split; [exact (next_range port Hp)|]. split; [exact Hkeep|]. split; [exact Hincl|exact Hnew].
    + destruct (IH _ _ _ _ _ _ _ Hs1 (next_range port Hp) E) as (I1 & I2 & I3 & I4 & I5). split; [exact I1|]. split; [exact I2|]. split; [intros m H1; exact (I3 m (Hkeep m H1))|].
      split; [exact (incl_tran Hincl I4)|]. intros Hz. destruct (I5 Hz) as (k & p & K1 & K2 & K3 & K4). exists k, p. split; [exact K1|]. split; [|split; [exact K3|exact K4]].
      destruct (fd_get (n_files s) k) eqn:X; [|reflexivity]. exfalso. apply (Hkeep k); [congruence|exact K2].
Qed.

(** The loop when descriptor 0 is taken: the first of the ports that can be used. *)
Definition grown (s s' : net) : Prop := sound s' /\ n_bound s' = n_bound s /\ (forall m, fd_get (n_files s) m <> None -> fd_get (n_files s') m <> None).
Lemma usable_grown s s' p a : n_bound s' = n_bound s -> (usable s' p a <-> usable s p a).
Proof. unfold usable. intros ->. reflexivity. Qed.
Lemma try_first n : forall sid port s l sid' port' s', sound s -> range port -> fd_get (n_files s) 0 <> None -> sid < 0 ->
  try_ports n sid port s l = (sid', port', s') ->
  (sid' < 0 /\ (forall i, (i < n)%nat -> ~ usable s (candidate port i) (attempt l i)) /\ n_bound s' = n_bound s /\
     (Forall (fun a => t_option a = true) l -> forall m, fd_get (n_files s') m = fd_get (n_files s) m)) \/
  (exists i k, (i < n)%nat /\ usable s (candidate port i) (attempt l i) /\ (forall j, (j < i)%nat -> ~ usable s (candidate port j) (attempt l j)) /\
     sid' = Z.of_nat k /\ (0 < k)%nat /\ fd_get (n_files s) k = None /\ n_bound s' = (k, candidate port i) :: n_bound s /\
     (Forall (fun a => t_option a = true) l -> forall m, fd_get (n_files s') m = if (m =? k)%nat then Some a_socket else fd_get (n_files s) m)).
Proof.
  induction n as [|n IH]; intros sid port s l sid' port' s' Hs Hp H0 Hsid E; cbn [try_ports] in E.
  - injection E as <- <- <-. left. split; [exact Hsid|]. split; [lia|]. split; [reflexivity|]. intros _ m. reflexivity.
  - pose proof (create_spec s port (hd all_well l) Hs Hp) as C. destruct (create_server_socket s port (hd all_well l)) as [sid1 s1]. destruct C as [Hs1 C].
    assert (Ha : hd all_well l = attempt l 0) by (destruct l; reflexivity). rewrite Ha in C.
    destruct C as [(k & U & E1 & G1 & G2 & B & G)|(U & E1 & B & K & G)].
    + assert (Hk : (0 < k)%nat). { destruct k; [contradiction|lia]. }
      replace (0 <? sid1) with true in E by lia. injection E as <- <- <-. right. exists 0%nat, k. rewrite (candidate_0 port Hp).
      split; [lia|]. split; [exact U|]. split; [lia|]. split; [exact E1|]. split; [exact Hk|]. split; [exact G1|]. split; [exact B|]. intros _. exact G.
    + subst sid1. cbn [Z.ltb Z.compare] in E.
      destruct (IH (-1) _ _ _ _ _ _ Hs1 (next_range port Hp) (K 0%nat H0) ltac:(lia) E) as [(I1 & I2 & I3 & I4)|(i & k & I1 & I2 & I3 & I4 & I5 & I6 & I7 & I8)].
      * left. split; [exact I1|]. split; [|split; [congruence|]].
        -- intros [|i] Hi; [rewrite (candidate_0 port Hp); exact U|]. rewrite (candidate_S port i Hp), <- nth_tl, <- (usable_grown s s1) by exact B. apply I2. lia.
        -- intros F m. assert (t_option (attempt l 0) = true) by (unfold attempt; destruct F; [reflexivity|assumption]). rewrite I4; [exact (G H m)|]. destruct F; [constructor|assumption].
      * right. exists (S i), k. rewrite (candidate_S port i Hp), <- nth_tl, <- (usable_grown s s1) by exact B. split; [lia|]. split; [exact I2|]. split.
        { intros [|j] Hj; [rewrite (candidate_0 port Hp); exact U|]. rewrite (candidate_S port j Hp), <- nth_tl, <- (usable_grown s s1) by exact B. apply I3. lia. }
        split; [exact I4|]. split; [exact I5|]. split.
        { destruct (fd_get (n_files s) k) eqn:X; [|reflexivity]. exfalso. apply (K k); [congruence|exact I6]. }
        split; [congruence|]. intros F m. assert (t_option (attempt l 0) = true) by (unfold attempt; destruct F; [reflexivity|assumption]).
        rewrite I8; [now rewrite (G H m)|]. destruct F; [constructor|assumption].
Qed.

(** ---- Histories of tracker objects ---- *)
Record world_ok (w : objects) : Prop := mkWorldOk {
  wo_sound : sound (o_net w);
  wo_next : range (o_next w);
  wo_live : forall v, In v (o_live w) -> exists k p, socket_id v = Z.of_nat k /\ In (k, p) (n_bound (o_net w)) /\ socket_port v = told p;
  wo_ids : NoDup (map socket_id (o_live w))
}.
Lemma beginning_ok t : world_ok (beginning t).
Proof.
  constructor; cbn [beginning o_net o_next o_live map]; [|unfold range; lia|intros v []|constructor].
  constructor; cbn [n_files n_bound map]; [intros n p []|constructor|constructor].
Qed.
Lemma remove_incl {A} (l : list A) i x : In x (remove_at l i) -> In x l.
Proof. revert i. induction l as [|y l IH]; intros [|i]; cbn [remove_at]; intros H; [exact H|exact H|now right|]. destruct H as [->|H]; [now left|right; exact (IH i H)]. Qed.
Lemma remove_split {A} (l : list A) i v : nth_error l i = Some v -> exists a b, l = a ++ v :: b /\ remove_at l i = a ++ b.
Proof.
  revert i. induction l as [|y l IH]; intros [|i]; cbn [nth_error remove_at]; intros H; try discriminate.
  - injection H as ->. exists [], l. auto.
  - destruct (IH i H) as (a & b & -> & ->). exists (y :: a), b. auto.
Qed.
Lemma listens_in s n p : listens s n = Some p -> In (n, p) (n_bound s).
Proof.
  unfold listens. destruct (find _ _) as [[m q]|] eqn:E; [|discriminate]. intros H. injection H as ->. apply find_some in E as [E1 E2]. cbn [fst] in E2. apply Nat.eqb_eq in E2. now subst m.
Qed.
Lemma in_listens s n p : NoDup (map fst (n_bound s)) -> In (n, p) (n_bound s) -> listens s n = Some p.
Proof.
  unfold listens. induction (n_bound s) as [|[m q] b IH]; intros Hd H; [contradiction|]. cbn [map fst] in Hd. inversion_clear Hd as [|? ? D1 D2]. cbn [find fst].
  destruct (Nat.eqb_spec m n).
  - subst m. destruct H as [E|H]; [injection E as ->; reflexivity|]. exfalso. apply D1. apply in_map_iff. exists (n, p). auto.
  - destruct H as [E|H]; [injection E as -> ->; contradiction|]. exact (IH D2 H).
Qed.
Lemma not_listens s n : listens s n = None -> ~ In n (map fst (n_bound s)).
Proof.
  unfold listens. destruct (find _ _) as [[m q]|] eqn:E; [discriminate|]. intros _ H. apply in_map_iff in H as ([m p] & <- & H). apply (find_none _ _ E) in H. cbn [fst] in H.
  now rewrite Nat.eqb_refl in H.
Qed.
Lemma NoDup_filter_map {A B} (f : A -> B) (g : A -> bool) l : NoDup (map f l) -> NoDup (map f (filter g l)).
Proof.
  induction l as [|x l IH]; intros H; [constructor|]. cbn [map] in H. inversion_clear H as [|? ? H1 H2]. cbn [filter]. destruct (g x); [|exact (IH H2)].
  cbn [map]. constructor; [|exact (IH H2)]. intros X. apply H1. apply in_map_iff in X as (y & E & X). apply filter_In in X as [X _]. apply in_map_iff. exists y. auto.
Qed.
Lemma close_sound s n : sound s -> sound (close_socket s n).
Proof.
  intros Hs. constructor; unfold close_socket; cbn [n_files n_bound].
  - intros m p H. apply filter_In in H as [H1 H2]. cbn [fst] in H2. destruct (so_open s Hs m p H1) as [X Y]. split; [|exact Y]. rewrite get_set. now destruct (m =? n)%nat.
  - apply NoDup_filter_map, (so_files s Hs).
  - apply NoDup_filter_map, (so_ports s Hs).
Qed.
Lemma change_ok w c : world_ok w -> world_ok (do_change w c).
Proof.
  intros Hw. destruct c as [l|i| |n]; cbn [do_change].
  - unfold state_create. destruct (try_ports 10 (-1) (o_next w) (o_net w) l) as [[sid port'] s'] eqn:E.
    destruct (try_sound 9 _ _ _ _ _ _ _ (wo_sound w Hw) (wo_next w Hw) E) as (T1 & T2 & T3 & T4 & T5).
    assert (Hold : forall v, In v (o_live w) -> exists k p, socket_id v = Z.of_nat k /\ In (k, p) (n_bound s') /\ socket_port v = told p).
    { intros v Hv. destruct (wo_live w Hw v Hv) as (k & p & L1 & L2 & L3). exists k, p. split; [exact L1|]. split; [exact (T4 _ L2)|exact L3]. }
    destruct (Z.ltb_spec sid 0).
    + constructor; cbn [o_net o_next o_live]; [exact T1|exact T2|exact Hold|exact (wo_ids w Hw)].
    + destruct (T5 ltac:(lia)) as (k & p & K1 & K2 & K3 & K4). constructor; cbn [o_net o_next o_live]; [exact T1|exact T2| |].
      * intros v Hv. apply in_app_or in Hv as [Hv|[<-|[]]]; [exact (Hold v Hv)|]. exists k, p. cbn [socket_id socket_port]. auto.
      * rewrite map_app. cbn [map socket_id]. apply (Permutation_NoDup (Permutation_cons_append (map socket_id (o_live w)) sid)).
        constructor; [|exact (wo_ids w Hw)]. intros X. apply in_map_iff in X as (v & E1 & X). destruct (wo_live w Hw v X) as (k' & p' & L1 & L2 & _).
        assert (k' = k) by lia. subst k'. destruct (so_open _ (wo_sound w Hw) k p' L2) as [Y _]. contradiction.
  - destruct (nth_error (o_live w) i) as [v|] eqn:E; [|exact Hw]. destruct (remove_split _ _ _ E) as (a & b & E1 & E2).
    pose proof (wo_ids w Hw) as Hids. rewrite E1, map_app in Hids. cbn [map] in Hids.
    destruct (wo_live w Hw v ltac:(rewrite E1; apply in_or_app; right; now left)) as (k & p & L1 & L2 & L3).
    unfold destroy_server_socket. rewrite L1. replace (Z.of_nat k <? 0) with false by lia. rewrite Nat2Z.id.
    constructor; cbn [o_net o_next o_live]; [exact (close_sound _ k (wo_sound w Hw))|exact (wo_next w Hw)| |].
    + rewrite E2. intros u Hu. assert (Hu' : In u (o_live w)) by (rewrite E1; apply in_app_or in Hu; apply in_or_app; destruct Hu; [left|right; right]; assumption).
      destruct (wo_live w Hw u Hu') as (k' & p' & M1 & M2 & M3). exists k', p'. split; [exact M1|]. split; [|exact M3]. unfold close_socket. cbn [n_bound]. apply filter_In. split; [exact M2|].
      cbn [fst]. destruct (Nat.eqb_spec k' k); [|reflexivity]. subst k'. exfalso. apply NoDup_remove_2 in Hids. apply Hids. rewrite <- map_app. apply in_map_iff. exists u. split; [congruence|exact Hu].
    + rewrite E2, map_app. exact (NoDup_remove_1 _ _ _ Hids).
  - constructor; cbn [o_net o_next o_live n_bound n_files]; [|exact (wo_next w Hw)|exact (wo_live w Hw)|exact (wo_ids w Hw)].
    pose proof (get_new (n_files (o_net w)) (Something 1)) as G. destruct (fd_new _ _) as [n t]. destruct G as (_ & G & _). cbn [snd].
    pose proof (wo_sound w Hw) as Hs. constructor; cbn [n_files n_bound]; [|exact (so_files _ Hs)|exact (so_ports _ Hs)].
    intros m p H. destruct (so_open _ Hs m p H) as [X Y]. split; [|exact Y]. rewrite G. now destruct (m =? n)%nat.
  - destruct (listens (o_net w) n) eqn:E; [exact Hw|]. pose proof (wo_sound w Hw) as Hs.
    constructor; cbn [o_net o_next o_live n_bound n_files]; [|exact (wo_next w Hw)|exact (wo_live w Hw)|exact (wo_ids w Hw)].
    constructor; cbn [n_files n_bound]; [|exact (so_files _ Hs)|exact (so_ports _ Hs)].
    intros m p H. destruct (so_open _ Hs m p H) as [X Y]. split; [|exact Y]. rewrite get_set. destruct (Nat.eqb_spec m n); [|exact X]. subst m. exfalso.
    apply (not_listens _ _ E). apply in_map_iff. exists (n, p). auto.
Qed.
Lemma changes_ok l : forall w, world_ok w -> world_ok (do_changes w l).
Proof. induction l as [|c l IH]; intros w H; [exact H|]. apply IH, change_ok, H. Qed.

Lemma nth_map_id (w : objects) i v : nth_error (o_live w) i = Some v -> nth_error (map socket_id (o_live w)) i = Some (socket_id v).
Proof. intros H. apply map_nth_error, H. Qed.
Lemma ports_told t l w : w = do_changes (beginning t) l ->
  (forall i v, nth_error (o_live w) i = Some v -> exists port, listens_on w v port /\ 9090 <= port <= 65535 /\ (port <> 65535 -> socket_port v = port)) /\
  (forall i j u v p, nth_error (o_live w) i = Some u -> nth_error (o_live w) j = Some v -> listens_on w u p -> listens_on w v p -> i = j).
Proof.
  intros ->. pose proof (changes_ok l _ (beginning_ok t)) as Hw. set (w := do_changes (beginning t) l) in *. clearbody w. split.
  - intros i v Hi. apply nth_error_In in Hi. destruct (wo_live w Hw v Hi) as (k & p & L1 & L2 & L3). exists p.
    destruct (so_open _ (wo_sound w Hw) k p L2) as [_ R]. split; [|split; [exact R|]].
    + unfold listens_on. rewrite L1, Nat2Z.id. split; [lia|]. exact (in_listens _ k p (so_files _ (wo_sound w Hw)) L2).
    + intros Hp. rewrite L3. unfold told. now destruct (Z.eqb_spec p 65535).
  - intros i j u v p Hi Hj [U0 Hu] [V0 Hv]. apply listens_in in Hu, Hv.
    assert (E : Z.to_nat (socket_id u) = Z.to_nat (socket_id v)).
    { pose proof (so_ports _ (wo_sound w Hw)) as D. clear - D Hu Hv. induction (n_bound (o_net w)) as [|[m q] b IH]; [contradiction|]. cbn [map snd] in D. inversion_clear D as [|? ? D1 D2].
      destruct Hu as [Eu|Hu], Hv as [Ev|Hv].
      - injection Eu as -> ->. injection Ev as ->. reflexivity.
      - injection Eu as -> ->. exfalso. apply D1, in_map_iff. exists (Z.to_nat (socket_id v), p). auto.
      - injection Ev as -> ->. exfalso. apply D1, in_map_iff. exists (Z.to_nat (socket_id u), p). auto.
      - exact (IH Hu Hv D2). }
    apply (proj1 (NoDup_nth_error (map socket_id (o_live w))) (wo_ids w Hw)); [apply nth_error_Some; rewrite (nth_map_id w i u Hi); discriminate|].
    rewrite (nth_map_id w i u Hi), (nth_map_id w j v Hj). f_equal. lia.
Qed.
Lemma ten_candidates t l w r : w = do_changes (beginning t) l -> fd_get (n_files (o_net w)) 0 <> None ->
  match state_create (o_net w) (o_next w) r with
  | (Some v, _, s') => exists i port, (i < 10)%nat /\ port = candidate (o_next w) i /\ usable (o_net w) port (attempt r i) /\
      (forall j, (j < i)%nat -> ~ usable (o_net w) (candidate (o_next w) j) (attempt r j)) /\
      0 <= socket_id v /\ listens s' (Z.to_nat (socket_id v)) = Some port
  | (None, _, s') => (forall i, (i < 10)%nat -> ~ usable (o_net w) (candidate (o_next w) i) (attempt r i)) /\
      (Forall (fun a => t_option a = true) r -> same_table (n_files s') (n_files (o_net w)))
  end.
Proof.
  intros -> H0. pose proof (changes_ok l _ (beginning_ok t)) as Hw. set (w := do_changes (beginning t) l) in *. clearbody w. unfold state_create.
  destruct (try_ports 10 (-1) (o_next w) (o_net w) r) as [[sid port'] s'] eqn:E.
  destruct (try_sound 9 _ _ _ _ _ _ _ (wo_sound w Hw) (wo_next w Hw) E) as (T1 & _).
  destruct (try_first 10 (-1) _ _ _ _ _ _ (wo_sound w Hw) (wo_next w Hw) H0 ltac:(lia) E) as [(F1 & F2 & F3 & F4)|(i & k & F1 & F2 & F3 & F4 & F5 & F6 & F7 & F8)].
  - replace (sid <? 0) with true by lia. split; [exact F2|exact F4].
  - replace (sid <? 0) with false by lia. exists i, (candidate (o_next w) i). cbn [socket_id]. split; [exact F1|]. split; [reflexivity|]. split; [exact F2|]. split; [exact F3|]. split; [lia|].
    rewrite F4, Nat2Z.id. apply (in_listens _ k _ (so_files _ T1)). rewrite F7. now left.
Qed.

(** Giving back. *)
Record balanced (t : table) (w : objects) : Prop := mkBalanced {
  ba_ok : world_ok w;
  ba_zero : fd_get (n_files (o_net w)) 0 <> None;
  ba_bound : forall k p, In (k, p) (n_bound (o_net w)) -> In (Z.of_nat k) (map socket_id (o_live w)) /\ fd_get t k = None;
  ba_get : forall m, ~ In m (map fst (n_bound (o_net w))) -> fd_get (n_files (o_net w)) m = fd_get t m
}.
Lemma change_balanced t w c : fd_get t 0 <> None -> only_objects c -> balanced t w -> balanced t (do_change w c).
Proof.
  intros Ht Hc B. pose proof (change_ok w c (ba_ok t w B)) as Hok. destruct c as [l|i| |n]; cbn [only_objects] in Hc; [| |contradiction|contradiction].
  - cbn [do_change] in *. unfold state_create in *. destruct (try_ports 10 (-1) (o_next w) (o_net w) l) as [[sid port'] s'] eqn:E.
    pose proof (ba_ok t w B) as Hw.
    destruct (try_first 10 (-1) _ _ _ _ _ _ (wo_sound w Hw) (wo_next w Hw) (ba_zero t w B) ltac:(lia) E) as [(F1 & F2 & F3 & F4)|(i & k & F1 & F2 & F3 & F4 & F5 & F6 & F7 & F8)].
    + replace (sid <? 0) with true in * by lia. specialize (F4 Hc). constructor; [exact Hok| | |]; cbn [o_net o_live].
      * rewrite F4. exact (ba_zero t w B).
      * rewrite F3. exact (ba_bound t w B).
      * rewrite F3. intros m Hm. rewrite F4. exact (ba_get t w B m Hm).
    + replace (sid <? 0) with false in * by lia. specialize (F8 Hc). constructor; [exact Hok| | |]; cbn [o_net o_live].
      * rewrite F8. destruct (0 =? k)%nat; [discriminate|exact (ba_zero t w B)].
      * rewrite F7, map_app. cbn [map socket_id]. intros k' p [X|X].
        -- injection X as X _. subst k'. split; [rewrite F4; apply in_or_app; right; now left|]. rewrite <- (ba_get t w B k); [exact F6|]. exact (not_bound _ _ (wo_sound w Hw) F6).
        -- destruct (ba_bound t w B k' p X) as [Y Y2]. split; [apply in_or_app; left; exact Y|exact Y2].
      * rewrite F7. cbn [map fst]. intros m Hm. rewrite F8. destruct (Nat.eqb_spec m k); [subst; exfalso; apply Hm; now left|]. apply (ba_get t w B). intros X. apply Hm. now right.
  - cbn [do_change] in *. destruct (nth_error (o_live w) i) as [v|] eqn:E; [|exact B]. destruct (remove_split _ _ _ E) as (a & b & E1 & E2).
    pose proof (ba_ok t w B) as Hw. destruct (wo_live w Hw v ltac:(rewrite E1; apply in_or_app; right; now left)) as (k & p & L1 & L2 & L3).
    unfold destroy_server_socket in *. rewrite L1 in *. replace (Z.of_nat k <? 0) with false in * by lia. rewrite Nat2Z.id in *.
    destruct (ba_bound t w B k p L2) as [_ Hk].
    constructor; [exact Hok| | |]; unfold close_socket; cbn [o_net o_live n_files n_bound].
    + rewrite get_set. destruct (Nat.eqb_spec 0 k); [subst k; contradiction|exact (ba_zero t w B)].
    + intros k' p' H. apply filter_In in H as [H1 H2]. cbn [fst] in H2. destruct (ba_bound t w B k' p' H1) as [X Y]. split; [|exact Y]. rewrite E2, map_app.
      rewrite E1, map_app in X. cbn [map] in X. apply in_app_or in X as [X|[X|X]]; [apply in_or_app; now left| |apply in_or_app; now right].
      rewrite L1 in X. destruct (Nat.eqb_spec k' k); [discriminate H2|lia].
    + intros m Hm. rewrite get_set. destruct (Nat.eqb_spec m k); [subst m; now rewrite Hk|]. apply (ba_get t w B). intros X. apply Hm.
      apply in_map_iff in X as ([m' q] & E3 & X). cbn [fst] in E3. subst m'. apply in_map_iff. exists (m, q). split; [reflexivity|]. apply filter_In. split; [exact X|]. cbn [fst]. now destruct (Nat.eqb_spec m k).
Qed.
Lemma changes_balanced t l : forall w, fd_get t 0 <> None -> Forall only_objects l -> balanced t w -> balanced t (do_changes w l).
Proof. induction l as [|c l IH]; intros w Ht Hl B; [exact B|]. inversion_clear Hl. apply IH; [exact Ht|assumption|]. apply change_balanced; assumption. Qed.
Lemma ports_given_back t l w : fd_get t 0 <> None -> Forall only_objects l -> w = do_changes (beginning t) l -> o_live w = [] ->
  n_bound (o_net w) = [] /\ same_table (n_files (o_net w)) t.
Proof.
  intros Ht Hl -> Hlive. assert (B : balanced t (beginning t)).
  { constructor; [exact (beginning_ok t)|exact Ht|intros k p []|intros m _; reflexivity]. }
  apply (changes_balanced t l _ Ht Hl) in B. set (w := do_changes (beginning t) l) in *. clearbody w.
  assert (Hb : n_bound (o_net w) = []).
  { destruct (n_bound (o_net w)) as [|[k p] b] eqn:E; [reflexivity|]. destruct (ba_bound t w B k p) as [X _]; [rewrite E; now left|]. rewrite Hlive in X. contradiction. }
  split; [exact Hb|]. intros m. apply (ba_get t w B). rewrite Hb. exact (fun x => x).
Qed.

(** ---- The environment of a tracker ---- *)
Lemma describe_prepared mode port environ given :
  describe mode port environ given = prepared (match mode with ExplicitStreams => true | _ => false end) (env (describe mode port environ given)).
Proof.
  assert (A : forall b l p, p = prepared b (env p) -> fold_left copy_variable l p = prepared b (env (fold_left copy_variable l p))).
  { intros b l. induction l as [|x l IH]; intros p H; [exact H|]. cbn [fold_left]. apply IH. unfold copy_variable. destruct (split_eq x) as [[k v]|]; [|exact H]. rewrite H. reflexivity. }
  assert (B : forall b l p, p = prepared b (env p) -> fold_left set_variable l p = prepared b (env (fold_left set_variable l p))).
  { intros b l. induction l as [|x l IH]; intros p H; [exact H|]. cbn [fold_left]. apply IH. unfold set_variable. rewrite H. reflexivity. }
  unfold describe, copy_environment. cbv zeta. destruct mode.
  - apply B, A. reflexivity.
  - apply B, A. reflexivity.
  - rewrite (B false given _ (A false environ (process_create false) eq_refl)) at 1. reflexivity.
Qed.
Lemma set_all_assoc g : names_ok g -> forall p, names_ok (env p) ->
  names_ok (env (fold_left set_variable g p)) /\
  forall name, unset name g -> assoc (env (fold_left set_variable g p)) name = assoc (env p) name.
Proof.
  induction g as [|[k v] g IH]; intros Hg p Hp; [split; [exact Hp|reflexivity]|]. inversion_clear Hg as [|? ? H1 H2]. cbn [fst] in H1. cbn [fold_left].
  destruct (IH H2 (set_variable p (k, v)) (names_set (env p) k v Hp H1)) as [I1 I2]. split; [exact I1|]. intros name Hn. unfold unset in *. cbn [map fst In] in Hn.
  rewrite I2 by (intros X; apply Hn; now right). unfold set_variable. cbn [fst snd set_environment with_env env]. rewrite assoc_set.
  destruct (bytes_eqb name k) eqn:E; [|reflexivity]. apply bytes_eqb_eq in E. exfalso. apply Hn. left. symmetry. exact E.
Qed.
Lemma unset_assoc e name : unset name e -> assoc e name = None.
Proof.
  unfold unset. induction e as [|[k v] e IH]; intros H; [reflexivity|]. cbn [assoc]. cbn [map fst In] in H. destruct (bytes_eqb name k) eqn:E; [|apply IH; intros X; apply H; now right].
  apply bytes_eqb_eq in E. exfalso. apply H. left. symmetry. exact E.
Qed.
Lemma assoc_unset e name : assoc e name = None -> unset name e.
Proof.
  unfold unset. induction e as [|[k v] e IH]; intros H; [exact (fun x => x)|]. cbn [assoc] in H. cbn [map fst In]. destruct (bytes_eqb name k) eqn:E; [discriminate|].
  intros [X|X]; [subst k; rewrite bytes_eqb_refl in E; discriminate|exact (IH H X)].
Qed.
Lemma unset_rev e name : unset name e -> unset name (rev e).
Proof. unfold unset. intros H X. apply H. rewrite map_rev in X. apply in_rev. exact X. Qed.
(** The variables of the described process. *)
Lemma described port l given mode : names_ok l -> names_ok given ->
  names_ok (env (describe mode port (map setting l) given)) /\
  (mode <> Sockets -> forall name, unset name l -> unset name given -> unset name (env (describe mode port (map setting l) given))) /\
  (mode <> Sockets -> forall name, unset name given -> assoc (env (describe mode port (map setting l) given)) name = assoc (rev l) name) /\
  (mode = Sockets -> assoc (env (describe mode port (map setting l) given)) (str "TRAX_SOCKET") = Some (print_Z port)).
Proof.
  intros Hl Hg. assert (C : forall b, names_ok (env (process_create b))) by (intros b; constructor).
  assert (D : forall b, names_ok (env (fold_left set_variable given (copy_environment (process_create b) (map setting l)))) /\
    forall name, unset name given -> assoc (env (fold_left set_variable given (copy_environment (process_create b) (map setting l)))) name = assoc (rev l) name).
  { intros b. change (map setting l) with (map entry l). destruct (copy_assoc l Hl (process_create b) (C b)) as [C1 C2].
    destruct (set_all_assoc given Hg _ C1) as [S1 S2]. split; [exact S1|]. intros name Hn. rewrite (S2 name Hn), C2. cbn [process_create env assoc]. now destruct (assoc (rev l) name). }
  destruct mode; unfold describe; cbv zeta.
  - destruct (D false) as [D1 D2]. split; [exact D1|]. split; [|split; [intros _; exact D2|discriminate]]. intros _ name H1 H2. apply assoc_unset. rewrite (D2 name H2). apply unset_assoc, unset_rev, H1.
  - destruct (D true) as [D1 D2]. split; [exact D1|]. split; [|split; [intros _; exact D2|discriminate]]. intros _ name H1 H2. apply assoc_unset. rewrite (D2 name H2). apply unset_assoc, unset_rev, H1.
  - destruct (D false) as [D1 D2]. split.
    + apply (names_set _ (str "TRAX_SOCKET") (print_Z port) D1). vm_compute. intuition discriminate.
    + split; [congruence|]. split; [congruence|]. intros _. unfold set_environment. cbn [with_env env]. rewrite assoc_set, bytes_eqb_refl. reflexivity.
Qed.
Lemma atoi_print z : 0 <= z <= 2147483647 -> atoi (print_Z z) = z.
Proof.
  intros Hz. unfold atoi. destruct (Z.eq_dec z 0) as [->|]; [vm_compute; reflexivity|].
  pose proof (strtol_print z [] ltac:(unfold INT_MAX; lia) Logic.I) as H. rewrite app_nil_r in H. rewrite H. cbn [fst]. apply int_of_long_id. unfold INT_MAX. lia.
Qed.
Lemma no_eq_socket : ~ In c_eq (str "TRAX_SOCKET"). Proof. vm_compute. intuition discriminate. Qed.
Lemma no_eq_in : ~ In c_eq (str "TRAX_IN"). Proof. vm_compute. intuition discriminate. Qed.
Lemma no_eq_out : ~ In c_eq (str "TRAX_OUT"). Proof. vm_compute. intuition discriminate. Qed.

Lemma socket_told s port l given a id : (3 <= pipes_possible a)%nat -> spawned a = Some id -> names_ok l -> names_ok given -> 0 <= port <= 65535 ->
  exists s' p' c, process_start s (describe Sockets port (map setting l) given) a = Ok (true, s', p') /\ the_child s' = Some c /\ c_pid c = id /\
    server_channel (c_vars c) = ConnectTo port.
Proof.
  intros Hp Hs Hl Hg Hport. destruct (described port l given Sockets Hl Hg) as (D1 & _ & _ & D2). specialize (D2 eq_refl).
  rewrite (describe_prepared Sockets). set (e := env _) in *. clearbody e.
  destruct (start_ok s false e a id Hp Hs) as (s3 & o & i & er & t & _ & _ & _ & E). eexists _, _, _. split; [exact E|]. split; [reflexivity|]. split; [reflexivity|].
  cbn [c_vars]. unfold spawn_vars. cbn [explicit_mode env prepared with_env process_create]. rewrite app_nil_r.
  unfold server_channel. rewrite (getenv_assoc e _ D1 no_eq_socket), D2. rewrite atoi_print by lia. unfold htons. rewrite Z.mod_small by lia. reflexivity.
Qed.
Lemma default_channel s l given port a id : fresh_os s -> (3 <= pipes_possible a)%nat -> spawned a = Some id -> names_ok l -> names_ok given -> no_channel l -> no_channel given ->
  exists s' p' c inp outp, process_start s (describe DefaultStreams port (map setting l) given) a = Ok (true, s', p') /\ the_child s' = Some c /\ c_pid c = id /\
    server_channel (c_vars c) = Streams 0 1 /\ fd_get (c_files c) 0 = Some (ReadEnd inp) /\ fd_get (c_files c) 1 = Some (WriteEnd outp) /\
    refers (files s') (get_input p') (WriteEnd inp) /\ refers (files s') (get_output p') (ReadEnd outp).
Proof.
  intros Hf Hp Hs Hl Hg (A1 & A2 & A3) (B1 & B2 & B3). destruct (described port l given DefaultStreams Hl Hg) as (D1 & D2 & _). specialize (D2 ltac:(discriminate)).
  rewrite (describe_prepared DefaultStreams). set (e := env _) in *.
  destruct (streams_default s e a id Hf Hp Hs) as (s' & p' & c & inp & outp & errp & E1 & E2 & E3 & _ & E5 & E6 & E7 & _ & E9 & E10 & _).
  exists s', p', c, inp, outp. split; [exact E1|]. split; [exact E2|]. split; [exact E3|]. split; [|auto].
  rewrite E5. unfold server_channel. change (map setting e) with (map entry e).
  rewrite !getenv_assoc by (exact D1 || exact no_eq_socket || exact no_eq_in || exact no_eq_out).
  rewrite !unset_assoc by (apply D2; assumption). reflexivity.
Qed.
Lemma new_le t k : (fst (fd_new t k) <= List.length t)%nat /\ (List.length (snd (fd_new t k)) <= S (List.length t))%nat.
Proof.
  induction t as [|[x|] t IH]; cbn [fd_new fst snd List.length]; [lia| |lia]. destruct IH. lia.
Qed.
Lemma pipe_le s : (snd (fst (sys_pipe s)) <= S (List.length (files s)))%nat /\ (fst (fst (sys_pipe s)) <= List.length (files s))%nat /\
  (List.length (files (snd (sys_pipe s))) <= S (S (List.length (files s))))%nat.
Proof.
  unfold sys_pipe. pose proof (new_le (files s) (ReadEnd (pipes s))) as [N1 N2]. destruct (fd_new (files s) _) as [r t1]. cbn [fst snd] in *.
  pose proof (new_le t1 (WriteEnd (pipes s))) as [M1 M2]. destruct (fd_new t1 _) as [w t2]. cbn [fst snd files] in *. lia.
Qed.
Lemma start_length s p a s' p' : process_start s p a = Ok (true, s', p') -> (List.length (files s') <= List.length (files s) + 6)%nat.
Proof.
  unfold process_start. destruct (running p); [discriminate|]. destruct (negb (pid p =? 0)); [discriminate|]. destruct (pipes_possible a) as [|[|[|n]]]; try discriminate.
  - destruct (sys_pipe s) as [o s1]. discriminate.
  - destruct (sys_pipe s) as [o s1]. destruct (sys_pipe s1) as [i s2]. discriminate.
  - pose proof (pipe_le s) as (_ & _ & P1). destruct (sys_pipe s) as [o s1]. pose proof (pipe_le s1) as (_ & _ & P2). destruct (sys_pipe s1) as [i s2].
    pose proof (pipe_le s2) as (_ & _ & P3). destruct (sys_pipe s2) as [e s3]. cbn [snd] in *.
    destruct (spawned a) as [id|]; [destruct (perform_all _ _) as [t|]|].
    + intros H. injection H as <- _. cbn [files]. lia.
    + intros H. destruct (cleanup _ _) as [[? ?]| | |]; discriminate.
    + intros H. destruct (cleanup _ _) as [[? ?]| | |]; discriminate.
Qed.
Lemma get_length t n k : fd_get t n = Some k -> (n < List.length t)%nat.
Proof. unfold fd_get. intros H. destruct (Nat.lt_ge_cases n (List.length t)) as [L|L]; [exact L|]. rewrite nth_overflow in H by exact L. discriminate. Qed.
Lemma explicit_channel s l given port a id k2 : fresh_os s -> descriptors_fit s -> (3 <= pipes_possible a)%nat -> spawned a = Some id ->
  fd_get (files s) 2 = Some k2 -> names_ok l -> names_ok given -> no_channel l -> no_channel given ->
  exists s' p' c inp outp fi fo, process_start s (describe ExplicitStreams port (map setting l) given) a = Ok (true, s', p') /\ the_child s' = Some c /\ c_pid c = id /\
    server_channel (c_vars c) = Streams (Z.of_nat fi) (Z.of_nat fo) /\ fd_get (c_files c) fi = Some (ReadEnd inp) /\ fd_get (c_files c) fo = Some (WriteEnd outp) /\
    refers (files s') (get_input p') (WriteEnd inp) /\ refers (files s') (get_output p') (ReadEnd outp).
Proof.
  intros Hf Hd Hp Hs H2 Hl Hg (A1 & A2 & A3) (B1 & B2 & B3). destruct (described port l given ExplicitStreams Hl Hg) as (D1 & D2 & _). specialize (D2 ltac:(discriminate)).
  rewrite (describe_prepared ExplicitStreams). set (e := env _) in *.
  destruct (start_ok s true e a id Hp Hs) as (s3 & o & i & er & t & T & _ & Gt & E). pose proof (start_length _ _ _ _ _ E) as Len. cbn [files] in Len.
  destruct T as [(O1 & O2 & O3) G Fr Lo _]. cbn [negb andb] in Gt.
  assert (Q : forall m, In m [fst o; snd o; fst i; snd i; fst er; snd er] -> m <> 2%nat). { intros m Hm ->. rewrite (Fr _ Hm) in H2. discriminate. }
  assert (G1 : fd_get (files s3) (fst o) = Some (ReadEnd (pipes s))) by (rewrite G; eqbs; reflexivity).
  assert (G2 : fd_get (files s3) (snd i) = Some (WriteEnd (S (pipes s)))) by (rewrite G; eqbs; reflexivity).
  pose proof (Q (fst o) ltac:(cbn [In]; auto)) as Q1. pose proof (Q (snd i) ltac:(cbn [In]; auto 10)) as Q2.
  unfold descriptors_fit in Hd. apply get_length in G1 as L1. apply get_length in G2 as L2.
  eexists _, _, _, (pipes s), (S (pipes s)), (fst o), (snd i). split; [exact E|]. cbn [the_child c_pid c_vars c_files files].
  split; [reflexivity|]. split; [reflexivity|]. split.
  { cbn [c_vars]. unfold spawn_vars. cbn [explicit_mode env prepared with_env process_create]. unfold server_channel.
    rewrite (getenv_skip _ e _ D1 no_eq_socket (D2 _ A1 B1)), (getenv_skip _ e _ D1 no_eq_in (D2 _ A2 B2)), (getenv_skip _ e _ D1 no_eq_out (D2 _ A3 B3)).
    change (Streams (atoi (print_Z (Z.of_nat (fst o)))) (atoi (print_Z (Z.of_nat (snd i)))) = Streams (Z.of_nat (fst o)) (Z.of_nat (snd i))).
    clear - Hd L1 L2 Len. rewrite !atoi_print by lia. reflexivity. }
  cbn [c_files]. split. { rewrite Gt, G1. eqbs; reflexivity. } split. { rewrite Gt, G2. eqbs; reflexivity. }
  split. { exists (snd o). split; [reflexivity|]. rewrite G. eqbs; reflexivity. }
  exists (fst i). split; [reflexivity|]. rewrite G. eqbs; reflexivity.
Qed.
(** A variable that the client has got from its own client wins. *)
Lemma inherited_socket s mode l given port a id x : (3 <= pipes_possible a)%nat -> spawned a = Some id -> mode <> Sockets -> names_ok l -> NoDup (map fst l) -> names_ok given ->
  unset (str "TRAX_SOCKET") given -> In (str "TRAX_SOCKET", x) l ->
  exists s' p' c, process_start s (describe mode port (map setting l) given) a = Ok (true, s', p') /\ the_child s' = Some c /\
    server_channel (c_vars c) = ConnectTo (htons (atoi x)).
Proof.
  intros Hp Hs Hm Hl Hd Hg Hu Hx. destruct (described port l given mode Hl Hg) as (D1 & _ & D2 & _). specialize (D2 Hm).
  rewrite (describe_prepared mode). set (e := env _) in *. set (b := match mode with ExplicitStreams => true | _ => false end).
  destruct (start_ok s b e a id Hp Hs) as (s3 & o & i & er & t & _ & _ & _ & E). eexists _, _, _. split; [exact E|]. split; [reflexivity|]. cbn [c_vars].
  assert (X : assoc e (str "TRAX_SOCKET") = Some x).
  { rewrite (D2 _ Hu), (assoc_rev l _ Hd). clear - Hd Hx. induction l as [|[k v] l IH]; [contradiction|]. cbn [map fst] in Hd. inversion_clear Hd as [|? ? H1 H2]. cbn [assoc].
    destruct Hx as [E|Hx]; [injection E as -> ->; now rewrite bytes_eqb_refl|]. destruct (bytes_eqb (str "TRAX_SOCKET") k) eqn:E; [|exact (IH H2 Hx)].
    apply bytes_eqb_eq in E. subst k. exfalso. apply H1, in_map_iff. exists (str "TRAX_SOCKET", x). auto. }
  unfold server_channel, spawn_vars. cbn [explicit_mode env prepared with_env process_create].
  assert (Y : forall r, getenv (map entry e ++ r) (str "TRAX_SOCKET") = Some x).
  { intros r. rewrite <- X, <- (getenv_assoc e _ D1 no_eq_socket). rewrite <- (getenv_assoc e _ D1 no_eq_socket) in X. clear - X.
    induction (map entry e) as [|v vs IH]; [discriminate|]. cbn [app getenv] in *. destruct (starts_with _ v); [reflexivity|exact (IH X)]. }
  rewrite Y. reflexivity.
Qed.

(** ---- Connecting ---- *)
Lemma connect_waits answers : connect_loop answers = Ok tt <-> In true answers.
Proof.
  induction answers as [|[] l IH]; cbn [connect_loop]; [split; [discriminate|intros []]|split; [now left|reflexivity]|]. rewrite IH. cbn [In]. intuition discriminate.
Qed.
Lemma connect_never answers : ~ In true answers -> connect_loop answers = NoFuel.
Proof. induction answers as [|[] l IH]; cbn [connect_loop]; intros H; [reflexivity|exfalso; apply H; now left|]. apply IH. intros X. apply H. now right. Qed.
Lemma server_connects answers : server_connect true true answers = Ok tt <-> In true answers.
Proof.
  unfold server_connect, socket_connect. cbn [negb]. rewrite <- connect_waits. destruct (connect_loop answers) as [[]| | |]; cbn [obind]; split; intros H; (discriminate || reflexivity).
Qed.
Lemma server_hangs answers : server_connect true false answers = NoFuel.
Proof.
  unfold server_connect, socket_connect. cbn [negb]. rewrite connect_never; [reflexivity|]. intros X. apply in_map_iff in X as (x & X & _). discriminate.
Qed.
Lemma server_waits n : server_connect true true (repeat false n) = NoFuel.
Proof.
  unfold server_connect, socket_connect. cbn [negb]. rewrite connect_never; [reflexivity|]. intros X. apply repeat_spec in X. discriminate.
Qed.

(** ---- Accepting ---- *)
Lemma accept_alone timeout now d k : 0 <= timeout -> 0 <= d ->
  socket_accept [(now + d, k)] (now + 100) timeout None =
    if d <=? 100 + 1000 * timeout then (Accepted (now + Z.max 100 d) k, []) else (TimedOut (now + 100 + 1000 * timeout), [(now + d, k)]).
Proof.
  intros Ht Hd. unfold socket_accept, sys_select, first_arrival, before. replace (timeout <? 0) with false by lia. cbn [negb]. rewrite andb_true_r.
  destruct (Z.leb_spec d (100 + 1000 * timeout)).
  - replace (Z.max (now + 100) (now + d) <=? now + 100 + 1000 * timeout) with true by lia. cbn [sys_accept].
    replace (Z.max (Z.max (now + 100) (now + d)) (now + d)) with (now + Z.max 100 d) by lia. reflexivity.
  - replace (Z.max (now + 100) (now + d) <=? now + 100 + 1000 * timeout) with false by lia. reflexivity.
Qed.
Lemma own_launch timeout s d : 0 <= timeout -> l_queue s = [] -> l_runs s = false -> 0 <= d ->
  exists s', launch_process s timeout (Some d) None =
    (Some (if d <=? 100 + 1000 * timeout then Accepted (l_now s + Z.max 100 d) (S (l_last s)) else TimedOut (l_now s + 100 + 1000 * timeout)), s') /\ l_last s' = S (l_last s).
Proof.
  intros Ht Hq Hr Hd. unfold launch_process. rewrite Hr, Hq. cbn [arrive]. rewrite accept_alone by assumption. destruct (d <=? 100 + 1000 * timeout); eexists; split; reflexivity.
Qed.
Lemma silent_launch timeout s : 0 <= timeout -> l_queue s = [] -> l_runs s = false ->
  exists s', launch_process s timeout None None = (Some (TimedOut (l_now s + 100 + 1000 * timeout)), s') /\ l_queue s' = [].
Proof.
  intros Ht Hq Hr. unfold launch_process, socket_accept, sys_select. rewrite Hr, Hq. cbn [first_arrival]. replace (timeout <? 0) with false by lia. cbn match. eexists. split; reflexivity.
Qed.
Lemma history_own timeout l : 0 <= timeout -> Forall (in_time timeout) l -> forall s, l_queue s = [] ->
  Forall (fun x => exists t, snd x = Accepted t (fst x)) (fst (happens timeout s l)) /\ l_queue (snd (happens timeout s l)) = [].
Proof.
  intros Ht. induction 1 as [|h l Hh Hl IH]; intros s Hq; [split; [constructor|exact Hq]|]. cbn [happens].
  assert (A : Forall (fun x => exists t, snd x = Accepted t (fst x)) (fst (happen timeout s h)) /\ l_queue (snd (happen timeout s h)) = []).
  { destruct h as [[d|] [i|]| |ms]; cbn [in_time] in Hh; try contradiction; cbn [happen].
    - unfold launch_process. destruct (l_runs s) eqn:Hr; [split; [constructor|exact Hq]|]. rewrite Hq. cbn [arrive]. rewrite accept_alone by lia.
      replace (d <=? 100 + 1000 * timeout) with true by lia. cbn [fst snd l_queue l_last]. split; [|reflexivity]. constructor; [|constructor]. cbn [fst snd]. eexists. reflexivity.
    - split; [constructor|]. cbn [snd process_ends l_queue]. rewrite Hq. reflexivity.
    - split; [constructor|exact Hq]. }
  destruct (happen timeout s h) as [r s1]. cbn [fst snd] in A. destruct A as [A1 A2]. specialize (IH s1 A2). destruct (happens timeout s1 l) as [r' s2]. cbn [fst snd] in *. destruct IH as [I1 I2].
  split; [|exact I2]. apply Forall_app. auto.
Qed.
(** A negative timeout waits as long as it takes. *)
Lemma negative_waits timeout s d : timeout < 0 -> l_queue s = [] -> l_runs s = false -> 0 <= d ->
  exists s', launch_process s timeout (Some d) None = (Some (Accepted (l_now s + Z.max 100 d) (S (l_last s))), s').
Proof.
  intros Ht Hq Hr Hd. unfold launch_process, socket_accept, sys_select. rewrite Hr, Hq. cbn [arrive]. replace (timeout <? 0) with true by lia. cbn [sys_accept].
  replace (Z.max (l_now s + 100) (l_now s + d)) with (l_now s + Z.max 100 d) by lia. eexists. reflexivity.
Qed.
(** From the constructor to the tracker. *)
Lemma tracker_finds t h w i v s l given a id : w = do_changes (beginning t) h -> nth_error (o_live w) i = Some v ->
  (3 <= pipes_possible a)%nat -> spawned a = Some id -> names_ok l -> names_ok given ->
  exists port s' p' c, listens_on w v port /\ process_start s (describe Sockets (socket_port v) (map setting l) given) a = Ok (true, s', p') /\
    the_child s' = Some c /\ c_pid c = id /\ (port <> 65535 -> server_channel (c_vars c) = ConnectTo port).
Proof.
  intros Hw Hi Hp Hs Hl Hg. destruct (proj1 (ports_told t h w Hw) i v Hi) as (port & P1 & P2 & P3).
  assert (R : 0 <= socket_port v <= 65535).
  { pose proof (changes_ok h _ (beginning_ok t)) as Ok. rewrite <- Hw in Ok. apply nth_error_In in Hi. destruct (wo_live w Ok v Hi) as (k & p & _ & K2 & ->).
    destruct (so_open _ (wo_sound w Ok) k p K2) as [_ R]. unfold range in R. unfold told. destruct (Z.eqb_spec p 65535); lia. }
  destruct (socket_told s (socket_port v) l given a id Hp Hs Hl Hg R) as (s' & p' & c & C1 & C2 & C3 & C4).
  exists port, s', p', c. split; [exact P1|]. split; [exact C1|]. split; [exact C2|]. split; [exact C3|]. intros H. rewrite C4. f_equal. exact (P3 H).
Qed.
