(** Rasterised convex polygons: the nodes of a row, and the pixels between them. *)
From Coq Require Import Permutation Sorted.
From Verif Require Import CBase Num NumSpec NumProofs Buffer Region RegionSpec FloatOps FloatProofs RegionGeom GeomSpec GeomProofs BoundsProofs
  OverlapProofs RasterProofs PolygonSpec PolygonProofs ConvexProofs PolyRasterProofs.
Local Open Scope Z_scope.

(** ---- The nodes of a row belong to the sides that touch it ---- *)
Lemma row_nodes_at row pts zs : Forall2 rep_pt pts zs -> Z.abs row <= 2 ^ 23 -> forall pj zj, rep_pt pj zj ->
  exists ns, row_nodes edge_node row pj pts = Ok (map snd ns) /\ Forall (fun sn => node_at row (fst sn) (snd sn)) ns /\
    map fst ns = filter (touches row) (combine (zj :: zs) zs).
Proof.
  intros H Hrow. induction H as [|p z pts zs Hp H IH]; intros pj zj Hj; cbn [row_nodes].
  - exists []. split; [reflexivity|]. split; [constructor|reflexivity].
  - destruct (edge_node_at row pj p zj z Hj Hp Hrow) as (n & E & N). rewrite E. cbn [obind].
    destruct (IH p z Hp) as (ns & En & Fn & Mn). rewrite En. cbn [obind].
    change (combine (zj :: z :: zs) (z :: zs)) with ((zj, z) :: combine (z :: zs) zs). cbn [filter].
    destruct (touches row (zj, z)) eqn:Et.
    + exists (((zj, z), n) :: ns). split; [reflexivity|]. split; [constructor; [now apply N|exact Fn]|]. cbn [map fst]. now rewrite Mn.
    + exists ns. split; [reflexivity|]. split; [exact Fn|exact Mn].
Qed.

Lemma links_sides (zs : list point) d : Permutation (combine (last zs d :: zs) zs) (sides zs).
Proof.
  destruct zs as [|a l]; [constructor|]. rewrite (sides_split a l d).
  change (combine (last (a :: l) d :: a :: l) (a :: l)) with ((last (a :: l) d, a) :: combine (a :: l) l). apply Permutation_cons_append.
Qed.
Lemma filter_perm {A} (f : A -> bool) l l' : Permutation l l' -> Permutation (filter f l) (filter f l').
Proof.
  induction 1 as [|x l l' H IH|x y l|l l' l'' H1 IH1 H2 IH2]; cbn [filter]; [constructor| | |now transitivity (filter f l')].
  - destruct (f x); auto.
  - destruct (f x), (f y); auto. constructor.
Qed.

Lemma sorted_nodes_at pts zs row : Forall2 rep_pt pts zs -> Z.abs row <= 2 ^ 23 ->
  exists ns, Permutation (map snd ns) (sorted_nodes pts row) /\ sorted (sorted_nodes pts row) /\
    Forall (fun sn => node_at row (fst sn) (snd sn)) ns /\ Permutation (map fst ns) (filter (touches row) (sides zs)).
Proof.
  intros H Hrow. destruct (row_nodes_at row pts zs H Hrow _ _ (rep_last _ _ H)) as (ns & E & F & M).
  exists ns. destruct (bubble_sort_spec (map snd ns)) as (l' & E' & P & S').
  unfold sorted_nodes. rewrite E. cbn [obind]. rewrite E'. split; [exact P|]. split; [exact S'|]. split; [exact F|].
  rewrite M. apply filter_perm, links_sides.
Qed.

(** ---- A row whose nodes have two values is filled between them ---- *)
Lemma covered_const l c j : (2 <= List.length l)%nat -> (forall x, In x l -> x = c) -> covered l j = (c =? j).
Proof.
  induction l as [|a|a b l IH1 IH2] using list_ind2; intros L H; cbn [List.length] in L; try lia.
  assert (a = c) by (apply H; cbn; auto). assert (b = c) by (apply H; cbn; auto). subst a b. cbn [covered]. rewrite Z.eqb_refl. cbn [andb].
  destruct l as [|d l]; cbn [negb].
  - cbn [covered]. rewrite orb_false_r. lia.
  - apply (IH2 ltac:(cbn; lia)). intros x Hx. apply H. now right.
Qed.
Lemma covered_two l p q j : sorted l -> In p l -> In q l -> (2 <= List.length l)%nat -> p <= q -> (forall x, In x l -> x = p \/ x = q) ->
  covered l j = (p <=? j) && (j <=? q).
Proof.
  induction l as [|a|a b l IH1 IH2] using list_ind2; intros S' Hp Hq L Hpq H; cbn [List.length] in L; try lia.
  destruct (Z.eq_dec p q) as [<-|Hne].
  { rewrite (covered_const (a :: b :: l) p); [lia|cbn; lia|]. intros x Hx. destruct (H x Hx); assumption. }
  inversion S' as [|? ? S2 F]; subst. inversion S2 as [|? ? S3 F3]; subst. inversion F as [|? ? Fab F4]; subst.
  assert (Ea : a = p). { destruct Hp as [|Hp]; [assumption|]. destruct (H a ltac:(now left)) as [|E]; [assumption|]. subst a.
    rewrite Forall_forall in F. pose proof (F p Hp). lia. }
  subst a. destruct (H b ltac:(cbn; auto)) as [->| ->].
  - (* p twice *)
    assert (Hq' : In q (p :: l)) by (destruct Hq as [E|Hq]; [lia|exact Hq]).
    destruct l as [|d l]; [destruct Hq' as [E|[]]; lia|]. cbn [covered]. rewrite Z.eqb_refl. cbn [negb andb].
    apply (IH2 S2); [now left|exact Hq'|cbn; lia|exact Hpq|]. intros x Hx. apply H. now right.
  - cbn [covered]. replace (p =? q) with false by lia. cbn [andb].
    assert (A : forall x, In x l -> x = q). { intros x Hx. destruct (H x ltac:(cbn; auto)) as [->|]; [|assumption]. rewrite Forall_forall in F3. pose proof (F3 p Hx). lia. }
    assert (Cl : covered l j = true -> j = q).
    { destruct l as [|d [|e l]]; [discriminate|discriminate|]. rewrite (covered_const _ q) by (try exact A; cbn; lia). lia. }
    destruct (covered l j); [rewrite (Cl eq_refl); lia|]. now rewrite orb_false_r.
Qed.

(** ---- The rows of a convex polygon ---- *)
Definition node_sym (row : Z) (side : point * point) (n : Z) : Prop :=
  let '(a, b) := side in
  Z.abs (turn a b (n, row)) <= Z.abs (snd b - snd a) /\
  (snd a <> snd b -> (row = snd a -> n = fst a) /\ (row = snd b -> n = fst b)) /\
  (snd a = snd b -> n = fst a \/ n = fst b).
Lemma point_eq (p q : point) : fst p = fst q -> snd p = snd q -> p = q.
Proof. destruct p, q. cbn. congruence. Qed.
Lemma point_dec (p q : point) : {p = q} + {p <> q}.
Proof. decide equality; apply Z.eq_dec. Qed.

Section Row.
  Variables (pts : list point) (Y : Z) (ns : list ((point * point) * Z)).
  Hypothesis ND : NoDup pts.
  Hypothesis L3 : (3 <= List.length pts)%nat.
  Hypothesis CV : forall a b v, In (a, b) (sides pts) -> In v pts -> v <> a -> v <> b -> 0 < turn a b v.
  Hypothesis NA : Forall (fun sn => node_sym Y (fst sn) (snd sn)) ns.
  Hypothesis NS : Permutation (map fst ns) (filter (touches Y) (sides pts)).

  Definition goes_up (s : point * point) : Prop := snd (fst s) <= Y <= snd (snd s) /\ snd (fst s) < snd (snd s).
  Definition goes_down (s : point * point) : Prop := snd (snd s) <= Y <= snd (fst s) /\ snd (snd s) < snd (fst s).

  Lemma up_cases s : goes_up s -> up Y s = true \/ up (Y - 1) s = true.
  Proof. unfold goes_up, up. lia. Qed.
  Lemma down_cases s : goes_down s -> down Y s = true \/ down (Y - 1) s = true.
  Proof. unfold goes_down, down. lia. Qed.
  Lemma up_goes s : up Y s = true \/ up (Y - 1) s = true -> goes_up s.
  Proof. unfold goes_up, up. lia. Qed.
  Lemma down_goes s : down Y s = true \/ down (Y - 1) s = true -> goes_down s.
  Proof. unfold goes_down, down. lia. Qed.

  Lemma node_side s n : In (s, n) ns -> In s (sides pts) /\ touches Y s = true /\ node_sym Y s n.
  Proof.
    intros H. rewrite Forall_forall in NA. pose proof (NA _ H) as N. assert (I1 : In s (filter (touches Y) (sides pts))).
    { apply (Permutation_in _ NS). apply in_map_iff. now exists (s, n). }
    apply filter_In in I1 as [I1 I2]. auto.
  Qed.
  Lemma side_node s : In s (sides pts) -> touches Y s = true -> exists n, In (s, n) ns.
  Proof.
    intros H1 H2. assert (I1 : In s (filter (touches Y) (sides pts))) by now apply filter_In.
    apply (Permutation_in _ (Permutation_sym NS)) in I1. apply in_map_iff in I1 as ([s' n] & E & I1). cbn in E. subst. now exists n.
  Qed.
  Lemma node_unique s n m : In (s, n) ns -> In (s, m) ns -> n = m.
  Proof.
    intros H1 H2. assert (E : (s, n) = (s, m)); [|now injection E].
    apply (NoDup_map_inj fst ns); auto. eapply Permutation_NoDup; [symmetry; exact NS|]. apply NoDup_filter, sides_NoDup, ND.
  Qed.
  Lemma up_touches s : goes_up s -> touches Y s = true.
  Proof. unfold goes_up, touches, on_row. lia. Qed.
  Lemma down_touches s : goes_down s -> touches Y s = true.
  Proof. unfold goes_down, touches, on_row. lia. Qed.

  (** Two sides that go up through the row are one side, or meet on the row. *)
  Lemma up_meet s t : In s (sides pts) -> In t (sides pts) -> up (Y - 1) s = true -> up Y t = true -> s = t \/ (snd s = fst t /\ snd (snd s) = Y).
  Proof.
    intros Hs Ht U1 U2. destruct (up Y s) eqn:E1; [left; now apply (up_unique pts Y ND CV)|].
    destruct (up (Y - 1) t) eqn:E2; [left; now apply (up_unique pts (Y - 1) ND CV)|]. right.
    destruct s as [a b], t as [c d]. unfold up in *. cbn [fst snd] in *.
    assert (Hb : snd b = Y) by lia. assert (Hc : snd c = Y) by lia. split; [|exact Hb].
    destruct (point_dec b c) as [|N]; [assumption|exfalso].
    destruct (in_sides _ _ _ Hs) as [Ia Ib]. destruct (in_sides _ _ _ Ht) as [Ic Id].
    assert (Nca : c <> a) by (intros ->; lia). assert (Nbd : b <> d) by (intros ->; lia).
    pose proof (CV a b c Hs Ic Nca (not_eq_sym N)) as T1. pose proof (CV c d b Ht Ib N Nbd) as T2.
    assert (I1 : turn a b c = (snd b - snd a) * (fst b - fst c)) by (unfold turn; rewrite Hb, Hc; ring).
    assert (I2 : turn c d b = - ((snd d - snd c) * (fst b - fst c))) by (unfold turn; rewrite Hb, Hc; ring).
    rewrite I1 in T1. rewrite I2 in T2. nia.
  Qed.
  Lemma down_meet s t : In s (sides pts) -> In t (sides pts) -> down (Y - 1) s = true -> down Y t = true -> s = t \/ (fst s = snd t /\ snd (fst s) = Y).
  Proof.
    intros Hs Ht U1 U2. destruct (down Y s) eqn:E1; [left; now apply (down_unique pts Y ND CV)|].
    destruct (down (Y - 1) t) eqn:E2; [left; now apply (down_unique pts (Y - 1) ND CV)|]. right.
    destruct s as [a b], t as [c d]. unfold down in *. cbn [fst snd] in *.
    assert (Ha : snd a = Y) by lia. assert (Hd : snd d = Y) by lia. split; [|exact Ha].
    destruct (point_dec a d) as [|N]; [assumption|exfalso].
    destruct (in_sides _ _ _ Hs) as [Ia Ib]. destruct (in_sides _ _ _ Ht) as [Ic Id].
    assert (Ndb : d <> b) by (intros ->; lia). assert (Nac : a <> c) by (intros ->; lia).
    pose proof (CV a b d Hs Id (not_eq_sym N) Ndb) as T1. pose proof (CV c d a Ht Ia Nac N) as T2.
    assert (I1 : turn a b d = (snd a - snd b) * (fst d - fst a)) by (unfold turn; rewrite Ha, Hd; ring).
    assert (I2 : turn c d a = - ((snd c - snd d) * (fst d - fst a))) by (unfold turn; rewrite Ha, Hd; ring).
    rewrite I1 in T1. rewrite I2 in T2. nia.
  Qed.

  Lemma end_nodes a b n : In ((a, b), n) ns -> snd a <> snd b -> (Y = snd a -> n = fst a) /\ (Y = snd b -> n = fst b).
  Proof. intros H N. destruct (node_side _ _ H) as (_ & _ & _ & E & _). now apply E. Qed.

  Lemma up_nodes s t n m : In (s, n) ns -> In (t, m) ns -> goes_up s -> goes_up t -> n = m.
  Proof.
    assert (G : forall s t n m, In (s, n) ns -> In (t, m) ns -> up (Y - 1) s = true -> up Y t = true -> n = m).
    { intros s0 t0 n0 m0 H1 H2 U1 U2. destruct (up_meet s0 t0) as [<-|(E & EY)]; try assumption; try (eapply node_side; eassumption).
      - eapply node_unique; eassumption.
      - destruct s0 as [a b], t0 as [c d]. cbn [fst snd] in *. subst c. unfold up in *. cbn [fst snd] in *.
        rewrite (proj2 (end_nodes _ _ _ H1 ltac:(lia)) ltac:(lia)), (proj1 (end_nodes _ _ _ H2 ltac:(lia)) ltac:(lia)). reflexivity. }
    intros H1 H2 U1 U2. apply up_cases in U1, U2. destruct U1 as [U1|U1], U2 as [U2|U2].
    - assert (E : s = t) by (apply (up_unique pts Y ND CV); try assumption; eapply node_side; eassumption). subst. eapply node_unique; eassumption.
    - symmetry. eapply G; eassumption.
    - eapply G; eassumption.
    - assert (E : s = t) by (apply (up_unique pts (Y - 1) ND CV); try assumption; eapply node_side; eassumption). subst. eapply node_unique; eassumption.
  Qed.
  Lemma down_nodes s t n m : In (s, n) ns -> In (t, m) ns -> goes_down s -> goes_down t -> n = m.
  Proof.
    assert (G : forall s t n m, In (s, n) ns -> In (t, m) ns -> down (Y - 1) s = true -> down Y t = true -> n = m).
    { intros s0 t0 n0 m0 H1 H2 U1 U2. destruct (down_meet s0 t0) as [<-|(E & EY)]; try assumption; try (eapply node_side; eassumption).
      - eapply node_unique; eassumption.
      - destruct s0 as [a b], t0 as [c d]. cbn [fst snd] in *. subst d. unfold down in *. cbn [fst snd] in *.
        rewrite (proj1 (end_nodes _ _ _ H1 ltac:(lia)) ltac:(lia)), (proj2 (end_nodes _ _ _ H2 ltac:(lia)) ltac:(lia)). reflexivity. }
    intros H1 H2 U1 U2. apply down_cases in U1, U2. destruct U1 as [U1|U1], U2 as [U2|U2].
    - assert (E : s = t) by (apply (down_unique pts Y ND CV); try assumption; eapply node_side; eassumption). subst. eapply node_unique; eassumption.
    - symmetry. eapply G; eassumption.
    - eapply G; eassumption.
    - assert (E : s = t) by (apply (down_unique pts (Y - 1) ND CV); try assumption; eapply node_side; eassumption). subst. eapply node_unique; eassumption.
  Qed.

  (** No two horizontal sides meet. *)
  Lemma third a b : exists v, In v pts /\ v <> a /\ v <> b.
  Proof.
    destruct pts as [|x [|y [|z l]]]; cbn in L3; try lia. inversion ND as [|? ? N1 N2]; subst. inversion N2 as [|? ? N3 _]; subst.
    destruct (point_dec x a) as [->|Nx]; [|destruct (point_dec x b) as [->|Nx']; [|exists x; cbn; auto]].
    - destruct (point_dec y b) as [->|Ny]; [|exists y; split; [cbn; auto|split; [intros ->; apply N1; cbn; auto|exact Ny]]].
      exists z. split; [cbn; auto|]. split; intros ->; [apply N1|apply N3]; cbn; auto.
    - destruct (point_dec y a) as [->|Ny]; [|exists y; split; [cbn; auto|split; [exact Ny|intros ->; apply N1; cbn; auto]]].
      exists z. split; [cbn; auto|]. split; intros ->; [apply N3|apply N1]; cbn; auto.
  Qed.
  Lemma not_both_flat a b c : In (a, b) (sides pts) -> In (b, c) (sides pts) -> snd a = snd b -> snd b = snd c -> False.
  Proof.
    intros H1 H2 E1 E2. destruct (in_sides _ _ _ H1) as [Ia Ib]. destruct (in_sides _ _ _ H2) as [_ Ic].
    destruct (point_dec c b) as [->|Ncb].
    - destruct (third b b) as (v & Iv & Nv & _). pose proof (CV b b v H2 Iv Nv Nv). unfold turn in H. lia.
    - destruct (point_dec c a) as [->|Nca].
      + destruct (third a b) as (v & Iv & Nva & Nvb). pose proof (CV a b v H1 Iv Nva Nvb) as T1. pose proof (CV b a v H2 Iv Nvb Nva) as T2.
        rewrite turn_swap in T2. lia.
      + pose proof (CV a b c H1 Ic Nca Ncb) as T. unfold turn in T. rewrite <- E2, <- E1 in T. lia.
  Qed.

  (** A vertex on the row is the node of a side that goes up or down. *)
  Lemma vertex_node v : In v pts -> snd v = Y -> exists s, In (s, fst v) ns /\ (goes_up s \/ goes_down s).
  Proof.
    intros Hv EY. destruct (side_to pts v Hv) as [a Ha]. destruct (side_from pts v Hv) as [b Hb].
    destruct (Z.eq_dec (snd a) (snd v)) as [Ea|Na].
    - assert (Nb : snd v <> snd b) by (intros E; now apply (not_both_flat a v b)).
      destruct (side_node (v, b) Hb) as [n Hn]; [unfold touches, on_row; cbn [fst snd]; lia|].
      rewrite (proj1 (end_nodes _ _ _ Hn Nb) (eq_sym EY)) in Hn. exists (v, b). split; [exact Hn|]. unfold goes_up, goes_down. cbn [fst snd]. lia.
    - destruct (side_node (a, v) Ha) as [n Hn]; [unfold touches, on_row; cbn [fst snd]; lia|].
      rewrite (proj2 (end_nodes _ _ _ Hn Na) (eq_sym EY)) in Hn. exists (a, v). split; [exact Hn|]. unfold goes_up, goes_down. cbn [fst snd]. lia.
  Qed.
  Lemma node_slope s n : In (s, n) ns -> exists t, In (t, n) ns /\ (goes_up t \/ goes_down t).
  Proof.
    intros H. destruct s as [a b]. destruct (node_side _ _ H) as (Is & Ts & _ & _ & Ef). unfold touches, on_row in Ts. cbn [fst snd] in Ts.
    destruct (in_sides _ _ _ Is) as [Ia Ib]. destruct (Z.eq_dec (snd a) (snd b)) as [E|N].
    - destruct (Ef E) as [->| ->]; apply vertex_node; auto; lia.
    - exists (a, b). split; [exact H|]. unfold goes_up, goes_down. cbn [fst snd]. lia.
  Qed.
  (** A side that goes up, one that goes down. *)
  Lemma passes_in f : forall s, In s (sides pts) -> f s = true -> filter f (sides pts) = [] -> False.
  Proof. intros s Hs Hf E. assert (I1 : In s (filter f (sides pts))) by now apply filter_In. rewrite E in I1. destruct I1. Qed.
  Lemma both_ways s : In s (sides pts) -> goes_up s \/ goes_down s ->
    exists u d, In u (sides pts) /\ goes_up u /\ In d (sides pts) /\ goes_down d.
  Proof.
    assert (G : forall y, y = Y \/ y = Y - 1 -> forall s, In s (sides pts) -> up y s = true \/ down y s = true ->
      exists u d, In u (sides pts) /\ goes_up u /\ In d (sides pts) /\ goes_down d).
    { intros y Hy s0 Hs0 Hp. destruct (passing pts y ND CV) as [[E1 E2]|(u & d & _ & _ & Iu & Uu & Id & Dd)].
      - exfalso. destruct Hp as [Hp|Hp]; eapply passes_in; eassumption.
      - exists u, d. split; [exact Iu|]. split; [apply up_goes; destruct Hy; subst; auto|]. split; [exact Id|]. apply down_goes; destruct Hy; subst; auto. }
    intros Hs [H|H]; [apply up_cases in H as [H|H]|apply down_cases in H as [H|H]].
    - now apply (G Y (or_introl eq_refl) s); [|left].
    - now apply (G (Y - 1) (or_intror eq_refl) s); [|left].
    - now apply (G Y (or_introl eq_refl) s); [|right].
    - now apply (G (Y - 1) (or_intror eq_refl) s); [|right].
  Qed.

  (** The nodes have two values: of the way up and of the way down. *)
  Lemma row_structure : ns <> [] -> exists a b u c d w,
    In (a, b) (sides pts) /\ goes_up (a, b) /\ In ((a, b), u) ns /\ In (c, d) (sides pts) /\ goes_down (c, d) /\ In ((c, d), w) ns /\
    forall s n, In (s, n) ns -> n = u \/ n = w.
  Proof.
    intros NE. assert (exists s n, In (s, n) ns) as (s0 & n0 & H0) by (destruct ns as [|[s n] l]; [congruence|exists s, n; now left]).
    destruct (node_slope _ _ H0) as (t & Ht & Ut). destruct (node_side _ _ Ht) as (It & _).
    destruct (both_ways t It Ut) as ([a b] & [c d] & Iu & Uu & Id & Dd).
    destruct (side_node _ Iu (up_touches _ Uu)) as [u Hu]. destruct (side_node _ Id (down_touches _ Dd)) as [w Hw].
    exists a, b, u, c, d, w. split; [exact Iu|]. split; [exact Uu|]. split; [exact Hu|]. split; [exact Id|]. split; [exact Dd|]. split; [exact Hw|].
    intros s n H. destruct (node_slope _ _ H) as (t' & Ht' & [U|D]); [left; eapply up_nodes; eassumption|right; eapply down_nodes; eassumption].
  Qed.

  Section Pixels.
    Variable nodes : list Z.
    Hypothesis PN : Permutation (map snd ns) nodes.
    Hypothesis SN : sorted nodes.

    Lemma row_covered a b u c d w j : In ((a, b), u) ns -> In ((c, d), w) ns -> goes_up (a, b) -> goes_down (c, d) ->
      (forall s n, In (s, n) ns -> n = u \/ n = w) -> covered nodes j = (Z.min u w <=? j) && (j <=? Z.max u w).
    Proof.
      intros Hu Hw Ua Dc All. assert (Iu : In u nodes) by (apply (Permutation_in _ PN), in_map_iff; now exists ((a, b), u)).
      assert (Iw : In w nodes) by (apply (Permutation_in _ PN), in_map_iff; now exists ((c, d), w)).
      apply covered_two; auto.
      - destruct (Z.min_spec u w) as [(_ & ->)|(_ & ->)]; assumption.
      - destruct (Z.max_spec u w) as [(_ & ->)|(_ & ->)]; assumption.
      - rewrite <- (Permutation_length PN), map_length.
        destruct (in_split _ _ Hu) as (l1 & l2 & E). rewrite E, app_length. cbn [List.length].
        assert (H : In ((c, d), w) (l1 ++ l2)).
        { rewrite E in Hw. apply in_app_iff in Hw as [H|[H|H]]; [apply in_app_iff; auto| |apply in_app_iff; auto].
          exfalso. injection H as -> -> _. unfold goes_up, goes_down in *. cbn [fst snd] in *. lia. }
        destruct (l1 ++ l2) as [|x l] eqn:El; [destruct H|]. apply (f_equal (@List.length _)) in El. rewrite app_length in El. cbn in El. lia.
      - lia.
      - intros x Hx. apply (Permutation_in _ (Permutation_sym PN)) in Hx. apply in_map_iff in Hx as ([s n] & E & Hx). cbn in E. subst.
        destruct (All _ _ Hx); subst; lia.
    Qed.

    Lemma vertex_covered v : In v pts -> snd v = Y -> covered nodes (fst v) = true.
    Proof.
      intros Hv EY. destruct (vertex_node v Hv EY) as (s & Hs & _). assert (NE : ns <> []) by (intros E; rewrite E in Hs; destruct Hs).
      destruct (row_structure NE) as (a & b & u & c & d & w & Iu & Uu & Hu & Id & Dd & Hw & All).
      rewrite (row_covered a b u c d w) by assumption. destruct (All _ _ Hs) as [E|E]; rewrite E; lia.
    Qed.

    (** The crossings, as fractions *)
    Lemma crossings a b u c d w : In (a, b) (sides pts) -> goes_up (a, b) -> In ((a, b), u) ns -> In (c, d) (sides pts) -> goes_down (c, d) -> In ((c, d), w) ns ->
      exists n N m M, 0 < n /\ 0 < m /\ n * M <= m * N /\ (forall X, turn a b (X, Y) = N - n * X) /\ (forall X, turn c d (X, Y) = m * X - M) /\
        Z.abs (N - n * u) <= n /\ Z.abs (m * w - M) <= m /\
        forall e f, In (e, f) (sides pts) -> 0 <= (fst f - fst e) * (n * (Y - snd e)) - (snd f - snd e) * (N - n * fst e) /\
          0 <= (fst f - fst e) * (m * (Y - snd e)) - (snd f - snd e) * (M - m * fst e).
    Proof.
      intros Is Us Hu It Dt Hw. destruct (in_sides _ _ _ Is) as [Ia Ib]. destruct (in_sides _ _ _ It) as [Ic Id].
      destruct (node_side _ _ Hu) as (_ & _ & Au & _). destruct (node_side _ _ Hw) as (_ & _ & Aw & _).
      unfold goes_up in Us. unfold goes_down in Dt. cbn [fst snd] in Us, Dt. destruct Us as [[U1 U2] U3], Dt as [[D1 D2] D3].
      exists (snd b - snd a), ((snd b - Y) * fst a + (Y - snd a) * fst b), (snd c - snd d), ((Y - snd d) * fst c + (snd c - Y) * fst d).
      set (n := snd b - snd a) in *. set (N := (snd b - Y) * fst a + (Y - snd a) * fst b).
      set (m := snd c - snd d) in *. set (M := (Y - snd d) * fst c + (snd c - Y) * fst d).
      assert (Hn : 0 < n) by (unfold n; lia). assert (Hm : 0 < m) by (unfold m; lia).
      assert (Tab : forall X, turn a b (X, Y) = N - n * X) by (intros X; unfold turn, N, n; cbn [fst snd]; ring).
      assert (Tcd : forall X, turn c d (X, Y) = m * X - M) by (intros X; unfold turn, M, m; cbn [fst snd]; ring).
      assert (Line : forall e f, In (e, f) (sides pts) -> 0 <= (fst f - fst e) * (n * (Y - snd e)) - (snd f - snd e) * (N - n * fst e) /\
          0 <= (fst f - fst e) * (m * (Y - snd e)) - (snd f - snd e) * (M - m * fst e)).
      { intros p q Hpq. split.
        - assert (I : (fst q - fst p) * (n * (Y - snd p)) - (snd q - snd p) * (N - n * fst p) =
            (snd b - Y) * turn p q a + (Y - snd a) * turn p q b) by (unfold turn, n, N; ring).
          rewrite I. apply Z.add_nonneg_nonneg; apply Z.mul_nonneg_nonneg; try lia; now apply (turn_nonneg pts CV).
        - assert (I : (fst q - fst p) * (m * (Y - snd p)) - (snd q - snd p) * (M - m * fst p) =
            (Y - snd d) * turn p q c + (snd c - Y) * turn p q d) by (unfold turn, m, M; ring).
          rewrite I. apply Z.add_nonneg_nonneg; apply Z.mul_nonneg_nonneg; try lia; now apply (turn_nonneg pts CV). }
      split; [exact Hn|]. split; [exact Hm|]. split.
      - destruct (Line a b Is) as [_ L].
        assert (I : (fst b - fst a) * (m * (Y - snd a)) - (snd b - snd a) * (M - m * fst a) = m * N - n * M) by (unfold N, n; ring). lia.
      - split; [exact Tab|]. split; [exact Tcd|]. rewrite <- Tab, <- Tcd. split; [|split; [|exact Line]].
        + clear - Au Hn n. fold n in Au. lia.
        + clear - Aw Hm m. unfold m in *. lia.
    Qed.

    Lemma inside_covered X : (forall a b, In (a, b) (sides pts) -> 0 < turn a b (X, Y)) -> covered nodes X = true.
    Proof.
      intros HT. assert (NE : ns <> []).
      { assert (NEp : pts <> []) by (intros E; rewrite E in L3; cbn in L3; lia).
        destruct (passing pts Y ND CV) as [[E1 _]|(s & t & _ & _ & Is & Us & _)].
        - exfalso. now apply (inside_passes pts X Y ND CV NEp HT).
        - destruct (side_node s Is (up_touches _ (up_goes _ (or_introl Us)))) as [n Hn]. intros E. rewrite E in Hn. destruct Hn. }
      destruct (row_structure NE) as (a & b & u & c & d & w & Iu & Uu & Hu & Id & Dd & Hw & All).
      rewrite (row_covered a b u c d w) by assumption.
      destruct (crossings a b u c d w Iu Uu Hu Id Dd Hw) as (n & N & m & M & Hn & Hm & Ord & Tab & Tcd & Bu & Bw & _).
      pose proof (HT _ _ Iu) as T1. pose proof (HT _ _ Id) as T2. rewrite Tab in T1. rewrite Tcd in T2.
      assert (X < u + 1) by (apply (Z.mul_lt_mono_pos_l n); lia). assert (w - 1 < X) by (apply (Z.mul_lt_mono_pos_l m); lia). lia.
    Qed.

    Lemma covered_next X : covered nodes X = true -> next_to 1 pts X Y.
    Proof.
      intros HC. assert (NE : ns <> []).
      { intros E. rewrite E in PN. cbn in PN. apply Permutation_nil in PN. rewrite PN in HC. discriminate HC. }
      destruct (row_structure NE) as (a & b & u & c & d & w & Iu & Uu & Hu & Id & Dd & Hw & All).
      rewrite (row_covered a b u c d w) in HC by assumption.
      destruct (crossings a b u c d w Iu Uu Hu Id Dd Hw) as (n & N & m & M & Hn & Hm & Ord & Tab & Tcd & Bu & Bw & Line).
      assert (R1 : n * X <= N + n /\ M - m <= m * X).
      { apply andb_true_iff in HC as [C1 C2]. apply Z.leb_le in C1, C2. clear - C1 C2 Bu Bw Hn Hm Ord.
        apply Z.abs_le in Bu, Bw.
        destruct (Z.le_gt_cases w u) as [L|L]; [rewrite Z.min_r in C1 by lia; rewrite Z.max_l in C2 by lia|rewrite Z.min_l in C1 by lia; rewrite Z.max_r in C2 by lia].
        - assert (n * X <= n * u) by (apply Z.mul_le_mono_nonneg_l; lia). assert (m * w <= m * X) by (apply Z.mul_le_mono_nonneg_l; lia). lia.
        - assert (E1 : m * X <= m * w) by (apply Z.mul_le_mono_nonneg_l; lia). assert (E2 : n * u <= n * X) by (apply Z.mul_le_mono_nonneg_l; lia). split.
          + apply (Z.mul_le_mono_pos_l _ _ m Hm). assert (n * (m * X) <= n * (M + m)) by (apply Z.mul_le_mono_nonneg_l; lia). lia.
          + apply (Z.mul_le_mono_pos_l _ _ n Hn). assert (m * (N - n) <= m * (n * X)) by (apply Z.mul_le_mono_nonneg_l; lia). lia. }
      destruct R1 as [R1 R2]. clear HC. destruct (Z.le_gt_cases N (n * X)) as [G1|G1].
      - exists N, n. split; [exact Hn|]. split; [lia|]. intros e f Hef. pose proof (Line e f Hef). lia.
      - destruct (Z.le_gt_cases (m * X) M) as [G2|G2].
        + exists M, m. split; [exact Hm|]. split; [lia|]. intros e f Hef. pose proof (Line e f Hef). lia.
        + exists X, 1. split; [lia|]. split; [lia|]. intros e f Hef. destruct (Line e f Hef) as [L1 L2].
          set (A := (fst f - fst e) * (Y - snd e)). set (g := snd f - snd e) in *.
          replace (1 * ((fst f - fst e) * (1 * (Y - snd e)) - g * (X - 1 * fst e))) with (A + g * fst e - g * X) by (unfold A; ring).
          replace ((fst f - fst e) * (n * (Y - snd e)) - g * (N - n * fst e)) with (n * (A + g * fst e) - g * N) in L1 by (unfold A; ring).
          replace ((fst f - fst e) * (m * (Y - snd e)) - g * (M - m * fst e)) with (m * (A + g * fst e) - g * M) in L2 by (unfold A; ring).
          set (B := A + g * fst e) in *. clearbody B g A. clear - L1 L2 G1 G2 Hn Hm. destruct (Z.le_gt_cases 0 g) as [Hg|Hg].
          * assert (g * (n * X) <= g * N) by (apply Z.mul_le_mono_nonneg_l; lia). assert (g * X <= B) by (apply (Z.mul_le_mono_pos_l _ _ n Hn); lia). lia.
          * assert (g * (m * X) <= g * M) by (apply Z.mul_le_mono_nonpos_l; lia). assert (g * X <= B) by (apply (Z.mul_le_mono_pos_l _ _ m Hm); lia). lia.
    Qed.
  End Pixels.
End Row.

(** ---- Orientation ---- *)
Lemma node_at_sym row s n : node_at row s n -> node_sym row s n.
Proof. destruct s as [a b]. intros (H1 & H2 & H3). split; [exact H1|]. split; [exact H2|]. auto. Qed.
Lemma node_at_swap row s n : node_at row s n -> node_sym row (swap s) n.
Proof.
  destruct s as [a b]. intros (H1 & H2 & H3). unfold swap. cbn [fst snd]. split; [rewrite turn_swap, Z.abs_opp; lia|]. split; [|auto].
  intros N. destruct (H2 ltac:(lia)). auto.
Qed.
Lemma touches_swap row s : touches row (swap s) = touches row s.
Proof. destruct s as [a b]. unfold touches, swap, on_row. cbn [fst snd]. lia. Qed.
Lemma filter_map_swap row l : filter (touches row) (map swap l) = map swap (filter (touches row) l).
Proof. induction l as [|s l IH]; [reflexivity|]. cbn [map filter]. rewrite touches_swap. destruct (touches row s); cbn [map]; now rewrite IH. Qed.
Lemma sides_rev_in (pts : list point) a b : In (a, b) (sides (rev pts)) <-> In (b, a) (sides pts).
Proof.
  assert (G : forall (l : list point) a b, In (a, b) (sides (rev l)) -> In (b, a) (sides l)).
  { intros l c d H. apply (Permutation_in _ (sides_rev l)) in H. apply in_map_iff in H as ([e f] & E & H).
    unfold swap in E. cbn in E. now injection E as <- <-. }
  split; [apply G|]. intros H. apply G. now rewrite rev_involutive.
Qed.

Lemma convex_row s rp zs row : s = 1 \/ s = -1 -> convex s zs -> Forall2 rep_pt rp zs -> Z.abs row <= 2 ^ 23 -> forall X,
  (inside s zs (X, row) -> covered (sorted_nodes rp row) X = true) /\
  (In (X, row) zs -> covered (sorted_nodes rp row) X = true) /\
  (covered (sorted_nodes rp row) X = true -> next_to s zs X row).
Proof.
  intros Hs (ND & L & CV) HZ Hrow X. destruct (sorted_nodes_at rp zs row HZ Hrow) as (ns & PN & SN & NA & NS). destruct Hs as [->| ->].
  - assert (CV' : forall a b v, In (a, b) (sides zs) -> In v zs -> v <> a -> v <> b -> 0 < turn a b v) by (intros; rewrite <- (Z.mul_1_l (turn _ _ _)); now apply CV).
    assert (NA' : Forall (fun sn => node_sym row (fst sn) (snd sn)) ns) by (eapply Forall_impl; [|exact NA]; intros [? ?]; apply node_at_sym).
    split; [|split].
    + intros HI. apply (inside_covered zs row ns ND L CV' NA' NS _ PN SN). intros a b H. pose proof (HI a b H). lia.
    + intros HV. exact (vertex_covered zs row ns ND L CV' NA' NS _ PN SN (X, row) HV eq_refl).
    + exact (covered_next zs row ns ND L CV' NA' NS _ PN SN X).
  - assert (ND' : NoDup (rev zs)) by now apply NoDup_rev.
    assert (L' : (3 <= List.length (rev zs))%nat) by now rewrite rev_length.
    assert (CV' : forall a b v, In (a, b) (sides (rev zs)) -> In v (rev zs) -> v <> a -> v <> b -> 0 < turn a b v).
    { intros a b v H1 H2 H3 H4. apply (proj1 (sides_rev_in zs _ _)) in H1. apply in_rev in H2. pose proof (CV b a v H1 H2 H4 H3). rewrite turn_swap. lia. }
    set (ns' := map (fun sn : (point * point) * Z => (swap (fst sn), snd sn)) ns).
    assert (NA' : Forall (fun sn => node_sym row (fst sn) (snd sn)) ns').
    { apply Forall_map. eapply Forall_impl; [|exact NA]. intros [? ?]. cbn [fst snd]. apply node_at_swap. }
    assert (NS' : Permutation (map fst ns') (filter (touches row) (sides (rev zs)))).
    { unfold ns'. rewrite map_map. cbn [fst]. rewrite <- (map_map fst swap). transitivity (map swap (filter (touches row) (sides zs))); [now apply Permutation_map|].
      rewrite <- filter_map_swap. symmetry. apply filter_perm, sides_rev. }
    assert (PN' : Permutation (map snd ns') (sorted_nodes rp row)) by (unfold ns'; rewrite map_map; exact PN).
    split; [|split].
    + intros HI. apply (inside_covered (rev zs) row ns' ND' L' CV' NA' NS' _ PN' SN). intros a b H. apply (proj1 (sides_rev_in zs _ _)) in H. pose proof (HI b a H). rewrite turn_swap. lia.
    + intros HV. apply in_rev in HV. exact (vertex_covered (rev zs) row ns' ND' L' CV' NA' NS' _ PN' SN (X, row) HV eq_refl).
    + intros HC. destruct (covered_next (rev zs) row ns' ND' L' CV' NA' NS' _ PN' SN X HC) as (p & q & Hq & Hp & HL).
      exists p, q. split; [exact Hq|]. split; [exact Hp|]. intros a b H. apply (proj2 (sides_rev_in zs b a)) in H. specialize (HL b a H).
      match type of HL with 0 <= ?x => match goal with |- 0 <= ?y => replace y with x by ring end end. exact HL.
Qed.

(** ---- Windows ---- *)
Definition shift (dx dy : Z) (p : point) : point := (fst p + dx, snd p + dy).
Lemma combine_map2 {A B} (f : A -> B) l l' : combine (map f l) (map f l') = map (fun s => (f (fst s), f (snd s))) (combine l l').
Proof. revert l'. induction l as [|a l IH]; intros [|b l']; try reflexivity. cbn. now rewrite IH. Qed.
Lemma sides_map {A B} (f : A -> B) l : sides (map f l) = map (fun s => (f (fst s), f (snd s))) (sides l).
Proof. unfold sides. rewrite <- combine_map2. f_equal. destruct l; [reflexivity|]. cbn. now rewrite map_app. Qed.
Lemma shift_sides dx dy zs a b : In (a, b) (sides zs) -> In (shift dx dy a, shift dx dy b) (sides (map (shift dx dy) zs)).
Proof. intros H. rewrite sides_map. apply in_map_iff. now exists (a, b). Qed.
Lemma shift_sides_inv dx dy zs a b : In (a, b) (sides (map (shift dx dy) zs)) -> exists c d, a = shift dx dy c /\ b = shift dx dy d /\ In (c, d) (sides zs).
Proof. intros H. rewrite sides_map in H. apply in_map_iff in H as ([c d] & E & H). injection E as <- <-. now exists c, d. Qed.
Lemma shift_turn dx dy a b q : turn (shift dx dy a) (shift dx dy b) (shift dx dy q) = turn a b q.
Proof. unfold turn, shift. cbn [fst snd]. ring. Qed.
Lemma shift_convex s dx dy zs : convex s zs -> convex s (map (shift dx dy) zs).
Proof.
  intros (ND & L & CV). split; [|split; [now rewrite map_length|]].
  - apply FinFun.Injective_map_NoDup; [|exact ND]. intros p q E. unfold shift in E. injection E as E1 E2. apply point_eq; lia.
  - intros a b v H1 H2 N1 N2. apply shift_sides_inv in H1 as (c & d & -> & -> & H1). apply in_map_iff in H2 as (w & <- & H2).
    rewrite shift_turn. apply CV; auto; congruence.
Qed.

Lemma polygon_window s pts zs wx wy ww wh : s = 1 \/ s = -1 -> convex s zs -> Forall2 int_point pts zs ->
  Forall (fun z => Z.abs (fst z) <= 2 ^ 21 /\ Z.abs (snd z) <= 2 ^ 21) zs ->
  0 < ww -> 0 < wh -> wh * (ww + Z.of_nat (List.length pts)) <= INT_MAX ->
  - 2 ^ 21 <= wx -> wx + ww - 1 <= 2 ^ 21 -> - 2 ^ 21 <= wy -> wy + wh - 1 <= 2 ^ 21 ->
  exists mask, get_mask_offset false (RPoly pts) (blk_new (Z.to_nat (ww * wh))) wx wy ww wh = Ok mask /\
    Z.of_nat (List.length mask) = ww * wh /\
    forall i j, 0 <= i < wh -> 0 <= j < ww -> exists v, cell mask ww i j = Some v /\ (v = 0%N \/ v = 1%N) /\
      (inside s zs (wx + j, wy + i) -> v = 1%N) /\ (In (wx + j, wy + i) zs -> v = 1%N) /\ (v = 1%N -> next_to s zs (wx + j) (wy + i)).
Proof.
  intros Hs HC HP HB Hww Hwh Hsum WX1 WX2 WY1 WY2. cbn [get_mask_offset].
  assert (Harea : ww * wh <= INT_MAX) by lia. assert (Pos : 0 < ww * wh) by (apply Z.mul_pos_pos; lia).
  rewrite !int_result_ok by (apply small_int; lia). cbn [obind].
  pose proof (rep_float_of_int (- wx) ltac:(lia)) as Rwx. pose proof (rep_float_of_int (- wy) ltac:(lia)) as Rwy.
  set (fx := float_of_int (- wx)) in *. set (fy := float_of_int (- wy)) in *. clearbody fx fy.
  set (zs' := map (shift (- wx) (- wy)) zs).
  assert (F : Forall2 rep_pt (round_polygon (offset_polygon pts fx fy)) zs').
  { unfold zs', round_polygon, offset_polygon. clear HC Hsum. revert HB. induction HP as [|[x y] [X Y'] pts zs (F1 & F2 & I1 & I2) HP IH]; intros HB; [constructor|].
    inversion HB as [|? ? [B1 B2] HB']; subst. cbn [map fst snd] in *. constructor; [|now apply IH].
    unfold rep_pt, shift. cbn [fst snd]. pose proof (is_int_rep _ _ F1 I1) as R1. pose proof (is_int_rep _ _ F2 I2) as R2.
    split; [apply rep_fround; [apply rep_fadd; [apply fmt_float|exact R1|exact Rwx|]|]; lia|].
    split; [apply rep_fround; [apply rep_fadd; [apply fmt_float|exact R2|exact Rwy|]|]; lia|]. split; lia. }
  assert (Hlen : List.length (blk_new (A:=N) (Z.to_nat (ww * wh))) = Z.to_nat (ww * wh)) by (unfold blk_new; apply repeat_length).
  destruct (rasterize_rep (offset_polygon pts fx fy) zs' (blk_new (Z.to_nat (ww * wh))) ww wh F) as (m & sum & E & L & C & _).
  - lia.
  - lia.
  - apply in_int_of. unfold INT_MIN. lia.
  - rewrite Hlen. lia.
  - unfold offset_polygon. rewrite map_length. exact Hsum.
  - match type of E with ?l = _ => match goal with |- context [obind ?r _] => change r with l end end. rewrite E. cbn [obind fst]. exists m. split; [reflexivity|]. split; [lia|]. intros i j Hi Hj.
    specialize (C i j Hi Hj). apply cell_some in C. eexists. split; [exact C|].
    destruct (convex_row s _ zs' i Hs (shift_convex _ _ _ _ HC) F ltac:(lia) j) as (R1 & R2 & R3).
    assert (Sh : (j, i) = shift (- wx) (- wy) (wx + j, wy + i)) by (unfold shift; cbn [fst snd]; f_equal; ring).
    set (cv := covered (sorted_nodes (round_polygon (offset_polygon pts fx fy)) i) j) in *. clearbody cv.
    split; [destruct cv; auto|]. split; [|split].
    + intros HI. rewrite R1; [reflexivity|]. intros a b Hab. apply shift_sides_inv in Hab as (c & d & -> & -> & Hab). rewrite Sh, shift_turn. now apply HI.
    + intros HV. rewrite R2; [reflexivity|]. rewrite Sh. now apply in_map.
    + intros HV. destruct cv; [|discriminate HV]. destruct (R3 eq_refl) as (p & q & Hq & Hp & HL). exists (p + q * wx), q. split; [exact Hq|].
      split; [replace (p + q * wx - q * (wx + j)) with (p - q * j) by ring; exact Hp|]. intros a b Hab. pose proof (HL _ _ (shift_sides (- wx) (- wy) zs a b Hab)) as H.
      unfold shift in H. cbn [fst snd] in H.
      replace ((fst b - fst a) * (q * (wy + i - snd a)) - (snd b - snd a) * (p + q * wx - q * fst a)) with
        ((fst b + - wx - (fst a + - wx)) * (q * (i - (snd a + - wy))) - (snd b + - wy - (snd a + - wy)) * (p - q * (fst a + - wx))) by ring. exact H.
Qed.
