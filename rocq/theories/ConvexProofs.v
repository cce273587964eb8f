(** The even-odd rule on convex polygons. *)
From Coq Require Import Permutation.
From Verif Require Import CBase Num NumSpec Region RegionSpec RegionGeom GeomSpec PolygonSpec PolygonProofs.
Local Open Scope Z_scope.

Definition up (Y : Z) (s : point * point) : bool := (snd (fst s) <=? Y) && (Y <? snd (snd s)).
Definition down (Y : Z) (s : point * point) : bool := (snd (snd s) <=? Y) && (Y <? snd (fst s)).

(** ---- Sides of a polygon with distinct vertices ---- *)
Lemma map_fst_combine {A B} (l : list A) (m : list B) : List.length l = List.length m -> map fst (combine l m) = l.
Proof. revert m. induction l as [|a l IH]; intros [|b m] H; try discriminate H; [reflexivity|]. cbn. f_equal. apply IH. now injection H. Qed.
Lemma map_snd_combine {A B} (l : list A) (m : list B) : List.length l = List.length m -> map snd (combine l m) = m.
Proof. revert m. induction l as [|a l IH]; intros [|b m] H; try discriminate H; [reflexivity|]. cbn. f_equal. apply IH. now injection H. Qed.
Lemma sides_length {A} (pts : list A) : List.length pts = List.length (tl pts ++ firstn 1 pts).
Proof. destruct pts; [reflexivity|]. cbn [tl firstn]. rewrite app_length. cbn. lia. Qed.
Lemma sides_fst {A} (pts : list A) : map fst (sides pts) = pts.
Proof. apply map_fst_combine, sides_length. Qed.
Lemma sides_snd {A} (pts : list A) : Permutation (map snd (sides pts)) pts.
Proof.
  unfold sides. rewrite map_snd_combine by apply sides_length. destruct pts as [|a l]; [constructor|]. cbn [tl firstn].
  symmetry. apply Permutation_cons_append.
Qed.
Lemma NoDup_map_inj {A B} (f : A -> B) l a b : NoDup (map f l) -> In a l -> In b l -> f a = f b -> a = b.
Proof.
  induction l as [|c l IH]; intros N Ha Hb E; [destruct Ha|]. cbn in N. inversion N as [|? ? N1 N2]; subst.
  destruct Ha as [->|Ha], Hb as [->|Hb]; auto.
  - exfalso. apply N1. rewrite E. now apply in_map.
  - exfalso. apply N1. rewrite <- E. now apply in_map.
Qed.
Lemma sides_same_start {A} (pts : list A) s t : NoDup pts -> In s (sides pts) -> In t (sides pts) -> fst s = fst t -> s = t.
Proof. intros N. apply NoDup_map_inj. now rewrite sides_fst. Qed.
Lemma sides_same_end {A} (pts : list A) s t : NoDup pts -> In s (sides pts) -> In t (sides pts) -> snd s = snd t -> s = t.
Proof. intros N. apply NoDup_map_inj. eapply Permutation_NoDup; [|exact N]. symmetry. apply sides_snd. Qed.
Lemma sides_NoDup {A} (pts : list A) : NoDup pts -> NoDup (sides pts).
Proof. intros N. apply (NoDup_map_inv fst). now rewrite sides_fst. Qed.
Lemma side_from {A} (pts : list A) v : In v pts -> exists b, In (v, b) (sides pts).
Proof. intros H. rewrite <- (sides_fst pts) in H. apply in_map_iff in H as ([a b] & <- & H). now exists b. Qed.
Lemma side_to {A} (pts : list A) v : In v pts -> exists a, In (a, v) (sides pts).
Proof.
  intros H. apply (Permutation_in _ (Permutation_sym (sides_snd pts))) in H. apply in_map_iff in H as ([a b] & <- & H). now exists a.
Qed.

(** ---- Rows: the number of sides that pass a row is even ---- *)
Lemma odd_app {A} (f : A -> bool) l1 l2 :
  Nat.odd (List.length (filter f (l1 ++ l2))) = xorb (Nat.odd (List.length (filter f l1))) (Nat.odd (List.length (filter f l2))).
Proof. rewrite filter_app, app_length. apply Nat.odd_add. Qed.
Lemma passing_even {A} (c : A -> bool) pts : Nat.odd (List.length (filter (fun s => xorb (c (fst s)) (c (snd s))) (sides pts))) = false.
Proof.
  destruct pts as [|a l]; [reflexivity|]. rewrite (sides_split a l a), odd_app.
  assert (G : forall a l, Nat.odd (List.length (filter (fun s => xorb (c (fst s)) (c (snd s))) (combine (a :: l) l))) = xorb (c a) (c (last (a :: l) a))).
  { clear. intros a l. revert a. induction l as [|b l IH]; intros a; [cbn; now destruct (c a)|].
    change (combine (a :: b :: l) (b :: l)) with ((a, b) :: combine (b :: l) l).
    assert (L : last (a :: b :: l) a = last (b :: l) b).
    { change (last (a :: b :: l) a) with (last (b :: l) a). clear. revert b. induction l as [|d l IH]; intros b; [reflexivity|].
      change (last (d :: l) a = last (d :: l) b). rewrite IH. destruct l; [reflexivity|]. clear. revert d a0. induction l as [|e l IH]; intros; [reflexivity|].
      change (last (e :: l) d = last (e :: l) b). destruct l; [reflexivity|]. apply (IH d a0). }
    rewrite L. change (filter ?f ((a, b) :: ?r)) with (if f (a, b) then (a, b) :: filter f r else filter f r). cbv beta. cbn [fst snd].
    specialize (IH b). set (n := filter _ (combine (b :: l) l)) in *.
    destruct (xorb (c a) (c b)) eqn:E; cbn [List.length]; rewrite ?odd_S, IH; destruct (c a), (c b), (c (last (b :: l) b)); try discriminate E; reflexivity. }
  rewrite G. cbn [filter fst snd]. destruct (c a), (c (last (a :: l) a)); reflexivity.
Qed.

(** ---- At most one side goes up through a row, and one down ---- *)
Section Convex.
  Variables (pts : list point) (X Y : Z).
  Hypothesis ND : NoDup pts.
  Hypothesis CV : forall a b v, In (a, b) (sides pts) -> In v pts -> v <> a -> v <> b -> 0 < turn a b v.

  Lemma up_unique s t : In s (sides pts) -> In t (sides pts) -> up Y s = true -> up Y t = true -> s = t.
  Proof.
    intros Hs Ht Us Ut. destruct s as [a b], t as [c d].
    destruct (in_sides _ _ _ Hs) as [Ia Ib]. destruct (in_sides _ _ _ Ht) as [Ic Id].
    unfold up in Us, Ut. cbn [fst snd] in Us, Ut. apply andb_true_iff in Us as [U1 U2], Ut as [U3 U4].
    apply Z.leb_le in U1, U3. apply Z.ltb_lt in U2, U4.
    assert (Dec : {a = c} + {a <> c}) by (decide equality; apply Z.eq_dec).
    destruct Dec as [E|N]; [now apply (sides_same_start pts)|exfalso].
    assert (Nbd : b <> d) by (intros E; apply N; pose proof (sides_same_end pts _ _ ND Hs Ht E) as E2; now injection E2).
    assert (Ncb : c <> b) by (intros E; subst; lia). assert (Nda : d <> a) by (intros E; subst; lia).
    assert (T1 : 0 < turn a b c) by (apply CV; auto). assert (T2 : 0 < turn a b d) by (apply CV; auto).
    assert (T3 : 0 < turn c d a) by (apply CV; auto). assert (T4 : 0 < turn c d b) by (apply CV; auto).
    assert (Id1 : (snd d - Y) * turn a b c + (Y - snd c) * turn a b d + ((snd b - Y) * turn c d a + (Y - snd a) * turn c d b) = 0)
      by (unfold turn; ring).
    assert (0 < (snd d - Y) * turn a b c) by (apply Z.mul_pos_pos; lia).
    assert (0 <= (Y - snd c) * turn a b d) by (apply Z.mul_nonneg_nonneg; lia).
    assert (0 < (snd b - Y) * turn c d a) by (apply Z.mul_pos_pos; lia).
    assert (0 <= (Y - snd a) * turn c d b) by (apply Z.mul_nonneg_nonneg; lia).
    lia.
  Qed.
  Lemma down_unique s t : In s (sides pts) -> In t (sides pts) -> down Y s = true -> down Y t = true -> s = t.
  Proof.
    intros Hs Ht Us Ut. destruct s as [a b], t as [c d].
    destruct (in_sides _ _ _ Hs) as [Ia Ib]. destruct (in_sides _ _ _ Ht) as [Ic Id].
    unfold down in Us, Ut. cbn [fst snd] in Us, Ut. apply andb_true_iff in Us as [U1 U2], Ut as [U3 U4].
    apply Z.leb_le in U1, U3. apply Z.ltb_lt in U2, U4.
    assert (Dec : {a = c} + {a <> c}) by (decide equality; apply Z.eq_dec).
    destruct Dec as [E|N]; [now apply (sides_same_start pts)|exfalso].
    assert (Nbd : b <> d) by (intros E; apply N; pose proof (sides_same_end pts _ _ ND Hs Ht E) as E2; now injection E2).
    assert (Ncb : c <> b) by (intros E; subst; lia). assert (Nda : d <> a) by (intros E; subst; lia).
    assert (T1 : 0 < turn a b c) by (apply CV; auto). assert (T2 : 0 < turn a b d) by (apply CV; auto).
    assert (T3 : 0 < turn c d a) by (apply CV; auto). assert (T4 : 0 < turn c d b) by (apply CV; auto).
    assert (Id1 : (snd d - Y) * turn a b c + (Y - snd c) * turn a b d + ((snd b - Y) * turn c d a + (Y - snd a) * turn c d b) = 0)
      by (unfold turn; ring).
    assert (0 <= (Y - snd d) * turn a b c) by (apply Z.mul_nonneg_nonneg; lia).
    assert (0 < (snd c - Y) * turn a b d) by (apply Z.mul_pos_pos; lia).
    assert (0 <= (Y - snd b) * turn c d a) by (apply Z.mul_nonneg_nonneg; lia).
    assert (0 < (snd a - Y) * turn c d b) by (apply Z.mul_pos_pos; lia).
    lia.
  Qed.
  Lemma turn_nonneg a b v : In (a, b) (sides pts) -> In v pts -> 0 <= turn a b v.
  Proof.
    intros H Hv. assert (D1 : {v = a} + {v <> a}) by (decide equality; apply Z.eq_dec).
    assert (D2 : {v = b} + {v <> b}) by (decide equality; apply Z.eq_dec).
    destruct D1 as [->|N1]; [unfold turn; lia|]. destruct D2 as [->|N2]; [unfold turn; lia|].
    apply Z.lt_le_incl, CV; auto.
  Qed.

  (** The sides that pass the row: none, or one up and one down. *)
  Lemma filter_unique {A} (f : A -> bool) l : NoDup l -> (forall s t, In s l -> In t l -> f s = true -> f t = true -> s = t) ->
    filter f l = [] \/ exists s, filter f l = [s] /\ In s l /\ f s = true.
  Proof.
    intros N U. pose proof (NoDup_filter f N) as NF. destruct (filter f l) as [|s [|t r]] eqn:E; [now left| |exfalso].
    - right. exists s. split; [reflexivity|]. apply filter_In. rewrite E. now left.
    - assert (Hs : In s l /\ f s = true) by (apply filter_In; rewrite E; now left).
      assert (Ht : In t l /\ f t = true) by (apply filter_In; rewrite E; right; now left).
      assert (s = t) by (apply U; tauto). subst. inversion NF as [|? ? N1]. apply N1. now left.
  Qed.

  Lemma up_down_excl s : up Y s = true -> down Y s = true -> False.
  Proof. unfold up, down. rewrite !andb_true_iff, !Z.leb_le, !Z.ltb_lt. lia. Qed.

  Lemma odd_or {A} (f g : A -> bool) l : (forall s, f s = true -> g s = true -> False) ->
    Nat.odd (List.length (filter (fun s => f s || g s) l)) = xorb (Nat.odd (List.length (filter f l))) (Nat.odd (List.length (filter g l))).
  Proof.
    intros E. induction l as [|s l IH]; [reflexivity|]. cbn [filter]. specialize (E s).
    destruct (f s) eqn:Ef, (g s) eqn:Eg; cbn [orb List.length]; rewrite ?odd_S, ?IH; try (exfalso; now apply E);
      destruct (Nat.odd (List.length (filter f l))), (Nat.odd (List.length (filter g l))); reflexivity.
  Qed.

  Lemma passing :
    (filter (up Y) (sides pts) = [] /\ filter (down Y) (sides pts) = []) \/
    exists s t, filter (up Y) (sides pts) = [s] /\ filter (down Y) (sides pts) = [t] /\
      In s (sides pts) /\ up Y s = true /\ In t (sides pts) /\ down Y t = true.
  Proof.
    pose proof (passing_even (fun p : point => Y <? snd p) pts) as E.
    assert (E2 : Nat.odd (List.length (filter (fun s => up Y s || down Y s) (sides pts))) = false).
    { rewrite <- E. do 2 f_equal. apply filter_ext. intros [a b]. unfold up, down. cbn [fst snd].
      destruct (Y <? snd a) eqn:E1, (Y <? snd b) eqn:E3;
        try apply Z.ltb_lt in E1; try apply Z.ltb_lt in E3; try apply Z.ltb_ge in E1; try apply Z.ltb_ge in E3.
      - replace (snd a <=? Y) with false by lia. replace (snd b <=? Y) with false by lia. reflexivity.
      - replace (snd a <=? Y) with false by lia. replace (snd b <=? Y) with true by lia. reflexivity.
      - replace (snd a <=? Y) with true by lia. reflexivity.
      - replace (snd a <=? Y) with true by lia. replace (snd b <=? Y) with true by lia. reflexivity. }
    rewrite (odd_or (up Y) (down Y)) in E2 by apply up_down_excl.
    pose proof (sides_NoDup pts ND) as NS.
    destruct (filter_unique (up Y) _ NS up_unique) as [U|(s & U & U1 & U2)];
      destruct (filter_unique (down Y) _ NS down_unique) as [D|(t & D & D1 & D2)]; rewrite U, D in E2; try discriminate E2.
    - left. now split.
    - right. exists s, t. auto 10.
  Qed.

  (** The crossings are among them. *)
  Lemma filter_sub {A} (f g : A -> bool) l : filter (fun s => f s && g s) l = filter g (filter f l).
  Proof. induction l as [|a l IH]; [reflexivity|]. cbn [filter]. destruct (f a); cbn [andb filter]; [destruct (g a)|]; congruence. Qed.
  Lemma even_odd_split : even_odd pts (X, Y) =
    xorb (Nat.odd (List.length (filter (fun s => 0 <? turn (fst s) (snd s) (X, Y)) (filter (up Y) (sides pts)))))
         (Nat.odd (List.length (filter (fun s => turn (fst s) (snd s) (X, Y) <? 0) (filter (down Y) (sides pts))))).
  Proof.
    rewrite <- !filter_sub. rewrite <- odd_or.
    - unfold even_odd. do 2 f_equal. apply filter_ext. intros [a b]. reflexivity.
    - intros s H1 H2. apply andb_true_iff in H1 as [H1 _], H2 as [H2 _]. exact (up_down_excl s H1 H2).
  Qed.

  (** A point left of all sides has vertices above and not above it. *)
  Lemma half_plane (sg : Z) : pts <> [] -> (forall v, In v pts -> 0 < sg * (snd v - Y)) ->
    (forall a b, In (a, b) (sides pts) -> 0 < turn a b (X, Y)) -> False.
  Proof.
    intros NE HV HT. destruct pts as [|a l]; [congruence|]. clear ND CV NE.
    rewrite (sides_split a l a) in HT.
    set (E := fun a b : point => (fst a - X) * (snd b - Y) - (fst b - X) * (snd a - Y)).
    assert (ET : forall a b, turn a b (X, Y) = E a b) by (intros; unfold turn, E; cbn [fst snd]; ring).
    assert (Anti : forall a b, E b a = - E a b) by (intros; unfold E; ring).
    assert (Trans : forall a b c, 0 < sg * (snd a - Y) -> 0 < sg * (snd b - Y) -> 0 < sg * (snd c - Y) -> 0 < E a b -> 0 < E b c -> 0 < E a c).
    { intros p q r Hp Hq Hr H1 H2.
      assert (I : (sg * (snd q - Y)) * E p r = (sg * (snd p - Y)) * E q r + (sg * (snd r - Y)) * E p q) by (unfold E; ring).
      assert (0 < (sg * (snd p - Y)) * E q r) by (apply Z.mul_pos_pos; assumption).
      assert (0 < (sg * (snd r - Y)) * E p q) by (apply Z.mul_pos_pos; assumption).
      apply (Z.mul_pos_cancel_l (sg * (snd q - Y))); [assumption|lia]. }
    assert (G : forall l a z, In z l -> (forall v, In v (a :: l) -> 0 < sg * (snd v - Y)) ->
      (forall p q, In (p, q) (combine (a :: l) l) -> 0 < turn p q (X, Y)) -> 0 < E a z).
    { clear - ET Trans. induction l as [|b l IH]; intros a z Hz HV HT; [destruct Hz|].
      assert (H1 : 0 < E a b) by (rewrite <- ET; apply HT; now left).
      destruct Hz as [->|Hz]; [exact H1|].
      apply (Trans a b z); auto; try (apply HV; cbn; auto).
      apply IH; auto.
      - intros v Hv. apply HV. now right.
      - intros p q Hpq. apply HT. change (combine (a :: b :: l) (b :: l)) with ((a, b) :: combine (b :: l) l). now right. }
    assert (Hz : 0 < turn (last (a :: l) a) a (X, Y)) by (apply HT, in_or_app; right; now left).
    rewrite ET in Hz. destruct l as [|b l].
    - cbn in Hz. unfold E in Hz. lia.
    - assert (Hl : In (last (a :: b :: l) a) (b :: l)).
      { change (last (a :: b :: l) a) with (last (b :: l) a). clear. revert b. induction l as [|c l IH]; intros b; [now left|].
        right. change (last (b :: c :: l) a) with (last (c :: l) a). apply IH. }
      pose proof (G (b :: l) a _ Hl HV) as H. rewrite Anti in Hz.
      assert (0 < E a (last (a :: b :: l) a)) by (apply H; intros p q Hpq; apply HT, in_or_app; now left). lia.
  Qed.

  Lemma inside_passes : pts <> [] -> (forall a b, In (a, b) (sides pts) -> 0 < turn a b (X, Y)) ->
    filter (up Y) (sides pts) = [] -> False.
  Proof.
    intros NE HT HU.
    assert (Up : forall s, In s (sides pts) -> up Y s = false).
    { intros s Hs. destruct (up Y s) eqn:E; [|reflexivity]. assert (H : In s (filter (up Y) (sides pts))) by now apply filter_In.
      rewrite HU in H. destruct H. }
    (* all vertices are on the same side of the row *)
    destruct passing as [[_ HD]|(s & t & H & _)]; [|rewrite H in HU; discriminate HU].
    assert (Dn : forall s, In s (sides pts) -> down Y s = false).
    { intros s Hs. destruct (down Y s) eqn:E; [|reflexivity]. assert (H : In s (filter (down Y) (sides pts))) by now apply filter_In.
      rewrite HD in H. destruct H. }
    assert (Same : forall a b, In (a, b) (sides pts) -> (Y <? snd a) = (Y <? snd b)).
    { intros a b Hs. pose proof (Up _ Hs) as H1. pose proof (Dn _ Hs) as H2. unfold up, down in *. cbn [fst snd] in *.
      destruct (Y <? snd a) eqn:E1, (Y <? snd b) eqn:E2; try reflexivity; rewrite ?andb_true_r in *; lia. }
    assert (All : forall v w, In v pts -> In w pts -> (Y <? snd v) = (Y <? snd w)).
    { assert (G : forall (l : list point) (a : point), (forall p q, In (p, q) (combine (a :: l) l) -> (Y <? snd p) = (Y <? snd q)) -> forall v, In v (a :: l) -> (Y <? snd v) = (Y <? snd a)).
      { clear. induction l as [|b l IH]; intros a H v [<-|Hv]; try reflexivity; [destruct Hv|].
        rewrite (H a b); [|now left]. apply IH; [|exact Hv]. intros p q Hpq. apply H.
        change (combine (a :: b :: l) (b :: l)) with ((a, b) :: combine (b :: l) l). now right. }
      clear - Same G NE. destruct pts as [|a l]; [congruence|]. intros v w Hv Hw.
      assert (S1 : forall p q, In (p, q) (combine (a :: l) l) -> (Y <? snd p) = (Y <? snd q)).
      { intros p q Hpq. apply Same. rewrite (sides_split a l a). apply in_or_app. now left. }
      rewrite (G l a S1 v Hv), (G l a S1 w Hw). reflexivity. }
    assert (exists v, In v pts) as [v0 Hv0] by (destruct pts as [|v l]; [congruence|exists v; now left]).
    destruct (Y <? snd v0) eqn:E0.
    - apply (half_plane 1 NE); [|exact HT]. intros v Hv. pose proof (All v v0 Hv Hv0) as H. rewrite E0 in H. apply Z.ltb_lt in H. lia.
    - apply (half_plane (-1) NE); [|exact HT]. intros v Hv. pose proof (All v v0 Hv Hv0) as H. rewrite E0 in H. apply Z.ltb_ge in H.
      (* a vertex on the row itself *)
      destruct (Z.eq_dec (snd v) Y) as [EY|]; [exfalso|lia].
      destruct (side_from pts v Hv) as [b Hb]. destruct (side_to pts v Hv) as [a Ha].
      pose proof (HT _ _ Hb) as T1. pose proof (HT _ _ Ha) as T2.
      destruct (in_sides _ _ _ Hb) as [_ Ib]. destruct (in_sides _ _ _ Ha) as [Ia _].
      pose proof (All b v0 Ib Hv0) as Hb0. pose proof (All a v0 Ia Hv0) as Ha0. rewrite E0 in Hb0, Ha0. apply Z.ltb_ge in Hb0, Ha0.
      assert (I1 : turn v b (X, Y) = (fst v - X) * (snd b - Y)) by (unfold turn; cbn [fst snd]; rewrite EY; ring).
      assert (I2 : turn a v (X, Y) = - ((fst v - X) * (snd a - Y))) by (unfold turn; cbn [fst snd]; rewrite EY; ring).
      rewrite I1 in T1. rewrite I2 in T2. clear - T1 T2 Hb0 Ha0. set (g := fst v - X) in *.
      assert (g < 0) by nia. nia.
  Qed.

  Lemma convex_inside : pts <> [] -> (forall a b, In (a, b) (sides pts) -> 0 < turn a b (X, Y)) -> even_odd pts (X, Y) = true.
  Proof.
    intros NE HT. rewrite even_odd_split. destruct passing as [[HU HD]|(s & t & HU & HD & Is & Us & It & Dt)].
    - exfalso. now apply inside_passes.
    - rewrite HU, HD. destruct s as [a b], t as [c d]. cbn [filter fst snd].
      pose proof (HT _ _ Is) as T1. pose proof (HT _ _ It) as T2.
      replace (0 <? turn a b (X, Y)) with true by lia. replace (turn c d (X, Y) <? 0) with false by lia. reflexivity.
  Qed.

  Lemma convex_outside e f : In (e, f) (sides pts) -> turn e f (X, Y) < 0 -> even_odd pts (X, Y) = false.
  Proof.
    intros Hef HO. rewrite even_odd_split. destruct passing as [[HU HD]|(s & t & HU & HD & Is & Us & It & Dt)].
    - now rewrite HU, HD.
    - rewrite HU, HD. destruct s as [a b], t as [c d]. cbn [filter fst snd].
      destruct (in_sides _ _ _ Is) as [Ia Ib]. destruct (in_sides _ _ _ It) as [Ic Id].
      unfold up in Us. unfold down in Dt. cbn [fst snd] in Us, Dt. apply andb_true_iff in Us as [U1 U2], Dt as [D1 D2].
      apply Z.leb_le in U1, D1. apply Z.ltb_lt in U2, D2.
      (* the crossings, times the heights *)
      set (n := snd b - snd a) in *. set (N := (snd b - Y) * fst a + (Y - snd a) * fst b).
      set (m := snd c - snd d) in *. set (M := (Y - snd d) * fst c + (snd c - Y) * fst d).
      assert (Hn : 0 < n) by (unfold n; lia). assert (Hm : 0 < m) by (unfold m; lia).
      assert (Tab : turn a b (X, Y) = N - n * X) by (unfold turn, N, n; cbn [fst snd]; ring).
      assert (Tcd : turn c d (X, Y) = m * X - M) by (unfold turn, M, m; cbn [fst snd]; ring).
      assert (Line : forall p q, In (p, q) (sides pts) ->
        0 <= n * ((fst q - fst p) * (Y - snd p) + (snd q - snd p) * fst p) - (snd q - snd p) * N /\
        0 <= m * ((fst q - fst p) * (Y - snd p) + (snd q - snd p) * fst p) - (snd q - snd p) * M).
      { intros p q Hpq. split.
        - assert (I : n * ((fst q - fst p) * (Y - snd p) + (snd q - snd p) * fst p) - (snd q - snd p) * N =
            (snd b - Y) * turn p q a + (Y - snd a) * turn p q b) by (unfold turn, n, N; ring).
          rewrite I. apply Z.add_nonneg_nonneg; apply Z.mul_nonneg_nonneg; try lia; now apply turn_nonneg.
        - assert (I : m * ((fst q - fst p) * (Y - snd p) + (snd q - snd p) * fst p) - (snd q - snd p) * M =
            (Y - snd d) * turn p q c + (snd c - Y) * turn p q d) by (unfold turn, m, M; ring).
          rewrite I. apply Z.add_nonneg_nonneg; apply Z.mul_nonneg_nonneg; try lia; now apply turn_nonneg. }
      (* the way down is left of the way up *)
      assert (Ord : n * M <= m * N).
      { destruct (Line a b Is) as [_ L]. fold n in L.
        assert (I : m * ((fst b - fst a) * (Y - snd a) + n * fst a) - n * M = m * N - n * M) by (unfold N, n; ring). lia. }
      destruct (Line e f Hef) as [L1 L2].
      assert (Tef : turn e f (X, Y) = (fst f - fst e) * (Y - snd e) + (snd f - snd e) * fst e - (snd f - snd e) * X) by (unfold turn; cbn [fst snd]; ring).
      rewrite Tab, Tcd. rewrite Tef in HO. set (g := snd f - snd e) in *. set (A := (fst f - fst e) * (Y - snd e) + g * fst e) in *.
      clearbody n m N M g A. clear - Hn Hm Ord L1 L2 HO.
      destruct (0 <? N - n * X) eqn:E1, (m * X - M <? 0) eqn:E2; try reflexivity; exfalso;
        try apply Z.ltb_lt in E1; try apply Z.ltb_lt in E2; try apply Z.ltb_ge in E1; try apply Z.ltb_ge in E2.
      + destruct (Z.le_gt_cases 0 g) as [Hg|Hg].
        * assert (g * (n * X) <= g * N) by (apply Z.mul_le_mono_nonneg_l; lia). nia.
        * assert (g * (m * X) <= g * M) by (apply Z.mul_le_mono_nonpos_l; lia). nia.
      + assert (n * (m * X) < n * M) by (apply Z.mul_lt_mono_pos_l; lia). assert (m * N <= m * (n * X)) by (apply Z.mul_le_mono_nonneg_l; lia). lia.
  Qed.
End Convex.

Lemma turn_swap a b q : turn b a q = - turn a b q.
Proof. unfold turn. ring. Qed.

Lemma convex_point s pts q : s = 1 \/ s = -1 -> convex s pts ->
  (inside s pts q -> even_odd pts q = true) /\ (outside s pts q -> even_odd pts q = false).
Proof.
  intros Hs (ND & L & CV). destruct q as [X Y]. destruct Hs as [->| ->].
  - assert (CV' : forall a b v, In (a, b) (sides pts) -> In v pts -> v <> a -> v <> b -> 0 < turn a b v).
    { intros a b v H1 H2 H3 H4. pose proof (CV a b v H1 H2 H3 H4). lia. }
    split.
    + intros HI. apply convex_inside; auto.
      * destruct pts; [cbn in L; lia|discriminate].
      * intros a b H. pose proof (HI a b H). lia.
    + intros (a & b & H & HO). apply (convex_outside pts X Y ND CV' a b H). lia.
  - rewrite <- even_odd_rev.
    assert (Sw : forall a b, In (a, b) (sides (rev pts)) -> In (b, a) (sides pts)).
    { intros a b H. apply (Permutation_in _ (sides_rev pts)) in H. apply in_map_iff in H as ([c d] & E & H).
      unfold swap in E. cbn in E. now injection E as <- <-. }
    assert (ND' : NoDup (rev pts)) by now apply NoDup_rev.
    assert (CV' : forall a b v, In (a, b) (sides (rev pts)) -> In v (rev pts) -> v <> a -> v <> b -> 0 < turn a b v).
    { intros a b v H1 H2 H3 H4. apply Sw in H1. apply in_rev in H2. pose proof (CV b a v H1 H2 H4 H3). rewrite turn_swap. lia. }
    split.
    + intros HI. apply convex_inside; auto.
      * intros E. apply (f_equal (@List.length point)) in E. rewrite rev_length in E. cbn in E. lia.
      * intros a b H. apply Sw in H. pose proof (HI b a H). rewrite turn_swap. lia.
    + intros (a & b & H & HO). apply (convex_outside (rev pts) X Y ND' CV' b a).
      * apply (Permutation_in _ (Permutation_sym (sides_rev pts))). apply in_map_iff. exists (a, b). now split.
      * rewrite turn_swap. lia.
Qed.

Lemma convex_contains s pts zs x y X Y : s = 1 \/ s = -1 -> convex s zs -> Forall2 int_point pts zs ->
  finite_float x -> finite_float y -> is_int x X -> is_int y Y -> Z.abs X <= 4095 -> sides_within 4096 zs ->
  (inside s zs (X, Y) -> contains_point (RPoly pts) x y = Ok true) /\
  (outside s zs (X, Y) -> contains_point (RPoly pts) x y = Ok false).
Proof.
  intros Hs HC HP Fx Fy Ix Iy HX HS. rewrite (polygon_even_odd pts zs x y X Y HP Fx Fy Ix Iy HX HS).
  destruct (convex_point s zs (X, Y) Hs HC) as [H1 H2]. split; intros H; f_equal; auto.
Qed.

Lemma Forall2_reverse {A B} (R : A -> B -> Prop) l1 l2 : Forall2 R l1 l2 -> Forall2 R (rev l1) (rev l2).
Proof. induction 1 as [|a b l1 l2 H HF IH]; cbn [rev]; [constructor|]. apply Forall2_app; [exact IH|]. now repeat constructor. Qed.
Lemma polygon_reversed pts zs x y X Y : Forall2 int_point pts zs ->
  finite_float x -> finite_float y -> is_int x X -> is_int y Y -> Z.abs X <= 4095 -> sides_within 4096 zs ->
  contains_point (RPoly (rev pts)) x y = contains_point (RPoly pts) x y.
Proof.
  intros HP Fx Fy Ix Iy HX HS. rewrite (polygon_even_odd pts zs x y X Y HP Fx Fy Ix Iy HX HS).
  assert (HR : sides_within 4096 (rev zs)).
  { intros a b H. apply (Permutation_in _ (sides_rev zs)) in H. apply in_map_iff in H as ([c d] & E & H).
    unfold swap in E. cbn in E. injection E as <- <-. destruct (HS c d H). lia. }
  rewrite (polygon_even_odd (rev pts) (rev zs) x y X Y (Forall2_reverse _ _ _ HP) Fx Fy Ix Iy HX HR). f_equal. apply even_odd_rev.
Qed.
