(** Proofs that the C++ lists send what they show. *)
From Verif Require Import CBase StrMap StrMapProofs Props PropsSpec PropsProofs Num PropsNum Region RegionGeom Formats Handle Lists ListsSpec ListsProofs Wrap WrapSpec WrapProofs WrapLists WrapListsSpec WrapListsProofs.
Local Open Scope Z_scope.

Section Sane.
Context {V : Type}.
Implicit Types w : world V.

Definition slot w (y : nat) : option obj := nth y (vars w) None.
(** what a variable refers to: the null list or a structure that exists *)
Definition see_at (res : list (option V)) (o : option obj) : option (option V) :=
  match o with
  | Some (mkObj _ PNull) => Some None
  | Some (mkObj _ (PTo r)) => match nth r res None with Some v => Some (Some v) | None => None end
  | _ => None
  end.
Definition see w (y : nat) : option (option V) := see_at (resources w) (slot w y).

Record sane w : Prop := {
  s_count : forall c, nth c (counts w) None = if Nat.eqb (claimers c (vars w)) 0 then None else Some (Z.of_nat (claimers c (vars w)));
  s_ptr : forall y z c p q, slot w y = Some (mkObj (Some c) p) -> slot w z = Some (mkObj (Some c) q) -> p = q;
  s_own : forall y z a b r, slot w y = Some (mkObj a (PTo r)) -> slot w z = Some (mkObj b (PTo r)) -> y = z \/ exists c, a = Some c /\ b = Some c;
  s_live : forall y a r, slot w y = Some (mkObj a (PTo r)) -> nth r (resources w) None <> None;
  s_junk : forall y c, slot w y <> Some (mkObj (Some c) PJunk)
}.
(** the world without the variable x *)
Definition unset w (x : nat) : world V := mkWorld (counts w) (resources w) (released w) (update (vars w) x None).
Definition count_is (n : nat) : option Z := if Nat.eqb n 0 then None else Some (Z.of_nat n).
Lemma slot_update cs rs rl vs x o y : (x < List.length vs)%nat -> slot (mkWorld cs rs rl (update vs x o) : world V) y = if Nat.eqb x y then o else nth y vs None.
Proof. intros H. unfold slot. cbn [vars]. now apply nth_update. Qed.
Lemma slot_unset w x y : (x < List.length (vars w))%nat -> slot (unset w x) y = if Nat.eqb x y then None else slot w y.
Proof. apply slot_update. Qed.
Lemma claimers_fill c (l : list (option obj)) x o : (x < List.length l)%nat ->
  claimers c (update l x o) = (claimers c (update l x None) + b2n (claiming c o))%nat.
Proof.
  intros H. pose proof (claimers_update c l x o H) as A. pose proof (claimers_update c l x None H) as B. cbn [claiming b2n] in B. lia.
Qed.

Lemma sane_put w x o cs rs rl : sane (unset w x) -> (x < List.length (vars w))%nat ->
  (forall c, nth c cs None = count_is (claimers c (update (vars w) x None) + b2n (claiming c o))) ->
  (forall y a r, y <> x -> slot w y = Some (mkObj a (PTo r)) -> nth r rs None <> None) ->
  (forall c p, o = Some (mkObj (Some c) p) -> p <> PJunk /\ forall y q, y <> x -> slot w y = Some (mkObj (Some c) q) -> q = p) ->
  (forall a r, o = Some (mkObj a (PTo r)) -> nth r rs None <> None /\
     forall y b, y <> x -> slot w y = Some (mkObj b (PTo r)) -> exists c, a = Some c /\ b = Some c) ->
  sane (mkWorld cs rs rl (update (vars w) x o)).
Proof.
  intros S0 H Hc Hr Hp Ho. destruct S0 as [S1 S2 S3 S4 S5].
  assert (U : forall y, y <> x -> slot (unset w x) y = slot w y) by (intros y Hy; rewrite slot_unset by exact H; destruct (Nat.eqb_spec x y); congruence).
  constructor; cbn [counts resources].
  - intros c. cbn [vars]. rewrite (claimers_fill c _ x o H). apply Hc.
  - intros y z c p q. rewrite !slot_update by exact H. fold (slot w y) (slot w z). destruct (Nat.eqb_spec x y) as [<-|Ey], (Nat.eqb_spec x z) as [<-|Ez].
    + congruence.
    + intros A B. symmetry. exact (proj2 (Hp _ _ A) z q (not_eq_sym Ez) B).
    + intros A B. exact (proj2 (Hp _ _ B) y p (not_eq_sym Ey) A).
    + rewrite <- !U by congruence. apply S2.
  - intros y z a b r. rewrite !slot_update by exact H. fold (slot w y) (slot w z). destruct (Nat.eqb_spec x y) as [<-|Ey], (Nat.eqb_spec x z) as [<-|Ez].
    + auto.
    + intros A B. right. exact (proj2 (Ho _ _ A) z b (not_eq_sym Ez) B).
    + intros A B. right. destruct (proj2 (Ho _ _ B) y a (not_eq_sym Ey) A) as (c & ? & ?). eauto.
    + rewrite <- !U by congruence. apply S3.
  - intros y a r. rewrite slot_update by exact H. fold (slot w y). destruct (Nat.eqb_spec x y) as [<-|Ey].
    + intros A. exact (proj1 (Ho _ _ A)).
    + apply Hr. congruence.
  - intros y c. rewrite slot_update by exact H. fold (slot w y). destruct (Nat.eqb_spec x y) as [<-|Ey].
    + intros A. exact (proj1 (Hp _ _ A) eq_refl).
    + rewrite <- U by congruence. apply S5.
Qed.
(** taking a variable out of its group *)
Lemma sane_claim w x c p : sane w -> slot w x = Some (mkObj (Some c) p) -> nth c (counts w) None = Some (Z.of_nat (claimers c (vars w))) /\ (0 < claimers c (vars w))%nat.
Proof.
  intros S0 H. assert (K : (0 < claimers c (vars w))%nat) by (apply (claimers_pos c _ x); unfold slot in H; rewrite H; cbn; apply Nat.eqb_refl).
  rewrite (s_count _ S0 c). destruct (Nat.eqb_spec (claimers c (vars w)) 0); [lia|]. auto.
Qed.
Lemma slot_length w x o : slot w x = Some o -> (x < List.length (vars w))%nat.
Proof. unfold slot. apply nth_some_length. Qed.
(** two claimers *)
Lemma two_claimers w x y c p q : slot w x = Some (mkObj (Some c) p) -> slot w y = Some (mkObj (Some c) q) -> y <> x -> (2 <= claimers c (vars w))%nat.
Proof.
  intros Hx Hy Hne. pose proof (slot_length _ _ _ Hx) as L. pose proof (claimers_update c (vars w) x None L) as A. unfold slot in *. rewrite Hx in A. cbn [claiming b2n] in A. rewrite Nat.eqb_refl in A. cbn [b2n] in A.
  assert (0 < claimers c (update (vars w) x None))%nat.
  { apply (claimers_pos c _ y). rewrite nth_update by exact L. destruct (Nat.eqb_spec x y); [congruence|]. rewrite Hy. cbn. apply Nat.eqb_refl. }
  lia.
Qed.
Lemma unset_update cs rs rl vs x o : unset (mkWorld cs rs rl (update vs x o) : world V) x = mkWorld cs rs rl (update vs x None).
Proof. unfold unset. cbn [counts resources released vars]. now rewrite update_update. Qed.
(** y keeps what it refers to *)
Definition keeps w w' (x : nat) : Prop := List.length (vars w') = List.length (vars w) /\ forall y, y <> x -> slot w' y = slot w y /\ see w' y = see w y.

Lemma sane_shrink w x cs rs rl : sane w -> (x < List.length (vars w))%nat ->
  (forall c, nth c cs None = count_is (claimers c (update (vars w) x None))) ->
  (forall y a r, y <> x -> slot w y = Some (mkObj a (PTo r)) -> nth r rs None <> None) ->
  sane (mkWorld cs rs rl (update (vars w) x None)).
Proof.
  intros S0 H Hc Hr.
  assert (U : forall y, y <> x -> slot (mkWorld cs rs rl (update (vars w) x None)) y = slot w y) by (intros y Hy; rewrite slot_update by exact H; unfold slot; destruct (Nat.eqb_spec x y); congruence).
  assert (Ux : forall y o, slot (mkWorld cs rs rl (update (vars w) x None)) y = Some o -> y <> x) by (intros y o E ->; rewrite slot_update, Nat.eqb_refl in E by exact H; discriminate).
  constructor; cbn [counts resources].
  - exact Hc.
  - intros y z c p q A B. pose proof (Ux _ _ A). pose proof (Ux _ _ B). rewrite U in A by assumption. rewrite U in B by assumption. exact (s_ptr _ S0 _ _ _ _ _ A B).
  - intros y z a b r A B. pose proof (Ux _ _ A). pose proof (Ux _ _ B). rewrite U in A by assumption. rewrite U in B by assumption. exact (s_own _ S0 _ _ _ _ _ A B).
  - intros y a r A. pose proof (Ux _ _ A). rewrite U in A by assumption. now apply (Hr y a).
  - intros y c A. pose proof (Ux _ _ A). rewrite U in A by assumption. exact (s_junk _ S0 _ _ A).
Qed.
Lemma see_same w w' y : slot w' y = slot w y -> (forall a r, slot w y = Some (mkObj a (PTo r)) -> nth r (resources w') None = nth r (resources w) None) -> see w' y = see w y.
Proof. intros E H. unfold see. rewrite E. destruct (slot w y) as [[a [|r|]]|] eqn:F; cbn [see_at]; try reflexivity. now rewrite (H _ _ eq_refl). Qed.

Lemma release_sane k w x o : sane w -> slot w x = Some o -> exists w1, release k w x = Ok w1 /\ sane (unset w1 x) /\ (exists p, slot w1 x = Some (mkObj None p)) /\ keeps w w1 x.
Proof.
  intros S0 Ho. pose proof (slot_length _ _ _ Ho) as L. destruct o as [[c|] p]; unfold release; rewrite (var_ok _ _ _ Ho); cbn [obind o_pn].
  2: { exists w. split; [reflexivity|]. split; [|split; [eauto|split; [reflexivity|auto]]]. apply sane_shrink; [exact S0|exact L| |].
       - intros c. rewrite (s_count _ S0 c). pose proof (claimers_update c (vars w) x None L) as A. unfold slot in Ho. rewrite Ho in A. cbn [claiming b2n] in A. unfold count_is.
         replace (claimers c (update (vars w) x None)) with (claimers c (vars w)) by lia. reflexivity.
       - intros y a r _ A. exact (s_live _ S0 _ _ _ A). }
  destruct (sane_claim _ _ _ _ S0 Ho) as (Hc & Hpos). unfold counter. rewrite Hc. cbn [obind]. unfold set_counter at 1. pose proof (nth_some_length _ _ _ Hc) as Lc. rewrite set_cell_ok by exact Lc. cbn [obind].
  set (n := claimers c (vars w)) in *.
  assert (Hn : claimers c (update (vars w) x None) = (n - 1)%nat).
  { pose proof (claimers_update c (vars w) x None L) as A. unfold slot in Ho. rewrite Ho in A. cbn [claiming b2n] in A. rewrite Nat.eqb_refl in A. cbn [b2n] in A. unfold n in *. lia. }
  assert (Hd : forall d, d <> c -> claimers d (update (vars w) x None) = claimers d (vars w)).
  { intros d Hd. pose proof (claimers_update d (vars w) x None L) as A. unfold slot in Ho. rewrite Ho in A. cbn [claiming b2n] in A. destruct (Nat.eqb_spec d c); [congruence|]. cbn [b2n] in A. lia. }
  destruct (Z.of_nat n - 1 =? 0) eqn:E1.
  - assert (n = 1%nat) by lia. unfold cleanup_member. rewrite (var_ok (mkWorld _ _ _ (vars w)) x (mkObj (Some c) p) Ho). cbn [obind o_ptr].
    assert (Hother : forall y q, y <> x -> slot w y <> Some (mkObj (Some c) q)) by (intros y q Hy A; pose proof (two_claimers _ _ _ _ _ _ Ho A Hy); unfold n in *; lia).
    assert (G : forall rs rl p', (forall y a r, y <> x -> slot w y = Some (mkObj a (PTo r)) -> nth r rs None = nth r (resources w) None) ->
      sane (unset (mkWorld (update (counts w) c None) rs rl (update (vars w) x (Some (mkObj None p')))) x) /\
      (exists p0, slot (mkWorld (update (counts w) c None) rs rl (update (vars w) x (Some (mkObj None p')))) x = Some (mkObj None p0)) /\
      keeps w (mkWorld (update (counts w) c None) rs rl (update (vars w) x (Some (mkObj None p')))) x).
    { intros rs rl p' Hrs. split; [|split].
      - rewrite unset_update. apply sane_shrink; [exact S0|exact L| |].
        + intros d. rewrite nth_update by exact Lc. destruct (Nat.eqb_spec c d) as [<-|Ed]; [rewrite Hn; replace (n - 1)%nat with 0%nat by lia; reflexivity|].
          rewrite (s_count _ S0 d), (Hd d) by congruence. reflexivity.
        + intros y a r Hy A. rewrite (Hrs _ _ _ Hy A). exact (s_live _ S0 _ _ _ A).
      - exists p'. rewrite slot_update, Nat.eqb_refl by exact L. reflexivity.
      - split; [cbn [vars]; apply update_length|]. intros y Hy.
        assert (Es : slot (mkWorld (update (counts w) c None) rs rl (update (vars w) x (Some (mkObj None p')))) y = slot w y) by (rewrite slot_update by exact L; destruct (Nat.eqb_spec x y); [congruence|reflexivity]).
        split; [exact Es|]. apply see_same; [exact Es|]. intros a r A. cbn [resources]. exact (Hrs _ _ _ Hy A). }
    destruct p as [|r|].
    + cbn [obind]. unfold set_counter. cbn [counts resources released vars]. rewrite set_cell_ok by (rewrite update_length; exact Lc). cbn [obind].
      rewrite (set_pn_ok (mkWorld _ _ _ (vars w)) x (mkObj (Some c) PNull) None Ho). cbn [counts resources released vars o_ptr]. rewrite update_update.
      eexists. split; [reflexivity|]. apply G. reflexivity.
    + pose proof (s_live _ S0 _ _ _ Ho) as Hr. destruct (nth r (resources w) None) as [v|] eqn:Er; [|congruence].
      unfold free, resource. cbn [resources]. rewrite Er. cbn [obind]. unfold set_resource. cbn [counts resources released vars]. rewrite set_cell_ok by exact (nth_some_length _ _ _ Er). cbn [obind counts resources released vars].
      assert (G2 : forall y a r0, y <> x -> slot w y = Some (mkObj a (PTo r0)) -> nth r0 (update (resources w) r None) None = nth r0 (resources w) None).
      { intros y a r0 Hy A. rewrite nth_update by exact (nth_some_length _ _ _ Er). destruct (Nat.eqb_spec r r0) as [<-|]; [|reflexivity]. exfalso.
        destruct (s_own _ S0 _ _ _ _ _ Ho A) as [E|(c' & E2 & E3)]; [congruence|]. injection E2 as <-. subst a. exact (Hother _ _ Hy A). }
      assert (M : exists w1 p', (w0 <- match k with
             | KObjectList => Ok (mkWorld (update (counts w) c (Some (Z.of_nat n - 1))) (update (resources w) r None) (r :: released w) (vars w))
             | _ => set_ptr (mkWorld (update (counts w) c (Some (Z.of_nat n - 1))) (update (resources w) r None) (r :: released w) (vars w)) x PNull end ;;
             w0 <- set_counter w0 c None ;; set_pn w0 x None) = Ok w1 /\
             w1 = mkWorld (update (counts w) c None) (update (resources w) r None) (r :: released w) (update (vars w) x (Some (mkObj None p')))).
      { rewrite (set_ptr_ok (mkWorld _ _ _ (vars w)) x (mkObj (Some c) (PTo r)) PNull Ho). cbn [counts resources released vars o_pn].
        assert (Q : forall vs, (vs = vars w \/ vs = update (vars w) x (Some (mkObj (Some c) PNull))) -> exists w1 p', (w0 <- set_counter (mkWorld (update (counts w) c (Some (Z.of_nat n - 1))) (update (resources w) r None) (r :: released w) vs) c None ;; set_pn w0 x None) = Ok w1 /\
           w1 = mkWorld (update (counts w) c None) (update (resources w) r None) (r :: released w) (update (vars w) x (Some (mkObj None p')))).
        { intros vs Hvs. unfold set_counter. cbn [counts resources released vars]. rewrite set_cell_ok by (rewrite update_length; exact Lc). cbn [obind]. rewrite update_update.
          destruct Hvs as [-> | ->].
          - rewrite (set_pn_ok (mkWorld _ _ _ (vars w)) x (mkObj (Some c) (PTo r)) None Ho). cbn [counts resources released vars o_ptr]. eauto.
          - rewrite (set_pn_ok (mkWorld _ _ _ (update (vars w) x _)) x (mkObj (Some c) PNull) None) by (cbn [vars]; apply nth_at; exact L). cbn [counts resources released vars o_ptr]. rewrite update_update. eauto. }
        destruct k; cbn [obind]; apply Q; auto. }
      destruct M as (w1 & p' & M & Ew1). unfold obind at 1 2. unfold obind in M. destruct k; cbn [obind] in *; 
        (match type of M with match ?a with _ => _ end = _ => match goal with |- exists _, match match match ?b with _ => _ end with _ => _ end with _ => _ end = _ /\ _ => idtac | _ => idtac end end);
        exists w1; (split; [|subst w1; apply G; exact G2]).
      all: cbv beta iota in *.
      all: try exact M.
      all: match type of M with match ?a with _ => _ end = _ => destruct a as [u| | |]; [|discriminate M..] end; try exact M; match type of M with match ?a with _ => _ end = _ => destruct a as [u'| | |]; [|discriminate M..] end; exact M.
    + exfalso. exact (s_junk _ S0 _ _ Ho).
  - cbn [obind]. rewrite (set_pn_ok (mkWorld _ _ _ (vars w)) x (mkObj (Some c) p) None Ho). cbn [counts resources released vars o_ptr]. eexists. split; [reflexivity|]. split; [|split].
    + rewrite unset_update. apply sane_shrink; [exact S0|exact L| |].
      * intros d. rewrite nth_update by exact Lc. destruct (Nat.eqb_spec c d) as [<-|Ed].
        -- rewrite Hn. unfold count_is. destruct (Nat.eqb_spec (n - 1) 0); [lia|]. f_equal. lia.
        -- rewrite (s_count _ S0 d), (Hd d) by congruence. reflexivity.
      * intros y a r _ A. exact (s_live _ S0 _ _ _ A).
    + exists p. rewrite slot_update, Nat.eqb_refl by exact L. reflexivity.
    + split; [cbn [vars]; apply update_length|]. intros y Hy.
      assert (Es : slot (mkWorld (update (counts w) c (Some (Z.of_nat n - 1))) (resources w) (released w) (update (vars w) x (Some (mkObj None p)))) y = slot w y) by (rewrite slot_update by exact L; destruct (Nat.eqb_spec x y); [congruence|reflexivity]).
      split; [exact Es|]. apply see_same; [exact Es|]. reflexivity.
Qed.

Lemma sane_new_counter w x : sane (unset w x) -> nth (List.length (counts w)) (counts w) None = None /\ claimers (List.length (counts w)) (update (vars w) x None) = 0%nat.
Proof.
  intros S0. assert (E : nth (List.length (counts w)) (counts w) None = None) by (apply nth_overflow; lia). split; [exact E|].
  pose proof (s_count _ S0 (List.length (counts w))) as J. cbn [unset counts vars] in J. rewrite E in J. destruct (Nat.eqb_spec (claimers (List.length (counts w)) (update (vars w) x None)) 0); [assumption|discriminate].
Qed.
Lemma no_claimer w x y c q : (x < List.length (vars w))%nat -> claimers c (update (vars w) x None) = 0%nat -> y <> x -> slot w y <> Some (mkObj (Some c) q).
Proof.
  intros L E Hy A. assert (0 < claimers c (update (vars w) x None))%nat; [|lia]. apply (claimers_pos c _ y). rewrite nth_update by exact L.
  destruct (Nat.eqb_spec x y); [congruence|]. unfold slot in A. rewrite A. cbn. apply Nat.eqb_refl.
Qed.
Lemma unset_live w x y a r : sane (unset w x) -> (x < List.length (vars w))%nat -> y <> x -> slot w y = Some (mkObj a (PTo r)) -> nth r (resources w) None <> None.
Proof. intros S0 L Hy A. apply (s_live _ S0 y a r). rewrite slot_unset by exact L. destruct (Nat.eqb_spec x y); [congruence|exact A]. Qed.
Lemma unset_bound w x y a r : sane (unset w x) -> (x < List.length (vars w))%nat -> y <> x -> slot w y = Some (mkObj a (PTo r)) -> (r < List.length (resources w))%nat.
Proof. intros S0 L Hy A. pose proof (unset_live _ _ _ _ _ S0 L Hy A) as H. destruct (Nat.ltb_spec r (List.length (resources w))); [assumption|]. rewrite nth_overflow in H by assumption. congruence. Qed.
Lemma count_plain w x c (o : option obj) : sane (unset w x) -> claiming c o = false -> nth c (counts w) None = count_is (claimers c (update (vars w) x None) + b2n (claiming c o)).
Proof. intros S0 ->. cbn [b2n]. rewrite Nat.add_0_r. exact (s_count _ S0 c). Qed.

(** a new structure with a counter *)
Lemma own_sane w x v p : sane (unset w x) -> slot w x = Some (mkObj None p) -> exists w2, acquire (fst (create w v)) x = Ok w2 /\
  exists w3, set_ptr w2 x (PTo (snd (create w v))) = Ok w3 /\ sane w3 /\ see w3 x = Some (Some v) /\ keeps w w3 x.
Proof.
  intros S0 Ho. pose proof (slot_length _ _ _ Ho) as L. unfold create. cbn [fst snd].
  rewrite (acquire_new (mkWorld (counts w) (resources w ++ [Some v]) (released w) (vars w)) x p Ho). cbn [counts resources released vars].
  eexists. split; [reflexivity|].
  rewrite (set_ptr_ok (mkWorld _ _ _ (update (vars w) x _)) x (mkObj (Some (List.length (counts w))) p)) by (cbn [vars]; apply nth_at; exact L).
  cbn [counts resources released vars o_pn]. rewrite update_update. eexists. split; [reflexivity|].
  destruct (sane_new_counter w x S0) as (_ & Hz).
  assert (K : keeps w (mkWorld (counts w ++ [Some 1]) (resources w ++ [Some v]) (released w) (update (vars w) x (Some (mkObj (Some (List.length (counts w))) (PTo (List.length (resources w))))))) x).
  { split; [cbn [vars]; apply update_length|]. intros y Hy. 
    assert (Es : slot (mkWorld (counts w ++ [Some 1]) (resources w ++ [Some v]) (released w) (update (vars w) x (Some (mkObj (Some (List.length (counts w))) (PTo (List.length (resources w))))))) y = slot w y)
      by (rewrite slot_update by exact L; destruct (Nat.eqb_spec x y); [congruence|reflexivity]).
    split; [exact Es|]. apply see_same; [exact Es|]. intros a r A. cbn [resources]. rewrite nth_app_new. pose proof (unset_bound _ _ _ _ _ S0 L Hy A). destruct (Nat.eqb_spec r (List.length (resources w))); [lia|reflexivity]. }
  split; [|split; [|exact K]].
  - apply sane_put; [exact S0|exact L| | | |].
    + intros c. rewrite nth_app_new. cbn [claiming]. destruct (Nat.eqb_spec c (List.length (counts w))) as [->|E].
      * rewrite Hz. reflexivity.
      * cbn [b2n]. rewrite Nat.add_0_r. exact (s_count _ S0 c).
    + intros y a r Hy A. rewrite nth_app_new. destruct (Nat.eqb r (List.length (resources w))); [discriminate|]. exact (unset_live _ _ _ _ _ S0 L Hy A).
    + intros c q E. injection E as <- <-. split; [discriminate|]. intros y q Hy A. exfalso. exact (no_claimer _ _ _ _ _ L Hz Hy A).
    + intros a r E. injection E as <- <-. split; [rewrite nth_app_new, Nat.eqb_refl; discriminate|]. intros y b Hy A. exfalso. pose proof (unset_bound _ _ _ _ _ S0 L Hy A). lia.
  - unfold see. rewrite slot_update, Nat.eqb_refl by exact L. cbn [see_at resources]. rewrite nth_app_new, Nat.eqb_refl. reflexivity.
Qed.
(** a new structure without *)
Lemma build_sane w x v : sane (unset w x) -> (x < List.length (vars w))%nat -> exists w3, put_var (fst (create w v)) x (mkObj None (PTo (snd (create w v)))) = Ok w3 /\ sane w3 /\ see w3 x = Some (Some v) /\ keeps w w3 x.
Proof.
  intros S0 L. unfold create, put_var. cbn [fst snd]. rewrite set_slot_ok by exact L. cbn [counts resources released vars]. eexists. split; [reflexivity|]. split; [|split].
  - apply sane_put; [exact S0|exact L| | | |].
    + intros c. now apply count_plain.
    + intros y a r Hy A. rewrite nth_app_new. destruct (Nat.eqb r (List.length (resources w))); [discriminate|]. exact (unset_live _ _ _ _ _ S0 L Hy A).
    + discriminate.
    + intros a r E. injection E as <- <-. split; [rewrite nth_app_new, Nat.eqb_refl; discriminate|]. intros y b Hy A. exfalso. pose proof (unset_bound _ _ _ _ _ S0 L Hy A). lia.
  - unfold see. rewrite slot_update, Nat.eqb_refl by exact L. cbn [see_at resources]. rewrite nth_app_new, Nat.eqb_refl. reflexivity.
  - split; [cbn [vars]; apply update_length|]. intros y Hy.
    assert (Es : slot (mkWorld (counts w) (resources w ++ [Some v]) (released w) (update (vars w) x (Some (mkObj None (PTo (List.length (resources w))))))) y = slot w y)
      by (rewrite slot_update by exact L; destruct (Nat.eqb_spec x y); [congruence|reflexivity]).
    split; [exact Es|]. apply see_same; [exact Es|]. intros a r A. cbn [resources]. rewrite nth_app_new. pose proof (unset_bound _ _ _ _ _ S0 L Hy A). destruct (Nat.eqb_spec r (List.length (resources w))); [lia|reflexivity].
Qed.
(** nothing *)
Lemma plain_sane w x (o : option obj) : sane (unset w x) -> (x < List.length (vars w))%nat -> (o = None \/ o = Some (mkObj None PNull) \/ o = Some (mkObj None PJunk)) ->
  exists w3, set_slot w x o = Ok w3 /\ sane w3 /\ see w3 x = see_at [] o /\ keeps w w3 x.
Proof.
  intros S0 L Ho. rewrite set_slot_ok by exact L. eexists. split; [reflexivity|]. split; [|split].
  - apply sane_put; [exact S0|exact L| | | |].
    + intros c. apply count_plain; [exact S0|]. destruct Ho as [->|[->| ->]]; reflexivity.
    + intros y a r Hy A. exact (unset_live _ _ _ _ _ S0 L Hy A).
    + intros c p E. destruct Ho as [->|[->| ->]]; discriminate.
    + intros c p E. destruct Ho as [->|[->| ->]]; discriminate.
  - unfold see. rewrite slot_update, Nat.eqb_refl by exact L. destruct Ho as [->|[->| ->]]; reflexivity.
  - split; [cbn [vars]; apply update_length|]. intros y Hy.
    assert (Es : slot (mkWorld (counts w) (resources w) (released w) (update (vars w) x o)) y = slot w y) by (rewrite slot_update by exact L; destruct (Nat.eqb_spec x y); [congruence|reflexivity]).
    split; [exact Es|]. apply see_same; [exact Es|]. reflexivity.
Qed.
(** x joins y *)
Lemma join_sane w x y o p : sane (unset w x) -> (x < List.length (vars w))%nat -> x <> y -> slot w y = Some o -> o_ptr o <> PJunk -> (o_pn o <> None \/ o_ptr o = PNull) ->
  exists w2, acquire (mkWorld (counts w) (resources w) (released w) (update (vars w) x (Some (mkObj (o_pn o) p)))) x = Ok w2 /\ slot w2 y = Some o /\
  exists w3, set_ptr w2 x (o_ptr o) = Ok w3 /\ sane w3 /\ see w3 x = see w y /\ keeps w w3 x.
Proof.
  intros S0 L Hne Hy Hj Hc. destruct o as [[c|] q]; cbn [o_pn o_ptr] in *.
  - assert (Hyu : slot (unset w x) y = Some (mkObj (Some c) q)) by (rewrite slot_unset by exact L; destruct (Nat.eqb_spec x y); [congruence|exact Hy]).
    destruct (sane_claim _ _ _ _ S0 Hyu) as (Hn & Hpos). cbn [unset counts vars] in Hn, Hpos. pose proof (nth_some_length _ _ _ Hn) as Lc.
    rewrite (acquire_old (mkWorld _ _ _ (update (vars w) x _)) x c p _ (nth_at _ _ _ L) Hn). cbn [counts resources released vars]. eexists. split; [reflexivity|].
    split; [rewrite slot_update by exact L; destruct (Nat.eqb_spec x y); [congruence|exact Hy]|].
    rewrite (set_ptr_ok (mkWorld _ _ _ (update (vars w) x _)) x (mkObj (Some c) p)) by (cbn [vars]; apply nth_at; exact L). cbn [counts resources released vars o_pn]. rewrite update_update. eexists. split; [reflexivity|].
    split; [|split].
    + apply sane_put; [exact S0|exact L| | | |].
      * intros d. rewrite nth_update by exact Lc. cbn [claiming]. destruct (Nat.eqb_spec c d) as [<-|E].
        -- rewrite Nat.eqb_refl. cbn [b2n]. unfold count_is. destruct (Nat.eqb_spec (claimers c (update (vars w) x None) + 1) 0); [lia|]. f_equal. lia.
        -- destruct (Nat.eqb_spec d c); [congruence|]. cbn [b2n]. rewrite Nat.add_0_r. exact (s_count _ S0 d).
      * intros z a r Hz A. exact (unset_live _ _ _ _ _ S0 L Hz A).
      * intros d q' E. injection E as <- <-. split; [exact Hj|]. intros z q' Hz A. apply (s_ptr _ S0 z y c); [|exact Hyu]. rewrite slot_unset by exact L. destruct (Nat.eqb_spec x z); [congruence|exact A].
      * intros a r E. injection E as <- ->. split; [exact (unset_live _ _ _ _ _ S0 L (not_eq_sym Hne) Hy)|]. intros z b Hz A.
        assert (Hzu : slot (unset w x) z = Some (mkObj b (PTo r))) by (rewrite slot_unset by exact L; destruct (Nat.eqb_spec x z); [congruence|exact A]).
        destruct (s_own _ S0 _ _ _ _ _ Hyu Hzu) as [<-|(d & E1 & E2)]; [exists c; split; congruence|]. exists d. auto.
    + unfold see. rewrite slot_update, Nat.eqb_refl by exact L. cbn [resources]. rewrite Hy. reflexivity.
    + split; [cbn [vars]; apply update_length|]. intros z Hz.
      match goal with |- slot ?W z = _ /\ _ => assert (Es : slot W z = slot w z) by (rewrite slot_update by exact L; destruct (Nat.eqb_spec x z); [congruence|reflexivity]) end.
      split; [exact Es|]. apply see_same; [exact Es|]. reflexivity.
  - destruct Hc as [Hc| ->]; [congruence|].
    rewrite (acquire_new (mkWorld _ _ _ (update (vars w) x _)) x p (nth_at _ _ _ L)). cbn [counts resources released vars]. rewrite update_update. eexists. split; [reflexivity|].
    split; [rewrite slot_update by exact L; destruct (Nat.eqb_spec x y); [congruence|exact Hy]|].
    rewrite (set_ptr_ok (mkWorld _ _ _ (update (vars w) x _)) x (mkObj (Some (List.length (counts w))) p)) by (cbn [vars]; apply nth_at; exact L). cbn [counts resources released vars o_pn]. rewrite update_update. eexists. split; [reflexivity|].
    destruct (sane_new_counter w x S0) as (_ & Hz0). split; [|split].
    + apply sane_put; [exact S0|exact L| | | |].
      * intros d. rewrite nth_app_new. cbn [claiming]. destruct (Nat.eqb_spec d (List.length (counts w))) as [->|E].
        -- rewrite Hz0. reflexivity.
        -- cbn [b2n]. rewrite Nat.add_0_r. exact (s_count _ S0 d).
      * intros z a r Hz A. exact (unset_live _ _ _ _ _ S0 L Hz A).
      * intros d q' E. injection E as <- <-. split; [discriminate|]. intros z q' Hz A. exfalso. exact (no_claimer _ _ _ _ _ L Hz0 Hz A).
      * intros a r E. discriminate.
    + unfold see. rewrite slot_update, Nat.eqb_refl by exact L. rewrite Hy. reflexivity.
    + split; [cbn [vars]; apply update_length|]. intros z Hz.
      match goal with |- slot ?W z = _ /\ _ => assert (Es : slot W z = slot w z) by (rewrite slot_update by exact L; destruct (Nat.eqb_spec x z); [congruence|reflexivity]) end.
      split; [exact Es|]. apply see_same; [exact Es|]. reflexivity.
Qed.
Lemma unset_none w x : slot w x = None -> (x < List.length (vars w))%nat -> sane w -> sane (unset w x).
Proof.
  intros H L S0. unfold unset. apply sane_shrink; [exact S0|exact L| |].
  - intros c. rewrite (s_count _ S0 c). pose proof (claimers_update c (vars w) x None L) as A. unfold slot in H. rewrite H in A. unfold count_is. replace (claimers c (update (vars w) x None)) with (claimers c (vars w)) by lia. reflexivity.
  - intros y a r _ A. exact (s_live _ S0 _ _ _ A).
Qed.
(** exchanging two variables *)
Lemma swap_sane w x y : sane w -> x <> y -> (x < List.length (vars w))%nat -> (y < List.length (vars w))%nat ->
  let w' := mkWorld (counts w) (resources w) (released w) (update (update (vars w) x (slot w y)) y (slot w x)) in
  sane w' /\ forall z, slot w' z = slot w (if Nat.eqb y z then x else if Nat.eqb x z then y else z) /\ see w' z = see w (if Nat.eqb y z then x else if Nat.eqb x z then y else z).
Proof.
  intros S0 Hne Lx Ly w'. set (f := fun z => if Nat.eqb y z then x else if Nat.eqb x z then y else z).
  assert (Hv : forall z, slot w' z = slot w (f z)).
  { intros z. unfold w'. rewrite slot_update by (rewrite update_length; exact Ly). unfold f. destruct (Nat.eqb_spec y z); [reflexivity|]. rewrite nth_update by exact Lx. destruct (Nat.eqb_spec x z); reflexivity. }
  assert (Hf : forall z, f (f z) = z).
  { intros z. unfold f. destruct (Nat.eqb_spec y z) as [<-|E1]; [destruct (Nat.eqb_spec y x), (Nat.eqb_spec x x); congruence|].
    destruct (Nat.eqb_spec x z) as [<-|E2]; [rewrite Nat.eqb_refl; congruence|]. destruct (Nat.eqb_spec y z), (Nat.eqb_spec x z); congruence. }
  split.
  - constructor; unfold w'; cbn [counts resources]; fold w'.
    + intros c. unfold w'. cbn [vars]. replace (claimers c (update (update (vars w) x (slot w y)) y (slot w x))) with (claimers c (vars w)); [apply S0|].
      pose proof (claimers_update c (vars w) x (slot w y) Lx) as A. pose proof (claimers_update c (update (vars w) x (slot w y)) y (slot w x)) as B. rewrite update_length in B. specialize (B Ly).
      rewrite nth_update in B by exact Lx. unfold slot in *. destruct (Nat.eqb_spec x y); [congruence|]. lia.
    + intros a b c p q. rewrite !Hv. apply S0.
    + intros a b c d r. rewrite !Hv. intros A B. destruct (s_own _ S0 _ _ _ _ _ A B) as [E|E]; [|auto]. left. rewrite <- (Hf a), <- (Hf b). congruence.
    + intros a c r. rewrite Hv. apply S0.
    + intros a c. rewrite Hv. apply S0.
  - intros z. split; [apply Hv|]. unfold see. rewrite Hv. reflexivity.
Qed.
(** a structure changes that belongs to x alone *)
Lemma change_sane w x f v v' n : sane w -> see w x = Some (Some v) -> f v = Ok v' -> claims w x = Ok n -> n <= 1 ->
  exists w', change w x f = Ok w' /\ sane w' /\ see w' x = Some (Some v') /\ keeps w w' x.
Proof.
  intros S0 Hs Hf Hn Hle. unfold see in Hs. destruct (slot w x) as [[a [|r|]]|] eqn:Ho; cbn [see_at] in Hs; try discriminate.
  destruct (nth r (resources w) None) as [u|] eqn:Er; [|discriminate]. injection Hs as ->. pose proof (nth_some_length _ _ _ Er) as Lr.
  unfold change. rewrite (var_ok _ _ _ Ho). cbn [obind o_ptr]. unfold resource. rewrite Er. cbn [obind]. rewrite Hf. cbn [obind]. unfold set_resource. rewrite set_cell_ok by exact Lr. cbn [obind].
  eexists. split; [reflexivity|]. split; [|split].
  - destruct S0 as [S1 S2 S3 S4 S5]. constructor; cbn [counts resources vars]; [exact S1|exact S2|exact S3| |exact S5].
    intros y b r0 A. rewrite nth_update by exact Lr. destruct (Nat.eqb r r0); [discriminate|]. exact (S4 _ _ _ A).
  - unfold see. change (slot (mkWorld (counts w) (update (resources w) r (Some v')) (released w) (vars w)) x) with (slot w x). rewrite Ho. cbn [see_at resources]. rewrite nth_update, Nat.eqb_refl by exact Lr. reflexivity.
  - split; [reflexivity|]. intros y Hy. split; [reflexivity|]. apply see_same; [reflexivity|]. intros b r0 A. cbn [resources]. rewrite nth_update by exact Lr. destruct (Nat.eqb_spec r r0) as [<-|]; [|reflexivity].
    exfalso. destruct (s_own _ S0 _ _ _ _ _ Ho A) as [E|(c & E1 & E2)]; [congruence|]. subst a b. pose proof (two_claimers _ _ _ _ _ _ Ho A Hy) as K.
    unfold claims in Hn. rewrite (var_ok _ _ _ Ho) in Hn. cbn [obind o_pn] in Hn. unfold counter in Hn. destruct (sane_claim _ _ _ _ S0 Ho) as (E & _). rewrite E in Hn. injection Hn as <-. lia.
Qed.
End Sane.

(** ---- the programs ---- *)
Record agrees (k : class) (w : lworld) (s : lvals) : Prop := {
  a_tracks : tracks k w s;
  a_sane : sane (structs w);
  a_see : forall x l, value_of (lists s) x = VVal l -> exists t, see (structs w) x = Some t /\ sends k t l
}.
Lemma put_vector_ok w x l : (x < List.length (vectors w))%nat -> put_vector w x l = Ok (mkLWorld (structs w) (update (vectors w) x l) (elems w) (made w)).
Proof. intros H. unfold put_vector. rewrite set_cell_ok by exact H. reflexivity. Qed.
Lemma put_elem_ok w x e : (x < List.length (elems w))%nat -> put_elem w x e = Ok (mkLWorld (structs w) (vectors w) (update (elems w) x e) (made w)).
Proof. intros H. unfold put_elem. rewrite set_cell_ok by exact H. reflexivity. Qed.
Lemma agrees_slot k w s x : agrees k w s -> is_unborn (value_of (lists s) x) = false -> exists o, slot (structs w) x = Some o.
Proof.
  intros A H. pose proof (t_there _ _ _ (a_tracks _ _ _ A) x) as T. rewrite H in T. unfold there in T. unfold slot. destruct (nth x (vars (structs w)) None); [eauto|discriminate].
Qed.
Lemma agrees_free k w s x : agrees k w s -> is_free s x = true -> unborn (structs w) x = Ok tt /\ (x < List.length (vars (structs w)))%nat /\ (x < List.length (vectors w))%nat /\ slot (structs w) x = None /\ (x < List.length (lists s))%nat.
Proof.
  intros A F. unfold is_free in F. apply andb_prop in F as (F1 & F2). apply Nat.ltb_lt in F1. pose proof (a_tracks _ _ _ A) as T.
  assert (L : (x < List.length (vars (structs w)))%nat) by (rewrite (t_vars _ _ _ T); exact F1).
  pose proof (t_there _ _ _ T x) as E. rewrite F2 in E. cbn [negb] in E. unfold there in E. 
  assert (N : nth x (vars (structs w)) None = None) by (destruct (nth x (vars (structs w)) None); [discriminate|reflexivity]).
  split; [unfold unborn; rewrite (nth_error_nth' _ None L), N; reflexivity|]. split; [exact L|]. split; [rewrite (t_vectors _ _ _ T); exact F1|]. split; [exact N|exact F1].
Qed.
Lemma free_sane k w s x : agrees k w s -> is_free s x = true -> sane (unset (structs w) x).
Proof. intros A F. destruct (agrees_free _ _ _ _ A F) as (_ & L & _ & N & _). exact (unset_none _ _ N L (a_sane _ _ _ A)). Qed.
(** the other variables keep their structures *)
Lemma see_store k w s x v w1 : agrees k w s -> (x < List.length (lists s))%nat -> keeps (structs w) w1 x ->
  (forall l, v = VVal l -> exists t, see w1 x = Some t /\ sends k t l) ->
  forall y l, value_of (lists (set_list s x v)) y = VVal l -> exists t, see w1 y = Some t /\ sends k t l.
Proof.
  intros A L (_ & K) H y l. cbn [set_list lists]. rewrite value_set by exact L. destruct (Nat.eqb_spec x y) as [<-|E]; [apply H|].
  intros Hy. rewrite (proj2 (K y (not_eq_sym E))). exact (a_see _ _ _ A y l Hy).
Qed.
Lemma cleans_ok k w x o : sane w -> slot w x = Some o -> exists b, cleans k w x = Ok b.
Proof.
  intros S0 Ho. unfold cleans. rewrite (var_ok _ _ _ Ho). cbn [obind]. destruct o as [[c|] [|r|]]; destruct k; cbn [o_pn o_ptr]; eauto.
  destruct (sane_claim _ _ _ _ S0 Ho) as (E & _). unfold counter. rewrite E. cbn [obind]. eauto.
Qed.
Lemma clear_ok k w x o : sane (structs w) -> slot (structs w) x = Some o -> (x < List.length (vectors w))%nat ->
  exists b : bool, clear_released k w x = Ok (if b then mkLWorld (structs w) (update (vectors w) x []) (elems w) (made w) else w) /\ (b = true -> k = KObjectList).
Proof.
  intros S0 Ho L. destruct (cleans_ok k _ _ _ S0 Ho) as (b & E). unfold clear_released. rewrite E. cbn [obind]. exists b. split.
  - destruct b; [now apply put_vector_ok|reflexivity].
  - intros ->. unfold cleans in E. rewrite (var_ok _ _ _ Ho) in E. cbn [obind] in E. destruct k; try discriminate. reflexivity.
Qed.
Lemma sends_empty_new : sends KImageList (Some (repeat Nothing CHANNELS)) [None; None; None].
Proof. repeat constructor. Qed.
Lemma sends_default n : sends KObjectList (Some (repeat Default n)) (repeat None n).
Proof. cbn [sends]. induction n; cbn [repeat]; constructor; [right; auto|exact IHn]. Qed.
Lemma sends_pointers k l : sends k (Some (map pointer l)) l.
Proof. cbn [sends]. induction l as [|[e|] l IH]; cbn [map]; constructor; try exact IH; [reflexivity|left; reflexivity]. Qed.
Lemma sends_update k e : forall es l i, Forall2 (sent_as k) es l -> (i < List.length l)%nat -> Forall2 (sent_as k) (update es i (pointer e)) (update l i e).
Proof.
  intros es l i H. revert i. induction H as [|a b es l Hab H IH]; intros i L; cbn [List.length] in L; [lia|]. destruct i as [|i]; cbn [update]; constructor; auto.
  - destruct e; [reflexivity|left; reflexivity].
  - apply IH. lia.
Qed.

Lemma update_four {A} (l : list A) x y a b c d : x <> y -> update (update (update (update l x a) y b) x c) y d = update (update l x c) y d.
Proof.
  intros H. rewrite (update_comm (update l x a) y x b c) by congruence. now rewrite !update_update.
Qed.
Lemma step_ok k w s o s' : is_list k -> agrees k w s -> step_vals k s o = Some s' -> unshared w o ->
  exists w', run_lop k w o = Ok w' /\ sane (structs w') /\ forall x l, value_of (lists s') x = VVal l -> exists t, see (structs w') x = Some t /\ sends k t l.
Proof.
  intros Hk A Es G. pose proof (a_tracks _ _ _ A) as T. pose proof (a_sane _ _ _ A) as S0. destruct o; cbn [step_vals run_lop unshared] in *.
  - (* LNew *) destruct (is_free s x) eqn:F; [|discriminate]. injection Es as <-. destruct (agrees_free _ _ _ _ A F) as (U & L & Lv & N & Ls). pose proof (free_sane _ _ _ _ A F) as Su.
    destruct Hk as [-> | ->]; cbn [list_new].
    + destruct (build_sane (structs w) x (repeat Nothing CHANNELS) Su L) as (w3 & E3 & S3 & V3 & K3). unfold construct_list. rewrite U. cbn [obind]. unfold create in *. cbn [fst snd] in E3. rewrite E3. cbn [with_structs obind].
      rewrite put_vector_ok by exact Lv. eexists. split; [reflexivity|]. cbn [structs]. split; [exact S3|].
      apply (see_store KImageList w s x _ w3 A Ls K3). intros l E. injection E as <-. eexists. split; [exact V3|]. apply sends_empty_new.
    + destruct (plain_sane (structs w) x (Some (mkObj None PNull)) Su L ltac:(auto)) as (w3 & E3 & S3 & V3 & K3). unfold construct. rewrite U. cbn [obind]. unfold put_var. rewrite E3. cbn [with_structs obind].
      rewrite put_vector_ok by exact Lv. eexists. split; [reflexivity|]. cbn [structs]. split; [exact S3|].
      apply (see_store KObjectList w s x _ w3 A Ls K3). intros l E. injection E as <-. eexists. split; [exact V3|]. reflexivity.
  - (* LSized *) destruct (is_free s x && class_eqb k KObjectList) eqn:F; [|discriminate]. injection Es as <-. apply andb_prop in F as (F & F3). apply class_eqb_eq in F3. subst k.
    destruct (agrees_free _ _ _ _ A F) as (U & L & Lv & N & Ls). pose proof (free_sane _ _ _ _ A F) as Su. unfold list_sized.
    destruct (build_sane (structs w) x (repeat Default n) Su L) as (w3 & E3 & S3 & V3 & K3). unfold construct_list. rewrite U. cbn [obind]. unfold create in *. cbn [fst snd] in E3. rewrite E3. cbn [with_structs obind].
    rewrite put_vector_ok by exact Lv. eexists. split; [reflexivity|]. cbn [structs]. split; [exact S3|].
    apply (see_store KObjectList w s x _ w3 A Ls K3). intros l E. injection E as <-. eexists. split; [exact V3|]. apply sends_default.
  - (* LCopy *) destruct (is_free s x && is_value (value_of (lists s) y)) eqn:F; [|discriminate]. injection Es as <-. apply andb_prop in F as (F & F3).
    destruct (agrees_free _ _ _ _ A F) as (U & L & Lv & N & Ls). pose proof (free_sane _ _ _ _ A F) as Su.
    destruct (value_of (lists s) y) as [|ly|] eqn:Ey; try discriminate. destruct (a_see _ _ _ A y ly Ey) as (t & Ht & Hs).
    destruct G as (o & Go & Gc). assert (Ho : slot (structs w) y = Some o) by exact (nth_error_nth _ _ _ Go).
    assert (Hj : o_ptr o <> PJunk) by (unfold see in Ht; rewrite Ho in Ht; destruct o as [a [|r|]]; cbn in *; discriminate).
    assert (Hne : x <> y) by (intros ->; congruence).
    destruct (join_sane (structs w) x y o PJunk Su L Hne Ho Hj Gc) as (w2 & E2 & _ & w3 & E3 & S3 & V3 & K3).
    unfold list_copy, copy_construct. rewrite U. cbn [obind]. rewrite (var_ok _ _ _ Ho). cbn [obind]. unfold put_var. rewrite set_slot_ok by exact L. cbn [obind]. rewrite E2. cbn [obind]. rewrite E3. cbn [with_structs obind].
    rewrite put_vector_ok by exact Lv. eexists. split; [reflexivity|]. cbn [structs]. split; [exact S3|].
    apply (see_store k w s x _ w3 A Ls K3). intros l E. injection E as <-. exists t. split; [congruence|exact Hs].
  - (* LMove *) destruct (is_free s x && is_value (value_of (lists s) y)) eqn:F; [|discriminate]. injection Es as <-. apply andb_prop in F as (F & F3).
    destruct (agrees_free _ _ _ _ A F) as (U & L & Lv & N & Ls).
    destruct (value_of (lists s) y) as [|ly|] eqn:Ey; try discriminate. destruct (a_see _ _ _ A y ly Ey) as (t & Ht & Hs).
    destruct (agrees_slot _ _ _ y A ltac:(rewrite Ey; reflexivity)) as (o & Ho). pose proof (slot_length _ _ _ Ho) as Ly.
    assert (Hne : x <> y) by (intros ->; congruence).
    destruct (swap_sane (structs w) x y S0 Hne L Ly) as (S1 & V1). rewrite Ho, N in S1, V1.
    set (w1 := mkWorld (counts (structs w)) (resources (structs w)) (released (structs w)) (update (update (vars (structs w)) x (Some o)) y None)) in *.
    assert (Ny : slot w1 y = None) by (unfold w1; rewrite slot_update, Nat.eqb_refl by (rewrite update_length; exact Ly); reflexivity).
    assert (L1 : (y < List.length (vars w1))%nat) by (unfold w1; cbn [vars]; rewrite !update_length; exact Ly).
    destruct (plain_sane w1 y (Some (mkObj None PJunk)) (unset_none _ _ Ny L1 S1) L1 ltac:(auto)) as (w3 & E3 & S3 & _ & K3).
    assert (Ew : move_construct k (structs w) x y = Ok w3).
    { assert (Q : move_construct KObjectList (structs w) x y = Ok w3).
      { unfold move_construct. rewrite U. cbn [obind]. rewrite (var_ok _ _ _ Ho). cbn [obind]. unfold put_var. rewrite set_slot_ok by exact L. cbn [obind].
        rewrite (set_pn_ok (mkWorld _ _ _ (update (vars (structs w)) x _)) y o None) by (cbn [vars]; rewrite nth_update by exact L; destruct (Nat.eqb_spec x y); [congruence|exact Ho]). cbn [obind counts resources released vars].
        rewrite (set_ptr_ok (mkWorld _ _ _ (update (update (vars (structs w)) x _) y _)) x (mkObj (o_pn o) PJunk) (o_ptr o)).
        2: { cbn [vars]. rewrite nth_update by (rewrite update_length; exact Ly). destruct (Nat.eqb_spec y x); [congruence|]. rewrite nth_update, Nat.eqb_refl by exact L. reflexivity. }
        cbn [obind counts resources released vars o_pn].
        rewrite (set_ptr_ok (mkWorld _ _ _ (update _ x _)) y (mkObj None (o_ptr o)) PJunk).
        2: { cbn [vars]. rewrite nth_update by (rewrite !update_length; exact L). destruct (Nat.eqb_spec x y); [congruence|]. rewrite nth_update, Nat.eqb_refl by (rewrite update_length; exact Ly). reflexivity. }
        cbn [counts resources released vars o_pn]. rewrite set_slot_ok in E3 by exact L1. unfold w1 in E3. cbn [counts resources released vars] in E3. rewrite update_update in E3. rewrite <- E3. do 2 f_equal.
        rewrite (update_four _ x y) by exact Hne. now destruct o. }
      destruct Hk as [-> | ->]; [|exact Q]. exact Q. }
    unfold list_move. rewrite Ew. cbn [with_structs obind]. rewrite put_vector_ok by (cbn [vectors]; rewrite (t_vectors _ _ _ T); rewrite (t_vars _ _ _ T) in Ly; exact Ly). cbn [obind structs vectors elems made].
    rewrite put_vector_ok by (cbn [vectors]; rewrite update_length; exact Lv). eexists. split; [reflexivity|]. cbn [structs]. split; [exact S3|].
    intros z l. cbn [set_list lists]. rewrite value_set by (rewrite update_length, <- (t_vars _ _ _ T); exact Ly). destruct (Nat.eqb_spec y z) as [<-|Ez]; [discriminate|]. rewrite value_set by exact Ls.
    destruct K3 as (_ & K3). rewrite (proj2 (K3 z (not_eq_sym Ez))). rewrite (proj2 (V1 z)). destruct (Nat.eqb_spec y z) as [E|_]; [congruence|]. destruct (Nat.eqb_spec x z) as [<-|Ex].
    + intros E. injection E as <-. eauto.
    + apply (a_see _ _ _ A).
  - (* LAssign *) destruct (negb (is_unborn (value_of (lists s) x)) && is_value (value_of (lists s) y) && negb (x =? y)%nat) eqn:F; [|discriminate]. injection Es as <-.
    apply andb_prop in F as (F & F3). apply andb_prop in F as (F1 & F2). apply negb_true_iff in F1, F3. apply Nat.eqb_neq in F3. pose proof (not_unborn_length _ _ F1) as Ls.
    assert (Lv : (x < List.length (vectors w))%nat) by (rewrite (t_vectors _ _ _ T); exact Ls).
    destruct (agrees_slot _ _ _ x A F1) as (ox & Hx). 
    destruct (value_of (lists s) y) as [|ly|] eqn:Ey; try discriminate. destruct (a_see _ _ _ A y ly Ey) as (t & Ht & Hs).
    destruct G as (o & Go & Gc). assert (Ho : slot (structs w) y = Some o) by exact (nth_error_nth _ _ _ Go).
    assert (Hj : o_ptr o <> PJunk) by (unfold see in Ht; rewrite Ho in Ht; destruct o as [a [|r|]]; cbn in *; discriminate).
    destruct (clear_ok k w x ox S0 Hx Lv) as (b & Eb & _). unfold list_assign. rewrite Eb. cbn [obind].
    replace (structs (if b then mkLWorld (structs w) (update (vectors w) x []) (elems w) (made w) else w)) with (structs w) by (destruct b; reflexivity).
    destruct (release_sane k (structs w) x ox S0 Hx) as (w1 & E1 & S1 & (p & Hp) & (L1 & K1)).
    assert (Ho1 : slot w1 y = Some o) by (rewrite (proj1 (K1 y (not_eq_sym F3))); exact Ho).
    destruct (join_sane w1 x y o p S1 (slot_length _ _ _ Hp) F3 Ho1 Hj Gc) as (w2 & E2 & Hy2 & w3 & E3 & S3 & V3 & (L3 & K3)).
    unfold copy_assign. rewrite E1. cbn [obind]. rewrite (var_ok _ _ _ Ho1). cbn [obind]. rewrite (set_pn_ok _ _ _ (o_pn o) Hp). cbn [obind o_ptr]. rewrite E2. cbn [obind]. rewrite (var_ok _ _ _ Hy2). cbn [obind]. rewrite E3. cbn [with_structs obind].
    rewrite put_vector_ok by (cbn [vectors]; destruct b; cbn [vectors]; rewrite ?update_length; exact Lv). eexists. split; [reflexivity|]. cbn [structs]. split; [exact S3|].
    apply (see_store k w s x _ w3 A Ls).
    + split; [congruence|]. intros z Hz. rewrite (proj1 (K3 z Hz)), (proj2 (K3 z Hz)). apply K1. exact Hz.
    + intros l E. injection E as <-. exists t. split; [|exact Hs]. rewrite V3. rewrite (proj2 (K1 y (not_eq_sym F3))). exact Ht.
  - (* LMoveAssign *) destruct (negb (is_unborn (value_of (lists s) x)) && negb (is_unborn (value_of (lists s) y))) eqn:F; [|discriminate]. injection Es as <-.
    apply andb_prop in F as (F1 & F2). apply negb_true_iff in F1, F2. pose proof (not_unborn_length _ _ F1) as Lsx. pose proof (not_unborn_length _ _ F2) as Lsy.
    destruct (agrees_slot _ _ _ x A F1) as (a & Ha). destruct (agrees_slot _ _ _ y A F2) as (b & Hb). pose proof (slot_length _ _ _ Ha) as Lx. pose proof (slot_length _ _ _ Hb) as Ly.
    unfold list_move_assign, move_assign. rewrite (var_ok _ _ _ Ha), (var_ok _ _ _ Hb). cbn [obind]. unfold put_var. rewrite set_slot_ok by exact Lx. cbn [obind]. rewrite set_slot_ok by (cbn [vars]; rewrite update_length; exact Ly). cbn [with_structs obind counts resources released vars].
    cbv zeta. rewrite put_vector_ok by (cbn [vectors]; rewrite (t_vectors _ _ _ T); exact Lsx). cbn [obind structs vectors elems made]. rewrite put_vector_ok by (cbn [vectors]; rewrite update_length, (t_vectors _ _ _ T); exact Lsy). cbn [structs vectors elems made].
    eexists. split; [reflexivity|]. cbn [structs]. destruct (Nat.eq_dec x y) as [<-|Hne].
    + rewrite update_update. assert (a = b) by congruence. subst b.
      assert (E1 : update (vars (structs w)) x (Some a) = vars (structs w)) by (unfold slot in Ha; rewrite <- Ha; apply update_nth). rewrite E1.
      assert (Ew : mkWorld (counts (structs w)) (resources (structs w)) (released (structs w)) (vars (structs w)) = structs w) by (destruct (structs w); reflexivity). rewrite Ew.
      split; [exact S0|]. intros z l. cbn [set_list lists]. rewrite update_update, value_set by exact Lsx. destruct (Nat.eqb_spec x z) as [<-|_]; apply (a_see _ _ _ A).
    + destruct (swap_sane (structs w) x y S0 Hne Lx Ly) as (S1 & V1). rewrite Ha, Hb in S1, V1. split; [exact S1|].
      intros z l. cbn [set_list lists]. rewrite value_set by (rewrite update_length; exact Lsy). rewrite (proj2 (V1 z)). destruct (Nat.eqb_spec y z) as [<-|_]; [apply (a_see _ _ _ A)|].
      rewrite value_set by exact Lsx. destruct (Nat.eqb_spec x z); apply (a_see _ _ _ A).
  - (* LDestroy *) destruct (is_unborn (value_of (lists s) x)) eqn:F; [discriminate|]. injection Es as <-. pose proof (not_unborn_length _ _ F) as Ls.
    destruct (agrees_slot _ _ _ x A F) as (ox & Hx). destruct (release_sane k (structs w) x ox S0 Hx) as (w1 & E1 & S1 & (p & Hp) & (L1 & K1)).
    destruct (plain_sane w1 x None S1 (slot_length _ _ _ Hp) ltac:(auto)) as (w3 & E3 & S3 & _ & (L3 & K3)).
    unfold list_destroy, destroy. rewrite E1. cbn [obind]. rewrite E3. cbn [with_structs obind]. rewrite put_vector_ok by (cbn [vectors]; rewrite (t_vectors _ _ _ T); exact Ls). eexists. split; [reflexivity|]. cbn [structs]. split; [exact S3|].
    apply (see_store k w s x _ w3 A Ls); [|discriminate]. split; [congruence|]. intros z Hz. rewrite (proj1 (K3 z Hz)), (proj2 (K3 z Hz)). apply K1. exact Hz.
  - (* LGet *) destruct (value_of (lists s) x) as [|l|] eqn:F; try discriminate. destruct ((v <? List.length (singles s))%nat && (i <? List.length l)%nat) eqn:B; [|discriminate]. injection Es as <-.
    apply andb_prop in B as (B1 & B2). apply Nat.ltb_lt in B1, B2. destruct (agrees_slot _ _ _ x A ltac:(rewrite F; reflexivity)) as (o & Ho).
    unfold list_get. rewrite (var_ok _ _ _ Ho). cbn [obind]. rewrite (t_vec _ _ _ T), F. cbn [vec_of]. unfold fetch. rewrite (nth_error_nth' l None B2). cbn [obind].
    rewrite put_elem_ok by (rewrite (t_elems _ _ _ T); exact B1). eexists. split; [reflexivity|]. cbn [structs]. split; [exact S0|]. apply (a_see _ _ _ A).
  - (* LSet *) destruct (value_of (lists s) x) as [|l|] eqn:F; try discriminate. destruct ((v <? List.length (singles s))%nat && (i <? List.length l)%nat) eqn:B; [|discriminate]. injection Es as <-.
    apply andb_prop in B as (B1 & B2). apply Nat.ltb_lt in B1, B2. pose proof (not_unborn_length _ x ltac:(rewrite F; reflexivity)) as Ls.
    unfold list_set. rewrite (t_elems _ _ _ T). unfold fetch. rewrite (nth_error_nth' (singles s) None B1). cbn [obind]. rewrite (t_vec _ _ _ T), F. cbn [vec_of]. rewrite set_cell_ok by exact B2. cbn [obind].
    rewrite put_vector_ok by (rewrite (t_vectors _ _ _ T); exact Ls). cbn [obind structs].
    destruct (a_see _ _ _ A x l F) as ([es|] & Ht & Hs); cbn [sends] in Hs; [|subst l; cbn in B2; lia].
    destruct G as (n & Gn & Gle).
    destruct (change_sane (structs w) x (fun es => set_cell es i (pointer (nth v (singles s) None))) es (update es i (pointer (nth v (singles s) None))) n S0 Ht) as (w' & E' & S' & V' & K').
    { apply set_cell_ok. clear - Hs B2. induction Hs in i, B2 |- *; cbn in *; [lia|]. destruct i; [lia|]. apply -> Nat.succ_lt_mono. apply IHHs. lia. }
    { exact Gn. }
    { exact Gle. }
    rewrite E'. cbn [with_structs obind]. eexists. split; [reflexivity|]. cbn [structs]. split; [exact S'|].
    apply (see_store k w s x _ w' A Ls K'). intros l0 E. injection E as <-. eexists. split; [exact V'|]. now apply sends_update.
  - (* LReceive *)
    assert (Fx : is_unborn (value_of (lists s) x) = false) by (destruct (value_of (lists s) x); [discriminate Es|reflexivity|reflexivity]).
    pose proof (not_unborn_length _ _ Fx) as Ls. assert (Lv : (x < List.length (vectors w))%nat) by (rewrite (t_vectors _ _ _ T); exact Ls).
    destruct (agrees_slot _ _ _ x A Fx) as (ox & Hx). destruct (release_sane k (structs w) x ox S0 Hx) as (w1 & E1 & S1 & (p & Hp) & (L1 & K1)).
    destruct (own_sane w1 x (map pointer (incoming (made w) present)) p S1 Hp) as (w2 & E2 & w3 & E3 & S3 & V3 & (L3 & K3)). unfold create in E2, E3. cbn [fst snd] in E2, E3.
    destruct (clear_ok k w x ox S0 Hx Lv) as (b & Eb & Hb). unfold list_receive. rewrite Eb. cbn [obind].
    replace (structs (if b then mkLWorld (structs w) (update (vectors w) x []) (elems w) (made w) else w)) with (structs w) by (destruct b; reflexivity).
    unfold wrap. rewrite E1. cbn [obind create]. rewrite E2. cbn [obind]. rewrite E3. cbn [with_structs obind].
    set (wv := mkLWorld w3 (vectors (if b then mkLWorld (structs w) (update (vectors w) x []) (elems w) (made w) else w)) (elems (if b then mkLWorld (structs w) (update (vectors w) x []) (elems w) (made w) else w)) (made (if b then mkLWorld (structs w) (update (vectors w) x []) (elems w) (made w) else w))).
    assert (Q : exists old, match k with KImageList => if (List.length (vector wv x) <? CHANNELS)%nat then UB else Ok (vector wv x) | _ => Ok (resize (vector wv x) (List.length present)) end = Ok old).
    { destruct Hk as [-> | ->]; [|eauto]. assert (b = false) by (destruct b; [specialize (Hb eq_refl); discriminate|reflexivity]). subst b. cbv iota in wv.
      change (vector wv x) with (vector w x). destruct (value_of (lists s) x) as [|l|] eqn:Ev; cbn [class_eqb] in Es; try discriminate.
      rewrite (t_vec _ _ _ T), Ev. cbn [vec_of]. rewrite (t_three _ _ _ T eq_refl _ _ Ev). cbn. eauto. }
    destruct Q as (old & Q). rewrite Q. cbn [obind].
    assert (Lwv : (x < List.length (vectors wv))%nat) by (unfold wv; cbn [vectors]; destruct b; cbn [vectors]; rewrite ?update_length; exact Lv).
    rewrite (put_vector_ok wv x _ Lwv). cbn [obind]. eexists. split; [reflexivity|]. cbn [structs wv]. split; [exact S3|].
    assert (Es' : s' = mkLVals (update (lists s) x (VVal (arriving (count s) present))) (singles s) (count s + List.length present)).
    { cbv zeta in Es. destruct (match value_of (lists s) x with VUnborn => false | VVal _ => class_eqb k KObjectList || (List.length present =? 3)%nat | VMoved => class_eqb k KObjectList end); [|discriminate]. now injection Es as <-. }
    subst s'. change (lists (mkLVals (update (lists s) x (VVal (arriving (count s) present))) (singles s) (count s + List.length present))) with (lists (set_list s x (VVal (arriving (count s) present)))).
    apply (see_store k w s x _ w3 A Ls).
    + split; [congruence|]. intros z Hz. rewrite (proj1 (K3 z Hz)), (proj2 (K3 z Hz)). apply K1. exact Hz.
    + intros l E. injection E as <-. eexists. split; [exact V3|]. rewrite incoming_arriving, (t_made _ _ _ T). apply sends_pointers.
  - (* LMake *) destruct (v <? List.length (singles s))%nat eqn:B; [|discriminate]. injection Es as <-. apply Nat.ltb_lt in B. unfold elem_make. rewrite put_elem_ok by (rewrite (t_elems _ _ _ T); exact B). cbn [obind].
    eexists. split; [reflexivity|]. cbn [structs]. split; [exact S0|]. apply (a_see _ _ _ A).
  - (* LDrop *) destruct (v <? List.length (singles s))%nat eqn:B; [|discriminate]. injection Es as <-. apply Nat.ltb_lt in B. unfold elem_drop. rewrite put_elem_ok by (rewrite (t_elems _ _ _ T); exact B).
    eexists. split; [reflexivity|]. cbn [structs]. split; [exact S0|]. apply (a_see _ _ _ A).
Qed.
Lemma step_agrees k w s o s' : is_list k -> agrees k w s -> step_vals k s o = Some s' -> unshared w o -> over_empty w o ->
  exists w', run_lop k w o = Ok w' /\ agrees k w' s'.
Proof.
  intros Hk A Es G1 G2. destruct (step_ok k w s o s' Hk A Es G1) as (w' & Ew & S' & V'). exists w'. split; [exact Ew|].
  constructor; [|exact S'|exact V']. exact (step_tracks k w s o w' s' Hk (a_tracks _ _ _ A) Es Ew G2).
Qed.
Lemma run_agrees k ops : forall w s s', is_list k -> agrees k w s -> run_vals k s ops = Some s' -> throughout unshared k w ops -> throughout over_empty k w ops ->
  exists w', run_lops k w ops = Ok w' /\ agrees k w' s'.
Proof.
  induction ops as [|o ops IH]; intros w s s' Hk A Es G1 G2; cbn [run_vals run_lops throughout] in *; [injection Es as <-; eauto|].
  destruct (step_vals k s o) as [s1|] eqn:E1; [|discriminate]. destruct G1 as (G1 & G1'), G2 as (G2 & G2').
  destruct (step_agrees k w s o s1 Hk A E1 G1 G2) as (w1 & Ew & A1). rewrite Ew in *. cbn [obind]. eauto.
Qed.
Lemma begin_agrees k n m : agrees k (begin n m) (begin_vals n m).
Proof.
  constructor; [apply begin_tracks| |].
  - constructor; unfold begin, start, slot; cbn [structs counts resources vars].
    + intros c. rewrite claimers_repeat. now destruct c.
    + intros y z c p q. rewrite (nth_repeat_same None). discriminate.
    + intros y z c p q. rewrite (nth_repeat_same None). discriminate.
    + intros y a r. rewrite (nth_repeat_same None). discriminate.
    + intros y c. rewrite (nth_repeat_same None). discriminate.
  - intros x l. unfold begin_vals, value_of. cbn [lists]. rewrite nth_repeat_same. discriminate.
Qed.
Lemma refers_in e l : In (Some e) l -> existsb (refers e) l = true.
Proof. intros H. apply existsb_exists. exists (Some e). split; [exact H|]. cbn. apply Nat.eqb_refl. Qed.
Lemma vector_alive w x e : In (Some e) (vector w x) -> alive w e = true.
Proof.
  intros H. unfold alive. apply orb_true_iff. right. apply existsb_exists. exists (vector w x). split; [|now apply refers_in].
  unfold vector in *. destruct (Nat.ltb_spec x (List.length (vectors w))); [now apply nth_In|]. rewrite nth_overflow in H by assumption. contradiction.
Qed.
Lemma read_ok k w es l : Forall2 (sent_as k) es l -> (forall e, In (Some e) l -> alive w e = true) -> read_entries w es = Ok es.
Proof.
  induction 1 as [|a b es l Hab H IH]; intros Hl; cbn [read_entries]; [reflexivity|].
  assert (E : read_entry w a = Ok a).
  { destruct b as [e|]; cbn [sent_as] in Hab; [subst a; cbn [read_entry]; rewrite (Hl e (or_introl eq_refl)); reflexivity|]. destruct Hab as [->|(_ & ->)]; reflexivity. }
  rewrite E. cbn [obind]. rewrite IH by (intros e He; apply Hl; right; exact He). reflexivity.
Qed.
Lemma agrees_send k w s x l : agrees k w s -> value_of (lists s) x = VVal l -> exists sent, list_send w x = Ok sent /\ sends k sent l.
Proof.
  intros A E. destruct (a_see _ _ _ A x l E) as (t & Ht & Hs). exists t. split; [|exact Hs]. unfold list_send, target.
  destruct (agrees_slot _ _ _ x A ltac:(rewrite E; reflexivity)) as (o & Ho). rewrite (var_ok _ _ _ Ho). cbn [obind]. unfold see in Ht. rewrite Ho in Ht.
  destruct o as [a [|r|]]; cbn [see_at o_ptr] in *; [injection Ht as <-; reflexivity| |discriminate].
  unfold resource. destruct (nth r (resources (structs w)) None) as [es|]; [|discriminate]. injection Ht as <-. cbn [obind sends] in *.
  rewrite (read_ok k w es l Hs); [reflexivity|]. intros e He. apply (vector_alive w x). rewrite (t_vec _ _ _ (a_tracks _ _ _ A)), E. exact He.
Qed.
Lemma lists_send k n m ops s : is_list k -> run_vals k (begin_vals n m) ops = Some s ->
  throughout unshared k (begin n m) ops -> throughout over_empty k (begin n m) ops ->
  exists w, run_lops k (begin n m) ops = Ok w /\
    forall x l, value_of (lists s) x = VVal l -> list_show w x = Ok l /\ exists sent, list_send w x = Ok sent /\ sends k sent l.
Proof.
  intros Hk Es G1 G2. destruct (run_agrees k ops _ _ s Hk (begin_agrees k n m) Es G1 G2) as (w & Ew & A). exists w. split; [exact Ew|]. intros x l E. split.
  - exact (tracks_show k w s x l (a_tracks _ _ _ A) E).
  - exact (agrees_send k w s x l A E).
Qed.
