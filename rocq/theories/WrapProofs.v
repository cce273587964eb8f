(** Proofs about the reference counting of the C++ objects. *)
From Verif Require Import CBase StrMap StrMapProofs Props PropsSpec PropsProofs Num PropsNum Region RegionGeom Formats Handle Lists ListsSpec ListsProofs Wrap WrapSpec.
Local Open Scope Z_scope.

(** ---- counting the objects that share a counter ---- *)
Definition claiming (c : nat) (o : option obj) : bool :=
  match o with Some (mkObj (Some d) _) => Nat.eqb c d | _ => false end.
Definition b2n (b : bool) : nat := if b then 1%nat else 0%nat.
Fixpoint claimers (c : nat) (l : list (option obj)) : nat :=
  match l with [] => 0%nat | o :: l' => (b2n (claiming c o) + claimers c l')%nat end.
Lemma claimers_update c l : forall x o, (x < List.length l)%nat ->
  (claimers c (update l x o) + b2n (claiming c (nth x l None)) = claimers c l + b2n (claiming c o))%nat.
Proof.
  induction l as [|p l IH]; intros x o H; cbn [List.length] in H; [lia|]. destruct x as [|x]; cbn [update claimers nth]; [lia|].
  specialize (IH x o ltac:(lia)). lia.
Qed.
Lemma claimers_some c l : (0 < claimers c l)%nat -> exists y, claiming c (nth y l None) = true.
Proof.
  induction l as [|p l IH]; cbn [claimers]; intros H; [lia|]. destruct (claiming c p) eqn:E; [exists 0%nat; exact E|].
  destruct IH as (y & Hy); [unfold b2n in H; lia|]. exists (S y). exact Hy.
Qed.
Lemma claimers_pos c l : forall y, claiming c (nth y l None) = true -> (0 < claimers c l)%nat.
Proof.
  induction l as [|p l IH]; intros y H; [destruct y; discriminate|]. destruct y as [|y]; cbn [nth claimers] in *; [rewrite H; cbn; lia|].
  specialize (IH y H). lia.
Qed.
Lemma claiming_inv c o : claiming c o = true -> exists p, o = Some (mkObj (Some c) p).
Proof. destruct o as [[[d|] p]|]; cbn; try discriminate. rewrite Nat.eqb_eq. intros <-. eauto. Qed.
Lemma claimers_repeat c n : claimers c (repeat None n) = 0%nat.
Proof. induction n; [reflexivity|]. cbn. exact IHn. Qed.

Section Inv.
Context {V : Type}.
Implicit Types (w : world V) (s : holds V).

Record inv w s : Prop := {
  i_len : List.length (vars w) = List.length (hold_of s);
  i_res : List.length (resources w) = List.length (created s);
  i_var : forall x,
    match held s x with
    | HUnborn => nth x (vars w) None = None
    | HEmpty => exists pn, nth x (vars w) None = Some (mkObj pn PNull)
    | HOwn r => exists c, nth x (vars w) None = Some (mkObj (Some c) (PTo r))
    | HMoved => exists p, nth x (vars w) None = Some (mkObj None p)
    end;
  i_own : forall x r, held s x = HOwn r -> exists v, nth r (resources w) None = Some v /\ nth_error (created s) r = Some v;
  i_count : forall c, nth c (counts w) None = if Nat.eqb (claimers c (vars w)) 0 then None else Some (Z.of_nat (claimers c (vars w)));
  i_ptr : forall x y c p q, nth x (vars w) None = Some (mkObj (Some c) p) -> nth y (vars w) None = Some (mkObj (Some c) q) -> p = q;
  i_same : forall x y c d r, nth x (vars w) None = Some (mkObj (Some c) (PTo r)) -> nth y (vars w) None = Some (mkObj (Some d) (PTo r)) -> c = d;
  i_free : forall r, (r < List.length (created s))%nat -> (nth r (resources w) None = None <-> In r (released w));
  i_dead : forall r, In r (released w) -> (r < List.length (created s))%nat /\ forall x, held s x <> HOwn r;
  i_alive : forall r, (r < List.length (created s))%nat -> ~ In r (released w) -> exists x, held s x = HOwn r;
  i_nodup : NoDup (released w)
}.

Lemma held_set s x h y : (x < List.length (hold_of s))%nat -> held (set_hold s x h) y = if Nat.eqb x y then h else held s y.
Proof. intros H. unfold held, set_hold. cbn [hold_of]. now apply nth_update. Qed.
Lemma held_length s x : held s x <> HUnborn -> (x < List.length (hold_of s))%nat.
Proof. unfold held. intros H. destruct (Nat.ltb x (List.length (hold_of s))) eqn:E; [lia|]. rewrite nth_overflow in H by lia. congruence. Qed.
Lemma constructed_neq h : constructed h = true -> h <> HUnborn.
Proof. intros H ->. discriminate. Qed.
Lemma readable_constructed h : readable h = true -> constructed h = true.
Proof. now destruct h. Qed.
(** the object in a variable *)
Lemma inv_obj w s x : inv w s -> constructed (held s x) = true -> exists o, nth x (vars w) None = Some o.
Proof. intros I H. pose proof (i_var _ _ I x) as J. destruct (held s x); [discriminate| | |]; destruct J as (? & ->); eauto. Qed.
Lemma inv_owned w s x c r : inv w s -> nth x (vars w) None = Some (mkObj (Some c) (PTo r)) -> held s x = HOwn r.
Proof.
  intros I H. pose proof (i_var _ _ I x) as J. destruct (held s x); try destruct J as (? & J); congruence.
Qed.
Lemma inv_claim w s x c p : inv w s -> nth x (vars w) None = Some (mkObj (Some c) p) -> nth c (counts w) None = Some (Z.of_nat (claimers c (vars w))) /\
  (0 < claimers c (vars w))%nat.
Proof.
  intros I H. assert (K : (0 < claimers c (vars w))%nat) by (apply (claimers_pos c _ x); rewrite H; cbn; apply Nat.eqb_refl).
  rewrite (i_count _ _ I c). destruct (Nat.eqb_spec (claimers c (vars w)) 0); [lia|]. auto.
Qed.
Lemma inv_counts_length w s c : inv w s -> (List.length (counts w) <= c)%nat -> claimers c (vars w) = 0%nat.
Proof.
  intros I H. pose proof (i_count _ _ I c) as J. rewrite nth_overflow in J by lia. destruct (Nat.eqb_spec (claimers c (vars w)) 0); [assumption|discriminate].
Qed.

(** ---- the elementary functions ---- *)
Lemma var_ok w x o : nth x (vars w) None = Some o -> var w x = Ok o.
Proof. unfold var. now intros ->. Qed.
Lemma set_slot_ok w x o : (x < List.length (vars w))%nat -> set_slot w x o = Ok (mkWorld (counts w) (resources w) (released w) (update (vars w) x o)).
Proof. intros H. unfold set_slot. rewrite set_cell_ok by exact H. reflexivity. Qed.
Lemma set_pn_ok w x o pn : nth x (vars w) None = Some o ->
  set_pn w x pn = Ok (mkWorld (counts w) (resources w) (released w) (update (vars w) x (Some (mkObj pn (o_ptr o))))).
Proof. intros H. unfold set_pn. rewrite (var_ok _ _ _ H). cbn [obind]. unfold put_var. apply set_slot_ok. exact (nth_some_length _ _ _ H). Qed.
Lemma set_ptr_ok w x o p : nth x (vars w) None = Some o ->
  set_ptr w x p = Ok (mkWorld (counts w) (resources w) (released w) (update (vars w) x (Some (mkObj (o_pn o) p)))).
Proof. intros H. unfold set_ptr. rewrite (var_ok _ _ _ H). cbn [obind]. unfold put_var. apply set_slot_ok. exact (nth_some_length _ _ _ H). Qed.
Lemma acquire_new w x p : nth x (vars w) None = Some (mkObj None p) ->
  acquire w x = Ok (mkWorld (counts w ++ [Some 1]) (resources w) (released w) (update (vars w) x (Some (mkObj (Some (List.length (counts w))) p)))).
Proof.
  intros H. unfold acquire. rewrite (var_ok _ _ _ H). cbn [obind o_pn].
  exact (set_pn_ok (mkWorld (counts w ++ [Some 1]) (resources w) (released w) (vars w)) x (mkObj None p) _ H).
Qed.
Lemma acquire_old w x c p n : nth x (vars w) None = Some (mkObj (Some c) p) -> nth c (counts w) None = Some n ->
  acquire w x = Ok (mkWorld (update (counts w) c (Some (n + 1))) (resources w) (released w) (vars w)).
Proof.
  intros H K. unfold acquire. rewrite (var_ok _ _ _ H). cbn [obind o_pn]. unfold counter. rewrite K. cbn [obind].
  unfold set_counter. rewrite set_cell_ok by exact (nth_some_length _ _ _ K). reflexivity.
Qed.

Lemma update_update {A} (l : list A) : forall x a b, update (update l x a) x b = update l x b.
Proof. induction l as [|y l IH]; intros [|x] a b; cbn; try reflexivity. now rewrite IH. Qed.
Lemma nth_at {A} (l : list (option A)) x o : (x < List.length l)%nat -> nth x (update l x o) None = o.
Proof. intros H. rewrite nth_update by exact H. now rewrite Nat.eqb_refl. Qed.
Lemma nth_app_new {A} (l : list (option A)) a i : nth i (l ++ [Some a]) None = if Nat.eqb i (List.length l) then Some a else nth i l None.
Proof.
  destruct (Nat.eqb_spec i (List.length l)) as [->|E]; [rewrite app_nth2, Nat.sub_diag by lia; reflexivity|].
  destruct (Nat.ltb i (List.length l)) eqn:L; [now rewrite app_nth1 by lia|].
  rewrite nth_overflow by (rewrite app_length; cbn; lia). now rewrite nth_overflow by lia.
Qed.

(** ---- an object leaves its group ---- *)
Lemma release_inv k w s x : inv w s -> constructed (held s x) = true -> exists w', release k w x = Ok w' /\ inv w' (set_hold s x HMoved).
Proof.
  intros I Hx. destruct (inv_obj _ _ _ I Hx) as ([pn p] & Ho). pose proof (nth_some_length _ _ _ Ho) as Hl.
  assert (Hs : (x < List.length (hold_of s))%nat) by (rewrite <- (i_len _ _ I); exact Hl).
  unfold release. rewrite (var_ok _ _ _ Ho). cbn [obind o_pn]. destruct pn as [c|].
  2: { exists w. split; [reflexivity|]. constructor; try apply I; cbn [set_hold hold_of created].
       - rewrite update_length. apply I.
       - intros y. rewrite held_set by exact Hs. destruct (Nat.eqb_spec x y) as [<-|E]; [eauto|apply I].
       - intros y r. rewrite held_set by exact Hs. destruct (Nat.eqb_spec x y) as [<-|E]; [discriminate|apply I].
       - intros r Hr. destruct (i_dead _ _ I r Hr) as (A & B). split; [exact A|]. intros y. rewrite held_set by exact Hs.
         destruct (Nat.eqb_spec x y) as [<-|E]; [discriminate|apply B].
       - intros r Hr Hn. destruct (i_alive _ _ I r Hr Hn) as (y & Hy). exists y. rewrite held_set by exact Hs.
         destruct (Nat.eqb_spec x y) as [<-|E]; [|exact Hy]. exfalso. pose proof (i_var _ _ I x) as J. rewrite Hy in J. destruct J as (? & J). congruence. }
  destruct (inv_claim _ _ _ _ _ I Ho) as (Hc & Hp). pose proof (nth_some_length _ _ _ Hc) as Hcl.
  unfold counter. rewrite Hc. cbn [obind]. unfold set_counter at 1. rewrite set_cell_ok by exact Hcl. cbn [obind].
  set (n := claimers c (vars w)) in *.
  assert (Hold : forall p', claimers c (update (vars w) x (Some (mkObj None p'))) = (n - 1)%nat).
  { intros p'. pose proof (claimers_update c (vars w) x (Some (mkObj None p')) Hl) as E. rewrite Ho in E. cbn [claiming b2n] in E.
    rewrite Nat.eqb_refl in E. cbn [b2n] in E. unfold n. lia. }
  assert (Hother : forall c' p', c' <> c -> claimers c' (update (vars w) x (Some (mkObj None p'))) = claimers c' (vars w)).
  { intros c' p' Hne. pose proof (claimers_update c' (vars w) x (Some (mkObj None p')) Hl) as E. rewrite Ho in E. cbn [claiming b2n] in E.
    destruct (Nat.eqb_spec c' c); [congruence|]. cbn [b2n] in E. lia. }
  (* the world with x detached, for any counters and resources *)
  assert (Hvar : forall p' y, match held (set_hold s x HMoved) y with
    | HUnborn => nth y (update (vars w) x (Some (mkObj None p'))) None = None
    | HEmpty => exists pn, nth y (update (vars w) x (Some (mkObj None p'))) None = Some (mkObj pn PNull)
    | HOwn r => exists c, nth y (update (vars w) x (Some (mkObj None p'))) None = Some (mkObj (Some c) (PTo r))
    | HMoved => exists p, nth y (update (vars w) x (Some (mkObj None p'))) None = Some (mkObj None p) end).
  { intros p' y. rewrite held_set by exact Hs. rewrite nth_update by exact Hl. destruct (Nat.eqb_spec x y) as [<-|E]; [eauto|apply I]. }
  destruct (Z.of_nat n - 1 =? 0) eqn:En.
  - (* the last one *)
    assert (E1 : n = 1%nat) by lia.
    assert (Hlast : forall y q, y <> x -> nth y (vars w) None <> Some (mkObj (Some c) q)).
    { intros y q Hne Hy. assert (0 < claimers c (update (vars w) x (Some (mkObj None p))))%nat.
      { apply (claimers_pos c _ y). rewrite nth_update by exact Hl. destruct (Nat.eqb_spec x y); [congruence|]. rewrite Hy. cbn. apply Nat.eqb_refl. }
      rewrite Hold in H. lia. }
    assert (Hcnt : forall p' c', nth c' (update (update (counts w) c (Some (Z.of_nat n - 1))) c None) None =
      if Nat.eqb (claimers c' (update (vars w) x (Some (mkObj None p')))) 0 then None
      else Some (Z.of_nat (claimers c' (update (vars w) x (Some (mkObj None p')))))).
    { intros p' c'. rewrite update_update, nth_update by exact Hcl. destruct (Nat.eqb_spec c c') as [<-|E].
      - rewrite Hold, E1. reflexivity.
      - rewrite Hother by congruence. apply I. }
    unfold cleanup_member. rewrite (var_ok (mkWorld _ _ _ (vars w)) x _ Ho). cbn [obind o_ptr].
    pose proof (i_var _ _ I x) as Jx. rewrite Ho in Jx. destruct (held s x) as [| |r|] eqn:Hh; [discriminate| | |].
    + (* no resource *)
      destruct Jx as (pn & Jx). injection Jx as _ ->. cbn [obind]. unfold set_counter. cbn [counts]. rewrite set_cell_ok by (rewrite update_length; exact Hcl). cbn [obind resources released vars].
      rewrite (set_pn_ok (mkWorld _ _ _ (vars w)) x _ None Ho). eexists. split; [reflexivity|]. cbn [o_ptr counts resources released].
      constructor; cbn [counts resources released vars set_hold hold_of created]; try apply I.
      * rewrite !update_length. apply I.
      * apply Hvar.
      * intros y r. fold (set_hold s x HMoved). rewrite held_set by exact Hs. destruct (Nat.eqb_spec x y) as [<-|E]; [discriminate|apply I].
      * apply Hcnt.
      * intros y z d q q'. rewrite !nth_update by exact Hl. destruct (Nat.eqb_spec x y), (Nat.eqb_spec x z); try discriminate. apply I.
      * intros y z d d' r. rewrite !nth_update by exact Hl. destruct (Nat.eqb_spec x y), (Nat.eqb_spec x z); try discriminate. apply I.
      * intros r Hr. destruct (i_dead _ _ I r Hr) as (A & B). split; [exact A|]. intros y. fold (set_hold s x HMoved). rewrite held_set by exact Hs.
        destruct (Nat.eqb_spec x y) as [<-|E]; [discriminate|apply B].
      * intros r Hr Hn. destruct (i_alive _ _ I r Hr Hn) as (y & Hy). exists y. fold (set_hold s x HMoved). rewrite held_set by exact Hs.
        destruct (Nat.eqb_spec x y) as [<-|E]; [congruence|exact Hy].
    + (* its resource is released *)
      destruct Jx as (c0 & Jx). injection Jx as _ ->. destruct (i_own _ _ I x r Hh) as (v & Hv & Hcr). pose proof (nth_some_length _ _ _ Hv) as Hvl.
      unfold free, resource. cbn [resources]. rewrite Hv. cbn [obind]. unfold set_resource. cbn [resources]. rewrite set_cell_ok by exact Hvl. cbn [obind counts resources released vars].
      assert (Hsame : forall y, y <> x -> held s y <> HOwn r).
      { intros y Hne Hy. pose proof (i_var _ _ I y) as Jy. rewrite Hy in Jy. destruct Jy as (d & Jy).
        assert (d = c) by exact (i_same _ _ I y x d c r Jy Ho). subst d. exact (Hlast y _ Hne Jy). }
      assert (Hnr : ~ In r (released w)) by (intros Hin; exact (proj2 (i_dead _ _ I r Hin) x Hh)).
      assert (Hcr' : (r < List.length (created s))%nat) by (apply nth_error_Some; congruence).
      (* any pointer may be left behind *)
      assert (G : forall p', inv (mkWorld (update (update (counts w) c (Some (Z.of_nat n - 1))) c None) (update (resources w) r None) (r :: released w)
                               (update (vars w) x (Some (mkObj None p')))) (set_hold s x HMoved)).
      { intros p'. constructor; cbn [counts resources released vars set_hold hold_of created].
        - rewrite !update_length. apply I.
        - rewrite update_length. apply I.
        - apply Hvar.
        - intros y r'. fold (set_hold s x HMoved). rewrite held_set by exact Hs. destruct (Nat.eqb_spec x y) as [<-|E]; [discriminate|]. intros Hy.
          destruct (i_own _ _ I y r' Hy) as (v' & A & B). exists v'. split; [|exact B]. rewrite nth_update by exact Hvl.
          destruct (Nat.eqb_spec r r') as [<-|]; [|exact A]. exfalso. exact (Hsame y ltac:(congruence) Hy).
        - apply Hcnt.
        - intros y z d q q'. rewrite !nth_update by exact Hl. destruct (Nat.eqb_spec x y), (Nat.eqb_spec x z); try discriminate. apply I.
        - intros y z d d' r'. rewrite !nth_update by exact Hl. destruct (Nat.eqb_spec x y), (Nat.eqb_spec x z); try discriminate. apply I.
        - intros r' Hr'. rewrite nth_update by exact Hvl. cbn [In]. destruct (Nat.eqb_spec r r') as [<-|E]; [intuition|].
          rewrite (i_free _ _ I r' Hr'). intuition.
        - intros r' [<-|Hin].
          + split; [exact Hcr'|]. intros y. fold (set_hold s x HMoved). rewrite held_set by exact Hs. destruct (Nat.eqb_spec x y) as [<-|E]; [discriminate|apply Hsame; congruence].
          + destruct (i_dead _ _ I r' Hin) as (A & B). split; [exact A|]. intros y. fold (set_hold s x HMoved). rewrite held_set by exact Hs.
            destruct (Nat.eqb_spec x y) as [<-|E]; [discriminate|apply B].
        - intros r' Hr' Hn. destruct (i_alive _ _ I r' Hr') as (y & Hy); [intros Hin; apply Hn; now right|]. exists y. fold (set_hold s x HMoved). rewrite held_set by exact Hs.
          destruct (Nat.eqb_spec x y) as [<-|E]; [|exact Hy]. exfalso. apply Hn. left. congruence.
        - constructor; [exact Hnr|apply I]. }
      destruct k; cbn [obind]; try (rewrite (set_ptr_ok (mkWorld _ _ _ (vars w)) x _ PNull Ho); cbn [obind counts resources released vars o_pn]);
        unfold set_counter; cbn [counts resources released vars]; rewrite set_cell_ok by (rewrite update_length; exact Hcl); cbn [obind];
        try (rewrite (set_pn_ok (mkWorld _ _ _ (update (vars w) x _)) x (mkObj (Some c) PNull) None (nth_at _ _ _ Hl)); cbn [counts resources released vars o_ptr];
             rewrite (update_update (vars w)); eexists; split; [reflexivity|]; exact (G PNull)).
      rewrite (set_pn_ok (mkWorld _ _ _ (vars w)) x _ None Ho). eexists. split; [reflexivity|]. exact (G (PTo r)).
    + destruct Jx as (? & Jx). discriminate.
  - (* others remain *)
    cbn [obind]. rewrite (set_pn_ok (mkWorld _ _ _ (vars w)) x _ None Ho). eexists. split; [reflexivity|]. cbn [o_ptr counts resources released].
    assert (Hmate : exists y, y <> x /\ exists q, nth y (vars w) None = Some (mkObj (Some c) q)).
    { destruct (claimers_some c (update (vars w) x (Some (mkObj None p)))) as (y & Hy); [rewrite Hold; lia|]. rewrite nth_update in Hy by exact Hl.
      destruct (Nat.eqb_spec x y); [discriminate|]. exists y. split; [congruence|]. exact (claiming_inv _ _ Hy). }
    constructor; cbn [counts resources released vars set_hold hold_of created]; try apply I.
    * rewrite !update_length. apply I.
    * apply Hvar.
    * intros y r. fold (set_hold s x HMoved). rewrite held_set by exact Hs. destruct (Nat.eqb_spec x y) as [<-|E]; [discriminate|apply I].
    * intros c'. rewrite nth_update by exact Hcl. destruct (Nat.eqb_spec c c') as [<-|E].
      -- rewrite Hold. destruct (Nat.eqb_spec (n - 1) 0); [lia|]. f_equal. lia.
      -- rewrite Hother by congruence. apply I.
    * intros y z d q q'. rewrite !nth_update by exact Hl. destruct (Nat.eqb_spec x y), (Nat.eqb_spec x z); try discriminate. apply I.
    * intros y z d d' r. rewrite !nth_update by exact Hl. destruct (Nat.eqb_spec x y), (Nat.eqb_spec x z); try discriminate. apply I.
    * intros r Hr. destruct (i_dead _ _ I r Hr) as (A & B). split; [exact A|]. intros y. fold (set_hold s x HMoved). rewrite held_set by exact Hs.
      destruct (Nat.eqb_spec x y) as [<-|E]; [discriminate|apply B].
    * intros r Hr Hn. destruct (i_alive _ _ I r Hr Hn) as (y & Hy). destruct (Nat.eqb_spec x y) as [<-|E].
      -- destruct Hmate as (z & Hz & q & Hzq). exists z. fold (set_hold s x HMoved). rewrite held_set by exact Hs. destruct (Nat.eqb_spec x z); [congruence|].
         pose proof (i_var _ _ I x) as J. rewrite Hy in J. destruct J as (c1 & J). rewrite Ho in J. injection J as _ ->.
         assert (q = PTo r) by exact (eq_sym (i_ptr _ _ I x z c _ _ Ho Hzq)). subst q. exact (inv_owned _ _ _ _ _ I Hzq).
      -- exists y. fold (set_hold s x HMoved). rewrite held_set by exact Hs. destruct (Nat.eqb_spec x y); [congruence|exact Hy].
Qed.

(** ---- a detached object gets a new content ---- *)
Definition detached w x : Prop := (x < List.length (vars w))%nat /\ forall c, claiming c (nth x (vars w) None) = false.
Definition fits (h : hold) (o : option obj) : Prop :=
  match h with
  | HUnborn => o = None
  | HEmpty => exists pn, o = Some (mkObj pn PNull)
  | HOwn r => exists c, o = Some (mkObj (Some c) (PTo r))
  | HMoved => exists p, o = Some (mkObj None p)
  end.
Lemma detached_hold w s x r : inv w s -> detached w x -> held s x <> HOwn r.
Proof. intros I (_ & D) H. pose proof (i_var _ _ I x) as J. rewrite H in J. destruct J as (c & J). specialize (D c). rewrite J in D. cbn in D. rewrite Nat.eqb_refl in D. discriminate. Qed.
Lemma put_inv w s x o h cs : inv w s -> detached w x -> fits h o ->
  (forall c, nth c cs None = if Nat.eqb (claimers c (update (vars w) x o)) 0 then None else Some (Z.of_nat (claimers c (update (vars w) x o)))) ->
  (forall c p y q, o = Some (mkObj (Some c) p) -> nth y (vars w) None = Some (mkObj (Some c) q) -> p = q) ->
  (forall c r y d, o = Some (mkObj (Some c) (PTo r)) -> nth y (vars w) None = Some (mkObj (Some d) (PTo r)) -> c = d) ->
  (forall r, h = HOwn r -> exists y, held s y = HOwn r) ->
  inv (mkWorld cs (resources w) (released w) (update (vars w) x o)) (set_hold s x h).
Proof.
  intros I (Hl & D) F Hc Hp Hr Hh. pose proof (detached_hold w s x) as Dh.
  assert (Hs : (x < List.length (hold_of s))%nat) by (rewrite <- (i_len _ _ I); exact Hl).
  constructor; cbn [counts resources released vars set_hold hold_of created]; try apply I.
  - rewrite !update_length. apply I.
  - intros y. fold (set_hold s x h). rewrite held_set by exact Hs. rewrite nth_update by exact Hl. destruct (Nat.eqb_spec x y) as [<-|E]; [exact F|apply I].
  - intros y r. fold (set_hold s x h). rewrite held_set by exact Hs. destruct (Nat.eqb_spec x y) as [<-|E]; [|apply I].
    intros ->. destruct (Hh r eq_refl) as (z & Hz). exact (i_own _ _ I z r Hz).
  - exact Hc.
  - intros y z c p q. rewrite !nth_update by exact Hl. destruct (Nat.eqb_spec x y), (Nat.eqb_spec x z).
    + congruence.
    + intros A B. exact (Hp _ _ _ _ A B).
    + intros A B. symmetry. exact (Hp _ _ _ _ B A).
    + apply I.
  - intros y z c d r. rewrite !nth_update by exact Hl. destruct (Nat.eqb_spec x y), (Nat.eqb_spec x z).
    + congruence.
    + intros A B. exact (Hr _ _ _ _ A B).
    + intros A B. symmetry. exact (Hr _ _ _ _ B A).
    + apply I.
  - intros r Hin. destruct (i_dead _ _ I r Hin) as (A & B). split; [exact A|]. intros y. fold (set_hold s x h). rewrite held_set by exact Hs.
    destruct (Nat.eqb_spec x y) as [<-|E]; [|apply B]. intros ->. destruct (Hh r eq_refl) as (z & Hz). exact (B z Hz).
  - intros r Hlt Hn. destruct (i_alive _ _ I r Hlt Hn) as (y & Hy). exists y. fold (set_hold s x h). rewrite held_set by exact Hs.
    destruct (Nat.eqb_spec x y) as [<-|E]; [|exact Hy]. exfalso. exact (Dh r I (conj Hl D) Hy).
Qed.
Lemma claimers_detached w x o c : detached w x -> claimers c (update (vars w) x o) = (claimers c (vars w) + b2n (claiming c o))%nat.
Proof. intros (Hl & D). pose proof (claimers_update c (vars w) x o Hl) as E. rewrite D in E. cbn [b2n] in E. lia. Qed.
Lemma detached_unborn w s x : inv w s -> (x < List.length (hold_of s))%nat -> constructed (held s x) = false -> detached w x.
Proof.
  intros I H Hx. split; [rewrite (i_len _ _ I); exact H|]. intros c. pose proof (i_var _ _ I x) as J. destruct (held s x); try discriminate. now rewrite J.
Qed.
Lemma detached_moved w s x : inv w s -> held s x = HMoved -> detached w x.
Proof.
  intros I Hx. pose proof (i_var _ _ I x) as J. rewrite Hx in J. destruct J as (p & J). split; [exact (nth_some_length _ _ _ J)|]. intros c. now rewrite J.
Qed.
(** contents without a counter *)
Lemma put_plain w s x o h : inv w s -> detached w x -> fits h o -> (forall c, claiming c o = false) ->
  inv (mkWorld (counts w) (resources w) (released w) (update (vars w) x o)) (set_hold s x h).
Proof.
  intros I D F Hc. apply put_inv; [exact I|exact D|exact F| | | |].
  - intros c. rewrite (claimers_detached _ _ _ _ D), Hc. cbn [b2n]. rewrite Nat.add_0_r. apply I.
  - intros c p y q ->. specialize (Hc c). cbn in Hc. rewrite Nat.eqb_refl in Hc. discriminate.
  - intros c p y q ->. specialize (Hc c). cbn in Hc. rewrite Nat.eqb_refl in Hc. discriminate.
  - intros r ->. destruct F as (c & ->). specialize (Hc c). cbn in Hc. rewrite Nat.eqb_refl in Hc. discriminate.
Qed.
(** x joins the group of y *)
Lemma join_inv w s x y o p0 : inv w s -> detached w x -> x <> y -> readable (held s y) = true -> nth y (vars w) None = Some o ->
  exists w2, acquire (mkWorld (counts w) (resources w) (released w) (update (vars w) x (Some (mkObj (o_pn o) p0)))) x = Ok w2 /\
  nth y (vars w2) None = Some o /\
  exists w3, set_ptr w2 x (o_ptr o) = Ok w3 /\ inv w3 (set_hold s x (held s y)).
Proof.
  intros I D Hne Hy Ho. destruct o as [[c|] p]; cbn [o_pn o_ptr].
  - destruct (inv_claim _ _ _ _ _ I Ho) as (Hc & Hpos). pose proof (nth_some_length _ _ _ Hc) as Hcl. destruct D as (Hl & D).
    assert (N1 : nth x (update (vars w) x (Some (mkObj (Some c) p0))) None = Some (mkObj (Some c) p0)) by (rewrite nth_update, Nat.eqb_refl by exact Hl; reflexivity).
    rewrite (acquire_old (mkWorld (counts w) (resources w) (released w) (update (vars w) x (Some (mkObj (Some c) p0)))) x c p0 _ N1 Hc).
    cbn [counts resources released vars]. eexists. split; [reflexivity|]. cbn [vars]. split; [rewrite nth_update by exact Hl; destruct (Nat.eqb_spec x y); [congruence|exact Ho]|].
    rewrite (set_ptr_ok (mkWorld _ _ _ (update (vars w) x _)) x _ p N1). cbn [counts resources released vars o_pn]. rewrite update_update.
    eexists. split; [reflexivity|]. apply put_inv; [exact I|exact (conj Hl D)| | | | |].
    + pose proof (i_var _ _ I y) as J. rewrite Ho in J. destruct (held s y); try discriminate.
      * destruct J as (pn & J). injection J as _ ->. cbn. eauto.
      * destruct J as (c' & J). injection J as _ ->. cbn. eauto.
    + intros c'. rewrite (claimers_detached w x _ c' (conj Hl D)). cbn [claiming]. rewrite nth_update by exact Hcl. destruct (Nat.eqb_spec c c') as [<-|E].
      * rewrite Nat.eqb_refl. cbn [b2n]. destruct (Nat.eqb_spec (claimers c (vars w) + 1) 0); [lia|]. f_equal. lia.
      * destruct (Nat.eqb_spec c' c); [congruence|]. cbn [b2n]. rewrite Nat.add_0_r. apply I.
    + intros c' p' z q E Hz. injection E as <- <-. exact (i_ptr _ _ I y z c _ _ Ho Hz).
    + intros c' r z d E Hz. injection E as <- ->. exact (i_same _ _ I y z c d r Ho Hz).
    + intros r E. eauto.
  - (* y is empty and has no counter *)
    assert (E : held s y = HEmpty /\ p = PNull).
    { pose proof (i_var _ _ I y) as J. rewrite Ho in J. destruct (held s y); try discriminate; destruct J as (? & J); [|discriminate]. injection J as _ ->. auto. }
    destruct E as (E & ->). rewrite E. destruct D as (Hl & D).
    assert (N1 : nth x (update (vars w) x (Some (mkObj None p0))) None = Some (mkObj None p0)) by (rewrite nth_update, Nat.eqb_refl by exact Hl; reflexivity).
    rewrite (acquire_new (mkWorld (counts w) (resources w) (released w) (update (vars w) x (Some (mkObj None p0)))) x p0 N1). cbn [counts resources released vars].
    rewrite update_update.
    assert (N2 : nth x (update (vars w) x (Some (mkObj (Some (List.length (counts w))) p0))) None = Some (mkObj (Some (List.length (counts w))) p0)) by (rewrite nth_update, Nat.eqb_refl by exact Hl; reflexivity).
    eexists. split; [reflexivity|]. cbn [vars]. split; [rewrite nth_update by exact Hl; destruct (Nat.eqb_spec x y); [congruence|exact Ho]|].
    rewrite (set_ptr_ok (mkWorld _ _ _ (update (vars w) x _)) x _ PNull N2). cbn [counts resources released vars o_pn]. rewrite update_update.
    eexists. split; [reflexivity|]. apply put_inv; [exact I|exact (conj Hl D)| | | | |].
    + cbn. eauto.
    + intros c. rewrite (claimers_detached w x _ c (conj Hl D)). cbn [claiming]. rewrite nth_app_new. destruct (Nat.eqb_spec c (List.length (counts w))) as [->|Ec].
      * cbn [b2n]. rewrite (inv_counts_length _ _ _ I (Nat.le_refl _)). reflexivity.
      * cbn [b2n]. rewrite Nat.add_0_r. apply I.
    + intros c' p' z q E' Hz. injection E' as <- <-. exfalso. pose proof (inv_counts_length _ _ _ I (Nat.le_refl _)) as K.
      assert (0 < claimers (List.length (counts w)) (vars w))%nat by (apply (claimers_pos _ _ z); rewrite Hz; cbn; apply Nat.eqb_refl). lia.
    + discriminate.
    + discriminate.
Qed.
(** x gets a new resource *)
Lemma own_inv w s x v p0 : inv w s -> nth x (vars w) None = Some (mkObj None p0) -> held s x = HMoved ->
  exists w2, acquire (fst (create w v)) x = Ok w2 /\
  exists w3, set_ptr w2 x (PTo (snd (create w v))) = Ok w3 /\ inv w3 (own_new s x v).
Proof.
  intros I Ho Hx. pose proof (detached_moved _ _ _ I Hx) as (Hl & D). unfold create. cbn [fst snd].
  assert (Hs : (x < List.length (hold_of s))%nat) by (rewrite <- (i_len _ _ I); exact Hl).
  rewrite (acquire_new (mkWorld (counts w) (resources w ++ [Some v]) (released w) (vars w)) x p0 Ho). cbn [counts resources released vars].
  eexists. split; [reflexivity|].
  assert (N2 : nth x (update (vars w) x (Some (mkObj (Some (List.length (counts w))) p0))) None = Some (mkObj (Some (List.length (counts w))) p0)) by (rewrite nth_update, Nat.eqb_refl by exact Hl; reflexivity).
  rewrite (set_ptr_ok (mkWorld _ _ _ (update (vars w) x _)) x _ _ N2). cbn [counts resources released vars o_pn]. rewrite update_update.
  eexists. split; [reflexivity|]. rewrite (i_res _ _ I). set (r := List.length (created s)). set (c := List.length (counts w)).
  assert (Hc0 : claimers c (vars w) = 0%nat) by exact (inv_counts_length _ _ _ I (Nat.le_refl _)).
  assert (Hnr : forall y, held s y <> HOwn r).
  { intros y Hy. destruct (i_own _ _ I y r Hy) as (v' & _ & B). assert (r < List.length (created s))%nat by (apply nth_error_Some; congruence). unfold r in *. lia. }
  assert (Hheld : forall y, held (own_new s x v) y = if Nat.eqb x y then HOwn r else held s y) by (intros y; unfold held, own_new; cbn [hold_of]; now apply nth_update).
  assert (Hnp : forall y d, nth y (vars w) None <> Some (mkObj (Some d) (PTo r))) by (intros y d Hy; exact (Hnr y (inv_owned _ _ _ _ _ I Hy))).
  assert (Hnc : forall y q, nth y (vars w) None <> Some (mkObj (Some c) q)).
  { intros y q Hy. assert (0 < claimers c (vars w))%nat by (apply (claimers_pos _ _ y); rewrite Hy; cbn; apply Nat.eqb_refl). lia. }
  constructor; cbn [counts resources released vars].
  - unfold own_new. cbn [hold_of]. rewrite !update_length. apply I.
  - unfold own_new. cbn [created]. rewrite !app_length. cbn. f_equal. apply I.
  - intros y. rewrite Hheld, nth_update by exact Hl. destruct (Nat.eqb_spec x y) as [<-|E]; [eauto|apply I].
  - intros y r'. rewrite Hheld. unfold own_new. cbn [created]. destruct (Nat.eqb_spec x y) as [<-|E].
    + intros E. injection E as <-. exists v. rewrite nth_app_new, (i_res _ _ I). fold r. rewrite Nat.eqb_refl. split; [reflexivity|].
      unfold r. rewrite nth_error_app2, Nat.sub_diag by lia. reflexivity.
    + intros Hy. destruct (i_own _ _ I y r' Hy) as (v' & A & B). exists v'. assert (r' < List.length (created s))%nat by (apply nth_error_Some; congruence).
      split; [|rewrite nth_error_app1 by assumption; exact B]. rewrite nth_app_new, (i_res _ _ I). destruct (Nat.eqb_spec r' (List.length (created s))); [lia|exact A].
  - intros c'. rewrite (claimers_detached w x _ c' (conj Hl D)). cbn [claiming]. rewrite nth_app_new. fold c. destruct (Nat.eqb_spec c' c) as [->|Ec].
    + rewrite Hc0. reflexivity.
    + cbn [b2n]. rewrite Nat.add_0_r. apply I.
  - intros y z d p q. rewrite !nth_update by exact Hl. destruct (Nat.eqb_spec x y), (Nat.eqb_spec x z).
    + congruence.
    + intros A B. injection A as <- <-. exfalso. exact (Hnc _ _ B).
    + intros A B. injection B as <- <-. exfalso. exact (Hnc _ _ A).
    + apply I.
  - intros y z d d' r'. rewrite !nth_update by exact Hl. destruct (Nat.eqb_spec x y), (Nat.eqb_spec x z).
    + congruence.
    + intros A B. injection A as <- <-. exfalso. exact (Hnp _ _ B).
    + intros A B. injection B as <- <-. exfalso. exact (Hnp _ _ A).
    + apply I.
  - intros r'. unfold own_new. cbn [created]. rewrite app_length. cbn [List.length]. intros Hr'. rewrite nth_app_new, (i_res _ _ I).
    destruct (Nat.eqb_spec r' (List.length (created s))) as [->|E].
    + split; [discriminate|]. intros Hin. destruct (i_dead _ _ I _ Hin) as (A & _). lia.
    + apply I. lia.
  - intros r' Hin. destruct (i_dead _ _ I r' Hin) as (A & B). unfold own_new at 1. cbn [created]. rewrite app_length. cbn [List.length]. split; [lia|].
    intros y. rewrite Hheld. destruct (Nat.eqb_spec x y) as [<-|E]; [|apply B]. intros E. injection E as <-. unfold r in A. lia.
  - intros r'. unfold own_new at 1. cbn [created]. rewrite app_length. cbn [List.length]. intros Hr' Hn. destruct (Nat.eqb_spec r' r) as [->|E].
    + exists x. rewrite Hheld, Nat.eqb_refl. reflexivity.
    + destruct (i_alive _ _ I r' ltac:(unfold r in E; lia) Hn) as (y & Hy). exists y. rewrite Hheld. destruct (Nat.eqb_spec x y) as [<-|]; [congruence|exact Hy].
  - apply I.
Qed.

(** ---- the operations ---- *)
Lemma moved_obj w s x : inv w s -> held s x = HMoved -> exists p, nth x (vars w) None = Some (mkObj None p).
Proof. intros I H. pose proof (i_var _ _ I x) as J. now rewrite H in J. Qed.
Lemma set_hold_twice s x h h' : set_hold (set_hold s x h) x h' = set_hold s x h'.
Proof. unfold set_hold. cbn [hold_of created]. now rewrite update_update. Qed.
Lemma own_new_after s x h v : own_new (set_hold s x h) x v = own_new s x v.
Proof. unfold own_new, set_hold. cbn [hold_of created]. now rewrite update_update. Qed.
Lemma wrap_inv k w s x v : inv w s -> constructed (held s x) = true -> exists w', wrap k w x (Some v) = Ok w' /\ inv w' (own_new s x v).
Proof.
  intros I Hx. destruct (release_inv k w s x I Hx) as (w1 & E1 & I1). unfold wrap. rewrite E1. cbn [obind].
  assert (Hs : (x < List.length (hold_of s))%nat) by (apply held_length, constructed_neq, Hx).
  assert (H1 : held (set_hold s x HMoved) x = HMoved) by (rewrite held_set, Nat.eqb_refl by exact Hs; reflexivity).
  destruct (moved_obj _ _ _ I1 H1) as (p & Hp). destruct (own_inv w1 _ x v p I1 Hp H1) as (w2 & E2 & w3 & E3 & I3).
  unfold create in *. cbn [fst snd] in *. rewrite E2. cbn [obind]. rewrite E3. exists w3. split; [reflexivity|]. now rewrite own_new_after in I3.
Qed.
Lemma unborn_ok w s x : inv w s -> is_variable s x = true -> constructed (held s x) = false -> unborn w x = Ok tt /\ (x < List.length (vars w))%nat /\ nth x (vars w) None = None.
Proof.
  intros I Hv Hx. unfold is_variable in Hv. apply Nat.ltb_lt in Hv. pose proof (i_var _ _ I x) as J. destruct (held s x); try discriminate.
  rewrite <- (i_len _ _ I) in Hv. split; [|auto]. unfold unborn. rewrite (nth_error_nth' (vars w) None Hv), J. reflexivity.
Qed.
Lemma construct_inv k w s x v : inv w s -> is_variable s x = true -> constructed (held s x) = false ->
  exists w', construct k w x v = Ok w' /\ inv w' (if class_eqb k KMetadata then own_new s x v else set_hold s x HEmpty).
Proof.
  intros I Hv Hx. destruct (unborn_ok _ _ _ I Hv Hx) as (E & Hl & Hn). unfold construct. rewrite E. cbn [obind].
  assert (Hs : (x < List.length (hold_of s))%nat) by (unfold is_variable in Hv; lia).
  assert (D : detached w x) by exact (detached_unborn _ _ _ I Hs Hx).
  destruct (class_eqb k KMetadata) eqn:Ek.
  - destruct k; try discriminate. unfold put_var. rewrite set_slot_ok by exact Hl. cbn [obind].
    assert (I1 : inv (mkWorld (counts w) (resources w) (released w) (update (vars w) x (Some (mkObj None PJunk)))) (set_hold s x HMoved)).
    { apply put_plain; [exact I|exact D|cbn; eauto|reflexivity]. }
    destruct (wrap_inv KMetadata _ _ x v I1) as (w' & E' & I'); [rewrite held_set, Nat.eqb_refl by exact Hs; reflexivity|].
    exists w'. split; [exact E'|]. now rewrite own_new_after in I'.
  - assert (K : exists w', put_var w x (mkObj None PNull) = Ok w' /\ inv w' (set_hold s x HEmpty)).
    { unfold put_var. rewrite set_slot_ok by exact Hl. eexists. split; [reflexivity|]. apply put_plain; [exact I|exact D|cbn; eauto|reflexivity]. }
    destruct k; try discriminate; exact K.
Qed.
Lemma copy_inv w s x y : inv w s -> is_variable s x = true -> constructed (held s x) = false -> readable (held s y) = true ->
  exists w', copy_construct w x y = Ok w' /\ inv w' (set_hold s x (held s y)).
Proof.
  intros I Hv Hx Hy. destruct (unborn_ok _ _ _ I Hv Hx) as (E & Hl & Hn). unfold copy_construct. rewrite E. cbn [obind].
  assert (Hs : (x < List.length (hold_of s))%nat) by (unfold is_variable in Hv; lia).
  assert (D : detached w x) by exact (detached_unborn _ _ _ I Hs Hx).
  destruct (inv_obj _ _ _ I (readable_constructed _ Hy)) as (o & Ho). rewrite (var_ok _ _ _ Ho). cbn [obind].
  assert (Hne : x <> y) by (intros ->; congruence).
  destruct (join_inv w s x y o PJunk I D Hne Hy Ho) as (w2 & E2 & _ & w3 & E3 & I3).
  unfold put_var. rewrite set_slot_ok by exact Hl. cbn [obind]. rewrite E2. cbn [obind]. rewrite E3. eauto.
Qed.
(** exchanging the contents of two variables, one of which may be unborn *)
Lemma update_comm {A} (l : list A) : forall x y a b, x <> y -> update (update l x a) y b = update (update l y b) x a.
Proof. induction l as [|z l IH]; intros [|x] [|y] a b H; cbn; try reflexivity; try congruence. f_equal. apply IH. congruence. Qed.
Lemma swap_inv w s x y : inv w s -> x <> y -> (x < List.length (vars w))%nat -> (y < List.length (vars w))%nat ->
  inv (mkWorld (counts w) (resources w) (released w) (update (update (vars w) x (nth y (vars w) None)) y (nth x (vars w) None)))
      (set_hold (set_hold s x (held s y)) y (held s x)).
Proof.
  intros I Hne Hx Hy. set (f := fun z => if Nat.eqb y z then x else if Nat.eqb x z then y else z).
  assert (Hsx : (x < List.length (hold_of s))%nat) by (rewrite <- (i_len _ _ I); exact Hx).
  assert (Hsy : (y < List.length (hold_of s))%nat) by (rewrite <- (i_len _ _ I); exact Hy).
  assert (Hv : forall z, nth z (update (update (vars w) x (nth y (vars w) None)) y (nth x (vars w) None)) None = nth (f z) (vars w) None).
  { intros z. rewrite nth_update by (rewrite update_length; exact Hy). unfold f. destruct (Nat.eqb_spec y z); [reflexivity|].
    rewrite nth_update by exact Hx. now destruct (Nat.eqb_spec x z). }
  assert (Hh : forall z, held (set_hold (set_hold s x (held s y)) y (held s x)) z = held s (f z)).
  { intros z. rewrite held_set by (unfold set_hold; cbn [hold_of]; rewrite update_length; exact Hsy). unfold f. destruct (Nat.eqb_spec y z); [reflexivity|].
    rewrite held_set by exact Hsx. now destruct (Nat.eqb_spec x z). }
  assert (Hf : forall z, f (f z) = z).
  { intros z. unfold f. destruct (Nat.eqb_spec y z) as [<-|E1]; [destruct (Nat.eqb_spec y x), (Nat.eqb_spec x x); congruence|].
    destruct (Nat.eqb_spec x z) as [<-|E2]; [rewrite Nat.eqb_refl; congruence|]. destruct (Nat.eqb_spec y z), (Nat.eqb_spec x z); congruence. }
  assert (Hc : forall c, claimers c (update (update (vars w) x (nth y (vars w) None)) y (nth x (vars w) None)) = claimers c (vars w)).
  { intros c. pose proof (claimers_update c (vars w) x (nth y (vars w) None) Hx) as A.
    pose proof (claimers_update c (update (vars w) x (nth y (vars w) None)) y (nth x (vars w) None)) as B. rewrite update_length in B. specialize (B Hy).
    rewrite nth_update in B by exact Hx. destruct (Nat.eqb_spec x y); [congruence|]. lia. }
  constructor; cbn [counts resources released vars]; try apply I.
  - unfold set_hold. cbn [hold_of]. rewrite !update_length. apply I.
  - intros z. rewrite Hh, Hv. apply I.
  - intros z r. rewrite Hh. apply I.
  - intros c. rewrite Hc. apply I.
  - intros a b c p q. rewrite !Hv. apply I.
  - intros a b c d r. rewrite !Hv. apply I.
  - intros r Hin. destruct (i_dead _ _ I r Hin) as (A & B). split; [exact A|]. intros z. rewrite Hh. apply B.
  - intros r Hr Hn. destruct (i_alive _ _ I r Hr Hn) as (z & Hz). exists (f z). now rewrite Hh, Hf.
Qed.
Lemma move_inv k w s x y : inv w s -> is_variable s x = true -> constructed (held s x) = false -> readable (held s y) = true ->
  exists w', move_construct k w x y = Ok w' /\
    inv w' (let s' := set_hold s x (held s y) in if class_eqb k KHandle then s' else set_hold s' y HMoved).
Proof.
  intros I Hv Hx Hy. destruct (class_eqb k KHandle) eqn:Ek.
  { destruct k; try discriminate. exact (copy_inv w s x y I Hv Hx Hy). }
  destruct (unborn_ok _ _ _ I Hv Hx) as (E & Hl & Hn).
  assert (Hs : (x < List.length (hold_of s))%nat) by (unfold is_variable in Hv; lia).
  destruct (inv_obj _ _ _ I (readable_constructed _ Hy)) as (o & Ho). assert (Hne : x <> y) by (intros ->; congruence).
  pose proof (nth_some_length _ _ _ Ho) as Hly.
  (* x and y exchange, then y gets what remains *)
  assert (G : forall p, inv (mkWorld (counts w) (resources w) (released w) (update (update (vars w) x (Some o)) y (Some (mkObj None p)))) (set_hold (set_hold s x (held s y)) y HMoved)).
  { intros p. pose proof (swap_inv w s x y I Hne Hl Hly) as I1. rewrite Ho, Hn in I1.
    assert (D1 : detached (mkWorld (counts w) (resources w) (released w) (update (update (vars w) x (Some o)) y None)) y).
    { split; cbn [vars]; [rewrite !update_length; exact Hly|]. intros c. rewrite nth_update, Nat.eqb_refl by (rewrite update_length; exact Hly). reflexivity. }
    pose proof (put_plain _ _ y (Some (mkObj None p)) HMoved I1 D1 ltac:(cbn; eauto) ltac:(reflexivity)) as I2. cbn [counts resources released vars] in I2.
    rewrite update_update, set_hold_twice in I2. exact I2. }
  assert (K : exists w', (w1 <- put_var w x (mkObj (o_pn o) PJunk) ;; w2 <- set_pn w1 y None ;; set_ptr w2 x (o_ptr o)) = Ok w' /\
    w' = mkWorld (counts w) (resources w) (released w) (update (update (vars w) x (Some o)) y (Some (mkObj None (o_ptr o))))).
  { unfold put_var. rewrite set_slot_ok by exact Hl. cbn [obind].
    rewrite (set_pn_ok (mkWorld _ _ _ (update (vars w) x _)) y o None) by (cbn [vars]; rewrite nth_update by exact Hl; destruct (Nat.eqb_spec x y); [congruence|exact Ho]).
    cbn [obind counts resources released vars].
    rewrite (set_ptr_ok (mkWorld _ _ _ (update (update (vars w) x _) y _)) x (mkObj (o_pn o) PJunk) (o_ptr o)).
    2: { cbn [vars]. rewrite nth_update by (rewrite update_length; exact Hly). destruct (Nat.eqb_spec y x); [congruence|]. rewrite nth_update, Nat.eqb_refl by exact Hl. reflexivity. }
    cbn [counts resources released vars o_pn]. eexists. split; [reflexivity|]. f_equal. rewrite (update_comm _ x y) by exact Hne. rewrite update_update.
    rewrite (update_comm _ y x) by congruence. now destruct o. }
  destruct K as (w' & K & Ew'). assert (Ny : nth y (vars w') None = Some (mkObj None (o_ptr o))).
  { rewrite Ew'. cbn [vars]. rewrite nth_update, Nat.eqb_refl by (rewrite update_length; exact Hly). reflexivity. }
  assert (M : exists w2, set_ptr w' y PJunk = Ok w2 /\ inv w2 (set_hold (set_hold s x (held s y)) y HMoved)).
  { rewrite (set_ptr_ok _ _ _ PJunk Ny). eexists. split; [reflexivity|]. rewrite Ew'. cbn [counts resources released vars o_pn]. rewrite update_update. apply G. }
  assert (M' : inv w' (set_hold (set_hold s x (held s y)) y HMoved)) by (rewrite Ew'; apply G).
  unfold move_construct. destruct (put_var w x (mkObj (o_pn o) PJunk)) as [w1| | |] eqn:E1; cbn [obind] in K; try discriminate.
  destruct (set_pn w1 y None) as [w2| | |] eqn:E2; cbn [obind] in K; try discriminate.
  cbv zeta. destruct k; try discriminate; rewrite E; cbn [obind]; rewrite (var_ok _ _ _ Ho); cbn [obind]; rewrite E1; cbn [obind]; rewrite E2; cbn [obind]; rewrite K; cbn [obind]; eauto.
Qed.
Lemma assign_inv k w s x y : inv w s -> constructed (held s x) = true -> readable (held s y) = true -> x <> y ->
  exists w', copy_assign k w x y = Ok w' /\ inv w' (set_hold s x (held s y)).
Proof.
  intros I Hx Hy Hne. destruct (release_inv k w s x I Hx) as (w1 & E1 & I1). unfold copy_assign. rewrite E1. cbn [obind].
  assert (Hs : (x < List.length (hold_of s))%nat) by (apply held_length, constructed_neq, Hx).
  assert (H1 : held (set_hold s x HMoved) x = HMoved) by (rewrite held_set, Nat.eqb_refl by exact Hs; reflexivity).
  assert (H2 : held (set_hold s x HMoved) y = held s y) by (rewrite held_set by exact Hs; destruct (Nat.eqb_spec x y); [congruence|reflexivity]).
  destruct (inv_obj _ _ y I1) as (o & Ho); [rewrite H2; exact (readable_constructed _ Hy)|]. rewrite (var_ok _ _ _ Ho). cbn [obind].
  destruct (moved_obj _ _ _ I1 H1) as (p & Hp). rewrite (set_pn_ok _ _ _ (o_pn o) Hp). cbn [obind o_ptr].
  destruct (join_inv w1 _ x y o p I1 (detached_moved _ _ _ I1 H1) Hne ltac:(rewrite H2; exact Hy) Ho) as (w2 & E2 & N2 & w3 & E3 & I3).
  rewrite E2. cbn [obind]. rewrite (var_ok _ _ _ N2). cbn [obind]. rewrite E3. exists w3. split; [reflexivity|]. now rewrite H2, set_hold_twice in I3.
Qed.
Lemma move_assign_inv w s x y : inv w s -> constructed (held s x) = true -> constructed (held s y) = true ->
  exists w', move_assign w x y = Ok w' /\ inv w' (set_hold (set_hold s x (held s y)) y (held s x)).
Proof.
  intros I Hx Hy. destruct (inv_obj _ _ _ I Hx) as (a & Ha). destruct (inv_obj _ _ _ I Hy) as (b & Hb).
  pose proof (nth_some_length _ _ _ Ha) as Hlx. pose proof (nth_some_length _ _ _ Hb) as Hly.
  unfold move_assign. rewrite (var_ok _ _ _ Ha), (var_ok _ _ _ Hb). cbn [obind]. unfold put_var. rewrite set_slot_ok by exact Hlx. cbn [obind].
  rewrite set_slot_ok by (cbn [vars]; rewrite update_length; exact Hly). cbn [counts resources released vars]. eexists. split; [reflexivity|].
  destruct (Nat.eq_dec x y) as [<-|Hne].
  - rewrite update_update, set_hold_twice. assert (a = b) by congruence. subst b.
    assert (E1 : update (vars w) x (Some a) = vars w) by (rewrite <- Ha; apply update_nth).
    assert (E2 : set_hold s x (held s x) = s) by (unfold set_hold, held; rewrite update_nth; now destruct s). rewrite E1, E2. destruct w; exact I.
  - pose proof (swap_inv w s x y I Hne Hlx Hly) as J. now rewrite Ha, Hb in J.
Qed.
Lemma destroy_inv k w s x : inv w s -> constructed (held s x) = true -> exists w', destroy k w x = Ok w' /\ inv w' (set_hold s x HUnborn).
Proof.
  intros I Hx. destruct (release_inv k w s x I Hx) as (w1 & E1 & I1). unfold destroy. rewrite E1. cbn [obind].
  assert (Hs : (x < List.length (hold_of s))%nat) by (apply held_length, constructed_neq, Hx).
  assert (H1 : held (set_hold s x HMoved) x = HMoved) by (rewrite held_set, Nat.eqb_refl by exact Hs; reflexivity).
  pose proof (detached_moved _ _ _ I1 H1) as D. rewrite set_slot_ok by apply D. eexists. split; [reflexivity|].
  rewrite <- (set_hold_twice s x HMoved HUnborn). apply put_plain; [exact I1|exact D|reflexivity|reflexivity].
Qed.

Lemma step_inv k w s o s' : inv w s -> step_holds k s o = Some s' -> exists w', run_wop k w o = Ok w' /\ inv w' s'.
Proof.
  intros I E. destruct o; cbn [step_holds run_wop] in *.
  - destruct (is_variable s x && negb (constructed (held s x)) && negb (class_eqb k KImageList)) eqn:B; [|discriminate]. injection E as <-.
    apply andb_prop in B as (B & _). apply andb_prop in B as (B1 & B2). apply construct_inv; [exact I|exact B1|now apply negb_true_iff].
  - discriminate.
  - destruct (_ && _) eqn:B; [|discriminate]. injection E as <-. apply andb_prop in B as (B & B3). apply andb_prop in B as (B1 & B2).
    apply copy_inv; [exact I|exact B1|now apply negb_true_iff|exact B3].
  - destruct (_ && _) eqn:B; [|discriminate]. injection E as <-. apply andb_prop in B as (B & B3). apply andb_prop in B as (B1 & B2).
    apply move_inv; [exact I|exact B1|now apply negb_true_iff|exact B3].
  - destruct (_ && _) eqn:B; [|discriminate]. injection E as <-. apply andb_prop in B as (B & _). apply andb_prop in B as (B & B3). apply andb_prop in B as (B1 & B2).
    apply assign_inv; [exact I|exact B1|exact B2|]. now apply Nat.eqb_neq, negb_true_iff.
  - destruct (_ && _) eqn:B; [|discriminate]. injection E as <-. apply andb_prop in B as (B & _). apply andb_prop in B as (B & _). apply andb_prop in B as (B1 & B2).
    apply move_assign_inv; [exact I|exact B1|exact B2].
  - destruct (constructed (held s x)) eqn:B; [|discriminate]. injection E as <-. destruct v as [v|]; [now apply wrap_inv|]. exists w. auto.
  - destruct (constructed (held s x)) eqn:B; [|discriminate]. injection E as <-. now apply destroy_inv.
Qed.
Lemma run_inv k ops : forall w s s', inv w s -> run_holds k s ops = Some s' -> exists w', run_wops k w ops = Ok w' /\ inv w' s'.
Proof.
  induction ops as [|o ops IH]; intros w s s' I E; cbn [run_holds run_wops] in *; [injection E as <-; eauto|].
  destruct (step_holds k s o) as [s1|] eqn:E1; [|discriminate]. destruct (step_inv _ _ _ _ _ I E1) as (w1 & -> & I1). cbn [obind]. eauto.
Qed.
Lemma nth_repeat_same {A} (a : A) n : forall x, nth x (repeat a n) a = a.
Proof. induction n; intros [|x]; cbn; auto. Qed.
Lemma start_inv n : inv (start n) (@start_holds V n).
Proof.
  unfold start, start_holds. constructor; cbn [counts resources released vars hold_of created]; try contradiction.
  - now rewrite !repeat_length.
  - reflexivity.
  - intros x. unfold held. cbn [hold_of]. rewrite !nth_repeat_same. reflexivity.
  - intros x r. unfold held. cbn [hold_of]. rewrite nth_repeat_same. discriminate.
  - intros c. rewrite claimers_repeat. destruct c; reflexivity.
  - intros x y c p q. rewrite nth_repeat_same. discriminate.
  - intros x y c d r. rewrite nth_repeat_same. discriminate.
  - cbn. intros r H. lia.
  - cbn. intros r H. lia.
  - constructor.
Qed.
Lemma inv_reaches w s x r : inv w s -> held s x = HOwn r -> exists v, nth_error (created s) r = Some v /\ reaches w x r v.
Proof.
  intros I H. destruct (i_own _ _ I x r H) as (v & A & B). exists v. split; [exact B|]. pose proof (i_var _ _ I x) as J. rewrite H in J. destruct J as (c & J).
  exists (mkObj (Some c) (PTo r)). pose proof (nth_some_length _ _ _ J) as L. pose proof (nth_some_length _ _ _ A) as L'.
  split; [rewrite (nth_error_nth' _ None L), J; reflexivity|]. split; [reflexivity|]. rewrite (nth_error_nth' _ None L'), A. reflexivity.
Qed.
Lemma ownership k n ops s : run_holds k (start_holds n) ops = Some s ->
  exists w : world V, run_wops k (start n) ops = Ok w /\
    (forall x r, held s x = HOwn r -> exists v, nth_error (created s) r = Some v /\ reaches w x r v) /\
    NoDup (released w) /\
    (forall r, In r (released w) <-> (r < List.length (created s))%nat /\ forall x, held s x <> HOwn r) /\
    (counter_alive w -> exists x, constructed (held s x) = true).
Proof.
  intros E. destruct (run_inv k ops _ _ _ (start_inv n) E) as (w & Ew & I). exists w. split; [exact Ew|]. split; [|split; [|split]].
  - intros x r H. exact (inv_reaches w s x r I H).
  - apply I.
  - intros r. split; [apply I|]. intros (H & Hn). destruct (in_dec Nat.eq_dec r (released w)) as [Hin|Hin]; [exact Hin|].
    destruct (i_alive _ _ I r H Hin) as (x & Hx). exfalso. exact (Hn x Hx).
  - intros (c & m & Hc). assert (Hc' : nth c (counts w) None = Some m) by exact (nth_error_nth _ _ _ Hc).
    rewrite (i_count _ _ I c) in Hc'. destruct (Nat.eqb_spec (claimers c (vars w)) 0); [discriminate|].
    destruct (claimers_some c (vars w) ltac:(lia)) as (x & Hx). exists x. apply claiming_inv in Hx as (p & Hx).
    pose proof (i_var _ _ I x) as J. destruct (held s x); [congruence|reflexivity|reflexivity|reflexivity].
Qed.

End Inv.
