(** Proofs about the values of C++ Properties and Region objects. *)
From Verif Require Import CBase StrMap StrMapProofs Props PropsSpec PropsProofs Num PropsNum Region RegionGeom Formats Handle Lists ListsSpec ListsProofs Wrap WrapSpec WrapProofs.
Local Open Scope Z_scope.

Section Values.
Context {V A : Type} (R : V -> A -> Prop) (E : A -> Prop).
Implicit Types (w : world V) (s : holds V) (vs : list (value A)).

Definition means s (h : hold) (v : value A) : Prop :=
  match h with
  | HUnborn => v = VUnborn
  | HEmpty => exists a, v = VVal a /\ E a
  | HOwn r => exists p a, nth_error (created s) r = Some p /\ v = VVal a /\ R p a
  | HMoved => v = VMoved
  end.
Definition rel s vs : Prop := List.length (hold_of s) = List.length vs /\ forall x, means s (held s x) (value_of vs x).

Lemma value_set vs x v y : (x < List.length vs)%nat -> value_of (update vs x v) y = if Nat.eqb x y then v else value_of vs y.
Proof. intros H. unfold value_of. now apply nth_update. Qed.
Lemma rel_unborn s vs x : rel s vs -> is_unborn (value_of vs x) = negb (constructed (held s x)).
Proof.
  intros (_ & H). specialize (H x). destruct (held s x); cbn [means constructed negb] in *.
  - now rewrite H.
  - now destruct H as (? & -> & _).
  - now destruct H as (? & ? & _ & -> & _).
  - now rewrite H.
Qed.
Lemma rel_value s vs x : rel s vs -> is_value (value_of vs x) = readable (held s x).
Proof.
  intros (_ & H). specialize (H x). destruct (held s x); cbn [means readable] in *.
  - now rewrite H.
  - now destruct H as (? & -> & _).
  - now destruct H as (? & ? & _ & -> & _).
  - now rewrite H.
Qed.
Lemma rel_set s vs x h v : rel s vs -> (x < List.length vs)%nat -> means s h v -> rel (set_hold s x h) (update vs x v).
Proof.
  intros (Hl & H) Hx Hm. split; [cbn [set_hold hold_of]; rewrite !update_length; exact Hl|]. intros y.
  rewrite held_set by (rewrite Hl; exact Hx). rewrite value_set by exact Hx. destruct (Nat.eqb_spec x y) as [<-|]; [exact Hm|apply H].
Qed.
Lemma means_grow s v0 h v : means s h v -> means (mkHolds (hold_of s) (created s ++ [v0])) h v.
Proof.
  destruct h; cbn [means created]; auto. intros (p & a & Hp & ? & ?). exists p, a. split; [|auto]. rewrite nth_error_app1; [exact Hp|]. apply nth_error_Some. congruence.
Qed.
Lemma rel_own s vs x p a : rel s vs -> (x < List.length vs)%nat -> R p a -> rel (own_new s x p) (update vs x (VVal a)).
Proof.
  intros (Hl & H) Hx Hr. split; [cbn [own_new hold_of]; rewrite !update_length; exact Hl|]. intros y.
  change (held (own_new s x p) y) with (nth y (update (hold_of s) x (HOwn (List.length (created s)))) HUnborn). rewrite nth_update by (rewrite Hl; exact Hx).
  rewrite value_set by exact Hx. destruct (Nat.eqb_spec x y) as [<-|].
  - exists p, a. cbn [own_new created]. rewrite nth_error_app2, Nat.sub_diag by lia. auto.
  - exact (means_grow s p _ _ (H y)).
Qed.

(** a change of a resource *)
Definition set_created s r v : holds V := mkHolds (hold_of s) (update (created s) r v).
Lemma update_error {B} (l : list B) : forall i b, (i < List.length l)%nat -> forall j, nth_error (update l i b) j = if Nat.eqb i j then Some b else nth_error l j.
Proof.
  induction l as [|a l IH]; intros i b H j; cbn [List.length] in H; [lia|]. destruct i as [|i], j as [|j]; cbn [update nth_error Nat.eqb]; try reflexivity. apply IH. lia.
Qed.
Lemma change_inv w s x r v v' (f : V -> outcome V) : inv w s -> held s x = HOwn r -> nth_error (created s) r = Some v -> f v = Ok v' ->
  exists w', change w x f = Ok w' /\ inv w' (set_created s r v').
Proof.
  intros I Hx Hv Hf. destruct (i_own _ _ I x r Hx) as (v0 & Hr & Hv0). assert (v0 = v) by congruence. subst v0.
  pose proof (i_var _ _ I x) as J. rewrite Hx in J. destruct J as (c & J). pose proof (nth_some_length _ _ _ Hr) as Hl.
  assert (Hcl : (r < List.length (created s))%nat) by (rewrite <- (i_res _ _ I); exact Hl).
  unfold change. rewrite (var_ok _ _ _ J). cbn [obind o_ptr]. unfold resource. rewrite Hr. cbn [obind]. rewrite Hf. cbn [obind].
  unfold set_resource. rewrite set_cell_ok by exact Hl. cbn [obind]. eexists. split; [reflexivity|].
  constructor; cbn [counts resources released vars set_created created hold_of]; try apply I.
  - rewrite !update_length. apply I.
  - intros y r' Hy. destruct (i_own _ _ I y r' Hy) as (u & A1 & A2). rewrite nth_update by exact Hl. rewrite update_error by exact Hcl.
    destruct (Nat.eqb_spec r r') as [<-|]; eauto.
  - intros r'. rewrite update_length. intros Hr'. rewrite nth_update by exact Hl. destruct (Nat.eqb_spec r r') as [<-|]; [|now apply I].
    split; [discriminate|]. intros Hin. apply (i_free _ _ I r Hr') in Hin. congruence.
  - intros r' Hin. rewrite update_length. apply (i_dead _ _ I r' Hin).
  - intros r' Hr'. rewrite update_length in Hr'. now apply (i_alive _ _ I).
Qed.
Lemma rel_change s vs x r p a : rel s vs -> held s x = HOwn r -> (forall y, y <> x -> held s y <> HOwn r) -> (r < List.length (created s))%nat -> R p a ->
  rel (set_created s r p) (update vs x (VVal a)).
Proof.
  intros (Hl & H) Hx Ho Hr Hp. assert (Hxl : (x < List.length vs)%nat) by (rewrite <- Hl; apply held_length; congruence).
  split; [cbn; rewrite update_length; exact Hl|]. intros y. change (held (set_created s r p) y) with (held s y). rewrite value_set by exact Hxl.
  destruct (Nat.eqb_spec x y) as [<-|Hne].
  - rewrite Hx. exists p, a. cbn [set_created created]. rewrite update_error, Nat.eqb_refl by exact Hr. auto.
  - specialize (H y). specialize (Ho y ltac:(congruence)). destruct (held s y) as [| |r'|]; cbn [means] in *; try exact H.
    destruct H as (q & b & H1 & H2). exists q, b. cbn [set_created created]. rewrite update_error by exact Hr. destruct (Nat.eqb_spec r r'); [congruence|auto].
Qed.

(** how many share *)
Lemma claims_ok w s x : inv w s -> constructed (held s x) = true -> exists n, claims w x = Ok n /\
  (forall r, held s x = HOwn r -> if 1 <? n then exists y, y <> x /\ held s y = HOwn r else forall y, y <> x -> held s y <> HOwn r).
Proof.
  intros I Hx. destruct (inv_obj _ _ _ I Hx) as ([[c|] p] & Ho); unfold claims; rewrite (var_ok _ _ _ Ho); cbn [obind o_pn].
  2: { exists 0. split; [reflexivity|]. intros r Hr. exfalso. pose proof (i_var _ _ I x) as J. rewrite Hr in J. destruct J as (c & J). congruence. }
  destruct (inv_claim _ _ _ _ _ I Ho) as (Hc & Hp). unfold counter. rewrite Hc. eexists. split; [reflexivity|]. intros r Hr.
  pose proof (i_var _ _ I x) as J. rewrite Hr, Ho in J. destruct J as (c' & J). injection J as _ ->.
  pose proof (claimers_update c (vars w) x (Some (mkObj None PNull)) (nth_some_length _ _ _ Ho)) as U. rewrite Ho in U. cbn [claiming b2n] in U. rewrite Nat.eqb_refl in U. cbn [b2n] in U.
  destruct (1 <? Z.of_nat (claimers c (vars w))) eqn:L.
  - destruct (claimers_some c (update (vars w) x (Some (mkObj None PNull)))) as (y & Hy); [lia|]. rewrite nth_update in Hy by exact (nth_some_length _ _ _ Ho).
    destruct (Nat.eqb_spec x y); [discriminate|]. apply claiming_inv in Hy as (q & Hy). exists y. split; [congruence|].
    assert (q = PTo r) by exact (eq_sym (i_ptr _ _ I x y c _ _ Ho Hy)). subst q. exact (inv_owned _ _ _ _ _ I Hy).
  - intros y Hne Hy. pose proof (i_var _ _ I y) as J. rewrite Hy in J. destruct J as (d & J). assert (d = c) by exact (i_same _ _ I y x d c r J Ho). subst d.
    assert (0 < claimers c (update (vars w) x (Some (mkObj None PNull))))%nat; [|lia]. apply (claimers_pos c _ y).
    rewrite nth_update by exact (nth_some_length _ _ _ Ho). destruct (Nat.eqb_spec x y); [congruence|]. rewrite J. cbn. apply Nat.eqb_refl.
Qed.
Lemma target_empty w s x : inv w s -> held s x = HEmpty -> target w x = Ok None.
Proof. intros I H. pose proof (i_var _ _ I x) as J. rewrite H in J. destruct J as (pn & J). unfold target. rewrite (var_ok _ _ _ J). reflexivity. Qed.
Lemma target_own w s x r v : inv w s -> held s x = HOwn r -> nth_error (created s) r = Some v -> target w x = Ok (Some v).
Proof.
  intros I H Hv. pose proof (i_var _ _ I x) as J. rewrite H in J. destruct J as (c & J). unfold target. rewrite (var_ok _ _ _ J). cbn [obind o_ptr].
  destruct (i_own _ _ I x r H) as (u & A1 & A2). unfold resource. rewrite A1. cbn [obind]. congruence.
Qed.

(** the operations on whole objects *)
Lemma new_rel k w s vs x v a : inv w s -> rel s vs -> class_eqb k KMetadata = false -> (x < List.length vs)%nat -> is_unborn (value_of vs x) = true -> E a ->
  exists w' s', construct k w x v = Ok w' /\ inv w' s' /\ rel s' (update vs x (VVal a)).
Proof.
  intros I H Hk Hx Hu Ha. destruct (construct_inv k w s x v I) as (w' & Ew & I').
  - unfold is_variable. destruct H as (-> & _). lia.
  - rewrite (rel_unborn s vs x H) in Hu. now apply negb_true_iff.
  - rewrite Hk in I'. exists w', (set_hold s x HEmpty). split; [exact Ew|]. split; [exact I'|]. apply rel_set; [exact H|exact Hx|]. exists a. auto.
Qed.
Lemma copy_rel w s vs x y : inv w s -> rel s vs -> (x <? List.length vs)%nat && is_unborn (value_of vs x) && is_value (value_of vs y) = true ->
  exists w' s', copy_construct w x y = Ok w' /\ inv w' s' /\ rel s' (update vs x (value_of vs y)).
Proof.
  intros I H B. apply andb_prop in B as (B & B3). apply andb_prop in B as (B1 & B2). rewrite (rel_unborn s vs x H) in B2. rewrite (rel_value s vs y H) in B3.
  destruct (copy_inv w s x y I) as (w' & Ew & I').
  - unfold is_variable. destruct H as (-> & _). exact B1.
  - now apply negb_true_iff.
  - exact B3.
  - exists w', (set_hold s x (held s y)). split; [exact Ew|]. split; [exact I'|]. apply rel_set; [exact H|lia|apply H].
Qed.
Lemma means_set s x h h' v : means s h v -> means (set_hold s x h') h v.
Proof. destruct h; auto. Qed.
Lemma move_rel k w s vs x y : inv w s -> rel s vs -> class_eqb k KHandle = false ->
  (x <? List.length vs)%nat && is_unborn (value_of vs x) && is_value (value_of vs y) = true ->
  exists w' s', move_construct k w x y = Ok w' /\ inv w' s' /\ rel s' (update (update vs x (value_of vs y)) y VMoved).
Proof.
  intros I H Hk B. apply andb_prop in B as (B & B3). apply andb_prop in B as (B1 & B2). rewrite (rel_unborn s vs x H) in B2. rewrite (rel_value s vs y H) in B3.
  destruct (move_inv k w s x y I) as (w' & Ew & I').
  - unfold is_variable. destruct H as (-> & _). exact B1.
  - now apply negb_true_iff.
  - exact B3.
  - rewrite Hk in I'. cbv zeta in I'. eexists w', _. split; [exact Ew|]. split; [exact I'|].
    assert (Hy : (y < List.length vs)%nat).
    { destruct H as (<- & _). apply held_length. intros Hy. rewrite Hy in B3. discriminate. }
    apply rel_set; [apply rel_set; [exact H|lia|apply H]|rewrite update_length; exact Hy|reflexivity].
Qed.
Lemma assign_rel k w s vs x y : inv w s -> rel s vs ->
  negb (is_unborn (value_of vs x)) && is_value (value_of vs y) && negb (x =? y)%nat = true ->
  exists w' s', copy_assign k w x y = Ok w' /\ inv w' s' /\ rel s' (update vs x (value_of vs y)).
Proof.
  intros I H B. apply andb_prop in B as (B & B3). apply andb_prop in B as (B1 & B2). rewrite (rel_unborn s vs x H), negb_involutive in B1. rewrite (rel_value s vs y H) in B2.
  destruct (assign_inv k w s x y I B1 B2) as (w' & Ew & I'); [now apply Nat.eqb_neq, negb_true_iff|].
  eexists w', _. split; [exact Ew|]. split; [exact I'|]. apply rel_set; [exact H| |apply H].
  destruct H as (<- & _). apply held_length, constructed_neq, B1.
Qed.
Lemma move_assign_rel w s vs x y : inv w s -> rel s vs ->
  negb (is_unborn (value_of vs x)) && negb (is_unborn (value_of vs y)) = true ->
  exists w' s', move_assign w x y = Ok w' /\ inv w' s' /\ rel s' (update (update vs x (value_of vs y)) y (value_of vs x)).
Proof.
  intros I H B. apply andb_prop in B as (B1 & B2). rewrite (rel_unborn s vs x H), negb_involutive in B1. rewrite (rel_unborn s vs y H), negb_involutive in B2.
  destruct (move_assign_inv w s x y I B1 B2) as (w' & Ew & I').
  assert (Hx : (x < List.length vs)%nat) by (destruct H as (<- & _); apply held_length, constructed_neq, B1).
  assert (Hy : (y < List.length vs)%nat) by (destruct H as (<- & _); apply held_length, constructed_neq, B2).
  eexists w', _. split; [exact Ew|]. split; [exact I'|]. apply rel_set; [apply rel_set; [exact H|exact Hx|apply H]|rewrite update_length; exact Hy|].
  apply means_set, H.
Qed.
Lemma destroy_rel k w s vs x : inv w s -> rel s vs -> is_unborn (value_of vs x) = false ->
  exists w' s', destroy k w x = Ok w' /\ inv w' s' /\ rel s' (update vs x VUnborn).
Proof.
  intros I H B. rewrite (rel_unborn s vs x H) in B. apply negb_false_iff in B. destruct (destroy_inv k w s x I B) as (w' & Ew & I').
  eexists w', _. split; [exact Ew|]. split; [exact I'|]. apply rel_set; [exact H| |reflexivity]. destruct H as (<- & _). apply held_length, constructed_neq, B.
Qed.
Lemma wrap_rel k w s vs x p a : inv w s -> rel s vs -> is_unborn (value_of vs x) = false -> R p a ->
  exists w', wrap k w x (Some p) = Ok w' /\ inv w' (own_new s x p) /\ rel (own_new s x p) (update vs x (VVal a)).
Proof.
  intros I H B Hr. rewrite (rel_unborn s vs x H) in B. apply negb_false_iff in B. destruct (wrap_inv k w s x p I B) as (w' & Ew & I').
  exists w'. split; [exact Ew|]. split; [exact I'|]. apply rel_own; [exact H| |exact Hr]. destruct H as (<- & _). apply held_length, constructed_neq, B.
Qed.
(** a value and what the object refers to *)
Lemma rel_val s vs x a : rel s vs -> value_of vs x = VVal a ->
  (held s x = HEmpty /\ E a) \/ exists r p, held s x = HOwn r /\ nth_error (created s) r = Some p /\ R p a.
Proof.
  intros (_ & H) Hv. specialize (H x). rewrite Hv in H. destruct (held s x); cbn [means] in H; try discriminate.
  - destruct H as (b & Hb & Eb). injection Hb as <-. auto.
  - destruct H as (p & b & Hp & Hb & Rb). injection Hb as <-. right. eauto.
Qed.
Lemma start_rel n : rel (start_holds n) (start_values n).
Proof.
  split; [unfold start_holds, start_values; cbn [hold_of]; now rewrite !repeat_length|]. intros x. unfold held, value_of, start_holds, start_values. cbn [hold_of].
  rewrite !nth_repeat_same. reflexivity.
Qed.
End Values.

(** ---- dictionaries ---- *)
Definition dict (p : props) (m : pmap) : Prop := sm_ok p /\ forall k, sm_lookup p k = m k.
Definition no_dict (m : pmap) : Prop := forall k, m k = None.
Notation drel := (rel dict no_dict).

Lemma dict_create : dict props_create pm_empty.
Proof. split; [exact props_create_ok|]. intros k. apply sm_new_lookup. Qed.
Lemma dict_put p m k v : dict p m -> exists p', props_set p k v = Ok p' /\ dict p' (pm_set m k v).
Proof.
  intros (Hok & Hm). destruct (sm_put_spec p k v Hok) as (p' & E & Hok' & _ & Hl). exists p'. split; [exact E|]. split; [exact Hok'|].
  intros k'. rewrite Hl. unfold pm_set. now rewrite Hm.
Qed.
Lemma dict_copy p m : dict p m -> exists p', enum_into props_set (props_enum p) props_create = Ok p' /\ dict p' m.
Proof.
  intros (Hok & Hm). destruct (enum_into_overwrite (fun _ => true) props_set (props_enum p)) with (dest := props_create) as (r & Er & Hr & Hl).
  - reflexivity.
  - now apply enum_nodup.
  - exact props_create_ok.
  - exists r. split; [exact Er|]. split; [exact Hr|]. intros k. rewrite Hl. rewrite (pm_assoc_enumerates (props_enum p) (sm_lookup p)) by now apply enum_enumerates.
    rewrite Hm. destruct (m k) eqn:Em; [reflexivity|]. apply sm_new_lookup.
Qed.
Lemma dict_ext p m m' : dict p m -> (forall k, m k = m' k) -> dict p m'.
Proof. intros (A & B) H. split; [exact A|]. intros k. rewrite B. apply H. Qed.

(** after ensure_unique the object has its own dictionary with the old contents *)
Lemma ensure_unique_rel w s vs x m : inv w s -> drel s vs -> value_of vs x = VVal m ->
  exists w' s' r p, ensure_unique w x = Ok w' /\ inv w' s' /\ drel s' vs /\ held s' x = HOwn r /\ (forall y, y <> x -> held s' y <> HOwn r) /\
    nth_error (created s') r = Some p /\ dict p m.
Proof.
  intros I H Hv. assert (Hb : is_unborn (value_of vs x) = false) by (rewrite Hv; reflexivity).
  assert (Hx : (x < List.length vs)%nat).
  { unfold value_of in Hv. destruct (Nat.ltb x (List.length vs)) eqn:L; [lia|]. rewrite nth_overflow in Hv by lia. discriminate. }
  assert (Hsame : update vs x (VVal m) = vs) by (rewrite <- Hv; apply update_nth).
  assert (Hc : constructed (held s x) = true) by (rewrite (rel_unborn _ _ s vs x H) in Hb; now apply negb_false_iff).
  assert (Hlen : (x < List.length (hold_of s))%nat) by (apply held_length, constructed_neq, Hc).
  assert (Hown : forall q y, y <> x -> held (own_new s x q) y = held s y).
  { intros q y Hne. unfold held, own_new. cbn [hold_of]. rewrite nth_update by exact Hlen. destruct (Nat.eqb_spec x y); [congruence|reflexivity]. }
  assert (Hownx : forall q, held (own_new s x q) x = HOwn (List.length (created s))).
  { intros q. unfold held, own_new. cbn [hold_of]. rewrite nth_update, Nat.eqb_refl by exact Hlen. reflexivity. }
  assert (Hnot : forall y, held s y <> HOwn (List.length (created s))).
  { intros y Hy. destruct (i_own _ _ I y _ Hy) as (? & _ & K). assert (List.length (created s) < List.length (created s))%nat by (apply nth_error_Some; congruence). lia. }
  assert (Hnew : forall q, nth_error (created (own_new s x q)) (List.length (created s)) = Some q).
  { intros q. cbn [own_new created]. rewrite nth_error_app2, Nat.sub_diag by lia. reflexivity. }
  unfold ensure_unique. destruct (rel_val _ _ s vs x m H Hv) as [(Hh & He)|(r & p & Hh & Hp & Hr)].
  - rewrite (target_empty w s x I Hh). cbn [obind]. destruct (wrap_rel dict no_dict KProperties w s vs x props_create m I H Hb) as (w' & Ew & I' & H').
    { apply (dict_ext _ pm_empty); [exact dict_create|]. intros k. now rewrite He. }
    exists w', (own_new s x props_create), (List.length (created s)), props_create. split; [exact Ew|]. split; [exact I'|]. rewrite Hsame in H'. split; [exact H'|].
    split; [apply Hownx|]. split; [intros y Hne; rewrite Hown by exact Hne; apply Hnot|]. split; [apply Hnew|].
    apply (dict_ext _ pm_empty); [exact dict_create|]. intros k. now rewrite He.
  - rewrite (target_own w s x r p I Hh Hp). cbn [obind]. destruct (claims_ok w s x I Hc) as (n & En & Hn). rewrite En. cbn [obind]. specialize (Hn r Hh).
    destruct (1 <? n) eqn:L.
    + destruct Hn as (y & Hyx & Hy). pose proof (i_var _ _ I x) as J. rewrite Hh in J. destruct J as (c & J). rewrite (var_ok _ _ _ J). cbn [obind o_ptr].
      destruct (wrap_inv KProperties w s x props_create I Hc) as (w1 & E1 & I1). rewrite E1. cbn [obind].
      assert (Hy1 : held (own_new s x props_create) y = HOwn r) by (rewrite Hown by exact Hyx; exact Hy).
      destruct (i_own _ _ I1 y r Hy1) as (v & Hv1 & Hv2). assert (Hv3 : nth_error (created (own_new s x props_create)) r = Some p).
      { cbn [own_new created]. rewrite nth_error_app1; [exact Hp|]. apply nth_error_Some. congruence. }
      assert (v = p) by congruence. subst v. unfold resource. rewrite Hv1. cbn [obind].
      destruct (dict_copy p m Hr) as (p' & Ep & Hp').
      destruct (change_inv w1 _ x _ props_create p' (fun q => enum_into props_set (props_enum p) q) I1 (Hownx _) (Hnew _) Ep) as (w2 & E2 & I2).
      exists w2, (set_created (own_new s x props_create) (List.length (created s)) p'), (List.length (created s)), p'. split; [exact E2|]. split; [exact I2|].
      assert (Hlt : (List.length (created s) < List.length (created (own_new s x props_create)))%nat) by (cbn [own_new created]; rewrite app_length; cbn; lia).
      split; [|split; [|split; [|split]]].
      * rewrite <- Hsame. rewrite <- (update_update vs x (VVal pm_empty)). apply rel_change.
        -- apply rel_own; [exact H|exact Hx|exact dict_create].
        -- apply Hownx.
        -- intros z Hz. rewrite Hown by exact Hz. apply Hnot.
        -- exact Hlt.
        -- exact Hp'.
      * apply Hownx.
      * intros z Hz. change (held (own_new s x props_create) z <> HOwn (List.length (created s))). rewrite Hown by exact Hz. apply Hnot.
      * cbn [set_created created]. rewrite update_error, Nat.eqb_refl by exact Hlt. reflexivity.
      * exact Hp'.
    + exists w, s, r, p. auto 10.
Qed.
Lemma set_rel w s vs x k v m : inv w s -> drel s vs -> value_of vs x = VVal m ->
  exists w' s', properties_set w x k v = Ok w' /\ inv w' s' /\ drel s' (update vs x (VVal (pm_set m k v))).
Proof.
  intros I H Hv. destruct (ensure_unique_rel w s vs x m I H Hv) as (w1 & s1 & r & p & E1 & I1 & H1 & Hh & Ho & Hp & Hd).
  unfold properties_set. rewrite E1. cbn [obind]. destruct (dict_put p m k v Hd) as (p' & Ep & Hd').
  destruct (change_inv w1 s1 x r p p' (fun q => props_set q k v) I1 Hh Hp Ep) as (w2 & E2 & I2).
  exists w2, (set_created s1 r p'). split; [exact E2|]. split; [exact I2|]. apply rel_change; [exact H1|exact Hh|exact Ho| |exact Hd'].
  apply nth_error_Some. congruence.
Qed.
Lemma clear_rel w s vs x m : inv w s -> drel s vs -> value_of vs x = VVal m -> alone w x ->
  exists w' s', properties_clear w x = Ok w' /\ inv w' s' /\ drel s' (update vs x (VVal pm_empty)).
Proof.
  intros I H Hv (n & En & Hn). assert (Hx : (x < List.length vs)%nat).
  { unfold value_of in Hv. destruct (Nat.ltb x (List.length vs)) eqn:L; [lia|]. rewrite nth_overflow in Hv by lia. discriminate. }
  unfold properties_clear. destruct (rel_val _ _ s vs x m H Hv) as [(Hh & He)|(r & p & Hh & Hp & Hr)].
  - rewrite (target_empty w s x I Hh). cbn [obind]. exists w, (set_hold s x HEmpty). split; [reflexivity|].
    assert (Es : set_hold s x HEmpty = s) by (unfold set_hold, held in *; rewrite <- Hh, update_nth; now destruct s).
    split; [rewrite Es; exact I|]. apply rel_set; [exact H|exact Hx|]. exists pm_empty. split; [reflexivity|]. intros k. reflexivity.
  - rewrite (target_own w s x r p I Hh Hp). cbn [obind]. assert (Hc : constructed (held s x) = true) by (rewrite Hh; reflexivity).
    destruct (claims_ok w s x I Hc) as (n' & En' & Hn'). assert (n' = n) by congruence. subst n'. rewrite En. cbn [obind]. specialize (Hn' r Hh).
    destruct (1 <? n) eqn:L; [lia|]. destruct (change_inv w s x r p (props_clear p) (fun q => Ok (props_clear q)) I Hh Hp eq_refl) as (w2 & E2 & I2).
    exists w2, (set_created s r (props_clear p)). split; [exact E2|]. split; [exact I2|].
    apply rel_change; [exact H|exact Hh|exact Hn'| |exact dict_create]. apply nth_error_Some. congruence.
Qed.
Lemma dop_rel w s vs o vs' : inv w s -> drel s vs -> step_dicts vs o = Some vs' -> match o with DClear x => alone w x | _ => True end ->
  exists w' s', run_dop w o = Ok w' /\ inv w' s' /\ drel s' vs'.
Proof.
  intros I H E0 Ha. destruct o; cbn [step_dicts run_dop] in *.
  - destruct (_ && _) eqn:B; [|discriminate]. injection E0 as <-. apply andb_prop in B as (B1 & B2).
    apply (new_rel dict no_dict KProperties w s vs x); [exact I|exact H|reflexivity|lia|exact B2|]. intros k. reflexivity.
  - destruct (_ && _) eqn:B; [|discriminate]. injection E0 as <-. now apply (copy_rel dict no_dict w s).
  - destruct (_ && _) eqn:B; [|discriminate]. injection E0 as <-. now apply (move_rel dict no_dict KProperties w s).
  - destruct (_ && _) eqn:B; [|discriminate]. injection E0 as <-. now apply (assign_rel dict no_dict KProperties w s).
  - destruct (is_unborn _) eqn:B; [discriminate|]. injection E0 as <-. now apply (destroy_rel dict no_dict KProperties w s).
  - destruct (value_of vs x) eqn:B; try discriminate. injection E0 as <-. now apply (set_rel w s).
  - destruct (value_of vs x) eqn:B; try discriminate. injection E0 as <-. now apply (clear_rel w s vs x a).
Qed.
Lemma dops_rel ops : forall w s vs vs', inv w s -> drel s vs -> run_dicts vs ops = Some vs' -> clears_alone w ops ->
  exists w' s', run_dops w ops = Ok w' /\ inv w' s' /\ drel s' vs'.
Proof.
  induction ops as [|o ops IH]; intros w s vs vs' I H E0 Ha; cbn [run_dicts run_dops clears_alone] in *; [injection E0 as <-; eauto|].
  destruct (step_dicts vs o) as [vs1|] eqn:E1; [|discriminate]. destruct Ha as (Ha & Hb).
  destruct (dop_rel w s vs o vs1 I H E1 Ha) as (w1 & s1 & Ew & I1 & H1). rewrite Ew in *. cbn [obind]. eauto.
Qed.
Lemma dict_values n ops vs : run_dicts (start_values n) ops = Some vs -> clears_alone (start n) ops ->
  exists w, run_dops (start n) ops = Ok w /\
    forall x m, value_of vs x = VVal m -> (forall k, properties_get w x k = Ok (m k)) /\
      exists l, properties_size w x = Ok (List.length l) /\ enumerates l m.
Proof.
  intros E0 Ha. destruct (dops_rel ops (start n) (start_holds n) _ vs (start_inv n) (start_rel _ _ n) E0 Ha) as (w & s & Ew & I & H).
  exists w. split; [exact Ew|]. intros x m Hv. unfold properties_get, properties_size.
  destruct (rel_val _ _ s vs x m H Hv) as [(Hh & He)|(r & p & Hh & Hp & (Hok & Hm))].
  - rewrite (target_empty w s x I Hh). cbn [obind]. split; [intros k; now rewrite He|]. exists []. split; [reflexivity|].
    split; [constructor|]. intros k v. rewrite He. split; [contradiction|discriminate].
  - rewrite (target_own w s x r p I Hh Hp). cbn [obind]. split; [intros k; rewrite props_get_spec by exact Hok; now rewrite Hm|].
    exists (props_enum p). destruct (enum_enumerates p Hok) as (A & B). split; [|split; [exact A|intros k v; rewrite B, Hm; reflexivity]].
    f_equal. apply count_enum.
Qed.

(** ---- regions ---- *)
Definition is_region (p : region) (a : option region) : Prop := a = Some p.
Definition no_region (a : option region) : Prop := a = None.
Notation rrel := (rel is_region no_region).

Lemma value_length {A} (vs : list (value A)) x a : value_of vs x = VVal a -> (x < List.length vs)%nat.
Proof. intros Hv. unfold value_of in Hv. destruct (Nat.ltb x (List.length vs)) eqn:L; [lia|]. rewrite nth_overflow in Hv by lia. discriminate. Qed.
Lemma val_unborn {A} (vs : list (value A)) x a : value_of vs x = VVal a -> is_unborn (value_of vs x) = false.
Proof. now intros ->. Qed.
Lemma val_constructed w s vs x a : inv w s -> rrel s vs -> value_of vs x = VVal a -> constructed (held s x) = true.
Proof. intros I H Hv. pose proof (rel_unborn _ _ s vs x H) as B. rewrite Hv in B. cbn in B. destruct (constructed (held s x)); [reflexivity|discriminate]. Qed.
(** a fresh region is wrapped, or the object's own is changed *)
Lemma fresh_rel w s vs x a q : inv w s -> rrel s vs -> value_of vs x = VVal a ->
  exists w' s', wrap KRegion w x (Some q) = Ok w' /\ inv w' s' /\ rrel s' (update vs x (VVal (Some q))).
Proof. intros I H Hv. destruct (wrap_rel is_region no_region KRegion w s vs x q (Some q) I H (val_unborn _ _ _ Hv) eq_refl) as (w' & A & B & C). eauto. Qed.
Lemma replace_rel w s vs x p q r f : inv w s -> rrel s vs -> held s x = HOwn r -> nth_error (created s) r = Some p -> f p = Ok q ->
  (forall y, y <> x -> held s y <> HOwn r) ->
  exists w' s', change w x f = Ok w' /\ inv w' s' /\ rrel s' (update vs x (VVal (Some q))).
Proof.
  intros I H Hh Hp Hf Hn. destruct (change_inv w s x r p q f I Hh Hp Hf) as (w' & E & I'). exists w', (set_created s r q). split; [exact E|]. split; [exact I'|].
  apply rel_change; [exact H|exact Hh|exact Hn| |reflexivity]. apply nth_error_Some. congruence.
Qed.
Lemma code_rel w s vs x a code : inv w s -> rrel s vs -> value_of vs x = VVal a ->
  exists w' s', region_set_code w x code = Ok w' /\ inv w' s' /\ rrel s' (update vs x (VVal (Some (RSpecial code)))).
Proof.
  intros I H Hv. pose proof (fresh_rel w s vs x a (RSpecial code) I H Hv) as F. unfold region_set_code.
  destruct (claims_ok w s x I (val_constructed w s vs x a I H Hv)) as (n & En & Hn).
  destruct (rel_val _ _ s vs x a H Hv) as [(Hh & He)|(r & p & Hh & Hp & Hr)].
  - rewrite (target_empty w s x I Hh), En. exact F.
  - rewrite (target_own w s x r p I Hh Hp), En. cbn [obind]. destruct p; try exact F. specialize (Hn r Hh). destruct (1 <? n); [exact F|].
    exact (replace_rel w s vs x (RSpecial code0) (RSpecial code) r _ I H Hh Hp eq_refl Hn).
Qed.
Lemma rectangle_rel w s vs x a b c d e : inv w s -> rrel s vs -> value_of vs x = VVal a ->
  exists w' s', region_set_rectangle w x b c d e = Ok w' /\ inv w' s' /\ rrel s' (update vs x (VVal (Some (RRect b c d e)))).
Proof.
  intros I H Hv. pose proof (fresh_rel w s vs x a (RRect b c d e) I H Hv) as F. unfold region_set_rectangle.
  destruct (claims_ok w s x I (val_constructed w s vs x a I H Hv)) as (n & En & Hn).
  destruct (rel_val _ _ s vs x a H Hv) as [(Hh & He)|(r & p & Hh & Hp & Hr)].
  - rewrite (target_empty w s x I Hh), En. exact F.
  - rewrite (target_own w s x r p I Hh Hp), En. cbn [obind]. destruct p; try exact F. specialize (Hn r Hh). destruct (1 <? n); [exact F|].
    eapply replace_rel; [exact I|exact H|exact Hh|exact Hp|reflexivity|exact Hn].
Qed.
Lemma polygon_point_ok l i px py : (0 <=? i) && (i <? Z.of_nat (List.length l)) = true ->
  polygon_point i px py (RPoly l) = Ok (RPoly (update l (Z.to_nat i) (px, py))).
Proof.
  intros B. apply andb_prop in B as (B1 & B2). unfold polygon_point. rewrite B1. cbn [orb negb]. unfold put_cell. destruct (i <? 0) eqn:L; [lia|].
  rewrite set_cell_ok by lia. reflexivity.
Qed.
Lemma point_rel legacy w s vs x l i px py : inv w s -> rrel s vs -> value_of vs x = VVal (Some (RPoly l)) -> (0 <=? i) && (i <? Z.of_nat (List.length l)) = true ->
  exists w' s', region_set_point legacy w x i px py = Ok w' /\ inv w' s' /\ rrel s' (update vs x (VVal (Some (RPoly (update l (Z.to_nat i) (px, py)))))).
Proof.
  intros I H Hv B. unfold region_set_point. pose proof (val_constructed w s vs x _ I H Hv) as Hc. destruct (claims_ok w s x I Hc) as (n & En & Hn). rewrite En. cbn [obind].
  destruct (rel_val _ _ s vs x _ H Hv) as [(Hh & He)|(r & p & Hh & Hp & Hr)]; [discriminate|]. injection Hr as <-. specialize (Hn r Hh).
  destruct (1 <? n) eqn:L; cbn [obind].
  - rewrite (target_own w s x r (RPoly l) I Hh Hp). cbn [obind convert].
    destruct (wrap_rel is_region no_region KRegion w s vs x (RPoly l) (Some (RPoly l)) I H (val_unborn _ _ _ Hv) eq_refl) as (w1 & E1 & I1 & H1).
    rewrite E1. cbn [obind]. assert (Hl : (x < List.length (hold_of s))%nat) by (apply held_length, constructed_neq, Hc).
    pose proof (replace_rel w1 (own_new s x (RPoly l)) (update vs x (VVal (Some (RPoly l)))) x (RPoly l) (RPoly (update l (Z.to_nat i) (px, py))) (List.length (created s))
      (polygon_point i px py) I1 H1) as Q. rewrite update_update in Q. apply Q; clear Q.
    + unfold held, own_new. cbn [hold_of]. rewrite nth_update, Nat.eqb_refl by exact Hl. reflexivity.
    + cbn [own_new created]. rewrite nth_error_app2, Nat.sub_diag by lia. reflexivity.
    + now apply polygon_point_ok.
    + intros y Hne. unfold held, own_new. cbn [hold_of]. rewrite nth_update by exact Hl. destruct (Nat.eqb_spec x y); [congruence|].
      intros Hy. destruct (i_own _ _ I y _ Hy) as (? & _ & K). assert (List.length (created s) < List.length (created s))%nat by (apply nth_error_Some; congruence). lia.
  - exact (replace_rel w s vs x (RPoly l) _ r _ I H Hh Hp (polygon_point_ok _ _ _ _ B) Hn).
Qed.
Lemma write_rel w s vs x mx my mw mh d row column v : inv w s -> rrel s vs -> value_of vs x = VVal (Some (RMask mx my mw mh d)) ->
  (0 <=? row) && (row <? mh) && (0 <=? column) && (column <? mw) && (Z.of_nat (List.length d) =? mw * mh) = true -> alone w x ->
  exists w' s', region_write_pixel w x row column v = Ok w' /\ inv w' s' /\
    rrel s' (update vs x (VVal (Some (RMask mx my mw mh (update d (Z.to_nat (mw * row + column)) v))))).
Proof.
  intros I H Hv B (n & En & Hn). pose proof (val_constructed w s vs x _ I H Hv) as Hc. destruct (claims_ok w s x I Hc) as (n' & En' & Hn').
  assert (n' = n) by congruence. subst n'. apply andb_prop in B as (B & B5). apply andb_prop in B as (B & B4). apply andb_prop in B as (B & B3). apply andb_prop in B as (B1 & B2).
  destruct (rel_val _ _ s vs x _ H Hv) as [(Hh & He)|(r & p & Hh & Hp & Hr)]; [discriminate|]. injection Hr as <-. specialize (Hn' r Hh).
  destruct (1 <? n) eqn:L; [lia|]. unfold region_write_pixel. eapply replace_rel; [exact I|exact H|exact Hh|exact Hp| |exact Hn'].
  unfold mask_cell. rewrite B1, B2, B3, B4. cbn [andb negb]. unfold put_cell.
  assert (0 <= mw * row + column < mw * mh).
  { assert (mw * row + mw <= mw * mh) by (rewrite <- (Z.mul_1_r mw) at 2; rewrite <- Z.mul_add_distr_l; apply Z.mul_le_mono_nonneg_l; lia).
    assert (0 <= mw * row) by (apply Z.mul_nonneg_nonneg; lia). lia. }
  destruct (mw * row + column <? 0) eqn:L2; [lia|]. rewrite set_cell_ok by lia. reflexivity.
Qed.
Lemma rop_rel legacy w s vs o vs' : inv w s -> rrel s vs -> step_regions vs o = Some vs' -> match o with RWrite x _ _ _ => alone w x | _ => True end ->
  exists w' s', run_rop legacy w o = Ok w' /\ inv w' s' /\ rrel s' vs'.
Proof.
  intros I H E0 Ha. destruct o; cbn [step_regions run_rop] in *.
  - destruct (_ && _) eqn:B; [|discriminate]. injection E0 as <-. apply andb_prop in B as (B1 & B2).
    apply (new_rel is_region no_region KRegion w s vs x); [exact I|exact H|reflexivity|lia|exact B2|reflexivity].
  - destruct (is_unborn _) eqn:B; [discriminate|]. injection E0 as <-.
    destruct (wrap_rel is_region no_region KRegion w s vs x r (Some r) I H B eq_refl) as (w' & A1 & A2 & A3). eauto.
  - destruct (_ && _) eqn:B; [|discriminate]. injection E0 as <-. now apply (copy_rel is_region no_region w s).
  - destruct (_ && _) eqn:B; [|discriminate]. injection E0 as <-. now apply (move_rel is_region no_region KRegion w s).
  - destruct (_ && _) eqn:B; [|discriminate]. injection E0 as <-. now apply (assign_rel is_region no_region KRegion w s).
  - destruct (_ && _) eqn:B; [|discriminate]. injection E0 as <-. now apply (move_assign_rel is_region no_region w s).
  - destruct (is_unborn _) eqn:B; [discriminate|]. injection E0 as <-. now apply (destroy_rel is_region no_region KRegion w s).
  - destruct (value_of vs x) eqn:B; try discriminate. injection E0 as <-. now apply (code_rel w s vs x a).
  - destruct (value_of vs x) eqn:B; try discriminate. injection E0 as <-. now apply (rectangle_rel w s vs x a0).
  - destruct (value_of vs x) as [|[[| |l|]|]|] eqn:B; try discriminate. destruct (_ && _) eqn:B2; [|discriminate]. injection E0 as <-. now apply (point_rel legacy w s).
  - destruct (value_of vs x) as [|[[| | |]|]|] eqn:B; try discriminate. destruct (_ && _) eqn:B2; [|discriminate]. injection E0 as <-. now apply (write_rel w s).
Qed.
Lemma rops_rel legacy ops : forall w s vs vs', inv w s -> rrel s vs -> run_regions vs ops = Some vs' -> writes_alone legacy w ops ->
  exists w' s', run_rops legacy w ops = Ok w' /\ inv w' s' /\ rrel s' vs'.
Proof.
  induction ops as [|o ops IH]; intros w s vs vs' I H E0 Ha; cbn [run_regions run_rops writes_alone] in *; [injection E0 as <-; eauto|].
  destruct (step_regions vs o) as [vs1|] eqn:E1; [|discriminate]. destruct Ha as (Ha & Hb).
  destruct (rop_rel legacy w s vs o vs1 I H E1 Ha) as (w1 & s1 & Ew & I1 & H1). rewrite Ew in *. cbn [obind]. eauto.
Qed.
Lemma region_values legacy n ops vs : run_regions (start_values n) ops = Some vs -> writes_alone legacy (start n) ops ->
  exists w, run_rops legacy (start n) ops = Ok w /\ forall x a, value_of vs x = VVal a -> target w x = Ok a.
Proof.
  intros E0 Ha. destruct (rops_rel legacy ops (start n) (start_holds n) _ vs (start_inv n) (start_rel _ _ n) E0 Ha) as (w & s & Ew & I & H).
  exists w. split; [exact Ew|]. intros x a Hv. destruct (rel_val _ _ s vs x a H Hv) as [(Hh & ->)|(r & p & Hh & Hp & ->)].
  - exact (target_empty w s x I Hh).
  - exact (target_own w s x r p I Hh Hp).
Qed.

(** ---- deciding the hypotheses, for the examples ---- *)
Definition aloneb {V} (w : world V) x : bool := match claims w x with Ok n => n <=? 1 | _ => false end.
Lemma aloneb_ok {V} (w : world V) x : aloneb w x = true -> alone w x.
Proof. unfold aloneb, alone. destruct (claims w x); try discriminate. intros H. exists a. split; [reflexivity|lia]. Qed.
Fixpoint clears_aloneb (w : world props) (ops : list dop) : bool :=
  match ops with
  | [] => true
  | o :: ops' =>
      match o with DClear x => aloneb w x | _ => true end &&
      match run_dop w o with Ok w' => clears_aloneb w' ops' | _ => true end
  end.
Lemma clears_aloneb_ok ops : forall w, clears_aloneb w ops = true -> clears_alone w ops.
Proof.
  induction ops as [|o ops IH]; intros w H; [exact I|]. cbn [clears_aloneb clears_alone] in *. apply andb_prop in H as (H1 & H2). split.
  - destruct o; try exact I. now apply aloneb_ok.
  - destruct (run_dop w o); try exact I. now apply IH.
Qed.
Fixpoint writes_aloneb (legacy : bool) (w : world region) (ops : list rop) : bool :=
  match ops with
  | [] => true
  | o :: ops' =>
      match o with RWrite x _ _ _ => aloneb w x | _ => true end &&
      match run_rop legacy w o with Ok w' => writes_aloneb legacy w' ops' | _ => true end
  end.
Lemma writes_aloneb_ok legacy ops : forall w, writes_aloneb legacy w ops = true -> writes_alone legacy w ops.
Proof.
  induction ops as [|o ops IH]; intros w H; [exact I|]. cbn [writes_aloneb writes_alone] in *. apply andb_prop in H as (H1 & H2). split.
  - destruct o; try exact I. now apply aloneb_ok.
  - destruct (run_rop legacy w o); try exact I. now apply IH.
Qed.
