(** Lemmas about src/strmap.c and the dictionary part of src/trax.c. *)
From Verif Require Import CBase StrMap Props PropsSpec.

Lemma bytes_eqb_eq a b : bytes_eqb a b = true <-> a = b.
Proof.
  revert b. induction a as [|x a IH]; intros [|y b]; cbn [bytes_eqb]; split; intros H; try congruence; auto.
  - apply andb_true_iff in H as [H1 H2]. apply N.eqb_eq in H1. apply IH in H2. congruence.
  - inversion H; subst. rewrite N.eqb_refl. cbn. now apply IH.
Qed.
Lemma bytes_eqb_refl a : bytes_eqb a a = true.
Proof. now apply bytes_eqb_eq. Qed.
Lemma bytes_eqb_neq a b : bytes_eqb a b = false <-> a <> b.
Proof.
  destruct (bytes_eqb a b) eqn:E.
  - apply bytes_eqb_eq in E. split; congruence.
  - split; [|congruence]. intros _ H. apply bytes_eqb_eq in H. congruence.
Qed.
Lemma bytes_eqb_sym a b : bytes_eqb a b = bytes_eqb b a.
Proof.
  destruct (bytes_eqb b a) eqn:E.
  - apply bytes_eqb_eq in E. subst. apply bytes_eqb_refl.
  - apply bytes_eqb_neq in E. apply bytes_eqb_neq. congruence.
Qed.
Lemma bytes_eq_dec (a b : list N) : {a = b} + {a <> b}.
Proof. apply list_eq_dec, N.eq_dec. Qed.

Lemma set_nth_length {A} (l : list A) i x : List.length (set_nth l i x) = List.length l.
Proof. revert i. induction l as [|y l IH]; intros [|i]; cbn; auto. Qed.
Lemma nth_set_nth_same {A} (l : list A) i x d : (i < List.length l)%nat -> nth i (set_nth l i x) d = x.
Proof. revert i. induction l as [|y l IH]; intros [|i] H; cbn in *; auto; try lia. apply IH. lia. Qed.
Lemma nth_set_nth_other {A} (l : list A) i j x d : i <> j -> nth j (set_nth l i x) d = nth j l d.
Proof. revert i j. induction l as [|y l IH]; intros [|i] [|j] H; cbn; auto; congruence. Qed.

(** Abstraction *)
Definition sm_lookup (m : smap) (k : list N) : option (list N) :=
  option_map pv (get_pair (nth (bucket_index m k) m []) k).

Definition pair_ok (p : pair) : Prop := (S (List.length (pv p)) <= pv_cap p)%nat.
Definition bucket_ok (m : smap) (i : nat) (b : list pair) : Prop :=
  NoDup (map pk b) /\ Forall (fun p => bucket_index m (pk p) = i /\ pair_ok p) b.
Definition sm_ok (m : smap) : Prop :=
  (0 < List.length m)%nat /\ forall i, (i < List.length m)%nat -> bucket_ok m i (nth i m []).

Lemma bucket_index_lt m k : (0 < List.length m)%nat -> (bucket_index m k < List.length m)%nat.
Proof.
  intros H. unfold bucket_index.
  pose proof (Z.mod_pos_bound (hash k) (Z.of_nat (List.length m))). lia.
Qed.
Lemma bucket_index_len m m' k : List.length m = List.length m' -> bucket_index m k = bucket_index m' k.
Proof. unfold bucket_index. intros ->. reflexivity. Qed.

Lemma sm_new_ok n : (0 < n)%nat -> sm_ok (sm_new n).
Proof.
  intros H. unfold sm_ok, sm_new. rewrite repeat_length. split; [exact H|].
  intros i Hi. replace (nth i (repeat [] n) []) with (@nil pair); [split; constructor|].
  clear. revert i. induction n as [|n IH]; intros [|i]; cbn; auto.
Qed.
Lemma sm_new_lookup n k : sm_lookup (sm_new n) k = None.
Proof.
  unfold sm_lookup. replace (nth _ (sm_new n) []) with (@nil pair); [reflexivity|].
  unfold sm_new. generalize (bucket_index (repeat [] n) k). clear.
  induction n as [|n IH]; intros [|i]; cbn; auto.
Qed.

Lemma get_pair_some b k p : get_pair b k = Some p -> In p b /\ pk p = k.
Proof.
  induction b as [|q b IH]; cbn [get_pair]; [discriminate|].
  destruct (bytes_eqb (pk q) k) eqn:E; intros H.
  - inversion H; subst. apply bytes_eqb_eq in E. split; [now left|exact E].
  - destruct (IH H). split; [now right|assumption].
Qed.
Lemma get_pair_none b k : get_pair b k = None <-> ~ In k (map pk b).
Proof.
  induction b as [|q b IH]; cbn [get_pair map In]; [tauto|].
  destruct (bytes_eqb (pk q) k) eqn:E.
  - apply bytes_eqb_eq in E. split; [discriminate|]. intros H. exfalso. apply H. now left.
  - apply bytes_eqb_neq in E. rewrite IH. tauto.
Qed.
Lemma get_pair_in b p : NoDup (map pk b) -> In p b -> get_pair b (pk p) = Some p.
Proof.
  induction b as [|q b IH]; intros Hnd Hin; [destruct Hin|].
  cbn [get_pair]. destruct Hin as [->|Hin].
  - rewrite bytes_eqb_refl. reflexivity.
  - inversion_clear Hnd as [|? ? Hni Hnd'].
    destruct (bytes_eqb (pk q) (pk p)) eqn:E; [|auto].
    apply bytes_eqb_eq in E. exfalso. apply Hni. rewrite E. now apply in_map.
Qed.

Lemma replace_value_ok b k v : Forall pair_ok b ->
  exists b', replace_value b k v = Ok b' /\ map pk b' = map pk b /\ Forall pair_ok b' /\
    forall k', get_pair b' k' =
      (if bytes_eqb k k' then match get_pair b k with Some p => Some (mkPair k v
         (if Nat.ltb (List.length (pv p)) (List.length v) then S (List.length v) else pv_cap p)) | None => None end
       else get_pair b k').
Proof.
  induction b as [|p b IH]; intros H.
  - exists []. repeat split; auto. intros k'. cbn. destruct (bytes_eqb k k'); reflexivity.
  - inversion_clear H as [|? ? Hp Hb]. cbn [replace_value get_pair].
    destruct (bytes_eqb (pk p) k) eqn:E.
    + apply bytes_eqb_eq in E.
      set (cap := if Nat.ltb (List.length (pv p)) (List.length v) then S (List.length v) else pv_cap p).
      assert (Hcap : (S (List.length v) <= cap)%nat).
      { subst cap. unfold pair_ok in Hp. destruct (Nat.ltb_spec (List.length (pv p)) (List.length v)); lia. }
      replace (Nat.leb (S (List.length v)) cap) with true by lia.
      eexists. split; [reflexivity|]. repeat split.
      * constructor; [exact Hcap|exact Hb].
      * intros k'. cbn [get_pair pk]. rewrite E.
        destruct (bytes_eqb k k') eqn:E'; reflexivity.
    + destruct (IH Hb) as (b' & Hr & Hk & Hok & Hg). rewrite Hr. cbn [obind].
      eexists. split; [reflexivity|]. repeat split.
      * cbn [map]. now rewrite Hk.
      * constructor; assumption.
      * intros k'. cbn [get_pair]. destruct (bytes_eqb (pk p) k') eqn:E'.
        -- apply bytes_eqb_eq in E'. subst k'. rewrite bytes_eqb_sym, E. reflexivity.
        -- apply Hg.
Qed.

Lemma insert_get b k v k' : get_pair b k = None ->
  get_pair (insert_pair b k v) k' =
    if bytes_eqb k k' then Some (mkPair k v (S (List.length v))) else get_pair b k'.
Proof.
  unfold insert_pair. induction b as [|p b IH]; cbn [app get_pair]; intros H.
  - cbn [pk]. destruct (bytes_eqb k k'); reflexivity.
  - destruct (bytes_eqb (pk p) k) eqn:E; [discriminate|].
    destruct (bytes_eqb (pk p) k') eqn:E'.
    + apply bytes_eqb_eq in E'. subst k'. rewrite bytes_eqb_sym, E. reflexivity.
    + auto.
Qed.

Lemma NoDup_snoc {A} (l : list A) x : NoDup l -> ~ In x l -> NoDup (l ++ [x]).
Proof.
  induction l as [|y l IH]; intros H Hx; cbn.
  - constructor; [easy|constructor].
  - inversion_clear H as [|? ? Hy Hl]. constructor.
    + rewrite in_app_iff. intros [Hin|[->|[]]]; [contradiction|]. apply Hx. now left.
    + apply IH; [exact Hl|]. intros Hin. apply Hx. now right.
Qed.

(** The effect of one update. *)
Lemma sm_put_spec m k v : sm_ok m ->
  exists m', sm_put m k v = Ok m' /\ sm_ok m' /\ List.length m' = List.length m /\
    forall k', sm_lookup m' k' = pm_set (sm_lookup m) k v k'.
Proof.
  intros [Hl Hb]. unfold sm_put.
  replace (Nat.eqb (List.length m) 0) with false by lia.
  set (i := bucket_index m k). assert (Hi : (i < List.length m)%nat) by now apply bucket_index_lt.
  destruct (Hb i Hi) as [Hnd Hfa].
  assert (Hok : Forall pair_ok (nth i m [])) by (eapply Forall_impl; [|exact Hfa]; cbn; tauto).
  destruct (get_pair (nth i m []) k) as [p|] eqn:Eg.
  - destruct (replace_value_ok (nth i m []) k v Hok) as (b' & Hr & Hk & Hok' & Hg).
    rewrite Hr. cbn [obind]. eexists. split; [reflexivity|].
    assert (Hlen : List.length (set_nth m i b') = List.length m) by apply set_nth_length.
    refine (conj (conj _ _) (conj _ _)).
    + rewrite Hlen. exact Hl.
    + intros j Hj. rewrite Hlen in Hj.
      destruct (Nat.eq_dec i j) as [<-|Hij].
      * rewrite nth_set_nth_same by exact Hi. split; [now rewrite Hk|].
        apply Forall_forall. intros q Hq. rewrite (bucket_index_len _ m) by exact Hlen. split.
        -- assert (Hin : In (pk q) (map pk (nth i m []))) by (rewrite <- Hk; now apply in_map).
           apply in_map_iff in Hin as (q' & Eq & Hq'). rewrite Forall_forall in Hfa.
           destruct (Hfa q' Hq') as [Hq'' _]. now rewrite <- Eq.
        -- rewrite Forall_forall in Hok'. auto.
      * rewrite nth_set_nth_other by exact Hij. destruct (Hb j Hj) as [Hndj Hfj]. split; [exact Hndj|].
        eapply Forall_impl; [|exact Hfj]. intros q [Hq1 Hq2]. cbn beta.
        rewrite (bucket_index_len _ m) by exact Hlen. auto.
    + exact Hlen.
    + intros k'. unfold sm_lookup, pm_set. rewrite (bucket_index_len _ m) by exact Hlen.
      destruct (Nat.eq_dec i (bucket_index m k')) as [Hij|Hij].
      * rewrite <- Hij. rewrite nth_set_nth_same by exact Hi. rewrite Hg, Eg.
        destruct (bytes_eqb k k'); reflexivity.
      * rewrite nth_set_nth_other by exact Hij.
        destruct (bytes_eqb k k') eqn:E'; [|reflexivity].
        apply bytes_eqb_eq in E'. subst k'. exfalso. apply Hij. reflexivity.
  - eexists. split; [reflexivity|]. set (b' := insert_pair (nth i m []) k v).
    assert (Hlen : List.length (set_nth m i b') = List.length m) by apply set_nth_length.
    refine (conj (conj _ _) (conj _ _)).
    + rewrite Hlen. exact Hl.
    + intros j Hj. rewrite Hlen in Hj.
      destruct (Nat.eq_dec i j) as [<-|Hij].
      * rewrite nth_set_nth_same by exact Hi. unfold b', insert_pair. split.
        -- rewrite map_app. cbn [map pk]. apply NoDup_snoc; [exact Hnd|]. now apply get_pair_none.
        -- apply Forall_app. split.
           ++ eapply Forall_impl; [|exact Hfa]. intros q [Hq1 Hq2]. cbn beta.
              rewrite (bucket_index_len _ m) by exact Hlen. auto.
           ++ constructor; [|constructor]. cbn [pk]. rewrite (bucket_index_len _ m) by exact Hlen.
              split; [reflexivity|]. unfold pair_ok. cbn. lia.
      * rewrite nth_set_nth_other by exact Hij. destruct (Hb j Hj) as [Hndj Hfj]. split; [exact Hndj|].
        eapply Forall_impl; [|exact Hfj]. intros q [Hq1 Hq2]. cbn beta.
        rewrite (bucket_index_len _ m) by exact Hlen. auto.
    + exact Hlen.
    + intros k'. unfold sm_lookup, pm_set. rewrite (bucket_index_len _ m) by exact Hlen.
      destruct (Nat.eq_dec i (bucket_index m k')) as [Hij|Hij].
      * rewrite <- Hij. rewrite nth_set_nth_same by exact Hi. unfold b'. rewrite insert_get by exact Eg.
        destruct (bytes_eqb k k'); reflexivity.
      * rewrite nth_set_nth_other by exact Hij.
        destruct (bytes_eqb k k') eqn:E'; [|reflexivity].
        apply bytes_eqb_eq in E'. subst k'. exfalso. apply Hij. reflexivity.
Qed.

(** Reading *)
Lemma props_get_spec m k : sm_ok m -> props_get m k = Ok (sm_lookup m k).
Proof.
  intros [Hl _]. unfold props_get, sm_get_size, sm_get_copy, sm_lookup.
  replace (Nat.eqb (List.length m) 0) with false by lia.
  destruct (get_pair (nth (bucket_index m k) m []) k) as [p|]; cbn [obind option_map]; [|reflexivity].
  replace (Nat.ltb (S (List.length (pv p))) 1) with false by lia.
  replace (Nat.leb (S (List.length (pv p))) (List.length (pv p))) with false by lia.
  replace (Nat.leb (S (List.length (pv p))) (8 * S (List.length (pv p)))) with true by lia.
  reflexivity.
Qed.

Lemma props_has_spec m k : sm_ok m ->
  props_has m k = Ok (match sm_lookup m k with Some _ => true | None => false end).
Proof.
  intros [Hl _]. unfold props_has, sm_get_size, sm_lookup.
  replace (Nat.eqb (List.length m) 0) with false by lia.
  destruct (get_pair (nth (bucket_index m k) m []) k) as [p|]; reflexivity.
Qed.

(** Enumeration *)
Lemma in_enum m k v : sm_ok m -> In (k, v) (sm_enum m) <-> sm_lookup m k = Some v.
Proof.
  intros [Hl Hb]. unfold sm_enum. rewrite in_flat_map. split.
  - intros (b & Hbm & Hin). apply in_map_iff in Hin as (p & Ep & Hp). inversion Ep; subst.
    apply (In_nth _ _ []) in Hbm as (i & Hi & <-).
    destruct (Hb i Hi) as [Hnd Hfa]. rewrite Forall_forall in Hfa. destruct (Hfa p Hp) as [Hix _].
    unfold sm_lookup. rewrite Hix, (get_pair_in _ p); auto.
  - unfold sm_lookup. intros H.
    destruct (get_pair (nth (bucket_index m k) m []) k) as [p|] eqn:E; [|discriminate].
    cbn in H. inversion H; subst v. apply get_pair_some in E as [Hp Hk].
    exists (nth (bucket_index m k) m []). split.
    + apply nth_In. now apply bucket_index_lt.
    + apply in_map_iff. exists p. split; [now rewrite Hk|exact Hp].
Qed.

Lemma NoDup_app_intro {A} (l1 l2 : list A) :
  NoDup l1 -> NoDup l2 -> (forall x, In x l1 -> In x l2 -> False) -> NoDup (l1 ++ l2).
Proof.
  induction l1 as [|x l1 IH]; cbn; intros H1 H2 H; [exact H2|].
  inversion_clear H1 as [|? ? Hx H1']. constructor.
  - rewrite in_app_iff. intros [Hin|Hin]; [now apply Hx|]. now apply (H x); [left|].
  - apply IH; auto. intros y Hy1 Hy2. apply (H y); auto.
Qed.

Lemma NoDup_flat_map_buckets (f : list N -> nat) (m : list (list pair)) (o : nat) :
  (forall i, (i < List.length m)%nat ->
     NoDup (map pk (nth i m [])) /\ Forall (fun p => f (pk p) = (o + i)%nat) (nth i m [])) ->
  NoDup (flat_map (map pk) m).
Proof.
  revert o. induction m as [|b m IH]; intros o H; cbn [flat_map]; [constructor|].
  apply NoDup_app_intro.
  - apply (H O). cbn. lia.
  - apply (IH (S o)). intros i Hi. destruct (H (S i)) as [H1 H2]; [cbn; lia|]. split; [exact H1|].
    cbn [nth] in H2. eapply Forall_impl; [|exact H2]. cbn beta. intros; lia.
  - intros k Hk1 Hk2. apply in_map_iff in Hk1 as (p & <- & Hp).
    apply in_flat_map in Hk2 as (b' & Hb' & Hk2). apply in_map_iff in Hk2 as (q & Eq & Hq).
    destruct (H O) as [_ H0]; [cbn; lia|]. cbn [nth] in H0. rewrite Forall_forall in H0.
    specialize (H0 p Hp). cbn beta in H0.
    apply (In_nth _ _ []) in Hb' as (i & Hi & <-).
    destruct (H (S i)) as [_ H1]; [cbn; lia|]. cbn [nth] in H1. rewrite Forall_forall in H1.
    specialize (H1 q Hq). cbn beta in H1. rewrite Eq in H1. lia.
Qed.

Lemma enum_keys m : map fst (sm_enum m) = flat_map (map pk) m.
Proof.
  unfold sm_enum. induction m as [|b m IH]; cbn; [reflexivity|].
  rewrite map_app, IH. f_equal. rewrite map_map. reflexivity.
Qed.

Lemma enum_nodup m : sm_ok m -> NoDup (map fst (sm_enum m)).
Proof.
  intros [Hl Hb]. rewrite enum_keys.
  apply (NoDup_flat_map_buckets (bucket_index m) m 0).
  intros i Hi. destruct (Hb i Hi) as [H1 H2]. split; [exact H1|].
  eapply Forall_impl; [|exact H2]. cbn beta. intros p [Hp _]. lia.
Qed.

Lemma enum_enumerates m : sm_ok m -> enumerates (sm_enum m) (sm_lookup m).
Proof. intros H. split; [now apply enum_nodup|]. intros k v. now apply in_enum. Qed.

Lemma count_enum m : sm_get_count m = List.length (sm_enum m).
Proof.
  unfold sm_get_count, sm_enum.
  assert (G : forall n, fold_left (fun n b => (n + List.length b)%nat) m n =
                (n + List.length (flat_map (fun b => map (fun p => (pk p, pv p)) b) m))%nat).
  { induction m as [|b m IH]; intros n; cbn [fold_left flat_map List.length]; [lia|].
    rewrite IH, app_length, map_length. lia. }
  rewrite G. lia.
Qed.

(** Sequences of operations *)

Lemma props_create_ok : sm_ok props_create.
Proof. apply sm_new_ok. lia. Qed.

Lemma props_run_from ops : forall m sp, sm_ok m -> (forall k, sm_lookup m k = sp k) ->
  exists m', fold_left props_step ops (Ok m) = Ok m' /\ sm_ok m' /\
    forall k, sm_lookup m' k = fold_left pm_step ops sp k.
Proof.
  induction ops as [|[k v|] ops IH]; intros m sp Hok Hsp; cbn [fold_left].
  - exists m. auto.
  - destruct (sm_put_spec m k v Hok) as (m1 & Hp & Hok1 & _ & Hl1).
    cbn [props_step obind]. unfold props_set. rewrite Hp.
    apply IH; [exact Hok1|]. intros k'. rewrite Hl1. cbn [pm_step]. unfold pm_set. rewrite Hsp. reflexivity.
  - cbn [props_step obind]. apply IH; [apply sm_new_ok; lia|].
    intros k. cbn [pm_step]. unfold pm_empty. apply sm_new_lookup.
Qed.

Lemma props_run_spec ops : exists m, props_run ops = Ok m /\ sm_ok m /\
  forall k, sm_lookup m k = pm_run ops k.
Proof.
  unfold props_run, pm_run. apply props_run_from; [apply props_create_ok|].
  intros k. apply sm_new_lookup.
Qed.

Lemma enumerates_ext l m m' : (forall k, m k = m' k) -> enumerates l m -> enumerates l m'.
Proof. intros H [H1 H2]. split; [exact H1|]. intros k v. rewrite H2, H. tauto. Qed.

(** The dictionary API, as one statement about every history. *)
Lemma props_api ops : exists m, props_run ops = Ok m /\
  (forall k, props_get m k = Ok (pm_run ops k)) /\
  (forall k, props_has m k = Ok (match pm_run ops k with Some _ => true | None => false end)) /\
  enumerates (props_enum m) (pm_run ops) /\
  props_count m = List.length (props_enum m).
Proof.
  destruct (props_run_spec ops) as (m & Hr & Hok & Hl). exists m. repeat split.
  - exact Hr.
  - intros k. rewrite props_get_spec by exact Hok. now rewrite Hl.
  - intros k. rewrite props_has_spec by exact Hok. now rewrite Hl.
  - now apply enum_nodup.
  - intros H. rewrite <- Hl. now apply in_enum.
  - intros H. rewrite <- Hl in H. now apply in_enum.
  - unfold props_count, props_enum. apply count_enum.
Qed.
