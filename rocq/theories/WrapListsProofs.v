(** Proofs about the contents of the C++ lists. *)
From Verif Require Import CBase StrMap StrMapProofs Props PropsSpec PropsProofs Num PropsNum Region RegionGeom Formats Handle Lists ListsSpec ListsProofs Wrap WrapSpec WrapProofs WrapLists WrapListsSpec.
Local Open Scope Z_scope.

Ltac bind E a H := match type of E with obind ?m _ = Ok _ => destruct m as [a| | |] eqn:H; cbn [obind] in E; [|discriminate E..] end.

Lemma set_cell_inv {A} (l : list A) : forall i x l', set_cell l i x = Ok l' -> (i < List.length l)%nat /\ l' = update l i x.
Proof.
  intros i x l' E. destruct (Nat.ltb_spec i (List.length l)) as [H|H].
  - rewrite set_cell_ok in E by exact H. injection E as <-. auto.
  - exfalso. clear - E H. revert i l' E H. induction l as [|a l IH]; intros [|i] l' E H; cbn in *; try discriminate; try lia.
    destruct (set_cell l i x) as [r| | |] eqn:F; try discriminate. apply (IH i r F). lia.
Qed.

(** ---- which variables exist ---- *)
Definition there {V} (w : world V) (y : nat) : bool := match nth y (vars w) None with Some _ => true | None => false end.
Definition same_there {V} (w w' : world V) : Prop :=
  List.length (vars w') = List.length (vars w) /\ forall y, there w' y = there w y.
Lemma same_refl {V} (w : world V) : same_there w w.
Proof. split; auto. Qed.
Lemma same_trans {V} (a b c : world V) : same_there a b -> same_there b c -> same_there a c.
Proof. intros (A & B) (C & D). split; [congruence|]. intros y. now rewrite D. Qed.
Lemma same_vars {V} (w w' : world V) : vars w' = vars w -> same_there w w'.
Proof. unfold same_there, there. intros ->. auto. Qed.
Lemma slot_there {V} (w w' : world V) x o : set_slot w x o = Ok w' ->
  (x < List.length (vars w))%nat /\ List.length (vars w') = List.length (vars w) /\
  forall y, there w' y = if Nat.eqb x y then match o with Some _ => true | None => false end else there w y.
Proof.
  intros E. unfold set_slot in E. bind E l H. injection E as <-. apply set_cell_inv in H as (H & ->). cbn [vars]. split; [exact H|].
  split; [apply update_length|]. intros y. unfold there. cbn [vars]. rewrite nth_update by exact H. now destruct (Nat.eqb x y).
Qed.
Lemma put_there {V} (w w' : world V) x o : there w x = true -> put_var w x o = Ok w' -> same_there w w'.
Proof.
  intros T E. apply slot_there in E as (H & L & R). split; [exact L|]. intros y. rewrite R. destruct (Nat.eqb_spec x y) as [<-|]; auto.
Qed.
Lemma var_there {V} (w : world V) x o : var w x = Ok o -> there w x = true.
Proof. unfold var, there. now destruct (nth x (vars w) None). Qed.
Lemma pn_there {V} (w w' : world V) x p : set_pn w x p = Ok w' -> same_there w w'.
Proof. unfold set_pn. intros E. bind E o H. exact (put_there _ _ _ _ (var_there _ _ _ H) E). Qed.
Lemma ptr_there {V} (w w' : world V) x p : set_ptr w x p = Ok w' -> same_there w w'.
Proof. unfold set_ptr. intros E. bind E o H. exact (put_there _ _ _ _ (var_there _ _ _ H) E). Qed.
Lemma counter_there {V} (w w' : world V) c n : set_counter w c n = Ok w' -> same_there w w'.
Proof. unfold set_counter. intros E. bind E l H. injection E as <-. now apply same_vars. Qed.
Lemma acquire_there {V} (w w' : world V) x : acquire w x = Ok w' -> same_there w w'.
Proof.
  unfold acquire. intros E. bind E o H. destruct (o_pn o).
  - bind E n' Hn. exact (counter_there _ _ _ _ E).
  - exact (pn_there _ _ _ _ E).
Qed.
Lemma free_there {V} (w w' : world V) r : free w r = Ok w' -> same_there w w'.
Proof.
  unfold free. intros E. bind E v H. bind E w1 H1. injection E as <-. unfold set_resource in H1. bind H1 l H2. injection H1 as <-. now apply same_vars.
Qed.
Lemma cleanup_there {V} k (w w' : world V) x : cleanup_member k w x = Ok w' -> same_there w w'.
Proof.
  unfold cleanup_member. intros E. bind E o H. destruct (o_ptr o); [injection E as <-; apply same_refl| |discriminate].
  bind E w1 H1. apply free_there in H1. apply (same_trans _ w1); [exact H1|]. destruct k; try exact (ptr_there _ _ _ _ E). injection E as <-. apply same_refl.
Qed.
Lemma release_there {V} k (w w' : world V) x : release k w x = Ok w' -> same_there w w'.
Proof.
  unfold release. intros E. bind E o H. destruct (o_pn o) as [c|]; [|injection E as <-; apply same_refl].
  bind E n Hn. bind E w1 H1. bind E w2 H2. apply counter_there in H1. apply pn_there in E.
  apply (same_trans _ w1); [exact H1|]. apply (same_trans _ w2); [|exact E].
  destruct (n - 1 =? 0); [|injection H2 as <-; apply same_refl]. bind H2 w3 H3. apply cleanup_there in H3. apply counter_there in H2. exact (same_trans _ _ _ H3 H2).
Qed.
Lemma wrap_there {V} k (w w' : world V) x v : wrap k w x (Some v) = Ok w' -> same_there w w' /\ there w x = true.
Proof.
  unfold wrap. intros E. bind E w1 H1. cbn [create] in E. pose proof (release_there _ _ _ _ H1) as S1.
  bind E w2 H2. pose proof (acquire_there _ _ _ H2) as S2. apply ptr_there in E.
  assert (T : there w1 x = true) by (unfold acquire in H2; bind H2 o Ho; exact (var_there _ _ _ Ho)).
  split; [|destruct S1 as (_ & S1); now rewrite <- S1].
  apply (same_trans _ _ _ S1). apply (same_trans _ w2); [|exact E]. exact S2.
Qed.
Lemma unborn_there {V} (w : world V) x u : unborn w x = Ok u -> there w x = false.
Proof. unfold unborn, there. destruct (nth_error (vars w) x) as [[|]|] eqn:E; try discriminate. now rewrite (nth_error_nth _ _ None E). Qed.
Definition comes {V} (w w' : world V) (x : nat) : Prop :=
  List.length (vars w') = List.length (vars w) /\ there w x = false /\ forall y, there w' y = if Nat.eqb x y then true else there w y.
Lemma comes_then {V} (a b c : world V) x : comes a b x -> same_there b c -> comes a c x.
Proof. intros (A & B & C) (D & E). split; [congruence|]. split; [exact B|]. intros y. rewrite E. apply C. Qed.
Lemma put_comes {V} (w w' : world V) x o : there w x = false -> put_var w x o = Ok w' -> comes w w' x.
Proof. intros T E. apply slot_there in E as (H & L & R). split; [exact L|]. split; [exact T|]. exact R. Qed.
Lemma construct_comes {V} k (w w' : world V) x v : construct k w x v = Ok w' -> comes w w' x.
Proof.
  unfold construct. intros E. bind E u H. apply unborn_there in H.
  assert (K : forall p, put_var w x p = Ok w' -> comes w w' x) by (intros p; apply put_comes, H).
  destruct k; try exact (K _ E). bind E w1 H1. apply (put_comes _ _ _ _ H) in H1. apply (comes_then _ _ _ _ H1). exact (proj1 (wrap_there _ _ _ _ _ E)).
Qed.
Lemma construct_list_comes {V} (w w' : world V) x v : construct_list w x v = Ok w' -> comes w w' x.
Proof.
  unfold construct_list. intros E. bind E u H. apply unborn_there in H. cbn [create] in E.
  exact (put_comes (mkWorld (counts w) (resources w ++ [Some v]) (released w) (vars w)) w' x _ H E).
Qed.
Lemma copy_comes {V} (w w' : world V) x y : copy_construct w x y = Ok w' -> comes w w' x /\ there w y = true.
Proof.
  unfold copy_construct. intros E. bind E u H. apply unborn_there in H. bind E o Ho. bind E w1 H1. bind E w2 H2.
  split; [|exact (var_there _ _ _ Ho)]. apply (put_comes _ _ _ _ H) in H1. apply (comes_then _ _ _ _ H1). exact (same_trans _ _ _ (acquire_there _ _ _ H2) (ptr_there _ _ _ _ E)).
Qed.
Lemma move_comes {V} k (w w' : world V) x y : move_construct k w x y = Ok w' -> comes w w' x /\ there w y = true.
Proof.
  assert (G : forall w3 : world V, (_ <- unborn w x ;; o <- var w y ;; w1 <- put_var w x (mkObj (o_pn o) PJunk) ;; w2 <- set_pn w1 y None ;; set_ptr w2 x (o_ptr o)) = Ok w3 ->
    comes w w3 x /\ there w y = true).
  { intros w3 E. bind E u H. apply unborn_there in H. bind E o Ho. bind E w1 H1. bind E w2 H2.
    split; [|exact (var_there _ _ _ Ho)]. apply (put_comes _ _ _ _ H) in H1. apply (comes_then _ _ _ _ H1). exact (same_trans _ _ _ (pn_there _ _ _ _ H2) (ptr_there _ _ _ _ E)). }
  unfold move_construct. destruct k; [| exact (copy_comes w w' x y)| | | | |]; intros E; bind E u H; bind E o Ho; bind E w1 H1; bind E w2 H2; bind E w3 H3;
    specialize (G w3); cbn [obind] in G; rewrite ?Ho in G; cbn [obind] in G; rewrite ?H1 in G; cbn [obind] in G; rewrite ?H2 in G; cbn [obind] in G; rewrite ?H3 in G;
    destruct (G eq_refl) as (C & T); (split; [|exact T]);
    first [injection E as <-; exact C | exact (comes_then _ _ _ _ C (ptr_there _ _ _ _ E))].
Qed.
Lemma assign_there {V} k (w w' : world V) x y : copy_assign k w x y = Ok w' -> same_there w w' /\ there w x = true.
Proof.
  unfold copy_assign. intros E. bind E w1 H1. bind E o Ho. bind E w2 H2. bind E w3 H3. bind E o' Ho'.
  pose proof (release_there _ _ _ _ H1) as S1. split.
  - apply (same_trans _ _ _ S1), (same_trans _ _ _ (pn_there _ _ _ _ H2)), (same_trans _ _ _ (acquire_there _ _ _ H3)), (ptr_there _ _ _ _ E).
  - unfold set_pn in H2. bind H2 q Hq. apply var_there in Hq. destruct S1 as (_ & S1). now rewrite <- S1.
Qed.
Lemma move_assign_there {V} (w w' : world V) x y : move_assign w x y = Ok w' -> same_there w w' /\ there w x = true /\ there w y = true.
Proof.
  unfold move_assign. intros E. bind E a Ha. bind E b Hb. bind E w1 H1. apply var_there in Ha, Hb.
  pose proof (put_there _ _ _ _ Ha H1) as S1. split; [|auto]. apply (same_trans _ _ _ S1). apply (put_there _ _ _ _) with (2 := E). destruct S1 as (_ & S1). now rewrite S1.
Qed.
Lemma destroy_goes {V} k (w w' : world V) x : destroy k w x = Ok w' ->
  List.length (vars w') = List.length (vars w) /\ there w x = true /\ forall y, there w' y = if Nat.eqb x y then false else there w y.
Proof.
  unfold destroy. intros E. bind E w1 H1. pose proof (release_there _ _ _ _ H1) as (L & S1). apply slot_there in E as (H & L' & R). split; [congruence|].
  split; [|intros y; rewrite R, S1; reflexivity]. unfold release in H1. bind H1 o Ho. exact (var_there _ _ _ Ho).
Qed.
Lemma change_there {V} (w w' : world V) x f : change w x f = Ok w' -> same_there w w' /\ there w x = true.
Proof.
  unfold change. intros E. bind E o Ho. apply var_there in Ho. split; [|exact Ho]. destruct (o_ptr o); try discriminate. bind E v Hv. bind E v' Hv'.
  unfold set_resource in E. bind E l Hl. injection E as <-. now apply same_vars.
Qed.

(** ---- the vectors ---- *)
Definition vec_of (v : value (list (option nat))) : list (option nat) := match v with VVal l => l | _ => [] end.
Record tracks (k : class) (w : lworld) (s : lvals) : Prop := {
  t_vectors : List.length (vectors w) = List.length (lists s);
  t_vars : List.length (vars (structs w)) = List.length (lists s);
  t_there : forall x, there (structs w) x = negb (is_unborn (value_of (lists s) x));
  t_vec : forall x, vector w x = vec_of (value_of (lists s) x);
  t_elems : elems w = singles s;
  t_made : made w = count s;
  t_three : k = KImageList -> forall x l, value_of (lists s) x = VVal l -> List.length l = 3%nat
}.
Lemma put_vector_inv w x l w' : put_vector w x l = Ok w' ->
  (x < List.length (vectors w))%nat /\ w' = mkLWorld (structs w) (update (vectors w) x l) (elems w) (made w).
Proof. unfold put_vector. intros E. bind E v H. injection E as <-. apply set_cell_inv in H as (H & ->). auto. Qed.
Lemma put_elem_inv w x l w' : put_elem w x l = Ok w' ->
  (x < List.length (elems w))%nat /\ w' = mkLWorld (structs w) (vectors w) (update (elems w) x l) (made w).
Proof. unfold put_elem. intros E. bind E v H. injection E as <-. apply set_cell_inv in H as (H & ->). auto. Qed.
Lemma with_structs_inv w m w' : with_structs w m = Ok w' -> exists w1, m = Ok w1 /\ w' = mkLWorld w1 (vectors w) (elems w) (made w).
Proof. unfold with_structs. intros E. bind E v H. injection E as <-. eauto. Qed.
Lemma value_set (l : list (value (list (option nat)))) x v y : (x < List.length l)%nat -> value_of (update l x v) y = if Nat.eqb x y then v else value_of l y.
Proof. unfold value_of. apply nth_update. Qed.
Lemma vector_set w x l y : (x < List.length (vectors w))%nat -> vector (mkLWorld (structs w) (update (vectors w) x l) (elems w) (made w)) y = if Nat.eqb x y then l else vector w y.
Proof. unfold vector. cbn [vectors]. apply nth_update. Qed.
Lemma not_unborn_length (l : list (value (list (option nat)))) x : is_unborn (value_of l x) = false -> (x < List.length l)%nat.
Proof. unfold value_of. destruct (Nat.ltb_spec x (List.length l)); [auto|]. rewrite nth_overflow by assumption. discriminate. Qed.

Lemma incoming_from (f : nat -> nat) present : forall b first, (forall i, f (b + i) = first + i)%nat ->
  map (fun p : nat * bool => if snd p then Some (f (fst p)) else None) (combine (seq b (List.length present)) present) = arriving first present.
Proof.
  induction present as [|x p IH]; intros b first H; cbn [List.length seq combine map arriving fst snd]; [reflexivity|].
  rewrite (IH (S b) (S first)).
  - specialize (H 0%nat). rewrite !Nat.add_0_r in H. rewrite H. reflexivity.
  - intros i. specialize (H (S i)). replace (S b + i)%nat with (b + S i)%nat by lia. rewrite H. lia.
Qed.
Lemma incoming_arriving first present : incoming first present = arriving first present.
Proof. unfold incoming. apply (incoming_from (fun i => first + i)%nat). intros i. lia. Qed.
Lemma arriving_length present : forall first, List.length (arriving first present) = List.length present.
Proof. induction present; intros first; cbn; [reflexivity|]. now rewrite IHpresent. Qed.
Lemma take_all_present present : forall first old, List.length old = List.length present -> Forall (fun b => b = true) present ->
  take_all old (arriving first present) = arriving first present.
Proof.
  induction present as [|b p IH]; intros first [|o old] L H; cbn in L; try discriminate; [reflexivity|]. inversion H as [|? ? -> H2]; subst.
  unfold take_all in *. cbn [arriving combine map fst snd take_over]. f_equal. apply IH; [lia|exact H2].
Qed.
Lemma take_all_empty new : forall old, List.length old = List.length new -> Forall (fun e => e = None) old -> take_all old new = new.
Proof.
  induction new as [|b p IH]; intros [|o old] L H; cbn in L; try discriminate; [reflexivity|]. inversion H as [|? ? -> H2]; subst.
  unfold take_all in *. cbn [combine map fst snd]. f_equal; [now destruct b|]. apply IH; [lia|exact H2].
Qed.
Lemma resize_length l n : List.length (resize l n) = n.
Proof. unfold resize. rewrite app_length, firstn_length, repeat_length. lia. Qed.
Lemma Forall_firstn' {A} (P : A -> Prop) l : forall n, Forall P l -> Forall P (firstn n l).
Proof. induction l; intros [|n] H; cbn; try constructor; inversion H; subst; auto. Qed.
Lemma Forall_repeat' {A} (P : A -> Prop) a n : P a -> Forall P (repeat a n).
Proof. intros H. induction n; cbn; constructor; auto. Qed.
Lemma resize_empty l n : Forall (fun e => e = None) l -> Forall (fun e => e = None) (resize l n).
Proof. intros H. unfold resize. apply Forall_app. split; [now apply Forall_firstn'|now apply Forall_repeat']. Qed.
Lemma clear_inv k w x w' : clear_released k w x = Ok w' ->
  exists b : bool, w' = (if b then mkLWorld (structs w) (update (vectors w) x []) (elems w) (made w) else w) /\
    (b = true -> (x < List.length (vectors w))%nat /\ k = KObjectList).
Proof.
  unfold clear_released. intros E. bind E b H. exists b. destruct b; [|injection E as <-; split; [reflexivity|discriminate]].
  apply put_vector_inv in E as (H1 & ->). split; [reflexivity|]. intros _. split; [exact H1|]. unfold cleans in H. bind H o Ho. destruct k; try discriminate. reflexivity.
Qed.

Lemma tracks_store k w s x v w1 : tracks k w s -> (x < List.length (lists s))%nat ->
  List.length (vars w1) = List.length (vars (structs w)) ->
  (forall y, there w1 y = if Nat.eqb x y then negb (is_unborn v) else there (structs w) y) ->
  (k = KImageList -> forall l, v = VVal l -> List.length l = 3%nat) ->
  tracks k (mkLWorld w1 (update (vectors w) x (vec_of v)) (elems w) (made w)) (set_list s x v).
Proof.
  intros T H L R H3. constructor; cbn [vectors structs elems made set_list lists singles count].
  - rewrite !update_length. apply T.
  - rewrite update_length, L. apply T.
  - intros y. rewrite R, value_set by exact H. destruct (Nat.eqb_spec x y); [reflexivity|apply T].
  - intros y. rewrite value_set by exact H. unfold vector. cbn [vectors]. rewrite nth_update by (rewrite (t_vectors _ _ _ T); exact H).
    destruct (Nat.eqb_spec x y); [reflexivity|apply (t_vec _ _ _ T)].
  - apply T.
  - apply T.
  - intros K y l. rewrite value_set by exact H. destruct (Nat.eqb_spec x y); [now apply H3|now apply (t_three _ _ _ T)].
Qed.
Lemma tracks_three k w s y : tracks k w s -> k = KImageList -> forall l, value_of (lists s) y = VVal l -> List.length l = 3%nat.
Proof. intros T K l. now apply (t_three _ _ _ T). Qed.
Lemma tracks_same k w s w1 : tracks k w s -> same_there (structs w) w1 -> tracks k (mkLWorld w1 (vectors w) (elems w) (made w)) s.
Proof. intros T (L & R). constructor; cbn [vectors structs elems made]; try apply T; [now rewrite L; apply T|]. intros x. rewrite R. apply T. Qed.

Lemma class_eqb_eq a b : class_eqb a b = true -> a = b.
Proof. destruct a, b; cbn; congruence. Qed.

Lemma step_tracks k w s o w' s' : is_list k -> tracks k w s -> step_vals k s o = Some s' -> run_lop k w o = Ok w' -> over_empty w o -> tracks k w' s'.
Proof.
  intros Hk T Es Ew G. destruct o; cbn [step_vals run_lop] in *.
  - (* LNew *) destruct (is_free s x) eqn:F; [|discriminate]. injection Es as <-. unfold is_free in F. apply andb_prop in F as (F1 & F2). apply Nat.ltb_lt in F1.
    destruct Hk as [-> | ->]; cbn [list_new] in Ew; bind Ew w1 H1; apply with_structs_inv in H1 as (w2 & H1 & ->); apply put_vector_inv in Ew as (_ & ->); cbn [structs vectors elems made].
    + apply construct_list_comes in H1 as (L & _ & R). apply (tracks_store KImageList w s x (VVal [None; None; None]) w2 T F1 L R). intros _ l E. injection E as <-. reflexivity.
    + apply construct_comes in H1 as (L & _ & R). apply (tracks_store KObjectList w s x (VVal []) w2 T F1 L R). discriminate.
  - (* LSized *) destruct (is_free s x && class_eqb k KObjectList) eqn:F; [|discriminate]. injection Es as <-. unfold is_free in F. apply andb_prop in F as (F & F3). apply andb_prop in F as (F1 & F2). apply Nat.ltb_lt in F1.
    apply class_eqb_eq in F3. subst k. unfold list_sized in Ew. bind Ew w1 H1. apply with_structs_inv in H1 as (w2 & H1 & ->). apply put_vector_inv in Ew as (_ & ->). cbn [structs vectors elems made].
    apply construct_list_comes in H1 as (L & _ & R). apply (tracks_store KObjectList w s x (VVal (repeat None n)) w2 T F1 L R). discriminate.
  - (* LCopy *) destruct (is_free s x && is_value (value_of (lists s) y)) eqn:F; [|discriminate]. injection Es as <-. unfold is_free in F. apply andb_prop in F as (F & F3). apply andb_prop in F as (F1 & F2). apply Nat.ltb_lt in F1.
    unfold list_copy in Ew. bind Ew w1 H1. apply with_structs_inv in H1 as (w2 & H1 & ->). apply put_vector_inv in Ew as (_ & ->). cbn [structs vectors elems made].
    apply copy_comes in H1 as ((L & _ & R) & _).
    change (vector (mkLWorld w2 (vectors w) (elems w) (made w)) y) with (vector w y). rewrite (t_vec _ _ _ T).
    apply (tracks_store k w s x (value_of (lists s) y) w2 T F1 L).
    + intros z. rewrite R. now destruct (value_of (lists s) y).
    + exact (tracks_three k w s y T).
  - (* LMove *) destruct (is_free s x && is_value (value_of (lists s) y)) eqn:F; [|discriminate]. injection Es as <-. unfold is_free in F. apply andb_prop in F as (F & F3). apply andb_prop in F as (F1 & F2). apply Nat.ltb_lt in F1.
    unfold list_move in Ew. bind Ew w1 H1. apply with_structs_inv in H1 as (w2 & H1 & ->). bind Ew w3 H3. apply put_vector_inv in H3 as (Ly & ->). apply put_vector_inv in Ew as (_ & ->). cbn [structs vectors elems made].
    apply move_comes in H1 as ((L & _ & R) & Ty).
    change (vector (mkLWorld w2 (vectors w) (elems w) (made w)) y) with (vector w y). rewrite (t_vec _ _ _ T).
    cbn [structs vectors] in Ly.
    assert (Hne : x <> y). { intros ->. pose proof (t_there _ _ _ T y) as X. rewrite F2 in X. cbn [negb] in X. congruence. }
    rewrite (update_comm (vectors w) y x) by congruence.
    apply (tracks_store k (mkLWorld w2 (update (vectors w) x (vec_of (value_of (lists s) y))) (elems w) (made w)) (set_list s x (value_of (lists s) y)) y VMoved w2).
    + apply (tracks_store k w s x (value_of (lists s) y) w2 T F1 L); [|exact (tracks_three k w s y T)]. intros z. rewrite R. now destruct (value_of (lists s) y).
    + cbn [set_list lists]. rewrite update_length. rewrite <- (t_vectors _ _ _ T). exact Ly.
    + reflexivity.
    + intros z. cbn [structs is_unborn negb]. rewrite R. destruct (Nat.eqb_spec y z) as [<-|]; [|reflexivity]. destruct (Nat.eqb_spec x y); [reflexivity|exact Ty].
    + intros _ l. discriminate.
  - (* LAssign *) destruct (negb (is_unborn (value_of (lists s) x)) && is_value (value_of (lists s) y) && negb (x =? y)%nat) eqn:F; [|discriminate]. injection Es as <-.
    apply andb_prop in F as (F & F3). apply andb_prop in F as (F1 & F2). apply negb_true_iff in F1, F3. apply Nat.eqb_neq in F3. pose proof (not_unborn_length _ _ F1) as Lx.
    unfold list_assign in Ew. bind Ew w1 H1. bind Ew w2 H2. apply with_structs_inv in H2 as (w3 & H2 & ->). apply put_vector_inv in Ew as (_ & ->). cbn [structs vectors elems made].
    apply clear_inv in H1 as (b & -> & Hb).
    assert (V : vector (mkLWorld w3 (vectors (if b then mkLWorld (structs w) (update (vectors w) x []) (elems w) (made w) else w)) (elems w) (made w)) y = vec_of (value_of (lists s) y)).
    { rewrite <- (t_vec _ _ _ T). destruct b; [|reflexivity]. unfold vector. cbn [vectors]. rewrite nth_update by (rewrite (t_vectors _ _ _ T); exact Lx). destruct (Nat.eqb_spec x y); [congruence|reflexivity]. }
    assert (E : mkLWorld w3 (update (vectors (if b then mkLWorld (structs w) (update (vectors w) x []) (elems w) (made w) else w)) x
        (vector (mkLWorld w3 (vectors (if b then mkLWorld (structs w) (update (vectors w) x []) (elems w) (made w) else w)) (elems w) (made w)) y)) (elems w) (made w)
      = mkLWorld w3 (update (vectors w) x (vec_of (value_of (lists s) y))) (elems w) (made w)).
    { rewrite V. destruct b; [|reflexivity]. cbn [vectors]. now rewrite update_update. }
    assert (Q : forall (b : bool) (A : Type) (f : lworld -> A), f (if b then mkLWorld (structs w) (update (vectors w) x []) (elems w) (made w) else w) = if b then f (mkLWorld (structs w) (update (vectors w) x []) (elems w) (made w)) else f w) by (intros []; reflexivity).
    rewrite (Q b _ elems), (Q b _ made). cbn [elems made]. replace (if b then elems w else elems w) with (elems w) by (destruct b; reflexivity). replace (if b then made w else made w) with (made w) by (destruct b; reflexivity).
    rewrite E. rewrite (Q b _ structs) in H2. cbn [structs] in H2. replace (if b then structs w else structs w) with (structs w) in H2 by (destruct b; reflexivity).
    apply assign_there in H2 as ((L & R) & Tx).
    apply (tracks_store k w s x (value_of (lists s) y) w3 T Lx L); [|exact (tracks_three k w s y T)].
    intros z. rewrite R. destruct (Nat.eqb_spec x z) as [<-|]; [|reflexivity]. rewrite Tx. now destruct (value_of (lists s) y).
  - (* LMoveAssign *) destruct (negb (is_unborn (value_of (lists s) x)) && negb (is_unborn (value_of (lists s) y))) eqn:F; [|discriminate]. injection Es as <-.
    apply andb_prop in F as (F1 & F2). apply negb_true_iff in F1, F2. pose proof (not_unborn_length _ _ F1) as Lx. pose proof (not_unborn_length _ _ F2) as Ly.
    unfold list_move_assign in Ew. bind Ew w1 H1. apply with_structs_inv in H1 as (w2 & H1 & ->). cbv zeta in Ew. bind Ew w3 H3. apply put_vector_inv in H3 as (_ & ->). apply put_vector_inv in Ew as (_ & ->). cbn [structs vectors elems made].
    change (vector (mkLWorld w2 (vectors w) (elems w) (made w)) y) with (vector w y). change (vector (mkLWorld w2 (vectors w) (elems w) (made w)) x) with (vector w x).
    rewrite !(t_vec _ _ _ T). apply move_assign_there in H1 as ((L & R) & Tx & Ty).
    apply (tracks_store k (mkLWorld w2 (update (vectors w) x (vec_of (value_of (lists s) y))) (elems w) (made w)) (set_list s x (value_of (lists s) y)) y (value_of (lists s) x) w2).
    + apply (tracks_store k w s x (value_of (lists s) y) w2 T Lx L); [|exact (tracks_three k w s y T)]. intros z. rewrite R, F2. destruct (Nat.eqb_spec x z) as [<-|]; [exact Tx|reflexivity].
    + cbn [set_list lists]. rewrite update_length. exact Ly.
    + reflexivity.
    + intros z. cbn [structs]. rewrite F1. destruct (Nat.eqb_spec y z) as [<-|]; [|reflexivity]. rewrite R. exact Ty.
    + exact (tracks_three k w s x T).
  - (* LDestroy *) destruct (is_unborn (value_of (lists s) x)) eqn:F; [discriminate|]. injection Es as <-. pose proof (not_unborn_length _ _ F) as Lx.
    unfold list_destroy in Ew. bind Ew w1 H1. apply with_structs_inv in H1 as (w2 & H1 & ->). apply put_vector_inv in Ew as (_ & ->). cbn [structs vectors elems made].
    apply destroy_goes in H1 as (L & _ & R). apply (tracks_store k w s x VUnborn w2 T Lx L R). intros _ l. discriminate.
  - (* LGet *) destruct (value_of (lists s) x) as [|l|] eqn:F; try discriminate. destruct ((v <? List.length (singles s))%nat && (i <? List.length l)%nat) eqn:B; [|discriminate]. injection Es as <-.
    apply andb_prop in B as (B1 & B2). apply Nat.ltb_lt in B1, B2. unfold list_get in Ew. bind Ew o Ho. bind Ew e He. apply put_elem_inv in Ew as (_ & ->).
    rewrite (t_vec _ _ _ T), F in He. cbn [vec_of] in He. unfold fetch in He. rewrite (nth_error_nth' l None B2) in He. injection He as <-.
    constructor; cbn [vectors structs elems made set_single lists singles count]; try apply T. now rewrite (t_elems _ _ _ T).
  - (* LSet *) destruct (value_of (lists s) x) as [|l|] eqn:F; try discriminate. destruct ((v <? List.length (singles s))%nat && (i <? List.length l)%nat) eqn:B; [|discriminate]. injection Es as <-.
    apply andb_prop in B as (B1 & B2). apply Nat.ltb_lt in B1, B2. unfold list_set in Ew. bind Ew e He. bind Ew l' Hl. bind Ew w1 H1. apply put_vector_inv in H1 as (Lx & ->). apply with_structs_inv in Ew as (w2 & H2 & ->). cbn [structs vectors elems made] in *.
    apply change_there in H2 as ((L & R) & Tx).
    rewrite (t_vec _ _ _ T), F in Hl. cbn [vec_of] in Hl. apply set_cell_inv in Hl as (_ & ->). rewrite (t_elems _ _ _ T) in He. unfold fetch in He. rewrite (nth_error_nth' (singles s) None B1) in He. injection He as <-.
    rewrite <- (t_elems _ _ _ T). apply (tracks_store k w s x (VVal (update l i (nth v (elems w) None))) w2 T).
    + rewrite <- (t_vectors _ _ _ T). exact Lx.
    + exact L.
    + intros z. rewrite R. destruct (Nat.eqb_spec x z) as [<-|]; [exact Tx|reflexivity].
    + intros K l0 E0. injection E0 as <-. rewrite update_length. exact (t_three _ _ _ T K _ _ F).
  - (* LReceive *)
    assert (Fx : is_unborn (value_of (lists s) x) = false) by (destruct (value_of (lists s) x); [discriminate Es|reflexivity|reflexivity]).
    pose proof (not_unborn_length _ _ Fx) as Lx. unfold list_receive in Ew. bind Ew w1 H1. bind Ew w2 H2. bind Ew old Hold. bind Ew w3 H3. injection Ew as <-.
    apply with_structs_inv in H2 as (w4 & H2 & ->). apply put_vector_inv in H3 as (_ & ->). cbn [structs vectors elems made].
    apply clear_inv in H1 as (b & -> & Hb).
    assert (Lv : (x < List.length (vectors w))%nat) by (rewrite (t_vectors _ _ _ T); exact Lx).
    replace (incoming (made w) present) with (arriving (count s) present) by (now rewrite incoming_arriving, (t_made _ _ _ T)).
    assert (Sw : structs (if b then mkLWorld (structs w) (update (vectors w) x []) (elems w) (made w) else w) = structs w) by (destruct b; reflexivity).
    rewrite Sw in H2. apply wrap_there in H2 as ((L & R) & Tx).
    assert (Gx : fits_over (vector w x) present).
    { apply G. unfold list_show. unfold there in Tx. unfold var. destruct (nth x (vars (structs w)) None); [reflexivity|discriminate]. }
    set (l1 := vector (mkLWorld w4 (vectors (if b then mkLWorld (structs w) (update (vectors w) x []) (elems w) (made w) else w)) (elems (if b then mkLWorld (structs w) (update (vectors w) x []) (elems w) (made w) else w)) (made (if b then mkLWorld (structs w) (update (vectors w) x []) (elems w) (made w) else w))) x) in *.
    assert (El1 : l1 = if b then [] else vector w x).
    { unfold l1. destruct b; unfold vector; cbn [vectors]; [|reflexivity]. rewrite nth_update, Nat.eqb_refl by exact Lv. reflexivity. }
    assert (Eo : List.length old = List.length present /\ (Forall (fun e => e = None) (vector w x) -> Forall (fun e => e = None) old)).
    { destruct Hk as [-> | ->].
      - assert (b = false) by (destruct b; [destruct (Hb eq_refl); discriminate|reflexivity]). subst b.
        destruct (List.length l1 <? CHANNELS)%nat eqn:C; [discriminate|]. injection Hold as <-. rewrite El1. split; [|auto].
        destruct (value_of (lists s) x) as [|l|] eqn:Ev; cbn [class_eqb] in Es; try discriminate. cbn [orb] in Es.
        destruct (List.length present =? 3)%nat eqn:E3; [|discriminate]. apply Nat.eqb_eq in E3. rewrite (t_vec _ _ _ T), Ev. cbn [vec_of]. rewrite (t_three _ _ _ T eq_refl _ _ Ev). congruence.
      - injection Hold as <-. split; [apply resize_length|]. intros HN. apply resize_empty. rewrite El1. destruct b; [constructor|exact HN]. }
    destruct Eo as (Lo & No).
    assert (Et : take_all old (arriving (count s) present) = arriving (count s) present).
    { destruct Gx as [Gx|Gx]; [now apply take_all_present|]. apply take_all_empty; [now rewrite arriving_length|auto]. }
    rewrite Et.
    assert (Es' : s' = mkLVals (update (lists s) x (VVal (arriving (count s) present))) (singles s) (count s + List.length present)).
    { cbv zeta in Es. destruct (match value_of (lists s) x with VUnborn => false | VVal _ => class_eqb k KObjectList || (List.length present =? 3)%nat | VMoved => class_eqb k KObjectList end); [|discriminate]. now injection Es as <-. }
    assert (E3 : k = KImageList -> List.length present = 3%nat).
    { intros ->. destruct (value_of (lists s) x); cbn [class_eqb orb] in Es; try discriminate. destruct (List.length present =? 3)%nat eqn:E3; [|discriminate]. now apply Nat.eqb_eq. }
    assert (K : tracks k (mkLWorld w4 (update (vectors w) x (arriving (count s) present)) (elems w) (made w)) (set_list s x (VVal (arriving (count s) present)))).
    { apply (tracks_store k w s x (VVal (arriving (count s) present)) w4 T Lx L).
      - intros z. rewrite R. destruct (Nat.eqb_spec x z) as [<-|]; [exact Tx|reflexivity].
      - intros K l E0. injection E0 as <-. rewrite arriving_length. auto. }
    subst s'. assert (Q1 : update (vectors (if b then mkLWorld (structs w) (update (vectors w) x []) (elems w) (made w) else w)) x (arriving (count s) present) = update (vectors w) x (arriving (count s) present)).
    { destruct b; [|reflexivity]. cbn [vectors]. apply update_update. }
    rewrite Q1. replace (elems (if b then mkLWorld (structs w) (update (vectors w) x []) (elems w) (made w) else w)) with (elems w) by (destruct b; reflexivity).
    replace (made (if b then mkLWorld (structs w) (update (vectors w) x []) (elems w) (made w) else w)) with (made w) by (destruct b; reflexivity).
    destruct K as [K1 K2 K3 K4 K5 K6 K7]. constructor; cbn [vectors structs elems made set_list lists singles count] in *; try assumption. now rewrite (t_made _ _ _ T).
  - (* LMake *) destruct (v <? List.length (singles s))%nat eqn:B; [|discriminate]. injection Es as <-. unfold elem_make in Ew. bind Ew w1 H1. injection Ew as <-. apply put_elem_inv in H1 as (_ & ->).
    constructor; cbn [vectors structs elems made lists singles count]; try apply T; [now rewrite (t_elems _ _ _ T), (t_made _ _ _ T)|now rewrite (t_made _ _ _ T)].
  - (* LDrop *) destruct (v <? List.length (singles s))%nat eqn:B; [|discriminate]. injection Es as <-. unfold elem_drop in Ew. apply put_elem_inv in Ew as (_ & ->).
    constructor; cbn [vectors structs elems made set_single lists singles count]; try apply T. now rewrite (t_elems _ _ _ T).
Qed.
Lemma begin_tracks k n m : tracks k (begin n m) (begin_vals n m).
Proof.
  unfold begin, begin_vals. constructor; cbn [vectors structs elems made lists singles count start vars].
  - now rewrite !repeat_length.
  - now rewrite !repeat_length.
  - intros x. unfold there, value_of, start. cbn [vars]. now rewrite (nth_repeat_same None), (nth_repeat_same VUnborn).
  - intros x. unfold vector, value_of. cbn [vectors]. now rewrite (nth_repeat_same []), (nth_repeat_same VUnborn).
  - reflexivity.
  - reflexivity.
  - intros _ x l. unfold value_of. rewrite nth_repeat_same. discriminate.
Qed.
Lemma run_tracks k ops : forall w s w' s', is_list k -> tracks k w s -> run_vals k s ops = Some s' -> run_lops k w ops = Ok w' -> throughout over_empty k w ops -> tracks k w' s'.
Proof.
  induction ops as [|o ops IH]; intros w s w' s' Hk T Es Ew G; cbn [run_vals run_lops throughout] in *; [congruence|].
  destruct (step_vals k s o) as [s1|] eqn:E1; [|discriminate]. bind Ew w1 H1. destruct G as (G1 & G2).
  exact (IH w1 s1 w' s' Hk (step_tracks k w s o w1 s1 Hk T E1 H1 G1) Es Ew G2).
Qed.
Lemma tracks_show k w s x l : tracks k w s -> value_of (lists s) x = VVal l -> list_show w x = Ok l.
Proof.
  intros T E. unfold list_show. pose proof (t_there _ _ _ T x) as Tx. rewrite E in Tx. unfold there in Tx. unfold var. destruct (nth x (vars (structs w)) None); [|discriminate].
  cbn [obind]. now rewrite (t_vec _ _ _ T), E.
Qed.
Theorem lists_show k n m ops s w : is_list k -> run_vals k (begin_vals n m) ops = Some s -> run_lops k (begin n m) ops = Ok w ->
  throughout over_empty k (begin n m) ops ->
  (forall x l, value_of (lists s) x = VVal l -> list_show w x = Ok l) /\ elems w = singles s.
Proof.
  intros Hk Es Ew G. pose proof (run_tracks k ops _ _ w s Hk (begin_tracks k n m) Es Ew G) as T. split; [|apply T]. intros x l. apply tracks_show with (1 := T).
Qed.
