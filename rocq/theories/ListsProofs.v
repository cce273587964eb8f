(** Object lists and image lists behave like arrays. *)
From Verif Require Import CBase StrMap Props PropsSpec StrMapProofs PropsProofs Buffer BufferProofs Num Region RegionGeom Image Formats Handle SessionSpec
  HandleProofs HandshakeProofs Lists ListsSpec.
Local Open Scope Z_scope.

(** ---- cells ---- *)
Lemma set_cell_ok {A} (a : list A) : forall i x, (i < List.length a)%nat -> set_cell a i x = Ok (update a i x).
Proof.
  induction a as [|y a IH]; intros i x H; cbn [List.length] in H; [lia|]. destruct i as [|i]; [reflexivity|].
  cbn [set_cell update]. rewrite IH by lia. reflexivity.
Qed.
Lemma put_cell_ok {A} (a : list A) i x : 0 <= i < Z.of_nat (List.length a) -> put_cell a i x = Ok (update a (Z.to_nat i) x).
Proof. intros H. unfold put_cell. replace (i <? 0) with false by lia. apply set_cell_ok. lia. Qed.
Lemma update_length {A} (a : list A) : forall i x, List.length (update a i x) = List.length a.
Proof. induction a as [|y a IH]; intros [|i] x; cbn; try reflexivity. now rewrite IH. Qed.
Lemma update_app {A} (a b : list A) y x : update (a ++ y :: b) (List.length a) x = a ++ x :: b.
Proof. induction a as [|z a IH]; [reflexivity|]. cbn. now rewrite IH. Qed.
Lemma update_same {A} (a : list A) : forall i x, update (update a i x) i x = update a i x.
Proof. induction a as [|y a IH]; intros [|i] x; cbn; try reflexivity. now rewrite IH. Qed.
Lemma update_twice {A} (a : list A) : forall i x y, update (update a i x) i y = update a i y.
Proof. induction a as [|z a IH]; intros [|i] x y; cbn; try reflexivity. now rewrite IH. Qed.
Lemma map_update {A B} (f : A -> B) (a : list A) : forall i x, map f (update a i x) = update (map f a) i (f x).
Proof. induction a as [|y a IH]; intros [|i] x; cbn; try reflexivity. now rewrite IH. Qed.
Lemma nth_update {A} (a : list A) : forall i j x d, (i < List.length a)%nat -> nth j (update a i x) d = if Nat.eqb i j then x else nth j a d.
Proof.
  induction a as [|y a IH]; intros i j x d H; cbn [List.length] in H; [lia|].
  destruct i as [|i], j as [|j]; cbn [update nth Nat.eqb]; try reflexivity. apply IH. lia.
Qed.
Lemma nth_some_length {A} (s : list (option A)) l x : nth l s None = Some x -> (l < List.length s)%nat.
Proof. intros H. destruct (Nat.ltb l (List.length s)) eqn:E; [lia|]. rewrite nth_overflow in H by lia. discriminate. Qed.
Lemma Forall2_update {A B} (R : A -> B -> Prop) a b : Forall2 R a b -> forall i x y, R x y -> Forall2 R (update a i x) (update b i y).
Proof.
  induction 1 as [|u v a b H H' IH]; intros i x y Hxy; [destruct i; constructor|]. destruct i as [|i]; cbn [update]; constructor; auto.
Qed.
Lemma Forall_update {A} (P : A -> Prop) a : Forall P a -> forall i x, P x -> Forall P (update a i x).
Proof. induction 1 as [|u a H H' IH]; intros [|i] x Hx; cbn [update]; constructor; auto. Qed.
Lemma Forall2_nth {A B} (R : A -> B -> Prop) a b : Forall2 R a b -> forall i x y, (i < List.length b)%nat -> R (nth i a x) (nth i b y).
Proof. induction 1 as [|u v a b H H' IH]; intros i x y Hi; cbn [List.length] in Hi; [lia|]. destruct i as [|i]; cbn [nth]; [exact H|apply IH; lia]. Qed.

Lemma whole_clone r : whole r -> region_clone r = Ok r.
Proof.
  destruct r as [code|x y w h|pts|x y w h data]; try reflexivity. intros (Hw & Hh & Hi & Hl).
  unfold region_clone. cbn [type_of convert]. unfold create_mask, int_result. rewrite Hi.
  replace ((0 <? w) && (0 <? h)) with true by lia. cbn [obind].
  rewrite Hl, Nat.leb_refl. cbn [obind]. do 2 f_equal. rewrite <- Hl. apply firstn_all.
Qed.

(** ---- representation ---- *)
Definition dict_rep (c : option props) (x : region * pmap) : Prop := exists p, c = Some p /\ made p /\ forall k, sm_lookup p k = snd x k.
Definition cell_of (x : region * pmap) : option region := Some (fst x).
Definition objects_rep (o : objects) (a : array) : Prop :=
  ol_size o = Z.of_nat (List.length a) /\ ol_regions o = map cell_of a /\ Forall2 dict_rep (ol_props o) a /\ Forall (fun x => whole (fst x)) a.
Definition list_rep (o : option objects) (a : option array) : Prop :=
  match o, a with Some o, Some a => objects_rep o a | None, None => True | _, _ => False end.
Definition lists_rep : lists -> arrays -> Prop := Forall2 list_rep.

Lemma rep_nth m s l a : lists_rep m s -> nth l s None = Some a -> exists o, nth l m None = Some o /\ objects_rep o a.
Proof.
  intros Hr Ha. pose proof (nth_some_length _ _ _ Ha) as Hl. pose proof (Forall2_nth _ _ _ Hr l None None Hl) as H. rewrite Ha in H.
  destruct (nth l m None) as [o|] eqn:E; [|contradiction]. exists o. auto.
Qed.
Lemma rep_list m s l a : lists_rep m s -> nth l s None = Some a -> exists o, the_list m l = Ok o /\ objects_rep o a /\ (l < List.length m)%nat.
Proof.
  intros Hr Ha. destruct (rep_nth m s l a Hr Ha) as (o & E & H). exists o. unfold the_list. rewrite E. split; [reflexivity|]. split; [exact H|].
  now apply nth_some_length in E.
Qed.
Lemma arr_nth s l a : nth l s None = Some a -> arr s l = a.
Proof. unfold arr. now intros ->. Qed.
Lemma rep_cell o a i d : objects_rep o a -> 0 <= i < Z.of_nat (List.length a) -> get_cell (ol_regions o) i = Ok (fst (nth (Z.to_nat i) a d)).
Proof.
  intros (_ & Er & _ & _) Hi. unfold get_cell. replace (i <? 0) with false by lia. rewrite Er.
  rewrite (nth_indep _ None (cell_of d)) by (rewrite map_length; lia). rewrite map_nth. reflexivity.
Qed.
Lemma rep_dict o a i d : objects_rep o a -> 0 <= i < Z.of_nat (List.length a) ->
  exists p, get_cell (ol_props o) i = Ok p /\ made p /\ forall k, sm_lookup p k = snd (nth (Z.to_nat i) a d) k.
Proof.
  intros (_ & _ & Hp & _) Hi. unfold get_cell. replace (i <? 0) with false by lia.
  destruct (Forall2_nth _ _ _ Hp (Z.to_nat i) None d ltac:(lia)) as (p & -> & Hm & Hl). exists p. auto.
Qed.
Lemma rep_whole o a i d : objects_rep o a -> 0 <= i < Z.of_nat (List.length a) -> whole (fst (nth (Z.to_nat i) a d)).
Proof. intros (_ & _ & _ & Hw) Hi. rewrite Forall_forall in Hw. apply Hw. apply nth_In. lia. Qed.

Lemma update_none {A} (l : list A) n x : (List.length l <= n)%nat -> update l n x = l.
Proof. revert n. induction l as [|y l IH]; intros [|n] H; cbn [List.length] in H; cbn; try reflexivity; try lia. now rewrite IH by lia. Qed.

Lemma update_nth {A} (l : list A) : forall n d, update l n (nth n l d) = l.
Proof. induction l as [|y l IH]; intros [|n] d; cbn; try reflexivity. now rewrite IH. Qed.

(** ---- creation ---- *)
Lemma create_loop_ok n : forall i rs ps size, create_loop n (Z.of_nat i) (mkObjects size (repeat (Some (RSpecial 0)) i ++ repeat None n ++ rs) (repeat (Some props_create) i ++ repeat None n ++ ps))
  = Ok (mkObjects size (repeat (Some (RSpecial 0)) (i + n) ++ rs) (repeat (Some props_create) (i + n) ++ ps)).
Proof.
  induction n as [|n IH]; intros i rs ps size; cbn [create_loop].
  - rewrite Nat.add_0_r. reflexivity.
  - cbn [ol_regions ol_props ol_size]. rewrite !put_cell_ok by (rewrite !app_length, !repeat_length; cbn [repeat List.length]; rewrite ?repeat_length; lia).
    cbn [obind]. rewrite Nat2Z.id. cbn [repeat app].
    pose proof (update_app (repeat (Some (RSpecial 0)) i) (repeat None n ++ rs) None (Some (RSpecial 0))) as E1. rewrite repeat_length in E1.
    pose proof (update_app (repeat (Some props_create) i) (repeat None n ++ ps) None (Some props_create)) as E2. rewrite repeat_length in E2.
    rewrite E1, E2. replace (Z.of_nat i + 1) with (Z.of_nat (S i)) by lia.
    assert (K : forall A (x : A) r, repeat x i ++ x :: r = repeat x (S i) ++ r).
    { clear. intros A x r. induction i as [|k IHk]; [reflexivity|]. cbn [repeat app] in *. now rewrite IHk. }
    rewrite !K. rewrite IH. replace (S i + n)%nat with (i + S n)%nat by lia. reflexivity.
Qed.
Lemma resize_nil {A} n : resize (A := A) [] n = repeat None (Z.to_nat n).
Proof. unfold resize. cbn [app]. rewrite <- (repeat_length (@None A) (Z.to_nat n)) at 1. apply firstn_all. Qed.
Lemma create_rep count : 0 <= count <= INT_MAX ->
  exists o, object_list_create count = Ok o /\ objects_rep o (repeat (RSpecial 0, pm_empty) (Z.to_nat count)).
Proof.
  intros Hc. unfold object_list_create. rewrite !resize_nil.
  pose proof (create_loop_ok (Z.to_nat count) 0 [] [] count) as E. cbn [repeat app Nat.add Z.of_nat] in E. rewrite !app_nil_r in E. rewrite E.
  eexists. split; [reflexivity|]. unfold objects_rep. cbn [ol_size ol_regions ol_props]. rewrite repeat_length, Z2Nat.id by lia. split; [reflexivity|].
  generalize (Z.to_nat count). intros n. split; [induction n as [|n IH]; cbn; [reflexivity|now rewrite IH]|]. split.
  - induction n as [|n IH]; cbn; constructor; [|exact IH]. exists props_create. split; [reflexivity|]. split; [apply made_create|]. intros k. apply sm_new_lookup.
  - induction n as [|n IH]; cbn; constructor; [exact I|exact IH].
Qed.

(** ---- release ---- *)
Lemma release_ok o a n : objects_rep o a -> forall i, i + Z.of_nat n = Z.of_nat (List.length a) -> 0 <= i -> release_loop n i o = Ok tt.
Proof.
  intros Hr. induction n as [|n IH]; intros i Hn Hi; cbn [release_loop]; [reflexivity|].
  rewrite (rep_cell o a i (RSpecial 0, pm_empty) Hr) by lia. cbn [obind].
  destruct (rep_dict o a i (RSpecial 0, pm_empty) Hr ltac:(lia)) as (p & -> & _). cbn [obind]. apply IH; lia.
Qed.

(** ---- append ---- *)
Lemma append_loop_ok dst src from a size : dst <> src -> forall todo done s ps,
  (dst < List.length s)%nat ->
  nth dst s None = Some (mkObjects size (map cell_of (a ++ done) ++ repeat None (List.length todo)) (ps ++ repeat None (List.length todo))) ->
  nth src s None = Some from -> objects_rep from (done ++ todo) -> Forall2 dict_rep ps (a ++ done) ->
  exists ps', append_loop (List.length todo) s dst src (Z.of_nat (List.length done)) (Z.of_nat (List.length a)) =
    Ok (update s dst (Some (mkObjects size (map cell_of (a ++ done ++ todo)) ps'))) /\ Forall2 dict_rep ps' (a ++ done ++ todo).
Proof.
  intros Hne. induction todo as [|x todo IH]; intros done s ps Hlen Hd Hs Hr Hps; cbn [List.length append_loop].
  - cbn [List.length repeat] in Hd. rewrite !app_nil_r in Hd. rewrite app_nil_r. exists ps. split; [|exact Hps].
    f_equal. revert dst Hne Hd Hlen. clear. intros dst _ Hd Hlen. revert dst Hd Hlen.
    induction s as [|y s IH]; intros dst Hd Hlen; cbn [List.length] in Hlen; [lia|].
    destruct dst as [|dst]; cbn [nth update] in *; [now rewrite Hd|]. now rewrite <- IH by (assumption || lia).
  - assert (L : Z.of_nat (List.length (done ++ x :: todo)) = Z.of_nat (List.length done) + 1 + Z.of_nat (List.length todo)) by (rewrite app_length; cbn [List.length]; lia).
    assert (N : nth (Z.to_nat (Z.of_nat (List.length done))) (done ++ x :: todo) (RSpecial 0, pm_empty) = x).
    { rewrite Nat2Z.id, app_nth2, Nat.sub_diag by lia. reflexivity. }
    unfold the_list at 1. rewrite Hs. cbn [obind].
    pose proof (rep_whole from _ (Z.of_nat (List.length done)) (RSpecial 0, pm_empty) Hr ltac:(lia)) as Hw. rewrite N in Hw.
    rewrite (rep_cell from _ (Z.of_nat (List.length done)) (RSpecial 0, pm_empty) Hr ltac:(lia)), N. cbn [obind].
    rewrite (whole_clone _ Hw). cbn [obind]. unfold the_list at 1. rewrite Hd. cbn [obind ol_regions ol_size ol_props].
    pose proof (Forall2_length _ _ _ Hps) as Hpl. rewrite app_length in Hpl.
    rewrite put_cell_ok by (rewrite app_length, map_length, app_length, repeat_length; cbn [List.length]; lia). cbn [obind].
    replace (Z.to_nat (Z.of_nat (List.length done) + Z.of_nat (List.length a))) with (List.length (map cell_of (a ++ done))) by (rewrite map_length, app_length; lia).
    cbn [List.length repeat]. rewrite update_app. unfold set_list at 1. rewrite set_cell_ok by exact Hlen. cbn [obind].
    set (s1 := update s dst _). assert (N1 : forall j, nth j s1 None = if Nat.eqb dst j then Some (mkObjects size (map cell_of (a ++ done) ++ Some (fst x) :: repeat None (List.length todo)) (ps ++ None :: repeat None (List.length todo))) else nth j s None).
    { intros j. apply nth_update. exact Hlen. }
    unfold the_list at 1. rewrite N1. replace (Nat.eqb dst src) with false by (symmetry; now apply Nat.eqb_neq). rewrite Hs. cbn [obind].
    destruct (rep_dict from _ (Z.of_nat (List.length done)) (RSpecial 0, pm_empty) Hr ltac:(lia)) as (p & -> & Hm & Hl). rewrite N in Hl. cbn [obind].
    destruct (copy_new p ALL_OVERWRITE Hm (or_intror eq_refl)) as (d & -> & Hsd & Hmd). cbn [obind].
    unfold the_list at 1. rewrite N1, Nat.eqb_refl. cbn [obind ol_regions ol_size ol_props].
    rewrite put_cell_ok by (rewrite app_length; cbn [List.length]; rewrite repeat_length; lia). cbn [obind].
    replace (Z.to_nat (Z.of_nat (List.length done) + Z.of_nat (List.length a))) with (List.length ps) by lia. rewrite update_app.
    unfold set_list at 1. rewrite set_cell_ok by (unfold s1; rewrite update_length; exact Hlen). cbn [obind]. unfold s1. rewrite update_twice.
    set (s2 := update s dst _).
    replace (Z.of_nat (List.length done) + 1) with (Z.of_nat (List.length (done ++ [x]))) by (rewrite app_length; cbn [List.length]; lia).
    destruct (IH (done ++ [x]) s2 (ps ++ [Some d])) as (ps' & E & H).
    + unfold s2. rewrite update_length. exact Hlen.
    + unfold s2. rewrite nth_update, Nat.eqb_refl by exact Hlen. rewrite app_assoc, (map_app _ (a ++ done)), <- !app_assoc. reflexivity.
    + unfold s2. rewrite nth_update by exact Hlen. replace (Nat.eqb dst src) with false by (symmetry; now apply Nat.eqb_neq). exact Hs.
    + now rewrite <- app_assoc.
    + rewrite app_assoc. apply Forall2_app; [exact Hps|]. constructor; [|constructor]. exists d. split; [reflexivity|]. split; [exact Hmd|].
      intros k. rewrite <- Hl. now apply same_props_lookup; [apply made_ok..|].
    + rewrite E. rewrite <- app_assoc. exists ps'. split; [|rewrite <- app_assoc in H; exact H]. unfold s2. now rewrite update_twice.
Qed.
Lemma resize_grow {A} (l : list (option A)) n : (List.length l <= Z.to_nat n)%nat -> resize l n = l ++ repeat None (Z.to_nat n - List.length l).
Proof.
  intros H. unfold resize. rewrite firstn_app. rewrite firstn_all2 by exact H. f_equal.
  assert (K : forall m k, (k <= m)%nat -> firstn k (repeat (@None A) m) = repeat None k).
  { induction m as [|m IH]; intros [|k] Hk; cbn; try reflexivity; [lia|]. now rewrite IH by lia. }
  apply K. lia.
Qed.

(** ---- one operation ---- *)
Lemma lop_ok m s op : lists_rep m s -> proper s op -> exists m', run_lop m op = Ok m' /\ lists_rep m' (step_arrays s op).
Proof.
  intros Hr Hp. destruct op; cbn [run_lop step_arrays proper] in *.
  - destruct (create_rep count Hp) as (o & -> & Ho). cbn [obind]. eexists. split; [reflexivity|]. apply Forall2_app; [exact Hr|]. constructor; [exact Ho|constructor].
  - destruct Hp as (a & Ha). destruct (rep_list m s l a Hr Ha) as (o & E & Ho & Hl). unfold object_list_release. rewrite E. cbn [obind].
    rewrite (proj1 Ho), (release_ok o a _ Ho) by lia. cbn [obind]. unfold set_list. rewrite set_cell_ok by exact Hl.
    eexists. split; [reflexivity|]. now apply Forall2_update.
  - destruct Hp as ((a & Ha) & Hv). destruct (rep_list m s l a Hr Ha) as (o & E & Ho & Hl). unfold object_list_set. rewrite E. cbn [obind].
    rewrite (proj1 Ho), (arr_nth s l a Ha). destruct ((0 <=? index) && _) eqn:B.
    2:{ replace ((index <? 0) || _) with true by lia. exists m. auto. }
    replace ((index <? 0) || _) with false by lia. unfold entry. rewrite (arr_nth s l a Ha).
    rewrite (rep_cell o a index (RSpecial 0, pm_empty) Ho) by lia. cbn [obind].
    destruct Ho as (O1 & O2 & O3 & O4). rewrite O2.
    rewrite put_cell_ok by (rewrite map_length; lia). cbn [obind]. unfold set_list. rewrite set_cell_ok by exact Hl. cbn [obind].
    set (m1 := update m l _).
    assert (V : deref m1 r = Ok (value s r) /\ whole (value s r)).
    { destruct r as [r|l' i']; cbn [deref value]; [auto|]. destruct Hv as ((b & Hb) & Hi & Hne). unfold inside in Hi. unfold entry. rewrite (arr_nth s l' b Hb) in *.
      destruct (rep_list m s l' b Hr Hb) as (o' & E' & Ho' & Hl'). split; [|now apply (rep_whole o' b)].
      unfold the_list, m1. rewrite nth_update by exact Hl. destruct (Nat.eqb l l') eqn:El.
      - apply Nat.eqb_eq in El. subst l'. assert (b = a) by congruence. subst b. assert (i' <> index) by congruence. cbn [obind ol_regions].
        unfold get_cell. replace (i' <? 0) with false by lia. rewrite nth_update by (rewrite map_length; lia).
        replace (Nat.eqb (Z.to_nat index) (Z.to_nat i')) with false by (symmetry; apply Nat.eqb_neq; lia).
        rewrite (nth_indep _ None (cell_of (RSpecial 0, pm_empty))) by (rewrite map_length; lia). rewrite map_nth. reflexivity.
      - unfold the_list in E'. rewrite E'. cbn [obind]. now apply rep_cell. }
    destruct V as (-> & Vw). cbn [obind]. rewrite (whole_clone _ Vw). cbn [obind].
    rewrite put_cell_ok by (rewrite update_length, map_length; lia). cbn [obind]. rewrite set_cell_ok by exact Hl. rewrite update_twice.
    eexists. split; [reflexivity|]. apply Forall2_update; [exact Hr|]. cbn [list_rep]. unfold objects_rep. cbn [ol_size ol_regions ol_props].
    rewrite update_length. split; [reflexivity|]. split; [now rewrite map_update|]. split.
    + destruct (Forall2_nth _ _ _ O3 (Z.to_nat index) None (RSpecial 0, pm_empty) ltac:(lia)) as (p & Ep & Hm & Hk).
      assert (X : ol_props o = update (ol_props o) (Z.to_nat index) (Some p)).
      { rewrite <- Ep. generalize (Z.to_nat index). clear. induction (ol_props o) as [|y l IH]; intros [|n]; cbn; try reflexivity. now rewrite <- IH. }
      rewrite X. apply Forall2_update; [exact O3|]. exists p. auto.
    + now apply Forall_update.
  - destruct Hp as ((a & Ha) & Hi). destruct (rep_list m s l a Hr Ha) as (o & E & Ho & Hl). unfold object_property_set, object_list_properties. rewrite E. cbn [obind].
    unfold inside in Hi. unfold entry. rewrite (arr_nth s l a Ha) in *. rewrite (proj1 Ho). replace ((index <? 0) || _) with false by lia.
    destruct (rep_dict o a index (RSpecial 0, pm_empty) Ho Hi) as (p & -> & Hm & Hk). cbn [obind].
    destruct (made_set p key value Hm) as (p' & -> & Hm' & Hk'). cbn [obind].
    destruct Ho as (O1 & O2 & O3 & O4). pose proof (Forall2_length _ _ _ O3) as Hpl.
    rewrite put_cell_ok by lia. cbn [obind]. unfold set_list. rewrite set_cell_ok by exact Hl. eexists. split; [reflexivity|].
    apply Forall2_update; [exact Hr|]. cbn [list_rep]. unfold objects_rep. cbn [ol_size ol_regions ol_props]. rewrite update_length. split; [reflexivity|]. split.
    + rewrite map_update, O2. cbn [fst cell_of].
      change (cell_of (fst (nth (Z.to_nat index) a (RSpecial 0, pm_empty)), _)) with (cell_of (nth (Z.to_nat index) a (RSpecial 0, pm_empty))).
      rewrite <- (map_nth cell_of). symmetry. apply update_nth.
    + split.
      * apply Forall2_update; [exact O3|]. exists p'. split; [reflexivity|]. split; [exact Hm'|]. intros k. cbn [snd]. rewrite Hk'. unfold pm_set.
        destruct (bytes_eqb key k); [reflexivity|apply Hk].
      * apply Forall_update; [exact O4|]. cbn [fst]. rewrite Forall_forall in O4. apply O4. apply nth_In. lia.
  - destruct Hp as ((a & Ha) & (b & Hb) & Hne & Hsz). rewrite (arr_nth s dst a Ha), (arr_nth s src b Hb) in *.
    destruct (rep_list m s dst a Hr Ha) as (o & E & Ho & Hl). destruct (rep_list m s src b Hr Hb) as (o' & E' & Ho' & Hl').
    unfold object_list_append. rewrite E, E'. cbn [obind]. rewrite (proj1 Ho), (proj1 Ho'). unfold int_result.
    replace (in_int _) with true by (symmetry; unfold in_int, INT_MIN, INT_MAX in *; lia). cbn [obind].
    unfold set_list. rewrite set_cell_ok by exact Hl. cbn [obind].
    destruct Ho as (O1 & O2 & O3 & O4). pose proof (Forall2_length _ _ _ O3) as Hpl.
    rewrite !resize_grow by (rewrite ?O2, ?map_length; lia). rewrite O2, map_length.
    replace (Z.to_nat (Z.of_nat (List.length a) + Z.of_nat (List.length b)) - List.length a)%nat with (List.length b) by lia.
    replace (Z.to_nat (Z.of_nat (List.length a) + Z.of_nat (List.length b)) - List.length (ol_props o))%nat with (List.length b) by lia.
    set (size := Z.of_nat (List.length a) + Z.of_nat (List.length b)). set (m1 := update m dst _).
    assert (N1 : forall j, nth j m1 None = if Nat.eqb dst j then Some (mkObjects size (map cell_of a ++ repeat None (List.length b)) (ol_props o ++ repeat None (List.length b))) else nth j m None).
    { intros j. apply nth_update. exact Hl. }
    assert (S1 : nth src m1 None = Some o').
    { rewrite N1. replace (Nat.eqb dst src) with false by (symmetry; now apply Nat.eqb_neq). unfold the_list in E'. destruct (nth src m None); congruence. }
    unfold the_list. rewrite S1. cbn [obind]. rewrite (proj1 Ho'), Nat2Z.id.
    destruct (append_loop_ok dst src o' a size Hne b [] m1 (ol_props o)) as (ps' & El & H).
    + unfold m1. now rewrite update_length.
    + rewrite N1, Nat.eqb_refl, app_nil_r. reflexivity.
    + exact S1.
    + exact Ho'.
    + now rewrite app_nil_r.
    + cbn [List.length Z.of_nat app] in El, H. rewrite El. cbn [obind snd]. eexists. split; [reflexivity|]. unfold m1. rewrite update_twice.
      apply Forall2_update; [exact Hr|]. cbn [list_rep]. unfold objects_rep. cbn [ol_size ol_regions ol_props]. rewrite app_length. split; [unfold size; lia|].
      split; [reflexivity|]. split; [exact H|]. apply Forall_app. split; [exact O4|apply Ho'].
Qed.

Lemma lops_ok ops : forall m s, lists_rep m s -> all_proper s ops -> exists m', run_lops m ops = Ok m' /\ lists_rep m' (run_arrays s ops).
Proof.
  induction ops as [|op ops IH]; intros m s Hr Hp; cbn [run_lops all_proper] in *; [exists m; auto|].
  destruct Hp as (Hp & Hps). destruct (lop_ok m s op Hr Hp) as (m1 & -> & Hr1). cbn [obind]. exact (IH m1 _ Hr1 Hps).
Qed.
Lemma rep_observes m s : lists_rep m s -> observes m s.
Proof.
  intros Hr l a Ha. destruct (rep_list m s l a Hr Ha) as (o & E & Ho & Hl).
  unfold object_list_count, object_list_get, object_list_properties. rewrite E. cbn [obind]. rewrite (proj1 Ho). split; [reflexivity|].
  unfold entry. rewrite (arr_nth s l a Ha). split; intros i Hi.
  - replace ((i <? 0) || _) with false by lia. rewrite (rep_cell o a i (RSpecial 0, pm_empty) Ho Hi). cbn [obind]. split; [reflexivity|].
    destruct (rep_dict o a i (RSpecial 0, pm_empty) Ho Hi) as (p & -> & Hm & Hk). cbn [obind]. exists p. split; [reflexivity|].
    intros k. rewrite props_get_spec by (now apply made_ok). now rewrite Hk.
  - replace ((i <? 0) || _) with true by lia. auto.
Qed.
Lemma lists_are_arrays ops : all_proper [] ops -> exists m, run_lops [] ops = Ok m /\ observes m (run_arrays [] ops).
Proof.
  intros Hp. destruct (lops_ok ops [] [] ltac:(constructor) Hp) as (m & E & Hr). exists m. split; [exact E|]. now apply rep_observes.
Qed.

(** ---- image lists ---- *)
Definition pointers_rep (l : pointers) (s : channel_state) : Prop :=
  l = [s TRAX_CHANNEL_COLOR; s TRAX_CHANNEL_DEPTH; s TRAX_CHANNEL_IR] /\ forall c, known_channel c = false -> s c = None.
Lemma pointers_get l s c : pointers_rep l s -> image_list_get l c = Ok (s c).
Proof.
  intros (-> & Hn). unfold image_list_get, channel_index.
  destruct (c =? TRAX_CHANNEL_COLOR) eqn:E1; [apply Z.eqb_eq in E1; now subst|].
  destruct (c =? TRAX_CHANNEL_DEPTH) eqn:E2; [apply Z.eqb_eq in E2; now subst|].
  destruct (c =? TRAX_CHANNEL_IR) eqn:E3; [apply Z.eqb_eq in E3; now subst|].
  cbn. symmetry. f_equal. apply Hn. unfold known_channel, TRAX_CHANNEL_COLOR, TRAX_CHANNEL_DEPTH, TRAX_CHANNEL_IR in *. now rewrite E1, E2, E3.
Qed.
Lemma pointers_set l s image c : pointers_rep l s -> exists l', image_list_set l image c = Ok l' /\ pointers_rep l' (step_channels s (ISet image c)).
Proof.
  intros (-> & Hn). unfold image_list_set, channel_index, known_channel, pointers_rep, step_channels.
  destruct (c =? TRAX_CHANNEL_COLOR) eqn:E1; [apply Z.eqb_eq in E1; subst c|];
  [|destruct (c =? TRAX_CHANNEL_DEPTH) eqn:E2; [apply Z.eqb_eq in E2; subst c|]];
  [| |destruct (c =? TRAX_CHANNEL_IR) eqn:E3; [apply Z.eqb_eq in E3; subst c|]].
  1,2,3: eexists; split; [reflexivity|]; split; [reflexivity|]; intros d Hd; cbn [known_channel]; rewrite andb_true_r;
    (destruct (_ =? d) eqn:Ed; [apply Z.eqb_eq in Ed; subst d; discriminate Hd|now apply Hn]).
  eexists. split; [reflexivity|].
  assert (K : known_channel c = false) by (unfold known_channel, TRAX_CHANNEL_COLOR, TRAX_CHANNEL_DEPTH, TRAX_CHANNEL_IR in *; now rewrite E1, E2, E3).
  rewrite K, !andb_false_r. split; [reflexivity|]. intros d Hd. rewrite andb_false_r. now apply Hn.
Qed.
Lemma filter_filter {A} (f g : A -> bool) l : filter f (filter g l) = filter (fun x => g x && f x) l.
Proof. induction l as [|x l IH]; [reflexivity|]. cbn. destruct (g x); cbn; [destruct (f x)|]; now rewrite IH. Qed.
Lemma clear_pointers l : forall live, NoDup (flat_map (fun p => match p with Some i => [i] | None => [] end) l) ->
  (forall i, In (Some i) l -> In i live) ->
  image_list_clear live l = Ok (filter (fun i => negb (existsb (fun p => match p with Some j => Nat.eqb j i | None => false end) l)) live, repeat None (List.length l)).
Proof.
  induction l as [|[i|] l IH]; intros live Hd Hin; cbn [image_list_clear flat_map app] in *.
  - cbn. f_equal. f_equal. clear. induction live as [|x l IH]; cbn; [reflexivity|]. now rewrite <- IH.
  - inversion Hd as [|? ? Hni Hd']; subst. unfold image_release.
    assert (X : existsb (Nat.eqb i) live = true) by (apply existsb_exists; exists i; split; [apply Hin; now left|apply Nat.eqb_refl]).
    rewrite X. cbn [obind]. rewrite IH.
    + cbn [obind fst snd List.length repeat]. do 2 f_equal. rewrite filter_filter. apply filter_ext. intros j. cbn [existsb]. now rewrite negb_orb.
    + exact Hd'.
    + intros j Hj. apply filter_In. split; [apply Hin; now right|]. apply negb_true_iff, Nat.eqb_neq. intros ->. apply Hni.
      apply in_flat_map. exists (Some j). split; [exact Hj|now left].
  - rewrite IH; [|exact Hd|intros j Hj; apply Hin; now right]. cbn [obind fst snd List.length repeat existsb orb]. reflexivity.
Qed.
Lemma pointers_clear live l s : pointers_rep l s -> clearable live s ->
  exists l', image_list_clear live l = Ok (step_live live s IClear, l') /\ pointers_rep l' (step_channels s IClear).
Proof.
  intros (-> & Hn) (Hl & Hd). rewrite clear_pointers.
  - eexists. split; [reflexivity|]. split; reflexivity.
  - pose proof (Hd TRAX_CHANNEL_COLOR TRAX_CHANNEL_DEPTH) as H1. pose proof (Hd TRAX_CHANNEL_COLOR TRAX_CHANNEL_IR) as H2. pose proof (Hd TRAX_CHANNEL_DEPTH TRAX_CHANNEL_IR) as H3.
    cbn [flat_map]. destruct (s TRAX_CHANNEL_COLOR) as [i|], (s TRAX_CHANNEL_DEPTH) as [j|], (s TRAX_CHANNEL_IR) as [k|]; cbn [app];
      repeat constructor; cbn [In]; intros H; repeat (destruct H as [H|H]); try contradiction; subst;
      (discriminate (H1 _ eq_refl eq_refl) || discriminate (H2 _ eq_refl eq_refl) || discriminate (H3 _ eq_refl eq_refl)).
  - intros i [H|[H|[H|[]]]]; now apply Hl in H.
Qed.
Lemma iops_ok ops : forall live l s, pointers_rep l s -> iops_proper live s ops ->
  exists live' l', run_iops (live, l) ops = Ok (live', l') /\ forall c, image_list_get l' c = Ok (run_channels s ops c).
Proof.
  induction ops as [|op ops IH]; intros live l s Hr Hp; cbn [run_iops iops_proper] in *.
  - exists live, l. split; [reflexivity|]. intros c. now apply pointers_get.
  - destruct Hp as (Hc & Hp). destruct op as [image c|]; cbn [run_iop fst snd].
    + destruct (pointers_set l s image c Hr) as (l1 & -> & Hr1). cbn [obind]. exact (IH live l1 _ Hr1 Hp).
    + destruct (pointers_clear live l s Hr (Hc eq_refl)) as (l1 & -> & Hr1). cbn [obind]. exact (IH _ l1 _ Hr1 Hp).
Qed.
Lemma image_lists_are_maps live ops : iops_proper live (fun _ => None) ops ->
  exists live' l', run_iops (live, image_list_create) ops = Ok (live', l') /\ forall c, image_list_get l' c = Ok (run_channels (fun _ => None) ops c).
Proof. intros H. apply iops_ok; [|exact H]. split; reflexivity. Qed.
Lemma sample_lops_proper : all_proper [] sample_lops /\
  map (option_map (map fst)) (run_arrays [] sample_lops) = [None; Some [sample_mask; RSpecial 0; sample_mask; sample_mask]] /\
  snd (entry (run_arrays [] sample_lops) 1 2) (str "id") = Some (str "7") /\ snd (entry (run_arrays [] sample_lops) 1 3) (str "id") = Some (str "8").
Proof.
  split; [|split; [vm_compute; reflexivity|split; vm_compute; reflexivity]].
  assert (W : whole sample_mask) by (cbn; repeat match goal with |- _ /\ _ => split end; reflexivity).
  unfold sample_lops. cbn [all_proper].
  repeat match goal with |- _ /\ _ => split end; try exact I; try exact W; unfold proper, exists_arr, inside;
    repeat match goal with |- _ /\ _ => split end; try exact W; try exact I;
    try (eexists; vm_compute; reflexivity); try discriminate; try (vm_compute; reflexivity); try (vm_compute; discriminate).
Qed.
Lemma sample_iops_proper : iops_proper [7; 8]%nat (fun _ => None) [ISet (Some 7%nat) 1; ISet (Some 8%nat) 4; ISet (Some 9%nat) 3; IClear; ISet (Some 5%nat) 2].
Proof.
  cbn [iops_proper]. repeat match goal with |- _ /\ _ => split end; try discriminate; try exact I. intros _.
  assert (K : forall c, step_channels (step_channels (step_channels (fun _ => None) (ISet (Some 7%nat) 1)) (ISet (Some 8%nat) 4)) (ISet (Some 9%nat) 3) c =
    if 1 =? c then Some 7%nat else if 4 =? c then Some 8%nat else None).
  { intros c. cbn [step_channels]. change (known_channel 1) with true. change (known_channel 4) with true. change (known_channel 3) with false. rewrite !andb_true_r, andb_false_r.
    destruct (4 =? c) eqn:E4; destruct (1 =? c) eqn:E1; try reflexivity; lia. }
  cbn [step_live]. split.
  - intros c i. rewrite K. destruct (1 =? c); [intros E; injection E as <-; cbn; auto|]. destruct (4 =? c); [intros E; injection E as <-; cbn; auto|discriminate].
  - intros c d i. rewrite !K. destruct (1 =? c) eqn:A; destruct (1 =? d) eqn:B; try (intros; lia);
      destruct (4 =? c) eqn:C; destruct (4 =? d) eqn:D; intros; try discriminate; try congruence; lia.
Qed.
