(** Lemmas about the region functions. *)
From Verif Require Import CBase Num Buffer Region RegionGeom Formats Handle Lists ListsSpec ListsProofs WrapProofs RegionApi RegionApiSpec.
Local Open Scope Z_scope.

(** ---- the store ---- *)
Lemma the_ok {A} (l : list (option A)) p a : nth p l None = Some a -> the l p = Ok a.
Proof. intros H. unfold the. now rewrite H. Qed.
Lemma set_floats_ok m p b a : nth p (floats m) None = Some b -> set_floats m p a = Ok (mkHeap (update (floats m) p a) (chars m) (regions m)).
Proof. intros H. unfold set_floats. rewrite (the_ok _ _ _ H). cbn [obind]. rewrite set_cell_ok by (eapply nth_some_length; eauto). reflexivity. Qed.
Lemma set_chars_ok m p b a : nth p (chars m) None = Some b -> set_chars m p a = Ok (mkHeap (floats m) (update (chars m) p a) (regions m)).
Proof. intros H. unfold set_chars. rewrite (the_ok _ _ _ H). cbn [obind]. rewrite set_cell_ok by (eapply nth_some_length; eauto). reflexivity. Qed.
Lemma set_region_ok m p b a : nth p (regions m) None = Some b -> set_region m p a = Ok (mkHeap (floats m) (chars m) (update (regions m) p a)).
Proof. intros H. unfold set_region. rewrite (the_ok _ _ _ H). cbn [obind]. rewrite set_cell_ok by (eapply nth_some_length; eauto). reflexivity. Qed.
Lemma copy_cells_ok {A} (d s : list (option A)) n : List.length s = n -> List.length d = n -> copy_cells d s n = Ok s.
Proof.
  intros Hs Hd. unfold copy_cells. rewrite Hs, Hd, Nat.leb_refl. cbn [andb]. rewrite <- Hs at 1. rewrite firstn_all.
  rewrite skipn_all2 by lia. now rewrite app_nil_r.
Qed.

(** ---- what a region stands for ---- *)
Definition fptrs (c : container) : list nat := match c with CPoly _ xs ys => [xs; ys] | _ => [] end.
Definition cptrs (c : container) : list nat := match c with CMask _ _ _ _ d => [d] | _ => [] end.
Definition stands (fs : list (option (list (option spec_float)))) (cs : list (option (list (option N)))) (c : container) (v : content) : Prop :=
  match c, v with
  | CSpecial a, Special_of b => a = b
  | CRect x y w h, Rectangle_of x' y' w' h' => x = x' /\ y = y' /\ w = w' /\ h = h'
  | CPoly n xs ys, Polygon_of l => n = Z.of_nat (List.length l) /\ xs <> ys /\
      nth xs fs None = Some (map (option_map fst) l) /\ nth ys fs None = Some (map (option_map snd) l)
  | CMask x y w h d, Mask_of x' y' w' h' l => x = x' /\ y = y' /\ w = w' /\ h = h' /\ 0 < w /\ 0 < h /\ w * h <= INT_MAX /\
      Z.of_nat (List.length l) = w * h /\ nth d cs None = Some l
  | _, _ => False
  end.
Lemma stands_frame fs cs fs' cs' c v :
  (forall p, In p (fptrs c) -> nth p fs' None = nth p fs None) -> (forall p, In p (cptrs c) -> nth p cs' None = nth p cs None) ->
  stands fs cs c v -> stands fs' cs' c v.
Proof.
  intros F C. destruct c, v; cbn [stands fptrs cptrs] in *; auto.
  - intros (A & B & X & Y). rewrite (F xs), (F ys) by (cbn; auto). auto.
  - intros (A & B & X & Y & W & H & M & L & D). rewrite (C data) by (cbn; auto). repeat (split; [assumption|]). assumption.
Qed.

(** Every live array belongs to exactly one live region. *)
Definition owned (ps : container -> list nat) {A} (rs : list (option container)) (l : list (option A)) : Prop :=
  (forall p, nth p l None <> None <-> exists h c, nth h rs None = Some c /\ In p (ps c)) /\
  (forall p h h' c c', nth h rs None = Some c -> nth h' rs None = Some c' -> In p (ps c) -> In p (ps c') -> h = h').
Definition inv (m : heap) (s : contents) : Prop :=
  List.length (regions m) = List.length s /\
  (forall h, match nth h (regions m) None, nth h s None with
             | Some c, Some v => stands (floats m) (chars m) c v
             | None, None => True
             | _, _ => False
             end) /\
  owned fptrs (regions m) (floats m) /\ owned cptrs (regions m) (chars m).
Lemma inv_nil : inv no_heap [].
Proof.
  split; [reflexivity|split; [intros [|h]; exact Logic.I|split]];
    (split; [intros p; split; [destruct p; cbn; congruence|intros (h & c & E & _); destruct h; discriminate]|
             intros p h h' c c' E; destruct h; discriminate]).
Qed.
Lemma inv_content m s h v : inv m s -> nth h s None = Some v -> exists c, nth h (regions m) None = Some c /\ stands (floats m) (chars m) c v.
Proof. intros (L & R & _) E. specialize (R h). rewrite E in R. destruct (nth h (regions m) None) as [c|]; [eauto|contradiction]. Qed.

(** ---- ownership ---- *)
Lemma owned_append ps {A} rs (l : list (option A)) c (extra : list A) :
  owned ps rs l -> (forall p, In p (ps c) <-> (List.length l <= p < List.length l + List.length extra)%nat) ->
  owned ps (rs ++ [Some c]) (l ++ map Some extra).
Proof.
  intros (O1 & O2) P. split.
  - intros p. destruct (Nat.ltb_spec p (List.length l)) as [Lt|Ge].
    + rewrite app_nth1 by lia. rewrite O1. split; intros (h & d & E & I').
      * exists h, d. split; [|exact I']. rewrite app_nth1 by (eapply nth_some_length; eauto). exact E.
      * rewrite nth_app_new in E. destruct (Nat.eqb_spec h (List.length rs)) as [->|N].
        -- injection E as <-. apply P in I'. lia.
        -- eauto.
    + rewrite app_nth2 by lia. split.
      * intros H. assert (p - List.length l < List.length extra)%nat.
        { destruct (Nat.ltb_spec (p - List.length l) (List.length extra)) as [X|X]; [exact X|]. rewrite nth_overflow in H by (rewrite map_length; lia). congruence. }
        exists (List.length rs), c. split; [rewrite nth_app_new, Nat.eqb_refl; reflexivity|apply P; lia].
      * intros (h & d & E & I'). rewrite nth_app_new in E. destruct (Nat.eqb_spec h (List.length rs)) as [->|N].
        -- injection E as <-. apply P in I'.
           destruct (nth_in_or_default (p - List.length l) (map Some extra) None) as [X|X].
           ++ apply in_map_iff in X. destruct X as (a & <- & _). discriminate.
           ++ exfalso. assert (Y : nth_error (map Some extra) (p - List.length l) <> None) by (apply nth_error_Some; rewrite map_length; lia).
              destruct (nth_error (map Some extra) (p - List.length l)) eqn:Z; [|congruence].
              rewrite (nth_error_nth _ _ _ Z) in X. subst. apply nth_error_In in Z. apply in_map_iff in Z. destruct Z as (a & Z & _). discriminate.
        -- exfalso. assert (X : nth p l None <> None) by (apply O1; eauto). rewrite nth_overflow in X by lia. congruence.
  - intros p h h' d d' E E' I1 I2. rewrite nth_app_new in E, E'.
    assert (OLD : forall g e, nth g rs None = Some e -> In p (ps e) -> (p < List.length l)%nat).
    { intros g e G J. assert (X : nth p l None <> None) by (apply O1; eauto).
      destruct (Nat.ltb_spec p (List.length l)) as [Y|Y]; [exact Y|]. rewrite nth_overflow in X by lia. congruence. }
    destruct (Nat.eqb_spec h (List.length rs)) as [->|N], (Nat.eqb_spec h' (List.length rs)) as [->|N']; [reflexivity| | |eapply O2; eauto].
    + injection E as <-. apply P in I1. pose proof (OLD _ _ E' I2). lia.
    + injection E' as <-. apply P in I2. pose proof (OLD _ _ E I1). lia.
Qed.
Lemma owned_same ps {A} rs (l : list (option A)) h c c' :
  owned ps rs l -> nth h rs None = Some c -> ps c' = ps c -> owned ps (update rs h (Some c')) l.
Proof.
  intros (O1 & O2) E P. pose proof (nth_some_length _ _ _ E) as L.
  assert (X : forall g d, nth g (update rs h (Some c')) None = Some d -> exists d', nth g rs None = Some d' /\ ps d' = ps d).
  { intros g d. rewrite nth_update by exact L. destruct (Nat.eqb_spec h g) as [<-|N]; [|eauto]. intros G. injection G as <-. exists c. split; congruence. }
  split.
  - intros p. rewrite O1. split.
    + intros (g & d & G & J). destruct (Nat.eqb_spec h g) as [<-|N].
      * exists h, c'. rewrite nth_at by exact L. split; [reflexivity|]. rewrite P. congruence.
      * exists g, d. rewrite nth_update by exact L. destruct (Nat.eqb_spec h g); [congruence|]. auto.
    + intros (g & d & G & J). destruct (X g d G) as (d' & G' & Q). exists g, d'. rewrite Q. auto.
  - intros p g g' d d' G G' J J'. destruct (X _ _ G) as (e & H1 & Q1), (X _ _ G') as (e' & H2 & Q2).
    apply (O2 p g g' e e' H1 H2); [rewrite Q1|rewrite Q2]; assumption.
Qed.
Lemma owned_write ps {A} rs (l : list (option A)) p a b : owned ps rs l -> nth p l None = Some b -> owned ps rs (update l p (Some a)).
Proof.
  intros (O1 & O2) E. split; [|exact O2]. intros q. rewrite <- O1. rewrite nth_update by (eapply nth_some_length; eauto).
  destruct (Nat.eqb_spec p q) as [<-|N]; [|reflexivity]. rewrite E. split; congruence.
Qed.
(** Releasing region [h] with exactly its arrays *)
Lemma owned_release ps {A} rs (l l' : list (option A)) h c :
  owned ps rs l -> nth h rs None = Some c ->
  (forall p, In p (ps c) -> nth p l' None = None) -> (forall p, ~ In p (ps c) -> nth p l' None = nth p l None) ->
  owned ps (update rs h None) l'.
Proof.
  intros (O1 & O2) E D K. pose proof (nth_some_length _ _ _ E) as L. split.
  - intros p. split.
    + intros H. assert (NI : ~ In p (ps c)) by (intros J; rewrite (D p J) in H; congruence).
      rewrite (K p NI) in H. apply O1 in H. destruct H as (g & d & G & J). exists g, d. split; [|exact J].
      rewrite nth_update by exact L. destruct (Nat.eqb_spec h g) as [<-|N]; [|exact G]. rewrite E in G. injection G as <-. contradiction.
    + intros (g & d & G & J). rewrite nth_update in G by exact L. destruct (Nat.eqb_spec h g) as [<-|N]; [discriminate|].
      assert (NI : ~ In p (ps c)) by (intros J'; apply N; exact (O2 p h g c d E G J' J)).
      rewrite (K p NI). apply O1. eauto.
  - intros p g g' d d' G G' J J'. rewrite nth_update in G, G' by exact L.
    destruct (Nat.eqb h g), (Nat.eqb h g'); try discriminate. eapply O2; eauto.
Qed.

(** ---- adding a region ---- *)
Lemma nth_app_old {A} (l : list (option A)) e p : nth p l None <> None -> nth p (l ++ e) None = nth p l None.
Proof. intros H. apply app_nth1. destruct (Nat.ltb_spec p (List.length l)) as [L|L]; [exact L|]. rewrite nth_overflow in H by lia. congruence. Qed.
Lemma inv_add m s c v (ef : list (list (option spec_float))) (ec : list (list (option N))) :
  inv m s ->
  (forall p, In p (fptrs c) <-> (List.length (floats m) <= p < List.length (floats m) + List.length ef)%nat) ->
  (forall p, In p (cptrs c) <-> (List.length (chars m) <= p < List.length (chars m) + List.length ec)%nat) ->
  stands (floats m ++ map Some ef) (chars m ++ map Some ec) c v ->
  inv (mkHeap (floats m ++ map Some ef) (chars m ++ map Some ec) (regions m ++ [Some c])) (s ++ [Some v]).
Proof.
  intros (L & R & OF & OC) PF PC ST. split; [cbn; rewrite !app_length; cbn; lia|split; [|split]]; cbn [regions floats chars].
  - intros h. rewrite !nth_app_new, L. destruct (Nat.eqb h (List.length s)); [exact ST|]. specialize (R h).
    destruct (nth h (regions m) None) as [d|] eqn:E, (nth h s None) as [u|]; try exact R.
    eapply stands_frame; [| |exact R]; intros p J; apply nth_app_old; [apply (proj1 OF)|apply (proj1 OC)]; eauto.
  - apply owned_append; assumption.
  - apply owned_append; assumption.
Qed.
(** changing one region in place *)
Lemma inv_put m s h c c' v fs' cs' :
  inv m s -> nth h (regions m) None = Some c -> fptrs c' = fptrs c -> cptrs c' = cptrs c ->
  owned fptrs (regions m) fs' -> owned cptrs (regions m) cs' ->
  (forall p, ~ In p (fptrs c) -> nth p fs' None = nth p (floats m) None) -> (forall p, ~ In p (cptrs c) -> nth p cs' None = nth p (chars m) None) ->
  stands fs' cs' c' v -> inv (mkHeap fs' cs' (update (regions m) h (Some c'))) (update s h (Some v)).
Proof.
  intros (L & R & OF & OC) E PF PC OF' OC' KF KC ST. pose proof (nth_some_length _ _ _ E) as Lh.
  split; [cbn; now rewrite !update_length|split; [|split]]; cbn [regions floats chars].
  - intros g. rewrite !nth_update by lia. destruct (Nat.eqb_spec h g) as [<-|N]; [exact ST|]. specialize (R g).
    destruct (nth g (regions m) None) as [d|] eqn:G, (nth g s None) as [u|]; try exact R.
    eapply stands_frame; [| |exact R]; intros p J; [apply KF|apply KC]; intros J'; apply N.
    + exact (proj2 OF p h g c d E G J' J).
    + exact (proj2 OC p h g c d E G J' J).
  - eapply owned_same; eauto.
  - eapply owned_same; eauto.
Qed.
Lemma heap_eta m : mkHeap (floats m) (chars m) (regions m) = m. Proof. now destruct m. Qed.
Lemma update_self {A} (l : list (option A)) h c : nth h l None = Some c -> update l h (Some c) = l.
Proof. intros <-. apply update_nth. Qed.
Lemma inv_drop m s h c fs' cs' :
  inv m s -> nth h (regions m) None = Some c ->
  (forall p, In p (fptrs c) -> nth p fs' None = None) -> (forall p, ~ In p (fptrs c) -> nth p fs' None = nth p (floats m) None) ->
  (forall p, In p (cptrs c) -> nth p cs' None = None) -> (forall p, ~ In p (cptrs c) -> nth p cs' None = nth p (chars m) None) ->
  inv (mkHeap fs' cs' (update (regions m) h None)) (update s h None).
Proof.
  intros (L & R & OF & OC) E DF KF DC KC. pose proof (nth_some_length _ _ _ E) as Lh.
  split; [cbn; now rewrite !update_length|split; [|split]]; cbn [regions floats chars].
  - intros g. rewrite !nth_update by lia. destruct (Nat.eqb_spec h g) as [<-|N]; [exact Logic.I|]. specialize (R g).
    destruct (nth g (regions m) None) as [d|] eqn:G, (nth g s None) as [u|]; try exact R.
    eapply stands_frame; [| |exact R]; intros p J; [apply KF|apply KC]; intros J'; apply N.
    + exact (proj2 OF p h g c d E G J' J).
    + exact (proj2 OC p h g c d E G J' J).
  - eapply owned_release; eauto.
  - eapply owned_release; eauto.
Qed.

(** ---- the calls ---- *)
Lemma map_none {A B} (f : A -> B) n : map (option_map f) (repeat None n) = repeat None n.
Proof. induction n; cbn; congruence. Qed.
Lemma floats_two (l : list (option (list (option spec_float)))) a b : (l ++ [Some a]) ++ [Some b] = l ++ map Some [a; b].
Proof. now rewrite <- app_assoc. Qed.
Lemma two_new {A} (l : list (option A)) a b :
  nth (List.length l) (l ++ [Some a; Some b]) None = Some a /\ nth (S (List.length l)) (l ++ [Some a; Some b]) None = Some b.
Proof. rewrite !app_nth2 by lia. rewrite Nat.sub_diag. replace (S (List.length l) - List.length l)%nat with 1%nat by lia. auto. Qed.

Lemma add_plain m s c v : inv m s -> fptrs c = [] -> cptrs c = [] -> stands (floats m) (chars m) c v ->
  inv (mkHeap (floats m) (chars m) (regions m ++ [Some c])) (s ++ [Some v]).
Proof.
  intros H F C ST. pose proof (inv_add m s c v [] []) as X. cbn [map] in X. rewrite !app_nil_r in X.
  apply X; [exact H| | |exact ST]; intros p; rewrite ?F, ?C; cbn; lia.
Qed.
Lemma add_poly m s l : inv m s ->
  inv (mkHeap (floats m ++ [Some (map (option_map fst) l); Some (map (option_map snd) l)]) (chars m)
         (regions m ++ [Some (CPoly (Z.of_nat (List.length l)) (List.length (floats m)) (S (List.length (floats m))))])) (s ++ [Some (Polygon_of l)]).
Proof.
  intros H. pose proof (inv_add m s (CPoly (Z.of_nat (List.length l)) (List.length (floats m)) (S (List.length (floats m)))) (Polygon_of l)
    [map (option_map fst) l; map (option_map snd) l] []) as X. cbn [map] in X. rewrite app_nil_r in X.
  apply X; [exact H| | |].
  - intros p. cbn. lia.
  - intros p. cbn. lia.
  - cbn [stands]. destruct (two_new (floats m) (map (option_map fst) l) (map (option_map snd) l)) as (A & B).
    split; [reflexivity|split; [lia|split; [exact A|exact B]]].
Qed.
Lemma add_mask m s x y w h l : inv m s -> 0 < w -> 0 < h -> w * h <= INT_MAX -> Z.of_nat (List.length l) = w * h ->
  inv (mkHeap (floats m) (chars m ++ [Some l]) (regions m ++ [Some (CMask x y w h (List.length (chars m)))])) (s ++ [Some (Mask_of x y w h l)]).
Proof.
  intros H Hw Hh M L. pose proof (inv_add m s (CMask x y w h (List.length (chars m))) (Mask_of x y w h l) [] [l]) as X. cbn [map] in X.
  rewrite app_nil_r in X. apply X; [exact H| | |].
  - intros p. cbn. lia.
  - intros p. cbn. lia.
  - cbn [stands]. repeat (split; [first [reflexivity|assumption]|]). rewrite nth_app_new, Nat.eqb_refl. reflexivity.
Qed.
Lemma int_ok z : 0 <= z <= INT_MAX -> int_result z = Ok z.
Proof. intros H. unfold int_result. replace (in_int z) with true by (unfold in_int, INT_MIN, INT_MAX in *; lia). reflexivity. Qed.

Lemma length_map_points {B} (f : spec_float * spec_float -> B) l : List.length (map (option_map f) l) = List.length l.
Proof. apply map_length. Qed.
Lemma clone_points_ok m l xs ys : nth xs (floats m) None = Some (map (option_map fst) l) -> nth ys (floats m) None = Some (map (option_map snd) l) ->
  clone_points m (Z.of_nat (List.length l)) xs ys =
  Ok (List.length (floats m), S (List.length (floats m)),
      mkHeap (floats m ++ [Some (map (option_map fst) l); Some (map (option_map snd) l)]) (chars m) (regions m)).
Proof.
  intros X Y. unfold clone_points, new_floats. cbv zeta beta. cbn [floats chars regions].
  set (z := repeat (Some (S754_zero false)) (Z.to_nat (Z.of_nat (List.length l)))).
  assert (Lz : List.length z = List.length l) by (unfold z; rewrite repeat_length; lia).
  clearbody z. rewrite app_length. cbn [List.length]. replace (List.length (floats m) + 1)%nat with (S (List.length (floats m))) by lia.
  rewrite <- app_assoc. cbn [app]. set (f := floats m) in *. set (n := List.length f).
  destruct (two_new f z z) as (A & B). fold n in A, B.
  assert (Lx : (xs < n)%nat) by (eapply nth_some_length; eauto). assert (Ly : (ys < n)%nat) by (eapply nth_some_length; eauto).
  rewrite (the_ok (f ++ [Some z; Some z]) xs (map (option_map fst) l)) by (rewrite app_nth1 by (fold n; lia); exact X). cbn [obind].
  rewrite (the_ok _ _ _ A). cbn [obind]. rewrite copy_cells_ok by (rewrite ?map_length; lia). cbn [obind].
  erewrite set_floats_ok by (cbn [floats]; exact A). cbn [obind floats chars regions].
  assert (U : update (f ++ [Some z; Some z]) n (Some (map (option_map fst) l)) = f ++ [Some (map (option_map fst) l); Some z]).
  { unfold n. apply (update_app f [Some z] (Some z)). }
  rewrite U. destruct (two_new f (map (option_map fst) l) z) as (A' & B'). fold n in A', B'.
  rewrite (the_ok (f ++ [Some (map (option_map fst) l); Some z]) ys (map (option_map snd) l)) by (rewrite app_nth1 by (fold n; lia); exact Y).
  cbn [obind]. rewrite (the_ok _ _ _ B'). cbn [obind]. rewrite copy_cells_ok by (rewrite ?map_length; lia). cbn [obind].
  erewrite set_floats_ok by (cbn [floats]; exact B'). cbn [obind floats chars regions].
  do 2 f_equal. f_equal. replace (S n) with (List.length (f ++ [Some (map (option_map fst) l)])) by (rewrite app_length; cbn; unfold n; lia).
  change (f ++ [Some (map (option_map fst) l); Some z]) with (f ++ [Some (map (option_map fst) l)] ++ [Some z]).
  rewrite app_assoc, update_app, <- app_assoc. reflexivity.
Qed.

Lemma set_point_ok m s h l i x y : inv m s -> nth h s None = Some (Polygon_of l) -> 0 <= i < Z.of_nat (List.length l) ->
  exists m', set_point m h i x y = Ok m' /\ inv m' (update s h (Some (Polygon_of (update l (Z.to_nat i) (Some (x, y)))))).
Proof.
  intros H E Hi. destruct (inv_content m s h _ H E) as (c & C & ST). destruct c as [| |n xs ys|]; try contradiction.
  destruct ST as (-> & D & X & Y). unfold set_point. rewrite (the_ok _ _ _ C). cbn [obind].
  replace ((0 <=? i) || (i <? Z.of_nat (List.length l))) with true by lia.
  rewrite (the_ok _ _ _ X). cbn [obind]. rewrite put_cell_ok by (rewrite map_length; lia). cbn [obind].
  erewrite set_floats_ok by exact X. cbn [obind floats].
  assert (Y' : nth ys (update (floats m) xs (Some (update (map (option_map fst) l) (Z.to_nat i) (Some x)))) None = Some (map (option_map snd) l)).
  { rewrite nth_update by (eapply nth_some_length; eauto). destruct (Nat.eqb_spec xs ys); [contradiction|exact Y]. }
  rewrite (the_ok _ _ _ Y'). cbn [obind]. rewrite put_cell_ok by (rewrite map_length; lia). cbn [obind].
  erewrite set_floats_ok by (cbn [floats]; exact Y'). cbn [floats chars regions]. eexists. split; [reflexivity|].
  set (ax := update (map (option_map fst) l) (Z.to_nat i) (Some x)) in *. set (ay := update (map (option_map snd) l) (Z.to_nat i) (Some y)).
  pose proof (nth_some_length _ _ _ X) as Lx. pose proof (nth_some_length _ _ _ Y) as Ly.
  pose proof (inv_put m s h (CPoly (Z.of_nat (List.length l)) xs ys) (CPoly (Z.of_nat (List.length l)) xs ys)
    (Polygon_of (update l (Z.to_nat i) (Some (x, y)))) (update (update (floats m) xs (Some ax)) ys (Some ay)) (chars m) H C eq_refl eq_refl) as P.
  rewrite (update_self _ _ _ C) in P. destruct H as (L & R & OF & OC). apply P.
  - eapply owned_write; [eapply owned_write; [exact OF|exact X]|exact Y'].
  - exact OC.
  - intros p N. cbn [fptrs In] in N. rewrite nth_update by (rewrite update_length; exact Ly). rewrite nth_update by exact Lx.
    destruct (Nat.eqb_spec ys p); [tauto|]. destruct (Nat.eqb_spec xs p); [tauto|]. reflexivity.
  - reflexivity.
  - cbn [stands]. split; [now rewrite update_length|split; [exact D|split]].
    + rewrite nth_update by (rewrite update_length; exact Ly). destruct (Nat.eqb_spec ys xs); [congruence|].
      rewrite nth_at by exact Lx. now rewrite map_update.
    + rewrite nth_at by (rewrite update_length; exact Ly). now rewrite map_update.
Qed.
Lemma row_column w h i j : 0 <= i < h -> 0 <= j < w -> 0 <= i * w + j < w * h /\ 0 <= w * i <= w * h.
Proof. intros. assert ((i + 1) * w <= h * w) by (apply Z.mul_le_mono_nonneg_r; lia). assert (0 <= i * w) by (apply Z.mul_nonneg_nonneg; lia). nia. Qed.
Lemma mask_row_ok m h x y w hh d i : nth h (regions m) None = Some (CMask x y w hh d) -> 0 < w -> 0 <= i < hh -> w * hh <= INT_MAX ->
  mask_row m h i = Ok (d, w * i).
Proof.
  intros C Hw Hi M. unfold mask_row. rewrite (the_ok _ _ _ C). cbn [obind]. replace ((0 <=? i) && (i <? hh)) with true by lia.
  destruct (row_column w hh i 0 Hi) as (_ & B); [lia|]. rewrite int_ok by lia. reflexivity.
Qed.
Lemma write_pixel_ok m s h x y w hh l i j v : inv m s -> nth h s None = Some (Mask_of x y w hh l) -> 0 <= i < hh -> 0 <= j < w ->
  exists m', write_pixel m h i j v = Ok m' /\ inv m' (update s h (Some (Mask_of x y w hh (update l (Z.to_nat (i * w + j)) (Some v))))).
Proof.
  intros H E Hi Hj. destruct (inv_content m s h _ H E) as (c & C & ST). destruct c as [| | |x' y' w' h' d]; try contradiction.
  destruct ST as (-> & -> & -> & -> & Hw & Hh & M & L & D). unfold write_pixel. rewrite (mask_row_ok _ _ _ _ _ _ _ _ C Hw Hi M). cbn [obind].
  destruct (row_column w hh i j Hi Hj) as (B & _).
  rewrite (the_ok _ _ _ D). cbn [obind]. replace (w * i + j) with (i * w + j) by ring. rewrite put_cell_ok by lia. cbn [obind].
  erewrite set_chars_ok by exact D. eexists. split; [reflexivity|].
  set (a := update l (Z.to_nat (i * w + j)) (Some v)).
  pose proof (inv_put m s h (CMask x y w hh d) (CMask x y w hh d) (Mask_of x y w hh a) (floats m) (update (chars m) d (Some a)) H C eq_refl eq_refl) as P.
  rewrite (update_self _ _ _ C) in P. pose proof (nth_some_length _ _ _ D) as Ld. destruct H as (_ & R & OF & OC). apply P.
  - exact OF.
  - eapply owned_write; [exact OC|exact D].
  - reflexivity.
  - intros p N. cbn [cptrs In] in N. rewrite nth_update by exact Ld. destruct (Nat.eqb_spec d p); [tauto|reflexivity].
  - cbn [stands]. repeat (split; [first [reflexivity|assumption]|]). split; [unfold a; now rewrite update_length|]. apply nth_at. exact Ld.
Qed.
Lemma release_ok m s h v : inv m s -> nth h s None = Some v -> exists m', release m h = Ok m' /\ inv m' (update s h None).
Proof.
  intros H E. destruct (inv_content m s h _ H E) as (c & C & ST). unfold release. rewrite (the_ok _ _ _ C). cbn [obind].
  destruct c as [code|x y w hh|n xs ys|x y w hh d].
  - cbn [obind]. erewrite set_region_ok by exact C. eexists. split; [reflexivity|]. eapply inv_drop; try exact C; try exact H; cbn; tauto.
  - cbn [obind]. erewrite set_region_ok by exact C. eexists. split; [reflexivity|]. eapply inv_drop; try exact C; try exact H; cbn; tauto.
  - destruct v as [| |l|]; try contradiction. destruct ST as (_ & D & X & Y).
    pose proof (nth_some_length _ _ _ X) as Lx. pose proof (nth_some_length _ _ _ Y) as Ly.
    erewrite set_floats_ok by exact X. cbn [obind].
    assert (Y' : nth ys (update (floats m) xs None) None = Some (map (option_map snd) l)).
    { rewrite nth_update by exact Lx. destruct (Nat.eqb_spec xs ys); [contradiction|exact Y]. }
    erewrite set_floats_ok by (cbn [floats]; exact Y'). cbn [obind floats chars regions].
    erewrite set_region_ok by (cbn [regions]; exact C). cbn [floats chars regions]. eexists. split; [reflexivity|].
    eapply inv_drop; try exact C; try exact H; cbn [fptrs cptrs In]; try tauto; intros p Q;
      rewrite nth_update by (rewrite update_length; exact Ly); rewrite nth_update by exact Lx;
      destruct (Nat.eqb_spec ys p); try tauto; destruct (Nat.eqb_spec xs p); try tauto.
  - destruct v as [| | |x' y' w' h' l]; try contradiction. destruct ST as (_ & _ & _ & _ & _ & _ & _ & _ & D).
    pose proof (nth_some_length _ _ _ D) as Ld. erewrite set_chars_ok by exact D. cbn [obind].
    erewrite set_region_ok by (cbn [regions]; exact C). cbn [floats chars regions]. eexists. split; [reflexivity|].
    eapply inv_drop; try exact C; try exact H; cbn [fptrs cptrs In]; try tauto; intros p Q;
      rewrite nth_update by exact Ld; destruct (Nat.eqb_spec d p); try tauto.
Qed.
Lemma set_in_place m s h c c' v : inv m s -> nth h (regions m) None = Some c -> fptrs c = [] -> cptrs c = [] -> fptrs c' = [] -> cptrs c' = [] ->
  stands (floats m) (chars m) c' v -> set_region m h (Some c') = Ok (mkHeap (floats m) (chars m) (update (regions m) h (Some c'))) /\
  inv (mkHeap (floats m) (chars m) (update (regions m) h (Some c'))) (update s h (Some v)).
Proof.
  intros H C F1 C1 F2 C2 ST. split; [eapply set_region_ok; exact C|]. pose proof H as (_ & _ & OF & OC).
  eapply inv_put; try exact H; try exact C; try congruence; try assumption; reflexivity.
Qed.
Lemma clone_ok m s h v : inv m s -> nth h s None = Some v -> exists m', clone m h = Ok (List.length s, m') /\ inv m' (s ++ [Some v]).
Proof.
  intros H E. destruct (inv_content m s h _ H E) as (c & C & ST). unfold clone. rewrite (the_ok _ _ _ C). cbn [obind].
  pose proof (proj1 H) as L.
  destruct c as [code|x y w hh|n xs ys|x y w hh d].
  - unfold create_special, new_region. rewrite L. eexists. split; [reflexivity|]. apply add_plain; auto.
  - unfold new_region. rewrite L. eexists. split; [reflexivity|]. apply add_plain; auto.
  - destruct v as [| |l|]; try contradiction. destruct ST as (-> & D & X & Y).
    rewrite (clone_points_ok m l xs ys X Y). cbn [obind]. unfold new_region. cbn [regions floats chars]. rewrite L. eexists. split; [reflexivity|].
    apply add_poly. exact H.
  - destruct v as [| | |x' y' w' h' l]; try contradiction. destruct ST as (-> & -> & -> & -> & Hw & Hh & M & Ll & D).
    unfold create_mask_region. replace ((0 <? w') && (0 <? h')) with true by lia. unfold new_chars, new_region. cbn [floats chars regions].
    set (u := repeat None (Z.to_nat (w' * h'))). assert (Lu : List.length u = List.length l) by (unfold u; rewrite repeat_length; lia). clearbody u.
    cbn [obind regions floats chars]. rewrite (the_ok _ _ (CMask x' y' w' h' (List.length (chars m)))) by (rewrite nth_app_new, Nat.eqb_refl; reflexivity).
    cbn [obind]. rewrite int_ok by lia. cbn [obind].
    rewrite (the_ok _ d l) by (rewrite nth_app_old by congruence; exact D). cbn [obind].
    assert (N : nth (List.length (chars m)) (chars m ++ [Some u]) None = Some u) by (rewrite nth_app_new, Nat.eqb_refl; reflexivity).
    rewrite (the_ok _ _ _ N). cbn [obind]. rewrite copy_cells_ok by lia. cbn [obind]. erewrite set_chars_ok by (cbn [chars]; exact N).
    cbn [obind floats chars regions]. rewrite L. eexists. split; [reflexivity|].
    rewrite (update_app (chars m) [] (Some u)). apply add_mask; assumption.
Qed.

Lemma get_point_ok m s h l i x y : inv m s -> nth h s None = Some (Polygon_of l) -> 0 <= i -> nth_error l (Z.to_nat i) = Some (Some (x, y)) ->
  get_point m h i = Ok (x, y).
Proof.
  intros H E Hi Hn. destruct (inv_content m s h _ H E) as (c & C & ST). destruct c as [| |n xs ys|]; try contradiction.
  destruct ST as (-> & D & X & Y). unfold get_point. rewrite (the_ok _ _ _ C). cbn [obind].
  replace (0 <=? i) with true by lia. cbn [orb]. rewrite (the_ok _ _ _ X). cbn [obind]. unfold get_cell. replace (i <? 0) with false by lia.
  assert (Q : forall B (f : spec_float * spec_float -> B), nth (Z.to_nat i) (map (option_map f) l) None = Some (f (x, y))).
  { intros B f. change (@None B) with (option_map f None) at 1. rewrite map_nth. now rewrite (nth_error_nth _ _ _ Hn). }
  rewrite (Q _ fst). cbn [obind fst]. rewrite (the_ok _ _ _ Y). cbn [obind]. rewrite (Q _ snd). reflexivity.
Qed.
Lemma read_pixel_ok m s h x y w hh l i j v : inv m s -> nth h s None = Some (Mask_of x y w hh l) -> 0 <= i < hh -> 0 <= j < w ->
  nth_error l (Z.to_nat (i * w + j)) = Some (Some v) -> read_pixel m h i j = Ok v.
Proof.
  intros H E Hi Hj Hn. destruct (inv_content m s h _ H E) as (c & C & ST). destruct c as [| | |x' y' w' h' d]; try contradiction.
  destruct ST as (-> & -> & -> & -> & Hw & Hh & M & L & D). unfold read_pixel. rewrite (mask_row_ok _ _ _ _ _ _ _ _ C Hw Hi M). cbn [obind].
  destruct (row_column w hh i j Hi Hj) as (B & _).
  rewrite (the_ok _ _ _ D). cbn [obind]. replace (w * i + j) with (i * w + j) by ring. unfold get_cell. replace (i * w + j <? 0) with false by lia.
  now rewrite (nth_error_nth _ _ _ Hn).
Qed.
Lemma content_at s h v : nth h s None = Some v -> content_of s h = v.
Proof. intros E. unfold content_of. now rewrite E. Qed.

Lemma call_ok m s c : inv m s -> proper_call s c ->
  exists m', run_call m c = Ok (m', snd (step_value s c)) /\ inv m' (fst (step_value s c)).
Proof.
  intros H P. pose proof (proj1 H) as L. destruct c; cbn [proper_call run_call step_value fst snd] in *.
  - unfold create_special, new_region. rewrite L. eexists. split; [reflexivity|]. apply add_plain; cbn; auto.
  - unfold create_rectangle, new_region. rewrite L. eexists. split; [reflexivity|]. apply add_plain; cbn; auto.
  - unfold create_polygon. replace (2 <? size) with true by lia. unfold new_floats, new_region. cbn [floats chars regions obind]. rewrite L.
    eexists. split; [reflexivity|]. pose proof (add_poly m s (repeat None (Z.to_nat size)) H) as X.
    rewrite !map_none, repeat_length, Z2Nat.id in X by lia. rewrite app_length. cbn [List.length].
    rewrite <- app_assoc. replace (List.length (floats m) + 1)%nat with (S (List.length (floats m))) by lia. exact X.
  - destruct P as (Hw & Hh & M). unfold create_mask_region. replace ((0 <? w) && (0 <? h)) with true by lia.
    unfold new_chars, new_region. cbn [floats chars regions obind]. rewrite L. eexists. split; [reflexivity|].
    apply add_mask; try assumption. rewrite repeat_length. rewrite Z2Nat.id; [reflexivity|]. apply Z.mul_nonneg_nonneg; lia.
  - destruct P as (v & E). destruct (clone_ok m s r v H E) as (m' & Q & I'). rewrite Q. cbn [obind]. rewrite (content_at _ _ _ E). eauto.
  - destruct P as (v & E). destruct (release_ok m s r v H E) as (m' & Q & I'). rewrite Q. cbn [obind]. eauto.
  - destruct P as (v & E). destruct (inv_content m s r v H E) as (c & C & ST). cbn [get_type]. rewrite (the_ok _ _ _ C). cbn [obind].
    rewrite (content_at _ _ _ E). exists m. split; [|exact H]. destruct c, v; try contradiction; reflexivity.
  - destruct P as (v & E). destruct (inv_content m s r _ H E) as (c & C & ST). destruct c; try contradiction.
    unfold set_special. rewrite (the_ok _ _ _ C). cbn [obind].
    destruct (set_in_place m s r (CSpecial code0) (CSpecial code) (Special_of code) H C eq_refl eq_refl eq_refl eq_refl eq_refl) as (-> & I').
    cbn [obind]. eauto.
  - destruct P as (v & E). destruct (inv_content m s r _ H E) as (c & C & ST). destruct c; try contradiction. cbn in ST. subst.
    unfold get_special. rewrite (the_ok _ _ _ C). cbn [obind]. rewrite (content_at _ _ _ E). eauto.
  - destruct P as (x0 & y0 & w0 & h0 & E). destruct (inv_content m s r _ H E) as (c & C & ST). destruct c; try contradiction.
    unfold set_rectangle. rewrite (the_ok _ _ _ C). cbn [obind].
    destruct (set_in_place m s r _ (CRect x y w h) (Rectangle_of x y w h) H C eq_refl eq_refl eq_refl eq_refl) as (-> & I'); [cbn; auto|].
    cbn [obind]. eauto.
  - destruct P as (x0 & y0 & w0 & h0 & E). destruct (inv_content m s r _ H E) as (c & C & ST). destruct c; try contradiction.
    destruct ST as (-> & -> & -> & ->).
    unfold get_rectangle. rewrite (the_ok _ _ _ C). cbn [obind]. rewrite (content_at _ _ _ E). eauto.
  - destruct P as (l & E & Hi). destruct (set_point_ok m s r l index x y H E Hi) as (m' & Q & I'). rewrite Q. cbn [obind].
    rewrite (content_at _ _ _ E). eauto.
  - destruct P as (l & (x & y) & E & Hi & Hn). rewrite (get_point_ok m s r l index x y H E Hi Hn). cbn [obind]. rewrite (content_at _ _ _ E).
    rewrite (nth_error_nth _ _ _ Hn). eauto.
  - destruct P as (l & E). destruct (inv_content m s r _ H E) as (c & C & ST). destruct c; try contradiction. destruct ST as (-> & _).
    unfold get_count. rewrite (the_ok _ _ _ C). cbn [obind]. rewrite (content_at _ _ _ E). eauto.
  - destruct P as (x & y & w & h & l & E). destruct (inv_content m s r _ H E) as (c & C & ST). destruct c; try contradiction.
    destruct ST as (-> & -> & -> & -> & _). unfold get_header. rewrite (the_ok _ _ _ C). cbn [obind]. rewrite (content_at _ _ _ E). eauto.
  - destruct P as (x & y & w & h & l & E & Hi & Hj). destruct (write_pixel_ok m s r x y w h l row column v H E Hi Hj) as (m' & Q & I').
    rewrite Q. cbn [obind]. rewrite (content_at _ _ _ E). eauto.
  - destruct P as (x & y & w & h & l & v & E & Hi & Hj & Hn). rewrite (read_pixel_ok m s r x y w h l row column v H E Hi Hj Hn). cbn [obind].
    rewrite (content_at _ _ _ E). rewrite (nth_error_nth _ _ _ Hn). eauto.
Qed.
Lemma calls_ok l : forall m s, inv m s -> proper_calls s l ->
  exists m', run_calls m l = Ok (m', snd (run_values s l)) /\ inv m' (fst (run_values s l)).
Proof.
  induction l as [|c l IH]; intros m s H P; cbn [run_calls run_values proper_calls] in *; [eauto|].
  destruct P as (P & Ps). destruct (call_ok m s c H P) as (m1 & E & H1). rewrite E. cbn [obind].
  destruct (step_value s c) as (s1 & r) eqn:ES. cbn [fst snd] in *. destruct (IH m1 s1 H1 Ps) as (m2 & E2 & H2). rewrite E2. cbn [obind].
  destruct (run_values s1 l) as (s2 & rs). cbn [fst snd] in *. eauto.
Qed.
Lemma no_leak m s : inv m s -> (forall h, nth h s None = None) ->
  (forall p, nth p (floats m) None = None) /\ (forall p, nth p (chars m) None = None) /\ (forall p, nth p (regions m) None = None).
Proof.
  intros (L & R & OF & OC) N.
  assert (D : forall p, nth p (regions m) None = None) by (intros p; specialize (R p); rewrite N in R; now destruct (nth p (regions m) None)).
  split; [|split; [|exact D]]; intros p.
  - destruct (nth p (floats m) None) eqn:E; [|reflexivity]. assert (X : nth p (floats m) None <> None) by congruence. apply OF in X.
    destruct X as (h & c & G & _). rewrite D in G. discriminate.
  - destruct (nth p (chars m) None) eqn:E; [|reflexivity]. assert (X : nth p (chars m) None <> None) by congruence. apply OC in X.
    destruct X as (h & c & G & _). rewrite D in G. discriminate.
Qed.

(** ---- sequences ---- *)
Lemma run_values_app l1 : forall s l2,
  run_values s (l1 ++ l2) = (let '(s1, r1) := run_values s l1 in let '(s2, r2) := run_values s1 l2 in (s2, r1 ++ r2)).
Proof.
  induction l1 as [|c l1 IH]; intros s l2; cbn [run_values app]; [now destruct (run_values s l2)|].
  destruct (step_value s c) as (s1 & r). rewrite IH. destruct (run_values s1 l1) as (s2 & rs). now destruct (run_values s2 l2).
Qed.
Lemma proper_app l1 : forall s l2, proper_calls s (l1 ++ l2) <-> proper_calls s l1 /\ proper_calls (fst (run_values s l1)) l2.
Proof.
  induction l1 as [|c l1 IH]; intros s l2; cbn [proper_calls run_values app]; [cbn; tauto|]. rewrite IH.
  destruct (step_value s c) as (s1 & r). cbn [fst]. destruct (run_values s1 l1) as (s2 & rs). cbn [fst]. tauto.
Qed.
Lemma run_calls_app l1 : forall m l2,
  run_calls m (l1 ++ l2) = (p <- run_calls m l1 ;; let '(m1, r1) := p in q <- run_calls m1 l2 ;; let '(m2, r2) := q in Ok (m2, r1 ++ r2)).
Proof.
  induction l1 as [|c l1 IH]; intros m l2; cbn [run_calls app obind].
  - destruct (run_calls m l2) as [(m2 & r2)| | |]; reflexivity.
  - destruct (run_call m c) as [(m1 & r)| | |]; cbn [obind]; try reflexivity. rewrite IH.
    destruct (run_calls m1 l1) as [(m2 & rs)| | |]; cbn [obind]; try reflexivity. destruct (run_calls m2 l2) as [(m3 & rs2)| | |]; reflexivity.
Qed.

(** ---- frames ---- *)
Lemma last_result l c s : last (snd (run_values s (l ++ [c]))) Done = snd (step_value (fst (run_values s l)) c).
Proof.
  rewrite run_values_app. destruct (run_values s l) as (s1 & r1). cbn [run_values fst]. destruct (step_value s1 c) as (s2 & r). cbn [snd fst].
  apply last_last.
Qed.
Lemma value_frame s c r : changes r c = false -> (r < List.length s)%nat -> nth r (fst (step_value s c)) None = nth r s None /\ (List.length s <= List.length (fst (step_value s c)))%nat.
Proof.
  intros C L. destruct c; cbn [changes step_value fst] in *; try (rewrite app_length; rewrite app_nth1 by exact L; split; [reflexivity|lia]); try (split; [reflexivity|lia]).
  all: repeat match goal with |- context [match content_of ?t ?x with _ => _ end] => destruct (content_of t x) end; rewrite ?update_length; try (split; [reflexivity|lia]).
  all: split; [|lia]; destruct (Nat.ltb_spec r0 (List.length s)) as [K|K]; [rewrite nth_update by exact K; now rewrite C|rewrite update_none by lia; reflexivity].
Qed.
Lemma values_frame l : forall s r, Forall (fun c => changes r c = false) l -> (r < List.length s)%nat -> nth r (fst (run_values s l)) None = nth r s None.
Proof.
  induction l as [|c l IH]; intros s r F L; [reflexivity|]. inversion F as [|? ? F1 F2]; subst. cbn [run_values].
  destruct (value_frame s c r F1 L) as (E & K). destruct (step_value s c) as (s1 & x). cbn [fst] in *. specialize (IH s1 r F2 ltac:(lia)).
  destruct (run_values s1 l). cbn [fst] in *. congruence.
Qed.
Lemma reads_same s s' r c : reads r c = true -> nth r s None = nth r s' None -> snd (step_value s c) = snd (step_value s' c).
Proof.
  intros R E. destruct c; try discriminate; cbn [reads] in R; apply Nat.eqb_eq in R; subst; cbn [step_value snd]; unfold content_of; now rewrite E.
Qed.
Lemma reads_keep s c r : reads r c = true -> fst (step_value s c) = s.
Proof. destruct c; try discriminate; reflexivity. Qed.
Lemma reads_live s c r : reads r c = true -> proper_call s c -> (r < List.length s)%nat.
Proof.
  intros R P. destruct c; try discriminate; cbn [reads proper_call] in *; unfold live in *; apply Nat.eqb_eq in R; subst;
    repeat match goal with H : exists _, _ |- _ => destruct H as (? & H) end; try (destruct P as (P & _)); eauto using nth_some_length.
Qed.
Lemma point_frame s c r i l p : proper_call s c -> 0 <= i -> changes_point r i c = false -> nth r s None = Some (Polygon_of l) ->
  nth_error l (Z.to_nat i) = Some (Some p) ->
  exists l', nth r (fst (step_value s c)) None = Some (Polygon_of l') /\ nth_error l' (Z.to_nat i) = Some (Some p).
Proof.
  intros P Hi C E N. pose proof (nth_some_length _ _ _ E) as L. destruct (changes r c) eqn:CH.
  2: { destruct (value_frame s c r CH L) as (X & _). rewrite X. eauto. }
  destruct c; try discriminate; cbn [changes changes_point proper_call] in *; [congruence| | | |]; apply Nat.eqb_eq in CH; subst r0.
  - destruct P as (? & P). congruence.
  - destruct P as (? & ? & ? & ? & P). congruence.
  - rewrite Nat.eqb_refl in C. cbn [andb] in C. destruct P as (l0 & P & Hb). rewrite E in P. injection P as <-.
    cbn [step_value fst]. rewrite (content_at _ _ _ E). rewrite nth_at by exact L. eexists. split; [reflexivity|].
    assert (Ln : (Z.to_nat i < List.length l)%nat) by (apply nth_error_Some; congruence).
    rewrite nth_error_nth' with (d := None) by (rewrite update_length; exact Ln). rewrite nth_update by lia.
    destruct (Nat.eqb_spec (Z.to_nat index) (Z.to_nat i)); [lia|]. now rewrite (nth_error_nth _ _ _ N).
  - destruct P as (? & ? & ? & ? & ? & P & _). congruence.
Qed.
Lemma points_frame ls : forall s r i l p, proper_calls s ls -> 0 <= i -> Forall (fun c => changes_point r i c = false) ls ->
  nth r s None = Some (Polygon_of l) -> nth_error l (Z.to_nat i) = Some (Some p) ->
  exists l', nth r (fst (run_values s ls)) None = Some (Polygon_of l') /\ nth_error l' (Z.to_nat i) = Some (Some p).
Proof.
  induction ls as [|c ls IH]; intros s r i l p P Hi F E N; [eauto|]. inversion F as [|? ? F1 F2]; subst. destruct P as (P & Ps).
  destruct (point_frame s c r i l p P Hi F1 E N) as (l' & E' & N'). cbn [run_values]. destruct (step_value s c) as (s1 & x). cbn [fst] in *.
  destruct (IH s1 r i l' p Ps Hi F2 E' N') as (l2 & E2 & N2). destruct (run_values s1 ls). eauto.
Qed.
(** Masks of reachable states have their size *)
Lemma pixel_frame m s c r i j x y w h l v : inv m s -> proper_call s c -> 0 <= i < h -> 0 <= j < w -> changes_pixel r i j c = false ->
  nth r s None = Some (Mask_of x y w h l) -> nth_error l (Z.to_nat (i * w + j)) = Some (Some v) ->
  exists l', nth r (fst (step_value s c)) None = Some (Mask_of x y w h l') /\ nth_error l' (Z.to_nat (i * w + j)) = Some (Some v).
Proof.
  intros H P Hi Hj C E N. pose proof (nth_some_length _ _ _ E) as L. destruct (changes r c) eqn:CH.
  2: { destruct (value_frame s c r CH L) as (X & _). rewrite X. eauto. }
  destruct c; try discriminate; cbn [changes changes_pixel proper_call] in *; [congruence| | | |]; apply Nat.eqb_eq in CH; subst r0.
  - destruct P as (? & P). congruence.
  - destruct P as (? & ? & ? & ? & P). congruence.
  - destruct P as (? & P & _). congruence.
  - rewrite Nat.eqb_refl in C. cbn [andb] in C. destruct P as (x0 & y0 & w0 & h0 & l0 & P & Hr & Hc). rewrite E in P. injection P as <- <- <- <- <-.
    cbn [step_value fst]. rewrite (content_at _ _ _ E). rewrite nth_at by exact L. eexists. split; [reflexivity|].
    destruct (inv_content m s r _ H E) as (k & K & ST). destruct k; try contradiction. destruct ST as (_ & _ & _ & _ & _ & _ & _ & Ll & _).
    assert (width = w /\ height = h) as (-> & ->) by (pose proof (inv_content m s r _ H E) as (k' & K' & ST'); rewrite K in K'; injection K' as <-; destruct ST' as (_ & _ & -> & -> & _); auto).
    destruct (row_column w h i j Hi Hj) as (B & _). destruct (row_column w h row column Hr Hc) as (B' & _).
    rewrite nth_error_nth' with (d := None) by (rewrite update_length; lia). rewrite nth_update by lia.
    destruct (Nat.eqb_spec (Z.to_nat (row * w + column)) (Z.to_nat (i * w + j))) as [Q|Q]; [|now rewrite (nth_error_nth _ _ _ N)].
    exfalso. assert (Q' : row * w + column = i * w + j) by lia. assert (row = i) by nia. subst row. lia.
Qed.
Lemma pixels_frame ls : forall m s r i j x y w h l v, inv m s -> proper_calls s ls -> 0 <= i < h -> 0 <= j < w ->
  Forall (fun c => changes_pixel r i j c = false) ls ->
  nth r s None = Some (Mask_of x y w h l) -> nth_error l (Z.to_nat (i * w + j)) = Some (Some v) ->
  exists l', nth r (fst (run_values s ls)) None = Some (Mask_of x y w h l') /\ nth_error l' (Z.to_nat (i * w + j)) = Some (Some v).
Proof.
  induction ls as [|c ls IH]; intros m s r i j x y w h l v H P Hi Hj F E N; [eauto|]. inversion F as [|? ? F1 F2]; subst. destruct P as (P & Ps).
  destruct (pixel_frame m s c r i j x y w h l v H P Hi Hj F1 E N) as (l' & E' & N'). destruct (call_ok m s c H P) as (m1 & _ & H1). cbn [run_values].
  destruct (step_value s c) as (s1 & q). cbn [fst] in *.
  destruct (IH m1 s1 r i j x y w h l' v H1 Ps Hi Hj F2 E' N') as (l2 & E2 & N2). destruct (run_values s1 ls). eauto.
Qed.

(** ---- the statements ---- *)
Lemma calls_refine l : proper_calls [] l -> exists m, run_calls no_heap l = Ok (m, snd (run_values [] l)).
Proof. intros P. destruct (calls_ok l _ _ inv_nil P) as (m & E & _). eauto. Qed.
Lemma calls_no_leak l m rs : proper_calls [] l -> released (fst (run_values [] l)) -> run_calls no_heap l = Ok (m, rs) -> nothing_left m.
Proof. intros P R E. destruct (calls_ok l _ _ inv_nil P) as (m' & E' & I'). rewrite E in E'. injection E' as <- _. exact (no_leak _ _ I' R). Qed.
Lemma untouched l q l' r m rs : proper_calls [] (l ++ q :: l' ++ [q]) -> reads r q = true -> Forall (fun c => changes r c = false) l' ->
  run_calls no_heap (l ++ q :: l' ++ [q]) = Ok (m, rs) -> exists rs1 rs2 x, rs = rs1 ++ x :: rs2 ++ [x] /\ List.length rs1 = List.length l.
Proof.
  intros P R F E. destruct (calls_refine _ P) as (m' & E'). rewrite E in E'. injection E' as _ ->.
  apply proper_app in P. destruct P as (_ & Pq & P2). rewrite run_values_app.
  assert (LEN : forall k s, List.length (snd (run_values s k)) = List.length k).
  { induction k as [|c k IHk]; intros s; cbn [run_values]; [reflexivity|]. destruct (step_value s c) as (s1 & r1). specialize (IHk s1). destruct (run_values s1 k). cbn in *. lia. }
  pose proof (LEN l []) as Ll. destruct (run_values [] l) as (s & r1). cbn [fst snd] in *. cbn [run_values].
  pose proof (reads_keep s q r R) as K. pose proof (reads_live s q r R Pq) as L.
  destruct (step_value s q) as (s' & x) eqn:ES. cbn [fst] in K. subst s'. rewrite run_values_app.
  pose proof (values_frame l' s r F L) as V. destruct (run_values s l') as (s2 & r2). cbn [fst] in V. cbn [run_values].
  pose proof (reads_same s2 s r q R V) as X. rewrite ES in X. destruct (step_value s2 q) as (s3 & x'). cbn [snd] in *. subst x'.
  exists r1, r2, x. split; [reflexivity|exact Ll].
Qed.
Lemma point_last l r i x y l' m rs : proper_calls [] (l ++ SetPoint r i x y :: l') -> Forall (fun c => changes_point r i c = false) l' ->
  proper_calls [] (l ++ SetPoint r i x y :: l' ++ [GetPoint r i]) /\
  (run_calls no_heap (l ++ SetPoint r i x y :: l' ++ [GetPoint r i]) = Ok (m, rs) -> last rs Done = Point_is x y).
Proof.
  intros P F. set (whole := l ++ SetPoint r i x y :: l' ++ [GetPoint r i]).
  assert (W : whole = (l ++ SetPoint r i x y :: l') ++ [GetPoint r i]) by (unfold whole; now rewrite <- app_assoc). clearbody whole. subst whole.
  pose proof P as PA. apply proper_app in P. destruct P as (P1 & P2). cbn [proper_calls] in P2. destruct P2 as (PS & P2).
  set (s := fst (run_values [] l)) in *. destruct PS as (pts & E & Hi).
  assert (E' : nth r (fst (step_value s (SetPoint r i x y))) None = Some (Polygon_of (update pts (Z.to_nat i) (Some (x, y))))).
  { cbn [step_value fst]. rewrite (content_at _ _ _ E). apply nth_at. eapply nth_some_length; eauto. }
  assert (N' : nth_error (update pts (Z.to_nat i) (Some (x, y))) (Z.to_nat i) = Some (Some (x, y))).
  { rewrite nth_error_nth' with (d := None) by (rewrite update_length; lia). rewrite nth_at by lia. reflexivity. }
  destruct (points_frame l' _ r i _ (x, y) P2 (proj1 Hi) F E' N') as (p2 & E2 & N2).
  assert (FIN : fst (run_values [] (l ++ SetPoint r i x y :: l')) = fst (run_values (fst (step_value s (SetPoint r i x y))) l')).
  { rewrite run_values_app. fold s. unfold s. destruct (run_values [] l) as (s0 & r0). cbn [fst]. cbn [run_values]. destruct (step_value s0 (SetPoint r i x y)) as (s1 & q).
    cbn [fst]. now destruct (run_values s1 l'). }
  rewrite <- FIN in E2.
  assert (PG : proper_calls [] ((l ++ SetPoint r i x y :: l') ++ [GetPoint r i])).
  { apply proper_app. split; [exact PA|]. cbn [proper_calls proper_call]. split; [|exact Logic.I]. exists p2, (x, y). auto with zarith. }
  split; [exact PG|]. intros R. destruct (calls_refine _ PG) as (m' & R'). rewrite R in R'. injection R' as _ ->.
  rewrite last_result. cbn [step_value snd]. rewrite (content_at _ _ _ E2). now rewrite (nth_error_nth _ _ _ N2).
Qed.
Lemma pixel_last l r i j v l' m rs : proper_calls [] (l ++ WritePixel r i j v :: l') -> Forall (fun c => changes_pixel r i j c = false) l' ->
  proper_calls [] (l ++ WritePixel r i j v :: l' ++ [ReadPixel r i j]) /\
  (run_calls no_heap (l ++ WritePixel r i j v :: l' ++ [ReadPixel r i j]) = Ok (m, rs) -> last rs Done = Pixel_is v).
Proof.
  intros P F. set (whole := l ++ WritePixel r i j v :: l' ++ [ReadPixel r i j]).
  assert (W : whole = (l ++ WritePixel r i j v :: l') ++ [ReadPixel r i j]) by (unfold whole; now rewrite <- app_assoc). clearbody whole. subst whole.
  pose proof P as PA. apply proper_app in P. destruct P as (P1 & P2). cbn [proper_calls] in P2. destruct P2 as (PS & P2).
  destruct (calls_ok l _ _ inv_nil P1) as (m1 & _ & I1). destruct (call_ok m1 _ _ I1 PS) as (m2 & _ & I2).
  set (s := fst (run_values [] l)) in *. destruct PS as (x & y & w & h & px & E & Hi & Hj).
  assert (LL : Z.of_nat (List.length px) = w * h).
  { destruct (inv_content m1 s r _ I1 E) as (k & K & ST). destruct k; try contradiction. destruct ST as (_ & _ & -> & -> & _ & _ & _ & X & _). exact X. }
  destruct (row_column w h i j Hi Hj) as (B & _).
  assert (E' : nth r (fst (step_value s (WritePixel r i j v))) None = Some (Mask_of x y w h (update px (Z.to_nat (i * w + j)) (Some v)))).
  { cbn [step_value fst]. rewrite (content_at _ _ _ E). apply nth_at. eapply nth_some_length; eauto. }
  assert (N' : nth_error (update px (Z.to_nat (i * w + j)) (Some v)) (Z.to_nat (i * w + j)) = Some (Some v)).
  { rewrite nth_error_nth' with (d := None) by (rewrite update_length; lia). rewrite nth_at by lia. reflexivity. }
  destruct (pixels_frame l' m2 _ r i j x y w h _ v I2 P2 Hi Hj F E' N') as (p2 & E2 & N2).
  assert (FIN : fst (run_values [] (l ++ WritePixel r i j v :: l')) = fst (run_values (fst (step_value s (WritePixel r i j v))) l')).
  { rewrite run_values_app. unfold s. destruct (run_values [] l) as (s0 & r0). cbn [fst]. cbn [run_values]. destruct (step_value s0 (WritePixel r i j v)) as (s1 & q).
    cbn [fst]. now destruct (run_values s1 l'). }
  rewrite <- FIN in E2.
  assert (PG : proper_calls [] ((l ++ WritePixel r i j v :: l') ++ [ReadPixel r i j])).
  { apply proper_app. split; [exact PA|]. cbn [proper_calls proper_call]. split; [|exact Logic.I]. exists x, y, w, h, p2, v. auto. }
  split; [exact PG|]. intros R. destruct (calls_refine _ PG) as (m' & R'). rewrite R in R'. injection R' as _ ->.
  rewrite last_result. cbn [step_value snd]. rewrite (content_at _ _ _ E2). now rewrite (nth_error_nth _ _ _ N2).
Qed.

(** ---- misuse ---- *)
Lemma run_one_more l c o : proper_calls [] l -> (forall m, inv m (fst (run_values [] l)) -> run_call m c = o) ->
  run_calls no_heap (l ++ [c]) = (p <- run_calls no_heap l ;; let '(_, rs) := p in q <- o ;; let '(m, r) := q in Ok (m, rs ++ [r])).
Proof.
  intros P H. destruct (calls_ok l _ _ inv_nil P) as (m & E & I'). rewrite run_calls_app, E. cbn [obind run_calls]. rewrite (H m I').
  destruct o as [(m' & r)| | |]; reflexivity.
Qed.
Lemma misuse l c : proper_calls [] l -> (forall m, inv m (fst (run_values [] l)) -> run_call m c = UB) -> run_calls no_heap (l ++ [c]) = UB.
Proof. intros P H. rewrite (run_one_more l c UB P H). destruct (calls_refine l P) as (m & ->). reflexivity. Qed.
Lemma misuse_abort l c : proper_calls [] l -> (forall m, inv m (fst (run_values [] l)) -> run_call m c = Abort) -> run_calls no_heap (l ++ [c]) = Abort.
Proof. intros P H. rewrite (run_one_more l c Abort P H). destruct (calls_refine l P) as (m & ->). reflexivity. Qed.
Lemma set_cell_out {A} (a : list A) : forall i x, (List.length a <= i)%nat -> set_cell a i x = UB.
Proof. induction a as [|y a IH]; intros [|i] x H; cbn [List.length] in H; try reflexivity; try lia. cbn [set_cell]. rewrite IH by lia. reflexivity. Qed.
Lemma point_outside l r pts i x y : proper_calls [] l -> nth r (fst (run_values [] l)) None = Some (Polygon_of pts) ->
  i < 0 \/ Z.of_nat (List.length pts) <= i ->
  run_calls no_heap (l ++ [SetPoint r i x y]) = UB /\ run_calls no_heap (l ++ [GetPoint r i]) = UB.
Proof.
  intros P E O. split; apply misuse; try exact P; intros m H; destruct (inv_content m _ r _ H E) as (c & C & ST); destruct c as [| |n xs ys|]; try contradiction;
    destruct ST as (-> & D & X & Y); cbn [run_call]; [unfold set_point|unfold get_point]; rewrite (the_ok _ _ _ C); cbn [obind];
    replace ((0 <=? i) || (i <? Z.of_nat (List.length pts))) with true by lia; rewrite (the_ok _ _ _ X); cbn [obind].
  - unfold put_cell. destruct (i <? 0) eqn:S0; [reflexivity|]. rewrite set_cell_out by (rewrite map_length; lia). reflexivity.
  - unfold get_cell. destruct (i <? 0) eqn:S0; [reflexivity|]. rewrite nth_overflow by (rewrite map_length; lia). reflexivity.
Qed.
Lemma row_outside l r x y w h px i j v : proper_calls [] l -> nth r (fst (run_values [] l)) None = Some (Mask_of x y w h px) -> i < 0 \/ h <= i ->
  run_calls no_heap (l ++ [WritePixel r i j v]) = Abort /\ run_calls no_heap (l ++ [ReadPixel r i j]) = Abort.
Proof.
  intros P E O. split; apply misuse_abort; try exact P; intros m H; destruct (inv_content m _ r _ H E) as (c & C & ST); destruct c as [| | |x' y' w' h' d]; try contradiction;
    destruct ST as (-> & -> & -> & -> & _); cbn [run_call]; [unfold write_pixel|unfold read_pixel]; unfold mask_row; rewrite (the_ok _ _ _ C); cbn [obind];
    replace ((0 <=? i) && (i <? h)) with false by lia; reflexivity.
Qed.
Lemma wrong_type l c r t v : proper_calls [] l -> nth r (fst (run_values [] l)) None = Some v -> asks c = Some (r, t) -> type_number v <> t ->
  run_calls no_heap (l ++ [c]) = Abort.
Proof.
  intros P E A W. apply misuse_abort; [exact P|]. intros m H. destruct (inv_content m _ r _ H E) as (k & K & ST).
  destruct c; try discriminate; cbn [asks] in A; injection A as -> <-; cbn [run_call];
    unfold set_special, get_special, set_rectangle, get_rectangle, set_point, get_point, get_count, get_header, write_pixel, read_pixel, mask_row;
    rewrite (the_ok _ _ _ K); cbn [obind]; destruct k, v; try contradiction; cbn [type_number] in W; try congruence; reflexivity.
Qed.
Lemma use_after_release l c r : proper_calls [] l -> nth r (fst (run_values [] l)) None = None -> changes r c = true \/ reads r c = true \/ c = Clone r ->
  run_calls no_heap (l ++ [c]) = UB.
Proof.
  intros P E U. apply misuse; [exact P|]. intros m H. pose proof (proj1 (proj2 H) r) as R. rewrite E in R.
  destruct (nth r (regions m) None) eqn:N; [contradiction|]. assert (T : the (regions m) r = UB) by (unfold the; now rewrite N).
  destruct U as [U|[U|U]].
  - destruct c; try discriminate; cbn [changes] in U; apply Nat.eqb_eq in U; subst; cbn [run_call];
      unfold release, set_special, set_rectangle, set_point, write_pixel, mask_row; rewrite T; reflexivity.
  - destruct c; try discriminate; cbn [reads] in U; apply Nat.eqb_eq in U; subst; cbn [run_call];
      unfold get_type, get_special, get_rectangle, get_point, get_count, get_header, read_pixel, mask_row; rewrite T; reflexivity.
  - subst c. cbn [run_call]. unfold clone. rewrite T. reflexivity.
Qed.
Lemma big_row x y w h i j v : 0 < w -> 0 <= i < h -> INT_MAX < w * i ->
  run_calls no_heap [CreateMask x y w h; WritePixel 0 i j v] = UB /\ run_calls no_heap [CreateMask x y w h; ReadPixel 0 i j] = UB.
Proof.
  intros Hw Hi B. assert (R : int_result (w * i) = UB).
  { unfold int_result. replace (in_int (w * i)) with false by (unfold in_int, INT_MIN, INT_MAX in *; lia). reflexivity. }
  assert (G : (0 <? w) && (0 <? h) = true) by lia.
  split; cbn [run_calls run_call]; unfold create_mask_region, write_pixel, read_pixel, mask_row; rewrite G; cbn [new_chars new_region no_heap floats chars regions obind app List.length nth the];
    replace ((0 <=? i) && (i <? h)) with true by lia; cbn [obind]; rewrite R; reflexivity.
Qed.
Lemma big_clone x y w h : 0 < w -> 0 < h -> INT_MAX < w * h -> run_calls no_heap [CreateMask x y w h; Clone 0] = UB.
Proof.
  intros Hw Hh B. assert (R : int_result (w * h) = UB).
  { unfold int_result. replace (in_int (w * h)) with false by (unfold in_int, INT_MIN, INT_MAX in *; lia). reflexivity. }
  assert (G : (0 <? w) && (0 <? h) = true) by lia.
  cbn [run_calls run_call]; unfold clone, create_mask_region; rewrite !G; cbn [new_chars new_region no_heap floats chars regions obind app List.length nth the].
  rewrite G. cbn [obind new_chars new_region floats chars regions app List.length nth the]. rewrite R. reflexivity.
Qed.
Lemma big_mask x y w h i j v : 0 < w -> 0 <= i < h -> INT_MAX < w * i ->
  run_calls no_heap [CreateMask x y w h; WritePixel 0 i j v] = UB /\ run_calls no_heap [CreateMask x y w h; ReadPixel 0 i j] = UB /\
  run_calls no_heap [CreateMask x y w h; Clone 0] = UB /\ exists m, run_calls no_heap [CreateMask x y w h] = Ok (m, [Region_named 0]).
Proof.
  intros Hw Hi B. destruct (big_row x y w h i j v Hw Hi B) as (A1 & A2). split; [exact A1|split; [exact A2|split]].
  - apply big_clone; [lia|lia|]. assert (w * i <= w * h) by (apply Z.mul_le_mono_nonneg_l; lia). lia.
  - assert (G : (0 <? w) && (0 <? h) = true) by lia. cbn [run_calls run_call]. unfold create_mask_region. rewrite G. eexists. reflexivity.
Qed.
