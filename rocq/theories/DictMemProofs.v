(** Proofs about dictionaries whose allocations may fail *)
From Verif Require Import CBase StrMap Props PropsSpec StrMapProofs Blocks BlocksSpec BlocksProofs DictMem DictMemSpec.
From Coq Require Import Permutation.

(** ---- Commands ---- *)
Definition wruns {A} (f : am A) (w : world) (P : A -> world -> Prop) : Prop := exists a w', f w = Ok (a, w') /\ P a w'.
Lemma wruns_bind {A B} (f : am A) (k : A -> am B) w P : wruns f w (fun a w' => wruns (k a) w' P) -> wruns (ab f k) w P.
Proof. intros (a & w1 & E & b & w2 & E2 & H). exists b, w2. split; [|exact H]. unfold ab. rewrite E. cbn [obind fst snd]. exact E2. Qed.
Lemma wruns_ret {A} (a : A) w (P : A -> world -> Prop) : P a w -> wruns (aret a) w P.
Proof. intros H. exists a, w. split; [reflexivity|exact H]. Qed.
Lemma wruns_weaken {A} (f : am A) w (P Q : A -> world -> Prop) : wruns f w P -> (forall a w', P a w' -> Q a w') -> wruns f w Q.
Proof. intros (a & w' & E & H) W. exists a, w'. split; [exact E|]. exact (W _ _ H). Qed.
Definition whas (w : world) (l : list nat) : Prop := holds (w_mem w) l.
Lemma whas_as w l l' : whas w l -> same l l' -> whas w l'.
Proof. apply holds_as. Qed.
Lemma wruns_use x w l (P : unit -> world -> Prop) : whas w l -> (0 < cnt l x)%nat -> P tt w -> wruns (use x) w P.
Proof.
  intros H I HP. destruct (runs_touch x (w_mem w) l (fun _ m => m = w_mem w) H I eq_refl) as ([] & m & E & ->).
  exists tt, w. split; [|exact HP]. unfold use, plainly. rewrite E. cbn [obind fst snd]. now destruct w.
Qed.
Lemma wruns_free x w l l' (P : unit -> world -> Prop) : whas w l -> same l (x :: l') ->
  (forall w', whas w' l' -> w_failed w' = w_failed w -> P tt w') -> wruns (afree x) w P.
Proof.
  intros H S HP. destruct (runs_free x (w_mem w) l l' (fun _ m => holds m l') H S (fun m h => h)) as ([] & m & E & Hm).
  exists tt, (mkWorld m (w_plan w) (w_failed w)). split; [unfold afree, plainly; rewrite E; reflexivity|]. apply HP; [exact Hm|reflexivity].
Qed.
Lemma wruns_malloc w l (P : option nat -> world -> Prop) : whas w l ->
  (forall x w', whas w' (x :: l) -> w_failed w' = w_failed w -> P (Some x) w') ->
  (forall w', whas w' l -> w_failed w' = S (w_failed w) -> P None w') -> wruns malloc w P.
Proof.
  intros H HS HN. unfold malloc, wruns. destruct (runs_new (w_mem w) l (fun x m => holds m (x :: l)) H (fun x m h => h)) as (x & m & E & Hm).
  destruct (w_plan w) as [|[] p].
  - eexists _, _. rewrite E. cbn [obind fst snd]. split; [reflexivity|]. apply HS; [exact Hm|reflexivity].
  - eexists _, _. rewrite E. cbn [obind fst snd]. split; [reflexivity|]. apply HS; [exact Hm|reflexivity].
  - eexists _, _. split; [reflexivity|]. apply HN; [exact H|reflexivity].
Qed.
Lemma wruns_reallocate x w l l' (P : option nat -> world -> Prop) : whas w l -> same l (x :: l') ->
  (forall y w', whas w' (y :: l') -> w_failed w' = w_failed w -> P (Some y) w') ->
  (forall w', whas w' l -> w_failed w' = S (w_failed w) -> P None w') -> wruns (reallocate x) w P.
Proof.
  intros H S HS HN. unfold reallocate. apply wruns_bind. apply (wruns_use x w l); [exact H|rewrite S, cnt_cons, one_same; lia|].
  apply wruns_bind. apply (wruns_malloc w l); [exact H| |].
  - intros y w1 H1 F1. apply wruns_bind. apply (wruns_free x w1 (y :: l) (y :: l')); [exact H1|intros z; rewrite !cnt_cons, (S z), cnt_cons; lia|].
    intros w2 H2 F2. apply wruns_ret. apply HS; [exact H2|congruence].
  - intros w1 H1 F1. apply wruns_ret. now apply HN.
Qed.

(** ---- Blocks of a dictionary ---- *)
Definition pair_blocks (p : dpair) : list nat := [d_key p; d_value p].
Definition pairs_blocks (l : list dpair) : list nat := flat_map pair_blocks l.
Definition bucket_blocks (b : dbucket) : list nat := opt_block (b_array b) ++ pairs_blocks (b_pairs b).
Definition buckets_blocks (l : list dbucket) : list nat := flat_map bucket_blocks l.
Definition dmap_blocks (m : dmap) : list nat := dm_struct m :: dm_array m :: buckets_blocks (dm_buckets m).
Definition omap_blocks (m : option dmap) : list nat := match m with Some m => dmap_blocks m | None => [] end.
Definition dict_blocks (d : dict) : list nat := p_block d :: omap_blocks (p_map d).
Definition shape (b : dbucket) : Prop := b_pairs b = [] <-> b_array b = None.
Definition texts (b : dbucket) : list pair := map d_pair (b_pairs b).
Definition content (m : dmap) : smap := map texts (dm_buckets m).
Definition nob : dbucket := mkDbucket None [].

Lemma pairs_cons p l : pairs_blocks (p :: l) = d_key p :: d_value p :: pairs_blocks l. Proof. reflexivity. Qed.
Lemma pairs_snoc l p : pairs_blocks (l ++ [p]) = pairs_blocks l ++ [d_key p; d_value p].
Proof. unfold pairs_blocks. rewrite flat_map_app. reflexivity. Qed.
Lemma buckets_cons b l : buckets_blocks (b :: l) = bucket_blocks b ++ buckets_blocks l. Proof. reflexivity. Qed.
Lemma set_nth_blocks bs : forall i b x, (i < List.length bs)%nat ->
  (cnt (buckets_blocks (set_nth bs i b)) x + cnt (bucket_blocks (nth i bs nob)) x = cnt (buckets_blocks bs) x + cnt (bucket_blocks b) x)%nat.
Proof.
  induction bs as [|c bs IH]; intros [|i] b x H; cbn [List.length] in H; try lia; cbn [set_nth nth]; rewrite !buckets_cons, !cnt_app; [lia|].
  specialize (IH i b x ltac:(lia)). lia.
Qed.
Lemma nth_blocks bs i x : (i < List.length bs)%nat -> (cnt (bucket_blocks (nth i bs nob)) x <= cnt (buckets_blocks bs) x)%nat.
Proof. revert i. induction bs as [|c bs IH]; intros [|i] H; cbn [List.length] in H; try lia; cbn [nth]; rewrite buckets_cons, cnt_app; [lia|]. specialize (IH i ltac:(lia)). lia. Qed.
(** The first pair with a key *)
Fixpoint first_pair (l : list dpair) (key : list N) : option dpair :=
  match l with [] => None | p :: l' => if bytes_eqb (pk (d_pair p)) key then Some p else first_pair l' key end.
Lemma first_get l key : option_map d_pair (first_pair l key) = get_pair (map d_pair l) key.
Proof. induction l as [|p l IH]; [reflexivity|]. cbn [first_pair map get_pair]. destruct (bytes_eqb _ _); [reflexivity|exact IH]. Qed.
Lemma first_blocks l key p x : first_pair l key = Some p -> (cnt (pair_blocks p) x <= cnt (pairs_blocks l) x)%nat.
Proof.
  induction l as [|q l IH]; [discriminate|]. cbn [first_pair]. change (pairs_blocks (q :: l)) with (pair_blocks q ++ pairs_blocks l). rewrite cnt_app.
  destruct (bytes_eqb _ _); [intros [= ->]; lia|]. intros H. specialize (IH H). lia.
Qed.
Lemma put_back_blocks l key p q x : first_pair l key = Some p ->
  (cnt (pairs_blocks (put_back l key q)) x + cnt (pair_blocks p) x = cnt (pairs_blocks l) x + cnt (pair_blocks q) x)%nat.
Proof.
  induction l as [|c l IH]; [discriminate|]. cbn [first_pair put_back]. change (pairs_blocks (c :: l)) with (pair_blocks c ++ pairs_blocks l). rewrite cnt_app.
  destruct (bytes_eqb _ _).
  - intros [= ->]. change (pairs_blocks (q :: l)) with (pair_blocks q ++ pairs_blocks l). rewrite cnt_app. lia.
  - intros H. change (pairs_blocks (c :: put_back l key q)) with (pair_blocks c ++ pairs_blocks (put_back l key q)). rewrite cnt_app. specialize (IH H). lia.
Qed.

(** ---- Reading ---- *)
Lemma find_runs l key : forall w L (P : option dpair -> world -> Prop), whas w L -> (forall x, (cnt (pairs_blocks l) x <= cnt L x)%nat) ->
  P (first_pair l key) w -> wruns (find_pair l key) w P.
Proof.
  induction l as [|p l IH]; intros w L P H C HP; cbn [find_pair]; [now apply wruns_ret|]. apply wruns_bind.
  apply (wruns_use _ w L); [exact H|specialize (C (d_key p)); rewrite pairs_cons, cnt_cons, one_same in C; lia|].
  cbn [first_pair] in HP. destruct (bytes_eqb _ _); [now apply wruns_ret|]. apply (IH w L); [exact H| |exact HP].
  intros x. specialize (C x). rewrite pairs_cons, !cnt_cons in C. lia.
Qed.
Lemma array_runs b w L (P : unit -> world -> Prop) : whas w L -> shape b -> b_pairs b <> [] -> (forall x, (cnt (bucket_blocks b) x <= cnt L x)%nat) ->
  P tt w -> wruns (use_array b) w P.
Proof.
  intros H S N C HP. unfold use_array. destruct (b_array b) as [a|] eqn:E; [|now destruct N; apply S].
  apply (wruns_use a w L); [exact H| |exact HP]. specialize (C a). unfold bucket_blocks in C. rewrite E in C. cbn [opt_block app] in C. rewrite cnt_cons, one_same in C. lia.
Qed.
Definition map_ok (m : dmap) : Prop := (0 < List.length (dm_buckets m))%nat /\ Forall shape (dm_buckets m) /\ sm_ok (content m).
Lemma content_length m : List.length (content m) = List.length (dm_buckets m). Proof. apply map_length. Qed.
Lemma index_content m k : bucket_index (content m) k = dm_index m k.
Proof. unfold bucket_index, dm_index. now rewrite content_length. Qed.
Lemma index_lt m k : map_ok m -> (dm_index m k < List.length (dm_buckets m))%nat.
Proof. intros (H & _). rewrite <- index_content, <- content_length. apply bucket_index_lt. now rewrite content_length. Qed.
Lemma nth_content m i : nth i (content m) [] = texts (nth i (dm_buckets m) nob).
Proof. unfold content. change (@nil pair) with (texts nob). apply map_nth. Qed.
Lemma bucket_content m k : nth (dm_index m k) (content m) [] = texts (dm_bucket m k).
Proof. apply nth_content. Qed.
Lemma bucket_shape m k : map_ok m -> shape (dm_bucket m k).
Proof. intros H. pose proof (index_lt m k H) as I. destruct H as (_ & S & _). rewrite Forall_forall in S. apply S. unfold dm_bucket. now apply nth_In. Qed.
Lemma bucket_counts m k x : map_ok m -> (cnt (bucket_blocks (dm_bucket m k)) x <= cnt (buckets_blocks (dm_buckets m)) x)%nat.
Proof. intros H. apply nth_blocks, index_lt, H. Qed.
Definition found (m : dmap) (key : list N) : option dpair := first_pair (b_pairs (dm_bucket m key)) key.
Lemma found_lookup m key : option_map (fun p => pv (d_pair p)) (found m key) = sm_lookup (content m) key.
Proof.
  unfold sm_lookup. rewrite index_content, bucket_content. unfold texts. rewrite <- first_get. unfold found. now destruct (first_pair _ key).
Qed.
Lemma dm_find_runs m key w R (P : option dpair -> world -> Prop) : whas w (dmap_blocks m ++ R) -> map_ok m -> P (found m key) w -> wruns (dm_find m key) w P.
Proof.
  intros H M HP. unfold dm_find. apply wruns_bind. apply (wruns_use _ w _ _ H); [unfold dmap_blocks; cbn [app]; rewrite cnt_cons, one_same; lia|].
  destruct (Nat.eqb_spec (List.length (dm_buckets m)) 0) as [Z0|_]; [destruct M; lia|]. apply wruns_bind.
  apply (wruns_use _ w _ _ H); [unfold dmap_blocks; cbn [app]; rewrite !cnt_cons, one_same; lia|].
  assert (C : forall x, (cnt (bucket_blocks (dm_bucket m key)) x <= cnt (dmap_blocks m ++ R) x)%nat).
  { intros x. pose proof (bucket_counts m key x M). unfold dmap_blocks. rewrite cnt_app, !cnt_cons. lia. }
  unfold dm_pair, found in *. pose proof (bucket_shape m key M) as Sh. destruct (b_pairs (dm_bucket m key)) as [|p l] eqn:E; [now apply wruns_ret|].
  apply wruns_bind. apply (array_runs _ w _ _ H Sh); [congruence|exact C|]. apply (find_runs _ _ w _ _ H); [|exact HP].
  intros x. specialize (C x). unfold bucket_blocks in C. rewrite E, cnt_app in C. lia.
Qed.
Lemma found_blocks m key p x : map_ok m -> found m key = Some p -> (cnt (pair_blocks p) x <= cnt (dmap_blocks m) x)%nat.
Proof.
  intros M F. pose proof (first_blocks _ _ _ x F). pose proof (bucket_counts m key x M). unfold dmap_blocks. rewrite !cnt_cons.
  unfold bucket_blocks at 1 in H0. rewrite cnt_app in H0. lia.
Qed.
Lemma found_value m key p R : map_ok m -> found m key = Some p -> (0 < cnt (dmap_blocks m ++ R) (d_value p))%nat.
Proof. intros M F. pose proof (found_blocks m key p (d_value p) M F) as H. unfold pair_blocks in H. rewrite !cnt_cons, one_same in H. rewrite cnt_app. lia. Qed.

(** ---- Storing ---- *)
Lemma set_bucket_ok m key b m' : map_ok m -> shape b -> sm_ok m' -> m' = set_nth (content m) (dm_index m key) (texts b) ->
  map_ok (set_bucket m key b) /\ content (set_bucket m key b) = m'.
Proof.
  intros M Sb Sm ->. assert (E : content (set_bucket m key b) = set_nth (content m) (dm_index m key) (texts b)).
  { unfold content, set_bucket. cbn [dm_buckets]. generalize (dm_index m key). induction (dm_buckets m) as [|c l IH]; intros [|i]; cbn [set_nth map]; try reflexivity. now rewrite IH. }
  split; [|exact E]. unfold map_ok. rewrite E. unfold set_bucket. cbn [dm_buckets]. rewrite set_nth_length. destruct M as (A & B & _). split; [exact A|]. split; [|exact Sm].
  clear - B Sb. generalize (dm_index m key). revert B. induction (dm_buckets m) as [|c l IH]; intros B [|i]; cbn [set_nth]; try assumption.
  - inversion B; subst. now constructor.
  - inversion B; subst. constructor; [assumption|]. now apply IH.
Qed.
Lemma put_back_texts l key p v cap x : first_pair l key = Some p ->
  cap = (if Nat.ltb (List.length (pv (d_pair p))) (List.length v) then S (List.length v) else pv_cap (d_pair p)) -> (S (List.length v) <= cap)%nat ->
  replace_value (map d_pair l) key v = Ok (map d_pair (put_back l key (mkDpair (mkPair (pk (d_pair p)) v cap) (d_key p) x))).
Proof.
  intros F -> C. induction l as [|q l IH]; [discriminate|]. cbn [first_pair] in F. cbn [map replace_value put_back]. destruct (bytes_eqb (pk (d_pair q)) key).
  - injection F as ->. cbv zeta. apply Nat.leb_le in C. rewrite C. reflexivity.
  - rewrite (IH F). reflexivity.
Qed.
Lemma put_back_nonempty l key p q : first_pair l key = Some p -> put_back l key q <> [].
Proof. destruct l as [|c l]; [discriminate|]. cbn [put_back]. intros _. destruct (bytes_eqb _ _); discriminate. Qed.
(** What a call of sm_put leaves: the world with the new blocks, and the map after the update (or as before) *)
Definition put_done (m : dmap) (key value : list N) (w : world) (R : list nat) (r : bool * dmap) (w' : world) : Prop :=
  whas w' (dmap_blocks (snd r) ++ R) /\ map_ok (snd r) /\ List.length (dm_buckets (snd r)) = List.length (dm_buckets m) /\
  (if fst r then w_failed w' = w_failed w /\ sm_put (content m) key value = Ok (content (snd r))
   else (w_failed w < w_failed w')%nat /\ snd r = m).
Lemma put_lost m key value w w' R : map_ok m -> whas w' (dmap_blocks m ++ R) -> w_failed w' = S (w_failed w) -> put_done m key value w R (false, m) w'.
Proof. intros M H F. unfold put_done. cbn [fst snd]. split; [exact H|]. split; [exact M|]. split; [reflexivity|]. split; [lia|reflexivity]. Qed.
Lemma sm_put_replaces m key value p b' : map_ok m -> found m key = Some p -> replace_value (texts (dm_bucket m key)) key value = Ok b' ->
  sm_put (content m) key value = Ok (set_nth (content m) (dm_index m key) b').
Proof.
  intros (A & _) F E. unfold sm_put. rewrite content_length. destruct (Nat.eqb_spec (List.length (dm_buckets m)) 0); [lia|]. rewrite index_content, bucket_content.
  cbv zeta. unfold texts at 1. rewrite <- first_get. fold (found m key). rewrite F. cbn [option_map]. unfold texts in *. rewrite E. reflexivity.
Qed.
Lemma sm_put_inserts m key value : map_ok m -> found m key = None ->
  sm_put (content m) key value = Ok (set_nth (content m) (dm_index m key) (texts (dm_bucket m key) ++ [mkPair key value (S (List.length value))])).
Proof.
  intros (A & _) F. unfold sm_put. rewrite content_length. destruct (Nat.eqb_spec (List.length (dm_buckets m)) 0); [lia|]. rewrite index_content, bucket_content.
  cbv zeta. unfold texts at 1. rewrite <- first_get. fold (found m key). rewrite F. reflexivity.
Qed.
Lemma sm_put_keeps s key value s' : sm_ok s -> sm_put s key value = Ok s' -> sm_ok s'.
Proof. intros H E. destruct (sm_put_spec s key value H) as (t & E' & K & _). congruence. Qed.
Lemma set_bucket_same m key b x : map_ok m ->
  (cnt (dmap_blocks (set_bucket m key b)) x + cnt (bucket_blocks (dm_bucket m key)) x = cnt (dmap_blocks m) x + cnt (bucket_blocks b) x)%nat.
Proof.
  intros M. pose proof (set_nth_blocks (dm_buckets m) (dm_index m key) b x (index_lt m key M)) as H.
  unfold dmap_blocks, set_bucket. cbn [dm_struct dm_array dm_buckets]. rewrite !cnt_cons. unfold dm_bucket, nob in *. lia.
Qed.
Lemma store_runs m p x cap key value w w0 R L : map_ok m -> found m key = Some p ->
  cap = (if Nat.ltb (List.length (pv (d_pair p))) (List.length value) then S (List.length value) else pv_cap (d_pair p)) -> (S (List.length value) <= cap)%nat ->
  whas w L -> (forall y, (cnt L y + one (d_value p) y = cnt (dmap_blocks m ++ R) y + one x y)%nat) -> w_failed w = w_failed w0 ->
  wruns (store_value m p x cap key value) w (put_done m key value w0 R).
Proof.
  intros M F C Cl H S Fl. unfold store_value. apply wruns_bind. apply (wruns_use x w L); [exact H| |].
  { pose proof (S x) as Sx. pose proof (found_value m key p R M F) as V. rewrite one_same in Sx. unfold one in Sx. destruct (Nat.eq_dec (d_value p) x) as [E|_]; [subst x; lia|lia]. }
  pose proof (proj2 (Nat.leb_le _ _) Cl) as Cb. rewrite Cb. apply wruns_ret.
  set (q := mkDpair (mkPair (pk (d_pair p)) value cap) (d_key p) x). set (b := mkDbucket (b_array (dm_bucket m key)) (put_back (b_pairs (dm_bucket m key)) key q)).
  pose proof (put_back_texts _ key p value cap x F C Cl) as T. fold q in T. fold (texts (dm_bucket m key)) in T.
  pose proof (sm_put_replaces m key value p _ M F T) as Pt. pose proof (sm_put_keeps _ _ _ _ (proj2 (proj2 M)) Pt) as Ok'.
  assert (Sb : shape b).
  { unfold shape, b. cbn [b_pairs b_array]. pose proof (bucket_shape m key M) as Sh. unfold shape in Sh. split; intros E; exfalso.
    - exact (put_back_nonempty _ _ _ _ F E).
    - apply Sh in E. unfold found in F. rewrite E in F. discriminate. }
  destruct (set_bucket_ok m key b _ M Sb Ok' eq_refl) as [M' E'].
  unfold put_done. cbn [fst snd]. split; [|split; [exact M'|split; [apply set_nth_length|split; [exact Fl|rewrite E'; exact Pt]]]].
  apply (whas_as w L _ H). intros y. pose proof (S y) as Sy. pose proof (set_bucket_same m key b y M) as B1. pose proof (put_back_blocks _ key p q y F) as B2.
  unfold b, bucket_blocks in B1. cbn [b_array b_pairs] in B1. rewrite !cnt_app in B1. rewrite cnt_app in *. unfold pair_blocks, q in B2. cbn [d_key d_value] in B2. rewrite !cnt_cons, !cnt_nil in B2.
  fold q in B2. unfold b. lia.
Qed.
Lemma replace_runs m p key value w R : map_ok m -> found m key = Some p -> whas w (dmap_blocks m ++ R) -> wruns (dm_replace m p key value) w (put_done m key value w R).
Proof.
  intros M F H. pose proof (found_value m key p R M F) as V. unfold dm_replace. apply wruns_bind. apply (wruns_use _ w _ _ H V).
  destruct (Nat.ltb (List.length (pv (d_pair p))) (List.length value)) eqn:L.
  - apply wruns_bind. destruct (take_spec (d_value p) (dmap_blocks m ++ R) V) as (l' & _ & Sm). apply (wruns_reallocate (d_value p) w _ l' _ H Sm).
    + intros y w' H' F'. apply (store_runs m p y (S (List.length value)) key value w' w R (y :: l') M F); [now rewrite L|lia|exact H'| |exact F'].
      intros z. rewrite (Sm z), !cnt_cons. lia.
    + intros w' H' F'. apply wruns_ret. now apply put_lost.
  - apply (store_runs m p (d_value p) (pv_cap (d_pair p)) key value w w R (dmap_blocks m ++ R) M F); [now rewrite L| |exact H|intros y; lia|reflexivity].
    apply Nat.ltb_ge in L. assert (K : pair_ok (d_pair p)).
    { destruct M as (M1 & _ & M3). pose proof M3 as [_ M4]. assert (I : (dm_index m key < List.length (content m))%nat) by (rewrite content_length, <- index_content, <- content_length; apply bucket_index_lt; now rewrite content_length).
      destruct (M4 _ I) as [_ K]. rewrite bucket_content in K. rewrite Forall_forall in K.
      apply (K (d_pair p)). pose proof (first_get (b_pairs (dm_bucket m key)) key) as G. fold (found m key) in G. rewrite F in G. cbn [option_map] in G. symmetry in G. now apply get_pair_some in G as [G _]. }
    unfold pair_ok in K. lia.
Qed.
Lemma insert_runs m key value w R : map_ok m -> found m key = None -> whas w (dmap_blocks m ++ R) -> wruns (dm_insert m key value) w (put_done m key value w R).
Proof.
  intros M F H. unfold dm_insert. apply wruns_bind. apply (wruns_malloc w _ _ H); [|intros w1 H1 F1; apply wruns_ret; now apply put_lost].
  intros k w1 H1 F1. apply wruns_bind. apply (wruns_malloc w1 _ _ H1).
  2: { intros w2 H2 F2. apply wruns_bind. apply (wruns_free k w2 _ (dmap_blocks m ++ R) _ H2); [perm|]. intros w3 H3 F3. apply wruns_ret. apply put_lost; [exact M|exact H3|congruence]. }
  intros v w2 H2 F2. apply wruns_bind. pose proof (bucket_shape m key M) as Sh. set (b := dm_bucket m key) in *.
  assert (Grown : forall a w3 L, whas w3 L -> (forall y, (cnt L y + cnt (opt_block (b_array b)) y = cnt (v :: k :: dmap_blocks m ++ R) y + one a y)%nat) -> w_failed w3 = w_failed w ->
    wruns (use a ;=; use k ;=; use v ;=; aret (true, set_bucket m key (mkDbucket (Some a) (b_pairs b ++ [mkDpair (mkPair key value (S (List.length value))) k v])))) w3 (put_done m key value w R)).
  { intros a w3 L H3 S3 F3.
    assert (Bc : forall y, (cnt (opt_block (b_array b)) y <= cnt (dmap_blocks m) y)%nat).
    { intros y. pose proof (bucket_counts m key y M) as B. fold b in B. unfold bucket_blocks in B. rewrite cnt_app in B. unfold dmap_blocks. rewrite !cnt_cons. lia. }
    assert (Ins : forall y, (cnt L y = one v y + one k y + (cnt (dmap_blocks m) y - cnt (opt_block (b_array b)) y) + cnt R y + one a y)%nat).
    { intros y. pose proof (S3 y) as S3y. specialize (Bc y). rewrite !cnt_cons, cnt_app in S3y. lia. }
    apply wruns_bind. apply (wruns_use a w3 L _ H3); [rewrite Ins, one_same; lia|]. apply wruns_bind. apply (wruns_use k w3 L _ H3); [rewrite Ins, one_same; lia|].
    apply wruns_bind. apply (wruns_use v w3 L _ H3); [rewrite Ins, one_same; lia|]. apply wruns_ret.
    set (q := mkDpair (mkPair key value (S (List.length value))) k v). set (b' := mkDbucket (Some a) (b_pairs b ++ [q])).
    pose proof (sm_put_inserts m key value M F) as Pt. fold b in Pt. pose proof (sm_put_keeps _ _ _ _ (proj2 (proj2 M)) Pt) as Ok'.
    assert (Sb : shape b') by (unfold shape, b'; cbn [b_pairs b_array]; split; intros E; [now destruct (b_pairs b)|discriminate]).
    assert (Tb : texts b' = texts b ++ [mkPair key value (S (List.length value))]) by (unfold texts, b'; cbn [b_pairs]; now rewrite map_app).
    rewrite <- Tb in Pt, Ok'. destruct (set_bucket_ok m key b' _ M Sb Ok' eq_refl) as [M' E'].
    unfold put_done. cbn [fst snd]. split; [|split; [exact M'|split; [apply set_nth_length|split; [exact F3|rewrite E'; exact Pt]]]].
    apply (whas_as w3 L _ H3). intros y. pose proof (set_bucket_same m key b' y M) as B1. fold b in B1. specialize (S3 y).
    assert (B2 : cnt (bucket_blocks b') y = (one a y + cnt (pairs_blocks (b_pairs b)) y + one k y + one v y)%nat).
    { unfold b', bucket_blocks. cbn [b_array b_pairs opt_block app]. rewrite pairs_snoc. unfold q. cbn [d_key d_value]. rewrite cnt_cons, cnt_app, !cnt_cons, cnt_nil. lia. }
    assert (B3 : cnt (bucket_blocks b) y = (cnt (opt_block (b_array b)) y + cnt (pairs_blocks (b_pairs b)) y)%nat) by (unfold bucket_blocks; apply cnt_app).
    rewrite !cnt_cons, cnt_app in S3. rewrite cnt_app. lia. }
  assert (Lost : forall w3, whas w3 (v :: k :: dmap_blocks m ++ R) -> w_failed w3 = S (w_failed w2) -> wruns (afree k ;=; afree v ;=; aret (false, m)) w3 (put_done m key value w R)).
  { intros w3 H3 F3. apply wruns_bind. apply (wruns_free k w3 _ (v :: dmap_blocks m ++ R) _ H3); [perm|]. intros w4 H4 F4. apply wruns_bind.
    apply (wruns_free v w4 _ (dmap_blocks m ++ R) _ H4); [perm|]. intros w5 H5 F5. apply wruns_ret. apply put_lost; [exact M|exact H5|congruence]. }
  unfold grow. unfold shape in Sh. destruct (b_pairs b) as [|p l] eqn:Eb.
  - apply (wruns_malloc w2 _ _ H2); [|exact Lost]. intros a w3 H3 F3. apply (Grown a w3 _ H3); [|congruence]. intros y. rewrite (proj1 Sh eq_refl). cbn [opt_block]. rewrite cnt_nil, !cnt_cons. lia.
  - destruct (b_array b) as [a|] eqn:Ea; [|now discriminate (proj2 Sh eq_refl)].
    assert (Ia : (0 < cnt (v :: k :: dmap_blocks m ++ R) a)%nat).
    { pose proof (bucket_counts m key a M) as B. fold b in B. unfold bucket_blocks in B. rewrite Ea in B. cbn [opt_block app] in B. rewrite cnt_cons, one_same in B. unfold dmap_blocks. rewrite !cnt_cons, cnt_app, !cnt_cons. lia. }
    destruct (take_spec a _ Ia) as (l' & _ & S'). apply (wruns_reallocate a w2 _ l' _ H2 S'); [|exact Lost].
    intros y w3 H3 F3. apply (Grown y w3 _ H3); [|congruence]. intros z. rewrite (S' z). cbn [opt_block]. rewrite !cnt_cons, cnt_nil. lia.
Qed.
Lemma put_runs m key value w R : map_ok m -> whas w (dmap_blocks m ++ R) -> wruns (dm_put m key value) w (put_done m key value w R).
Proof.
  intros M H. unfold dm_put. apply wruns_bind. apply (dm_find_runs m key w R _ H M). destruct (found m key) as [p|] eqn:F; [now apply replace_runs|now apply insert_runs].
Qed.

(** ---- Making and deleting maps ---- *)
Lemma new_runs n w R (P : option dmap -> world -> Prop) : (0 < n)%nat -> whas w R ->
  (forall m w', whas w' (dmap_blocks m ++ R) -> map_ok m -> (forall k, sm_lookup (content m) k = None) -> w_failed w' = w_failed w -> P (Some m) w') ->
  (forall w', whas w' R -> w_failed w' = S (w_failed w) -> P None w') -> wruns (dm_new n) w P.
Proof.
  intros Hn H HS HN. unfold dm_new. apply wruns_bind. apply (wruns_malloc w R _ H); [|intros w1 H1 F1; apply wruns_ret; now apply HN].
  intros s w1 H1 F1. apply wruns_bind. apply (wruns_malloc w1 _ _ H1).
  - intros a w2 H2 F2. apply wruns_bind. apply (wruns_use a w2 _ _ H2); [rewrite cnt_cons, one_same; lia|]. apply wruns_ret.
    assert (C : content (mkDmap s a (repeat (mkDbucket None []) n)) = sm_new n).
    { unfold content, sm_new. cbn [dm_buckets]. clear. induction n as [|n IH]; [reflexivity|]. cbn [repeat map]. now rewrite IH. }
    apply HS.
    + apply (whas_as w2 _ _ H2). unfold dmap_blocks. cbn [dm_struct dm_array dm_buckets]. replace (buckets_blocks (repeat (mkDbucket None []) n)) with (@nil nat); [perm|].
      clear. induction n as [|n IH]; [reflexivity|]. cbn [repeat]. rewrite buckets_cons, <- IH. reflexivity.
    + unfold map_ok. rewrite C. cbn [dm_buckets]. rewrite repeat_length. split; [exact Hn|]. split; [|now apply sm_new_ok].
      apply Forall_forall. intros b I. apply repeat_spec in I. subst b. split; reflexivity.
    + intros k. rewrite C. apply sm_new_lookup.
    + congruence.
  - intros w2 H2 F2. apply wruns_bind. apply (wruns_free s w2 _ R _ H2); [perm|]. intros w3 H3 F3. apply wruns_ret. apply HN; [exact H3|congruence].
Qed.
Lemma free_pairs_runs l : forall w R (P : unit -> world -> Prop), whas w (pairs_blocks l ++ R) ->
  (forall w', whas w' R -> w_failed w' = w_failed w -> P tt w') -> wruns (free_pairs l) w P.
Proof.
  induction l as [|p l IH]; intros w R P H HP; cbn [free_pairs]; [apply wruns_ret; now apply HP|]. rewrite pairs_cons in H. cbn [app] in H.
  apply wruns_bind. apply (wruns_free _ w _ (d_value p :: pairs_blocks l ++ R) _ H); [perm|]. intros w1 H1 F1.
  apply wruns_bind. apply (wruns_free _ w1 _ (pairs_blocks l ++ R) _ H1); [perm|]. intros w2 H2 F2. apply (IH w2 R _ H2). intros w3 H3 F3. apply HP; [exact H3|congruence].
Qed.
Lemma free_bucket_runs b w R (P : unit -> world -> Prop) : shape b -> whas w (bucket_blocks b ++ R) ->
  (forall w', whas w' R -> w_failed w' = w_failed w -> P tt w') -> wruns (free_bucket b) w P.
Proof.
  intros Sh H HP. unfold free_bucket. apply wruns_bind.
  assert (Rest : wruns (free_pairs (b_pairs b) ;=; free_array (b_array b)) w P).
  { apply wruns_bind. apply (free_pairs_runs _ w (opt_block (b_array b) ++ R)).
    - apply (whas_as w _ _ H). unfold bucket_blocks. perm.
    - intros w1 H1 F1. unfold free_array. destruct (b_array b) as [a|]; cbn [opt_block app] in H1.
      + apply (wruns_free a w1 _ R _ H1); [perm|]. intros w2 H2 F2. apply HP; [exact H2|congruence].
      + apply wruns_ret. now apply HP. }
  destruct (b_pairs b) as [|p l] eqn:E; [apply wruns_ret; exact Rest|].
  apply (array_runs b w _ _ H Sh); [congruence|intros x; rewrite cnt_app; lia|exact Rest].
Qed.
Lemma free_buckets_runs l : forall w R (P : unit -> world -> Prop), Forall shape l -> whas w (buckets_blocks l ++ R) ->
  (forall w', whas w' R -> w_failed w' = w_failed w -> P tt w') -> wruns (free_buckets l) w P.
Proof.
  induction l as [|b l IH]; intros w R P Sh H HP; cbn [free_buckets]; [apply wruns_ret; now apply HP|]. inversion Sh as [|x y S1 S2]; subst. apply wruns_bind.
  apply (free_bucket_runs b w (buckets_blocks l ++ R) _ S1); [apply (whas_as w _ _ H); rewrite buckets_cons; perm|].
  intros w1 H1 F1. apply (IH w1 R _ S2 H1). intros w2 H2 F2. apply HP; [exact H2|congruence].
Qed.
Lemma delete_runs m w R (P : unit -> world -> Prop) : map_ok m -> whas w (dmap_blocks m ++ R) ->
  (forall w', whas w' R -> w_failed w' = w_failed w -> P tt w') -> wruns (dm_delete m) w P.
Proof.
  intros (_ & Sh & _) H HP. unfold dm_delete. unfold dmap_blocks in H. cbn [app] in H.
  apply wruns_bind. apply (wruns_use _ w _ _ H); [rewrite cnt_cons, one_same; lia|]. apply wruns_bind. apply (wruns_use _ w _ _ H); [rewrite !cnt_cons, one_same; lia|].
  apply wruns_bind. apply (free_buckets_runs _ w (dm_struct m :: dm_array m :: R) _ Sh); [apply (whas_as w _ _ H); perm|]. intros w1 H1 F1.
  apply wruns_bind. apply (wruns_free _ w1 _ (dm_struct m :: R) _ H1); [perm|]. intros w2 H2 F2. apply (wruns_free _ w2 _ R _ H2); [perm|].
  intros w3 H3 F3. apply HP; [exact H3|congruence].
Qed.

(** ---- Dictionaries ---- *)
Definition tells (d : dict) (s : shadow) : Prop :=
  match p_map d with
  | None => sh_alive s = false /\ forall k, sh_map s k = None
  | Some m => sh_alive s = true /\ map_ok m /\ forall k, sh_map s k = sm_lookup (content m) k
  end.
Lemma block_in d R : (0 < cnt (dict_blocks d ++ R) (p_block d))%nat.
Proof. unfold dict_blocks. cbn [app]. rewrite cnt_cons, one_same. lia. Qed.
Lemma delete_map_runs d s w R (P : unit -> world -> Prop) : tells d s -> whas w (omap_blocks (p_map d) ++ R) ->
  (forall w', whas w' R -> w_failed w' = w_failed w -> P tt w') -> wruns (delete_map (p_map d)) w P.
Proof.
  intros T H HP. unfold tells in T. unfold delete_map. destruct (p_map d) as [m|]; cbn [omap_blocks] in H.
  - destruct T as (_ & M & _). now apply (delete_runs m w R).
  - apply wruns_ret. now apply HP.
Qed.
(** Whether a call had all its memory *)
Definition calm (w w' : world) : bool := Nat.eqb (w_failed w) (w_failed w').
Lemma calm_same w w' : w_failed w' = w_failed w -> calm w w' = true.
Proof. intros H. apply Nat.eqb_eq. now symmetry. Qed.
Lemma calm_less w w' : (w_failed w < w_failed w')%nat -> calm w w' = false.
Proof. intros H. apply Nat.eqb_neq. lia. Qed.
(** The blocks are those of the dictionary, and the call means what it should *)
Definition means (s : shadow) (c : dcall) (w : world) (R : list nat) (r : dict * answer) (w' : world) : Prop :=
  whas w' (dict_blocks (fst r) ++ R) /\ (w_failed w <= w_failed w')%nat /\ exists s', tells (fst r) s' /\ explains s c (calm w w') (snd r) s'.
Lemma set_runs d s k v w R : tells d s -> whas w (dict_blocks d ++ R) -> wruns (dict_set d k v) w (fun d' w' => means s (DSet k v) w R (d', ANothing) w').
Proof.
  intros T H. unfold dict_set. apply wruns_bind. apply (wruns_use _ w _ _ H (block_in d R)). unfold tells in T. destruct (p_map d) as [m|] eqn:E.
  - destruct T as (A & M & L). apply wruns_bind. unfold dict_blocks in H. rewrite E in H. cbn [omap_blocks] in H.
    apply (wruns_weaken _ w (put_done m k v w (p_block d :: R))); [apply put_runs; [exact M|apply (whas_as w _ _ H); perm]|].
    intros [b m'] w' (H' & M' & _ & Q). cbn [fst snd] in *. apply wruns_ret. unfold means. cbn [fst snd]. split; [apply (whas_as w' _ _ H'); unfold dict_blocks; cbn [p_block p_map omap_blocks]; perm|].
    destruct b.
    + destruct Q as [F Q]. split; [lia|]. exists (mkShadow true (sm_lookup (content m'))). split; [unfold tells; cbn [p_map sh_alive sh_map]; auto|].
      cbn [explains sh_alive sh_map]. rewrite (calm_same _ _ F), A. cbn [andb]. split; [reflexivity|]. split; [reflexivity|]. intros k'.
      destruct (sm_put_spec (content m) k v (proj2 (proj2 M))) as (t & E' & _ & _ & Lt). rewrite Q in E'. injection E' as E'. subst t. rewrite Lt. unfold pm_set. now rewrite L.
    + destruct Q as [F ->]. split; [lia|]. exists s. split; [unfold tells; cbn [p_map]; auto|]. cbn [explains]. rewrite (calm_less _ _ F), andb_false_r. auto.
  - destruct T as [A L]. apply wruns_ret. unfold means. cbn [fst snd]. split; [exact H|]. split; [lia|]. exists s. split; [unfold tells; rewrite E; auto|].
    cbn [explains]. rewrite A. cbn [andb]. auto.
Qed.
Lemma size_runs d s k w R (P : nat -> world -> Prop) : tells d s -> whas w (dict_blocks d ++ R) ->
  P (match sh_map s k with Some t => S (List.length t) | None => O end) w -> wruns (dict_size d k) w P.
Proof.
  intros T H HP. unfold dict_size. apply wruns_bind. apply (wruns_use _ w _ _ H (block_in d R)). unfold tells in T. destruct (p_map d) as [m|] eqn:E.
  - destruct T as (A & M & L). unfold dict_blocks in H. rewrite E in H. cbn [omap_blocks] in H. unfold dm_get_size. apply wruns_bind.
    assert (H' : whas w (dmap_blocks m ++ p_block d :: R)) by (apply (whas_as w _ _ H); perm).
    apply (dm_find_runs m k w _ _ H' M). rewrite L, <- found_lookup in HP. destruct (found m k) as [p|] eqn:F; cbn [option_map] in HP; [|now apply wruns_ret].
    apply wruns_bind. apply (wruns_use _ w _ _ H' (found_value m k p _ M F)). now apply wruns_ret.
  - destruct T as [A L]. rewrite L in HP. now apply wruns_ret.
Qed.
Lemma has_runs d s k w R (P : bool -> world -> Prop) : tells d s -> whas w (dict_blocks d ++ R) ->
  P (match sh_map s k with Some _ => true | None => false end) w -> wruns (dict_has d k) w P.
Proof.
  intros T H HP. unfold dict_has. apply wruns_bind. apply (size_runs d s k w R _ T H). apply wruns_ret. now destruct (sh_map s k).
Qed.
Lemma get_runs d s k w R : tells d s -> whas w (dict_blocks d ++ R) ->
  wruns (r <== dict_get d k ;; got r) w (fun a w' => whas w' (dict_blocks d ++ R) /\ (w_failed w <= w_failed w')%nat /\ a = AText (if calm w w' then sh_map s k else None)).
Proof.
  intros T H. apply wruns_bind. unfold dict_get. apply wruns_bind. apply (size_runs d s k w R _ T H). destruct (sh_map s k) as [t|] eqn:Ek.
  2: { apply wruns_ret. apply wruns_ret. split; [exact H|]. split; [lia|]. now rewrite (calm_same w w eq_refl). }
  change (Nat.ltb (S (List.length t)) 1) with false. cbv iota. pose proof T as T'. unfold tells in T. destruct (p_map d) as [m|] eqn:E; [|destruct T as [_ L]; rewrite L in Ek; discriminate].
  destruct T as (A & M & L). rewrite L, <- found_lookup in Ek. destruct (found m k) as [p|] eqn:F; [|discriminate]. cbn [option_map] in Ek. injection Ek as Ek.
  assert (Same : same (dict_blocks d ++ R) (dmap_blocks m ++ p_block d :: R)) by (unfold dict_blocks; rewrite E; cbn [omap_blocks]; perm).
  apply wruns_bind. apply (wruns_malloc w _ _ H).
  - intros x w1 H1 F1. apply wruns_bind. unfold dm_get_copy. apply wruns_bind.
    assert (H1' : whas w1 (dmap_blocks m ++ x :: p_block d :: R)) by (apply (whas_as w1 _ _ H1); intros y; rewrite cnt_cons, (Same y); repeat rewrite ?cnt_app, ?cnt_cons; lia).
    apply (dm_find_runs m k w1 _ _ H1' M). rewrite F. apply wruns_bind. apply (wruns_use _ w1 _ _ H1' (found_value m k p _ M F)).
    rewrite Ek. replace (Nat.leb (S (List.length t)) (List.length t)) with false by (symmetry; apply Nat.leb_gt; lia). apply wruns_bind.
    apply (wruns_use x w1 _ _ H1); [rewrite cnt_cons, one_same; lia|]. apply wruns_ret. apply wruns_ret. unfold got. apply wruns_bind.
    apply (wruns_free x w1 _ (dict_blocks d ++ R) _ H1); [intros y; reflexivity|]. intros w2 H2 F2. apply wruns_ret. split; [exact H2|]. split; [lia|]. rewrite calm_same by congruence. reflexivity.
  - intros w1 H1 F1. apply wruns_bind. unfold dm_get_copy. apply wruns_bind. assert (H1' : whas w1 (dmap_blocks m ++ p_block d :: R)) by exact (whas_as w1 _ _ H1 Same).
    apply (dm_find_runs m k w1 _ _ H1' M). rewrite F. apply wruns_ret. apply wruns_ret. apply wruns_ret. split; [exact H1|]. split; [lia|]. rewrite calm_less by lia. reflexivity.
Qed.
Lemma pairs_content m : dm_pairs m = sm_enum (content m).
Proof.
  unfold dm_pairs, sm_enum, content. induction (dm_buckets m) as [|b l IH]; [reflexivity|]. cbn [map flat_map]. rewrite IH. f_equal. unfold texts. now rewrite map_map.
Qed.
Lemma enumerated m f : map_ok m -> (forall k, f k = sm_lookup (content m) k) -> enumerates (dm_pairs m) f.
Proof. intros M L. rewrite pairs_content. apply (enumerates_ext _ (sm_lookup (content m))); [intros k; now rewrite L|]. apply enum_enumerates, M. Qed.
Lemma nothing_listed f : (forall k : list N, f k = @None (list N)) -> enumerates [] f.
Proof. intros H. split; [constructor|]. intros k v. rewrite H. split; [intros []|discriminate]. Qed.
Lemma read_pairs_runs l : forall w L (P : unit -> world -> Prop), whas w L -> (forall x, (cnt (pairs_blocks l) x <= cnt L x)%nat) -> P tt w -> wruns (read_pairs l) w P.
Proof.
  induction l as [|p l IH]; intros w L P H C HP; cbn [read_pairs]; [now apply wruns_ret|].
  apply wruns_bind. apply (wruns_use _ w L _ H); [specialize (C (d_key p)); rewrite pairs_cons, cnt_cons, one_same in C; lia|].
  apply wruns_bind. apply (wruns_use _ w L _ H); [specialize (C (d_value p)); rewrite pairs_cons, !cnt_cons, one_same in C; lia|].
  apply (IH w L _ H); [|exact HP]. intros x. specialize (C x). rewrite pairs_cons, !cnt_cons in C. lia.
Qed.
Lemma read_buckets_runs l : forall w L (P : unit -> world -> Prop), Forall shape l -> whas w L -> (forall x, (cnt (buckets_blocks l) x <= cnt L x)%nat) -> P tt w -> wruns (read_buckets l) w P.
Proof.
  induction l as [|b l IH]; intros w L P Sh H C HP; cbn [read_buckets]; [now apply wruns_ret|]. inversion Sh as [|y z S1 S2]; subst.
  assert (C1 : forall x, (cnt (bucket_blocks b) x <= cnt L x)%nat) by (intros x; specialize (C x); rewrite buckets_cons, cnt_app in C; lia).
  assert (C2 : forall x, (cnt (buckets_blocks l) x <= cnt L x)%nat) by (intros x; specialize (C x); rewrite buckets_cons, cnt_app in C; lia).
  assert (Rest : wruns (read_pairs (b_pairs b) ;=; read_buckets l) w P).
  { apply wruns_bind. apply (read_pairs_runs _ w L _ H); [intros x; specialize (C1 x); unfold bucket_blocks in C1; rewrite cnt_app in C1; lia|]. now apply (IH w L). }
  apply wruns_bind. destruct (b_pairs b) as [|p q] eqn:E; [now apply wruns_ret|]. apply (array_runs b w L _ H S1); [congruence|exact C1|exact Rest].
Qed.
Lemma list_runs d s w R : tells d s -> whas w (dict_blocks d ++ R) -> wruns (dict_enum d) w (fun l w' => w' = w /\ enumerates l (sh_map s)).
Proof.
  intros T H. unfold dict_enum. apply wruns_bind. apply (wruns_use _ w _ _ H (block_in d R)). unfold tells in T. unfold dict_blocks in H. destruct (p_map d) as [m|].
  - destruct T as (A & M & L). cbn [omap_blocks] in H. unfold dmap_blocks in H. cbn [app] in H. unfold dm_enum. apply wruns_bind. apply (wruns_use _ w _ _ H); [rewrite !cnt_cons, one_same; lia|].
    apply wruns_bind. apply (wruns_use _ w _ _ H); [rewrite !cnt_cons, one_same; lia|]. apply wruns_bind.
    apply (read_buckets_runs _ w _ _ (proj1 (proj2 M)) H); [intros x; rewrite !cnt_cons, cnt_app; lia|]. apply wruns_ret. split; [reflexivity|]. now apply enumerated.
  - destruct T as [A L]. apply wruns_ret. split; [reflexivity|]. now apply nothing_listed.
Qed.
Lemma count_runs d s w R : tells d s -> whas w (dict_blocks d ++ R) -> wruns (dict_count d) w (fun n w' => w' = w /\ exists l, enumerates l (sh_map s) /\ n = List.length l).
Proof.
  intros T H. unfold dict_count. apply wruns_bind. apply (wruns_use _ w _ _ H (block_in d R)). unfold tells in T. unfold dict_blocks in H. destruct (p_map d) as [m|].
  - destruct T as (A & M & L). cbn [omap_blocks] in H. unfold dmap_blocks in H. cbn [app] in H. unfold dm_count. apply wruns_bind. apply (wruns_use _ w _ _ H); [rewrite !cnt_cons, one_same; lia|].
    apply wruns_bind. apply (wruns_use _ w _ _ H); [rewrite !cnt_cons, one_same; lia|]. apply wruns_ret. split; [reflexivity|]. exists (dm_pairs m). split; [now apply enumerated|reflexivity].
  - destruct T as [A L]. apply wruns_ret. split; [reflexivity|]. exists []. split; [now apply nothing_listed|reflexivity].
Qed.
Lemma clear_runs d s w R : tells d s -> whas w (dict_blocks d ++ R) -> wruns (dict_clear d) w (fun d' w' => means s DClear w R (d', ANothing) w').
Proof.
  intros T H. unfold dict_clear. apply wruns_bind. apply (wruns_use _ w _ _ H (block_in d R)). apply wruns_bind.
  apply (delete_map_runs d s w (p_block d :: R) _ T); [apply (whas_as w _ _ H); unfold dict_blocks; perm|]. intros w1 H1 F1. apply wruns_bind.
  apply (new_runs buckets w1 _ _ ltac:(unfold buckets; lia) H1).
  - intros m w2 H2 M L F2. apply wruns_bind. apply (wruns_use _ w2 _ _ H2); [rewrite cnt_app, cnt_cons, one_same; lia|]. apply wruns_ret. unfold means. cbn [fst snd].
    split; [apply (whas_as w2 _ _ H2); unfold dict_blocks; cbn [p_block p_map omap_blocks]; perm|]. split; [lia|].
    exists (mkShadow true (sm_lookup (content m))). split; [unfold tells; cbn [p_map sh_alive sh_map]; auto|]. cbn [explains sh_alive sh_map]. rewrite calm_same by congruence. auto.
  - intros w2 H2 F2. apply wruns_bind. apply (wruns_use _ w2 _ _ H2); [rewrite cnt_cons, one_same; lia|]. apply wruns_ret. unfold means. cbn [fst snd].
    split; [exact H2|]. split; [lia|]. exists (mkShadow false (fun _ => None)). split; [unfold tells; cbn [p_map sh_alive sh_map]; auto|].
    cbn [explains sh_alive sh_map]. rewrite calm_less by lia. auto.
Qed.
Lemma explains_set_merge s k v ok s1 : explains s (DSet k v) ok ANothing s1 -> sh_alive s1 = sh_alive s /\ (forall k', k' <> k -> sh_map s1 k' = sh_map s k') /\
  (sh_map s1 k = sh_map s k \/ sh_map s1 k = Some v) /\ (sh_alive s = true -> ok = true -> sh_map s1 k = Some v).
Proof.
  cbn [explains]. intros (_ & A & L). split; [exact A|]. split; [|split].
  - intros k' N. rewrite L. destruct (sh_alive s && ok); [|reflexivity]. unfold pm_set. now rewrite (proj2 (bytes_eqb_neq k k')) by congruence.
  - rewrite L. destruct (sh_alive s && ok); [right|now left]. unfold pm_set. now rewrite bytes_eqb_refl.
  - intros Ha ->. rewrite L, Ha. cbn [andb]. unfold pm_set. now rewrite bytes_eqb_refl.
Qed.
Lemma copy_one_runs o d s k v w R : tells d s -> whas w (dict_blocks d ++ R) ->
  wruns (dict_copy_one o d k v) w (fun d' w' => whas w' (dict_blocks d' ++ R) /\ (w_failed w <= w_failed w')%nat /\ exists s1, tells d' s1 /\ sh_alive s1 = sh_alive s /\
    (forall k', k' <> k -> sh_map s1 k' = sh_map s k') /\ (sh_map s1 k = sh_map s k \/ sh_map s1 k = merged o (sh_map s) [(k, v)] k) /\
    (sh_alive s = true -> calm w w' = true -> sh_map s1 k = merged o (sh_map s) [(k, v)] k)).
Proof.
  intros T H. assert (Mg : merged o (sh_map s) [(k, v)] k = if o then Some v else match sh_map s k with Some t => Some t | None => Some v end).
  { unfold merged. cbn [find fst snd]. rewrite bytes_eqb_refl. reflexivity. }
  rewrite Mg. clear Mg. unfold dict_copy_one. destruct o.
  - apply (wruns_weaken _ w _ _ (set_runs d s k v w R T H)). intros d' w' (H' & F & s1 & T1 & X). cbn [fst snd] in *. apply explains_set_merge in X as (A & B & C & D).
    split; [exact H'|]. split; [exact F|]. exists s1. auto.
  - apply wruns_bind. apply (has_runs d s k w R _ T H). destruct (sh_map s k) as [t|] eqn:Ek.
    + apply wruns_ret. split; [exact H|]. split; [lia|]. exists s. split; [exact T|]. auto.
    + apply (wruns_weaken _ w _ _ (set_runs d s k v w R T H)). intros d' w' (H' & F & s1 & T1 & X). cbn [fst snd] in *. apply explains_set_merge in X as (A & B & C & D).
      split; [exact H'|]. split; [exact F|]. exists s1. rewrite Ek in C. auto.
Qed.
Lemma find_absent (l : list (list N * list N)) k : ~ In k (map fst l) -> find (fun kv => bytes_eqb (fst kv) k) l = None.
Proof.
  induction l as [|[a b] l IH]; intros H; [reflexivity|]. cbn [find fst]. cbn [map fst In] in H. rewrite (proj2 (bytes_eqb_neq a k)) by (intros E; apply H; now left). apply IH. intros I. apply H. now right.
Qed.
Lemma append_runs o l : forall d s w R, NoDup (map fst l) -> tells d s -> whas w (dict_blocks d ++ R) ->
  wruns (dict_append o d l) w (fun d' w' => means s (DAppend o l) w R (d', ANothing) w').
Proof.
  induction l as [|[k v] l IH]; intros d s w R ND T H; cbn [dict_append].
  - apply wruns_ret. unfold means. cbn [fst snd]. split; [exact H|]. split; [lia|]. exists s. split; [exact T|]. cbn [explains]. split; [reflexivity|]. split; [reflexivity|]. split; [now left|]. reflexivity.
  - cbn [map fst] in ND. inversion ND as [|x y N1 N2]; subst. apply wruns_bind. apply (wruns_weaken _ w _ _ (copy_one_runs o d s k v w R T H)).
    intros d1 w1 (H1 & F1 & s1 & T1 & A1 & B1 & C1 & D1). apply (wruns_weaken _ w1 _ _ (IH d1 s1 w1 R N2 T1 H1)).
    intros d2 w2 (H2 & F2 & s2 & T2 & X). cbn [fst snd explains] in *. destruct X as (_ & A2 & B2 & C2). unfold means. cbn [fst snd]. split; [exact H2|]. split; [lia|].
    exists s2. split; [exact T2|]. cbn [explains]. split; [reflexivity|]. split; [congruence|].
    assert (Mk : merged o (sh_map s1) l k = sh_map s1 k) by (unfold merged; now rewrite (find_absent l k N1)).
    assert (Mh : merged o (sh_map s) ((k, v) :: l) k = merged o (sh_map s) [(k, v)] k) by (unfold merged; cbn [find fst]; now rewrite bytes_eqb_refl).
    assert (Mo : forall k', k' <> k -> merged o (sh_map s1) l k' = merged o (sh_map s) ((k, v) :: l) k').
    { intros k' N. unfold merged. cbn [find fst]. rewrite (proj2 (bytes_eqb_neq k k')) by congruence. now rewrite (B1 k' N). }
    split.
    + intros k'. destruct (bytes_eq_dec k' k) as [->|N].
      * rewrite Mh. destruct (B2 k) as [E|E]; [|rewrite Mk in E]; rewrite E; exact C1.
      * rewrite <- (Mo k' N), <- (B1 k' N). apply B2.
    + intros Al Ca. assert (Fe : w_failed w = w_failed w2) by now apply Nat.eqb_eq. assert (Ca1 : calm w w1 = true) by (apply calm_same; lia). assert (Ca2 : calm w1 w2 = true) by (apply calm_same; lia).
      intros k'. specialize (C2 ltac:(congruence) Ca2 k'). rewrite C2. destruct (bytes_eq_dec k' k) as [->|N]; [rewrite Mk, Mh; exact (D1 Al Ca1)|exact (Mo k' N)].
Qed.

(** ---- Histories ---- *)
Lemma call_runs d s c w R : tells d s -> dcall_ok c -> whas w (dict_blocks d ++ R) -> wruns (do_dcall d c) w (means s c w R).
Proof.
  intros T Ok H. destruct c as [k v|o l|k|k| | |]; cbn [do_dcall]; unfold changed, answered; apply wruns_bind.
  - apply (wruns_weaken _ w _ _ (set_runs d s k v w R T H)). intros d' w' X. now apply wruns_ret.
  - apply (wruns_weaken _ w _ _ (append_runs o l d s w R Ok T H)). intros d' w' X. now apply wruns_ret.
  - apply (wruns_weaken _ w _ _ (get_runs d s k w R T H)). intros a w' (H' & F & ->). apply wruns_ret. split; [exact H'|]. split; [exact F|]. exists s. split; [exact T|]. cbn [explains fst snd]. auto.
  - apply wruns_bind. apply (has_runs d s k w R _ T H). apply wruns_ret. apply wruns_ret. split; [exact H|]. split; [lia|]. exists s. split; [exact T|]. cbn [explains fst snd]. auto.
  - apply wruns_bind. apply (wruns_weaken _ w _ _ (count_runs d s w R T H)). intros n w' (-> & l & E & ->). apply wruns_ret. apply wruns_ret. split; [exact H|]. split; [lia|]. exists s. split; [exact T|].
    cbn [explains fst snd]. split; [reflexivity|]. exists l. auto.
  - apply wruns_bind. apply (wruns_weaken _ w _ _ (list_runs d s w R T H)). intros l w' (-> & E). apply wruns_ret. apply wruns_ret. split; [exact H|]. split; [lia|]. exists s. split; [exact T|].
    cbn [explains fst snd]. split; [reflexivity|]. exists l. auto.
  - apply (wruns_weaken _ w _ _ (clear_runs d s w R T H)). intros d' w' X. now apply wruns_ret.
Qed.
Lemma calls_run l : forall d s w R, Forall dcall_ok l -> tells d s -> whas w (dict_blocks d ++ R) ->
  wruns (do_dcalls d l) w (fun r w' => whas w' (dict_blocks (fst r) ++ R) /\ (exists s', tells (fst r) s') /\ explained s l (snd r)).
Proof.
  induction l as [|c l IH]; intros d s w R Ok T H; cbn [do_dcalls].
  - apply wruns_ret. cbn [fst snd]. split; [exact H|]. split; [now exists s|constructor].
  - inversion Ok as [|x y O1 O2]; subst. destruct (call_runs d s c w R T O1 H) as ([d1 a] & w1 & E1 & H1 & _ & s1 & T1 & X1). cbn [fst snd] in *.
    destruct (IH d1 s1 w1 R O2 T1 H1) as ([d2 r] & w2 & E2 & H2 & T2 & X2). cbn [fst snd] in *.
    eexists _, _. cbv beta. rewrite E1. cbn [obind fst snd]. rewrite E2. cbn [obind fst snd]. split; [reflexivity|]. cbn [fst snd]. split; [exact H2|]. split; [exact T2|].
    exact (explained_cons s c _ a s1 l r X1 X2).
Qed.
Lemma release_runs d s w R : tells d s -> whas w (dict_blocks d ++ R) -> wruns (dict_release d) w (fun _ w' => whas w' R).
Proof.
  intros T H. unfold dict_release. apply wruns_bind. apply (wruns_use _ w _ _ H (block_in d R)). apply wruns_bind.
  apply (delete_map_runs d s w (p_block d :: R) _ T); [apply (whas_as w _ _ H); unfold dict_blocks; perm|]. intros w1 H1 F1.
  apply (wruns_free _ w1 _ R _ H1); [intros y; reflexivity|]. intros w2 H2 _. exact H2.
Qed.
Lemma create_runs w R : whas w R -> match w_plan w with false :: _ => dict_create w = UB | _ =>
  wruns dict_create w (fun d w' => whas w' (dict_blocks d ++ R) /\ exists s, tells d s /\ sh_alive s = calm w w' /\ forall k, sh_map s k = None) end.
Proof.
  intros H. assert (Made : w_plan w = [] \/ (exists p, w_plan w = true :: p) -> wruns dict_create w (fun d w' => whas w' (dict_blocks d ++ R) /\ exists s, tells d s /\ sh_alive s = calm w w' /\ forall k, sh_map s k = None)).
  { intros Hp. unfold dict_create. apply wruns_bind.
    assert (X : wruns malloc w (fun x w' => exists b, x = Some b /\ whas w' (b :: R) /\ w_failed w' = w_failed w)).
    { destruct (wruns_malloc w R (fun x w' => (exists b, x = Some b /\ whas w' (b :: R) /\ w_failed w' = w_failed w) \/ w_failed w' = S (w_failed w)) H) as (x & w' & E & [Q|Q]).
      - intros b w' A B. left. exists b. auto.
      - intros w' A B. right. exact B.
      - exists x, w'. split; [exact E|exact Q].
      - exfalso. unfold malloc in E. destruct Hp as [Hp|[p Hp]]; rewrite Hp in E; cbn [obind new fst snd] in E; unfold new in E; cbn [obind fst snd] in E; injection E as _ E; subst w'; cbn [w_failed] in Q; lia. }
    apply (wruns_weaken _ w _ _ X). intros x w1 (b & -> & H1 & F1). apply wruns_bind. apply (new_runs buckets w1 _ _ ltac:(unfold buckets; lia) H1).
    - intros m w2 H2 M L F2. apply wruns_bind. apply (wruns_use _ w2 _ _ H2); [rewrite cnt_app, cnt_cons, one_same; lia|]. apply wruns_ret.
      split; [apply (whas_as w2 _ _ H2); unfold dict_blocks; cbn [p_block p_map omap_blocks]; perm|].
      exists (mkShadow true (sm_lookup (content m))). split; [unfold tells; cbn [p_map sh_alive sh_map]; auto|]. cbn [sh_alive sh_map]. rewrite calm_same by congruence. auto.
    - intros w2 H2 F2. apply wruns_bind. apply (wruns_use _ w2 _ _ H2); [rewrite cnt_cons, one_same; lia|]. apply wruns_ret. split; [exact H2|].
      exists (mkShadow false (fun _ => None)). split; [unfold tells; cbn [p_map sh_alive sh_map]; auto|]. cbn [sh_alive sh_map]. rewrite calm_less by lia. auto. }
  destruct (w_plan w) as [|[] p] eqn:E; [apply Made; now left|apply Made; right; now exists p|]. unfold dict_create, ab, malloc. rewrite E. reflexivity.
Qed.
Lemma life_runs w l : world_ok w -> ~ no_memory_at_all w -> Forall dcall_ok l ->
  exists d w1 d' r w2 w3, dict_create w = Ok (d, w1) /\ do_dcalls d l w1 = Ok ((d', r), w2) /\ dict_release d' w2 = Ok (tt, w3) /\
    explained (mkShadow (Nat.eqb (w_failed w) (w_failed w1)) pm_empty) l r /\ Permutation (m_live (w_mem w3)) (m_live (w_mem w)).
Proof.
  intros W N Ok. pose proof (mem_holds _ W) as H. pose proof (create_runs w _ H) as C.
  assert (C' : wruns dict_create w (fun d w' => whas w' (dict_blocks d ++ m_live (w_mem w)) /\ exists s, tells d s /\ sh_alive s = calm w w' /\ forall k, sh_map s k = None)).
  { destruct (w_plan w) as [|[] p] eqn:E; [exact C|exact C|]. destruct N. now exists p. }
  clear C. destruct C' as (d & w1 & E1 & H1 & s & T & A & L).
  assert (T' : tells d (mkShadow (calm w w1) pm_empty)).
  { unfold tells in *. cbn [sh_alive sh_map]. destruct (p_map d); [destruct T as (T1 & T2 & T3)|destruct T as (T1 & T2)].
    - split; [congruence|]. split; [exact T2|]. intros k. rewrite <- T3, L. reflexivity.
    - split; [congruence|]. reflexivity. }
  destruct (calls_run l d _ w1 _ Ok T' H1) as ([d' r] & w2 & E2 & H2 & (s' & T2) & X). cbn [fst snd] in *.
  destruct (release_runs d' s' w2 _ T2 H2) as ([] & w3 & E3 & H3).
  exists d, w1, d', r, w2, w3. split; [exact E1|]. split; [exact E2|]. split; [exact E3|]. split; [exact X|]. now apply holds_perm.
Qed.
Lemma create_crashes w : no_memory_at_all w -> dict_create w = UB.
Proof. intros [p E]. unfold dict_create, ab, malloc. rewrite E. reflexivity. Qed.
