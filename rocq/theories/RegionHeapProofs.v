(** Lemmas about the region functions with their memory. *)
From Verif Require Import CBase Num Buffer Region FloatOps RegionGeom Formats Handle Lists ListsSpec ListsProofs WrapProofs RegionApi RegionApiSpec RegionApiProofs.
From Verif Require Import HandleProofs StrMap GeomProofs OverlapProofs RegionHeap RegionHeapSpec.
Local Open Scope Z_scope.

(** ---- sizes are kept ---- *)
Lemma set_nth_len {A} (b : list A) : forall i v, List.length (set_nth b i v) = List.length b.
Proof. induction b as [|x b IH]; intros [|i] v; cbn; auto. Qed.
Lemma put_len b i v b' : put b i v = Ok b' -> List.length b' = List.length b.
Proof.
  unfold put, blk_write. destruct (0 <=? i); [|discriminate]. destruct (Nat.ltb _ _); [|discriminate]. intros E. injection E as <-. apply set_nth_len.
Qed.
Lemma mem_set_len b v n b' : mem_set b v n = Ok b' -> List.length b' = List.length b.
Proof.
  unfold mem_set. destruct (0 <=? n) eqn:E; [|discriminate]. cbn [andb]. destruct (Nat.leb_spec (Z.to_nat n) (List.length b)) as [L|L]; [|discriminate].
  intros X. injection X as <-. rewrite app_length, repeat_length, skipn_length. lia.
Qed.
Lemma for_range_keep {A} (P : A -> Prop) body n : forall i s s', (forall i s s', P s -> body i s = Ok s' -> P s') -> P s ->
  for_range n i body s = Ok s' -> P s'.
Proof.
  induction n as [|n IH]; intros i s s' B Hs E; cbn [for_range] in E; [injection E as <-; exact Hs|].
  destruct (body i s) as [s1| | |] eqn:E1; try discriminate. cbn [obind] in E. exact (IH _ _ _ B (B _ _ _ Hs E1) E).
Qed.
Definition sized (n : nat) (s : raster) : Prop := exists b, fst s = Some b /\ List.length b = n.
Lemma set_pixel_sized n w row j s s' : sized n s -> set_pixel w row j s = Ok s' -> sized n s'.
Proof.
  intros (b & E & L). unfold set_pixel. rewrite E. destruct (int_result (row * w)) as [a| | |]; try discriminate. cbn [obind].
  destruct (int_result (a + j)) as [k| | |]; try discriminate. cbn [obind]. destruct (put b k 1%N) as [b'| | |] eqn:P; try discriminate. cbn [obind].
  destruct (int_result (snd s + 1)) as [sum| | |]; try discriminate. cbn [obind]. intros X. injection X as <-. exists b'. cbn [fst].
  split; [reflexivity|]. rewrite (put_len _ _ _ _ P). exact L.
Qed.
Lemma range_sized n w row k i s s' : sized n s -> for_range k i (set_pixel w row) s = Ok s' -> sized n s'.
Proof. intros Hs. apply for_range_keep; [|exact Hs]. intros i0 s0 s1. apply set_pixel_sized. Qed.
Lemma fill_pairs_sized n w row : forall nodes s s', sized n s -> fill_pairs w row nodes s = Ok s' -> sized n s'.
Proof.
  enough (X : forall k nodes s s', (List.length nodes <= k)%nat -> sized n s -> fill_pairs w row nodes s = Ok s' -> sized n s') by (intros nodes s s'; apply (X (List.length nodes)); lia).
  induction k as [|k IH]; intros nodes s s' L Hs E.
  - destruct nodes; [|cbn in L; lia]. cbn in E. injection E as <-. exact Hs.
  - destruct nodes as [|a [|b rest]]; cbn [fill_pairs] in E; [injection E as <-; exact Hs|injection E as <-; exact Hs|].
    destruct (w <=? a); [injection E as <-; exact Hs|].
    destruct ((a =? b) && _); [refine (IH (b :: rest) s s' _ Hs E); cbn [List.length] in *; lia|].
    match type of E with obind ?o _ = _ => destruct o as [s1| | |] eqn:E1; try discriminate end. cbn [obind] in E.
    refine (IH rest s1 s' _ _ E); [cbn [List.length] in *; lia|]. destruct (0 <=? b); [exact (range_sized _ _ _ _ _ _ _ Hs E1)|injection E1 as <-; exact Hs].
Qed.
Lemma fill_pairs_legacy_sized n w row : forall nodes s s', sized n s -> fill_pairs_legacy w row nodes s = Ok s' -> sized n s'.
Proof.
  enough (X : forall k nodes s s', (List.length nodes <= k)%nat -> sized n s -> fill_pairs_legacy w row nodes s = Ok s' -> sized n s') by (intros nodes s s'; apply (X (List.length nodes)); lia).
  induction k as [|k IH]; intros nodes s s' L Hs E.
  - destruct nodes; [|cbn in L; lia]. cbn in E. injection E as <-. exact Hs.
  - destruct nodes as [|a [|b rest]]; cbn [fill_pairs_legacy] in E; [injection E as <-; exact Hs|destruct (w <=? a); [injection E as <-; exact Hs|discriminate]|].
    destruct (w <=? a); [injection E as <-; exact Hs|].
    match type of E with obind ?o _ = _ => destruct o as [s1| | |] eqn:E1; try discriminate end. cbn [obind] in E.
    refine (IH rest s1 s' _ _ E); [cbn [List.length] in *; lia|]. destruct (0 <? b); [exact (range_sized _ _ _ _ _ _ _ Hs E1)|injection E1 as <-; exact Hs].
Qed.
Lemma raster_row_sized n legacy pts w row s s' : sized n s -> raster_row legacy pts w row s = Ok s' -> sized n s'.
Proof.
  intros Hs. unfold raster_row. destruct (row_nodes _ _ _ _) as [nodes| | |]; try discriminate. cbn [obind].
  destruct (bubble_sort nodes) as [sorted| | |]; try discriminate. cbn [obind]. destruct legacy; [apply fill_pairs_legacy_sized|apply fill_pairs_sized]; exact Hs.
Qed.
Lemma copy_row_len data mw ox oy gx gy w tw i b b' : copy_row data mw ox oy gx gy w tw i b = Ok b' -> List.length b' = List.length b.
Proof.
  unfold copy_row. apply (for_range_keep (fun x => List.length x = List.length b)); [|reflexivity]. intros j s s' L. unfold copy_pixel.
  repeat (match goal with |- obind ?o _ = _ -> _ => destruct o; try discriminate end; cbn [obind]). intros X. rewrite (put_len _ _ _ _ X). exact L.
Qed.
Lemma offset_len legacy v b x y w h b' : get_mask_offset legacy v b x y w h = Ok b' -> List.length b' = List.length b.
Proof.
  assert (RA : forall pts nx ny, (s <- rasterize legacy (offset_polygon pts nx ny) (Some b) w h ;; match fst s with Some b' => Ok b' | None => UB end) = Ok b' -> List.length b' = List.length b).
  { intros pts nx ny. unfold rasterize. destruct (int_result (w * h)) as [size| | |]; try discriminate. cbn [obind].
    destruct (mem_set b 0%N size) as [b1| | |] eqn:M; try discriminate. cbn [obind]. cbv zeta.
    destruct (for_range _ _ _ _) as [s| | |] eqn:F; try discriminate. cbn [obind].
    assert (K : sized (List.length b) s).
    { refine (for_range_keep (sized (List.length b)) _ _ _ _ _ _ _ F); [intros i s0 s1; apply raster_row_sized|]. exists b1. split; [reflexivity|exact (mem_set_len _ _ _ _ M)]. }
    destruct K as (b2 & E & L). rewrite E. intros X. injection X as <-. exact L. }
  destruct v as [code|rx ry rw rh|pts|mx my mw mh data]; cbn [get_mask_offset]; [discriminate| | |].
  - destruct (int_result (- x)); try discriminate. cbn [obind]. destruct (int_result (- y)); try discriminate. cbn [obind]. cbv zeta. apply RA.
  - destruct (int_result (- x)); try discriminate. cbn [obind]. destruct (int_result (- y)); try discriminate. cbn [obind]. cbv zeta. apply RA.
  - cbv zeta. repeat (match goal with |- obind (int_result ?o) _ = _ -> _ => destruct (int_result o); try discriminate end; cbn [obind]).
    destruct (mem_set b 0%N _) as [b1| | |] eqn:M; try discriminate. cbn [obind].
    intros X. rewrite <- (mem_set_len _ _ _ _ M). revert X. apply (for_range_keep (fun s => List.length s = List.length b1)); [|reflexivity].
    intros i s s' L X. rewrite (copy_row_len _ _ _ _ _ _ _ _ _ _ _ X). exact L.
Qed.

(** ---- stores with something appended ---- *)
Lemma nth_behind {A} (l e : list (option A)) k : nth (List.length l + k) (l ++ e) None = nth k e None.
Proof. rewrite app_nth2 by lia. f_equal. lia. Qed.
Lemma update_behind {A} (l e : list A) : forall k v, update (l ++ e) (List.length l + k) v = l ++ update e k v.
Proof. induction l as [|x l IH]; intros k v; cbn; [reflexivity|]. now rewrite IH. Qed.
Lemma update_before {A} (l e : list A) : forall k v, (k < List.length l)%nat -> update (l ++ e) k v = update l k v ++ e.
Proof. induction l as [|x l IH]; intros [|k] v H; cbn in *; try lia; [reflexivity|]. now rewrite IH by lia. Qed.
Lemma nth_before {A} (l e : list (option A)) p a : nth p l None = Some a -> nth p (l ++ e) None = Some a.
Proof. intros H. rewrite app_nth1 by (eapply nth_some_length; eauto). exact H. Qed.
Lemma nth_none {A} n p : nth p (@repeat (option A) None n) None = None.
Proof. revert p. induction n; intros [|p]; cbn; auto. Qed.
Lemma nth_nones {A} (l : list (option A)) n p : nth p (l ++ repeat None n) None = nth p l None.
Proof.
  destruct (Nat.ltb_spec p (List.length l)) as [L|L]; [now rewrite app_nth1|]. rewrite app_nth2 by lia. rewrite nth_none. now rewrite nth_overflow by lia.
Qed.
Lemma inv_more m s a b c : inv m s ->
  inv (mkHeap (floats m ++ repeat None a) (chars m ++ repeat None b) (regions m ++ repeat None c)) (s ++ repeat None c).
Proof.
  intros (L & R & (OF1 & OF2) & OC1 & OC2). split; [cbn; rewrite !app_length, !repeat_length; lia|split; [|split]]; cbn [regions floats chars].
  - intros h. rewrite !nth_nones. specialize (R h). destruct (nth h (regions m) None) as [d|], (nth h s None) as [u|]; try exact R.
    eapply stands_frame; [| |exact R]; intros p _; apply nth_nones.
  - split.
    + intros p. rewrite nth_nones, OF1. split; intros (h & d & E & J); exists h, d; split; try exact J; [rewrite nth_nones|rewrite nth_nones in E]; exact E.
    + intros p h h' d d'. rewrite !nth_nones. apply OF2.
  - split.
    + intros p. rewrite nth_nones, OC1. split; intros (h & d & E & J); exists h, d; split; try exact J; [rewrite nth_nones|rewrite nth_nones in E]; exact E.
    + intros p h h' d d'. rewrite !nth_nones. apply OC2.
Qed.

(** ---- reading ---- *)
Lemma written_map {A} (l : list (option A)) : forall r, all_written l = Some r -> l = map Some r.
Proof.
  induction l as [|[x|] l IH]; intros r E; cbn in E; [injection E as <-; reflexivity| |discriminate].
  destruct (all_written l) as [r'|]; [|discriminate]. injection E as <-. cbn. now rewrite (IH r').
Qed.
Lemma all_written_map {A} (r : list A) : all_written (map Some r) = Some r.
Proof. induction r; cbn; [reflexivity|]. now rewrite IHr. Qed.
Lemma seen_shown c v : seen c = Some v -> c = shown v.
Proof.
  destruct c as [code|x y w h|l|x y w h l]; cbn [seen]; try (intros E; injection E as <-; reflexivity).
  - destruct (all_written l) as [r|] eqn:E; [|discriminate]. intros X. injection X as <-. cbn [shown]. now rewrite (written_map _ _ E).
  - destruct (all_written l) as [r|] eqn:E; [|discriminate]. intros X. injection X as <-. cbn [shown]. now rewrite (written_map _ _ E).
Qed.
Definition firsts (pts : list (spec_float * spec_float)) : list (option spec_float) := map (fun p => Some (fst p)) pts.
Definition seconds (pts : list (spec_float * spec_float)) : list (option spec_float) := map (fun p => Some (snd p)) pts.
Definition has_points (m : heap) (xs ys : nat) (pts : list (spec_float * spec_float)) : Prop :=
  nth xs (floats m) None = Some (firsts pts) /\ nth ys (floats m) None = Some (seconds pts).
Lemma firsts_map pts : map (option_map fst) (map Some pts) = firsts pts. Proof. unfold firsts. now rewrite map_map. Qed.
Lemma seconds_map pts : map (option_map snd) (map Some pts) = seconds pts. Proof. unfold seconds. now rewrite map_map. Qed.
Lemma read_col (f : spec_float * spec_float -> spec_float) pts : blk_read (map (fun p => Some (f p)) pts) (List.length pts) = Ok (map f pts).
Proof. induction pts; cbn; [reflexivity|]. rewrite IHpts. reflexivity. Qed.
Lemma combine_cols (pts : list (spec_float * spec_float)) : combine (map fst pts) (map snd pts) = pts.
Proof. induction pts as [|(x, y) pts IH]; cbn; [reflexivity|]. now rewrite IH. Qed.
Lemma load_points_ok m xs ys pts : has_points m xs ys pts -> load_points m (Z.of_nat (List.length pts)) xs ys = Ok pts.
Proof.
  intros (X & Y). unfold load_points. rewrite Nat2Z.id. rewrite (the_ok _ _ _ X). cbn [obind]. unfold firsts. rewrite read_col. cbn [obind].
  rewrite (the_ok _ _ _ Y). cbn [obind]. unfold seconds. rewrite read_col. cbn [obind]. now rewrite combine_cols.
Qed.
(** what a value looks like in the store *)
Definition holds_value (m : heap) (h : nat) (v : region) : Prop :=
  match v with
  | RSpecial code => nth h (regions m) None = Some (CSpecial code)
  | RRect x y w hh => nth h (regions m) None = Some (CRect x y w hh)
  | RPoly pts => exists xs ys, nth h (regions m) None = Some (CPoly (Z.of_nat (List.length pts)) xs ys) /\ has_points m xs ys pts
  | RMask x y w hh data => exists d, nth h (regions m) None = Some (CMask x y w hh d) /\ nth d (chars m) None = Some (map Some data) /\
      0 < w /\ 0 < hh /\ w * hh <= INT_MAX /\ Z.of_nat (List.length data) = w * hh
  end.
Lemma inv_value m s h v : inv m s -> nth h s None = Some (shown v) -> holds_value m h v.
Proof.
  intros H E. destruct (inv_content m s h _ H E) as (c & C & ST). destruct v as [code|x y w hh|pts|x y w hh data], c as [code'|x' y' w' h'|n xs ys|x' y' w' h' d]; cbn [shown stands holds_value] in *; try contradiction.
  - congruence.
  - destruct ST as (-> & -> & -> & ->). exact C.
  - destruct ST as (-> & _ & X & Y). rewrite map_length in C. exists xs, ys. split; [exact C|]. split; [now rewrite <- firsts_map|now rewrite <- seconds_map].
  - destruct ST as (-> & -> & -> & -> & W & HH & M & L & D). rewrite map_length in L. exists d. auto 10.
Qed.
Lemma sees_shown s r v : sees s r v -> nth r s None = Some (shown v).
Proof. intros (c & E & S1). now rewrite <- (seen_shown _ _ S1). Qed.
Lemma load_ok m h v : holds_value m h v -> load m h = Ok v.
Proof.
  destruct v as [code|x y w hh|pts|x y w hh data]; cbn [holds_value]; unfold load.
  - intros E. now rewrite (the_ok _ _ _ E).
  - intros E. now rewrite (the_ok _ _ _ E).
  - intros (xs & ys & E & P). rewrite (the_ok _ _ _ E). cbn [obind]. now rewrite (load_points_ok _ _ _ _ P).
  - intros (d & E & D & W & HH & M & L). rewrite (the_ok _ _ _ E). cbn [obind]. rewrite (the_ok _ _ _ D). cbn [obind].
    assert (0 < w * hh) by (apply Z.mul_pos_pos; lia). rewrite int_ok by lia. cbn [obind]. rewrite (blk_read_some data) by lia. reflexivity.
Qed.

(** ---- copies of points ---- *)
Lemma clone_points_at m xs ys pts : has_points m xs ys pts ->
  clone_points m (Z.of_nat (List.length pts)) xs ys =
  Ok (List.length (floats m), S (List.length (floats m)), mkHeap (floats m ++ [Some (firsts pts); Some (seconds pts)]) (chars m) (regions m)).
Proof.
  intros (X & Y). pose proof (clone_points_ok m (map Some pts) xs ys) as C. rewrite map_length, firsts_map, seconds_map in C. exact (C X Y).
Qed.
Lemma nth_at0 {A} (l e : list (option A)) : nth (List.length l) (l ++ e) None = nth 0 e None.
Proof. rewrite <- (nth_behind l e 0). f_equal. lia. Qed.
Lemma nth_at1 {A} (l e : list (option A)) : nth (S (List.length l)) (l ++ e) None = nth 1 e None.
Proof. rewrite <- (nth_behind l e 1). f_equal. lia. Qed.
Lemma update_at0 {A} (l e : list A) v : update (l ++ e) (List.length l) v = l ++ update e 0 v.
Proof. rewrite <- update_behind. f_equal. lia. Qed.
Lemma update_at1 {A} (l e : list A) v : update (l ++ e) (S (List.length l)) v = l ++ update e 1 v.
Proof. rewrite <- update_behind. f_equal. lia. Qed.
Lemma mapped_points_ok m f g xs ys pts : has_points m xs ys pts ->
  mapped_points m f g (Z.of_nat (List.length pts)) xs ys =
  Ok (List.length (floats m), S (List.length (floats m)),
      mkHeap (floats m ++ [Some (firsts (map (fun p => (f (fst p), g (snd p))) pts)); Some (seconds (map (fun p => (f (fst p), g (snd p))) pts))]) (chars m) (regions m)).
Proof.
  intros P. unfold mapped_points. rewrite (clone_points_at _ _ _ _ P). cbn [obind]. rewrite Nat2Z.id. cbn [floats].
  assert (N0 : forall a b : list (option spec_float), nth (List.length (floats m)) (floats m ++ [Some a; Some b]) None = Some a).
  { intros a b. rewrite nth_at0. reflexivity. }
  assert (N1 : forall a b : list (option spec_float), nth (S (List.length (floats m))) (floats m ++ [Some a; Some b]) None = Some b).
  { intros a b. rewrite nth_at1. reflexivity. }
  rewrite (the_ok _ _ _ (N0 _ _)). cbn [obind]. unfold firsts at 1. rewrite read_col. cbn [obind].
  rewrite (set_floats_ok _ _ (firsts pts)) by (cbn [floats]; apply N0). cbn [obind floats chars regions].
  rewrite update_at0. cbn [update]. rewrite (the_ok _ _ _ (N1 _ _)). cbn [obind]. unfold seconds at 1. rewrite read_col. cbn [obind].
  rewrite (set_floats_ok _ _ (seconds pts)) by (cbn [floats]; apply N1). cbn [obind floats chars regions].
  rewrite update_at1. cbn [update]. unfold firsts, seconds. rewrite !map_map. reflexivity.
Qed.

(** ---- rasterisation ---- *)
Lemma firsts_len pts : List.length (firsts pts) = List.length pts. Proof. apply map_length. Qed.
Lemma raster_rows_ok legacy m xs ys pts d b b' n w h : has_points m xs ys pts -> nth d (chars m) None = Some b ->
  for_range (Z.to_nat h) 0 (raster_row legacy pts w) (Some b, 0) = Ok (Some b', n) ->
  raster_rows legacy m (Z.of_nat (List.length pts)) xs ys d w h = Ok (mkHeap (floats m) (update (chars m) d (Some b')) (regions m)).
Proof.
  intros P D F. unfold raster_rows. rewrite (load_points_ok _ _ _ _ P). cbn [obind]. rewrite (the_ok _ _ _ D). cbn [obind]. unfold block in *. rewrite F. cbn [obind fst].
  now rewrite (set_chars_ok _ _ _ _ D).
Qed.
Definition extra (legacy : bool) : nat := if legacy then 0 else 2.
Lemma rasterize_region_ok legacy m xs ys pts d b b' n w h : has_points m xs ys pts -> nth d (chars m) None = Some b ->
  rasterize legacy pts (Some b) w h = Ok (Some b', n) ->
  rasterize_region legacy m (Z.of_nat (List.length pts)) xs ys d w h =
    Ok (mkHeap (floats m ++ repeat None (extra legacy)) (update (chars m) d (Some b') ++ [None]) (regions m)).
Proof.
  intros P D E. unfold rasterize in E. destruct (int_result (w * h)) as [size| | |] eqn:I1; try discriminate. cbn [obind] in E.
  destruct (mem_set b 0%N size) as [b1| | |] eqn:M; try discriminate. cbn [obind] in E. cbv zeta in E.
  unfold rasterize_region, new_chars. rewrite I1. cbn [obind floats chars regions]. pose proof (nth_some_length _ _ _ D) as LD.
  rewrite (the_ok _ _ b) by (now apply nth_before). cbn [obind]. rewrite M. cbn [obind].
  rewrite (set_chars_ok _ _ b) by (cbn [chars]; now apply nth_before). cbn [obind floats chars regions]. rewrite update_before by exact LD.
  set (cs := update (chars m) d (Some b1) ++ [Some (repeat None (Z.to_nat (Z.of_nat (List.length pts))))]).
  assert (D1 : nth d cs None = Some b1). { apply nth_before. rewrite nth_update by exact LD. now rewrite Nat.eqb_refl. }
  assert (U : forall x, update cs d (Some x) = update (chars m) d (Some x) ++ [Some (repeat None (Z.to_nat (Z.of_nat (List.length pts))))]).
  { intros x. unfold cs. rewrite update_before by (now rewrite update_length). now rewrite update_twice. }
  assert (FIN : forall fs, set_chars (mkHeap fs (update cs d (Some b')) (regions m)) (List.length (chars m)) None =
    Ok (mkHeap fs (update (chars m) d (Some b') ++ [None]) (regions m))).
  { intros fs. rewrite U. pose proof (update_length (chars m) d (Some b')) as L. rewrite <- L.
    rewrite (set_chars_ok _ _ (repeat None (Z.to_nat (Z.of_nat (List.length pts))))) by (cbn [chars]; rewrite nth_at0; reflexivity).
    cbn [floats chars regions]. rewrite update_at0. reflexivity. }
  destruct legacy.
  - cbn [extra]. rewrite (raster_rows_ok true (mkHeap (floats m) cs (regions m)) xs ys pts d b1 b' n w h P D1 E). cbn [obind floats chars regions].
    rewrite FIN. cbn [repeat]. now rewrite app_nil_r.
  - cbn [extra]. unfold round_points. rewrite (mapped_points_ok (mkHeap (floats m) cs (regions m)) _ _ xs ys pts P). cbn [obind floats chars regions].
    fold (round_polygon pts). set (rp := round_polygon pts) in *.
    assert (Lr : List.length rp = List.length pts) by apply map_length. rewrite <- Lr.
    assert (P2 : has_points (mkHeap (floats m ++ [Some (firsts rp); Some (seconds rp)]) cs (regions m)) (List.length (floats m)) (S (List.length (floats m))) rp).
    { split; cbn [floats]; [now rewrite nth_at0|now rewrite nth_at1]. }
    rewrite (raster_rows_ok false _ _ _ rp d b1 b' n w h P2 D1 E). cbn [obind floats chars regions]. unfold free_points.
    rewrite (set_floats_ok _ _ (firsts rp)) by exact (proj1 P2). cbn [obind floats chars regions]. rewrite update_at0. cbn [update].
    rewrite (set_floats_ok _ _ (seconds rp)) by (cbn [floats]; rewrite nth_at1; reflexivity). cbn [obind floats chars regions].
    rewrite update_at1. cbn [update]. rewrite FIN. reflexivity.
Qed.

(** Rasterising a moved copy of the points, which is then given back *)
Lemma moved_raster_ok legacy F C R op d b b' w h n : nth d C None = Some b -> rasterize legacy op (Some b) w h = Ok (Some b', n) ->
  (m3 <- rasterize_region legacy (mkHeap (F ++ [Some (firsts op); Some (seconds op)]) C R) (Z.of_nat (List.length op)) (List.length F) (S (List.length F)) d w h ;;
   free_points m3 (List.length F) (S (List.length F))) =
  Ok (mkHeap (F ++ repeat None (2 + extra legacy)) (update C d (Some b') ++ [None]) R).
Proof.
  intros D E.
  assert (P2 : has_points (mkHeap (F ++ [Some (firsts op); Some (seconds op)]) C R) (List.length F) (S (List.length F)) op).
  { split; cbn [floats]; [now rewrite nth_at0|now rewrite nth_at1]. }
  rewrite (rasterize_region_ok legacy _ _ _ op d b b' n w h P2 D E). cbn [obind floats chars regions]. unfold free_points. rewrite <- app_assoc. cbn [app].
  rewrite (set_floats_ok _ _ (firsts op)) by (cbn [floats]; rewrite nth_at0; reflexivity). cbn [obind floats chars regions].
  rewrite update_at0. cbn [update].
  rewrite (set_floats_ok _ _ (seconds op)) by (cbn [floats]; rewrite nth_at1; reflexivity). cbn [obind floats chars regions].
  rewrite update_at1. reflexivity.
Qed.
Lemma offset_points_ok m xs ys pts dx dy : has_points m xs ys pts ->
  offset_points m (Z.of_nat (List.length pts)) xs ys dx dy =
  Ok (List.length (floats m), S (List.length (floats m)),
      mkHeap (floats m ++ [Some (firsts (offset_polygon pts dx dy)); Some (seconds (offset_polygon pts dx dy))]) (chars m) (regions m)).
Proof. intros P. unfold offset_points. rewrite (mapped_points_ok _ _ _ _ _ _ P). reflexivity. Qed.
Lemma offset_polygon_len pts dx dy : List.length (offset_polygon pts dx dy) = List.length pts. Proof. apply map_length. Qed.

(** A rectangle as a polygon *)
Lemma rectangle_polygon_ok legacy m x y w h :
  rectangle_polygon legacy m x y w h =
  Ok (List.length (regions m),
      mkHeap (floats m ++ [Some (firsts (rect_points legacy x y w h)); Some (seconds (rect_points legacy x y w h))]) (chars m)
             (regions m ++ [Some (CPoly 4 (List.length (floats m)) (S (List.length (floats m))))])).
Proof.
  unfold rectangle_polygon, bare_region, new_region, new_points, new_floats. cbn [floats chars regions].
  rewrite (set_region_ok _ _ (CSpecial 0)) by (cbn [regions]; rewrite nth_at0; reflexivity).
  cbn [obind floats chars regions]. rewrite update_at0. cbn [update]. rewrite <- app_assoc. cbn [app].
  rewrite app_length. cbn [List.length]. rewrite Nat.add_1_r. reflexivity.
Qed.

(** ---- pixels of a region written to a mask ---- *)
Definition sides (v : region) : nat := match v with RRect _ _ _ _ => 1 | _ => 0 end.
Lemma put_pixels m s t x y w h l d b' : inv m s -> nth t s None = Some (Mask_of x y w h l) -> nth t (regions m) None = Some (CMask x y w h d) ->
  List.length b' = List.length l ->
  nth d (chars m) None = Some l /\ inv (mkHeap (floats m) (update (chars m) d (Some b')) (regions m)) (update s t (Some (Mask_of x y w h b'))).
Proof.
  intros H E C L. destruct (inv_content m s t _ H E) as (c & C' & ST). rewrite C in C'. injection C' as <-.
  destruct ST as (_ & _ & _ & _ & W & HH & M & Ll & D). split; [exact D|].
  pose proof H as (Len & R & OF & OC).
  replace (regions m) with (update (regions m) t (Some (CMask x y w h d))) by (now apply update_self).
  pose proof (nth_some_length _ _ _ D) as LD.
  eapply inv_put; try exact H; try exact C; try reflexivity; try exact OF.
  - eapply owned_write; eauto.
  - intros p J. rewrite nth_update by exact LD. destruct (Nat.eqb_spec d p) as [<-|]; [|reflexivity]. exfalso. apply J. now left.
  - cbn [stands]. rewrite nth_update by exact LD. rewrite Nat.eqb_refl. unfold block in *. rewrite L. auto 12.
Qed.
Lemma mask_offset_ok legacy m s h v t tx ty tw th l d x y w hh b' :
  inv m s -> nth h s None = Some (shown v) -> nth t s None = Some (Mask_of tx ty tw th l) -> nth t (regions m) None = Some (CMask tx ty tw th d) ->
  get_mask_offset legacy v l x y w hh = Ok b' ->
  exists m', mask_offset legacy m h d x y w hh = Ok m' /\ regions m' = regions m ++ repeat None (sides v) /\
    inv m' (update s t (Some (Mask_of tx ty tw th b')) ++ repeat None (sides v)).
Proof.
  intros H Eh Et Ct G. pose proof (inv_value _ _ _ _ H Eh) as V. pose proof (offset_len _ _ _ _ _ _ _ _ G) as Lb.
  destruct (put_pixels m s t tx ty tw th l d b' H Et Ct Lb) as (D & H').
  assert (PUT : forall a b r, inv (mkHeap (floats m ++ repeat None a) (update (chars m) d (Some b') ++ repeat None b) (regions m ++ repeat None r))
    (update s t (Some (Mask_of tx ty tw th b')) ++ repeat None r)) by (intros a b r; exact (inv_more _ _ a b r H')).
  unfold mask_offset. destruct v as [code|rx ry rw rh|pts|mx my mw mh data]; [discriminate| | |].
  - cbn [holds_value] in V. rewrite (the_ok _ _ _ V). cbn [obind]. rewrite rectangle_polygon_ok. cbn [obind sides].
    set (rp := rect_points legacy rx ry rw rh) in *.
    unfold polygon_arrays. cbn [regions]. rewrite (the_ok _ _ (CPoly 4 (List.length (floats m)) (S (List.length (floats m))))) by (rewrite nth_at0; reflexivity).
    cbn [obind]. cbn [get_mask_offset] in G.
    destruct (int_result (- x)) as [nx| | |]; try discriminate. cbn [obind] in *. destruct (int_result (- y)) as [ny| | |]; try discriminate. cbn [obind] in *. cbv zeta in G. fold rp in G.
    destruct (rasterize legacy _ _ _ _) as [(ob & n)| | |] eqn:RA; try discriminate. cbn [obind fst] in G. destruct ob as [b1|]; [|discriminate]. injection G as <-.
    set (m1 := mkHeap (floats m ++ [Some (firsts rp); Some (seconds rp)]) (chars m) (regions m ++ [Some (CPoly 4 (List.length (floats m)) (S (List.length (floats m))))])).
    assert (P1 : has_points m1 (List.length (floats m)) (S (List.length (floats m))) rp).
    { split; cbn [m1 floats]; [now rewrite nth_at0|now rewrite nth_at1]. }
    change 4 with (Z.of_nat (List.length rp)) at 1. rewrite (offset_points_ok m1 _ _ rp _ _ P1). cbn [obind m1 floats chars regions].
    set (op := offset_polygon rp (float_of_int nx) (float_of_int ny)) in *. rewrite <- app_assoc. cbn [app].
    unfold release. cbn [regions]. rewrite (the_ok _ _ (CPoly 4 (List.length (floats m)) (S (List.length (floats m))))) by (rewrite nth_at0; reflexivity).
    cbn [obind].
    rewrite (set_floats_ok _ _ (firsts rp)) by (cbn [floats]; rewrite nth_at0; reflexivity). cbn [obind floats chars regions].
    rewrite update_at0. cbn [update].
    rewrite (set_floats_ok _ _ (seconds rp)) by (cbn [floats]; rewrite nth_at1; reflexivity). cbn [obind floats chars regions].
    rewrite update_at1. cbn [update].
    rewrite (set_region_ok _ _ (CPoly 4 (List.length (floats m)) (S (List.length (floats m))))) by (cbn [regions]; rewrite nth_at0; reflexivity).
    cbn [obind floats chars regions]. rewrite update_at0. cbn [update].
    pose proof (moved_raster_ok legacy (floats m ++ [None; None]) (chars m) (regions m ++ [None]) op d l b1 w hh n D RA) as MR.
    rewrite <- app_assoc in MR. cbn [app] in MR. rewrite !app_length in *. cbn [List.length] in *.
    assert (Lo : List.length op = 4%nat) by reflexivity. rewrite Lo in MR. change (Z.of_nat 4) with 4 in MR.
    match type of MR with ?a = _ => match goal with |- context [?b = Ok _ /\ _] => idtac end end.
    eexists. split; [etransitivity; [|exact MR]; reflexivity|]. cbn [regions]. split; [reflexivity|]. rewrite <- app_assoc.
    exact (PUT (2 + (2 + extra legacy))%nat 1%nat 1%nat).
  - cbn [holds_value] in V. destruct V as (xs & ys & C & P). rewrite (the_ok _ _ _ C). cbn [obind sides]. cbn [get_mask_offset] in G.
    destruct (int_result (- x)) as [nx| | |]; try discriminate. cbn [obind] in *. destruct (int_result (- y)) as [ny| | |]; try discriminate. cbn [obind] in *. cbv zeta in G.
    destruct (rasterize legacy _ _ _ _) as [(ob & n)| | |] eqn:RA; try discriminate. cbn [obind fst] in G. destruct ob as [b1|]; [|discriminate]. injection G as <-.
    rewrite (offset_points_ok m _ _ pts _ _ P). cbn [obind]. pose proof (moved_raster_ok legacy (floats m) (chars m) (regions m) _ d l b1 w hh n D RA) as MR.
    rewrite offset_polygon_len in MR. rewrite MR. eexists. split; [reflexivity|]. cbn [regions repeat]. split; [now rewrite app_nil_r|]. 
    pose proof (PUT (2 + extra legacy)%nat 1%nat 0%nat) as X. cbn [repeat] in X. rewrite !app_nil_r in *. exact X.
  - pose proof V as (d0 & C & _). rewrite (the_ok _ _ _ C). cbn [obind sides]. rewrite (load_ok _ _ _ V). cbn [obind]. rewrite (the_ok _ _ _ D). cbn [obind].
    unfold block in *. rewrite G. cbn [obind]. rewrite (set_chars_ok _ _ _ _ D). eexists. split; [reflexivity|]. cbn [regions repeat]. rewrite !app_nil_r.
    split; [reflexivity|exact H'].
Qed.

(** ---- creating ---- *)
Lemma nones_0 {A} (s : list (option A)) : s = s ++ repeat None 0. Proof. cbn. now rewrite app_nil_r. Qed.
Lemma set_new_region F C R c c' : set_region (mkHeap F C (R ++ [Some c])) (List.length R) c' = Ok (mkHeap F C (R ++ [c'])).
Proof.
  rewrite (set_region_ok _ _ c) by (cbn [regions]; now rewrite nth_at0). cbn [floats chars regions]. rewrite update_at0. reflexivity.
Qed.
Lemma add_points m s pts n : inv m s -> n = Z.of_nat (List.length pts) ->
  inv (mkHeap (floats m ++ [Some (firsts pts); Some (seconds pts)]) (chars m)
         (regions m ++ [Some (CPoly n (List.length (floats m)) (S (List.length (floats m))))])) (s ++ [Some (shown (RPoly pts))]).
Proof.
  intros H ->. pose proof (add_poly m s (map Some pts) H) as X. rewrite firsts_map, seconds_map, map_length in X. exact X.
Qed.
Lemma create_mask_ok w h b : create_mask w h = Ok b -> 0 < w /\ 0 < h /\ w * h <= INT_MAX /\ b = repeat None (Z.to_nat (w * h)).
Proof.
  unfold create_mask. destruct (0 <? w) eqn:W; [|discriminate]. destruct (0 <? h) eqn:HH; [|discriminate]. cbn [andb]. unfold int_result.
  destruct (in_int (w * h)) eqn:I1; [|discriminate]. cbn [obind]. intros X. injection X as <-. unfold in_int, INT_MIN, INT_MAX in *. split; [lia|split; [lia|split; [lia|reflexivity]]].
Qed.
Lemma create_region_ok m s x y w h : inv m s -> 0 < w -> 0 < h -> w * h <= INT_MAX ->
  create_mask_region m x y w h = Ok (List.length (regions m),
    mkHeap (floats m) (chars m ++ [Some (repeat None (Z.to_nat (w * h)))]) (regions m ++ [Some (CMask x y w h (List.length (chars m)))])) /\
  inv (mkHeap (floats m) (chars m ++ [Some (repeat None (Z.to_nat (w * h)))]) (regions m ++ [Some (CMask x y w h (List.length (chars m)))]))
      (s ++ [Some (Mask_of x y w h (repeat None (Z.to_nat (w * h))))]).
Proof.
  intros H W HH M. unfold create_mask_region. replace ((0 <? w) && (0 <? h)) with true by lia. split; [reflexivity|].
  apply add_mask; try assumption. rewrite repeat_length. assert (0 < w * h) by (apply Z.mul_pos_pos; lia). lia.
Qed.
Lemma pixels_at F C R x y w h d : mask_pixels (mkHeap F C (R ++ [Some (CMask x y w h d)])) (List.length R) = Ok d.
Proof. unfold mask_pixels. cbn [regions]. rewrite (the_ok _ _ (CMask x y w h d)) by (now rewrite nth_at0). reflexivity. Qed.
Lemma read_all {A} (b : block A) : forall n l, blk_read b n = Ok l -> List.length b = n -> b = map Some l.
Proof.
  induction b as [|x b IH]; intros [|n] l E L; cbn in *; try discriminate; [injection E as <-; reflexivity|]. destruct x as [x|]; [|discriminate].
  destruct (blk_read b n) as [r| | |] eqn:R; try discriminate. cbn in E. injection E as <-. cbn. f_equal. apply (IH n); [exact R|lia].
Qed.
Lemma mem_set_all b v n b' : mem_set b v n = Ok b' -> List.length b = Z.to_nat n -> b' = repeat (Some v) (Z.to_nat n).
Proof.
  unfold mem_set. destruct ((0 <=? n) && _); [|discriminate]. intros X L. injection X as <-. rewrite skipn_all2 by lia. now rewrite app_nil_r.
Qed.

(** ---- conversion ---- *)
Definition made (o : option region) : contents := match o with Some r => [Some (shown r)] | None => [] end.
Lemma to_rectangle_ok legacy m s h v o : inv m s -> nth h s None = Some (shown v) -> convert legacy v RECTANGLE = Ok o ->
  exists m' j, to_rectangle m v = Ok (option_map (fun _ => List.length s) o, m') /\ inv m' (s ++ made o ++ repeat None j).
Proof.
  intros H Eh E. pose proof (proj1 H) as L. rewrite <- L. unfold to_rectangle, bare_region, new_region.
  assert (ADD : forall x y w hh, inv (mkHeap (floats m) (chars m) (regions m ++ [Some (CRect x y w hh)])) (s ++ [Some (Rectangle_of x y w hh)])).
  { intros. apply add_plain; cbn; auto. }
  destruct v as [code|x y w hh|pts|x y w hh data]; cbn [convert] in E.
  - injection E as <-. rewrite set_new_region. cbn [obind]. eexists _, 1%nat. split; [reflexivity|]. cbn [made repeat app].
    pose proof (inv_more _ _ 0 0 1 H) as X. cbn [repeat] in X. rewrite !app_nil_r in X. exact X.
  - injection E as <-. rewrite set_new_region. cbn [obind]. eexists _, 0%nat. split; [reflexivity|]. apply ADD.
  - cbv zeta in *. injection E as <-. rewrite set_new_region. cbn [obind]. eexists _, 0%nat. split; [reflexivity|]. apply ADD.
  - destruct (bounds_mask x y w hh data) as [b| | |]; try discriminate. cbn [obind] in *. injection E as <-. rewrite set_new_region. cbn [obind].
    eexists _, 0%nat. split; [reflexivity|]. apply ADD.
Qed.
Lemma new_points_eq F C R pts : new_points (mkHeap F C R) pts =
  (List.length F, S (List.length F), mkHeap (F ++ [Some (firsts pts); Some (seconds pts)]) C R).
Proof. unfold new_points, new_floats. cbn [floats chars regions]. rewrite <- app_assoc, app_length. cbn [List.length app]. rewrite Nat.add_1_r. reflexivity. Qed.
Lemma to_polygon_ok legacy m s h v o : inv m s -> nth h s None = Some (shown v) -> convert legacy v POLYGON = Ok o ->
  exists m' j, to_polygon legacy m h v = Ok (option_map (fun _ => List.length s) o, m') /\ inv m' (s ++ made o ++ repeat None j).
Proof.
  intros H Eh E. pose proof (proj1 H) as L. rewrite <- L. pose proof (inv_value _ _ _ _ H Eh) as V. unfold to_polygon.
  destruct v as [code|x y w hh|pts|x y w hh data]; cbn [convert] in E.
  - injection E as <-. unfold bare_region, new_region. rewrite set_new_region. cbn [obind]. eexists _, 1%nat. split; [reflexivity|]. cbn [made repeat app].
    pose proof (inv_more _ _ 0 0 1 H) as X. cbn [repeat] in X. rewrite !app_nil_r in X. exact X.
  - injection E as <-. rewrite rectangle_polygon_ok. cbn [obind]. eexists _, 0%nat. split; [reflexivity|]. cbn [made repeat app]. now apply add_points.
  - injection E as <-. destruct V as (xs & ys & C & P). unfold bare_region, new_region, polygon_arrays. cbn [regions].
    rewrite (the_ok _ _ _ (nth_before _ _ _ _ C)). cbn [obind]. rewrite (clone_points_at (mkHeap (floats m) (chars m) (regions m ++ [Some (CSpecial 0)])) _ _ pts P). cbn [obind floats chars regions].
    rewrite set_new_region. cbn [obind]. eexists _, 0%nat. split; [reflexivity|]. cbn [made repeat app]. now apply add_points.
  - destruct (bounds_mask x y w hh data) as [b| | |]; try discriminate. cbn [obind] in *. injection E as <-. unfold bare_region, new_region. rewrite new_points_eq.
    rewrite set_new_region. cbn [obind]. eexists _, 0%nat. split; [reflexivity|]. cbn [made repeat app]. now apply add_points.
Qed.
Lemma to_mask_ok legacy m s h v o : inv m s -> nth h s None = Some (shown v) -> convert legacy v MASK = Ok o ->
  exists m' j, to_mask legacy m h v = Ok (option_map (fun _ => (List.length s + forgets v MASK)%nat) o, m') /\
    inv m' (s ++ repeat (Some (Special_of 0)) (forgets v MASK) ++ made o ++ repeat None j).
Proof.
  intros H Eh E. pose proof (proj1 H) as L. rewrite <- L. pose proof (inv_value _ _ _ _ H Eh) as V. unfold to_mask.
  destruct v as [code|x y w hh|pts|x y w hh data]; cbn [convert] in E; cbn [forgets repeat]; rewrite ?Nat.add_0_r.
  - injection E as <-. eexists _, 0%nat. split; [reflexivity|]. cbn. now rewrite app_nil_r.
  - destruct (int_of_float x) as [xi| | |]; try discriminate. cbn [obind] in *. destruct (int_of_float y) as [yi| | |]; try discriminate. cbn [obind] in *.
    destruct (int_of_float w) as [wi| | |]; try discriminate. cbn [obind] in *. destruct (int_of_float hh) as [hi| | |]; try discriminate. cbn [obind] in *.
    destruct (create_mask wi hi) as [b| | |] eqn:CM; try discriminate. cbn [obind] in E. destruct (create_mask_ok _ _ _ CM) as (W & HH & M & ->).
    destruct (int_result (wi * hi)) as [n| | |] eqn:I1; try discriminate. cbn [obind] in E.
    destruct (mem_set _ 255%N n) as [b'| | |] eqn:MS; try discriminate. cbn [obind] in E. destruct (blk_read b' (Z.to_nat n)) as [l| | |] eqn:RD; try discriminate.
    cbn [obind] in E. injection E as <-. destruct (create_region_ok m s xi yi wi hi H W HH M) as (-> & H1). cbn [obind]. rewrite pixels_at. cbn [obind chars].
    rewrite (the_ok _ _ (repeat None (Z.to_nat (wi * hi)))) by (now rewrite nth_at0). cbn [obind]. rewrite MS. cbn [obind].
    assert (n = wi * hi) as -> by (unfold int_result in I1; destruct (in_int (wi * hi)); congruence).
    pose proof (mem_set_len _ _ _ _ MS) as Lb.
    destruct (put_pixels _ _ (List.length s) xi yi wi hi (repeat None (Z.to_nat (wi * hi))) (List.length (chars m)) b' H1) as (D & H2);
      [now rewrite nth_at0|cbn [regions]; rewrite <- L; now rewrite nth_at0|exact Lb|].
    rewrite (set_chars_ok _ _ _ _ D). cbn [obind floats chars regions]. eexists _, 0%nat. split; [reflexivity|]. cbn [made repeat app shown].
    cbn [floats chars regions] in H2. rewrite (update_at0 s) in H2. cbn [update] in H2.
    assert (b' = map Some l) as -> by (apply (read_all _ _ _ RD); rewrite Lb; apply repeat_length). exact H2.
  - cbv zeta in *. set (b := bounds_polygon pts) in *. unfold bare_region, new_region.
    destruct (int_of_float (left b)) as [xi| | |]; try discriminate. cbn [obind] in *. destruct (int_of_float (right b)) as [yi| | |]; try discriminate. cbn [obind] in *.
    destruct (int_of_float (subf (right b) (left b))) as [wi| | |]; try discriminate. cbn [obind] in *. destruct (int_of_float (subf (bottom b) (top b))) as [hi| | |]; try discriminate. cbn [obind] in *.
    destruct (create_mask wi hi) as [b0| | |] eqn:CM; try discriminate. cbn [obind] in E. destruct (create_mask_ok _ _ _ CM) as (W & HH & M & ->).
    destruct (get_mask_offset legacy (RPoly pts) _ xi yi wi hi) as [b'| | |] eqn:G; try discriminate. cbn [obind] in E.
    destruct (blk_read b' (Z.to_nat (wi * hi))) as [l| | |] eqn:RD; try discriminate. cbn [obind] in E. injection E as <-.
    assert (H0 : inv (mkHeap (floats m) (chars m) (regions m ++ [Some (CSpecial 0)])) (s ++ [Some (Special_of 0)])) by (apply add_plain; cbn; auto).
    destruct (create_region_ok _ _ xi yi wi hi H0 W HH M) as (-> & H1). cbn [obind]. rewrite pixels_at. cbn [obind floats chars regions] in *.
    set (t := List.length (regions m ++ [Some (CSpecial 0)])) in *.
    assert (Lt : t = List.length (s ++ [Some (Special_of 0)])) by (unfold t; rewrite !app_length; cbn; lia).
    destruct (mask_offset_ok legacy _ _ h (RPoly pts) t xi yi wi hi (repeat None (Z.to_nat (wi * hi))) (List.length (chars m)) xi yi wi hi b' H1) as (m' & -> & _ & H2).
    + now apply nth_before, nth_before.
    + rewrite Lt. now rewrite nth_at0.
    + unfold t. cbn [regions]. now rewrite nth_at0.
    + exact G.
    + cbn [obind]. eexists _, 0%nat. split; [unfold t; rewrite app_length; reflexivity|]. cbn [sides repeat app made shown] in *. rewrite !app_nil_r in *.
      rewrite Lt, update_at0 in H2. cbn [update] in H2. rewrite <- app_assoc in H2. cbn [app] in H2.
      assert (b' = map Some l) as -> by (apply (read_all _ _ _ RD); rewrite (offset_len _ _ _ _ _ _ _ _ G); apply repeat_length). exact H2.
  - destruct (create_mask w hh) as [b0| | |] eqn:CM; try discriminate. cbn [obind] in E. destruct (create_mask_ok _ _ _ CM) as (W & HH & M & _).
    destruct (int_result (w * hh)) as [n| | |] eqn:I1; try discriminate. cbn [obind] in E. destruct (Z.to_nat n <=? List.length data)%nat; [|discriminate]. injection E as <-.
    assert (n = w * hh) as -> by (unfold int_result in I1; destruct (in_int (w * hh)); congruence).
    destruct V as (d & _ & _ & _ & _ & _ & Ld). rewrite firstn_all2 by lia.
    destruct (clone_ok m s h _ H Eh) as (m' & -> & H'). cbn [obind]. rewrite L. eexists _, 0%nat. split; [reflexivity|]. cbn [made repeat app]. exact H'.
Qed.
Lemma convert_region_ok legacy m s h v t o : inv m s -> nth h s None = Some (shown v) -> convert legacy v t = Ok o ->
  exists m' j, convert_region legacy m h t = Ok (option_map (fun _ => (List.length s + forgets v t)%nat) o, m') /\
    inv m' (s ++ repeat (Some (Special_of 0)) (forgets v t) ++ made o ++ repeat None j).
Proof.
  intros H Eh E. pose proof (inv_value _ _ _ _ H Eh) as V. unfold convert_region. destruct t.
  - cbn [convert] in E. injection E as <-. exists m, 0%nat. replace (forgets v EMPTY) with 0%nat by (destruct v; reflexivity). cbn. rewrite app_nil_r. auto.
  - replace (forgets v SPECIAL) with 0%nat by (destruct v; reflexivity). destruct (inv_content m s h _ H Eh) as (c & C & ST). rewrite (the_ok _ _ _ C). cbn [obind].
    cbn [convert] in E. injection E as <-. unfold create_special, new_region. eexists _, 0%nat. split.
    + rewrite (proj1 H), Nat.add_0_r. reflexivity.
    + cbn [repeat app made]. apply add_plain; [exact H|reflexivity|reflexivity|]. destruct v, c; cbn [shown stands] in *; try contradiction; try reflexivity. exact ST.
  - replace (forgets v RECTANGLE) with 0%nat by (destruct v; reflexivity). rewrite (load_ok _ _ _ V). cbn [obind]. rewrite Nat.add_0_r. cbn [repeat app]. exact (to_rectangle_ok legacy m s h v o H Eh E).
  - replace (forgets v POLYGON) with 0%nat by (destruct v; reflexivity). rewrite (load_ok _ _ _ V). cbn [obind]. rewrite Nat.add_0_r. cbn [repeat app]. exact (to_polygon_ok legacy m s h v o H Eh E).
  - rewrite (load_ok _ _ _ V). cbn [obind]. exact (to_mask_ok legacy m s h v o H Eh E).
Qed.

(** ---- overlap ---- *)
Lemma nones_app {A} (s : list (option A)) a b : (s ++ repeat None a) ++ repeat None b = s ++ repeat None (a + b).
Proof. now rewrite <- app_assoc, repeat_app. Qed.
Lemma two_masks legacy m s ha hb va vb x1 y1 w1 h1 x2 y2 w2 h2 p1 p2 :
  inv m s -> nth ha s None = Some (shown va) -> nth hb s None = Some (shown vb) ->
  0 < w1 -> 0 < h1 -> w1 * h1 <= INT_MAX -> 0 < w2 -> 0 < h2 -> w2 * h2 <= INT_MAX ->
  get_mask_offset legacy va (repeat None (Z.to_nat (w1 * h1))) x1 y1 w1 h1 = Ok p1 ->
  get_mask_offset legacy vb (repeat None (Z.to_nat (w2 * h2))) x2 y2 w2 h2 = Ok p2 ->
  exists ta m1 tb m2 da db m3 m4 m5 m6 j,
    create_mask_region m x1 y1 w1 h1 = Ok (ta, m1) /\ create_mask_region m1 x2 y2 w2 h2 = Ok (tb, m2) /\
    mask_pixels m2 ta = Ok da /\ mask_pixels m2 tb = Ok db /\
    mask_offset legacy m2 ha da x1 y1 w1 h1 = Ok m3 /\ mask_offset legacy m3 hb db x2 y2 w2 h2 = Ok m4 /\
    the (chars m4) da = Ok p1 /\ the (chars m4) db = Ok p2 /\ release m4 ta = Ok m5 /\ release m5 tb = Ok m6 /\ inv m6 (s ++ repeat None j).
Proof.
  intros H Ea Eb W1 H1 M1 W2 H2 M2 G1 G2. pose proof (proj1 H) as L.
  destruct (create_region_ok m s x1 y1 w1 h1 H W1 H1 M1) as (C1 & I1).
  destruct (create_region_ok _ _ x2 y2 w2 h2 I1 W2 H2 M2) as (C2 & I2). cbn [floats chars regions] in *.
  set (d1 := List.length (chars m)) in *. set (d2 := List.length (chars m ++ [Some (repeat None (Z.to_nat (w1 * h1)))])) in *.
  set (m2 := mkHeap (floats m) ((chars m ++ [Some (repeat None (Z.to_nat (w1 * h1)))]) ++ [Some (repeat None (Z.to_nat (w2 * h2)))])
                 ((regions m ++ [Some (CMask x1 y1 w1 h1 d1)]) ++ [Some (CMask x2 y2 w2 h2 d2)])) in *.
  rewrite <- app_assoc in I2. cbn [app] in I2.
  assert (R1 : nth (List.length s) (regions m2) None = Some (CMask x1 y1 w1 h1 d1)).
  { unfold m2. cbn [regions]. rewrite <- L. apply nth_before. now rewrite nth_at0. }
  assert (R2 : nth (S (List.length s)) (regions m2) None = Some (CMask x2 y2 w2 h2 d2)).
  { unfold m2. cbn [regions]. rewrite <- app_assoc, <- L. cbn [app]. now rewrite nth_at1. }
  destruct (mask_offset_ok legacy m2 _ ha va (List.length s) x1 y1 w1 h1 (repeat None (Z.to_nat (w1 * h1))) d1 x1 y1 w1 h1 p1 I2) as (m3 & E3 & RR3 & I3);
    [now apply nth_before|now rewrite nth_at0|exact R1|exact G1|].
  rewrite update_at0 in I3. cbn [update] in I3. rewrite <- app_assoc in I3. cbn [app] in I3.
  destruct (mask_offset_ok legacy m3 _ hb vb (S (List.length s)) x2 y2 w2 h2 (repeat None (Z.to_nat (w2 * h2))) d2 x2 y2 w2 h2 p2 I3) as (m4 & E4 & RR4 & I4);
    [now apply nth_before|now rewrite nth_at1|rewrite RR3; now apply nth_before|exact G2|].
  rewrite update_at1 in I4. cbn [update] in I4. rewrite <- app_assoc in I4. cbn [app] in I4.
  assert (R1' : nth (List.length s) (regions m4) None = Some (CMask x1 y1 w1 h1 d1)) by (rewrite RR4, RR3; now apply nth_before, nth_before).
  assert (R2' : nth (S (List.length s)) (regions m4) None = Some (CMask x2 y2 w2 h2 d2)) by (rewrite RR4, RR3; now apply nth_before, nth_before).
  assert (P1 : nth d1 (chars m4) None = Some p1).
  { destruct (inv_content m4 _ (List.length s) (Mask_of x1 y1 w1 h1 p1) I4) as (c & C & ST); [now rewrite nth_at0|]. rewrite R1' in C. injection C as <-. exact (proj2 (proj2 (proj2 (proj2 (proj2 (proj2 (proj2 (proj2 ST)))))))). }
  assert (P2 : nth d2 (chars m4) None = Some p2).
  { destruct (inv_content m4 _ (S (List.length s)) (Mask_of x2 y2 w2 h2 p2) I4) as (c & C & ST); [now rewrite nth_at1|]. rewrite R2' in C. injection C as <-. exact (proj2 (proj2 (proj2 (proj2 (proj2 (proj2 (proj2 (proj2 ST)))))))). }
  destruct (release_ok m4 _ (List.length s) (Mask_of x1 y1 w1 h1 p1) I4) as (m5 & E5 & I5); [now rewrite nth_at0|]. rewrite update_at0 in I5. cbn [update] in I5.
  destruct (release_ok m5 _ (S (List.length s)) (Mask_of x2 y2 w2 h2 p2) I5) as (m6 & E6 & I6); [now rewrite nth_at1|]. rewrite update_at1 in I6. cbn [update] in I6.
  exists (List.length s), (mkHeap (floats m) (chars m ++ [Some (repeat None (Z.to_nat (w1 * h1)))]) (regions m ++ [Some (CMask x1 y1 w1 h1 d1)])), (S (List.length s)), m2, d1, d2, m3, m4, m5, m6, (2 + (sides va + sides vb))%nat.
  split; [rewrite C1, L; reflexivity|]. split; [rewrite C2; rewrite app_length, L; cbn [List.length]; rewrite Nat.add_1_r; reflexivity|].
  split; [unfold mask_pixels; rewrite (the_ok _ _ _ R1); reflexivity|]. split; [unfold mask_pixels; rewrite (the_ok _ _ _ R2); reflexivity|].
  split; [exact E3|]. split; [exact E4|]. split; [exact (the_ok _ _ _ P1)|]. split; [exact (the_ok _ _ _ P2)|]. split; [exact E5|]. split; [exact E6|].
  cbn [plus repeat]. rewrite repeat_app. exact I6.
Qed.
Lemma overlap_ok legacy m s ha hb va vb bnd o : inv m s -> nth ha s None = Some (shown va) -> nth hb s None = Some (shown vb) ->
  compute_overlap legacy va vb bnd = Ok o -> exists m' j, overlap_regions legacy m ha hb bnd = Ok (o, m') /\ inv m' (s ++ repeat None j).
Proof.
  intros H Ea Eb E. unfold overlap_regions. rewrite (load_ok _ _ _ (inv_value _ _ _ _ H Ea)), (load_ok _ _ _ (inv_value _ _ _ _ H Eb)). cbn [obind].
  unfold compute_overlap in E. destruct (clipped_box legacy va bnd) as [b1| | |]; try discriminate. cbn [obind] in *.
  destruct (clipped_box legacy vb bnd) as [b2| | |]; try discriminate. cbn [obind] in *.
  destruct (int_of_float (fMIN (left b1) (left b2))) as [x| | |]; try discriminate. cbn [obind] in *.
  destruct (int_of_float (fMIN (top b1) (top b2))) as [y| | |]; try discriminate. cbn [obind] in *.
  destruct (int_of_float (subf (fMAX (right b1) (right b2)) (float_of_int x))) as [w| | |]; try discriminate. cbn [obind] in *.
  destruct (int_result (w + 1)) as [width| | |]; try discriminate. cbn [obind] in *.
  destruct (int_of_float (subf (fMAX (bottom b1) (bottom b2)) (float_of_int y))) as [h| | |]; try discriminate. cbn [obind] in *.
  destruct (int_result (h + 1)) as [height| | |]; try discriminate. cbn [obind] in *. cbv zeta in E.
  destruct (_ || _) eqn:B; [injection E as <-; exists m, 0%nat; rewrite <- nones_0; auto|].
  destruct (feq (bounds_overlap b1 b2) fzero).
  - unfold overlap_disjoint, box_volume in E. unfold disjoint_regions, box_arguments.
    destruct (int_of_float (left b1)) as [x1| | |]; try discriminate. cbn [obind] in *. destruct (int_of_float (top b1)) as [y1| | |]; try discriminate. cbn [obind] in *.
    destruct (int_of_float (side (left b1) (right b1))) as [w1| | |]; try discriminate. cbn [obind] in *. destruct (int_of_float (side (top b1) (bottom b1))) as [h1| | |]; try discriminate. cbn [obind] in *.
    destruct (create_mask w1 h1) as [c1| | |] eqn:CM1; try discriminate. cbn [obind] in E. destruct (create_mask_ok _ _ _ CM1) as (W1 & H1 & M1 & ->).
    destruct (get_mask_offset legacy va _ x1 y1 w1 h1) as [p1| | |] eqn:G1; try discriminate. cbn [obind] in E.
    destruct (count_while p1 0 _) as [vol1| | |] eqn:V1; try discriminate. cbn [obind] in E.
    destruct (int_of_float (left b2)) as [x2| | |]; try discriminate. cbn [obind] in *. destruct (int_of_float (top b2)) as [y2| | |]; try discriminate. cbn [obind] in *.
    destruct (int_of_float (side (left b2) (right b2))) as [w2| | |]; try discriminate. cbn [obind] in *. destruct (int_of_float (side (top b2) (bottom b2))) as [h2| | |]; try discriminate. cbn [obind] in *.
    destruct (create_mask w2 h2) as [c2| | |] eqn:CM2; try discriminate. cbn [obind] in E. destruct (create_mask_ok _ _ _ CM2) as (W2 & H2 & M2 & ->).
    destruct (get_mask_offset legacy vb _ x2 y2 w2 h2) as [p2| | |] eqn:G2; try discriminate. cbn [obind] in E.
    destruct (count_while p2 0 _) as [vol2| | |] eqn:V2; try discriminate. cbn [obind] in E.
    destruct (int_result (vol1 + vol2)) as [total| | |] eqn:IT; try discriminate. cbn [obind] in E. injection E as <-.
    destruct (two_masks legacy m s ha hb va vb x1 y1 w1 h1 x2 y2 w2 h2 p1 p2 H Ea Eb W1 H1 M1 W2 H2 M2 G1 G2)
      as (ta & m1 & tb & m2 & da & db & m3 & m4 & m5 & m6 & j & C1 & C2 & D1 & D2 & E3 & E4 & T1 & T2 & E5 & E6 & I6).
    rewrite C1. cbn [obind]. rewrite C2. cbn [obind]. rewrite D1. cbn [obind]. rewrite D2. cbn [obind]. rewrite E3. cbn [obind]. rewrite E4. cbn [obind].
    rewrite T1. cbn [obind]. unfold block in *. rewrite V1. cbn [obind]. rewrite T2. cbn [obind]. rewrite V2. cbn [obind]. rewrite IT. cbn [obind]. rewrite E5. cbn [obind]. rewrite E6. cbn [obind].
    exists m6, j. split; [reflexivity|exact I6].
  - unfold overlap_window in E. unfold window_regions.
    destruct (create_mask width height) as [c1| | |] eqn:CM1; try discriminate. cbn [obind] in E. destruct (create_mask_ok _ _ _ CM1) as (W1 & H1 & M1 & ->).
    destruct (get_mask_offset legacy va _ x y width height) as [p1| | |] eqn:G1; try discriminate. cbn [obind] in E.
    destruct (get_mask_offset legacy vb _ x y width height) as [p2| | |] eqn:G2; try discriminate. cbn [obind] in E.
    destruct (blk_read p1 _) as [l1| | |] eqn:V1; try discriminate. cbn [obind] in E. destruct (blk_read p2 _) as [l2| | |] eqn:V2; try discriminate. cbn [obind] in E.
    destruct (count_pairs l1 l2) as ((only1 & only2) & both) eqn:CP. destruct (int_result (only1 + only2 + both)) as [total| | |] eqn:IT; try discriminate. cbn [obind] in E. injection E as <-.
    destruct (two_masks legacy m s ha hb va vb x y width height x y width height p1 p2 H Ea Eb W1 H1 M1 W1 H1 M1 G1 G2)
      as (ta & m1 & tb & m2 & da & db & m3 & m4 & m5 & m6 & j & C1 & C2 & D1 & D2 & E3 & E4 & T1 & T2 & E5 & E6 & I6).
    rewrite C1. cbn [obind]. rewrite C2. cbn [obind]. rewrite D1. cbn [obind]. rewrite D2. cbn [obind]. rewrite E3. cbn [obind]. rewrite E4. cbn [obind].
    rewrite T1. cbn [obind]. rewrite T2. cbn [obind]. unfold block in *. rewrite V1. cbn [obind]. rewrite V2. cbn [obind]. rewrite CP. rewrite IT. cbn [obind]. rewrite E5. cbn [obind]. rewrite E6. cbn [obind].
    exists m6, j. split; [reflexivity|exact I6].
Qed.

(** ---- texts ---- *)
Lemma pair_points_len : forall l, List.length (pair_points l) = (List.length l / 2)%nat.
Proof.
  enough (X : forall k l, (List.length l <= k)%nat -> List.length (pair_points l) = (List.length l / 2)%nat) by (intros l; apply (X (List.length l)); lia).
  induction k as [|k IH]; intros [|a [|b l]] L; cbn [List.length] in *; try reflexivity; try lia. cbn [pair_points List.length].
  rewrite (IH l) by lia. replace (S (S (List.length l))) with (List.length l + 1 * 2)%nat by lia. rewrite Nat.div_add by lia. lia.
Qed.
Section parsing.
  Variables (m : heap) (s : contents) (l : list spec_float).
  Hypothesis H : inv m s.
  Let m1 : heap := mkHeap (floats m ++ [None; Some (map Some l)]) (chars m) (regions m).
  Lemma free_data : forall e cs rs, set_floats (mkHeap ((floats m ++ [None; Some (map Some l)]) ++ e) cs rs) (S (List.length (floats m))) None =
    Ok (mkHeap ((floats m ++ repeat None 2) ++ e) cs rs).
  Proof.
    intros e cs rs. rewrite <- !app_assoc. cbn [app repeat]. rewrite (set_floats_ok _ _ (map Some l)) by (cbn [floats]; now rewrite nth_at1).
    cbn [floats chars regions]. rewrite update_at1. reflexivity.
  Qed.
  Lemma base : inv (mkHeap (floats m ++ repeat None 2) (chars m) (regions m)) s.
  Proof. pose proof (inv_more _ _ 2 0 0 H) as X. cbn [repeat] in X. rewrite !app_nil_r in X. exact X. Qed.
  Lemma ends_plain c v : fptrs c = [] -> cptrs c = [] -> (forall fs cs, stands fs cs c (shown v)) ->
    exists m', (m2 <- set_floats (mkHeap (floats m ++ [None; Some (map Some l)]) (chars m) (regions m ++ [Some c])) (S (List.length (floats m))) None ;; Ok (Some (List.length (regions m)), m2)) = Ok (Some (List.length s), m') /\
      inv m' (s ++ [Some (shown v)]).
  Proof.
    intros F C ST. pose proof (free_data [] (chars m) (regions m ++ [Some c])) as X. rewrite !app_nil_r in X. rewrite X. cbn [obind]. rewrite (proj1 H).
    eexists. split; [reflexivity|]. exact (add_plain _ _ c (shown v) base F C (ST _ _)).
  Qed.
  Lemma invalid_ok o : match l with
      | [_; _; _; d3] => if is_nan d3 then Ok (true, Some (RSpecial TRAX_DEFAULT_CODE)) else c <- int_of_float d3 ;; r <- int_result (- c) ;; Ok (true, Some (RSpecial r))
      | _ => Ok (true, Some (RSpecial TRAX_DEFAULT_CODE)) end = Ok (true, o) ->
    exists code, o = Some (RSpecial code) /\ parse_invalid m1 l = Ok (create_special m1 code).
  Proof.
    unfold parse_invalid. intros E. destruct l as [|a [|b [|c [|d [|e l']]]]]; try (injection E as <-; eexists; split; reflexivity).
    destruct (is_nan d); [injection E as <-; eexists; split; reflexivity|]. destruct (int_of_float d) as [z| | |]; try discriminate. cbn [obind] in *.
    destruct (int_result (- z)) as [r| | |]; try discriminate. cbn [obind] in *. injection E as <-. eexists. split; reflexivity.
  Qed.
  Lemma typed_ok t flag o : solid o -> match t with
        | SPECIAL => match l with [d0] => c <- int_of_float d0 ;; Ok (true, Some (RSpecial c)) | _ => Abort end
        | RECTANGLE => match l with [d0; d1; d2; d3] => Ok (true, Some (RRect d0 d1 d2 d3)) | _ => Abort end
        | POLYGON => if Nat.leb 6 (List.length l) && Nat.eqb (List.length l mod 2) 0 then Ok (true, Some (RPoly (pair_points l))) else Abort
        | MASK =>
            match l with
            | d0 :: d1 :: d2 :: d3 :: _ :: _ =>
                x <- int_of_float d0 ;; y <- int_of_float d1 ;; w <- int_of_float d2 ;; h <- int_of_float d3 ;;
                length <- int_result (w * h) ;;
                pixels <- rle_decode (Z.to_nat length) (skipn 4 l) 0%N ;;
                Ok (true, Some (RMask x y w h pixels))
            | _ => Abort
            end
        | EMPTY => Ok (false, None)
        end = Ok (flag, o) ->
    exists m', (p <- parse_typed m1 t l ;; let '(r, m2) := p in m3 <- set_floats m2 (S (List.length (floats m))) None ;; Ok (r, m3)) =
      Ok (option_map (fun _ => List.length s) o, m') /\ inv m' (s ++ made o).
  Proof.
    intros SO E. unfold parse_typed, bare_region, new_region, new_chars. cbn [floats chars regions m1]. destruct t.
    - injection E as <- <-. cbn [obind option_map made]. rewrite app_nil_r. unfold m1. pose proof (free_data [] (chars m) (regions m)) as X. rewrite !app_nil_r in X. rewrite X. cbn [obind].
      eexists. split; [reflexivity|exact base].
    - destruct l as [|d0 [|d1 l']] eqn:El; try discriminate. rewrite <- El in *. destruct (int_of_float d0) as [c| | |]; try discriminate. cbn [obind] in *. injection E as <- <-.
      rewrite set_new_region. cbn [obind option_map made]. apply (ends_plain (CSpecial c) (RSpecial c)); reflexivity.
    - destruct l as [|d0 [|d1 [|d2 [|d3 [|d4 l']]]]] eqn:El; try discriminate. rewrite <- El in *. injection E as <- <-.
      rewrite set_new_region. cbn [obind option_map made]. apply (ends_plain (CRect d0 d1 d2 d3) (RRect d0 d1 d2 d3)); try reflexivity. intros. cbn. auto.
    - destruct (_ && _); [|discriminate]. injection E as <- <-. rewrite new_points_eq. rewrite set_new_region. cbn [obind option_map made]. rewrite free_data. cbn [obind]. rewrite (proj1 H).
      eexists. split; [reflexivity|]. pose proof (add_points _ _ (pair_points l) (Z.of_nat (List.length l / 2)) base) as X. cbn [floats chars regions] in X.
      rewrite !app_length in *. cbn [List.length repeat] in *. apply X. now rewrite pair_points_len.
    - destruct l as [|d0 [|d1 [|d2 [|d3 [|d4 l']]]]] eqn:El; try discriminate. rewrite <- El in *.
      destruct (int_of_float d0) as [x| | |]; try discriminate. cbn [obind] in *. destruct (int_of_float d1) as [y| | |]; try discriminate. cbn [obind] in *.
      destruct (int_of_float d2) as [w| | |]; try discriminate. cbn [obind] in *. destruct (int_of_float d3) as [h| | |]; try discriminate. cbn [obind] in *.
      destruct (int_result (w * h)) as [n| | |] eqn:I1; try discriminate. cbn [obind] in *. destruct (rle_decode (Z.to_nat n) (skipn 4 l) 0%N) as [px| | |] eqn:RD; try discriminate. cbn [obind] in *.
      injection E as <- <-. destruct SO as (W & HH). assert (n = w * h) as -> by (unfold int_result in I1; destruct (in_int (w * h)); congruence).
      assert (w * h <= INT_MAX) by (unfold int_result in I1; destruct (in_int (w * h)) eqn:I2; [unfold in_int, INT_MIN, INT_MAX in *; lia|discriminate]).
      assert (0 < w * h) by (apply Z.mul_pos_pos; lia). pose proof (rle_decode_length _ _ _ _ RD) as Lp.
      rewrite set_new_region. cbn [obind].
      rewrite (set_chars_ok _ _ (repeat None (Z.to_nat (w * h)))) by (cbn [chars]; now rewrite nth_at0). cbn [obind floats chars regions]. rewrite update_at0. cbn [update option_map made].
      pose proof (free_data [] (chars m ++ [Some (map Some px)]) (regions m ++ [Some (CMask x y w h (List.length (chars m)))])) as X. rewrite !app_nil_r in X. rewrite X. cbn [obind]. rewrite (proj1 H).
      eexists. split; [reflexivity|]. apply (add_mask _ _ x y w h (map Some px) base); try assumption. rewrite map_length. lia.
  Qed.
End parsing.
Lemma decode_ok m s text flag o : inv m s -> region_parse text = Ok (flag, o) -> solid o ->
  exists m', decode_region m text = Ok (option_map (fun _ => List.length s) o, m') /\ inv m' (s ++ made o).
Proof.
  intros H E SO. unfold decode_region. destruct text as [|c0 text0]; [cbn in E; injection E as <- <-; exists m; cbn; rewrite app_nil_r; auto|].
  unfold region_parse in E. destruct (parse_uri_prefix (c0 :: text0)) as (ptype & strdata). destruct (parse_sequence strdata) as [l| | |]; try discriminate. cbn [obind] in E.
  cbv zeta in E. unfold new_floats. cbn [floats chars regions obind].
  rewrite (set_floats_ok _ _ (repeat None (List.length strdata))) by (cbn [floats]; rewrite <- app_assoc; now rewrite nth_at0). cbn [obind floats chars regions].
  rewrite <- app_assoc. cbn [app]. rewrite update_at0. cbn [update]. rewrite app_length. cbn [List.length]. rewrite Nat.add_1_r.
  destruct (negb (is_valid_sequence l) || Nat.eqb (List.length l) 0).
  - assert (flag = true) as ->.
    { destruct l as [|a [|b [|c [|d [|e l']]]]]; try (injection E as <- _; reflexivity). destruct (is_nan d); [injection E as <- _; reflexivity|].
      destruct (int_of_float d); try discriminate. cbn [obind] in E. destruct (int_result _); try discriminate. cbn [obind] in E. injection E as <- _. reflexivity. }
    destruct (invalid_ok m l o E) as (code & -> & PI). rewrite PI. cbn [obind]. unfold create_special, new_region. cbn [floats chars regions obind].
    exact (ends_plain m s l H (CSpecial code) (RSpecial code) eq_refl eq_refl (fun _ _ => eq_refl)).
  - exact (typed_ok m s l H (guess_type ptype (List.length l)) flag o SO E).
Qed.

(** ---- the application's names ---- *)
Lemma present_app {A} (a b : list (option A)) : present (a ++ b) = (present a + present b)%nat.
Proof. induction a as [|[x|] a IH]; cbn; [reflexivity| |]; rewrite IH; lia. Qed.
Lemma present_nones {A} n : present (@repeat (option A) None n) = 0%nat. Proof. induction n; cbn; auto. Qed.
Lemma present_update {A} (l : list (option A)) : forall i v, (i < List.length l)%nat ->
  (present (update l i v) + present [nth i l None] = present l + present [v])%nat.
Proof.
  induction l as [|x l IH]; intros i v L; [cbn in L; lia|]. destruct i as [|i].
  - cbn [update nth]. change (v :: l) with ([v] ++ l). change (x :: l) with ([x] ++ l). rewrite !present_app. lia.
  - cbn [update nth]. change (x :: update l i v) with ([x] ++ update l i v). change (x :: l) with ([x] ++ l). rewrite !present_app.
    specialize (IH i v ltac:(cbn in L; lia)). lia.
Qed.
Record rel (names : list (option nat)) (lost : list nat) (hs s : contents) : Prop := mkRel {
  r_len : List.length names = List.length s;
  r_same : forall i p, nth i names None = Some p -> (p < List.length hs)%nat /\ nth i s None = nth p hs None;
  r_null : forall i, nth i names None = None -> nth i s None = None;
  r_once : forall i j p, nth i names None = Some p -> nth j names None = Some p -> i = j;
  r_lost : forall p, In p lost -> nth p hs None = Some (Special_of 0) /\ forall i, nth i names None <> Some p;
  r_all : forall p c, nth p hs None = Some c -> (exists i, nth i names None = Some p) \/ In p lost;
  r_count : present hs = (present s + List.length lost)%nat
}.
Lemma rel_nil : rel [] [] [] [].
Proof.
  split; try reflexivity; try (intros [|i]; cbn; intros; discriminate); try (intros [|i]; reflexivity); try (intros p []); intros [|p] c; discriminate.
Qed.
Lemma nth_last {A} (l : list (option A)) x i : nth i (l ++ [x]) None = if Nat.eqb i (List.length l) then x else nth i l None.
Proof.
  destruct (Nat.eqb_spec i (List.length l)) as [->|N]; [now rewrite nth_at0|]. destruct (Nat.ltb_spec i (List.length l)) as [L|L]; [now rewrite app_nth1|].
  rewrite !nth_overflow; [reflexivity|lia|rewrite app_length; cbn; lia].
Qed.
Lemma rel_nones names lost hs s n : rel names lost hs s -> rel names lost (hs ++ repeat None n) s.
Proof.
  intros R. split; try apply R.
  - intros i p E. rewrite nth_nones, app_length. destruct (r_same _ _ _ _ R i p E). split; [lia|assumption].
  - intros p J. rewrite nth_nones. exact (r_lost _ _ _ _ R p J).
  - intros p c. rewrite nth_nones. apply R.
  - rewrite present_app, present_nones. rewrite (r_count _ _ _ _ R). lia.
Qed.
Lemma rel_leak names lost hs s : rel names lost hs s -> rel names (List.length hs :: lost) (hs ++ [Some (Special_of 0)]) s.
Proof.
  intros R. split; try apply R.
  - intros i p E. destruct (r_same _ _ _ _ R i p E) as (L & E2). rewrite nth_last, app_length. replace (Nat.eqb p (List.length hs)) with false by (symmetry; apply Nat.eqb_neq; lia).
    split; [lia|exact E2].
  - intros p [<-|J].
    + split; [now rewrite nth_at0|]. intros i E. destruct (r_same _ _ _ _ R i _ E) as (L & _). lia.
    + destruct (r_lost _ _ _ _ R p J) as (E & N). split; [now apply nth_before|exact N].
  - intros p c. rewrite nth_last. destruct (Nat.eqb_spec p (List.length hs)) as [->|N]; [intros _; right; now left|]. intros E.
    destruct (r_all _ _ _ _ R p c E) as [X|X]; [now left|right; now right].
  - rewrite present_app, (r_count _ _ _ _ R). cbn. lia.
Qed.
Lemma rel_new names lost hs s c : rel names lost hs s -> rel (names ++ [Some (List.length hs)]) lost (hs ++ [Some c]) (s ++ [Some c]).
Proof.
  intros R. pose proof (r_len _ _ _ _ R) as L. split.
  - rewrite !app_length. cbn. lia.
  - intros i p. rewrite !nth_last, app_length, <- L. destruct (Nat.eqb_spec i (List.length names)) as [->|N].
    + intros E. injection E as <-. rewrite Nat.eqb_refl. cbn. split; [lia|reflexivity].
    + intros E. destruct (r_same _ _ _ _ R i p E) as (L1 & E1). replace (Nat.eqb p (List.length hs)) with false by (symmetry; apply Nat.eqb_neq; lia). split; [lia|exact E1].
  - intros i. rewrite !nth_last, <- L. destruct (Nat.eqb i (List.length names)); [discriminate|apply R].
  - intros i j p. rewrite !nth_last. destruct (Nat.eqb_spec i (List.length names)) as [->|N], (Nat.eqb_spec j (List.length names)) as [->|N']; auto.
    + intros E E'. injection E as <-. destruct (r_same _ _ _ _ R j _ E'). lia.
    + intros E' E. injection E as <-. destruct (r_same _ _ _ _ R i _ E'). lia.
    + apply R.
  - intros p J. destruct (r_lost _ _ _ _ R p J) as (E & N). split; [now apply nth_before|]. intros i. rewrite nth_last.
    destruct (Nat.eqb i (List.length names)); [|apply N]. intros X. injection X as <-. rewrite nth_overflow in E by lia. discriminate.
  - intros p c'. rewrite nth_last. destruct (Nat.eqb_spec p (List.length hs)) as [->|N].
    + intros _. left. exists (List.length names). now rewrite nth_at0.
    + intros E. destruct (r_all _ _ _ _ R p c' E) as [(i & X)|X]; [left; exists i; now apply nth_before|now right].
  - rewrite !present_app, (r_count _ _ _ _ R). cbn. lia.
Qed.
Lemma rel_no_region names lost hs s : rel names lost hs s -> rel (names ++ [None]) lost hs (s ++ [None]).
Proof.
  intros R. pose proof (r_len _ _ _ _ R) as L.
  assert (N : forall i, nth i (names ++ [None]) None = nth i names None) by (intros i; apply (nth_nones names 1)).
  assert (M : forall i, nth i (s ++ [None]) None = nth i s None) by (intros i; apply (nth_nones s 1)).
  split; try (intros *; rewrite ?N, ?M; apply R).
  - rewrite !app_length. cbn. lia.
  - intros p J. destruct (r_lost _ _ _ _ R p J) as (E & X). split; [exact E|]. intros i. rewrite N. apply X.
  - intros p c E. destruct (r_all _ _ _ _ R p c E) as [(i & X)|X]; [left; exists i; now rewrite N|now right].
  - rewrite present_app, (r_count _ _ _ _ R). cbn. lia.
Qed.
Lemma rel_update names lost hs s i p c v : rel names lost hs s -> nth i names None = Some p -> nth i s None = Some c ->
  rel names lost (update hs p v) (update s i v).
Proof.
  intros R E C. destruct (r_same _ _ _ _ R i p E) as (L & E1). pose proof (nth_some_length _ _ _ C) as Li. split; try apply R.
  - rewrite update_length. apply R.
  - intros j q Eq. destruct (r_same _ _ _ _ R j q Eq) as (Lq & E2). rewrite update_length. split; [exact Lq|]. rewrite !nth_update by lia.
    destruct (Nat.eqb_spec i j) as [<-|N].
    + rewrite E in Eq. injection Eq as <-. now rewrite Nat.eqb_refl.
    + destruct (Nat.eqb_spec p q) as [<-|N']; [|exact E2]. elim N. exact (r_once _ _ _ _ R i j p E Eq).
  - intros j N. rewrite nth_update by exact Li. destruct (Nat.eqb_spec i j) as [<-|D]; [congruence|]. exact (r_null _ _ _ _ R j N).
  - intros q J. destruct (r_lost _ _ _ _ R q J) as (E2 & N). split; [|exact N]. rewrite nth_update by exact L.
    destruct (Nat.eqb_spec p q) as [<-|D]; [elim (N i E)|exact E2].
  - intros q c' E2. rewrite nth_update in E2 by exact L. destruct (Nat.eqb_spec p q) as [<-|D]; [left; now exists i|]. exact (r_all _ _ _ _ R q c' E2).
  - pose proof (present_update hs p v L) as X. pose proof (present_update s i v Li) as Y. rewrite <- E1, C in X. rewrite C in Y. cbn [present] in *.
    pose proof (r_count _ _ _ _ R). lia.
Qed.
Lemma live_pointer names lost hs s r c : rel names lost hs s -> nth r s None = Some c -> exists p, nth r names None = Some p /\ nth p hs None = Some c.
Proof.
  intros R E. destruct (nth r names None) as [p|] eqn:N; [|rewrite (r_null _ _ _ _ R r N) in E; discriminate].
  exists p. split; [reflexivity|]. rewrite <- (proj2 (r_same _ _ _ _ R r p N)). exact E.
Qed.
Lemma pointer_ok names r p : nth r names None = Some p -> pointer names r = Ok p. Proof. intros E. unfold pointer. now rewrite E. Qed.

(** ---- one call ---- *)
Definition related (a : application) (s : contents) (n : nat) : Prop :=
  exists lost hs, inv (fst a) hs /\ rel (snd a) lost hs s /\ List.length lost = n.
Lemma related_fresh : related fresh [] 0.
Proof. exists [], []. split; [exact inv_nil|split; [exact rel_nil|reflexivity]]. Qed.

Lemma aimed_ok names lost hs s c m : rel names lost hs s -> proper_call s c -> inv m hs ->
  exists c', aimed names c = Ok c' /\ proper_call hs c' /\
    (snd (step_value hs c') = snd (step_value s c) /\ (forall p, snd (step_value s c) <> Region_named p) /\ rel names lost (fst (step_value hs c')) (fst (step_value s c)) \/
     snd (step_value hs c') = Region_named (List.length hs) /\ snd (step_value s c) = Region_named (List.length s) /\
     exists v, fst (step_value hs c') = hs ++ [Some v] /\ fst (step_value s c) = s ++ [Some v]).
Proof.
  intros R P H.
  assert (PTR : forall r c0, nth r s None = Some c0 -> exists p, pointer names r = Ok p /\ nth r names None = Some p /\ nth p hs None = Some c0).
  { intros r c0 E. destruct (live_pointer _ _ _ _ _ _ R E) as (p & N & E2). exists p. split; [now apply pointer_ok|auto]. }
  destruct c; cbn [proper_call aimed] in *.
  1-4: eexists; (split; [reflexivity|]); (split; [exact P|]); right; cbn [step_value fst snd]; (split; [reflexivity|]); (split; [reflexivity|]); eexists; split; reflexivity.
  - destruct P as (c0 & E). destruct (PTR r c0 E) as (p & -> & N & E2). cbn [obind]. eexists. split; [reflexivity|]. split; [now exists c0|]. right.
    cbn [step_value fst snd]. rewrite (content_at _ _ _ E), (content_at _ _ _ E2). split; [reflexivity|]. split; [reflexivity|]. eexists. split; reflexivity.
  - destruct P as (c0 & E). destruct (PTR r c0 E) as (p & -> & N & E2). cbn [obind]. eexists. split; [reflexivity|]. split; [now exists c0|]. left.
    cbn [step_value fst snd]. split; [reflexivity|]. split; [discriminate|]. exact (rel_update _ _ _ _ r p c0 None R N E).
  - destruct P as (c0 & E). destruct (PTR r c0 E) as (p & -> & N & E2). cbn [obind]. eexists. split; [reflexivity|]. split; [now exists c0|]. left.
    cbn [step_value fst snd]. rewrite (content_at _ _ _ E), (content_at _ _ _ E2). split; [reflexivity|]. split; [discriminate|exact R].
  - destruct P as (code0 & E). destruct (PTR r _ E) as (p & -> & N & E2). cbn [obind]. eexists. split; [reflexivity|]. split; [now exists code0|]. left.
    cbn [step_value fst snd]. split; [reflexivity|]. split; [discriminate|]. exact (rel_update _ _ _ _ r p _ _ R N E).
  - destruct P as (code0 & E). destruct (PTR r _ E) as (p & -> & N & E2). cbn [obind]. eexists. split; [reflexivity|]. split; [now exists code0|]. left.
    cbn [step_value fst snd]. rewrite (content_at _ _ _ E), (content_at _ _ _ E2). split; [reflexivity|]. split; [discriminate|exact R].
  - destruct P as (x0 & y0 & w0 & h0 & E). destruct (PTR r _ E) as (p & -> & N & E2). cbn [obind]. eexists. split; [reflexivity|]. split; [now exists x0, y0, w0, h0|]. left.
    cbn [step_value fst snd]. split; [reflexivity|]. split; [discriminate|]. exact (rel_update _ _ _ _ r p _ _ R N E).
  - destruct P as (x0 & y0 & w0 & h0 & E). destruct (PTR r _ E) as (p & -> & N & E2). cbn [obind]. eexists. split; [reflexivity|]. split; [now exists x0, y0, w0, h0|]. left.
    cbn [step_value fst snd]. rewrite (content_at _ _ _ E), (content_at _ _ _ E2). split; [reflexivity|]. split; [discriminate|exact R].
  - destruct P as (l & E & Hi). destruct (PTR r _ E) as (p & -> & N & E2). cbn [obind]. eexists. split; [reflexivity|]. split; [now exists l|]. left.
    cbn [step_value fst snd]. rewrite (content_at _ _ _ E), (content_at _ _ _ E2). split; [reflexivity|]. split; [discriminate|]. exact (rel_update _ _ _ _ r p _ _ R N E).
  - destruct P as (l & q & E & Hi & Hn). destruct (PTR r _ E) as (p & -> & N & E2). cbn [obind]. eexists. split; [reflexivity|]. split; [now exists l, q|]. left.
    cbn [step_value fst snd]. rewrite (content_at _ _ _ E), (content_at _ _ _ E2). split; [reflexivity|]. split; [|exact R]. intros z. destruct (nth (Z.to_nat index) l None) as [(a, b)|]; discriminate.
  - destruct P as (l & E). destruct (PTR r _ E) as (p & -> & N & E2). cbn [obind]. eexists. split; [reflexivity|]. split; [now exists l|]. left.
    cbn [step_value fst snd]. rewrite (content_at _ _ _ E), (content_at _ _ _ E2). split; [reflexivity|]. split; [discriminate|exact R].
  - destruct P as (x & y & w & h & l & E). destruct (PTR r _ E) as (p & -> & N & E2). cbn [obind]. eexists. split; [reflexivity|]. split; [now exists x, y, w, h, l|]. left.
    cbn [step_value fst snd]. rewrite (content_at _ _ _ E), (content_at _ _ _ E2). split; [reflexivity|]. split; [discriminate|exact R].
  - destruct P as (x & y & w & h & l & E & Hi & Hj). destruct (PTR r _ E) as (p & -> & N & E2). cbn [obind]. eexists. split; [reflexivity|]. split; [now exists x, y, w, h, l|]. left.
    cbn [step_value fst snd]. rewrite (content_at _ _ _ E), (content_at _ _ _ E2). split; [reflexivity|]. split; [discriminate|]. exact (rel_update _ _ _ _ r p _ _ R N E).
  - destruct P as (x & y & w & h & l & v & E & Hi & Hj & Hn). destruct (PTR r _ E) as (p & -> & N & E2). cbn [obind]. eexists. split; [reflexivity|]. split; [now exists x, y, w, h, l, v|]. left.
    cbn [step_value fst snd]. rewrite (content_at _ _ _ E), (content_at _ _ _ E2). split; [reflexivity|]. split; [|exact R]. intros z.
    destruct (nth (Z.to_nat (row * w + column)) l None) as [a|]; discriminate.
Qed.
Lemma basic_ok legacy a s n c : related a s n -> proper_call s c ->
  exists a', run_api legacy a (Basic c) = Ok (a', Plainly (snd (step_value s c))) /\ related a' (fst (step_value s c)) n.
Proof.
  destruct a as (m & names). intros (lost & hs & H & R & L) P. cbn [fst snd] in *.
  destruct (aimed_ok names lost hs s c m R P H) as (c' & A & P' & X). cbn [run_api]. rewrite A. cbn [obind].
  destruct (call_ok m hs c' H P') as (m' & E & H'). rewrite E. cbn [obind].
  destruct X as [(S1 & S2 & R')|(S1 & S2 & v & F1 & F2)].
  - rewrite S1. destruct (snd (step_value s c)) eqn:SR; try (eexists; split; [reflexivity|]; exists lost, (fst (step_value hs c')); auto). now elim (S2 r).
  - rewrite S1, S2. unfold given. rewrite (r_len _ _ _ _ R). eexists. split; [reflexivity|]. exists lost, (hs ++ [Some v]). cbn [fst snd].
    rewrite F1 in H'. rewrite F2. split; [exact H'|]. split; [now apply rel_new|exact L].
Qed.
Lemma given_ok names lost hs s m' (f : nat) o j n : rel names lost hs s -> List.length lost = n -> (f <= 1)%nat ->
  inv m' (hs ++ repeat (Some (Special_of 0)) f ++ made o ++ repeat None j) ->
  exists a', given names (option_map (fun _ => (List.length hs + f)%nat) o) m' = (a', answered s o) /\ related a' (s ++ [option_map shown o]) (f + n).
Proof.
  intros R L Hf H. unfold given, answered. rewrite (r_len _ _ _ _ R).
  assert (R1 : exists lost', rel names lost' (hs ++ repeat (Some (Special_of 0)) f) s /\ List.length lost' = (f + n)%nat).
  { destruct f as [|[|f]]; [|exists (List.length hs :: lost)|lia].
    - exists lost. cbn. rewrite app_nil_r. auto.
    - split; [now apply rel_leak|cbn; lia]. }
  destruct R1 as (lost' & R1 & L1). destruct o as [r|]; cbn [option_map made] in *; eexists; (split; [reflexivity|]).
  - exists lost', ((hs ++ repeat (Some (Special_of 0)) f) ++ [Some (shown r)] ++ repeat None j). cbn [fst snd]. split; [now rewrite <- app_assoc|]. split; [|exact L1].
    rewrite app_assoc. apply rel_nones. pose proof (rel_new _ _ _ _ (shown r) R1) as X. rewrite app_length, repeat_length in X. exact X.
  - exists lost', ((hs ++ repeat (Some (Special_of 0)) f) ++ repeat None j). cbn [fst snd]. split; [now rewrite <- app_assoc|]. split; [|exact L1].
    apply rel_nones. now apply rel_no_region.
Qed.
Lemma sees_pointer names lost hs s r v : rel names lost hs s -> sees s r v -> exists p, pointer names r = Ok p /\ nth p hs None = Some (shown v).
Proof.
  intros R S1. apply sees_shown in S1. destruct (live_pointer _ _ _ _ _ _ R S1) as (p & N & E). exists p. split; [now apply pointer_ok|exact E].
Qed.
Lemma forgets_le v t : (forgets v t <= 1)%nat. Proof. destruct v, t; cbn; lia. Qed.

Lemma apis_ok legacy l : forall s s' rs n, means legacy s l s' rs n -> forall a k, related a s k ->
  exists a', run_apis legacy a l = Ok (a', rs) /\ related a' s' (n + k).
Proof.
  induction l as [|c l IH]; intros s s' rs n M a k Ra.
  - inversion M; subst. exists a. auto.
  - assert (ONE : forall a1 r1 s1 rs1 n1 n0, run_api legacy a c = Ok (a1, r1) -> related a1 s1 (n0 + k) -> means legacy s1 l s' rs1 n1 ->
      exists a', run_apis legacy a (c :: l) = Ok (a', r1 :: rs1) /\ related a' s' (n0 + n1 + k)).
    { intros a1 r1 s1 rs1 n1 n0 E R1 M1. cbn [run_apis]. rewrite E. cbn [obind]. destruct (IH _ _ _ _ M1 a1 _ R1) as (a' & E' & R'). rewrite E'. cbn [obind].
      exists a'. split; [reflexivity|]. replace (n0 + n1 + k)%nat with (n1 + (n0 + k))%nat by lia. exact R'. }
    inversion M; subst.
    + destruct (basic_ok legacy a s k c0 Ra) as (a1 & E1 & R1); [assumption|]. eapply (ONE _ _ _ _ _ 0%nat); eauto.
    + destruct a as (m & names). destruct Ra as (lost & hs & H & R & L). cbn [fst snd] in *.
      destruct (sees_pointer _ _ _ _ _ _ R ltac:(eassumption)) as (p & P & E).
      destruct (convert_region_ok legacy m hs p v t o H E ltac:(eassumption)) as (m' & j & C & H').
      destruct (given_ok names lost hs s m' (forgets v t) o j k R L (forgets_le v t) H') as (a1 & G & R1).
      eapply ONE; [|exact R1|eassumption]. cbn [run_api]. rewrite P. cbn [obind]. rewrite C. cbn [obind]. now rewrite G.
    + destruct a as (m & names). destruct Ra as (lost & hs & H & R & L). cbn [fst snd] in *.
      destruct (sees_pointer _ _ _ _ _ _ R ltac:(eassumption)) as (p & P & E).
      destruct (to_rectangle_ok legacy m hs p v o H E ltac:(eassumption)) as (m' & j & C & H').
      destruct (given_ok names lost hs s m' 0 o j k R L ltac:(lia) H') as (a1 & G & R1).
      eapply (ONE _ _ _ _ _ 0%nat); [|exact R1|eassumption]. cbn [run_api]. rewrite P. cbn [obind]. unfold region_get_bounds.
      rewrite (load_ok _ _ _ (inv_value _ _ _ _ H E)). cbn [obind]. rewrite C. cbn [obind]. rewrite Nat.add_0_r in G. now rewrite G.
    + destruct a as (m & names). pose proof Ra as (lost & hs & H & R & L). cbn [fst snd] in *.
      destruct (sees_pointer _ _ _ _ _ _ R ltac:(eassumption)) as (p & P & E).
      eapply (ONE _ _ _ _ _ 0%nat); [|exact Ra|eassumption]. cbn [run_api]. rewrite P. cbn [obind]. unfold region_bounds.
      rewrite (load_ok _ _ _ (inv_value _ _ _ _ H E)). cbn [obind]. match goal with X : compute_bounds _ _ = _ |- _ => now rewrite X end.
    + destruct a as (m & names). destruct Ra as (lost & hs & H & R & L). cbn [fst snd] in *.
      destruct (sees_pointer _ _ _ _ _ _ R ltac:(eassumption)) as (p & P & E).
      match goal with X : sees s b vb |- _ => destruct (sees_pointer _ _ _ _ _ _ R X) as (q & Q & Eq) end.
      match goal with X : sees s a0 va |- _ => destruct (sees_pointer _ _ _ _ _ _ R X) as (p' & P' & Ep) end.
      match goal with X : compute_overlap _ _ _ _ = _ |- _ => destruct (overlap_ok legacy m hs p' q va vb bnd o H Ep Eq X) as (m' & j & O & H') end.
      eapply (ONE (m', names) _ s _ _ 0%nat); [|exists lost, (hs ++ repeat None j); split; [exact H'|split; [now apply rel_nones|exact L]]|eassumption].
      cbn [run_api]. rewrite P'. cbn [obind]. rewrite Q. cbn [obind]. rewrite O. reflexivity.
    + destruct a as (m & names). pose proof Ra as (lost & hs & H & R & L). cbn [fst snd] in *.
      destruct (sees_pointer _ _ _ _ _ _ R ltac:(eassumption)) as (p & P & E).
      eapply (ONE _ _ _ _ _ 0%nat); [|exact Ra|eassumption]. cbn [run_api]. rewrite P. cbn [obind]. unfold region_contains.
      rewrite (load_ok _ _ _ (inv_value _ _ _ _ H E)). cbn [obind]. match goal with X : contains_point _ _ _ = _ |- _ => now rewrite X end.
    + destruct a as (m & names). pose proof Ra as (lost & hs & H & R & L). cbn [fst snd] in *.
      destruct (sees_pointer _ _ _ _ _ _ R ltac:(eassumption)) as (p & P & E).
      eapply (ONE _ _ _ _ _ 0%nat); [|exact Ra|eassumption]. cbn [run_api]. rewrite P. cbn [obind]. unfold region_encode.
      rewrite (load_ok _ _ _ (inv_value _ _ _ _ H E)). cbn [obind]. match goal with X : region_string _ = _ |- _ => now rewrite X end.
    + destruct a as (m & names). destruct Ra as (lost & hs & H & R & L). cbn [fst snd] in *.
      destruct (decode_ok m hs text flag o H) as (m' & D & H'); [assumption|assumption|].
      assert (H2 : inv m' (hs ++ repeat (Some (Special_of 0)) 0 ++ made o ++ repeat None 0)) by (cbn; rewrite app_nil_r; exact H').
      destruct (given_ok names lost hs s m' 0 o 0 k R L ltac:(lia) H2) as (a1 & G & R1).
      eapply (ONE _ _ _ _ _ 0%nat); [|exact R1|eassumption]. cbn [run_api]. rewrite D. cbn [obind]. rewrite Nat.add_0_r in G. now rewrite G.
Qed.

(** ---- the theorems ---- *)
Lemma apis_refine legacy l s rs n : means legacy [] l s rs n -> exists a, run_apis legacy fresh l = Ok (a, rs).
Proof. intros M. destruct (apis_ok legacy l _ _ _ _ M fresh 0%nat related_fresh) as (a & E & _). eauto. Qed.
Lemma present_same (rs : list (option container)) : forall hs : contents, List.length rs = List.length hs ->
  (forall h, match nth h rs None, nth h hs None with Some _, Some _ => True | None, None => True | _, _ => False end) -> present rs = present hs.
Proof.
  induction rs as [|r rs IH]; intros [|h hs] L A; cbn in L; try lia; [reflexivity|]. pose proof (A 0%nat) as A0. cbn in A0.
  specialize (IH hs ltac:(lia) (fun k => A (S k))). destruct r, h; cbn; try contradiction; congruence.
Qed.
Lemma apis_memory legacy l s rs n m names : means legacy [] l s rs n -> run_apis legacy fresh l = Ok ((m, names), rs) ->
  present (regions m) = (present s + n)%nat /\ (released s -> no_arrays m).
Proof.
  intros M E. destruct (apis_ok legacy l _ _ _ _ M fresh 0%nat related_fresh) as (a & E' & lost & hs & H & R & L). rewrite E in E'. injection E' as <-. cbn [fst snd] in *.
  split.
  - rewrite (present_same (regions m) hs (proj1 H)).
    + rewrite (r_count _ _ _ _ R). lia.
    + intros h. pose proof (proj1 (proj2 H) h) as X. destruct (nth h (regions m) None), (nth h hs None); auto.
  - intros RE. pose proof H as (_ & RR & OF & OC).
    assert (ONLY : forall h c, nth h (regions m) None = Some c -> fptrs c = [] /\ cptrs c = []).
    { intros h c C. pose proof (RR h) as X. rewrite C in X. destruct (nth h hs None) as [v|] eqn:Ev; [|contradiction].
      destruct (r_all _ _ _ _ R h v Ev) as [(i & N)|J].
      - destruct (r_same _ _ _ _ R i h N) as (_ & E2). rewrite RE, Ev in E2. discriminate.
      - destruct (r_lost _ _ _ _ R h J) as (E2 & _). rewrite Ev in E2. injection E2 as ->. destruct c; try contradiction. auto. }
    split; intros p.
    + destruct (nth p (floats m) None) eqn:Ep; [|reflexivity]. destruct (proj1 (proj1 OF p)) as (h & c & C & J); [congruence|]. rewrite (proj1 (ONLY h c C)) in J. contradiction.
    + destruct (nth p (chars m) None) eqn:Ep; [|reflexivity]. destruct (proj1 (proj1 OC p)) as (h & c & C & J); [congruence|]. rewrite (proj2 (ONLY h c C)) in J. contradiction.
Qed.
Lemma present_none {A} (l : list (option A)) : present l = 0%nat -> forall p, nth p l None = None.
Proof. induction l as [|[x|] l IH]; intros E [|p]; cbn in *; try reflexivity; try discriminate. now apply IH. Qed.
Lemma none_present {A} (l : list (option A)) : (forall p, nth p l None = None) -> present l = 0%nat.
Proof. induction l as [|[x|] l IH]; intros E; [reflexivity|now specialize (E 0%nat)|]. cbn. apply IH. intros p. exact (E (S p)). Qed.
Lemma apis_left legacy l s rs n m names : means legacy [] l s rs n -> released s -> run_apis legacy fresh l = Ok ((m, names), rs) ->
  present (regions m) = n /\ no_arrays m /\ (n = 0%nat -> nothing_left m).
Proof.
  intros M RE E. destruct (apis_memory legacy l s rs n m names M E) as (C & A). specialize (A RE). rewrite (none_present s RE) in C. cbn in C.
  split; [exact C|split; [exact A|]]. intros ->. split; [exact (proj1 A)|split; [exact (proj2 A)|]]. now apply present_none.
Qed.

(** ---- samples ---- *)
Definition f1 : spec_float := S754_finite false 1 0.
Definition f2 : spec_float := S754_finite false 1 1.
Definition f9 : spec_float := S754_finite false 9 0.
(** a triangle, its bounds, a rectangle's overlap with it, texts and releases *)
Definition sample_apis : list api :=
  [Basic (CreatePolygon 3); Basic (SetPoint 0 0 f1 f1); Basic (SetPoint 0 1 f9 f1); Basic (SetPoint 0 2 f1 f9);
   Convert 0 RECTANGLE; Basic (CreateRectangle f2 f2 f2 f2); Overlap 0 2 no_bounds; Encode 2; Decode (str "1,2,3,4"); Contains 2 f2 f2; GetBounds 3;
   Basic (Release 0); Basic (Release 1); Basic (Release 2); Basic (Release 3); Basic (Release 4)].

Ltac proper := cbn; repeat match goal with
  | |- _ /\ _ => split | |- exists _, _ => eexists | |- True => exact Logic.I | |- Some _ = Some _ => reflexivity | |- live _ _ => unfold live
  | |- (_ = _ -> False) => discriminate | |- _ => first [lia | reflexivity | discriminate] end.
Ltac value := eexists; split; [vm_compute; reflexivity|vm_compute; reflexivity].
Ltac meant := match goal with
  | |- means _ ?s (Basic ?c :: ?l) _ _ _ =>
      eapply means_basic; [proper|]; match goal with |- means _ ?t _ _ _ _ => let v := eval vm_compute in t in change t with v end
  | |- means _ ?s (Convert ?r ?t :: ?l) _ _ _ => eapply means_convert; [value|vm_compute; reflexivity|]; cbn [option_map shown app map]
  | |- means _ ?s (GetBounds ?r :: ?l) _ _ _ => eapply means_get_bounds; [value|vm_compute; reflexivity|]; cbn [option_map shown app map]
  | |- means _ ?s (Bounds ?r :: ?l) _ _ _ => eapply means_bounds; [value|vm_compute; reflexivity|]
  | |- means _ ?s (Overlap _ _ _ :: ?l) _ _ _ => eapply means_overlap; [value|value|vm_compute; reflexivity|]
  | |- means _ ?s (Contains _ _ _ :: ?l) _ _ _ => eapply means_contains; [value|vm_compute; reflexivity|]
  | |- means _ ?s (Encode _ :: ?l) _ _ _ => eapply means_encode; [value|vm_compute; reflexivity|]
  | |- means _ ?s (Decode _ :: ?l) _ _ _ => eapply means_decode; [vm_compute; reflexivity|exact Logic.I|]; cbn [option_map shown app map]
  | |- means _ _ [] _ _ _ => apply means_nil
  end.
Lemma sample_counted : exists s rs n, means false [] sample_apis s rs n /\ released s /\ n = 0%nat.
Proof.
  eexists _, _, _. split; [unfold sample_apis; repeat meant|]. split; [|reflexivity]. intros r. do 5 (destruct r as [|r]; [reflexivity|]). destruct r; reflexivity.
Qed.
(** a triangle converted to a mask, everything released *)
Definition leaky_apis : list api :=
  [Basic (CreatePolygon 3); Basic (SetPoint 0 0 f1 f1); Basic (SetPoint 0 1 f9 f1); Basic (SetPoint 0 2 f1 f9);
   Convert 0 MASK; Basic (GetHeader 1); Basic (Release 0); Basic (Release 1)].
Lemma leaky_counted : exists s rs n, means false [] leaky_apis s rs n /\ released s /\ n = 1%nat.
Proof.
  eexists _, _, _. split; [unfold leaky_apis; repeat meant|]. split; [|reflexivity]. intros r. do 2 (destruct r as [|r]; [reflexivity|]). destruct r; reflexivity.
Qed.
Lemma leaky_always :
  (forall legacy l s rs n m names, means legacy [] l s rs (S n) -> released s -> run_apis legacy fresh l = Ok ((m, names), rs) -> ~ nothing_left m) /\
  exists a rs s, means false [] leaky_apis s rs 1 /\ released s /\ run_apis false fresh leaky_apis = Ok (a, rs).
Proof.
  split.
  - intros legacy l s rs n m names M R E (_ & _ & N). destruct (apis_left legacy l s rs (S n) m names M R E) as (A & _).
    rewrite (none_present _ N) in A. discriminate.
  - destruct leaky_counted as (s & rs & n & M & R & E). rewrite E in M. destruct (apis_refine false leaky_apis s rs 1 M) as (a & Ea).
    exists a, rs, s. auto.
Qed.
