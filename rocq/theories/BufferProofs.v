From Verif Require Import CBase StrMap StrMapProofs Buffer BufferSpec.

Definition holds {A} (b : block A) (l : list A) : Prop := exists tl, b = map Some l ++ tl.

Lemma set_nth_app {A} (l1 l2 : list A) x y : set_nth (l1 ++ x :: l2) (List.length l1) y = l1 ++ y :: l2.
Proof. induction l1 as [|z l1 IH]; [reflexivity|]. cbn. now rewrite IH. Qed.

Lemma blk_write_end {A} (b : block A) l v : holds b l -> (List.length l < List.length b)%nat ->
  exists b', blk_write b (List.length l) v = Ok b' /\ holds b' (l ++ [v]) /\ List.length b' = List.length b.
Proof.
  intros [tl ->] Hlt. rewrite app_length, map_length in Hlt. destruct tl as [|x tl]; [cbn in Hlt; lia|].
  unfold blk_write. rewrite app_length, map_length. cbn [List.length].
  replace (Nat.ltb _ _) with true by lia.
  eexists. split; [reflexivity|]. split.
  - exists tl. rewrite <- (map_length Some l) at 1. rewrite set_nth_app, map_app, <- app_assoc. reflexivity.
  - rewrite set_nth_length, app_length, map_length. reflexivity.
Qed.

Lemma blk_write_list_end {A} (s : list A) : forall b l, holds b l ->
  (List.length l + List.length s <= List.length b)%nat ->
  exists b', blk_write_list b (List.length l) s = Ok b' /\ holds b' (l ++ s) /\ List.length b' = List.length b.
Proof.
  induction s as [|x s IH]; intros b l Hb Hl; cbn [List.length] in Hl.
  - exists b. rewrite app_nil_r. auto.
  - destruct (blk_write_end b l x Hb ltac:(lia)) as (b1 & E1 & H1 & L1).
    cbn [blk_write_list]. rewrite E1. cbn [obind].
    destruct (IH b1 (l ++ [x]) H1) as (b2 & E2 & H2 & L2).
    { rewrite app_length, L1. cbn. lia. }
    rewrite app_length in E2. cbn [List.length] in E2. rewrite Nat.add_1_r in E2.
    exists b2. rewrite E2, L2, L1, <- app_assoc in *. auto.
Qed.

Lemma holds_prefix {A} (b : block A) l1 l2 : holds b (l1 ++ l2) -> holds b l1.
Proof. intros [tl ->]. exists (map Some l2 ++ tl). now rewrite map_app, <- app_assoc. Qed.

Lemma blk_read_holds {A} (l : list A) : forall b, holds b l -> blk_read b (List.length l) = Ok l.
Proof.
  induction l as [|x l IH]; intros b [tl ->]; [reflexivity|].
  cbn. rewrite IH by (now exists tl). reflexivity.
Qed.

Lemma holds_realloc {A} (b : block A) l n : holds b l -> (List.length l <= n)%nat ->
  holds (blk_realloc b n) l /\ List.length (blk_realloc b n) = n.
Proof.
  intros [tl ->] H. unfold blk_realloc. rewrite !app_length, !map_length. split.
  - rewrite firstn_app, map_length.
    exists (firstn (n - List.length l) tl ++ repeat None (n - (List.length l + List.length tl))).
    rewrite firstn_all2 by (rewrite map_length; lia). now rewrite <- app_assoc.
  - rewrite firstn_length, !app_length, !map_length, repeat_length. lia.
Qed.

Lemma holds_nil {A} (b : block A) : holds b [].
Proof. exists b. reflexivity. Qed.

(** Buffers *)
Definition buf_ok (B : string_buffer) (l : list N) : Prop :=
  b_size B = List.length (b_mem B) /\ b_pos B = List.length l /\ (b_pos B <= b_size B)%nat /\ holds (b_mem B) l.

Lemma buffer_create_ok L : buf_ok (buffer_create L) [].
Proof. unfold buf_ok. cbn. unfold blk_new. rewrite repeat_length. repeat split; try lia. apply holds_nil. Qed.

Lemma buffer_push_ok B l c : buf_ok B l -> exists B', buffer_push B c = Ok B' /\ buf_ok B' (l ++ [c]).
Proof.
  intros (Hs & Hp & Hle & Hh). unfold buffer_push.
  assert (G : forall B1, buf_ok B1 l -> (b_pos B1 < b_size B1)%nat ->
     exists B', (m <- blk_write (b_mem B1) (b_pos B1) c ;; Ok (mkBuf m (b_pos B1 + 1) (b_size B1))) = Ok B' /\
       buf_ok B' (l ++ [c])).
  { intros B1 (Hs1 & Hp1 & Hle1 & Hh1) Hlt. rewrite Hp1.
    destruct (blk_write_end (b_mem B1) l c Hh1 ltac:(lia)) as (m & E & Hm & Lm). rewrite E. cbn [obind].
    eexists. split; [reflexivity|]. unfold buf_ok. cbn. rewrite app_length. cbn. rewrite Lm. repeat split; try lia. exact Hm. }
  destruct (Nat.ltb (b_size B - b_pos B) 1) eqn:E.
  - apply G; cbn [b_mem b_pos b_size]; [|unfold BUFFER_INCREMENT_STEP; lia].
    destruct (holds_realloc (b_mem B) l (b_pos B + BUFFER_INCREMENT_STEP) Hh ltac:(lia)) as [H1 H2].
    unfold buf_ok. cbn. rewrite H2. repeat split; try lia. exact H1.
  - apply G; [repeat split; auto|lia].
Qed.

Lemma vsnprintf_full m l s n : holds m l -> (List.length l + n <= List.length m)%nat -> (List.length s < n)%nat ->
  exists m', vsnprintf m (List.length l) n s = Ok m' /\ holds m' (l ++ s) /\ List.length m' = List.length m.
Proof.
  intros Hh Hn Hs. destruct n as [|n]; [lia|]. unfold vsnprintf. rewrite firstn_all2 by lia.
  destruct (blk_write_list_end (s ++ [0]) m l Hh) as (m' & E & H & L).
  { rewrite app_length. cbn. lia. }
  exists m'. split; [exact E|]. split; [|exact L]. rewrite app_assoc in H. now apply holds_prefix in H.
Qed.

Lemma vsnprintf_cut m l s n : holds m l -> (List.length l + n <= List.length m)%nat ->
  exists m', vsnprintf m (List.length l) n s = Ok m' /\ holds m' l /\ List.length m' = List.length m.
Proof.
  intros Hh Hn. destruct n as [|n]; [exists m; auto|]. unfold vsnprintf.
  destruct (blk_write_list_end (firstn n s ++ [0]) m l Hh) as (m' & E & H & L).
  { rewrite app_length, firstn_length. cbn. lia. }
  exists m'. split; [exact E|]. split; [|exact L]. now apply holds_prefix in H.
Qed.

Lemma buffer_append_ok B l s : buf_ok B l -> exists B', buffer_append B s = Ok B' /\ buf_ok B' (l ++ s).
Proof.
  intros (Hs & Hp & Hle & Hh). unfold buffer_append. rewrite Hp.
  destruct (Nat.leb (b_size B - List.length l) (List.length s)) eqn:E.
  - destruct (vsnprintf_cut (b_mem B) l s (b_size B - List.length l) Hh ltac:(lia)) as (m1 & E1 & H1 & L1).
    rewrite E1. cbn [obind].
    destruct (holds_realloc m1 l (List.length l + List.length s + 1) H1 ltac:(lia)) as [H2 L2].
    destruct (vsnprintf_full (blk_realloc m1 (List.length l + List.length s + 1)) l s
                (List.length l + List.length s + 1 - List.length l) H2 ltac:(lia) ltac:(lia)) as (m2 & E3 & H3 & L3).
    rewrite E3. cbn [obind]. eexists. split; [reflexivity|]. unfold buf_ok. cbn. rewrite app_length, L3, L2.
    repeat split; try lia. exact H3.
  - destruct (vsnprintf_full (b_mem B) l s (b_size B - List.length l) Hh ltac:(lia) ltac:(lia)) as (m1 & E1 & H1 & L1).
    rewrite E1. cbn [obind]. eexists. split; [reflexivity|]. unfold buf_ok. cbn. rewrite app_length, L1.
    repeat split; try lia. exact H1.
Qed.

Lemma buffer_extract_ok B l : buf_ok B l -> buffer_extract B = Ok (c_block l).
Proof.
  intros (Hs & Hp & Hle & Hh). unfold buffer_extract. rewrite Hp, blk_read_holds by exact Hh. cbn [obind].
  destruct (blk_write_list_end l (blk_new (List.length l + 1)) [] (holds_nil _)) as (m & E & H & L).
  { unfold blk_new. rewrite repeat_length. cbn. lia. }
  cbn [List.length] in E. rewrite E. cbn [obind]. cbn [app] in H.
  unfold blk_new in L. rewrite repeat_length in L.
  destruct (blk_write_end m l 0 H ltac:(lia)) as (m' & E' & [tl H'] & L'). rewrite E'. f_equal.
  unfold c_block. destruct tl as [|x tl]; [rewrite H', app_nil_r; reflexivity|].
  exfalso. rewrite H', app_length, map_length, app_length in L'. cbn in L'. lia.
Qed.

Lemma buffer_ops ops : forall B l, buf_ok B l -> exists B', run_ops bop_run B ops = Ok B' /\ buf_ok B' (fold_left bop_spec ops l).
Proof.
  induction ops as [|o ops IH]; intros B l H; [exists B; auto|].
  assert (G : exists B1, bop_run B o = Ok B1 /\ buf_ok B1 (bop_spec l o)).
  { destruct o as [c| |s]; cbn [bop_run bop_spec].
    - now apply buffer_push_ok.
    - exists (buffer_reset B). split; [reflexivity|]. destruct H as (Hs & Hp & Hle & Hh).
      unfold buf_ok. cbn. repeat split; try lia. apply holds_nil.
    - now apply buffer_append_ok. }
  destruct G as (B1 & E1 & H1). destruct (IH B1 _ H1) as (B2 & E2 & H2).
  exists B2. cbn [run_ops fold_left]. rewrite E1. auto.
Qed.

Lemma buffer_api L ops : exists B, run_ops bop_run (buffer_create L) ops = Ok B /\
  b_pos B = List.length (fold_left bop_spec ops []) /\ buffer_extract B = Ok (c_block (fold_left bop_spec ops [])).
Proof.
  destruct (buffer_ops ops _ _ (buffer_create_ok L)) as (B & E & H). exists B. split; [exact E|].
  split; [apply H|]. now apply buffer_extract_ok.
Qed.

(** Lists *)
Lemma Forall2_length {A B} (R : A -> B -> Prop) l1 l2 : Forall2 R l1 l2 -> List.length l1 = List.length l2.
Proof. induction 1; cbn; congruence. Qed.

Lemma blk_string_block s : blk_string (c_block s) = Ok (c_string s).
Proof.
  unfold c_block. rewrite map_app. induction s as [|c s IH]; [reflexivity|].
  cbn. destruct (c =? 0); [reflexivity|]. cbn [app map] in *. now rewrite IH.
Qed.

Lemma c_string_idem s : c_string (c_string s) = c_string s.
Proof. induction s as [|c s IH]; [reflexivity|]. cbn. destruct (c =? 0) eqn:E; [reflexivity|]. cbn. now rewrite E, IH. Qed.

Lemma copy_block s : blk_write_list (blk_new (List.length s + 1)) 0 (s ++ [0]) = Ok (c_block s).
Proof.
  destruct (blk_write_list_end (s ++ [0]) (blk_new (List.length s + 1)) [] (holds_nil _)) as (m & E & [tl H] & L).
  { unfold blk_new. rewrite repeat_length, app_length. cbn. lia. }
  cbn [List.length app] in *. rewrite E. f_equal. unfold c_block.
  destruct tl as [|x tl]; [rewrite H, app_nil_r; reflexivity|].
  exfalso. unfold blk_new in L. rewrite H, repeat_length, app_length, map_length, app_length in L. cbn in L. lia.
Qed.

(** The slots below the position hold blocks with the strings of [l]; every allocated slot that was ever used or
    zeroed may be NULL. *)
Definition lst_ok (B : string_list) (l : list (list N)) : Prop :=
  l_size B = List.length (l_mem B) /\ l_pos B = List.length l /\ (l_pos B <= l_size B)%nat /\
  exists bs, holds (l_mem B) (map Some bs) /\ Forall2 (fun b s => blk_string b = Ok s) bs l.

Lemma list_create_ok L : lst_ok (list_create L) [].
Proof. unfold lst_ok. cbn. rewrite repeat_length. repeat split; try lia. exists []. split; [apply holds_nil|constructor]. Qed.

Lemma list_append_any B l b s : lst_ok B l -> blk_string b = Ok s ->
  exists B',
    (let B1 := if Nat.ltb (l_size B - l_pos B) 1
            then mkList (blk_realloc (l_mem B) (l_pos B + 16)) (l_pos B) (l_pos B + 16)
            else B in
     m <- blk_write (l_mem B1) (l_pos B1) (Some b) ;; Ok (mkList m (l_pos B1 + 1) (l_size B1))) = Ok B' /\
    lst_ok B' (l ++ [s]).
Proof.
  intros (Hs & Hp & Hle & bs & Hh & HF) Hb. cbn [l_mem l_pos l_size].
  pose proof (Forall2_length _ _ _ HF) as HL.
  assert (G : forall B1, l_size B1 = List.length (l_mem B1) -> l_pos B1 = List.length l -> (l_pos B1 < l_size B1)%nat ->
     holds (l_mem B1) (map Some bs) ->
     exists B', (m <- blk_write (l_mem B1) (l_pos B1) (Some b) ;; Ok (mkList m (l_pos B1 + 1) (l_size B1))) = Ok B' /\
       lst_ok B' (l ++ [s])).
  { intros B1 Hs1 Hp1 Hlt Hh1. rewrite Hp1, <- HL, <- (map_length Some bs).
    destruct (blk_write_end (l_mem B1) (map Some bs) (Some b) Hh1) as (m & E & Hm & Lm).
    { rewrite map_length. lia. }
    rewrite E. cbn [obind]. eexists. split; [reflexivity|]. unfold lst_ok. cbn.
    rewrite app_length, Lm. rewrite map_length. cbn. repeat split; try lia.
    exists (bs ++ [b]). rewrite map_app. split; [exact Hm|]. apply Forall2_app; [exact HF|]. constructor; [exact Hb|constructor]. }
  destruct (Nat.ltb (l_size B - l_pos B) 1) eqn:E.
  - destruct (holds_realloc (l_mem B) (map Some bs) (l_pos B + 16) Hh) as [H1 H2].
    { rewrite map_length. lia. }
    apply G; cbn [l_mem l_pos l_size]; auto; lia.
  - apply G; auto; lia.
Qed.

Lemma list_append_ok B l s : lst_ok B l -> exists B', list_append B (c_block s) = Ok B' /\ lst_ok B' (l ++ [c_string s]).
Proof.
  intros H. unfold list_append. rewrite blk_string_block. cbn [obind]. rewrite copy_block. cbn [obind].
  apply list_append_any; [exact H|]. rewrite blk_string_block. now rewrite c_string_idem.
Qed.

Lemma list_append_direct_ok B l s : lst_ok B l ->
  exists B', list_append_direct B (c_block s) = Ok B' /\ lst_ok B' (l ++ [c_string s]).
Proof.
  intros H. unfold list_append_direct. rewrite blk_string_block. cbn [obind].
  apply list_append_any; [exact H|]. apply blk_string_block.
Qed.

Lemma list_reset_loop_ok n : forall m i, (i + n <= List.length m)%nat ->
  (forall j, (i <= j < i + n)%nat -> exists p, nth_error m j = Some (Some p)) ->
  exists m', list_reset_loop m i n = Ok m' /\ List.length m' = List.length m.
Proof.
  induction n as [|n IH]; intros m i Hl Hj; [exists m; auto|].
  cbn [list_reset_loop]. destruct (Hj i ltac:(lia)) as [p Ep]. rewrite Ep.
  unfold blk_write. replace (Nat.ltb i (List.length m)) with true by lia. cbn [obind].
  destruct (IH (set_nth m i (Some None)) (S i)) as (m' & E & L).
  - rewrite set_nth_length. lia.
  - intros j Hj'. destruct (Hj j ltac:(lia)) as [q Eq]. exists q. rewrite <- Eq.
    assert (Hne : i <> j) by lia. clear - Hne. revert i j Hne. induction m as [|x m IHm]; intros [|i] [|j] Hne; cbn; auto; try congruence.
  - exists m'. rewrite L, set_nth_length. auto.
Qed.

Lemma list_reset_ok B l : lst_ok B l -> exists B', list_reset B = Ok B' /\ lst_ok B' [].
Proof.
  intros (Hs & Hp & Hle & bs & [tl Hh] & HF). pose proof (Forall2_length _ _ _ HF) as HL. unfold list_reset.
  destruct (list_reset_loop_ok (l_pos B) (l_mem B) 0) as (m & E & L).
  - lia.
  - intros j Hj. rewrite Hh. rewrite nth_error_app1 by (rewrite !map_length; lia).
    destruct (nth_error (map Some (map Some bs)) j) as [q|] eqn:En.
    +
      rewrite map_map in En. apply nth_error_In in En. apply in_map_iff in En as (x & <- & _). eauto.
    + apply nth_error_None in En. rewrite !map_length in En. lia.
  - rewrite E. cbn [obind]. eexists. split; [reflexivity|]. unfold lst_ok. cbn. repeat split; try lia.
    exists []. split; [apply holds_nil|constructor].
Qed.

Lemma list_get_ok B l i : lst_ok B l ->
  list_get B i = Ok (if (i <? 0)%Z then None else nth_error l (Z.to_nat i)).
Proof.
  intros (Hs & Hp & Hle & bs & [tl Hh] & HF). pose proof (Forall2_length _ _ _ HF) as HL. unfold list_get.
  destruct (i <? 0)%Z eqn:E1; [reflexivity|]. cbn [orb]. rewrite Hp.
  destruct (Z.of_nat (List.length l) <=? i)%Z eqn:E2.
  - replace (nth_error l (Z.to_nat i)) with (@None (list N)); [reflexivity|].
    symmetry. apply nth_error_None. lia.
  - rewrite Hh, nth_error_app1 by (rewrite !map_length; lia).
    assert (Hi : (Z.to_nat i < List.length bs)%nat) by lia.
    destruct (nth_error bs (Z.to_nat i)) as [b|] eqn:Eb; [|apply nth_error_None in Eb; lia].
    rewrite (map_nth_error Some _ _ (map_nth_error Some _ _ Eb)).
    assert (Hb : exists s, nth_error l (Z.to_nat i) = Some s /\ blk_string b = Ok s).
    { clear - HF Eb. revert Eb. generalize (Z.to_nat i). induction HF as [|x y bs l Hxy HF IH]; intros [|n] E; try discriminate.
      - inversion E; subst. exists y. auto.
      - apply IH. exact E. }
    destruct Hb as (s & Es & Eb'). rewrite Es, Eb'. cbn [obind]. rewrite copy_block. cbn [obind].
    rewrite blk_string_block. cbn [obind].
    assert (Hid : c_string s = s); [|now rewrite Hid].
    clear - Eb'. revert s Eb'. induction b as [|[c|] b IH]; intros s E; cbn in E; try discriminate.
    destruct (c =? 0) eqn:E0; [inversion E; reflexivity|].
    destruct (blk_string b) as [r| | |]; try discriminate. inversion E; subst. cbn. rewrite E0, IH; auto.
Qed.

Lemma list_api L ops : exists B, run_ops lop_run (list_create L) ops = Ok B /\
  list_size B = List.length (fold_left lop_spec ops []) /\
  forall i, list_get B i = Ok (if (i <? 0)%Z then None else nth_error (fold_left lop_spec ops []) (Z.to_nat i)).
Proof.
  assert (G : forall ops B l, lst_ok B l -> exists B', run_ops lop_run B ops = Ok B' /\ lst_ok B' (fold_left lop_spec ops l)).
  { clear. induction ops as [|o ops IH]; intros B l H; [exists B; auto|].
    assert (G : exists B1, lop_run B o = Ok B1 /\ lst_ok B1 (lop_spec l o)).
    { destruct o as [s|s|]; cbn [lop_run lop_spec].
      - now apply list_append_ok.
      - now apply list_append_direct_ok.
      - now apply (list_reset_ok B l). }
    destruct G as (B1 & E1 & H1). destruct (IH B1 _ H1) as (B2 & E2 & H2).
    exists B2. cbn [run_ops fold_left]. rewrite E1. auto. }
  destruct (G ops _ _ (list_create_ok L)) as (B & E & H). exists B. split; [exact E|]. split; [apply H|].
  intros i. now apply list_get_ok.
Qed.
