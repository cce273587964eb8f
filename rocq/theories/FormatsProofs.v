(** Proofs about the format lists. *)
From Verif Require Import CBase Props Image Formats FormatsSpec StrMapProofs.
Local Open Scope Z_scope.

(** ---- encode then decode ---- *)
Lemma supports_bit z k : 0 <= k -> supports z (2 ^ k) = Z.testbit z k.
Proof.
  intros Hk. unfold supports, truth. destruct (Z.testbit z k) eqn:E.
  - apply negb_true_iff, Z.eqb_neq. intros H. assert (Z.testbit (Z.land z (2 ^ k)) k = false) by (rewrite H; apply Z.bits_0).
    rewrite Z.land_spec, E, Z.pow2_bits_true in H0 by lia. discriminate.
  - apply negb_false_iff, Z.eqb_eq. apply Z.bits_inj'. intros n Hn. rewrite Z.land_spec, Z.bits_0, Z.pow2_bits_eqb by lia.
    destruct (k =? n) eqn:En; [|apply andb_false_r]. apply Z.eqb_eq in En. subst n. now rewrite E.
Qed.

Definition some_bits (a b c d : bool) : Z := (if a then 1 else 0) + (if b then 2 else 0) + (if c then 4 else 0) + (if d then 8 else 0).
Lemma some_bits_land z : some_bits (Z.testbit z 0) (Z.testbit z 1) (Z.testbit z 2) (Z.testbit z 3) = Z.land z 15.
Proof.
  apply Z.bits_inj'. intros n Hn. rewrite Z.land_spec.
  assert (n = 0 \/ n = 1 \/ n = 2 \/ n = 3 \/ 4 <= n) as [->|[->|[->|[->|H]]]] by lia.
  1-4: destruct (Z.testbit z 0), (Z.testbit z 1), (Z.testbit z 2), (Z.testbit z 3); reflexivity.
  replace (Z.testbit 15 n) with false.
  2:{ symmetry. change 15 with (Z.ones 4). now rewrite Z.ones_spec_high by lia. }
  rewrite andb_false_r. apply Z.bits_above_log2.
  - unfold some_bits. destruct (Z.testbit z 0), (Z.testbit z 1), (Z.testbit z 2), (Z.testbit z 3); lia.
  - apply Z.le_lt_trans with 3; [|lia].
    destruct (Z.testbit z 0), (Z.testbit z 1), (Z.testbit z 2), (Z.testbit z 3); vm_compute; discriminate.
Qed.
Lemma some_bits_land3 z : some_bits (Z.testbit z 0) (Z.testbit z 1) (Z.testbit z 2) false = Z.land z 7.
Proof.
  change 7 with (Z.land 15 7). rewrite Z.land_assoc, <- some_bits_land.
  destruct (Z.testbit z 0), (Z.testbit z 1), (Z.testbit z 2), (Z.testbit z 3); reflexivity.
Qed.
Lemma some_bits_land14 z : some_bits false (Z.testbit z 1) (Z.testbit z 2) (Z.testbit z 3) = Z.land z 14.
Proof.
  change 14 with (Z.land 15 14). rewrite Z.land_assoc, <- some_bits_land.
  destruct (Z.testbit z 0), (Z.testbit z 1), (Z.testbit z 2), (Z.testbit z 3); reflexivity.
Qed.

Lemma bit0 z : supports z 1 = Z.testbit z 0. Proof. now apply (supports_bit z 0). Qed.
Lemma bit1 z : supports z 2 = Z.testbit z 1. Proof. now apply (supports_bit z 1). Qed.
Lemma bit2 z : supports z 4 = Z.testbit z 2. Proof. now apply (supports_bit z 2). Qed.
Lemma bit3 z : supports z 8 = Z.testbit z 3. Proof. now apply (supports_bit z 3). Qed.

(** Texts of sets: 7-bit, no equals sign and no space. *)
Lemma image_formats_round_trip z :
  exists t, image_formats_encode z = Ok t /\ image_formats_decode (Some t) = Ok (Z.land z 15).
Proof.
  rewrite <- some_bits_land. unfold image_formats_encode, names_encode, image_names, TRAX_IMAGE_PATH, TRAX_IMAGE_URL, TRAX_IMAGE_MEMORY, TRAX_IMAGE_BUFFER. cbn [flat_map fst snd].
  rewrite bit0, bit1, bit2, bit3.
  destruct (Z.testbit z 0), (Z.testbit z 1), (Z.testbit z 2), (Z.testbit z 3); eexists; split; vm_compute; reflexivity.
Qed.
Lemma region_formats_round_trip z :
  exists t, region_formats_encode z = Ok t /\ region_formats_decode (Some t) = Ok (Z.land z 14).
Proof.
  rewrite <- some_bits_land14. unfold region_formats_encode, names_encode, region_names, TRAX_REGION_RECTANGLE, TRAX_REGION_POLYGON, TRAX_REGION_MASK. cbn [flat_map fst snd].
  rewrite bit1, bit2, bit3.
  destruct (Z.testbit z 1), (Z.testbit z 2), (Z.testbit z 3); eexists; split; vm_compute; reflexivity.
Qed.
Lemma channels_round_trip z :
  exists t, channels_encode z = Ok t /\ channels_decode (Some t) = Ok (Z.land z 7).
Proof.
  rewrite <- some_bits_land3. unfold channels_encode, names_encode, channel_names, TRAX_CHANNEL_COLOR, TRAX_CHANNEL_DEPTH, TRAX_CHANNEL_IR. cbn [flat_map fst snd].
  rewrite bit0, bit1, bit2.
  destruct (Z.testbit z 0), (Z.testbit z 1), (Z.testbit z 2); eexists; split; vm_compute; reflexivity.
Qed.

(** ---- decoding an arbitrary list ---- *)
Definition keep (p : list N) : bool := match p with [] => false | _ => true end.
Lemma pieces_nonempty l : exists p ps, pieces l = p :: ps.
Proof.
  destruct l as [|c l]; [now exists [], []|]. cbn [pieces]. destruct (c =? 59)%N; [eauto|]. destruct (pieces l); eauto.
Qed.
Lemma semi_eqb c : existsb (N.eqb c) (str ";") = (c =? 59)%N.
Proof. change (str ";") with [59%N]. cbn [existsb]. apply orb_false_r. Qed.

Lemma take_token_pieces l : forall t r, take_token (str ";") l = (t, r) ->
  pieces l = t :: (if Nat.eqb (List.length r + List.length t) (List.length l) then [] else pieces r) /\ (List.length r <= List.length l)%nat.
Proof.
  induction l as [|c l IH]; intros t r E.
  - injection E as <- <-. split; [reflexivity|cbn; lia].
  - cbn [take_token pieces] in *. rewrite semi_eqb in E. destruct (c =? 59)%N.
    + injection E as <- <-. cbn [List.length]. replace (Nat.eqb _ _) with false by (symmetry; apply Nat.eqb_neq; lia).
      split; [reflexivity|lia].
    + destruct (take_token (str ";") l) as [t' r'] eqn:E'. injection E as <- <-.
      destruct (IH t' r' eq_refl) as (Hp & Hl). rewrite Hp. cbn [List.length].
      replace (Nat.eqb (List.length r' + S (List.length t')) (S (List.length l)))
        with (Nat.eqb (List.length r' + List.length t') (List.length l)) by (rewrite Nat.add_succ_r; reflexivity).
      split; [reflexivity|lia].
Qed.
Lemma take_token_end l : forall t r, take_token (str ";") l = (t, r) ->
  Nat.eqb (List.length r + List.length t) (List.length l) = true -> r = [].
Proof.
  induction l as [|c l IH]; intros t r E H.
  - now injection E as <- <-.
  - cbn [take_token] in E. rewrite semi_eqb in E. destruct (c =? 59)%N.
    + injection E as <- <-. apply Nat.eqb_eq in H. cbn [List.length] in H. lia.
    + destruct (take_token (str ";") l) as [t' r'] eqn:E'. injection E as <- <-.
      apply (IH t' r' eq_refl). apply Nat.eqb_eq in H. apply Nat.eqb_eq. cbn [List.length] in H. lia.
Qed.

(** strtok(NULL, ";") gives the next name. *)
Lemma strtok_names l : match strtok (str ";") l with
  | None => names_of l = []
  | Some (t, r) => names_of l = t :: names_of r /\ t <> [] /\ (List.length r < List.length l)%nat
  end.
Proof.
  unfold strtok. induction l as [|c l IH]; [reflexivity|].
  cbn [skip_delims]. rewrite semi_eqb. destruct (c =? 59)%N eqn:Ec.
  - unfold names_of. cbn [pieces]. rewrite Ec. cbn [filter]. fold (names_of l).
    destruct (skip_delims (str ";") l); [exact IH|]. destruct (take_token _ _) as [t r].
    destruct IH as (A & B & C). split; [exact A|]. split; [exact B|cbn [List.length]; lia].
  - clear IH. cbn [take_token]. rewrite semi_eqb, Ec. destruct (take_token (str ";") l) as [t r] eqn:E.
    destruct (take_token_pieces l t r E) as (Hp & Hl). pose proof (take_token_end l t r E) as He.
    unfold names_of. cbn [pieces]. rewrite Ec, Hp. cbn [filter].
    split; [|split; [discriminate|cbn [List.length]; lia]].
    destruct (Nat.eqb _ _); [|reflexivity]. rewrite (He eq_refl). reflexivity.
Qed.

(** With no space in the text the first call is like the others. *)
Lemma strtok_first l : ~ In 32%N l -> strtok (str " ;") l = strtok (str ";") l.
Proof.
  intros H. unfold strtok.
  assert (Hd : forall c, c <> 32%N -> existsb (N.eqb c) (str " ;") = existsb (N.eqb c) (str ";")).
  { intros c Hc. change (str " ;") with [32%N; 59%N]. change (str ";") with [59%N]. cbn [existsb].
    replace (c =? 32)%N with false by (symmetry; now apply N.eqb_neq). reflexivity. }
  assert (Hs : skip_delims (str " ;") l = skip_delims (str ";") l).
  { induction l as [|c l IH]; [reflexivity|]. cbn [skip_delims]. rewrite Hd by (intros ->; apply H; now left).
    rewrite IH by (intros Hi; apply H; now right). reflexivity. }
  rewrite Hs. assert (Hin : forall x, In x (skip_delims (str ";") l) -> In x l).
  { clear. induction l as [|c l IH]; [tauto|]. cbn [skip_delims]. destruct (existsb _ _); intros x Hx; [right; auto|exact Hx]. }
  destruct (skip_delims (str ";") l) as [|c l'] eqn:E; [reflexivity|]. f_equal. rewrite <- E in *. rewrite E in *.
  assert (Hn : ~ In 32%N (c :: l')) by (intros Hx; apply H, Hin, Hx). clear -Hn Hd. revert Hn. generalize (c :: l'). clear c l'.
  induction l as [|c l IH]; intros Hn; [reflexivity|]. cbn [take_token]. rewrite Hd by (intros ->; apply Hn; now left).
  rewrite IH by (intros Hi; apply Hn; now right). reflexivity.
Qed.

Definition known (names : list (list N * Z)) (n : list N) : Prop := lookup_name names n <> None.
Definition or_names (names : list (list N * Z)) (ns : list (list N)) (z : Z) : Z :=
  fold_left (fun z n => match lookup_name names n with Some b => Z.lor z b | None => z end) ns z.

Lemma decode_loop_names names : forall fuel l z, (List.length l < fuel)%nat ->
  (Forall (known names) (names_of l) /\ decode_loop fuel names (strtok (str ";") l) z = Ok (or_names names (names_of l) z)) \/
  ((exists n, In n (names_of l) /\ lookup_name names n = None) /\ decode_loop fuel names (strtok (str ";") l) z = Ok (-1)).
Proof.
  induction fuel as [|fuel IH]; intros l z Hf; [lia|].
  pose proof (strtok_names l) as H. destruct (strtok (str ";") l) as [[t r]|].
  2:{ left. rewrite H. split; [constructor|reflexivity]. }
  destruct H as (Hn & Ht & Hl). rewrite Hn. cbn [decode_loop]. destruct (lookup_name names t) as [b|] eqn:E.
  - destruct (IH r (Z.lor z b) ltac:(lia)) as [(A & B)|((n & A1 & A2) & B)].
    + left. split; [constructor; [unfold known; congruence|exact A]|]. rewrite B. cbn [or_names fold_left]. now rewrite E.
    + right. split; [exists n; split; [now right|exact A2]|exact B].
  - right. split; [exists t; split; [now left|exact E]|]. destruct t; [congruence|reflexivity].
Qed.

Definition good_table (names : list (list N * Z)) : Prop :=
  forall n b, lookup_name names n = Some b <-> In (n, b) names.
Definition bit_table (names : list (list N * Z)) : Prop := Forall (fun nb => exists k, 0 <= k /\ snd nb = 2 ^ k) names.

Lemma or_names_bits names ns : bit_table names -> forall z i, 0 <= i -> good_table names ->
  Z.testbit (or_names names ns z) i = true <-> Z.testbit z i = true \/ exists n, In n ns /\ In (n, 2 ^ i) names.
Proof.
  intros Hb. induction ns as [|n ns IH]; intros z i Hi Hg; cbn [or_names fold_left].
  - split; [now left|]. intros [H|(n & [] & _)]. exact H.
  - fold (or_names names ns (match lookup_name names n with Some b => Z.lor z b | None => z end)). rewrite IH by assumption.
    destruct (lookup_name names n) as [b|] eqn:E.
    + pose proof (proj1 (Hg n b) E) as Hin. rewrite Z.lor_spec, orb_true_iff.
      pose proof (proj1 (Forall_forall _ _) Hb _ Hin) as (k & Hk & Eb). cbn [snd] in Eb. subst b.
      rewrite Z.pow2_bits_eqb, Z.eqb_eq by lia. split.
      * intros [[H|H]|(m & H1 & H2)]; [now left| |right; exists m; split; [now right|exact H2]].
        subst k. right. exists n. split; [now left|exact Hin].
      * intros [H|(m & [->|H1] & H2)]; [left; now left| |right; exists m; now split].
        left. right. apply (Hg m (2 ^ i)) in H2. rewrite E in H2. injection H2 as H2.
        apply (Z.pow_inj_r 2) in H2; lia.
    + split; intros [H|(m & H1 & H2)]; [now left|right; exists m; split; [now right|exact H2]|now left|].
      destruct H1 as [->|H1]; [|right; exists m; now split]. apply (Hg m (2 ^ i)) in H2. congruence.
Qed.

Lemma nodup_table names : NoDup (map fst names) -> good_table names.
Proof.
  intros H n b. induction names as [|[m c] names IH]; cbn [lookup_name In]; [split; [discriminate|tauto]|].
  cbn [map fst] in H. inversion_clear H as [|? ? Hm Hr]. specialize (IH Hr). destruct (bytes_eqb n m) eqn:E.
  - apply bytes_eqb_eq in E. subst m. split; [intros H; injection H as <-; now left|].
    intros [H|H]; [now injection H as <-|]. elim Hm. apply in_map_iff. now exists (n, b).
  - rewrite IH. split; [now right|]. intros [H|H]; [|exact H]. injection H as -> ->. now rewrite bytes_eqb_refl in E.
Qed.
Ltac table := split; [apply nodup_table; cbn [map fst image_names region_names channel_names];
    repeat (apply NoDup_cons; [cbn [In]; intuition (vm_compute in *; discriminate)|]); apply NoDup_nil|
  repeat (apply Forall_cons; [cbn [snd]|]); try apply Forall_nil].
Lemma image_table : good_table image_names /\ bit_table image_names.
Proof. table; [exists 0|exists 1|exists 2|exists 3]; split; (lia || reflexivity). Qed.
Lemma region_table : good_table region_names /\ bit_table region_names.
Proof. table; [exists 1|exists 2|exists 3]; split; (lia || reflexivity). Qed.
Lemma channel_table : good_table channel_names /\ bit_table channel_names.
Proof. table; [exists 0|exists 1|exists 2]; split; (lia || reflexivity). Qed.

Lemma decode_list names l : good_table names -> bit_table names -> ~ In 32%N l ->
  ((forall n, In n (names_of l) -> exists b, In (n, b) names) ->
   exists z, names_decode names (Some l) = Ok z /\ denotes names l z) /\
  ((exists n, In n (names_of l) /\ forall b, ~ In (n, b) names) -> names_decode names (Some l) = Ok (-1)).
Proof.
  intros Hg Hb Hs. unfold names_decode. rewrite strtok_first by exact Hs.
  destruct (decode_loop_names names (S (List.length l)) l 0 ltac:(lia)) as [(A & B)|((n & A1 & A2) & B)]; rewrite B; split.
  - intros _. eexists. split; [reflexivity|]. intros b Hb0. rewrite or_names_bits by assumption. rewrite Z.bits_0.
    split; [intros [H|H]; [discriminate|exact H]|now right].
  - intros (n & H1 & H2). pose proof (proj1 (Forall_forall _ _) A n H1) as Hk. unfold known in Hk.
    destruct (lookup_name names n) as [b|] eqn:E; [|congruence]. apply Hg in E. now apply H2 in E.
  - intros H. destruct (H n A1) as (b & Hin). apply Hg in Hin. congruence.
  - reflexivity.
Qed.

Lemma decode_null names : names_decode names None = UB.
Proof. reflexivity. Qed.

(** ---- trax_image_list_count ---- *)
Fixpoint pop_pos (p : positive) : nat :=
  match p with xH => 1%nat | xO p => pop_pos p | xI p => S (pop_pos p) end.
Definition pop (z : Z) : nat := match z with Zpos p => pop_pos p | _ => O end.

Lemma pop_double z : pop (2 * z) = pop z.
Proof. destruct z; reflexivity. Qed.
Lemma land_lower p : 0 <= Z.land (Zpos p) (Zpos p - 1) <= Zpos p /\ S (pop (Z.land (Zpos p) (Zpos p - 1))) = pop_pos p.
Proof.
  induction p as [p IH|p IH|].
  - replace (Z.land (Z.pos p~1) (Z.pos p~1 - 1)) with (2 * Zpos p).
    2:{ replace (Z.pos p~1 - 1) with (2 * Zpos p) by lia. apply Z.bits_inj'. intros n Hn. rewrite Z.land_spec.
        destruct (Z.eq_dec n 0) as [->|H0]; [now rewrite Z.testbit_even_0, andb_false_r|].
        replace n with (Z.succ (n - 1)) by lia.
        change (Z.pos p~1) with (2 * Zpos p + 1). rewrite Z.testbit_odd_succ, Z.testbit_even_succ by lia. now rewrite andb_diag. }
    cbn [pop_pos]. rewrite pop_double. split; [lia|reflexivity].
  - replace (Z.land (Z.pos p~0) (Z.pos p~0 - 1)) with (2 * Z.land (Zpos p) (Zpos p - 1)).
    2:{ replace (Z.pos p~0 - 1) with (2 * (Zpos p - 1) + 1) by lia. change (Z.pos p~0) with (2 * Zpos p).
        apply Z.bits_inj'. intros n Hn. rewrite Z.land_spec.
        destruct (Z.eq_dec n 0) as [->|H0]; [now rewrite !Z.testbit_even_0|].
        replace n with (Z.succ (n - 1)) by lia. rewrite !Z.testbit_even_succ, Z.testbit_odd_succ by lia. now rewrite Z.land_spec. }
    cbn [pop_pos]. rewrite pop_double. destruct IH as (H & H'). split; [lia|exact H'].
  - split; [now vm_compute|reflexivity].
Qed.

Lemma count_bits_ok fuel : forall z c, 0 <= z <= INT_MAX -> (pop z <= fuel)%nat -> count_bits fuel z c = Ok (c + Z.of_nat (pop z)).
Proof.
  induction fuel as [|fuel IH]; intros z c Hz Hp.
  - destruct z as [|p|p]; [cbn; f_equal; lia| |lia]. cbn [pop] in Hp.
    destruct (land_lower p) as (_ & H). lia.
  - destruct z as [|p|p]; [cbn; f_equal; lia| |lia]. cbn [count_bits]. replace (Z.pos p =? 0) with false by reflexivity.
    replace (in_int (Z.pos p - 1)) with true by (symmetry; unfold in_int, INT_MIN, INT_MAX in *; lia).
    destruct (land_lower p) as (H & H'). cbn [pop] in Hp |- *. rewrite IH by lia. f_equal. lia.
Qed.

Lemma bit_double z i : bit (2 * z) (S i) = bit z i.
Proof. unfold bit. rewrite Nat2Z.inj_succ, Z.testbit_even_succ by lia. reflexivity. Qed.
Lemma bit_double1 z i : bit (2 * z + 1) (S i) = bit z i.
Proof. unfold bit. rewrite Nat2Z.inj_succ, Z.testbit_odd_succ by lia. reflexivity. Qed.
Definition sum_bits (n : nat) (z : Z) : nat := fold_right (fun i m => bit z i + m)%nat O (seq 0 n).
Lemma sum_bits_succ n z : sum_bits (S n) z = (bit z 0 + fold_right (fun i m => bit z (S i) + m)%nat O (seq 0 n))%nat.
Proof.
  unfold sum_bits. cbn [seq fold_right]. f_equal. rewrite <- seq_shift. induction (seq 0 n) as [|a l IH]; [reflexivity|].
  cbn [map fold_right]. now rewrite IH.
Qed.
Lemma fold_ext (f g : nat -> nat) l : (forall i, f i = g i) ->
  fold_right (fun i m => f i + m)%nat O l = fold_right (fun i m => g i + m)%nat O l.
Proof. intros H. induction l as [|a l IH]; [reflexivity|]. cbn [fold_right]. now rewrite IH, H. Qed.
Lemma sum_bits_pop n : forall z, 0 <= z < 2 ^ Z.of_nat n -> sum_bits n z = pop z.
Proof.
  induction n as [|n IH]; intros z Hz.
  - cbn in Hz. replace z with 0 by lia. reflexivity.
  - rewrite sum_bits_succ. rewrite Nat2Z.inj_succ, Z.pow_succ_r in Hz by lia.
    destruct z as [|[p|p|]|p]; try lia.
    + rewrite (fold_ext _ (bit 0)) by (intros i; exact (bit_double 0 i)). fold (sum_bits n 0). now rewrite IH by lia.
    + rewrite (fold_ext _ (bit (Zpos p))) by (intros i; exact (bit_double1 (Zpos p) i)). fold (sum_bits n (Zpos p)).
      rewrite IH by lia. reflexivity.
    + rewrite (fold_ext _ (bit (Zpos p))) by (intros i; exact (bit_double (Zpos p) i)). fold (sum_bits n (Zpos p)).
      rewrite IH by lia. reflexivity.
    + rewrite (fold_ext _ (bit 0)) by (intros i; exact (bit_double1 0 i)). fold (sum_bits n 0). now rewrite IH by lia.
Qed.
Lemma sum_bits_le n z : (sum_bits n z <= n)%nat.
Proof.
  unfold sum_bits. assert (forall l, (fold_right (fun i m => bit z i + m) O l <= List.length l)%nat).
  { induction l as [|a l IH]; cbn [fold_right List.length]; [lia|]. unfold bit at 1. destruct (Z.testbit _ _); lia. }
  rewrite <- (seq_length n 0) at 2. apply H.
Qed.

Lemma image_list_count_ok z : 0 <= z <= INT_MAX -> image_list_count z = Ok (Z.of_nat (popcount32 z)).
Proof.
  intros Hz. assert (H : popcount32 z = pop z).
  { change (popcount32 z) with (sum_bits 32 z). apply sum_bits_pop. unfold INT_MAX in Hz. change (2 ^ Z.of_nat 32) with 4294967296. lia. }
  rewrite H. unfold image_list_count. rewrite count_bits_ok; [f_equal; lia|exact Hz|].
  rewrite <- H. change (popcount32 z) with (sum_bits 32 z). pose proof (sum_bits_le 32 z). lia.
Qed.

(** ---- statements for Properties_Formats ---- *)
Lemma land_mask_bits z k b : 0 <= k -> 0 <= b -> Z.testbit (Z.land z (2 ^ k - 1)) b = (b <? k) && Z.testbit z b.
Proof.
  intros Hk Hb. rewrite Z.land_spec.
  replace (2 ^ k - 1) with (Z.ones k) by (rewrite Z.ones_equiv; lia). rewrite Z.testbit_ones by assumption.
  replace (0 <=? b) with true by lia. cbn [andb]. apply andb_comm.
Qed.
Lemma image_formats_bits z : exists t z', image_formats_encode z = Ok t /\ image_formats_decode (Some t) = Ok z' /\
  forall b, 0 <= b -> Z.testbit z' b = (b <? 4) && Z.testbit z b.
Proof.
  destruct (image_formats_round_trip z) as (t & E & D). exists t, (Z.land z 15). split; [exact E|]. split; [exact D|].
  intros b Hb. exact (land_mask_bits z 4 b ltac:(lia) Hb).
Qed.
Lemma channels_bits z : exists t z', channels_encode z = Ok t /\ channels_decode (Some t) = Ok z' /\
  forall b, 0 <= b -> Z.testbit z' b = (b <? 3) && Z.testbit z b.
Proof.
  destruct (channels_round_trip z) as (t & E & D). exists t, (Z.land z 7). split; [exact E|]. split; [exact D|].
  intros b Hb. exact (land_mask_bits z 3 b ltac:(lia) Hb).
Qed.
Lemma region_formats_bits z : exists t z', region_formats_encode z = Ok t /\ region_formats_decode (Some t) = Ok z' /\
  forall b, 0 <= b -> Z.testbit z' b = (1 <=? b) && (b <? 4) && Z.testbit z b.
Proof.
  destruct (region_formats_round_trip z) as (t & E & D). exists t, (Z.land z 14). split; [exact E|]. split; [exact D|].
  intros b Hb. replace 14 with (Z.ldiff 15 1) by reflexivity. rewrite Z.land_spec, Z.ldiff_spec.
  change 15 with (Z.ones 4). rewrite Z.testbit_ones by lia. replace (Z.testbit 1 b) with (0 =? b) by (symmetry; exact (Z.pow2_bits_eqb 0 b ltac:(lia))).
  destruct (Z.eq_dec b 0) as [->|H0]; [now rewrite andb_false_r|].
  replace (0 =? b) with false by lia. replace (0 <=? b) with true by lia. replace (1 <=? b) with true by lia. cbn [andb negb].
  rewrite andb_true_r. apply andb_comm.
Qed.

Lemma known_list_decoded names text : names = image_names \/ names = region_names \/ names = channel_names -> ~ In 32%N text ->
  (forall n, In n (names_of text) -> exists b, In (n, b) names) ->
  exists z, names_decode names (Some text) = Ok z /\ denotes names text z.
Proof.
  intros Hn. assert (H : good_table names /\ bit_table names)
    by (destruct Hn as [->|[->| ->]]; [apply image_table|apply region_table|apply channel_table]).
  intros Hs. exact (proj1 (decode_list names text (proj1 H) (proj2 H) Hs)).
Qed.
Lemma unknown_name_everything names text n : names = image_names \/ names = region_names \/ names = channel_names -> ~ In 32%N text ->
  In n (names_of text) -> (forall b, ~ In (n, b) names) ->
  names_decode names (Some text) = Ok (-1) /\ forall b, 0 <= b -> supports (-1) (2 ^ b) = true.
Proof.
  intros Hn. assert (H : good_table names /\ bit_table names)
    by (destruct Hn as [->|[->| ->]]; [apply image_table|apply region_table|apply channel_table]).
  intros Hs Hi Hb. split; [apply (proj2 (decode_list names text (proj1 H) (proj2 H) Hs)); now exists n|].
  intros b Hb0. rewrite supports_bit by exact Hb0. apply Z.bits_m1. exact Hb0.
Qed.
