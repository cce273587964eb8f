(** Lemmas about src/base64.c. *)
From Verif Require Import CBase Base64 Base64Spec.

(** Finite sweeps over bytes. *)
Definition all_below (n : nat) : list N := map N.of_nat (seq 0 n).

Lemma in_all_below n (b : N) : (b < N.of_nat n)%N -> In b (all_below n).
Proof.
  intros H. unfold all_below. apply in_map_iff. exists (N.to_nat b). split; [lia|].
  apply in_seq. lia.
Qed.

Lemma sweep n (P : N -> bool) : forallb P (all_below n) = true -> forall b, (b < N.of_nat n)%N -> P b = true.
Proof. intros H b Hb. rewrite forallb_forall in H. apply H. now apply in_all_below. Qed.

Ltac sweep_byte b Hb P :=
  let H := fresh in
  assert (H : P b = true) by (apply (sweep 256 P); [vm_compute; reflexivity | exact Hb]).

Lemma land_3 b : N.land b 3 = b mod 4.
Proof. exact (N.land_ones b 2). Qed.
Lemma land_15 b : N.land b 15 = b mod 16.
Proof. exact (N.land_ones b 4). Qed.
Lemma land_63 b : N.land b 63 = b mod 64.
Proof. exact (N.land_ones b 6). Qed.
Lemma land_255 b : N.land b 255 = b mod 256.
Proof. exact (N.land_ones b 8). Qed.

Lemma land_240_shift b : byte_ok b -> N.shiftr (N.land b 240) 4 = b / 16.
Proof.
  intros H. apply N.eqb_eq.
  apply (sweep 256 (fun b => N.shiftr (N.land b 240) 4 =? b / 16)); [vm_compute; reflexivity | exact H].
Qed.
Lemma land_192_shift b : byte_ok b -> N.shiftr (N.land b 192) 6 = b / 64.
Proof.
  intros H. apply N.eqb_eq.
  apply (sweep 256 (fun b => N.shiftr (N.land b 192) 6 =? b / 64)); [vm_compute; reflexivity | exact H].
Qed.

(** Disjoint [lor] is addition. *)
Lemma lor_disjoint_add x y k : y < 2 ^ k -> N.lor (x * 2 ^ k) y = x * 2 ^ k + y.
Proof.
  intros Hy. symmetry. rewrite <- N.shiftl_mul_pow2.
  rewrite N.add_nocarry_lxor; [apply N.lxor_lor|];
  apply N.bits_inj; intros i; rewrite N.land_spec, N.bits_0;
  destruct (N.ltb_spec i k) as [Hi|Hi].
  1, 3: rewrite N.shiftl_spec_low by exact Hi; reflexivity.
  1, 2: replace y with (y mod 2 ^ k) by (apply N.mod_small; exact Hy);
        rewrite N.mod_pow2_bits_high by exact Hi; apply andb_false_r.
Qed.

Lemma basis_rfc v : v < 64 -> basis_64 v = rfc_char v.
Proof.
  intros H. apply N.eqb_eq.
  apply (sweep 64 (fun v => basis_64 v =? rfc_char v)); [vm_compute; reflexivity | exact H].
Qed.

Lemma pr2six_basis v : v < 64 -> pr2six (basis_64 v) = v.
Proof.
  intros H. apply N.eqb_eq.
  apply (sweep 64 (fun v => pr2six (basis_64 v) =? v)); [vm_compute; reflexivity | exact H].
Qed.

Lemma pr2six_le c : pr2six c <= 64.
Proof.
  destruct (N.ltb_spec c 256) as [H|H].
  - apply N.leb_le. apply (sweep 256 (fun c => pr2six c <=? 64)); [vm_compute; reflexivity | exact H].
  - unfold pr2six. rewrite nth_overflow; [lia|]. change (List.length pr2six_table) with 256%nat. lia.
Qed.

Lemma pr2six_eq : pr2six c_eq = 64. Proof. reflexivity. Qed.

(** Closed arithmetic forms of the index expressions. *)
Definition i1 (a : N) : N := a / 4.
Definition i2 (a b : N) : N := a mod 4 * 16 + b / 16.
Definition i3 (b c : N) : N := b mod 16 * 4 + c / 64.
Definition i4 (c : N) : N := c mod 64.

Ltac arith := unfold byte_ok, i1, i2, i3, i4 in *; lia.

Lemma enc1_eq a : byte_ok a -> enc1 a = basis_64 (i1 a).
Proof.
  intros H. unfold enc1. rewrite N.shiftr_div_pow2, land_63. f_equal.
  change (2 ^ 2) with 4. arith.
Qed.
Lemma enc2_eq a b : byte_ok a -> byte_ok b -> enc2 a b = basis_64 (i2 a b).
Proof.
  intros Ha Hb. unfold enc2. rewrite land_3, land_240_shift by exact Hb.
  rewrite N.shiftl_mul_pow2, lor_disjoint_add by (change (2 ^ 4) with 16; arith).
  reflexivity.
Qed.
Lemma enc3_eq b c : byte_ok b -> byte_ok c -> enc3 b c = basis_64 (i3 b c).
Proof.
  intros Ha Hb. unfold enc3. rewrite land_15, land_192_shift by exact Hb.
  rewrite N.shiftl_mul_pow2, lor_disjoint_add by (change (2 ^ 2) with 4; arith).
  reflexivity.
Qed.
Lemma enc4_eq c : byte_ok c -> enc4 c = basis_64 (i4 c).
Proof. intros H. unfold enc4. rewrite land_63. reflexivity. Qed.
Lemma enc2_last_eq a : byte_ok a -> enc2_last a = basis_64 (i2 a 0).
Proof.
  intros H. unfold enc2_last. rewrite land_3, N.shiftl_mul_pow2. change (2 ^ 4) with 16.
  f_equal. arith.
Qed.
Lemma enc3_last_eq b : byte_ok b -> enc3_last b = basis_64 (i3 b 0).
Proof.
  intros H. unfold enc3_last. rewrite land_15, N.shiftl_mul_pow2. change (2 ^ 2) with 4.
  f_equal. arith.
Qed.

Lemma i1_lt a : byte_ok a -> i1 a < 64. Proof. arith. Qed.
Lemma i2_lt a b : byte_ok b -> i2 a b < 64. Proof. arith. Qed.
Lemma i3_lt b c : byte_ok c -> i3 b c < 64. Proof. arith. Qed.
Lemma i4_lt c : i4 c < 64. Proof. arith. Qed.
Lemma zero_ok : byte_ok 0. Proof. unfold byte_ok. lia. Qed.
#[export] Hint Resolve i1_lt i2_lt i3_lt i4_lt zero_ok : b64.

Lemma dec1_enc a b : byte_ok a -> byte_ok b -> dec1 (basis_64 (i1 a)) (basis_64 (i2 a b)) = a.
Proof.
  intros Ha Hb. unfold dec1, to_uchar. rewrite !pr2six_basis by auto with b64.
  rewrite land_255, N.shiftl_mul_pow2, N.shiftr_div_pow2.
  change (2 ^ 4) with 16.
  rewrite lor_disjoint_add by (change (2 ^ 2) with 4; arith). change (2 ^ 2) with 4. arith.
Qed.
Lemma dec2_enc a b c : byte_ok a -> byte_ok b -> byte_ok c ->
  dec2 (basis_64 (i2 a b)) (basis_64 (i3 b c)) = b.
Proof.
  intros Ha Hb Hc. unfold dec2, to_uchar. rewrite !pr2six_basis by auto with b64.
  rewrite land_255, N.shiftl_mul_pow2, N.shiftr_div_pow2.
  change (2 ^ 2) with 4.
  rewrite lor_disjoint_add by (change (2 ^ 4) with 16; arith). change (2 ^ 4) with 16. arith.
Qed.
Lemma dec3_enc b c : byte_ok b -> byte_ok c ->
  dec3 (basis_64 (i3 b c)) (basis_64 (i4 c)) = c.
Proof.
  intros Hb Hc. unfold dec3, to_uchar. rewrite !pr2six_basis by auto with b64.
  rewrite land_255, N.shiftl_mul_pow2.
  rewrite lor_disjoint_add by (change (2 ^ 6) with 64; arith). change (2 ^ 6) with 64. arith.
Qed.

(** Induction in steps of three. *)
Lemma list_ind3 {A} (P : list A -> Prop) :
  P [] -> (forall a, P [a]) -> (forall a b, P [a; b]) ->
  (forall a b c l, P l -> P (a :: b :: c :: l)) -> forall l, P l.
Proof.
  intros H0 H1 H2 H3 l.
  assert (K : forall n l, (List.length l <= n)%nat -> P l).
  { intros n. induction n as [|n IH]; intros [|a [|b [|c l']]] Hl; auto; cbn [List.length] in Hl; try lia.
    apply H3, IH. lia. }
  apply (K (List.length l)); lia.
Qed.

Lemma encode_rfc l : bytes_ok l -> base64encode l = rfc_encode l.
Proof.
  unfold bytes_ok. induction l as [|a|a b|a b c l IH] using list_ind3; intros H.
  - reflexivity.
  - inversion_clear H. cbn [base64encode rfc_encode sextets firstn map app].
    rewrite enc1_eq, enc2_last_eq, !basis_rfc by auto with b64.
    repeat (apply f_equal2; [apply f_equal; arith|]); reflexivity.
  - inversion_clear H as [|? ? Ha Hb']; inversion_clear Hb'.
    cbn [base64encode rfc_encode sextets firstn map app].
    rewrite enc1_eq, enc2_eq, enc3_last_eq, !basis_rfc by auto with b64.
    repeat (apply f_equal2; [apply f_equal; arith|]); reflexivity.
  - inversion_clear H as [|? ? Ha H']; inversion_clear H' as [|? ? Hb H'']; inversion_clear H'' as [|? ? Hc Hl].
    cbn [base64encode rfc_encode sextets firstn map app].
    rewrite enc1_eq, enc2_eq, enc3_eq, enc4_eq, !basis_rfc by auto with b64.
    rewrite IH by exact Hl.
    repeat (apply f_equal2; [apply f_equal; arith|]); reflexivity.
Qed.

Lemma encode_length l : List.length (base64encode l) = ((List.length l + 2) / 3 * 4)%nat.
Proof.
  induction l as [|a|a b|a b c l IH] using list_ind3; try reflexivity.
  cbn [base64encode List.length]. rewrite IH. lia.
Qed.

Lemma encode_stored_len l : base64encode_stored l = base64encodelen (List.length l).
Proof. unfold base64encode_stored, base64encodelen. now rewrite encode_length. Qed.

(** Every stored character is printable ASCII out of the alphabet. *)
Definition b64_char (c : N) : bool := is_alnum c || (c =? 43) || (c =? 47) || (c =? c_eq).

Lemma basis_char v : v < 64 -> b64_char (basis_64 v) = true.
Proof.
  intros H.
  apply (sweep 64 (fun v => b64_char (basis_64 v))); [vm_compute; reflexivity | exact H].
Qed.

Lemma encode_chars l : bytes_ok l -> forallb b64_char (base64encode l) = true.
Proof.
  unfold bytes_ok. induction l as [|a|a b|a b c l IH] using list_ind3; intros H.
  - reflexivity.
  - inversion_clear H. cbn [base64encode forallb].
    rewrite enc1_eq, enc2_last_eq, !basis_char by auto with b64. reflexivity.
  - inversion_clear H as [|? ? Ha Hb']; inversion_clear Hb'.
    cbn [base64encode forallb].
    rewrite enc1_eq, enc2_eq, enc3_last_eq, !basis_char by auto with b64. reflexivity.
  - inversion_clear H as [|? ? Ha H']; inversion_clear H' as [|? ? Hb H'']; inversion_clear H'' as [|? ? Hc Hl].
    cbn [base64encode forallb].
    rewrite enc1_eq, enc2_eq, enc3_eq, enc4_eq, !basis_char by auto with b64.
    cbn [andb]. auto.
Qed.

(** Decoding. *)
Lemma nprbytes_basis v s : v < 64 -> nprbytes (basis_64 v :: s) = S (nprbytes s).
Proof.
  intros H. cbn [nprbytes]. rewrite pr2six_basis by exact H.
  replace (v <=? 63) with true by lia. reflexivity.
Qed.

Lemma nprbytes_encode l : bytes_ok l ->
  nprbytes (base64encode l) = ((List.length l * 8 + 5) / 6)%nat.
Proof.
  unfold bytes_ok. induction l as [|a|a b|a b c l IH] using list_ind3; intros H.
  - reflexivity.
  - inversion_clear H. cbn [base64encode].
    rewrite enc1_eq, enc2_last_eq, !nprbytes_basis by auto with b64. reflexivity.
  - inversion_clear H as [|? ? Ha Hb']; inversion_clear Hb'. cbn [base64encode].
    rewrite enc1_eq, enc2_eq, enc3_last_eq, !nprbytes_basis by auto with b64. reflexivity.
  - inversion_clear H as [|? ? Ha H']; inversion_clear H' as [|? ? Hb H'']; inversion_clear H'' as [|? ? Hc Hl].
    cbn [base64encode].
    rewrite enc1_eq, enc2_eq, enc3_eq, enc4_eq, !nprbytes_basis by auto with b64.
    rewrite IH by exact Hl. cbn [List.length]. lia.
Qed.

Definition last_count (len : nat) : nat :=
  match len with O => O | _ => match (len mod 3)%nat with 0 => 4 | 1 => 2 | _ => 3 end end%nat.

Lemma last_count_step n : n <> O -> last_count (S (S (S n))) = last_count n.
Proof.
  intros H. unfold last_count. destruct n as [|n]; [lia|].
  replace (S (S (S (S n))) mod 3)%nat with (S n mod 3)%nat; [reflexivity|lia].
Qed.

Lemma decode_loop_encode l : bytes_ok l ->
  decode_loop ((List.length l * 8 + 5) / 6)%nat (base64encode l) = (l, last_count (List.length l)).
Proof.
  unfold bytes_ok. induction l as [|a|a b|a b c l IH] using list_ind3; intros H.
  - reflexivity.
  - inversion_clear H. cbn [base64encode].
    rewrite enc1_eq, enc2_last_eq by auto with b64.
    change (decode_loop _ ?s) with (decode_tail 2 s, 2%nat).
    unfold decode_tail. cbn [nth Nat.ltb Nat.leb app].
    rewrite dec1_enc by auto with b64. reflexivity.
  - inversion_clear H as [|? ? Ha Hb']; inversion_clear Hb'. cbn [base64encode].
    rewrite enc1_eq, enc2_eq, enc3_last_eq by auto with b64.
    change (decode_loop _ ?s) with (decode_tail 3 s, 3%nat).
    unfold decode_tail. cbn [nth Nat.ltb Nat.leb app].
    rewrite dec1_enc, dec2_enc by auto with b64. reflexivity.
  - inversion_clear H as [|? ? Ha H']; inversion_clear H' as [|? ? Hb H'']; inversion_clear H'' as [|? ? Hc Hl].
    cbn [base64encode].
    rewrite enc1_eq, enc2_eq, enc3_eq, enc4_eq by auto with b64.
    destruct l as [|d l].
    + change (decode_loop _ ?s) with (decode_tail 4 s, 4%nat).
      unfold decode_tail. cbn [nth Nat.ltb Nat.leb app].
      rewrite dec1_enc, dec2_enc, dec3_enc by auto with b64. reflexivity.
    + remember (d :: l) as l' eqn:El.
      assert (Hlen : List.length l' <> O) by (subst l'; discriminate).
      cbn [decode_loop List.length].
      replace (Nat.ltb 4 ((S (S (S (List.length l'))) * 8 + 5) / 6)) with true by lia.
      replace ((S (S (S (List.length l'))) * 8 + 5) / 6 - 4)%nat with ((List.length l' * 8 + 5) / 6)%nat by lia.
      rewrite IH by exact Hl.
      rewrite dec1_enc, dec2_enc, dec3_enc by auto with b64.
      rewrite last_count_step by exact Hlen. reflexivity.
Qed.

Lemma decode_ret len :
  ((Z.of_nat ((len * 8 + 5) / 6) + 3) / 4 * 3 - Z.land (4 - Z.of_nat (last_count len)) 3)%Z = Z.of_nat len.
Proof.
  destruct len as [|len]; [reflexivity|].
  set (n := S len). assert (Hn : n <> O) by (subst n; discriminate).
  assert (E : last_count n = match (n mod 3)%nat with O => 4%nat | 1%nat => 2%nat | _ => 3%nat end)
    by (subst n; reflexivity).
  clearbody n.
  destruct (n mod 3)%nat as [|[|k]] eqn:Em; rewrite E.
  - change (Z.land _ 3) with 0%Z. lia.
  - change (Z.land _ 3) with 2%Z. lia.
  - change (Z.land _ 3) with 1%Z. assert (k = O) by lia. subst k. lia.
Qed.

Lemma decode_encode l : bytes_ok l -> base64decode (base64encode l) = (l ++ [0], Z.of_nat (List.length l)).
Proof.
  intros H. unfold base64decode. rewrite nprbytes_encode, decode_loop_encode, decode_ret by exact H.
  reflexivity.
Qed.

(** The announced length of an encoded text is exactly the number of bytes stored by decoding it. *)
Lemma basis_not_eq v : v < 64 -> (basis_64 v =? c_eq) = false.
Proof.
  intros H.
  apply (sweep 64 (fun v => negb (basis_64 v =? c_eq))) in H; [|vm_compute; reflexivity].
  now apply negb_true_iff in H.
Qed.

Lemma encode_split3 l : bytes_ok l -> l <> [] ->
  exists p x y z w, base64encode l = p ++ [x; y; z; w] /\
    (if z =? c_eq then 2 else if w =? c_eq then 1 else 0) = (3 - N.of_nat (List.length l) mod 3) mod 3 /\
    ((z =? c_eq) = true -> (w =? c_eq) = true).
Proof.
  unfold bytes_ok. induction l as [|a|a b|a b c l IH] using list_ind3; intros H Hne.
  - congruence.
  - inversion_clear H. exists [], (enc1 a), (enc2_last a), c_eq, c_eq. repeat split.
  - inversion_clear H as [|? ? Ha Hb']; inversion_clear Hb'.
    exists [], (enc1 a), (enc2 a b), (enc3_last b), c_eq.
    cbn [base64encode]. rewrite enc3_last_eq, basis_not_eq by auto with b64. split; [reflexivity|split; [reflexivity|intros; reflexivity]].
  - inversion_clear H as [|? ? Ha H']; inversion_clear H' as [|? ? Hb H'']; inversion_clear H'' as [|? ? Hc Hl].
    destruct l as [|d l].
    + exists [], (enc1 a), (enc2 a b), (enc3 b c), (enc4 c).
      cbn [base64encode]. rewrite enc3_eq, enc4_eq, !basis_not_eq by auto with b64.
      split; [reflexivity|split; [reflexivity|discriminate]].
    + destruct IH as (p & x & y & z & w & E & Hp & Hi); [exact Hl|discriminate|].
      exists (enc1 a :: enc2 a b :: enc3 b c :: enc4 c :: p), x, y, z, w.
      split; [|split; [|exact Hi]].
      { transitivity (enc1 a :: enc2 a b :: enc3 b c :: enc4 c :: base64encode (d :: l));
          [reflexivity | rewrite E; reflexivity]. }
      rewrite Hp. cbn [List.length]. lia.
Qed.

Lemma decodelen_encode l : bytes_ok l -> l <> [] ->
  base64decodelen (base64encode l) = Ok (Z.of_nat (List.length l) + 1)%Z.
Proof.
  intros H Hne. destruct (encode_split3 l H Hne) as (p & x & y & z & w & E & Hp & Hi).
  assert (HL : List.length (base64encode l) = ((List.length l + 2) / 3 * 4)%nat) by apply encode_length.
  unfold base64decodelen. rewrite HL. rewrite E, rev_app_distr. cbn [rev app].
  destruct (z =? c_eq) eqn:Ez.
  - rewrite (Hi eq_refl). f_equal. lia.
  - destruct (w =? c_eq) eqn:Ew; f_equal; lia.
Qed.

(** How many bytes decoding stores, for any text. *)
Lemma nprbytes_le s : (nprbytes s <= List.length s)%nat.
Proof.
  induction s as [|c s IH]; cbn [nprbytes List.length]; [lia|].
  destruct (pr2six c <=? 63); lia.
Qed.

Lemma list_ind4 {A} (P : list A -> Prop) :
  P [] -> (forall a, P [a]) -> (forall a b, P [a; b]) -> (forall a b c, P [a; b; c]) ->
  (forall a b c d l, P l -> P (a :: b :: c :: d :: l)) -> forall l, P l.
Proof.
  intros H0 H1 H2 H3 H4 l.
  assert (K : forall n l, (List.length l <= n)%nat -> P l).
  { intros n. induction n as [|n IH]; intros [|a [|b [|c [|d l']]]] Hl; auto; cbn [List.length] in Hl; try lia.
    apply H4, IH. lia. }
  apply (K (List.length l)); lia.
Qed.

Lemma decode_tail_len n s : (n <= 4)%nat -> List.length (decode_tail n s) = (n * 3 / 4)%nat.
Proof.
  intros H. unfold decode_tail.
  do 5 (destruct n as [|n]; [reflexivity|]). lia.
Qed.

Lemma decode_loop_len n s : (n <= List.length s)%nat ->
  List.length (fst (decode_loop n s)) = (n * 3 / 4)%nat.
Proof.
  revert n. induction s as [|a|a b|a b c|a b c d l IH] using list_ind4; intros n Hn;
    cbn [List.length] in Hn; cbn [decode_loop].
  1-4: replace (Nat.ltb 4 n) with false by lia; cbn [fst]; apply decode_tail_len; lia.
  destruct (Nat.ltb_spec 4 n) as [H4|H4].
  - specialize (IH (n - 4)%nat). destruct (decode_loop (n - 4) l) as [out m]. cbn [fst List.length] in *.
    rewrite IH by lia. lia.
  - cbn [fst]. apply decode_tail_len. lia.
Qed.

Lemma decode_stored s : List.length (fst (base64decode s)) = (nprbytes s * 3 / 4 + 1)%nat.
Proof.
  unfold base64decode. pose proof (decode_loop_len (nprbytes s) s (nprbytes_le s)) as H.
  destruct (decode_loop (nprbytes s) s) as [out m]. cbn [fst] in *.
  rewrite app_length, H. reflexivity.
Qed.

Lemma nprbytes_stop s1 c s2 : pr2six c = 64 -> (nprbytes (s1 ++ c :: s2) <= List.length s1)%nat.
Proof.
  intros Hc. induction s1 as [|x s1 IH]; cbn [app nprbytes List.length].
  - rewrite Hc. cbn. lia.
  - destruct (pr2six x <=? 63); lia.
Qed.

(** Any text whose length is a multiple of four, or which does not end in '=', is decoded within the announced
    size. *)
Lemma decode_fits s L : base64decodelen s = Ok L ->
  (List.length s mod 4 = 0)%nat \/ last s 0 <> c_eq ->
  (Z.of_nat (List.length (fst (base64decode s))) <= L)%Z.
Proof.
  intros HL Hg. rewrite decode_stored. pose proof (nprbytes_le s) as Hle.
  unfold base64decodelen in HL. destruct (rev s) as [|l1 r] eqn:Er; [discriminate|].
  assert (Es : s = rev r ++ [l1]) by (rewrite <- (rev_involutive s), Er; reflexivity).
  destruct (l1 =? c_eq) eqn:E1.
  - apply N.eqb_eq in E1. subst l1.
    assert (Hm : (List.length s mod 4 = 0)%nat).
    { destruct Hg as [Hg|Hg]; [exact Hg|]. exfalso. apply Hg. rewrite Es. apply last_last. }
    destruct r as [|l2 r']; [discriminate|]. cbn [rev] in Es.
    destruct (l2 =? c_eq) eqn:E2; inversion HL; subst L.
    + apply N.eqb_eq in E2. subst l2.
      assert (nprbytes s <= List.length (rev r'))%nat.
      { rewrite Es, <- app_assoc. apply nprbytes_stop. reflexivity. }
      assert (List.length s = List.length (rev r') + 2)%nat by (rewrite Es, !app_length; cbn; lia).
      lia.
    + assert (nprbytes s <= List.length (rev r') + 1)%nat.
      { pose proof (nprbytes_stop (rev r' ++ [l2]) c_eq [] eq_refl) as K.
        rewrite <- Es, app_length in K. exact K. }
      assert (List.length s = List.length (rev r') + 2)%nat by (rewrite Es, !app_length; cbn; lia).
      lia.
  - inversion HL; subst L. lia.
Qed.
