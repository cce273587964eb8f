(** Properties C17 and C18: base64. *)
From Verif Require Import CBase Base64 Base64Spec Base64Proofs.

(** C17, part 1: the encoder's output is the RFC 4648 encoding. *)
Theorem base64_encode_is_rfc4648 : forall l, bytes_ok l -> base64encode l = rfc_encode l.
Proof. exact encode_rfc. Qed.
Print Assumptions base64_encode_is_rfc4648.

(** C17, part 2: the encoder stores exactly the announced number of bytes (text and NUL). *)
Theorem base64_encode_fits : forall l, base64encode_stored l = base64encodelen (List.length l).
Proof. exact encode_stored_len. Qed.
Print Assumptions base64_encode_fits.

(** C17, part 3: decoding an encoding stores the original bytes and a NUL, and returns their number. *)
Theorem base64_roundtrip : forall l, bytes_ok l ->
  base64decode (base64encode l) = (l ++ [0], Z.of_nat (List.length l)).
Proof. exact decode_encode. Qed.
Print Assumptions base64_roundtrip.

Example base64_roundtrip_nonvacuous :
  bytes_ok [0; 255; 128; 7; 61] /\ base64encode [0; 255; 128; 7; 61] = str "AP+ABz0=".
Proof. split; [repeat constructor; reflexivity | reflexivity]. Qed.

(** C18 for texts produced by the encoder: the announced size is exactly what decoding stores. *)
Theorem base64_decode_of_encoding_fits : forall l, bytes_ok l -> l <> [] ->
  base64decodelen (base64encode l) = Ok (Z.of_nat (List.length (fst (base64decode (base64encode l))))).
Proof.
  exact (fun l H Hne => eq_trans (decodelen_encode l H Hne)
    (f_equal Ok (eq_sym (eq_trans (f_equal (fun r => Z.of_nat (List.length (fst r))) (decode_encode l H))
      (eq_trans (f_equal Z.of_nat (app_length l [0])) (Nat2Z.inj_add _ 1)))))).
Qed.
Print Assumptions base64_decode_of_encoding_fits.

(** C18, partial: for arbitrary text, decoding stays within the announced size whenever the length of the text is a
    multiple of four or the text does not end in '='.  Missing: the other texts, for which it is false (below). *)
Theorem base64_decode_bounded_partial : forall s L, base64decodelen s = Ok L ->
  (List.length s mod 4 = 0)%nat \/ last s 0 <> c_eq ->
  (Z.of_nat (List.length (fst (base64decode s))) <= L)%Z.
Proof. exact decode_fits. Qed.
Print Assumptions base64_decode_bounded_partial.

Example base64_decode_bounded_nonvacuous :
  base64decodelen (str "QUJD@#==") = Ok 5%Z /\ (List.length (str "QUJD@#==") mod 4 = 0)%nat.
Proof. split; reflexivity. Qed.

(** C18 is violated: for this text one byte more is stored than announced. *)
Theorem base64_decode_bounded_refuted : exists s L, base64decodelen s = Ok L /\
  (L < Z.of_nat (List.length (fst (base64decode s))))%Z.
Proof. exact (ex_intro _ (str "AAAA=") (ex_intro _ 3%Z (conj eq_refl eq_refl))). Qed.
Print Assumptions base64_decode_bounded_refuted.

(** C18 is violated: the announced size of the empty text and of "=" is computed from bytes before the text. *)
Theorem base64_decodelen_defined_refuted :
  base64decodelen [] = UB /\ base64decodelen (str "=") = UB.
Proof. exact (conj eq_refl eq_refl). Qed.
Print Assumptions base64_decodelen_defined_refuted.
