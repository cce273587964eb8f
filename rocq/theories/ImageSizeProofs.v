(** Proofs about image sizes. *)
From Verif Require Import CBase Num Region ImageSize ImageSizeSpec.
Local Open Scope Z_scope.

Lemma octet_val z : 0 <= z -> Z.of_N (octet z) = z.
Proof. intros H. unfold octet. lia. Qed.
Lemma be16_val z : 0 <= z < 65536 -> 256 * Z.of_N (octet (z / 256)) + Z.of_N (octet (z mod 256)) = z.
Proof. intros H. rewrite !octet_val by (first [apply Z.mod_pos_bound; lia|apply Z.div_pos; lia]). rewrite (Z.div_mod z 256) at 3 by lia. reflexivity. Qed.
Lemma be32_val z : 0 <= z -> 16777216 * Z.of_N (octet (z / 16777216)) + 65536 * Z.of_N (octet (z / 65536 mod 256)) + 256 * Z.of_N (octet (z / 256 mod 256)) + Z.of_N (octet (z mod 256)) = z.
Proof.
  intros H. rewrite !octet_val by (first [apply Z.mod_pos_bound; lia|apply Z.div_pos; lia]).
  assert (E1 : z / 65536 = z / 256 / 256) by (rewrite Z.div_div by lia; reflexivity). assert (E2 : z / 16777216 = z / 256 / 256 / 256) by (rewrite !Z.div_div by lia; reflexivity).
  rewrite E1, E2. pose proof (Z.div_mod z 256 ltac:(lia)). pose proof (Z.div_mod (z / 256) 256 ltac:(lia)). pose proof (Z.div_mod (z / 256 / 256) 256 ltac:(lia)). lia.
Qed.

Theorem png_size w h rest : 0 <= w <= INT_MAX -> 0 <= h <= INT_MAX ->
  image_get_size (PPath (Some (png_file w h rest))) = Ok (w, h) /\ image_get_size (PBuffer (png_file w h rest)) = Ok (w, h).
Proof.
  intros Hw Hh. unfold png_file, be32. cbn [app image_get_size List.length Nat.ltb Nat.leb firstn].
  match goal with |- context [is_jfif ?b] => set (buf := b) end.
  assert (J : is_jfif buf = false) by reflexivity. rewrite J. cbn [obind].
  assert (E : forall r, header_size buf r = Ok (w, h)); [|split; apply E].
  intros r. unfold header_size. replace (png_header buf) with true by reflexivity. unfold big_endian, byte, buf. cbn [nth Nat.add].
  rewrite !be32_val by lia. unfold int_result. replace (in_int w) with true by (unfold in_int, INT_MIN; lia). replace (in_int h) with true by (unfold in_int, INT_MIN; lia). reflexivity.
Qed.
Theorem gif_size version w h rest : List.length version = 3%nat -> 0 <= w < 65536 -> 0 <= h < 65536 -> (14 <= List.length rest)%nat ->
  image_get_size (PPath (Some (gif_file version w h rest))) = Ok (w, h) /\ image_get_size (PBuffer (gif_file version w h rest)) = Ok (w, h).
Proof.
  intros V Hw Hh R. destruct version as [|v1 [|v2 [|v3 [|]]]]; try discriminate. unfold gif_file, le16. cbn [app image_get_size].
  match goal with |- context [(List.length ?l <? 24)%nat] => set (file := l) end.
  assert (L : (List.length file <? 24)%nat = false) by (apply Nat.ltb_ge; unfold file; cbn [List.length]; lia). rewrite L.
  unfold file. cbn [firstn]. match goal with |- context [is_jfif ?b] => set (buf := b) end.
  assert (J : is_jfif buf = false) by reflexivity. rewrite J. cbn [obind].
  assert (E : forall r, header_size buf r = Ok (w, h)); [|split; apply E].
  intros r. unfold header_size. replace (png_header buf) with false by reflexivity. replace (gif_header buf) with true by reflexivity. unfold byte, buf. cbn [nth].
  f_equal. f_equal; [rewrite <- (be16_val w Hw) at 3|rewrite <- (be16_val h Hh) at 3]; lia.
Qed.

Definition frame_bytes (marker len : Z) (precision : N) (w h : Z) (rest : list N) : list N := [255%N; octet marker] ++ be16 len ++ [precision] ++ be16 h ++ be16 w ++ rest.
Definition segments_bytes (segments : list (Z * list N)) : list N := concat (map (fun s => segment (fst s) (snd s)) segments).
(** the buffer shows twelve bytes of the file *)
Definition shows (buf file : list N) (pos : nat) : Prop :=
  firstn 2 buf = [255; 216]%N /\ (14 <= List.length buf)%nat /\ forall i, (i < 12)%nat -> nth (2 + i) buf 0%N = nth (pos + i) file 0%N.
Lemma shows_byte buf file pos i : shows buf file pos -> (i < 12)%nat -> byte buf (2 + i) = Z.of_N (nth (pos + i) file 0%N).
Proof. intros (_ & _ & H) Hi. unfold byte. now rewrite H. Qed.
Lemma nth_at_pre pre l i : nth (List.length pre + i) (pre ++ l) 0%N = nth i l 0%N.
Proof. rewrite app_nth2 by lia. f_equal. lia. Qed.
Lemma shows_read buf file pos : firstn 2 buf = [255; 216]%N -> (14 <= List.length buf)%nat -> (pos + 12 <= List.length file)%nat ->
  shows (firstn 2 buf ++ firstn 12 (skipn pos file) ++ skipn 14 buf) file pos.
Proof.
  intros A B C. assert (L : List.length (firstn 12 (skipn pos file)) = 12%nat) by (rewrite firstn_length, skipn_length; lia). rewrite A. split; [reflexivity|]. split.
  - rewrite !app_length, L. cbn [List.length]. lia.
  - intros i Hi. cbn [app Nat.add nth]. rewrite app_nth1 by lia.
    assert (F : firstn pos file ++ skipn pos file = file) by apply firstn_skipn. rewrite <- F at 2. rewrite app_nth2; rewrite firstn_length; [|lia].
    replace (pos + i - Nat.min pos (List.length file))%nat with i by lia.
    assert (G : firstn 12 (skipn pos file) ++ skipn 12 (skipn pos file) = skipn pos file) by apply firstn_skipn. rewrite <- G at 2. rewrite app_nth1 by lia. reflexivity.
Qed.
Lemma segment_length m c : List.length (segment m c) = (4 + List.length c)%nat.
Proof. reflexivity. Qed.
Lemma frame_marker_in m : frame_marker m = true <-> In m frame_markers.
Proof. unfold frame_marker, frame_markers. cbn [In]. rewrite !orb_true_iff, !Z.eqb_eq. intuition. Qed.
Lemma frame_marker_not m : ~ In m frame_markers -> frame_marker m = false.
Proof. intros H. destruct (frame_marker m) eqn:E; [|reflexivity]. now apply frame_marker_in in E. Qed.
Lemma scan_ok segments : forall fuel pre buf marker len precision w h rest,
  let file := pre ++ segments_bytes segments ++ frame_bytes marker len precision w h rest in
  Forall segment_ok segments -> 0 <= marker -> frame_marker marker = true -> (3 <= List.length rest)%nat -> (List.length segments < fuel)%nat ->
  shows buf file (List.length pre) ->
  exists buf' pre', jpeg_scan fuel file buf (Z.of_nat (List.length pre)) = Ok buf' /\ shows buf' file (List.length pre') /\ file = pre' ++ frame_bytes marker len precision w h rest.
Proof.
  induction segments as [|(m & c) segments IH]; intros fuel pre buf marker len precision w h rest file Fs Hm Hf Hr Fu Sh; (destruct fuel as [|fuel]; [cbn [List.length] in Fu; lia|]); cbn [jpeg_scan].
  - exists buf, pre. split; [|split; [exact Sh|reflexivity]]. unfold has. change (byte buf 2) with (byte buf (2 + 0)). change (byte buf 3) with (byte buf (2 + 1)).
    rewrite (shows_byte _ _ _ 0 Sh), (shows_byte _ _ _ 1 Sh) by lia. unfold file. rewrite !nth_at_pre. cbn [segments_bytes map concat app frame_bytes nth].
    change (Z.of_N 255 =? 255) with true. rewrite octet_val by lia. cbv iota. now rewrite Hf.
  - inversion Fs as [|? ? Hs Fs']; subst. destruct Hs as (M1 & M2 & M3). cbn [fst snd] in *. apply frame_marker_not in M2.
    set (T := segments_bytes segments ++ frame_bytes marker len precision w h rest).
    assert (FE : file = pre ++ segment m c ++ T) by (unfold file, T; cbn [segments_bytes map concat fst snd]; now rewrite <- app_assoc).
    assert (B : forall i, (i < 4)%nat -> byte buf (2 + i) = Z.of_N (nth i (segment m c) 0%N)).
    { intros i Hi. rewrite (shows_byte _ _ _ i Sh) by lia. rewrite FE, nth_at_pre. rewrite app_nth1; [reflexivity|]. rewrite segment_length. lia. }
    assert (B2 := B 0%nat ltac:(lia)). assert (B3 := B 1%nat ltac:(lia)). assert (B4 := B 2%nat ltac:(lia)). assert (B5 := B 3%nat ltac:(lia)).
    unfold segment, be16 in B2, B3, B4, B5. cbn [Nat.add app nth] in B2, B3, B4, B5. rewrite octet_val in B3 by lia.
    unfold has. rewrite B2, B3. change (Z.of_N 255 =? 255) with true. cbv iota. rewrite M2.
    assert (V : forall x, x + 256 * byte buf 4 + byte buf 5 = x + (Z.of_nat (List.length c) + 2)) by (intros x; rewrite B4, B5, <- Z.add_assoc, be16_val by lia; reflexivity).
    cbv zeta. rewrite !V. set (pos' := Z.of_nat (List.length pre) + 2 + (Z.of_nat (List.length c) + 2)).
    assert (P : pos' = Z.of_nat (List.length (pre ++ segment m c))) by (rewrite app_length, segment_length; unfold pos'; lia).
    assert (LT : (12 <= List.length T)%nat). { unfold T. rewrite app_length. unfold frame_bytes. rewrite !app_length. cbn [be16 List.length]. lia. }
    assert (LF : (List.length (pre ++ segment m c) + 12 <= List.length file)%nat) by (rewrite FE, !app_length; lia).
    assert ((Z.of_nat (List.length file) <? pos' + 12) = false) as -> by lia. rewrite P, Nat2Z.id.
    assert (FE2 : file = (pre ++ segment m c) ++ T) by now rewrite <- app_assoc.
    assert (Sh' := shows_read buf file (List.length (pre ++ segment m c)) (proj1 Sh) (proj1 (proj2 Sh)) LF).
    clearbody file. clear FE. rewrite FE2 in *. clear FE2. unfold T in *. cbn [List.length] in Fu. apply (IH fuel (pre ++ segment m c)); auto. lia.
Qed.
Theorem jpeg_size jfif segments marker len precision w h rest : (2 <= List.length jfif)%nat -> Z.of_nat (List.length jfif) < 65530 -> Forall segment_ok segments ->
  In marker frame_markers -> (3 <= List.length rest)%nat -> 0 <= w < 65536 -> 0 <= h < 65536 ->
  image_get_size (PPath (Some (jpeg_file jfif segments marker len precision w h rest))) = Ok (w, h).
Proof.
  intros J1 J2 Fs Hf Hr Hw Hh. assert (Hm : 0 <= marker) by (cbn in Hf; lia). apply frame_marker_in in Hf. set (file := jpeg_file jfif segments marker len precision w h rest).
  assert (FE : file = [255; 216]%N ++ segments_bytes ((224, [74; 70; 73; 70]%N ++ jfif) :: segments) ++ frame_bytes marker len precision w h rest).
  { unfold file, jpeg_file, segments_bytes, frame_bytes. cbn [map concat fst snd]. now rewrite <- app_assoc. }
  assert (FS : file = [255; 216; 255; 224]%N ++ be16 (Z.of_nat (List.length ([74; 70; 73; 70]%N ++ jfif)) + 2) ++ [74; 70; 73; 70]%N ++ jfif ++ segments_bytes segments ++ frame_bytes marker len precision w h rest).
  { rewrite FE. unfold segments_bytes. cbn [map concat fst snd]. unfold segment. cbn [app be16]. rewrite <- app_assoc. reflexivity. }
  assert (L : (24 <= List.length file)%nat). { rewrite FS, !app_length. unfold frame_bytes. rewrite !app_length. cbn [be16 List.length]. lia. }
  cbn [image_get_size]. assert ((List.length file <? 24)%nat = false) as -> by (apply Nat.ltb_ge; exact L).
  assert (N24 : forall i, (i < 24)%nat -> nth i (firstn 24 file) 0%N = nth i file 0%N).
  { intros i Hi. rewrite <- (firstn_skipn 24 file) at 2. rewrite app_nth1; [reflexivity|]. rewrite firstn_length. lia. }
  assert (is_jfif (firstn 24 file) = true) as ->. { unfold is_jfif, has, byte. rewrite !N24 by lia. rewrite FS. reflexivity. }
  assert (Sh : shows (firstn 24 file) file 2).
  { split; [|split].
    - rewrite firstn_firstn. change (Nat.min 2 24) with 2%nat. rewrite FS. reflexivity.
    - rewrite firstn_length. lia.
    - intros i Hi. apply N24. lia. }
  assert (SL : (List.length segments < List.length file)%nat).
  { rewrite FE. unfold segments_bytes. cbn [map concat]. rewrite !app_length. assert (K : forall l, (List.length l <= List.length (concat (map (fun s : Z * list N => segment (fst s) (snd s)) l)))%nat).
    { induction l as [|s l IH]; [cbn; lia|]. cbn [map concat List.length]. rewrite app_length, segment_length. lia. }
    specialize (K segments). cbn [List.length]. lia. }
  assert (Fs' : Forall segment_ok ((224, [74; 70; 73; 70]%N ++ jfif) :: segments)).
  { constructor; [|exact Fs]. split; [cbn [fst]; lia|]. split; [(cbn; lia)|]. cbn [snd]. rewrite app_length. cbn [List.length]. lia. }
  assert (K := scan_ok ((224, [74; 70; 73; 70]%N ++ jfif) :: segments) (S (List.length file)) [255; 216]%N (firstn 24 file) marker len precision w h rest).
  cbv zeta in K. rewrite <- FE in K. destruct (K Fs' Hm Hf Hr ltac:(cbn [List.length]; lia) Sh) as (buf & pre & E & (S1 & S2 & S3) & P). clear K.
  change (Z.of_nat (List.length [255; 216]%N)) with 2 in E. rewrite E. cbn [obind].
  assert (B : forall i, (i < 12)%nat -> byte buf (2 + i) = Z.of_N (nth i (frame_bytes marker len precision w h rest) 0%N)).
  { intros i Hi. unfold byte. rewrite S3 by exact Hi. rewrite P, nth_at_pre. reflexivity. }
  destruct buf as [|b0 [|b1 buf]]; try discriminate S1. cbn [firstn] in S1. injection S1 as -> ->.
  set (b := (255 :: 216 :: buf)%N) in *.
  assert (B0 : byte b 0 = 255) by reflexivity. assert (B1 : byte b 1 = 216) by reflexivity. assert (B2 : byte b 2 = 255) by exact (B 0%nat ltac:(lia)).
  unfold header_size, png_header, gif_header, jpeg_header, has. rewrite B0, B1, B2. cbn [andb].
  change (255 =? 137) with false. change (255 =? 71) with false. change (255 =? 255) with true. change (216 =? 216) with true. cbn [andb].
  change (byte b 9) with (byte b (2 + 7)). change (byte b 10) with (byte b (2 + 8)). change (byte b 7) with (byte b (2 + 5)). change (byte b 8) with (byte b (2 + 6)).
  rewrite !B by lia. unfold frame_bytes, be16. cbn [app nth]. rewrite !be16_val by lia. reflexivity.
Qed.
Theorem exif_size rest : image_get_size (PPath (Some ([255; 216]%N ++ segment 225 (str "Exif" ++ repeat 0%N 20) ++ rest))) = Ok (26112, 30825).
Proof. vm_compute. reflexivity. Qed.
