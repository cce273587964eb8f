From Verif Require Import CBase StrMap StrMapProofs Num NumProofs NumSpec PropsNumProofs Buffer BufferSpec BufferProofs Base64 Base64Spec Base64Proofs Region RegionProofs Image ImageSpec.
Local Open Scope Z_scope.

(** ---- Blocks ---- *)
Lemma no_nul_c_string s : no_nul s -> c_string s = s.
Proof.
  unfold no_nul. induction s as [|c s IH]; intros H; [reflexivity|]. cbn. destruct (c =? 0)%N eqn:E.
  - exfalso. apply H. left. lia.
  - rewrite IH; [reflexivity|]. intros Hin. apply H. now right.
Qed.

Lemma blk_string_holds s b : no_nul s -> holds b (s ++ [0%N]) -> blk_string b = Ok s.
Proof.
  intros Hs [tl ->]. revert Hs. unfold no_nul. induction s as [|c s IH]; intros Hs; [reflexivity|].
  cbn. destruct (c =? 0)%N eqn:E; [exfalso; apply Hs; left; lia|].
  rewrite IH; [reflexivity|]. intros Hin. apply Hs. now right.
Qed.

Lemma copy_string_ok s : copy_string s = Ok (c_block s).
Proof. apply copy_block. Qed.
Lemma blk_string_copy s : no_nul s -> blk_string (c_block s) = Ok s.
Proof. intros H. rewrite blk_string_block, no_nul_c_string by exact H. reflexivity. Qed.

Lemma write_over {A} (s : list A) : forall b l x tl, b = map Some l ++ x :: tl -> (List.length l + List.length s <= List.length b)%nat ->
  exists b', blk_write_list b (List.length l) s = Ok b' /\ holds b' (l ++ s) /\ List.length b' = List.length b.
Proof. intros b l x tl -> H. apply blk_write_list_end; [now exists (x :: tl)|exact H]. Qed.

Lemma blk_new_length {A} n : List.length (blk_new n : block A) = n.
Proof. apply repeat_length. Qed.

Lemma holds_exact {A} (b : block A) l : holds b l -> List.length b = List.length l -> b = map Some l.
Proof.
  intros [tl ->] H. rewrite app_length, map_length in H. destruct tl; [apply app_nil_r|cbn in H; lia].
Qed.

Lemma write_too_long {A} (s : list A) : forall b i, (i <= List.length b)%nat -> (List.length b < i + List.length s)%nat ->
  blk_write_list b i s = UB.
Proof.
  induction s as [|x s IH]; intros b i Hi Hl; cbn [List.length] in Hl; [lia|].
  cbn [blk_write_list]. unfold blk_write. destruct (Nat.ltb i (List.length b)) eqn:E; [|reflexivity].
  cbn [obind]. apply IH; rewrite set_nth_length; lia.
Qed.

(** ---- Schemes ---- *)
Lemma scheme_char_spec c : scheme_char c = true <-> ((97 <= c <= 122) \/ c = 43 \/ c = 46 \/ c = 45)%N.
Proof. unfold scheme_char. lia. Qed.

Lemma scan_uri_app s r n : (List.length s < n)%nat -> (forall c, In c s -> scheme_char c = true) ->
  scan_uri n (s ++ [58%N] ++ r) = Some (s, r).
Proof.
  revert n. induction s as [|c s IH]; intros n Hn Hs; (destruct n as [|n]; [cbn in Hn; lia|]).
  - reflexivity.
  - cbn [scan_uri app]. rewrite (Hs c (or_introl eq_refl)).
    cbn [app] in IH. rewrite IH; [reflexivity|cbn in Hn; lia|]. intros; apply Hs; now right.
Qed.

Lemma scan_uri_inv n : forall l s r, scan_uri n l = Some (s, r) ->
  l = s ++ [58%N] ++ r /\ (List.length s < n)%nat /\ forall c, In c s -> scheme_char c = true.
Proof.
  induction n as [|n IH]; intros l s r H; [discriminate|].
  destruct l as [|c l]; cbn [scan_uri] in H; [discriminate|].
  destruct (scheme_char c) eqn:Ec.
  - destruct (scan_uri n l) as [[s' r']|] eqn:E; [|discriminate]. injection H as <- <-.
    apply IH in E as (-> & Hl & Hs). split; [reflexivity|]. split; [cbn; lia|].
    intros c' [<-|Hc]; auto.
  - destruct (c =? 58)%N eqn:E; [|discriminate]. injection H as <- <-.
    apply N.eqb_eq in E as ->. split; [reflexivity|]. split; [cbn; lia|]. intros ? [].
Qed.

Lemma parse_uri_spec s r u : parse_uri u = Some (s, r) <-> uri s r u.
Proof.
  unfold uri. split.
  - intros H. apply scan_uri_inv in H as (E & Hl & Hs). split; [exact E|]. split; [exact Hl|].
    intros c Hc. now apply scheme_char_spec, Hs.
  - intros (-> & Hl & Hs). apply scan_uri_app; [exact Hl|]. intros c Hc. now apply scheme_char_spec, Hs.
Qed.

Lemma bytes_eqb_spec a : forall b, bytes_eqb a b = true <-> a = b.
Proof.
  induction a as [|x a IH]; intros [|y b]; cbn; split; try easy.
  - intros H. apply andb_true_iff in H as [H1 H2]. apply N.eqb_eq in H1 as ->. apply IH in H2 as ->. reflexivity.
  - intros [= <- <-]. now rewrite N.eqb_refl, (proj2 (IH a) eq_refl).
Qed.
Lemma bytes_eqb_neq a b : a <> b -> bytes_eqb a b = false.
Proof. intros H. destruct (bytes_eqb a b) eqn:E; [|reflexivity]. now apply bytes_eqb_spec in E. Qed.

(** ---- Path images ---- *)
Lemma path_image p : image_create_path p = Ok (mkImage TRAX_IMAGE_PATH 0 0 0 (c_block p)).
Proof. unfold image_create_path. now rewrite copy_string_ok. Qed.
Lemma url_image p : image_create_url p = Ok (mkImage TRAX_IMAGE_URL 0 0 0 (c_block p)).
Proof. unfold image_create_url. now rewrite copy_string_ok. Qed.

Lemma no_nul_app a b : no_nul a -> no_nul b -> no_nul (a ++ b).
Proof. unfold no_nul. intros Ha Hb H. apply in_app_or in H as [H|H]; auto. Qed.
Lemma no_nul_app_inv a b : no_nul (a ++ b) -> no_nul a /\ no_nul b.
Proof. unfold no_nul. intros H. split; intros Hin; apply H, in_or_app; auto. Qed.

Lemma forallb_no_nul s : forallb (fun c => negb (c =? 0)%N) s = true -> no_nul s.
Proof. rewrite forallb_forall. intros H Hin. specialize (H _ Hin). discriminate. Qed.

Lemma encode_path p : no_nul p ->
  image_encode (mkImage TRAX_IMAGE_PATH 0 0 0 (c_block p)) = Ok (Some (str "file://" ++ p)).
Proof.
  intros Hp. unfold image_encode. cbn [i_type i_data]. change (TRAX_IMAGE_PATH =? TRAX_IMAGE_PATH) with true. cbv iota.
  rewrite blk_string_copy by exact Hp. cbn [obind].
  destruct (blk_write_list_end (str "file://" ++ [0%N]) (blk_new (List.length p + 1 + 7)) [] (holds_nil _)) as (b0 & E0 & H0 & L0).
  { rewrite blk_new_length. cbn. lia. }
  cbn [List.length] in E0. rewrite E0. cbn [obind app] in *. rewrite blk_new_length in L0.
  destruct (blk_write_list_end (p ++ [0%N]) b0 (str "file://")) as (b1 & E1 & H1 & L1).
  { now apply (holds_prefix b0 (str "file://") [0%N]). }
  { rewrite L0, app_length. cbn. lia. }
  change (List.length (str "file://")) with 7%nat in E1. rewrite E1. cbn [obind].
  rewrite app_assoc in H1. rewrite (blk_string_holds (str "file://" ++ p)); [reflexivity| |exact H1].
  apply no_nul_app; [now apply forallb_no_nul|exact Hp].
Qed.

Lemma decode_file slack r : image_decode slack (str "file:" ++ r) =
  Ok (Some (mkImage TRAX_IMAGE_PATH 0 0 0 (c_block (if starts_with (str "//") r then skipn 2 r else r)))).
Proof.
  unfold image_decode. assert (E : parse_uri (str "file:" ++ r) = Some (str "file", r)).
  { apply parse_uri_spec. split; [reflexivity|]. split; [cbn; lia|]. cbn. intros c H.
    repeat (destruct H as [<-|H]; [lia|]). destruct H. }
  rewrite E. change (bytes_eqb (str "file") (str "file")) with true. cbv iota. rewrite path_image. reflexivity.
Qed.

Lemma path_round_trip p img : no_nul p -> image_create_path p = Ok img ->
  exists text, image_encode img = Ok (Some text) /\ text = str "file://" ++ p /\
    forall slack, exists img', image_decode slack text = Ok (Some img') /\ image_get_path img' = Ok p.
Proof.
  intros Hp E. rewrite path_image in E. injection E as <-. exists (str "file://" ++ p).
  split; [now apply encode_path|]. split; [reflexivity|]. intros slack.
  change (str "file://" ++ p) with (str "file:" ++ (str "//" ++ p)). rewrite decode_file.
  eexists. split; [reflexivity|]. unfold image_get_path. cbn [i_type i_data].
  change (TRAX_IMAGE_PATH =? TRAX_IMAGE_PATH) with true. cbv iota.
  change (starts_with (str "//") (str "//" ++ p)) with true. cbv iota.
  change (skipn 2 (str "//" ++ p)) with p. now apply blk_string_copy.
Qed.

Lemma legacy_path p slack : no_nul p -> (forall s r, ~ uri s r p) ->
  exists img, image_decode slack p = Ok (Some img) /\ image_get_path img = Ok p.
Proof.
  intros Hp Hu. unfold image_decode. destruct (parse_uri p) as [[s r]|] eqn:E.
  - apply parse_uri_spec in E. now apply Hu in E.
  - rewrite path_image. eexists. split; [reflexivity|]. unfold image_get_path. cbn [i_type i_data].
    change (TRAX_IMAGE_PATH =? TRAX_IMAGE_PATH) with true. cbv iota. now apply blk_string_copy.
Qed.

(** ---- URL images ---- *)
Lemma encode_url u img : no_nul u -> image_create_url u = Ok img -> image_encode img = Ok (Some u).
Proof.
  intros Hu E. rewrite url_image in E. injection E as <-. unfold image_encode. cbn [i_type i_data].
  change (TRAX_IMAGE_URL =? TRAX_IMAGE_PATH) with false. change (TRAX_IMAGE_URL =? TRAX_IMAGE_URL) with true. cbv iota.
  rewrite blk_string_copy by exact Hu. cbn [obind]. rewrite copy_string_ok. cbn [obind].
  rewrite blk_string_copy by exact Hu. reflexivity.
Qed.

Lemma nth_error_snoc {A} (l1 l2 : list A) x : nth_error (l1 ++ x :: l2) (List.length l1) = Some x.
Proof. induction l1; auto. Qed.

Lemma decode_url slack s r u : uri s r u -> no_nul u -> s <> str "file" -> s <> str "image" -> s <> str "data" ->
  image_decode slack u = Ok (Some (mkImage TRAX_IMAGE_URL 0 0 0 (c_block s))).
Proof.
  intros Hu Hn H1 H2 H3. unfold image_decode. rewrite (proj2 (parse_uri_spec s r u) Hu).
  rewrite !bytes_eqb_neq by assumption. destruct Hu as (-> & _ & _).
  apply no_nul_app_inv in Hn as [Hs _]. unfold blk_write.
  rewrite map_length, !app_length. cbn [List.length].
  destruct (Nat.ltb (List.length s + 1) (List.length s + (1 + (List.length r + 1)))) eqn:E; [|lia].
  cbn [obind].
  assert (E1 : exists tl, set_nth (map Some (s ++ [0%N] ++ r ++ [0%N])) (List.length s + 1) (Some 58%N)
               = map Some (s ++ [0%N]) ++ tl).
  { destruct (r ++ [0%N]) as [|x t] eqn:Er; [destruct r; discriminate|].
    exists (Some 58%N :: map Some t). rewrite map_app, map_app. cbn [map app].
    replace (map Some s ++ Some 0%N :: Some x :: map Some t) with (map Some (s ++ [0%N]) ++ Some x :: map Some t)
      by (rewrite map_app, <- app_assoc; reflexivity).
    replace (List.length s + 1)%nat with (List.length (map (@Some N) (s ++ [0%N]))) by (rewrite map_length, app_length; reflexivity).
    apply set_nth_app. }
  destruct E1 as [tl E1]. rewrite (blk_string_holds s); [|exact Hs|exists tl; exact E1].
  cbn [obind]. rewrite url_image. reflexivity.
Qed.

Lemma decode_memory_type slack r img : decode_memory slack r = Ok (Some img) -> i_type img = TRAX_IMAGE_MEMORY.
Proof.
  unfold decode_memory. destruct (strtol r) as [w r1]. destruct r1 as [|c1 r1]; [discriminate|].
  destruct (c1 =? 59)%N; [|discriminate]. destruct (strtol r1) as [h r2]. destruct r2 as [|c2 r2]; [discriminate|].
  destruct (c2 =? 59)%N; [|discriminate]. destruct (strntok r2 59 32) as [[t x]|]; [|discriminate].
  destruct (base64decodelen x) as [dl| | |]; cbn [obind]; try discriminate.
  destruct (memory_size _ _ _) as [al| | |]; cbn [obind]; try discriminate.
  destruct (_ || _ || _); [discriminate|]. destruct (base64decode x) as [bs v].
  destruct (blk_write_list _ _ _) as [d| | |]; cbn [obind]; try discriminate.
  destruct (v =? al); [|discriminate]. intros [= <-]. reflexivity.
Qed.

Lemma decode_buffer_type slack r img : decode_buffer slack r = Ok (Some img) -> i_type img = TRAX_IMAGE_BUFFER.
Proof.
  unfold decode_buffer. destruct (strntok r 59 32) as [[t x]|]; [|discriminate].
  destruct (base64decodelen x) as [dl| | |]; cbn [obind]; try discriminate.
  destruct (blk_write_list _ _ _) as [d| | |]; cbn [obind]; try discriminate.
  intros [= <-]. reflexivity.
Qed.

Lemma url_of_other img u : i_type img <> TRAX_IMAGE_URL -> image_get_url img <> Ok u.
Proof.
  intros H. unfold image_get_url. destruct (i_type img =? TRAX_IMAGE_URL) eqn:E; [|discriminate]. lia.
Qed.

Lemma url_lost u slack img : no_nul u -> image_decode slack u = Ok (Some img) -> image_get_url img <> Ok u.
Proof.
  intros Hu H.
  destruct (parse_uri u) as [[s r]|] eqn:E.
  2:{ unfold image_decode in H. rewrite E, path_image in H. cbn [obind] in H. injection H as <-. now apply url_of_other. }
  pose proof (proj1 (parse_uri_spec s r u) E) as Hs.
  destruct (list_eq_dec N.eq_dec s (str "file")) as [->|H1].
  { destruct Hs as (-> & _). change (str "file" ++ [58%N] ++ r) with (str "file:" ++ r) in H. rewrite decode_file in H.
    injection H as <-. now apply url_of_other. }
  destruct (list_eq_dec N.eq_dec s (str "image")) as [->|H2].
  { unfold image_decode in H. rewrite E in H. change (bytes_eqb (str "image") (str "file")) with false in H.
    change (bytes_eqb (str "image") (str "image")) with true in H. cbv iota in H.
    apply decode_memory_type in H. apply url_of_other. rewrite H. discriminate. }
  destruct (list_eq_dec N.eq_dec s (str "data")) as [->|H3].
  { unfold image_decode in H. rewrite E in H. change (bytes_eqb (str "data") (str "file")) with false in H.
    change (bytes_eqb (str "data") (str "image")) with false in H.
    change (bytes_eqb (str "data") (str "data")) with true in H. cbv iota in H.
    apply decode_buffer_type in H. apply url_of_other. rewrite H. discriminate. }
  rewrite (decode_url slack s r u Hs Hu H1 H2 H3) in H. injection H as <-.
  unfold image_get_url. cbn [i_type i_data]. change (TRAX_IMAGE_URL =? TRAX_IMAGE_URL) with true. cbv iota.
  destruct Hs as (-> & _). apply no_nul_app_inv in Hu as [Hu _]. rewrite blk_string_copy by exact Hu.
  intros [= Eq]. apply (f_equal (@List.length N)) in Eq. rewrite !app_length in Eq. cbn in Eq. lia.
Qed.

(** ---- Raw images ---- *)
Lemma pixel_format_facts f name bpp : pixel_format f name bpp ->
  memory_depth f * memory_channels f = bpp /\ memory_format_name f = Some name /\ 1 <= bpp <= 3 /\
  1 <= memory_depth f <= 2 /\ 1 <= memory_channels f <= 3 /\
  strntok (name ++ [59%N]) 59 32 = Some (name, []) /\ decode_memory_format name = f /\
  (List.length name <= 6)%nat /\ no_nul name /\
  ((f =? TRAX_IMAGE_MEMORY_GRAY8) || (f =? TRAX_IMAGE_MEMORY_GRAY16) || (f =? TRAX_IMAGE_MEMORY_RGB)) = true.
Proof.
  intros []; repeat match goal with |- _ /\ _ => split end; try reflexivity; try (cbn; lia); apply forallb_no_nul; reflexivity.
Qed.

Lemma int_ok z : - 2147483648 <= z <= 2147483647 -> int_result z = Ok z.
Proof. intros H. unfold int_result, in_int, INT_MIN, INT_MAX. destruct (_ && _) eqn:E; [reflexivity|lia]. Qed.

Lemma mul_le_right a b c : 0 <= a -> 1 <= b -> a * b <= c -> a <= c.
Proof. nia. Qed.

Lemma memory_size_ok w h f name bpp : pixel_format f name bpp -> 1 <= w -> 1 <= h -> w * h * bpp <= 2147483647 ->
  memory_size w h f = Ok (w * h * bpp).
Proof.
  intros F Hw Hh Hs. destruct (pixel_format_facts _ _ _ F) as (Ebpp & _ & Hb & Hd & Hc & _).
  unfold memory_size. assert (Hp : 1 <= w * h) by nia. set (a := w * h) in *. clearbody a.
  rewrite int_ok by nia. cbn [obind]. rewrite <- Ebpp in *.
  set (d := memory_depth f) in *. set (c := memory_channels f) in *. clearbody d c.
  assert (1 <= a * d) by nia. assert (a * d <= 2147483647) by (apply (mul_le_right _ c); lia).
  rewrite int_ok by lia. cbn [obind]. rewrite Z.mul_assoc in *. apply int_ok. nia.
Qed.

Lemma create_memory_ok w h f name bpp : pixel_format f name bpp -> 1 <= w -> 1 <= h -> w * h * bpp <= 2147483647 ->
  image_create_memory w h f = Ok (mkImage TRAX_IMAGE_MEMORY w h f (blk_new (Z.to_nat (w * h * bpp)))).
Proof.
  intros F Hw Hh Hs. destruct (pixel_format_facts _ _ _ F) as (_ & _ & Hb & _ & _ & _ & _ & _ & _ & Ef).
  unfold image_create_memory. rewrite Ef, (memory_size_ok _ _ _ _ _ F) by assumption. cbn [obind].
  replace (w * h * bpp <? 0) with false by nia. reflexivity.
Qed.

Lemma row0 t w h f d : t = TRAX_IMAGE_MEMORY -> 1 <= h -> (exists name bpp, pixel_format f name bpp) ->
  image_memory_row (mkImage t w h f d) 0 = Ok 0.
Proof.
  intros -> Hh (name & bpp & F). destruct (pixel_format_facts _ _ _ F) as (Ebpp & _ & Hb & _).
  unfold image_memory_row. cbn [i_type i_height i_format]. change (TRAX_IMAGE_MEMORY =? TRAX_IMAGE_MEMORY) with true. cbv iota.
  replace ((0 <=? 0) && (0 <? h)) with true by lia. rewrite Ebpp, int_ok by lia. cbn [obind]. rewrite Z.mul_0_r. apply int_ok. lia.
Qed.

Lemma memory_image_inv w h f name bpp px img : pixel_format f name bpp -> 1 <= w -> 1 <= h ->
  Z.of_nat (List.length px) = w * h * bpp -> w * h * bpp <= 2147483647 ->
  memory_image w h f px img -> img = mkImage TRAX_IMAGE_MEMORY w h f (map Some px).
Proof.
  intros F Hw Hh Hl Hs (img0 & E0 & E1). rewrite (create_memory_ok _ _ _ _ _ F) in E0 by assumption. injection E0 as <-.
  unfold image_write_row in E1. rewrite row0 in E1 by eauto. cbn [obind i_data i_type i_width i_height i_format] in E1.
  destruct (blk_write_list_end px (blk_new (Z.to_nat (w * h * bpp))) [] (holds_nil _)) as (b & E & H & L).
  { rewrite blk_new_length. cbn [List.length]. lia. }
  change (Z.to_nat 0) with (List.length (@nil N)) in E1. rewrite E in E1. cbn [obind] in E1. injection E1 as <-.
  f_equal. apply holds_exact; [exact H|]. rewrite L, blk_new_length. lia.
Qed.

Lemma memory_image_exists w h f name bpp px : pixel_format f name bpp -> 1 <= w -> 1 <= h ->
  Z.of_nat (List.length px) = w * h * bpp -> w * h * bpp <= 2147483647 -> exists img, memory_image w h f px img.
Proof.
  intros F Hw Hh Hl Hs. unfold memory_image. rewrite (create_memory_ok _ _ _ _ _ F) by assumption.
  destruct (blk_write_list_end px (blk_new (Z.to_nat (w * h * bpp))) [] (holds_nil _)) as (b & E & H & L).
  { rewrite blk_new_length. cbn [List.length]. lia. }
  eexists. eexists. split; [reflexivity|]. unfold image_write_row. rewrite row0 by eauto.
  cbn [obind i_data i_type i_width i_height i_format].
  change (Z.to_nat 0) with (List.length (@nil N)). rewrite E. reflexivity.
Qed.

Lemma blk_read_map {A} (l : list A) : blk_read (map Some l) (List.length l) = Ok l.
Proof. apply blk_read_holds. exists []. now rewrite app_nil_r. Qed.

Lemma b64_no_nul l : bytes_ok l -> no_nul (base64encode l).
Proof.
  intros H Hin. pose proof (encode_chars l H) as E. rewrite forallb_forall in E. specialize (E _ Hin). discriminate.
Qed.

Lemma encodelen_bound n : 0 <= n -> moderate n -> Z.of_nat (base64encodelen (Z.to_nat n)) <= 2133333340.
Proof. unfold moderate, base64encodelen. lia. Qed.

Lemma encode_header_ok header px data : bytes_ok px -> holds data px -> no_nul header -> (List.length header <= 100)%nat ->
  moderate (Z.of_nat (List.length px)) ->
  encode_with_header header data (Z.of_nat (List.length px)) = Ok (header ++ rfc_encode px).
Proof.
  intros Hb Hd Hh Hl Hm. unfold encode_with_header. replace (Z.of_nat _ <? 0) with false by lia.
  pose proof (encodelen_bound (Z.of_nat (List.length px)) ltac:(lia) Hm) as HB.
  rewrite Nat2Z.id in *. rewrite int_ok by lia. cbn [obind]. rewrite int_ok by lia. cbn [obind].
  set (size := Z.to_nat _).
  assert (Hsize : size = (base64encodelen (List.length px) + List.length header + 1)%nat) by (unfold size; lia).
  clearbody size. subst size.
  assert (Hlen : List.length (base64encode px ++ [0%N]) = base64encodelen (List.length px)).
  { rewrite app_length. apply encode_stored_len. }
  destruct (blk_write_list_end (header ++ [0%N]) (blk_new (base64encodelen (List.length px) + List.length header + 1)) [] (holds_nil _)) as (b0 & E0 & H0 & L0).
  { rewrite blk_new_length, app_length. cbn. lia. }
  cbn [List.length] in E0. rewrite E0. cbn [obind app] in *. rewrite blk_new_length in L0.
  rewrite (blk_read_holds px data Hd). cbn [obind].
  destruct (blk_write_list_end (base64encode px ++ [0%N]) b0 header) as (b1 & E1 & H1 & L1).
  { now apply (holds_prefix b0 header [0%N]). }
  { rewrite L0, Hlen. lia. }
  rewrite E1. cbn [obind]. rewrite app_assoc in H1. rewrite (blk_string_holds (header ++ base64encode px)); [| |exact H1].
  - now rewrite encode_rfc.
  - apply no_nul_app; [exact Hh|now apply b64_no_nul].
Qed.

Lemma digits_no_nul s : forallb is_digit s = true -> no_nul s.
Proof. rewrite forallb_forall. intros H Hin. specialize (H _ Hin). discriminate. Qed.

Lemma print_pos z : 1 <= z -> print_Z z = print_N (Z.abs_N z).
Proof. intros H. unfold print_Z. now replace (z <? 0) with false by lia. Qed.

Lemma print_Z_no_nul z : 1 <= z -> no_nul (print_Z z).
Proof. intros H. rewrite print_pos by exact H. apply digits_no_nul, print_N_digits. Qed.

Lemma strtol_print z r : 1 <= z <= INT_MAX -> match r with c :: _ => is_digit c = false | [] => True end ->
  strtol (print_Z z ++ r) = (z, r).
Proof.
  intros Hz Hr. rewrite print_pos by lia. unfold strtol.
  pose proof (print_N_digits (Z.abs_N z)) as Hd. pose proof (print_N_nonempty (Z.abs_N z)) as Hn.
  pose proof (print_N_val (Z.abs_N z)) as Hv.
  destruct (print_N (Z.abs_N z)) as [|c ds] eqn:E; [congruence|].
  assert (Hc : is_digit c = true) by (cbn in Hd; now apply andb_true_iff in Hd as [? _]).
  cbn [app span]. rewrite (digit_not_space c Hc). cbn [snd read_sign].
  replace ((c =? 45)%N) with false by (unfold is_digit in Hc; lia).
  replace ((c =? 43)%N) with false by (unfold is_digit in Hc; lia).
  change (c :: ds ++ r) with ((c :: ds) ++ r). rewrite span_app by assumption.
  rewrite Hv. unfold LONG_MIN, LONG_MAX, INT_MAX in *. f_equal. lia.
Qed.

Lemma int_of_long_id z : 1 <= z <= INT_MAX -> int_of_long z = z.
Proof. unfold int_of_long, INT_MAX. lia. Qed.

Lemma strntok_app a r n : strntok (a ++ [59%N]) 59 n = Some (a, []) -> strntok (a ++ [59%N] ++ r) 59 n = Some (a, r).
Proof.
  revert n. induction a as [|c a IH]; intros n; (destruct n as [|n]; [discriminate|]).
  - reflexivity.
  - cbn [app strntok]. destruct (c =? 59)%N; [discriminate|].
    destruct (strntok (a ++ [59%N]) 59 n) as [[x y]|] eqn:E; [|discriminate]. intros [= -> ->].
    cbn [app] in IH. now rewrite (IH n E).
Qed.

Definition memory_text (w h : Z) (name px : list N) : list N :=
  str "image:" ++ print_Z w ++ [59%N] ++ print_Z h ++ [59%N] ++ name ++ [59%N] ++ rfc_encode px.

Lemma print_Z_len z : 1 <= z <= INT_MAX -> (List.length (print_Z z) <= 11)%nat.
Proof. intros H. apply print_Z_length. unfold in_int, INT_MIN, INT_MAX in *. lia. Qed.

Lemma size_bounds w h bpp : 1 <= w -> 1 <= h -> 1 <= bpp -> moderate (w * h * bpp) -> w <= INT_MAX /\ h <= INT_MAX /\ 1 <= w * h * bpp.
Proof.
  unfold moderate, INT_MAX. intros. assert (1 <= w * h) by nia. assert (w * h <= 1600000000) by (apply (mul_le_right _ bpp); lia).
  repeat split; nia.
Qed.

Lemma encode_memory w h f name bpp px : pixel_format f name bpp -> 1 <= w -> 1 <= h -> bytes_ok px ->
  Z.of_nat (List.length px) = w * h * bpp -> moderate (w * h * bpp) ->
  image_encode (mkImage TRAX_IMAGE_MEMORY w h f (map Some px)) = Ok (Some (memory_text w h name px)).
Proof.
  intros F Hw Hh Hb Hl Hm. destruct (pixel_format_facts _ _ _ F) as (_ & En & Hbpp & _ & _ & _ & _ & Hln & Hnn & _).
  destruct (size_bounds w h bpp Hw Hh ltac:(lia) Hm) as (Hw2 & Hh2 & _).
  unfold image_encode. cbn [i_type i_data i_width i_height i_format].
  change (TRAX_IMAGE_MEMORY =? TRAX_IMAGE_PATH) with false. change (TRAX_IMAGE_MEMORY =? TRAX_IMAGE_URL) with false.
  change (TRAX_IMAGE_MEMORY =? TRAX_IMAGE_MEMORY) with true. cbv iota.
  rewrite (memory_size_ok _ _ _ _ _ F) by (unfold moderate in Hm; lia). cbn [obind]. rewrite En, <- Hl.
  rewrite (encode_header_ok _ px).
  - unfold memory_text. cbn [obind]. now rewrite <- !app_assoc.
  - exact Hb.
  - exists []. now rewrite app_nil_r.
  - repeat apply no_nul_app; try (apply forallb_no_nul; reflexivity); try (apply print_Z_no_nul; assumption). exact Hnn.
  - pose proof (print_Z_len w ltac:(lia)). pose proof (print_Z_len h ltac:(lia)). rewrite !app_length. cbn. lia.
  - now rewrite Hl.
Qed.

Lemma decode_memory_text slack w h f name bpp px : pixel_format f name bpp -> 1 <= w -> 1 <= h -> bytes_ok px ->
  Z.of_nat (List.length px) = w * h * bpp -> moderate (w * h * bpp) ->
  image_decode slack (memory_text w h name px) =
    d <- blk_write_list (blk_new (List.length px + slack)) 0 (px ++ [0%N]) ;; Ok (Some (mkImage TRAX_IMAGE_MEMORY w h f d)).
Proof.
  intros F Hw Hh Hb Hl Hm. destruct (pixel_format_facts _ _ _ F) as (_ & _ & Hbpp & _ & _ & Etok & Efmt & _).
  destruct (size_bounds w h bpp Hw Hh ltac:(lia) Hm) as (Hw2 & Hh2 & Hpos).
  unfold image_decode, memory_text.
  assert (E : forall r, parse_uri (str "image:" ++ r) = Some (str "image", r)).
  { intros r. apply parse_uri_spec. split; [reflexivity|]. split; [cbn; lia|]. cbn. intros c H.
    repeat (destruct H as [<-|H]; [lia|]). destruct H. }
  rewrite E. change (bytes_eqb (str "image") (str "file")) with false.
  change (bytes_eqb (str "image") (str "image")) with true. cbv iota.
  unfold decode_memory. rewrite strtol_print by (cbn; auto; lia). cbn [app].
  change ((59 =? 59)%N) with true. cbv iota.
  rewrite strtol_print by (cbn; auto; lia). cbn [app]. change ((59 =? 59)%N) with true. cbv iota.
  change (name ++ 59%N :: rfc_encode px) with (name ++ [59%N] ++ rfc_encode px).
  rewrite (strntok_app name (rfc_encode px) 32 Etok), Efmt.
  rewrite <- encode_rfc by exact Hb.
  assert (Hne : px <> []) by (intros ->; cbn in Hl; lia).
  rewrite decodelen_encode by assumption. cbn [obind].
  rewrite !int_of_long_id by lia. rewrite (memory_size_ok _ _ _ _ _ F) by (unfold moderate in Hm; lia). cbn [obind].
  replace ((w <? 1) || (h <? 1) || negb (Z.of_nat (List.length px) + 1 - 1 =? w * h * bpp)) with false by lia.
  rewrite decode_encode by exact Hb. rewrite <- Hl, Nat2Z.id.
  destruct (blk_write_list _ _ _) as [d| | |]; cbn [obind]; try reflexivity.
  now rewrite Z.eqb_refl.
Qed.

Lemma shows_map w h f px d : 1 <= h -> (exists name bpp, pixel_format f name bpp) -> holds d px ->
  shows_pixels (mkImage TRAX_IMAGE_MEMORY w h f d) w h f px.
Proof.
  intros Hh F Hd. split; [reflexivity|]. unfold image_read_row. rewrite row0 by auto. cbn [obind i_data].
  change (skipn (Z.to_nat 0) d) with d. now apply blk_read_holds.
Qed.

Lemma memory_round_trip slack w h f name bpp px img : pixel_format f name bpp -> 1 <= w -> 1 <= h -> bytes_ok px ->
  Z.of_nat (List.length px) = w * h * bpp -> moderate (w * h * bpp) -> memory_image w h f px img ->
  exists text, image_encode img = Ok (Some text) /\
    (exists img', image_decode (S slack) text = Ok (Some img') /\ shows_pixels img' w h f px) /\
    image_decode 0 text = UB.
Proof.
  intros F Hw Hh Hb Hl Hm Himg.
  apply (memory_image_inv w h f name bpp px img F Hw Hh Hl ltac:(unfold moderate in Hm; lia)) in Himg as ->.
  exists (memory_text w h name px). split; [now apply (encode_memory w h f name bpp)|].
  rewrite !(fun s => decode_memory_text s w h f name bpp px F) by assumption. split.
  - destruct (blk_write_list_end (px ++ [0%N]) (blk_new (List.length px + S slack)) [] (holds_nil _)) as (b & E & H & L).
    { rewrite blk_new_length, app_length. cbn. lia. }
    cbn [List.length app] in E, H. rewrite E. cbn [obind]. eexists. split; [reflexivity|].
    apply shows_map; eauto. now apply holds_prefix in H.
  - rewrite write_too_long; [reflexivity|lia|]. rewrite blk_new_length, app_length. cbn. lia.
Qed.

Lemma memory_documented w h f name bpp px img : pixel_format f name bpp -> 1 <= w -> 1 <= h -> bytes_ok px ->
  Z.of_nat (List.length px) = w * h * bpp -> moderate (w * h * bpp) -> memory_image w h f px img ->
  exists tw th, int_text tw w /\ int_text th h /\
    image_encode img = Ok (Some (str "image:" ++ tw ++ str ";" ++ th ++ str ";" ++ name ++ str ";" ++ rfc_encode px)).
Proof.
  intros F Hw Hh Hb Hl Hm Himg.
  apply (memory_image_inv w h f name bpp px img F Hw Hh Hl ltac:(unfold moderate in Hm; lia)) in Himg as ->.
  exists (print_Z w), (print_Z h). split; [apply print_Z_int_text|]. split; [apply print_Z_int_text|].
  rewrite (encode_memory w h f name bpp) by assumption. reflexivity.
Qed.

(** Decoding a raw image never succeeds within the memory asked for. *)
Lemma decode_loop_rest n s : (n <= List.length s)%nat ->
  Z.land (4 - Z.of_nat (snd (decode_loop n s))) 3 = (- Z.of_nat n) mod 4.
Proof.
  assert (Hsmall : forall k, (k <= 4)%nat -> Z.land (4 - Z.of_nat k) 3 = (- Z.of_nat k) mod 4).
  { intros k Hk. do 5 (destruct k as [|k]; [reflexivity|]). lia. }
  revert n. induction s as [|a|a b|a b c|a b c d l IH] using list_ind4; intros n Hn; cbn [List.length] in Hn;
    try (unfold decode_loop; replace (Nat.ltb 4 n) with false by lia; cbn [snd]; apply Hsmall; lia).
  cbn [decode_loop]. destruct (Nat.ltb 4 n) eqn:E.
  - specialize (IH (n - 4)%nat ltac:(lia)). destruct (decode_loop (n - 4) l) as [out m]. cbn [snd] in *. rewrite IH.
    rewrite Nat2Z.inj_sub by lia. lia.
  - cbn [snd]. apply Hsmall. lia.
Qed.

Lemma decode_stored_ret s : Z.of_nat (List.length (fst (base64decode s))) = snd (base64decode s) + 1.
Proof.
  pose proof (decode_stored s) as H. pose proof (decode_loop_rest (nprbytes s) s (nprbytes_le s)) as R.
  unfold base64decode in *. destruct (decode_loop (nprbytes s) s) as [out m]. cbn [fst snd] in *. rewrite R, H.
  clear. lia.
Qed.

Lemma memory_size_nonneg w h f n : 1 <= w -> 1 <= h -> memory_size w h f = Ok n -> 0 <= n.
Proof.
  intros Hw Hh. unfold memory_size, int_result. destruct (in_int (w * h)); [|discriminate]. cbn [obind].
  destruct (in_int (w * h * memory_depth f)); [|discriminate]. cbn [obind].
  destruct (in_int _); [|discriminate]. intros [= <-].
  assert (0 <= memory_depth f) by (unfold memory_depth; destruct (_ =? _); [lia|destruct (_ =? _); [lia|destruct (_ =? _); lia]]).
  assert (0 <= memory_channels f) by (unfold memory_channels; destruct (_ =? _); lia).
  assert (0 <= w * h) by nia. apply Z.mul_nonneg_nonneg; [apply Z.mul_nonneg_nonneg; assumption|assumption].
Qed.

Lemma memory_decode_fails r img : decode_memory 0 r <> Ok (Some img).
Proof.
  unfold decode_memory. destruct (strtol r) as [w r1]. destruct r1 as [|c1 r1]; [discriminate|].
  destruct (c1 =? 59)%N; [|discriminate]. destruct (strtol r1) as [h r2]. destruct r2 as [|c2 r2]; [discriminate|].
  destruct (c2 =? 59)%N; [|discriminate]. destruct (strntok r2 59 32) as [[t x]|]; [|discriminate].
  destruct (base64decodelen x) as [dl| | |]; cbn [obind]; try discriminate.
  destruct (memory_size _ _ _) as [al| | |] eqn:Eal; cbn [obind]; try discriminate.
  destruct (_ || _ || _) eqn:Ec; [discriminate|].
  assert (0 <= al) by (apply memory_size_nonneg in Eal; [exact Eal|lia|lia]).
  pose proof (decode_stored_ret x) as Hs. destruct (base64decode x) as [bs v]. cbn [fst snd] in Hs.
  destruct (blk_write_list _ _ _) as [d| | |] eqn:Ew; cbn [obind]; try discriminate.
  destruct (v =? al) eqn:Ev; [|discriminate]. exfalso.
  rewrite write_too_long in Ew; [discriminate|lia|]. rewrite blk_new_length. lia.
Qed.

Lemma memory_text_fails r img : image_decode 0 (str "image:" ++ r) <> Ok (Some img).
Proof.
  unfold image_decode.
  assert (E : parse_uri (str "image:" ++ r) = Some (str "image", r)).
  { apply parse_uri_spec. split; [reflexivity|]. split; [cbn; lia|]. cbn. intros c H.
    repeat (destruct H as [<-|H]; [lia|]). destruct H. }
  rewrite E. change (bytes_eqb (str "image") (str "file")) with false.
  change (bytes_eqb (str "image") (str "image")) with true. cbv iota. apply memory_decode_fails.
Qed.

(** ---- Image files in memory ---- *)
Lemma file_format_facts f name sig : file_format f name sig ->
  (forall d, verify_image_format (sig ++ d) = Ok f) /\ (f =? TRAX_IMAGE_BUFFER_ILLEGAL) = false /\
  buffer_format_name f = Some name /\ strntok (name ++ [59%N]) 59 32 = Some (name, []) /\ decode_buffer_format name = f /\
  (List.length name <= 10)%nat /\ no_nul name /\ List.length sig = 4%nat.
Proof.
  intros []; repeat match goal with |- _ /\ _ => split end; try reflexivity; try (cbn; lia); apply forallb_no_nul; reflexivity.
Qed.

Lemma create_buffer_ok f name sig d : file_format f name sig -> d <> [] ->
  image_create_buffer (Z.of_nat (List.length (sig ++ d))) (sig ++ d) =
    Ok (mkImage TRAX_IMAGE_BUFFER (Z.of_nat (List.length (sig ++ d))) 1 f (map Some (sig ++ d))).
Proof.
  intros F Hd. destruct (file_format_facts _ _ _ F) as (Ev & Ei & _ & _ & _ & _ & _ & Hl).
  unfold image_create_buffer. replace (4 <? _) with true.
  2:{ rewrite app_length, Hl. destruct d; [congruence|]. cbn [List.length]. lia. }
  rewrite Ev. cbn [obind]. rewrite Ei. rewrite Nat2Z.id, blk_read_map. cbn [obind].
  destruct (blk_write_list_end (sig ++ d) (blk_new (List.length (sig ++ d))) [] (holds_nil _)) as (b & E & H & L).
  { rewrite blk_new_length. cbn [List.length]. lia. }
  cbn [List.length app] in E. rewrite E. cbn [obind]. do 2 f_equal. apply holds_exact; [exact H|]. now rewrite L, blk_new_length.
Qed.

Lemma encode_buffer f name sig data : file_format f name sig -> bytes_ok data -> moderate (Z.of_nat (List.length data)) ->
  image_encode (mkImage TRAX_IMAGE_BUFFER (Z.of_nat (List.length data)) 1 f (map Some data)) =
    Ok (Some (str "data:" ++ name ++ [59%N] ++ rfc_encode data)).
Proof.
  intros F Hb Hm. destruct (file_format_facts _ _ _ F) as (_ & _ & En & _ & _ & Hln & Hnn & _).
  unfold image_encode. cbn [i_type i_data i_width i_height i_format].
  change (TRAX_IMAGE_BUFFER =? TRAX_IMAGE_PATH) with false. change (TRAX_IMAGE_BUFFER =? TRAX_IMAGE_URL) with false.
  change (TRAX_IMAGE_BUFFER =? TRAX_IMAGE_MEMORY) with false. change (TRAX_IMAGE_BUFFER =? TRAX_IMAGE_BUFFER) with true. cbv iota.
  rewrite En, (encode_header_ok _ data).
  - cbn [obind]. now rewrite <- !app_assoc.
  - exact Hb.
  - exists []. now rewrite app_nil_r.
  - repeat apply no_nul_app; try (apply forallb_no_nul; reflexivity). exact Hnn.
  - rewrite !app_length. cbn. lia.
  - exact Hm.
Qed.

Lemma parse_data r : parse_uri (str "data:" ++ r) = Some (str "data", r).
Proof.
  apply parse_uri_spec. split; [reflexivity|]. split; [cbn; lia|]. cbn. intros c H.
  repeat (destruct H as [<-|H]; [lia|]). destruct H.
Qed.

Lemma decode_data slack r : image_decode slack (str "data:" ++ r) = decode_buffer slack r.
Proof.
  unfold image_decode. rewrite parse_data. change (bytes_eqb (str "data") (str "file")) with false.
  change (bytes_eqb (str "data") (str "image")) with false. change (bytes_eqb (str "data") (str "data")) with true. reflexivity.
Qed.

Lemma decode_buffer_text slack f name sig data : file_format f name sig -> bytes_ok data -> data <> [] ->
  exists d, image_decode slack (str "data:" ++ name ++ [59%N] ++ rfc_encode data) =
      Ok (Some (mkImage TRAX_IMAGE_BUFFER (Z.of_nat (List.length data) + 1) 1 f d)) /\ holds d (data ++ [0%N]).
Proof.
  intros F Hb Hne. destruct (file_format_facts _ _ _ F) as (_ & _ & _ & Etok & Efmt & _).
  rewrite decode_data. unfold decode_buffer. rewrite (strntok_app name (rfc_encode data) 32 Etok), Efmt.
  rewrite <- encode_rfc, decodelen_encode, decode_encode by assumption. cbn [obind fst].
  destruct (blk_write_list_end (data ++ [0%N]) (blk_new (Z.to_nat (Z.of_nat (List.length data) + 1) + slack)) [] (holds_nil _)) as (b & E & H & L).
  { rewrite blk_new_length, app_length. cbn. lia. }
  cbn [List.length app] in E, H. rewrite E. cbn [obind]. eauto.
Qed.

Lemma buffer_round_trip slack f name sig d img : file_format f name sig -> bytes_ok (sig ++ d) -> d <> [] ->
  moderate (Z.of_nat (List.length (sig ++ d))) ->
  image_create_buffer (Z.of_nat (List.length (sig ++ d))) (sig ++ d) = Ok img ->
  exists text img', image_encode img = Ok (Some text) /\ image_decode slack text = Ok (Some img') /\
    text = str "data:" ++ name ++ str ";" ++ rfc_encode (sig ++ d) /\
    image_get_buffer img' = Ok (Z.of_nat (List.length (sig ++ d)) + 1, f, (sig ++ d) ++ [0%N]).
Proof.
  intros F Hb Hd Hm E. rewrite (create_buffer_ok f name sig d F Hd) in E. injection E as <-.
  destruct (decode_buffer_text slack f name sig (sig ++ d) F Hb) as (b & Eb & Hh).
  { destruct sig; [destruct d; [congruence|discriminate]|discriminate]. }
  eexists. eexists. split; [now apply (encode_buffer f name sig)|]. split; [exact Eb|]. split; [reflexivity|].
  unfold image_get_buffer. cbn [i_type i_width i_format i_data].
  change (TRAX_IMAGE_BUFFER =? TRAX_IMAGE_BUFFER) with true. cbv iota.
  replace (Z.to_nat (Z.of_nat (List.length (sig ++ d)) + 1)) with (List.length ((sig ++ d) ++ [0%N])) by (rewrite (app_length (sig ++ d)); cbn; lia).
  rewrite (blk_read_holds _ b Hh). reflexivity.
Qed.

(** ---- Rows ---- *)
Lemma row_offset w h f name bpp d row : pixel_format f name bpp -> 1 <= w -> 0 <= row < h -> w * h * bpp <= 2147483647 ->
  image_memory_row (mkImage TRAX_IMAGE_MEMORY w h f d) row = Ok (bpp * row).
Proof.
  intros F Hw Hr Hs. destruct (pixel_format_facts _ _ _ F) as (Ebpp & _ & Hb & _).
  unfold image_memory_row. cbn [i_type i_height i_format]. change (TRAX_IMAGE_MEMORY =? TRAX_IMAGE_MEMORY) with true. cbv iota.
  replace ((0 <=? row) && (row <? h)) with true by lia. rewrite Ebpp, int_ok by lia. cbn [obind].
  assert (h <= w * h) by nia. assert (row * bpp <= w * h * bpp) by nia. rewrite int_ok by nia. reflexivity.
Qed.

Lemma row_in_memory w h f name bpp img row : pixel_format f name bpp -> 1 <= w -> 0 <= row < h -> w * h * bpp <= 2147483647 ->
  image_create_memory w h f = Ok img ->
  exists off, image_memory_row img row = Ok off /\ 0 <= off /\ off + w * bpp <= w * h * bpp /\ off = bpp * row.
Proof.
  intros F Hw Hr Hs E. rewrite (create_memory_ok w h f name bpp F) in E by lia. injection E as <-.
  rewrite (row_offset w h f name bpp) by assumption. exists (bpp * row). split; [reflexivity|].
  destruct (pixel_format_facts _ _ _ F) as (_ & _ & Hb & _).
  split; [nia|]. split; [|reflexivity]. assert (row <= w * (h - 1)) by nia. nia.
Qed.

Lemma rows_width1 h f name bpp img r1 r2 : pixel_format f name bpp -> 0 <= r1 < h -> 0 <= r2 < h -> r1 < r2 ->
  1 * h * bpp <= 2147483647 -> image_create_memory 1 h f = Ok img ->
  exists o1 o2, image_memory_row img r1 = Ok o1 /\ image_memory_row img r2 = Ok o2 /\ o1 + 1 * bpp <= o2 /\
    (r2 = h - 1 -> o2 + 1 * bpp = 1 * h * bpp).
Proof.
  intros F H1 H2 Hlt Hs E.
  destruct (row_in_memory 1 h f name bpp img r1 F ltac:(lia) H1 Hs E) as (o1 & E1 & _ & _ & ->).
  destruct (row_in_memory 1 h f name bpp img r2 F ltac:(lia) H2 Hs E) as (o2 & E2 & _ & _ & ->).
  exists (bpp * r1), (bpp * r2). destruct (pixel_format_facts _ _ _ F) as (_ & _ & Hb & _).
  split; [exact E1|]. split; [exact E2|]. split; [nia|]. intros ->. lia.
Qed.

Lemma rows_overlap w h f name bpp img row : pixel_format f name bpp -> 2 <= w -> 0 <= row -> row + 1 < h -> w * h * bpp <= 2147483647 ->
  image_create_memory w h f = Ok img ->
  exists o1 o2 i, image_memory_row img row = Ok o1 /\ image_memory_row img (row + 1) = Ok o2 /\
    in_row o1 (w * bpp) i /\ in_row o2 (w * bpp) i.
Proof.
  intros F Hw H1 H2 Hs E.
  destruct (row_in_memory w h f name bpp img row F ltac:(lia) ltac:(lia) Hs E) as (o1 & E1 & _ & _ & ->).
  destruct (row_in_memory w h f name bpp img (row + 1) F ltac:(lia) ltac:(lia) Hs E) as (o2 & E2 & _ & _ & ->).
  destruct (pixel_format_facts _ _ _ F) as (_ & _ & Hb & _).
  exists (bpp * row), (bpp * (row + 1)), (bpp * (row + 1)). split; [exact E1|]. split; [exact E2|].
  unfold in_row. split; nia.
Qed.

(** ---- Arbitrary texts ---- *)
Lemma decodelen_defined s : (4 <= List.length s)%nat -> exists L, base64decodelen s = Ok L.
Proof.
  intros H. unfold base64decodelen. rewrite <- rev_length in H. destruct (rev s) as [|a [|b r]]; cbn in H; try lia.
  destruct (a =? c_eq)%N; eauto.
Qed.

Lemma strntok_inv n : forall r t b, strntok r 59 n = Some (t, b) -> r = t ++ [59%N] ++ b.
Proof.
  induction n as [|n IH]; intros r t b Et; (destruct r as [|c r]; cbn [strntok] in Et; [discriminate|]); [discriminate|]. destruct (c =? 59)%N eqn:Ec.
  - injection Et as <- <-. apply N.eqb_eq in Ec as ->. reflexivity.
  - destruct (strntok r 59 n) as [[x y]|] eqn:E; [|discriminate]. injection Et as <- <-. cbn [app]. f_equal. now apply IH.
Qed.

Lemma decode_safe slack text : no_nul text ->
  (forall r, text <> str "image:" ++ r) ->
  (forall t b, text = str "data:" ++ t ++ str ";" ++ b -> (List.length b mod 4 = 0)%nat /\ b <> []) ->
  exists r, image_decode slack text = Ok r.
Proof.
  intros Hn Hi Hd. destruct (parse_uri text) as [[s r]|] eqn:E.
  2:{ unfold image_decode. rewrite E, path_image. cbn [obind]. eauto. }
  pose proof (proj1 (parse_uri_spec s r text) E) as Hs.
  destruct (list_eq_dec N.eq_dec s (str "file")) as [->|H1].
  { destruct Hs as (-> & _). change (str "file" ++ [58%N] ++ r) with (str "file:" ++ r). rewrite decode_file. eauto. }
  destruct (list_eq_dec N.eq_dec s (str "image")) as [->|H2].
  { destruct Hs as (-> & _). now elim (Hi r). }
  destruct (list_eq_dec N.eq_dec s (str "data")) as [->|H3].
  2:{ rewrite (decode_url slack s r text) by assumption. eauto. }
  destruct Hs as (-> & _). change (str "data" ++ [58%N] ++ r) with (str "data:" ++ r) in *. rewrite decode_data.
  unfold decode_buffer. destruct (strntok r 59 32) as [[t b]|] eqn:Et; [|eauto].
  assert (Er : r = t ++ [59%N] ++ b).
  { exact (strntok_inv _ _ _ _ Et). }
  subst r. destruct (Hd t b eq_refl) as [H4 Hne].
  destruct (decodelen_defined b) as [L EL].
  { destruct b as [|x1 [|x2 [|x3 [|x4 b]]]]; try congruence; cbn in H4; try discriminate; cbn [List.length]; lia. }
  rewrite EL. cbn [obind]. pose proof (decode_fits b L EL (or_introl H4)) as Hf.
  destruct (blk_write_list_end (fst (base64decode b)) (blk_new (Z.to_nat L + slack)) [] (holds_nil _)) as (m & Em & _).
  { rewrite blk_new_length. cbn [List.length]. lia. }
  cbn [List.length] in Em. rewrite Em. cbn [obind]. eauto.
Qed.

Lemma exif_aborts d : image_create_buffer (Z.of_nat (List.length ([255; 216; 255; 225]%N ++ d))) ([255; 216; 255; 225]%N ++ d) = Abort.
Proof. unfold image_create_buffer. destruct (4 <? _); reflexivity. Qed.

Lemma data_text_no_marker : exists img, image_create_buffer 6 [137; 80; 78; 71; 13; 10]%N = Ok img /\
  forall body, image_encode img <> Ok (Some (str "data:image/png;base64;" ++ body)).
Proof. eexists. split; [reflexivity|]. intros body H. vm_compute in H. discriminate H. Qed.
