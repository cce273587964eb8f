(** Proofs about images and masks of the Python bindings *)
From Coq Require Import Lia.
From Verif Require Import CBase Buffer BufferSpec BufferProofs Num Region RegionGeom Image ImageSpec ImageProofs GeomProofs OverlapProofs
  PyText PyTextSpec PyTextProofs PyArrays PyArraysSpec.
Local Open Scope Z_scope.

(** ---- Arrays ---- *)

Lemma nth_error_firstn {A} n : forall (l : list A) k, (k < n)%nat -> nth_error (firstn n l) k = nth_error l k.
Proof. induction n as [|n IH]; intros [|x l] [|k] H; cbn; try lia; try reflexivity. apply IH. lia. Qed.
Lemma nth_error_skipn {A} n : forall (l : list A) k, nth_error (skipn n l) k = nth_error l (n + k)%nat.
Proof. induction n as [|n IH]; intros [|x l] k; cbn; try reflexivity; [now destruct k|apply IH]. Qed.
Lemma load_ok m off n : 0 <= off -> 0 <= n -> off + n <= Z.of_nat (List.length m) ->
  exists l, load m off n = Ok l /\ List.length l = Z.to_nat n /\ forall k, 0 <= k < n -> nth_error l (Z.to_nat k) = nth_error m (Z.to_nat (off + k)).
Proof.
  intros H0 Hn H. unfold load. replace (0 <=? off) with true by (symmetry; lia). replace (0 <=? n) with true by (symmetry; lia).
  replace (off + n <=? Z.of_nat (List.length m)) with true by (symmetry; lia). cbn [andb]. eexists. split; [reflexivity|]. split.
  - rewrite firstn_length, skipn_length. lia.
  - intros k Hk. rewrite nth_error_firstn by lia. rewrite nth_error_skipn. f_equal. lia.
Qed.
Lemma size_nonneg shape idx : inside shape idx -> 0 < size shape.
Proof. induction 1 as [|n i shape idx Hi _ IH]; [reflexivity|]. cbn [size fold_right]. fold (size shape). nia. Qed.
Lemma collect_ok m n : forall i0 f, (forall i, 0 <= i < Z.of_nat n -> exists b, f (i0 + i) = Ok b /\ List.length b = Z.to_nat m) -> 0 <= m ->
  exists l, collect (count_from n i0) f = Ok l /\ List.length l = Z.to_nat (Z.of_nat n * m) /\
    forall i b, 0 <= i < Z.of_nat n -> f (i0 + i) = Ok b -> forall j, 0 <= j < m ->
      nth_error l (Z.to_nat (i * m + j)) = nth_error b (Z.to_nat j).
Proof.
  induction n as [|n IH]; intros i0 f H Hm.
  - exists []. split; [reflexivity|]. split; [reflexivity|]. intros i b Hi. lia.
  - cbn [count_from collect]. destruct (H 0 ltac:(lia)) as (b0 & E0 & L0). rewrite Z.add_0_r in E0. rewrite E0. cbn [obind].
    destruct (IH (i0 + 1) f) as (l & E & L & G).
    { intros i Hi. replace (i0 + 1 + i) with (i0 + (i + 1)) by lia. apply H. lia. }
    { exact Hm. }
    rewrite E. cbn [obind]. eexists. split; [reflexivity|]. split.
    + rewrite app_length, L0, L. replace (Z.of_nat (S n) * m) with (m + Z.of_nat n * m) by nia. rewrite Z2Nat.inj_add by nia. reflexivity.
    + intros i b Hi Eb j Hj. destruct (Z.eq_dec i 0) as [->|N].
      * rewrite Z.add_0_r, E0 in Eb. injection Eb as <-. rewrite nth_error_app1 by lia. f_equal.
      * rewrite nth_error_app2 by (rewrite L0; nia). rewrite L0.
        replace (Z.to_nat (i * m + j) - Z.to_nat m)%nat with (Z.to_nat ((i - 1) * m + j)) by nia.
        apply G; [lia| |lia]. replace (i0 + 1 + (i - 1)) with (i0 + i) by lia. exact Eb.
Qed.
(** Position of an element when the last index runs fastest *)
Fixpoint linear (shape idx : list Z) : Z :=
  match shape, idx with
  | _ :: shape', i :: idx' => i * size shape' + linear shape' idx'
  | _, _ => 0
  end.
Lemma linear_bound shape idx : inside shape idx -> 0 <= linear shape idx < size shape.
Proof.
  induction 1 as [|n i shape idx Hi I IH]; [cbn; lia|]. cbn [linear size fold_right]. fold (size shape).
  pose proof (size_nonneg _ _ I). nia.
Qed.
Definition positive (shape : list Z) : Prop := Forall (fun n => 0 < n) shape.
Lemma positive_size shape : positive shape -> 0 < size shape.
Proof. induction 1 as [|n shape Hn _ IH]; [reflexivity|]. cbn [size fold_right]. fold (size shape). nia. Qed.
Lemma positive_inside shape : positive shape -> inside shape (repeat 0 (List.length shape)).
Proof. induction 1 as [|n shape Hn _ IH]; constructor; [lia|exact IH]. Qed.
Lemma elements_ok memory item : 0 < item -> forall shape strides start, positive shape -> List.length strides = List.length shape ->
  (forall idx, inside shape idx -> 0 <= address start strides idx /\ address start strides idx + item <= Z.of_nat (List.length memory)) ->
  exists l, elements memory item shape strides start = Ok l /\ List.length l = Z.to_nat (item * size shape) /\
    forall idx k, inside shape idx -> 0 <= k < item ->
      nth_error l (Z.to_nat (item * linear shape idx + k)) = nth_error memory (Z.to_nat (address start strides idx + k)).
Proof.
  intros Hit. induction shape as [|n shape IH]; intros [|s strides] start Hp Hl Hv; try discriminate Hl.
  - destruct (Hv [] ltac:(constructor)) as [H0 H1]. cbn [address] in H0, H1. destruct (load_ok memory start item H0 ltac:(lia) H1) as (l & E & L & G).
    exists l. split; [exact E|]. split; [rewrite L; cbn [size fold_right]; f_equal; lia|].
    intros idx k Hi Hk. inversion Hi; subst idx. cbn [linear address]. rewrite <- G by exact Hk. f_equal. f_equal. lia.
  - inversion Hp as [|? ? Hn Hp']; subst. injection Hl as Hl.
    assert (Q : forall i, 0 <= i < n -> exists l, elements memory item shape strides (start + i * s) = Ok l /\ List.length l = Z.to_nat (item * size shape) /\
      forall idx k, inside shape idx -> 0 <= k < item ->
      nth_error l (Z.to_nat (item * linear shape idx + k)) = nth_error memory (Z.to_nat (address (start + i * s) strides idx + k))).
    { intros i Hi. apply IH; [exact Hp'|exact Hl|]. intros idx I. apply (Hv (i :: idx)). constructor; [exact Hi|exact I]. }
    pose proof (positive_size _ Hp') as Ps.
    destruct (collect_ok (item * size shape) (Z.to_nat n) 0 (fun i => elements memory item shape strides (start + i * s))) as (l & E & L & G).
    { intros i Hi. destruct (Q i ltac:(lia)) as (b & Eb & Lb & _). exists b. rewrite Z.add_0_l. split; [exact Eb|exact Lb]. }
    { nia. }
    exists l. split; [exact E|]. split.
    { rewrite L. f_equal. cbn [size fold_right]. fold (size shape). nia. }
    intros idx k Hi Hk. inversion Hi as [|? i ? idx' Hin Hi']; subst. cbn [linear address].
    destruct (Q i Hin) as (b & Eb & Lb & Gb). rewrite <- (Gb idx' k Hi' Hk).
    pose proof (linear_bound _ _ Hi') as Bl. rewrite <- (G i b ltac:(lia)).
    + f_equal. f_equal. ring.
    + rewrite Z.add_0_l. exact Eb.
    + nia.
Qed.
Lemma address_contiguous item shape : forall start idx, inside shape idx -> address start (contiguous_strides item shape) idx = start + item * linear shape idx.
Proof.
  induction shape as [|n shape IH]; intros start idx I; inversion I as [|? i ? idx' Hi I']; subst; cbn [contiguous_strides address linear]; [lia|].
  rewrite IH by exact I'. ring.
Qed.
Lemma byte_new k item shape l idx j : inside shape idx -> 0 < item -> 0 <= j ->
  byte (new_array k item shape l) idx j = nth_error l (Z.to_nat (item * linear shape idx + j)).
Proof.
  intros I Hi Hj. unfold byte, new_array. cbn [a_start a_strides a_memory]. rewrite address_contiguous by exact I.
  pose proof (linear_bound _ _ I). rewrite Z.add_0_l. replace (item * linear shape idx + j <? 0) with false by nia. reflexivity.
Qed.
Lemma byte_valid a idx k : valid a -> inside (a_shape a) idx -> 0 <= k ->
  byte a idx k = nth_error (a_memory a) (Z.to_nat (address (a_start a) (a_strides a) idx + k)).
Proof.
  intros (_ & _ & V) I Hk. unfold byte. destruct (V idx I). replace (address _ _ _ + k <? 0) with false by lia. reflexivity.
Qed.
Lemma contiguous_ok a : valid a -> positive (a_shape a) ->
  exists l, ascontiguousarray a = Ok (new_array (a_kind a) (a_item a) (a_shape a) l) /\
    List.length l = Z.to_nat (a_item a * size (a_shape a)) /\
    forall idx k, inside (a_shape a) idx -> 0 <= k < a_item a ->
      nth_error l (Z.to_nat (a_item a * linear (a_shape a) idx + k)) = byte a idx k.
Proof.
  intros V Hp. destruct V as (Vl & Vi & Vv). destruct (elements_ok (a_memory a) (a_item a) Vi _ _ _ Hp Vl Vv) as (l & E & L & G).
  exists l. unfold ascontiguousarray. rewrite E. cbn [obind]. split; [reflexivity|]. split; [exact L|].
  intros idx k I Hk. rewrite (byte_valid a idx k (conj Vl (conj Vi Vv)) I) by lia. apply G; assumption.
Qed.

(** ---- Images ---- *)

Lemma picture_facts a h w ch item f ix : picture a h w ch item f ix ->
  a_item a = item /\ array_format (a_shape a) (a_item a) = f /\ (exists name, pixel_format f name (ch * item)) /\
  format_type f = Some (ch, item) /\ (f =? 0) = false /\ 0 < item /\ 0 < ch /\ (exists tl, a_shape a = h :: w :: tl) /\
  size (a_shape a) = h * (w * ch) /\ (0 < h -> 0 < w -> positive (a_shape a)) /\
  (forall y x c, 0 <= y < h -> 0 <= x < w -> 0 <= c < ch -> inside (a_shape a) (ix y x c) /\ linear (a_shape a) (ix y x c) = y * (w * ch) + (x * ch + c)).
Proof.
  intros P. destruct P as [a h w K It Sh|a h w K It Sh|a h w K It Sh|a h w K It Sh|a h w K It Sh]; rewrite Sh, It;
    (split; [reflexivity|]; split; [reflexivity|]; split; [eexists; constructor|]; split; [reflexivity|]; split; [reflexivity|];
     split; [lia|]; split; [lia|]; split; [eexists; reflexivity|]; split; [cbn [size fold_right]; ring|]; split;
     [intros Hh Hw; repeat (constructor; [lia|]); constructor|]; intros y x c Hy Hx Hc; split; [repeat (constructor; [lia|]); constructor|
     cbn [linear size fold_right]; try (assert (c = 0) by lia; subst c); ring]).
Qed.
Lemma c_int_id z : 1 <= z <= INT_MAX -> c_int z = z.
Proof. exact (int_of_long_id z). Qed.
Lemma blk_read_all {A} (l : list A) n : n = List.length l -> blk_read (map Some l) n = Ok l.
Proof. intros ->. apply blk_read_map. Qed.
Lemma memory_lemma a h w ch item f ix : picture a h w ch item f ix -> valid a -> 1 <= h -> 1 <= w -> h * w * (ch * item) <= INT_MAX ->
  exists im b, memory_image_create a = ret im /\ image_get_memory_header im = Ok (w, h, f) /\ memory_image_array im = ret b /\
    a_kind b = KUInt /\ a_item b = item /\ a_shape b = [h; w; ch] /\
    forall y x c k, 0 <= y < h -> 0 <= x < w -> 0 <= c < ch -> 0 <= k < item ->
      pixel_byte im (((y * w + x) * ch + c) * item + k) = byte a (ix y x c) k /\ byte b [y; x; c] k = byte a (ix y x c) k.
Proof.
  intros P V Hh Hw Hs. destruct (picture_facts _ _ _ _ _ _ _ P) as (It & Af & (name & Pf) & Ft & F0 & Hi & Hc & (tl & Sh) & Sz & Pp & Ix).
  destruct (contiguous_ok a V (Pp ltac:(lia) ltac:(lia))) as (l & E & L & G).
  assert (Ll : Z.of_nat (List.length l) = w * h * (ch * item)).
  { rewrite L, It, Sz. assert (0 <= item * (h * (w * ch))) by (clear -Hi Hc Hh Hw; assert (0 <= w * ch) by nia; assert (0 <= h * (w * ch)) by nia; nia).
    rewrite Z2Nat.id by assumption. ring. }
  assert (B : 1 <= h <= INT_MAX /\ 1 <= w <= INT_MAX).
  { assert (1 <= ch * item) by nia. assert (h * w <= INT_MAX) by nia. clear -H0 Hh Hw. nia. }
  assert (Sb : w * h * (ch * item) <= 2147483647) by (unfold INT_MAX in Hs; replace (w * h) with (h * w) by ring; exact Hs).
  set (im := mkImage TRAX_IMAGE_MEMORY w h f (map Some l)).
  assert (Ec : memory_image_create a = ret im).
  { unfold memory_image_create. rewrite E. unfold pbind, lift. cbn [obind new_array a_shape a_item]. rewrite Sh.
    rewrite <- Sh, Af, F0, !c_int_id by tauto. rewrite (create_memory_ok _ _ _ _ _ Pf Hw Hh Sb). cbn [obind].
    rewrite row0 by (try reflexivity; eauto). cbn [obind a_memory a_start].
    unfold nbytes. unfold load, new_array. cbn [a_item a_shape a_start a_memory]. rewrite It, Sz. replace (item * (h * (w * ch))) with (w * h * (ch * item)) by ring.
    rewrite <- Ll. replace (0 <=? Z.of_nat (List.length l)) with true by (symmetry; lia). rewrite Z.add_0_l, !Z.leb_refl. cbn [andb obind].
    rewrite Nat2Z.id. change (Z.to_nat 0) with 0%nat. cbn [skipn]. rewrite firstn_all. cbn [i_data].
    destruct (blk_write_list_end l (blk_new (Datatypes.length l)) [] (holds_nil _)) as (b & Eb & Hb & Lb).
    { rewrite blk_new_length. cbn [List.length]. lia. }
    cbn [List.length] in Eb. rewrite Eb. cbn [obind i_type i_width i_height i_format]. unfold ret, im. f_equal. f_equal. f_equal.
    apply holds_exact; [exact Hb|]. rewrite Lb, blk_new_length. reflexivity. }
  exists im, (new_array KUInt item [h; w; ch] l). split; [exact Ec|]. split; [reflexivity|]. split.
  { unfold memory_image_array, im. unfold image_get_memory_header. cbn [i_type i_width i_height i_format]. change (TRAX_IMAGE_MEMORY =? TRAX_IMAGE_MEMORY) with true.
    unfold pbind, lift. cbn [obind]. rewrite Ft. rewrite row0 by (try reflexivity; eauto). cbn [obind i_data]. change (Z.to_nat 0) with 0%nat. cbn [skipn].
    rewrite blk_read_all; [reflexivity|]. cbn [size fold_right]. replace (item * (h * (w * (ch * 1)))) with (w * h * (ch * item)) by ring. rewrite <- Ll. lia. }
  split; [reflexivity|]. split; [reflexivity|]. split; [reflexivity|].
  intros y x c k Hy Hx Hcc Hk. destruct (Ix y x c Hy Hx Hcc) as [I Lin]. rewrite It in G. pose proof (G _ _ I Hk) as Gk. rewrite Lin in Gk.
  split.
  - unfold pixel_byte, im. cbn [i_data]. rewrite nth_error_map.
    replace (((y * w + x) * ch + c) * item + k) with (item * (y * (w * ch) + (x * ch + c)) + k) by ring. rewrite Gk.
    destruct (byte a (ix y x c) k); reflexivity.
  - rewrite byte_new; [|repeat (constructor; [lia|]); constructor|lia|lia]. rewrite <- Gk. f_equal. f_equal. cbn [linear size fold_right]. ring.
Qed.

Lemma buffer_lemma f name sig d : file_format f name sig -> d <> [] -> Z.of_nat (List.length (sig ++ d)) <= INT_MAX ->
  exists im, buffer_image_create (sig ++ d) = ret im /\ buffer_image_buffer im = ret (sig ++ d).
Proof.
  intros F Hd Hs.
  assert (Hl : 1 <= Z.of_nat (List.length (sig ++ d))) by (rewrite app_length; destruct d; [congruence|cbn [List.length]; lia]).
  exists (mkImage TRAX_IMAGE_BUFFER (Z.of_nat (List.length (sig ++ d))) 1 f (map Some (sig ++ d))). split.
  - unfold buffer_image_create. rewrite c_int_id by lia. pose proof (create_buffer_ok _ _ _ d F Hd) as E.
    unfold image_create_buffer in *. destruct (4 <? Z.of_nat (List.length (sig ++ d))); [|discriminate E].
    replace (verify_image_format ((sig ++ d) ++ [0%N])) with (verify_image_format (sig ++ d)) by (destruct F; reflexivity).
    destruct (verify_image_format (sig ++ d)) as [fm| | |]; try discriminate E. cbn [obind] in *.
    destruct (fm =? TRAX_IMAGE_BUFFER_ILLEGAL); [discriminate E|]. rewrite Nat2Z.id in *. rewrite blk_read_map in E.
    rewrite map_app. replace (blk_read (map Some (sig ++ d) ++ map Some [0%N]) (List.length (sig ++ d))) with (Ok (sig ++ d)).
    + cbn [obind] in *. unfold lift. rewrite E. reflexivity.
    + symmetry. apply blk_read_holds. eexists. reflexivity.
  - unfold buffer_image_buffer, image_get_buffer. cbn [i_type i_width i_data]. change (TRAX_IMAGE_BUFFER =? TRAX_IMAGE_BUFFER) with true.
    cbn iota. rewrite Nat2Z.id, blk_read_map. unfold lift, pbind. cbn [obind]. reflexivity.
Qed.

Lemma jpeg_png_named f name sig d im : file_format f name sig -> d <> [] -> Z.of_nat (List.length (sig ++ d)) <= INT_MAX ->
  buffer_image_create (sig ++ d) = ret im ->
  buffer_image_format im = ret (if f =? TRAX_IMAGE_BUFFER_PNG then str "jpeg" else str "png").
Proof.
  intros F Hd Hs E. destruct (buffer_lemma _ _ _ d F Hd Hs) as (im' & E' & B). rewrite E in E'. injection E' as <-.
  unfold buffer_image_create in E.
  assert (Hl : 1 <= Z.of_nat (List.length (sig ++ d))) by (rewrite app_length; destruct d; [congruence|cbn [List.length]; lia]).
  rewrite c_int_id in E by lia. unfold image_create_buffer in E. destruct (4 <? Z.of_nat (List.length (sig ++ d))); [|discriminate E].
  replace (verify_image_format ((sig ++ d) ++ [0%N])) with (Ok f) in E by (destruct F; reflexivity).
  cbn [obind] in E. replace (f =? TRAX_IMAGE_BUFFER_ILLEGAL) with false in E by (destruct F; reflexivity).
  destruct (blk_read _ _) as [src| | |]; try discriminate E. cbn [obind] in E.
  destruct (blk_write_list _ _ _) as [b| | |]; try discriminate E. cbn [obind lift] in E. unfold lift, ret in E. injection E as <-.
  unfold buffer_image_format, buffer_image_buffer, image_get_buffer in *. cbn [i_type i_width i_data i_format] in *.
  change (TRAX_IMAGE_BUFFER =? TRAX_IMAGE_BUFFER) with true in *. cbn iota in *.
  destruct (blk_read b _) as [l| | |]; try discriminate B. unfold lift, pbind. cbn [obind]. destruct F; reflexivity.
Qed.
Lemma verify_signature data f : verify_image_format data = Ok f -> f <> TRAX_IMAGE_BUFFER_ILLEGAL ->
  exists name sig d, file_format f name sig /\ data = sig ++ d.
Proof.
  unfold verify_image_format. destruct data as [|a [|b [|c [|e data]]]]; try discriminate.
  destruct ((a =? 255) && (b =? 216) && (c =? 255) && (e =? 224))%N eqn:E1.
  - intros E N. injection E as <-. apply andb_prop in E1 as [E1 E4]. apply andb_prop in E1 as [E1 E3]. apply andb_prop in E1 as [E1 E2].
    apply N.eqb_eq in E1, E2, E3, E4. subst. eexists _, _, data. split; [constructor|reflexivity].
  - destruct ((a =? 137) && (b =? 80) && (c =? 78) && (e =? 71))%N eqn:E2; [|intros E N; injection E as <-; congruence].
    intros E N. injection E as <-. apply andb_prop in E2 as [E2 E4]. apply andb_prop in E2 as [E2 E3]. apply andb_prop in E2 as [E2 E5].
    apply N.eqb_eq in E2, E3, E4, E5. subst. eexists _, _, data. split; [constructor|reflexivity].
Qed.
Lemma other_data_lemma data : Z.of_nat (List.length data) <= INT_MAX ->
  (forall f name sig d, file_format f name sig -> d <> [] -> data <> sig ++ d) -> buffer_image_create data = Abort.
Proof.
  intros Hs N. unfold buffer_image_create, image_create_buffer, lift.
  destruct (Z.eq_dec (Z.of_nat (List.length data)) 0) as [Z0|NZ]; [rewrite Z0; reflexivity|].
  rewrite c_int_id by lia. destruct (4 <? Z.of_nat (List.length data)) eqn:L4; [|reflexivity].
  assert (V : verify_image_format (data ++ [0%N]) = verify_image_format data).
  { destruct data as [|a [|b [|c [|e data]]]]; cbn [List.length] in L4; try lia; reflexivity. }
  rewrite V. destruct (verify_image_format data) as [f| | |] eqn:E; try (destruct data as [|a [|b [|c [|e data]]]]; cbn [List.length] in L4; try lia;
    unfold verify_image_format in E; repeat match type of E with (if ?b then _ else _) = _ => destruct b end; discriminate E).
  cbn [obind]. destruct (f =? TRAX_IMAGE_BUFFER_ILLEGAL) eqn:Ef; [reflexivity|]. exfalso.
  destruct (verify_signature _ _ E) as (name & sig & d & F & ->); [intros ->; discriminate Ef|].
  apply (N _ _ _ d F); [|reflexivity]. intros ->. destruct F; cbn in L4; discriminate L4.
Qed.
(** Paths and URLs *)
Lemma path_lemma p : plain p -> exists im, file_image_create p = ret im /\ file_image_path im = ret p.
Proof.
  intros P. destruct (enc_plain p P) as [E H]. exists (mkImage TRAX_IMAGE_PATH 0 0 0 (c_block (enc p))). split.
  - unfold file_image_create, encode. rewrite E. unfold pbind, ret, lift. cbn [obind]. rewrite no_nul_c_string by exact H. rewrite path_image. reflexivity.
  - unfold file_image_path, image_get_path. cbn [i_type i_data]. change (TRAX_IMAGE_PATH =? TRAX_IMAGE_PATH) with true. cbn iota.
    rewrite blk_string_copy by exact H. unfold pbind, lift. cbn [obind]. unfold decode. rewrite (encode_decode _ _ E). reflexivity.
Qed.
Lemma url_lemma p : plain p -> exists im, url_image_create p = ret im /\ url_image_url im = ret p.
Proof.
  intros P. destruct (enc_plain p P) as [E H]. exists (mkImage TRAX_IMAGE_URL 0 0 0 (c_block (enc p))). split.
  - unfold url_image_create, encode. rewrite E. unfold pbind, ret, lift. cbn [obind]. rewrite no_nul_c_string by exact H. rewrite url_image. reflexivity.
  - unfold url_image_url, image_get_url. cbn [i_type i_data]. change (TRAX_IMAGE_URL =? TRAX_IMAGE_URL) with true. cbn iota.
    rewrite blk_string_copy by exact H. unfold pbind, lift. cbn [obind]. unfold decode. rewrite (encode_decode _ _ E). reflexivity.
Qed.

(** Arrays in none of the formats *)
Lemma image_refused_lemma a h w : valid a -> positive (a_shape a) ->
  (a_shape a = [h; w] /\ a_item a <> 1 /\ a_item a <> 2) \/ (a_shape a = [h; w; 3] /\ a_item a <> 1) \/
  (exists c, a_shape a = [h; w; c] /\ c <> 3 /\ (c = 1 -> a_item a <> 1 /\ a_item a <> 2)) ->
  memory_image_create a = raise TraxException.
Proof.
  intros V Hp F. destruct (contiguous_ok a V Hp) as (l & E & _ & _). unfold memory_image_create. rewrite E.
  unfold pbind, lift, new_array. cbn [obind a_shape a_item].
  assert (E1 : forall x y, x <> y -> (x =? y) = false) by (intros x y; apply Z.eqb_neq).
  assert (Z0 : array_format (a_shape a) (a_item a) = 0 /\ exists t, a_shape a = h :: w :: t).
  { destruct F as [(-> & A & B)|[(-> & A)|(c & -> & A & B)]].
    - cbn [array_format]. rewrite (E1 _ _ A), (E1 _ _ B). eauto.
    - cbn [array_format]. rewrite (E1 _ _ A). eauto.
    - split; [|eauto]. cbn [array_format]. destruct c as [|[[]|[]|]|]; try reflexivity; [congruence|]. destruct (B eq_refl) as [B1 B2].
      now rewrite (E1 _ _ B1), (E1 _ _ B2). }
  destruct Z0 as (Z0 & t & St). rewrite Z0, St. reflexivity.
Qed.
(** More bytes than the pixel memory holds *)
Lemma four_dims_lemma a h w k : valid a -> a_shape a = [h; w; 1; k] -> a_item a = 1 -> 1 <= h -> 1 <= w -> 2 <= k -> h * w <= INT_MAX ->
  memory_image_create a = UB.
Proof.
  intros V Sh It Hh Hw Hk Hs.
  assert (Hp : positive (a_shape a)) by (rewrite Sh; repeat (constructor; [lia|]); constructor).
  destruct (contiguous_ok a V Hp) as (l & E & L & _). rewrite It, Sh in L. cbn [size fold_right] in L.
  assert (B : 1 <= h <= INT_MAX /\ 1 <= w <= INT_MAX) by (clear -Hs Hh Hw; nia).
  assert (Pf : pixel_format 1 (str "gray8") 1) by constructor.
  assert (Sb : w * h * 1 <= 2147483647) by (unfold INT_MAX in Hs; lia).
  assert (Hhw : 1 <= h * w) by nia.
  unfold memory_image_create. rewrite E. unfold pbind, lift, new_array. cbn [obind a_shape a_item a_start a_memory nbytes]. rewrite Sh, It.
  change (array_format [h; w; 1; k] 1) with 1. change (1 =? 0) with false. cbn iota. rewrite !c_int_id by tauto.
  rewrite (create_memory_ok _ _ _ _ _ Pf Hw Hh Sb). cbn [obind].
  rewrite row0 by (try reflexivity; eauto). cbn [obind].
  unfold nbytes. cbn [a_item a_shape size fold_right]. unfold load.
  assert (Q : 2 * (h * w) <= 1 * (h * (w * (1 * (k * 1))))) by (replace (1 * (h * (w * (1 * (k * 1))))) with (k * (h * w)) by ring; nia).
  remember (1 * (h * (w * (1 * (k * 1))))) as T eqn:HT. clear HT.
  replace (0 <=? T) with true by lia. replace (0 + T <=? Z.of_nat (List.length l)) with true by lia. rewrite Z.leb_refl. cbn [andb obind].
  change (Z.to_nat 0) with 0%nat. cbn [skipn]. rewrite <- L, firstn_all. cbn [i_data].
  rewrite write_too_long; [reflexivity|lia|]. rewrite blk_new_length. lia.
Qed.
Lemma no_rows_lemma a w : a_shape a = [0; w] -> a_item a = 1 -> List.length (a_strides a) = 2%nat -> 1 <= w <= INT_MAX -> memory_image_create a = Abort.
Proof.
  intros Sh It Hl Hw. destruct a as [kd it sh st start mem]. cbn [a_shape a_item a_strides] in *. subst sh it.
  destruct st as [|s1 st]; [discriminate Hl|].
  unfold memory_image_create, ascontiguousarray. cbn [a_memory a_item a_shape a_strides a_start elements Z.to_nat count_from collect obind pbind lift].
  unfold pbind, lift. cbn [obind new_array a_shape a_item]. change (array_format [0; w] 1) with 1. change (1 =? 0) with false. cbn iota.
  rewrite c_int_id by exact Hw. change (c_int 0) with 0. unfold image_create_memory. change ((1 =? TRAX_IMAGE_MEMORY_GRAY8) || _ || _) with true. cbn iota.
  unfold memory_size. rewrite Z.mul_0_r. reflexivity.
Qed.

(** ---- Masks ---- *)

Lemma in_range_c_int z : INT_MIN <= z <= INT_MAX -> c_int z = z.
Proof. unfold c_int, int_of_long, INT_MIN, INT_MAX. intros H. rewrite Z.mod_small by lia. lia. Qed.
Lemma pad_rows_length w x : forall h data, List.length data = (h * w)%nat -> List.length (pad_rows h w x data) = (h * (w + x))%nat.
Proof.
  induction h as [|h IH]; intros data L; [reflexivity|]. cbn [pad_rows]. rewrite !app_length, repeat_length, firstn_length, IH.
  - rewrite L. nia.
  - rewrite skipn_length, L. nia.
Qed.
Lemma pad_rows_nth w x : forall h data i j, List.length data = (h * w)%nat -> (i < h)%nat -> (j < w + x)%nat ->
  nth_error (pad_rows h w x data) (i * (w + x) + j)%nat = if (j <? x)%nat then Some 0%N else nth_error data (i * w + (j - x))%nat.
Proof.
  induction h as [|h IH]; intros data i j L Hi Hj; [lia|]. cbn [pad_rows].
  assert (Lf : List.length (firstn w data) = w) by (rewrite firstn_length, L; nia).
  destruct i as [|i].
  - cbn [Nat.mul Nat.add]. destruct (Nat.ltb_spec j x) as [Hx|Hx].
    + rewrite nth_error_app1 by (rewrite repeat_length; exact Hx). clear -Hx. revert j Hx. induction x as [|x IH]; intros [|j] H; cbn; try lia; [reflexivity|apply IH; lia].
    + rewrite nth_error_app2 by (rewrite repeat_length; exact Hx). rewrite repeat_length, nth_error_app1 by lia. apply nth_error_firstn. lia.
  - rewrite nth_error_app2 by (rewrite repeat_length; nia). rewrite repeat_length, nth_error_app2 by (rewrite Lf; nia). rewrite Lf.
    replace (S i * (w + x) + j - x - w)%nat with (i * (w + x) + j)%nat by nia. rewrite IH by (try rewrite skipn_length, L; nia).
    destruct (j <? x)%nat eqn:Ex; [reflexivity|]. rewrite nth_error_skipn. f_equal. apply Nat.ltb_ge in Ex. nia.
Qed.
Lemma repeat_nth n i : (i < n)%nat -> nth_error (repeat 0%N n) i = Some 0%N.
Proof. revert i. induction n as [|n IH]; intros [|i] H; cbn; try lia; [reflexivity|apply IH; lia]. Qed.
Lemma packed_load a h w : packed_mask a h w -> 1 <= h -> 1 <= w -> exists l, load (a_memory a) (a_start a) (nbytes a) = Ok l /\
  Z.of_nat (List.length l) = h * w /\ forall y x, 0 <= y < h -> 0 <= x < w -> nth_error l (Z.to_nat (y * w + x)) = byte a [y; x] 0.
Proof.
  intros (V & K & It & Sh & St) Hh Hw. pose proof V as (Vl & Vi & Vv). unfold nbytes. rewrite It, Sh. cbn [size fold_right].
  assert (I0 : inside (a_shape a) [0; 0]) by (rewrite Sh; repeat (constructor; [lia|]); constructor).
  assert (I1 : inside (a_shape a) [h - 1; w - 1]) by (rewrite Sh; repeat (constructor; [lia|]); constructor).
  destruct (Vv _ I0) as [A0 _]. destruct (Vv _ I1) as [_ A1]. rewrite St, It in *. cbn [address] in A0, A1.
  assert (P : 1 <= h * w) by nia.
  destruct (load_ok (a_memory a) (a_start a) (1 * (h * (w * 1)))) as (l & E & L & G); [lia|nia|nia|].
  exists l. split; [exact E|]. split; [rewrite L; rewrite Z2Nat.id by nia; ring|].
  intros y x Hy Hx. assert (I : inside (a_shape a) [y; x]) by (rewrite Sh; repeat (constructor; [lia|]); constructor).
  rewrite (byte_valid a _ 0 V I) by lia. rewrite St. cbn [address]. rewrite G by nia. f_equal. f_equal. ring.
Qed.
Lemma mask_data_lemma a h w x y : packed_mask a h w -> 1 <= h -> 1 <= w -> h * w <= INT_MAX ->
  INT_MIN <= x <= INT_MAX -> INT_MIN <= y <= INT_MAX ->
  exists l, mask_create a x y = ret (RMask x y w h l) /\ Z.of_nat (List.length l) = h * w /\
    forall r c, 0 <= r < h -> 0 <= c < w -> nth_error l (Z.to_nat (r * w + c)) = byte a [r; c] 0.
Proof.
  intros P Hh Hw Hs Hx Hy. destruct (packed_load a h w P Hh Hw) as (l & E & L & G). exists l. split; [|split; assumption].
  destruct P as (V & K & It & Sh & St). unfold mask_create. rewrite Sh, K, It.
  assert (B : 1 <= h <= INT_MAX /\ 1 <= w <= INT_MAX) by (clear -Hs Hh Hw; nia).
  rewrite !c_int_id by tauto. rewrite !in_range_c_int by assumption.
  assert (Hp : 1 <= h * w) by nia.
  rewrite create_mask_ok; [|lia|lia|apply in_int_of; unfold INT_MIN, INT_MAX in *; lia]. cbn [obind]. rewrite E. cbn [obind].
  destruct (blk_write_list_end l (blk_new (Z.to_nat (w * h))) [] (holds_nil _)) as (b & Eb & Hb & Lb).
  { rewrite blk_new_length. cbn [List.length]. lia. }
  cbn [List.length] in Eb. rewrite Eb. cbn [obind]. rewrite blk_new_length in Lb.
  assert (Eb' : b = map Some l) by (apply holds_exact; [exact Hb|rewrite Lb; lia]). subst b. rewrite map_length, blk_read_map. reflexivity.
Qed.
Lemma load_all l n : Z.of_nat (List.length l) = n -> load l 0 n = Ok l.
Proof.
  intros <-. unfold load. rewrite Z.add_0_l, !Z.leb_refl. replace (0 <=? Z.of_nat (List.length l)) with true by (symmetry; lia). cbn [andb].
  change (Z.to_nat 0) with 0%nat. cbn [skipn]. rewrite Nat2Z.id, firstn_all. reflexivity.
Qed.
Lemma mask_array_lemma x y w h l : 1 <= w -> 1 <= h -> Z.of_nat (List.length l) = h * w ->
  exists b, mask_array (RMask x y w h l) false = ret b /\ a_kind b = KUInt /\ a_item b = 1 /\ a_shape b = [h; w] /\
    (forall r c, 0 <= r < h -> 0 <= c < w -> byte b [r; c] 0 = nth_error l (Z.to_nat (r * w + c))) /\
  (0 <= x -> 0 <= y ->
  exists n, mask_array (RMask x y w h l) true = ret n /\ a_kind n = KUInt /\ a_item n = 1 /\ a_shape n = [h + y; w + x] /\
    forall r c, 0 <= r < h + y -> 0 <= c < w + x ->
      byte n [r; c] 0 = if (y <=? r) && (x <=? c) then nth_error l (Z.to_nat ((r - y) * w + (c - x))) else Some 0%N).
Proof.
  intros Hw Hh L. unfold mask_array. rewrite load_all by (rewrite L; ring). unfold lift, pbind. cbn [obind].
  eexists. split; [reflexivity|]. split; [reflexivity|]. split; [reflexivity|]. split; [reflexivity|]. split.
  { intros r c Hr Hc. rewrite byte_new; [|repeat (constructor; [lia|]); constructor|lia|lia]. f_equal. f_equal. cbn [linear size fold_right]. ring. }
  intros Hx Hy. unfold pad. cbn [a_shape new_array a_kind a_item a_memory]. replace ((x <? 0) || (y <? 0)) with false by (symmetry; apply Bool.orb_false_iff; lia).
  eexists. split; [reflexivity|]. split; [reflexivity|]. split; [reflexivity|]. split; [reflexivity|].
  intros r c Hr Hc. rewrite byte_new; [|repeat (constructor; [lia|]); constructor|lia|lia].
  replace (1 * linear [h + y; w + x] [r; c] + 0) with (r * (w + x) + c) by (cbn [linear size fold_right]; ring).
  destruct (Z.leb_spec y r) as [Hyr|Hyr].
  - rewrite nth_error_app2 by (rewrite repeat_length; apply Z2Nat.inj_le; nia). rewrite repeat_length.
    replace (Z.to_nat (r * (w + x) + c) - Z.to_nat (y * (w + x)))%nat with (Z.to_nat (r - y) * (Z.to_nat w + Z.to_nat x) + Z.to_nat c)%nat.
    2:{ rewrite <- Z2Nat.inj_sub by nia. rewrite <- (Z2Nat.inj_add w x), <- Z2Nat.inj_mul, <- Z2Nat.inj_add by nia. f_equal. ring. }
    assert (Ln : List.length l = (Z.to_nat h * Z.to_nat w)%nat).
    { apply Nat2Z.inj. rewrite L, Nat2Z.inj_mul, !Z2Nat.id by lia. reflexivity. }
    rewrite pad_rows_nth; [|exact Ln|lia|lia].
    replace (Z.to_nat c <? Z.to_nat x)%nat with (negb (x <=? c)) by (destruct (Nat.ltb_spec (Z.to_nat c) (Z.to_nat x)), (Z.leb_spec x c); try reflexivity; exfalso; lia).
    destruct (Z.leb_spec x c) as [Hxc|Hxc]; cbn [negb andb]; [|reflexivity].
    f_equal. rewrite Z2Nat.inj_add, Z2Nat.inj_mul by nia. rewrite (Z2Nat.inj_sub c x) by lia. reflexivity.
  - cbn [andb]. rewrite nth_error_app1 by (rewrite repeat_length; apply Z2Nat.inj_lt; nia).
    apply repeat_nth. apply Z2Nat.inj_lt; nia.
Qed.
Lemma mask_lemma a h w x y : packed_mask a h w -> 1 <= h -> 1 <= w -> h * w <= INT_MAX ->
  INT_MIN <= x <= INT_MAX -> INT_MIN <= y <= INT_MAX ->
  exists data b, mask_create a x y = ret (RMask x y w h data) /\
    (forall r c, 0 <= r < h -> 0 <= c < w -> nth_error data (Z.to_nat (r * w + c)) = byte a [r; c] 0) /\
    mask_array (RMask x y w h data) false = ret b /\ a_kind b = KUInt /\ a_item b = 1 /\ a_shape b = [h; w] /\
    (forall r c, 0 <= r < h -> 0 <= c < w -> byte b [r; c] 0 = byte a [r; c] 0) /\
    (0 <= x -> 0 <= y -> exists n, mask_array (RMask x y w h data) true = ret n /\ a_kind n = KUInt /\ a_item n = 1 /\ a_shape n = [h + y; w + x] /\
      forall r c, 0 <= r < h + y -> 0 <= c < w + x -> byte n [r; c] 0 = if (y <=? r) && (x <=? c) then byte a [r - y; c - x] 0 else Some 0%N).
Proof.
  intros P Hh Hw Hs Hx Hy. destruct (mask_data_lemma a h w x y P Hh Hw Hs Hx Hy) as (l & E & L & G).
  destruct (mask_array_lemma x y w h l Hw Hh L) as (b & Eb & Kb & Ib & Sb & Gb & Nb).
  exists l, b. split; [exact E|]. split; [exact G|]. split; [exact Eb|]. split; [exact Kb|]. split; [exact Ib|]. split; [exact Sb|]. split.
  { intros r c Hr Hc. rewrite Gb, G by assumption. reflexivity. }
  intros X Y. destruct (Nb X Y) as (n & En & Kn & In' & Sn & Gn). exists n. split; [exact En|]. split; [exact Kn|]. split; [exact In'|]. split; [exact Sn|].
  intros r c Hr Hc. rewrite Gn by assumption. destruct (Z.leb_spec y r), (Z.leb_spec x c); cbn [andb]; try reflexivity. apply G; lia.
Qed.
Lemma negative_offset_lemma x y w h l : 0 <= w -> 0 <= h -> Z.of_nat (List.length l) = h * w -> x < 0 \/ y < 0 ->
  mask_array (RMask x y w h l) true = raise ValueError.
Proof.
  intros Hw Hh L N. unfold mask_array. rewrite load_all by (rewrite L; ring). unfold lift, pbind. cbn [obind]. unfold pad. cbn [a_shape new_array].
  replace ((x <? 0) || (y <? 0)) with true; [reflexivity|]. symmetry. apply Bool.orb_true_iff. lia.
Qed.
Lemma mask_get_lemma x y w h l i : exists e, mask_get (RMask x y w h l) i = raise e.
Proof. unfold mask_get. destruct (i <? 0); eexists; reflexivity. Qed.
(** Rows in the reverse order (source[::-1]) *)
Definition flipped (memory : list N) (h w : Z) : ndarray := mkArray KUInt 1 [h; w] [- w; 1] ((h - 1) * w) memory.
Lemma flipped_lemma memory h w x y : 2 <= h -> 1 <= w -> h * w <= INT_MAX -> Z.of_nat (List.length memory) = h * w ->
  valid (flipped memory h w) /\ mask_create (flipped memory h w) x y = UB.
Proof.
  intros Hh Hw Hs L. split.
  - unfold valid, flipped. cbn [a_strides a_shape a_item a_start a_memory]. split; [reflexivity|]. split; [lia|].
    intros idx I. inversion I as [|? i ? idx' Hi I']; subst. inversion I' as [|? j ? idx2 Hj I2]; subst. inversion I2; subst. cbn [address]. nia.
  - unfold mask_create, flipped. cbn [a_shape a_kind a_item a_memory a_start].
    assert (B : 1 <= h <= INT_MAX /\ 1 <= w <= INT_MAX) by (clear -Hs Hh Hw; nia).
    rewrite !(c_int_id w), !(c_int_id h) by tauto. assert (Hp : 1 <= h * w) by nia.
    rewrite create_mask_ok; [|lia|lia|apply in_int_of; unfold INT_MIN, INT_MAX in *; lia]. cbn [obind]. unfold load, nbytes. cbn [a_item a_shape size fold_right].
    replace ((h - 1) * w + 1 * (h * (w * 1)) <=? Z.of_nat (List.length memory)) with false by nia.
    rewrite Bool.andb_false_r. reflexivity.
Qed.
Lemma empty_mask_lemma a h w x y : a_kind a = KUInt -> a_item a = 1 -> a_shape a = [h; w] -> 0 <= h <= INT_MAX -> 0 <= w <= INT_MAX -> h = 0 \/ w = 0 ->
  mask_create a x y = Abort.
Proof.
  intros K It Sh Hh Hw N. unfold mask_create. rewrite Sh, K, It. rewrite !(in_range_c_int w), !(in_range_c_int h) by (unfold INT_MIN; lia).
  unfold create_mask. replace ((0 <? w) && (0 <? h)) with false; [reflexivity|]. symmetry. apply Bool.andb_false_iff. lia.
Qed.
Lemma wrong_type_lemma a x y : (forall h w, a_shape a <> [h; w]) \/ a_kind a <> KUInt \/ a_item a <> 1 -> mask_create a x y = raise AssertionError.
Proof.
  intros N. unfold mask_create. destruct (a_shape a) as [|h [|w [|d tl]]] eqn:Sh; try reflexivity.
  destruct (a_kind a) eqn:K; try reflexivity. destruct (a_item a) as [|[p|p|]|p] eqn:It; try reflexivity.
  exfalso. destruct N as [N|[N|N]]; [exact (N h w eq_refl)|exact (N eq_refl)|exact (N eq_refl)].
Qed.
