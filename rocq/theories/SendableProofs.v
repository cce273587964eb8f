(** What can be sent: finite rectangles and polygons, masks and path images; and the sample session. *)
From Verif Require Import CBase StrMap Props PropsSpec StrMapProofs PropsProofs Message MessageSpec
  Num NumSpec Region RegionSpec RegionProofs Image ImageSpec ImageProofs Formats Handle SessionSpec HandleProofs.
Local Open Scope Z_scope.

Lemma special_arrives c : exact_int c -> region_arrives (RSpecial c) (RSpecial c).
Proof. intros H. destruct (special_round_trip c H) as (t & E & P). now exists t. Qed.
Lemma rect_arrives x y w h : finite_float x -> finite_float y -> finite_float w -> finite_float h ->
  exists x' y' w' h', region_arrives (RRect x y w h) (RRect x' y' w' h') /\ coord_close x' x /\ coord_close y' y /\ coord_close w' w /\ coord_close h' h.
Proof.
  intros Hx Hy Hw Hh. destruct (rect_round_trip x y w h Hx Hy Hw Hh) as (t & x' & y' & w' & h' & E & P & _ & H).
  exists x', y', w', h'. split; [|exact H]. now exists t.
Qed.
Lemma poly_arrives pts : (3 <= List.length pts)%nat -> Forall point_finite pts ->
  exists pts', region_arrives (RPoly pts) (RPoly pts') /\ Forall2 point_close pts' pts.
Proof.
  intros Hn Hf. destruct (poly_round_trip pts Hn Hf) as (t & pts' & E & P & _ & H). exists pts'. split; [|exact H]. now exists t.
Qed.
Lemma mask_arrives x y w h data : exact_int x -> exact_int y -> exact_int w -> exact_int h -> 0 < w -> 0 < h ->
  in_int (w * h) = true -> Z.of_nat (List.length data) = w * h ->
  (exists d, In d data /\ d <> 0%N) -> short_runs (2 ^ 24) (foreground data) ->
  exists data', region_arrives (RMask x y w h data) (RMask x y w h data') /\ foreground data' = foreground data.
Proof.
  intros Hx Hy Hw Hh W H Hi Hl Hd Hr. destruct (mask_round_trip x y w h data Hx Hy Hw Hh Hi Hl Hd Hr) as (t & data' & E & P & F).
  exists data'. split; [|exact F]. now exists t.
Qed.
Lemma path_arrives slack p img : text_ok p = true -> image_create_path p = Ok img ->
  exists img', image_arrives slack img img' /\ i_type img' = TRAX_IMAGE_PATH /\ image_get_path img' = Ok p.
Proof.
  intros Ht E. assert (Hn : no_nul p).
  { apply forallb_no_nul. apply forallb_forall. unfold text_ok in Ht. rewrite forallb_forall in Ht. intros c Hc. specialize (Ht c Hc).
    unfold text_char in Ht. lia. }
  destruct (path_round_trip p img Hn E) as (text & Et & -> & Hd). destruct (Hd slack) as (img' & Ed & Hp).
  exists img'. split.
  - exists (str "file://" ++ p). split; [exact Et|]. split; [|exact Ed]. unfold arg_ok. apply andb_true_iff. split.
    + unfold text_ok in *. rewrite forallb_app, Ht. reflexivity.
    + change (str "file://" ++ p) with (str "file:" ++ (str "//" ++ p)). generalize (str "//" ++ p). intros l.
      destruct (before_eq (str "file:" ++ l)) as [k|] eqn:Ek; [|reflexivity].
      assert (exists k', k = str "file:" ++ k') as (k' & ->).
      { cbn in Ek. destruct (before_eq l) as [k'|]; [|discriminate]. injection Ek as <-. now exists k'. }
      unfold key_ok. rewrite forallb_app. cbn. now rewrite andb_false_r.
  - split; [|exact Hp]. unfold image_get_path in Hp. destruct (i_type img' =? TRAX_IMAGE_PATH) eqn:Ei; [lia|discriminate].
Qed.

(** ---- the sample session meets the hypotheses ---- *)
Lemma clean_check p : made p -> forallb kv_ok (props_enum p) = true -> clean p.
Proof.
  intros Hm H. split; [exact Hm|]. intros k v E. rewrite props_get_spec in E by now apply made_ok. injection E as E.
  rewrite forallb_forall in H. apply H. now apply (proj2 (enum_enumerates p (made_ok p Hm))).
Qed.
Lemma sample_made k v : made (sample_props k v).
Proof.
  unfold sample_props. destruct (props_set props_create k v) as [p| | |] eqn:E; try apply made_create.
  exists [PSet k v]. exact E.
Qed.
Lemma byte_cutter : cutter byte_cut.
Proof.
  intros l. unfold byte_cut. split; [induction l as [|b l IH]; [reflexivity|cbn; now rewrite IH]|].
  apply Forall_forall. intros x Hx. apply in_map_iff in Hx as (b & <- & _). discriminate.
Qed.
Lemma whole_cutter : cutter whole_cut.
Proof. intros [|b l]; cbn; [split; constructor|]. rewrite app_nil_r. split; [reflexivity|]. now constructor. Qed.

Lemma sample_metadata_ok : metadata_ok sample_metadata 0.
Proof.
  unfold metadata_ok. split; [unfold TRAX_VERSION; lia|].
  split; [apply clean_check; [apply sample_made|vm_compute; reflexivity]|].
  split.
  - intros k v E. assert (Hm : made (md_custom sample_metadata)) by apply sample_made.
    rewrite props_get_spec in E by now apply made_ok. injection E as E.
    apply (proj2 (enum_enumerates _ (made_ok _ Hm))) in E. vm_compute in E. destruct E as [E|[]]. injection E as <- <-. reflexivity.
  - split; [repeat (apply Forall_cons; [vm_compute; auto|]); apply Forall_nil|]. split; [cbn; lia|discriminate].
Qed.

Lemma arrives_check r t r' : region_string r = Ok (Some t) -> region_parse t = Ok (true, Some r') -> solid r' -> exists r', region_arrives r r'.
Proof. intros E P S. exists r', t. auto. Qed.
Ltac arrives := eapply arrives_check; [vm_compute; reflexivity|vm_compute; reflexivity|cbn; lia].
Lemma poly_sends : exists r', region_arrives sample_poly r'. Proof. arrives. Qed.
Lemma mask_sends : exists r', region_arrives sample_mask r'. Proof. arrives. Qed.
Lemma rect_sends : exists r', region_arrives (RRect (fl 1) (fl 2) (fl 3) (fl 4)) r'. Proof. arrives. Qed.
Lemma special_sends : exists r', region_arrives (RSpecial 2) r'. Proof. arrives. Qed.

Lemma sample_images_arrive : exists ims, images_arrive 0 3 3 sample_images ims.
Proof.
  destruct (path_arrives 0 (str "/a b.jpg") _ eq_refl eq_refl) as (a & Ha & Ta & _).
  destruct (path_arrives 0 (str "/d=1.png") _ eq_refl eq_refl) as (d & Hd & Td & _).
  exists [Some a; Some d; None]. split; [reflexivity|]. split; [reflexivity|]. intros k Hk.
  destruct k as [|[|[|k]]]; [| | |lia]; cbn [Z.testbit Z.of_nat Pos.of_succ_nat Pos.succ Pos.testbit nth sample_images].
  - eexists. exists a. split; [reflexivity|]. split; [reflexivity|]. split; [exact Ha|]. now rewrite Ta.
  - eexists. exists d. split; [reflexivity|]. split; [reflexivity|]. split; [exact Hd|]. now rewrite Td.
  - reflexivity.
Qed.

Lemma state_ok r p : (exists r', region_arrives r r') -> clean p -> state_sendable (r, p).
Proof. now split. Qed.
Lemma object_ok z r p : (forall c, r <> RSpecial c) -> supports z (region_bit r) = true -> (exists r', region_arrives r r') -> clean p ->
  object_sendable z (r, p).
Proof. intros. unfold object_sendable. cbn [fst snd]. repeat match goal with |- _ /\ _ => split end; assumption. Qed.
Lemma clean_create : clean props_create.
Proof. apply clean_check; [apply made_create|reflexivity]. Qed.
Lemma clean_sample k v : kv_ok (k, v) = true -> clean (sample_props k v).
Proof.
  intros H. unfold sample_props. destruct (props_set props_create k v) as [p| | |] eqn:E; try apply clean_create.
  split; [exists [PSet k v]; exact E|]. intros k' v' Eg.
  destruct (sm_put_spec props_create k v props_create_ok) as (p' & E' & Hok & _ & Hl). unfold props_set in E. rewrite E' in E. injection E as ->.
  rewrite props_get_spec, Hl in Eg by exact Hok. injection Eg as Eg. unfold pm_set in Eg. destruct (bytes_eqb k k') eqn:Eb.
  - apply bytes_eqb_eq in Eb. injection Eg as <-. now subst.
  - unfold props_create in Eg. rewrite sm_new_lookup in Eg. discriminate.
Qed.

Ltac sendable := repeat (apply Forall_cons; [first [apply state_ok | apply object_ok; [discriminate|reflexivity|..]];
    [first [apply poly_sends|apply mask_sends|apply rect_sends|apply special_sends]
    |first [apply clean_create|apply clean_sample; reflexivity]]|]); apply Forall_nil.
Lemma sample_rounds_ok : rounds_ok 0 sample_metadata true 0 sample_rounds.
Proof.
  unfold sample_rounds, rounds_ok, round_ok, tracked.
  cbn [rd_cut1 rd_cut2 rd_images rd_objects rd_props rd_init rd_reply List.length plus md_channels md_image md_region sample_metadata].
  repeat match goal with |- _ /\ _ => split end; try exact I; try apply byte_cutter; try apply whole_cutter; try apply sample_images_arrive;
    try sendable; try discriminate; try lia; try reflexivity.
  apply clean_sample. reflexivity.
Qed.


Lemma sample_metadata3_ok : metadata_ok sample_metadata3 3.
Proof.
  unfold metadata_ok. split; [unfold TRAX_VERSION; lia|].
  split; [apply clean_check; [apply sample_made|vm_compute; reflexivity]|].
  split.
  - intros k v E. assert (Hm : made (md_custom sample_metadata3)) by apply sample_made.
    rewrite props_get_spec in E by now apply made_ok. injection E as E.
    apply (proj2 (enum_enumerates _ (made_ok _ Hm))) in E. vm_compute in E. destruct E as [E|[]]. injection E as <- <-. reflexivity.
  - split; [repeat (apply Forall_cons; [vm_compute; auto|]); apply Forall_nil|]. split; [cbn; lia|discriminate].
Qed.
Lemma sample_srounds_ok : srounds_ok 0 sample_metadata3 sample_srounds.
Proof.
  split; [|discriminate].
  repeat (apply Forall_cons; [unfold sround_ok, state_sendable; cbn [fst snd sr_cut1 sr_cut2 sr_images sr_object sr_props sr_reply md_channels md_image md_region sample_metadata3];
    repeat match goal with |- _ /\ _ => split end; try exact I; try apply byte_cutter; try apply whole_cutter; try apply sample_images_arrive;
    try discriminate; try reflexivity; try apply poly_sends; try apply mask_sends; try apply special_sends;
    try (apply clean_sample; reflexivity); try apply clean_create|]); apply Forall_nil.
Qed.
