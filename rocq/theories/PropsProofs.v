(** Lemmas about copying and appending dictionaries (src/trax.c). *)
From Verif Require Import CBase StrMap Props PropsSpec StrMapProofs.

Definition pm_assoc (l : list (list N * list N)) : pmap :=
  fun k => option_map snd (find (fun kv => bytes_eqb (fst kv) k) l).

Lemma pm_assoc_cons k v l k' : pm_assoc ((k, v) :: l) k' = if bytes_eqb k k' then Some v else pm_assoc l k'.
Proof. unfold pm_assoc. cbn. destruct (bytes_eqb k k'); reflexivity. Qed.

Lemma pm_assoc_not_in l k : ~ In k (map fst l) -> pm_assoc l k = None.
Proof.
  induction l as [|[k' v] l IH]; intros H; [reflexivity|].
  rewrite pm_assoc_cons. cbn in H. destruct (bytes_eqb k' k) eqn:E.
  - apply bytes_eqb_eq in E. tauto.
  - apply IH. tauto.
Qed.

Lemma pm_assoc_enumerates l m : enumerates l m -> forall k, pm_assoc l k = m k.
Proof.
  intros [Hnd Hin] k.
  destruct (m k) as [v|] eqn:E.
  - apply Hin in E. clear Hin. induction l as [|[k' v'] l IH]; [destruct E|].
    rewrite pm_assoc_cons. inversion_clear Hnd as [|? ? Hni Hnd'].
    destruct E as [E|E].
    + inversion E; subst. rewrite bytes_eqb_refl. reflexivity.
    + destruct (bytes_eqb k' k) eqn:Eb; [|auto]. apply bytes_eqb_eq in Eb. subst k'.
      exfalso. apply Hni. change k with (fst (k, v)). now apply in_map.
  - apply pm_assoc_not_in. intros H. apply in_map_iff in H as ([k' v] & Ek & H). cbn in Ek. subst k'.
    apply Hin in H. congruence.
Qed.

(** Overwriting copy restricted to keys satisfying [g]. *)
Definition filtered_set (g : list N -> bool) (dest : props) (k v : list N) : outcome props :=
  if g k then props_set dest k v else Ok dest.

Lemma enum_into_overwrite g f l :
  (forall d k v, f d k v = filtered_set g d k v) ->
  NoDup (map fst l) -> forall dest, sm_ok dest ->
  exists r, enum_into f l dest = Ok r /\ sm_ok r /\
    forall k, sm_lookup r k =
      if g k then match pm_assoc l k with Some v => Some v | None => sm_lookup dest k end else sm_lookup dest k.
Proof.
  intros Hf. induction l as [|[k v] l IH]; intros Hnd dest Hok; cbn [enum_into].
  - exists dest. split; [reflexivity|split; [exact Hok|]]. intros k. cbn. destruct (g k); reflexivity.
  - inversion_clear Hnd as [|? ? Hni Hnd']. cbn [fst] in Hni.
    rewrite Hf. unfold filtered_set, props_set.
    destruct (g k) eqn:Eg.
    + destruct (sm_put_spec dest k v Hok) as (d1 & Hp & Hok1 & _ & Hl1). rewrite Hp. cbn [obind].
      destruct (IH Hnd' d1 Hok1) as (r & Hr & Hokr & Hlr). exists r. split; [exact Hr|]. split; [exact Hokr|].
      intros k'. rewrite Hlr, Hl1, pm_assoc_cons. unfold pm_set.
      destruct (bytes_eqb k k') eqn:E; [|reflexivity].
      apply bytes_eqb_eq in E. subst k'. rewrite Eg, pm_assoc_not_in by exact Hni. reflexivity.
    + cbn [obind]. destruct (IH Hnd' dest Hok) as (r & Hr & Hokr & Hlr). exists r.
      split; [exact Hr|]. split; [exact Hokr|].
      intros k'. rewrite Hlr, pm_assoc_cons. destruct (bytes_eqb k k') eqn:E; [|reflexivity].
      apply bytes_eqb_eq in E. subst k'. rewrite Eg. reflexivity.
Qed.

Lemma enum_into_safe g f l :
  (forall d k v, sm_ok d -> f d k v = match sm_lookup d k with Some _ => Ok d | None => filtered_set g d k v end) ->
  NoDup (map fst l) -> forall dest, sm_ok dest ->
  exists r, enum_into f l dest = Ok r /\ sm_ok r /\
    forall k, sm_lookup r k =
      match sm_lookup dest k with Some v => Some v | None => if g k then pm_assoc l k else None end.
Proof.
  intros Hf. induction l as [|[k v] l IH]; intros Hnd dest Hok; cbn [enum_into].
  - exists dest. split; [reflexivity|split; [exact Hok|]]. intros k. cbn.
    destruct (sm_lookup dest k); destruct (g k); reflexivity.
  - inversion_clear Hnd as [|? ? Hni Hnd']. cbn [fst] in Hni.
    rewrite Hf by exact Hok. destruct (sm_lookup dest k) as [v0|] eqn:E0.
    + cbn [obind]. destruct (IH Hnd' dest Hok) as (r & Hr & Hokr & Hlr). exists r.
      split; [exact Hr|]. split; [exact Hokr|]. intros k'. rewrite Hlr, pm_assoc_cons.
      destruct (bytes_eqb k k') eqn:E; [|reflexivity].
      apply bytes_eqb_eq in E. subst k'. rewrite E0. reflexivity.
    + unfold filtered_set, props_set. destruct (g k) eqn:Eg.
      * destruct (sm_put_spec dest k v Hok) as (d1 & Hp & Hok1 & _ & Hl1). rewrite Hp. cbn [obind].
        destruct (IH Hnd' d1 Hok1) as (r & Hr & Hokr & Hlr). exists r. split; [exact Hr|]. split; [exact Hokr|].
        intros k'. rewrite Hlr, Hl1, pm_assoc_cons. unfold pm_set.
        destruct (bytes_eqb k k') eqn:E; [|reflexivity].
        apply bytes_eqb_eq in E. subst k'. rewrite E0, Eg. reflexivity.
      * cbn [obind]. destruct (IH Hnd' dest Hok) as (r & Hr & Hokr & Hlr). exists r.
        split; [exact Hr|]. split; [exact Hokr|]. intros k'. rewrite Hlr, pm_assoc_cons.
        destruct (bytes_eqb k k') eqn:E; [|reflexivity].
        apply bytes_eqb_eq in E. subst k'. rewrite E0, Eg. reflexivity.
Qed.

Definition ext_key (k : list N) : bool := negb (starts_with (str "trax.") k).

Definition over (m1 m2 : pmap) : pmap := fun k => match m1 k with Some v => Some v | None => m2 k end.

(** flags = COPY_ALL, or COPY_ALL | COPY_OVERWRITE *)
Lemma copy_all_spec flags src dst : sm_ok src -> sm_ok dst -> flags = 1%Z \/ flags = 3%Z ->
  exists r, copy_properties src dst flags = Ok r /\ sm_ok r /\
    forall k, sm_lookup r k = over (sm_lookup src) (sm_lookup dst) k.
Proof.
  intros Hs Hd Hf. unfold copy_properties.
  replace (copy_callback flags) with copy_property_overwrite by (destruct Hf; subst flags; reflexivity).
  destruct (enum_into_overwrite (fun _ => true) copy_property_overwrite (props_enum src)) with (dest := dst)
    as (r & Hr & Hok & Hl).
  - reflexivity.
  - now apply enum_nodup.
  - exact Hd.
  - exists r. split; [exact Hr|]. split; [exact Hok|]. intros k. rewrite Hl. unfold over.
    rewrite (pm_assoc_enumerates (props_enum src) (sm_lookup src)) by now apply enum_enumerates. reflexivity.
Qed.

(** flags = COPY_EXTERNAL | COPY_OVERWRITE *)
Lemma copy_external_spec src dst : sm_ok src -> sm_ok dst ->
  exists r, copy_properties src dst (Z.lor COPY_EXTERNAL COPY_OVERWRITE) = Ok r /\ sm_ok r /\
    forall k, sm_lookup r k = if ext_key k then over (sm_lookup src) (sm_lookup dst) k else sm_lookup dst k.
Proof.
  intros Hs Hd. unfold copy_properties.
  change (copy_callback _) with copy_property_external_overwrite.
  destruct (enum_into_overwrite ext_key copy_property_external_overwrite (props_enum src)) with (dest := dst)
    as (r & Hr & Hok & Hl).
  - intros d k v. unfold copy_property_external_overwrite, filtered_set, ext_key.
    destruct (starts_with (str "trax.") k); reflexivity.
  - now apply enum_nodup.
  - exact Hd.
  - exists r. split; [exact Hr|]. split; [exact Hok|]. intros k. rewrite Hl. unfold over.
    rewrite (pm_assoc_enumerates (props_enum src) (sm_lookup src)) by now apply enum_enumerates. reflexivity.
Qed.

(** The callback that COPY_ALL without COPY_OVERWRITE was meant to select. *)
Lemma copy_safe_spec src dst : sm_ok src -> sm_ok dst ->
  exists r, enum_into copy_property_safe (props_enum src) dst = Ok r /\ sm_ok r /\
    forall k, sm_lookup r k = over (sm_lookup dst) (sm_lookup src) k.
Proof.
  intros Hs Hd.
  destruct (enum_into_safe (fun _ => true) copy_property_safe (props_enum src)) with (dest := dst)
    as (r & Hr & Hok & Hl).
  - intros d k v Hok. unfold copy_property_safe. rewrite props_has_spec by exact Hok. cbn [obind].
    destruct (sm_lookup d k); reflexivity.
  - now apply enum_nodup.
  - exact Hd.
  - exists r. split; [exact Hr|]. split; [exact Hok|]. intros k. rewrite Hl. unfold over.
    rewrite (pm_assoc_enumerates (props_enum src) (sm_lookup src)) by now apply enum_enumerates. reflexivity.
Qed.

(** flags = COPY_EXTERNAL *)
Lemma copy_external_safe_spec src dst : sm_ok src -> sm_ok dst ->
  exists r, copy_properties src dst COPY_EXTERNAL = Ok r /\ sm_ok r /\
    forall k, sm_lookup r k = if ext_key k then over (sm_lookup dst) (sm_lookup src) k else sm_lookup dst k.
Proof.
  intros Hs Hd. unfold copy_properties. change (copy_callback _) with copy_property_external_safe.
  destruct (enum_into_safe ext_key copy_property_external_safe (props_enum src)) with (dest := dst)
    as (r & Hr & Hok & Hl).
  - intros d k v Hok. unfold copy_property_external_safe, filtered_set, ext_key.
    rewrite props_has_spec by exact Hok. cbn [obind].
    destruct (sm_lookup d k); destruct (starts_with (str "trax.") k); reflexivity.
  - now apply enum_nodup.
  - exact Hd.
  - exists r. split; [exact Hr|]. split; [exact Hok|]. intros k. rewrite Hl. unfold over.
    rewrite (pm_assoc_enumerates (props_enum src) (sm_lookup src)) by now apply enum_enumerates.
    destruct (sm_lookup dst k); destruct (ext_key k); reflexivity.
Qed.

(** Statements over histories *)
Lemma append_overwrite_api ops1 ops2 : exists s d r,
  props_run ops1 = Ok s /\ props_run ops2 = Ok d /\ props_append s d true = Ok r /\
  forall k, props_get r k = Ok (over (pm_run ops1) (pm_run ops2) k).
Proof.
  destruct (props_run_spec ops1) as (s & Hs & Hsok & Hsl).
  destruct (props_run_spec ops2) as (d & Hd & Hdok & Hdl).
  destruct (copy_all_spec 3 s d Hsok Hdok (or_intror eq_refl)) as (r & Hr & Hrok & Hrl).
  exists s, d, r. refine (conj Hs (conj Hd (conj Hr _))).
  intros k. rewrite props_get_spec, Hrl by exact Hrok. unfold over. rewrite Hsl, Hdl. reflexivity.
Qed.

Lemma copy_api ops : exists s r, props_run ops = Ok s /\ props_copy s = Ok r /\
  forall k, props_get r k = Ok (pm_run ops k).
Proof.
  destruct (props_run_spec ops) as (s & Hs & Hsok & Hsl).
  destruct (copy_all_spec 1 s props_create Hsok props_create_ok (or_introl eq_refl)) as (r & Hr & Hrok & Hrl).
  exists s, r. refine (conj Hs (conj Hr _)).
  intros k. rewrite props_get_spec, Hrl by exact Hrok. unfold over. rewrite Hsl.
  destruct (pm_run ops k); [reflexivity|]. f_equal. apply sm_new_lookup.
Qed.

(** With overwriting disabled, the code still behaves as with overwriting enabled. *)
Lemma append_no_overwrite_actual ops1 ops2 : exists s d r,
  props_run ops1 = Ok s /\ props_run ops2 = Ok d /\ props_append s d false = Ok r /\
  forall k, props_get r k = Ok (over (pm_run ops1) (pm_run ops2) k).
Proof.
  destruct (props_run_spec ops1) as (s & Hs & Hsok & Hsl).
  destruct (props_run_spec ops2) as (d & Hd & Hdok & Hdl).
  destruct (copy_all_spec 1 s d Hsok Hdok (or_introl eq_refl)) as (r & Hr & Hrok & Hrl).
  exists s, d, r. refine (conj Hs (conj Hd (conj Hr _))).
  intros k. rewrite props_get_spec, Hrl by exact Hrok. unfold over. rewrite Hsl, Hdl. reflexivity.
Qed.
Lemma append_no_overwrite_refuted_lemma :
  exists ops1 ops2 s d r k,
    props_run ops1 = Ok s /\ props_run ops2 = Ok d /\ props_append s d false = Ok r /\
    pm_run ops2 k <> None /\ props_get r k <> Ok (pm_run ops2 k).
Proof.
  exists [PSet (str "a") (str "1")], [PSet (str "a") (str "2")].
  destruct (props_run [PSet (str "a") (str "1")]) as [s| | |] eqn:Es; try (vm_compute in Es; discriminate).
  destruct (props_run [PSet (str "a") (str "2")]) as [d| | |] eqn:Ed; try (vm_compute in Ed; discriminate).
  exists s, d. destruct (props_append s d false) as [r| | |] eqn:Er;
    vm_compute in Es; inversion Es; subst s; vm_compute in Ed; inversion Ed; subst d;
    vm_compute in Er; try discriminate.
  exists r, (str "a"). inversion Er; subst r. repeat split; vm_compute; congruence.
Qed.

Lemma external_copy_api ops1 ops2 s d : props_run ops1 = Ok s -> props_run ops2 = Ok d ->
  exists r, copy_properties s d (Z.lor COPY_EXTERNAL COPY_OVERWRITE) = Ok r /\
  forall k, props_get r k = Ok (if starts_with (str "trax.") k then pm_run ops2 k
                                else match pm_run ops1 k with Some v => Some v | None => pm_run ops2 k end).
Proof.
  intros Hs Hd.
  destruct (props_run_spec ops1) as (s' & Hs' & Hsok & Hsl).
  destruct (props_run_spec ops2) as (d' & Hd' & Hdok & Hdl).
  rewrite Hs in Hs'. rewrite Hd in Hd'. inversion Hs'; inversion Hd'; subst s' d'.
  destruct (copy_external_spec s d Hsok Hdok) as (r & Hr & Hrok & Hrl).
  exists r. split; [exact Hr|]. intros k. rewrite props_get_spec, Hrl by exact Hrok.
  unfold ext_key, over. rewrite Hsl, Hdl. destruct (starts_with (str "trax.") k); reflexivity.
Qed.
