(** Properties C12, C13 and C16: property dictionaries. *)
From Verif Require Import CBase StrMap Props PropsSpec StrMapProofs PropsProofs.

(** C12: whatever the history of set and clear operations ([props_run] performs them on a fresh dictionary with the
    C functions, [pm_run] on a mathematical map), reading, testing, enumerating and counting agree with the map. *)
Theorem properties_are_a_finite_map : forall ops, exists m, props_run ops = Ok m /\
  (forall k, props_get m k = Ok (pm_run ops k)) /\
  (forall k, props_has m k = Ok (match pm_run ops k with Some _ => true | None => false end)) /\
  enumerates (props_enum m) (pm_run ops) /\
  props_count m = List.length (props_enum m).
Proof. exact props_api. Qed.
Print Assumptions properties_are_a_finite_map.

(** A history with a hash collision ("a" and "A" share a bucket), a replacement and a clear. *)
Example properties_are_a_finite_map_nonvacuous :
  let ops := [PSet (str "x") (str "0"); PClear; PSet (str "a") (str "1"); PSet (str "A") (str "long value");
              PSet (str "a") (str "22"); PSet (str "A") (str "s")] in
  bucket_index props_create (str "a") = bucket_index props_create (str "A") /\
  pm_run ops (str "a") = Some (str "22") /\ pm_run ops (str "A") = Some (str "s") /\ pm_run ops (str "x") = None.
Proof. repeat split. Qed.

(** C13: no history of operations writes outside an allocation (an overrun is UB in the model), and a pair always
    has room for its value. *)
Theorem properties_storage_safe : forall ops, exists m, props_run ops = Ok m /\
  forall b p, In b m -> In p b -> (S (List.length (pv p)) <= pv_cap p)%nat.
Proof.
  exact (fun ops => match props_run_spec ops with
    | ex_intro _ m (conj Hr (conj (conj _ Hb) _)) => ex_intro _ m (conj Hr (fun b p Hbm Hp =>
        match In_nth m b [] Hbm with
        | ex_intro _ i (conj Hi E) =>
            proj2 (proj1 (Forall_forall _ _) (proj2 (Hb i Hi)) p (eq_ind_r (fun x => In p x) Hp E))
        end))
    end).
Qed.
Print Assumptions properties_storage_safe.

(** C16, overwriting: source pairs win, other destination pairs stay. *)
Theorem append_with_overwrite : forall ops1 ops2, exists s d r,
  props_run ops1 = Ok s /\ props_run ops2 = Ok d /\ props_append s d true = Ok r /\
  forall k, props_get r k = Ok (match pm_run ops1 k with Some v => Some v | None => pm_run ops2 k end).
Proof. exact append_overwrite_api. Qed.
Print Assumptions append_with_overwrite.

(** Copying yields an equal dictionary. *)
Theorem copy_is_equal : forall ops, exists s r, props_run ops = Ok s /\ props_copy s = Ok r /\
  forall k, props_get r k = Ok (pm_run ops k).
Proof. exact copy_api. Qed.
Print Assumptions copy_is_equal.

(** C16, not overwriting, is violated: a key the destination had loses its value. *)
Theorem append_without_overwrite_refuted : exists ops1 ops2 s d r k,
    props_run ops1 = Ok s /\ props_run ops2 = Ok d /\ props_append s d false = Ok r /\
    pm_run ops2 k <> None /\ props_get r k <> Ok (pm_run ops2 k).
Proof. exact append_no_overwrite_refuted_lemma. Qed.
Print Assumptions append_without_overwrite_refuted.

(** What the code does with overwriting disabled: the same as with overwriting enabled. *)
Theorem append_without_overwrite_partial : forall ops1 ops2, exists s d r,
  props_run ops1 = Ok s /\ props_run ops2 = Ok d /\ props_append s d false = Ok r /\
  forall k, props_get r k = Ok (match pm_run ops1 k with Some v => Some v | None => pm_run ops2 k end).
Proof. exact append_no_overwrite_actual. Qed.
Print Assumptions append_without_overwrite_partial.

(** The filter used for tracker-defined properties during the handshake: keys starting with "trax." are not copied. *)
Theorem external_copy_filters_reserved_keys : forall ops1 ops2 s d,
  props_run ops1 = Ok s -> props_run ops2 = Ok d ->
  exists r, copy_properties s d (Z.lor COPY_EXTERNAL COPY_OVERWRITE) = Ok r /\
  forall k, props_get r k = Ok (if starts_with (str "trax.") k then pm_run ops2 k
                                else match pm_run ops1 k with Some v => Some v | None => pm_run ops2 k end).
Proof. exact external_copy_api. Qed.
Print Assumptions external_copy_filters_reserved_keys.

Example external_copy_nonvacuous :
  starts_with (str "trax.") (str "trax.name") = true /\ starts_with (str "trax.") (str "traxname") = false.
Proof. split; reflexivity. Qed.
