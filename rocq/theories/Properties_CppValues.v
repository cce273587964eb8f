(** Properties C113 and C114: C++ metadata and C++ dictionaries *)
From Coq Require Import Sorted.
From Verif Require Import CBase Props PropsSpec Message MessageSpec Num NumSpec Formats Handle SessionSpec SendableProofs Matlab MatlabSpec CppValues CppValuesSpec CppValuesProofs.
Local Open Scope Z_scope.

(** C113: a metadata object shows what it was made with and, for each custom property, the last value given, or the empty text. *)
Theorem cpp_metadata_partial : forall a, announce_ok a ->
  exists m, announced_by a = Ok m /\ shows m (an_region a) (an_image a) (an_channels a) a /\ shows_custom m a.
Proof. exact metadata_object. Qed.
Print Assumptions cpp_metadata_partial.

(** C113, apart from the custom properties: a server that starts with this object is accepted, and the client's metadata() shows the formats
    the protocol knows, the channels (color only in version 1), the texts of the tracker and (from version 4) whether it tracks several objects, however the bytes are cut. *)
Theorem cpp_client_metadata_partial : forall a version m cut sched_s sched_c, announce_ok a -> version <= 4 -> announced_by a = Ok m ->
  cutter cut -> no_error sched_s -> no_error sched_c ->
  exists c s mc, connect m version cut sched_s sched_c = Ok (Some (c, s)) /\ handle_metadata (Some c) = Ok mc /\
    md_flags mc = Some (if an_multi a && (spoken version =? 4) then TRAX_METADATA_MULTI_OBJECT else 0) /\
    shows mc (Z.land (an_region a) 14) (Z.land (an_image a) 15) (if spoken version =? 1 then TRAX_CHANNEL_COLOR else an_channels a) a.
Proof. exact client_metadata. Qed.
Print Assumptions cpp_client_metadata_partial.
Example cpp_client_metadata_nonvacuous : announce_ok sample_announce /\ an_custom sample_announce <> [].
Proof. split; [exact sample_announce_ok|discriminate]. Qed.

(** C113: an object without a handle shows no formats, the color channel and no texts. *)
Theorem cpp_metadata_unset : exists m, handle_metadata None = Ok m /\ shows m 0 0 TRAX_CHANNEL_COLOR (mkAnnounce 0 0 TRAX_CHANNEL_COLOR [] [] [] false []) /\
  md_flags m = Some 0 /\ forall k, cm_get_custom m k = Ok [].
Proof. exact unset_metadata. Qed.
Print Assumptions cpp_metadata_unset.

(** C113 violated: the object that metadata() of any handle returns has no custom properties at all ... *)
Theorem cpp_metadata_forgets : forall h mc, handle_metadata (Some h) = Ok mc -> forall k, cm_get_custom mc k = Ok [].
Proof. exact handle_forgets. Qed.
Print Assumptions cpp_metadata_forgets.
(** ... so a client that asks for a custom property the tracker announced gets the empty text. *)
Theorem cpp_metadata_custom_refuted : exists m c s mc, announced_by sample_announce = Ok m /\ connect m 0 byte_cut [] [] = Ok (Some (c, s)) /\
  handle_metadata (Some c) = Ok mc /\ ~ shows_custom mc sample_announce.
Proof. exact custom_lost. Qed.
Print Assumptions cpp_metadata_custom_refuted.

(** C114: after any calls of set, clear and from_map the getters return what the name was last set to: the text, the int, the bool of an int,
    the float (closer than one millionth); and for a name that was not set the default. *)
Theorem cpp_dictionary_partial : forall ops, Forall cop_ok ops -> exists p, crun ops = Ok p /\ forall k, text_without_nul k -> gets p k (cmeans ops k).
Proof.
  intros ops H. destruct (run_map ops H) as (p & E & _). exact (ex_intro _ p (conj E (getters ops p H E))).
Qed.
Print Assumptions cpp_dictionary_partial.
Example cpp_dictionary_nonvacuous : Forall cop_ok sample_cops /\ cmeans sample_cops (str "n") = None /\ cmeans sample_cops (str "m") = Some (VInt 7) /\
  cmeans sample_cops (str "b") = Some (VText (str "z")) /\ cmeans sample_cops (str "a") = Some (VText (str "1")) /\ cmeans sample_cops (str "f") = Some (VFloat (fl 3)).
Proof. split; [exact sample_cops_ok|]. vm_compute. split; [|split; [|split; [|split]]]; reflexivity. Qed.

(** C114: the size, the names of to_vector and the printed lines are those of the names that are set, each once, with the texts that get returns. *)
Theorem cpp_dictionary_listing : forall ops p, Forall cop_ok ops -> crun ops = Ok p -> exists l,
  NoDup (map fst l) /\ (forall k, In k (map fst l) <-> cmeans ops k <> None) /\
  (forall k v, In (k, v) l -> text_without_nul k -> forall d, cp_get p k d = Ok v) /\
  cp_size p = List.length l /\ (forall v, cp_to_vector p v = v ++ map fst l) /\
  cp_print p = flat_map (fun kv => fst kv ++ str "=" ++ snd kv ++ [10%N]) l.
Proof. exact listing. Qed.
Print Assumptions cpp_dictionary_listing.
Example cpp_dictionary_listing_nonvacuous : exists p, crun sample_cops = Ok p /\ cp_size p = 4%nat.
Proof. eexists. split; [vm_compute; reflexivity|]. vm_compute. reflexivity. Qed.

(** C114: to_map puts every property into the given map and leaves its other pairs; a map given to from_map of a new dictionary comes back from to_map. *)
Theorem cpp_dictionary_to_map : forall ops p m, Forall cop_ok ops -> crun ops = Ok p -> is_map m -> is_map (cp_to_map p m) /\
  (forall k v, text_without_nul k -> In (k, v) (cp_to_map p m) <-> (if cmeans ops k then cp_get p k [] = Ok v else In (k, v) m)).
Proof. exact map_taken. Qed.
Print Assumptions cpp_dictionary_to_map.
Theorem cpp_dictionary_map_round_trip : forall m, is_map m -> Forall (fun kv => text_without_nul (fst kv) /\ text_without_nul (snd kv)) m ->
  exists p, cp_from_map cp_new m = Ok p /\ cp_to_map p [] = m.
Proof. exact map_there_and_back. Qed.
Print Assumptions cpp_dictionary_map_round_trip.
Example cpp_dictionary_map_nonvacuous : is_map [(str "a", str "1"); (str "b", str "")] /\
  (exists p, crun sample_cops = Ok p /\ cp_to_map p [(str "a", str "old"); (str "zz", str "kept")] =
    [(str "a", str "1"); (str "b", str "z"); (str "f", str "3.000000"); (str "m", str "7"); (str "zz", str "kept")]).
Proof.
  split; [|eexists; split; [vm_compute; reflexivity|vm_compute; reflexivity]]. apply SSorted_cons; [apply SSorted_cons; [apply SSorted_nil|apply Forall_nil]|].
  apply Forall_cons; [apply less_head; vm_compute; reflexivity|apply Forall_nil].
Qed.

(** C114: the default of get with a double comes back when it is the value of a float ... *)
Theorem cpp_double_default_partial : forall ops p k x, Forall cop_ok ops -> crun ops = Ok p -> text_without_nul k -> cmeans ops k = None -> single x ->
  cp_get_double p k (double_of_float x) = Ok (double_of_float x).
Proof. exact double_default. Qed.
Print Assumptions cpp_double_default_partial.
Example cpp_double_default_nonvacuous : single (fl 3) /\ cmeans sample_cops (str "n") = None.
Proof. split; vm_compute; reflexivity. Qed.
(** ... but not for other doubles, such as 0.1, even from an empty dictionary. *)
Theorem cpp_double_default_refuted : exists d, cp_get_double cp_new (str "k") d <> Ok d /\ d = SpecFloat.SFdiv 53 1024 (double_of_int 1) (double_of_int 10).
Proof. exact double_default_rounded. Qed.
Print Assumptions cpp_double_default_refuted.
(** C114 violated: a std::string may contain a NUL; what follows it is lost. *)
Theorem cpp_nul_text_refuted : exists p, crun [CText (str "k") [97%N; 0%N; 98%N]] = Ok p /\ cp_get p (str "k") [] = Ok [97%N].
Proof. exact nul_cut. Qed.
Print Assumptions cpp_nul_text_refuted.
