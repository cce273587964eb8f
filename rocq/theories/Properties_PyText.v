(** Properties C96 and C97: texts of the Python bindings *)
From Coq Require Import Lia.
From Verif Require Import CBase StrMap Props PropsSpec Message MessageSpec PyText PyTextSpec PyTextProofs.

(** Strings become UTF-8 and come back from UTF-8, and from nothing else. *)
Theorem python_text_encoded : forall s b, utf8_encode s = Some b <-> utf8_text s b.
Proof. exact utf8_encode_text. Qed.
Print Assumptions python_text_encoded.
Theorem python_text_decoded : forall b s, utf8_decode b = Some s <-> utf8_text s b.
Proof. exact utf8_decode_text. Qed.
Print Assumptions python_text_decoded.
(** A letter, an umlaut, a katakana, a character beyond the basic plane; an overlong form and a surrogate are refused *)
Example python_text_example :
  utf8_encode [97; 252; 12450; 128512] = Some [97; 195; 188; 227; 130; 162; 240; 159; 152; 128] /\
  utf8_decode [97; 195; 188; 227; 130; 162; 240; 159; 152; 128] = Some [97; 252; 12450; 128512] /\
  utf8_decode [192; 175] = None /\ utf8_decode [237; 160; 128] = None /\ utf8_encode [55296] = None.
Proof. vm_compute. repeat split. Qed.

(** C96, for texts without NUL and without lone surrogates: what was set last is what get and dict give. *)
Theorem python_properties_partial : forall sets, Forall (fun kv => plain (fst kv) /\ plain (snd kv)) sets ->
  exists p, set_items sets props_create = ret p /\
    (forall k d, plain k -> properties_get p k d = ret (match latest sets k with Some v => Some v | None => d end)) /\
    shows (properties_dict p) (fun k v => latest sets k = Some v).
Proof. exact python_properties_lemma. Qed.
Print Assumptions python_properties_partial.
Example python_properties_example :
  let sets := [([252], [97]); ([98], [12450]); ([252], [128512])] in
  Forall (fun kv => plain (fst kv) /\ plain (snd kv)) sets /\
  exists p, set_items sets props_create = ret p /\ properties_get p [252] None = ret (Some [128512]) /\
    properties_get p [99] (Some [100]) = ret (Some [100]) /\ List.length (properties_dict p) = 2%nat.
Proof.
  split.
  - repeat constructor; try (left; reflexivity); try (right; split; [discriminate|reflexivity]); discriminate.
  - eexists. split; [vm_compute; reflexivity|]. vm_compute. repeat split.
Qed.

(** copy: the source's values, and the other values of the destination *)
Theorem python_properties_copied_partial : forall ssets dsets, Forall (fun kv => plain (fst kv) /\ plain (snd kv)) (ssets ++ dsets) ->
  exists s d r, set_items ssets props_create = ret s /\ set_items dsets props_create = ret d /\ properties_copy d s = ret r /\
    forall k def, plain k ->
      properties_get r k def =
      ret (match latest ssets k with Some v => Some v | None => match latest dsets k with Some v => Some v | None => def end end).
Proof. exact copy_lemma. Qed.
Print Assumptions python_properties_copied_partial.
Example python_properties_copied_example :
  exists s d r, set_items [([252], [97])] props_create = ret s /\ set_items [([252], [98]); ([99], [100])] props_create = ret d /\
    properties_copy d s = ret r /\ properties_get r [252] None = ret (Some [97]) /\ properties_get r [99] None = ret (Some [100]).
Proof.
  eexists _, _, _. split; [vm_compute; reflexivity|]. split; [vm_compute; reflexivity|]. split; [vm_compute; reflexivity|].
  vm_compute. split; reflexivity.
Qed.

(** Properties that come from the C library (received ones): what get and dict give for every dictionary of C strings *)
Theorem python_properties_received : forall ops p, props_run ops = Ok p -> c_strings_set ops ->
  (forall k kb d, plain k -> utf8_text k kb ->
     (pm_run ops kb = None -> properties_get p k d = ret d) /\
     (forall vb v, pm_run ops kb = Some vb -> utf8_text v vb -> properties_get p k d = ret (Some v)) /\
     (forall vb, pm_run ops kb = Some vb -> (forall v, ~ utf8_text v vb) -> properties_get p k d = raise UnicodeDecodeError)) /\
  shows (properties_dict p) (fun k v => exists kb vb, utf8_text k kb /\ utf8_text v vb /\ pm_run ops kb = Some vb).
Proof. exact received_lemma. Qed.
Print Assumptions python_properties_received.
Example python_properties_received_example :
  let ops := [PSet (str "a") [195; 188]; PSet (str "b") [255]] in
  c_strings_set ops /\ exists p, props_run ops = Ok p /\ properties_get p (str "a") None = ret (Some [252]) /\
    properties_get p (str "b") None = raise UnicodeDecodeError /\ properties_dict p = [(str "a", [252])].
Proof.
  split.
  - repeat constructor; intros H; vm_compute in H; intuition discriminate.
  - eexists. split; [vm_compute; reflexivity|]. vm_compute. repeat split.
Qed.

(** C96 is violated: a NUL ends the key that C sees, ... *)
Theorem nul_in_key_refuted : exists p, set_items [([97; 0; 98], [99])] props_create = ret p /\
  properties_dict p = [([97], [99])] /\ properties_get p [97] None = ret (Some [99]).
Proof. eexists. split; [vm_compute; reflexivity|]. vm_compute. split; reflexivity. Qed.
Print Assumptions nul_in_key_refuted.
(** ... p["a"] cannot be read, whatever p holds, ... *)
Theorem item_of_properties_refuted : exists p, set_items [([97], [98])] props_create = ret p /\
  properties_get p [97] None = ret (Some [98]) /\ properties_getitem p (KeyStr [97]) = raise ArgumentError.
Proof. eexists. split; [vm_compute; reflexivity|]. vm_compute. split; reflexivity. Qed.
Print Assumptions item_of_properties_refuted.
(** ... an object made of another one (for instance of the properties of a request) cannot be used, ... *)
Theorem properties_of_properties_refuted : forall p, exists self,
  properties_init (DProperties p) = ret self /\ properties_reference self = raise AttributeError.
Proof. exact (fun p => ex_intro _ None (conj eq_refl eq_refl)). Qed.
Print Assumptions properties_of_properties_refuted.
(** ... and dict leaves out, without a word, what is no UTF-8. *)
Theorem undecodable_property_dropped_refuted : exists p, props_run [PSet (str "a") [255]; PSet (str "b") (str "c")] = Ok p /\
  props_get p (str "a") = Ok (Some [255]) /\ properties_dict p = [(str "b", str "c")].
Proof. eexists. split; [vm_compute; reflexivity|]. vm_compute. split; reflexivity. Qed.
Print Assumptions undecodable_property_dropped_refuted.

(** C97, messages sent: the logger gets the text of the message, for UTF-8 arguments and properties. *)
Theorem log_of_sent_message_partial : forall t args ops p, props_run ops = Ok p ->
  Forall (fun a => no_nul a /\ exists s, utf8_text s a) args ->
  (forall k v, pm_run ops k = Some v -> no_nul k /\ no_nul v /\ (exists s, utf8_text s k) /\ exists s, utf8_text s v) ->
  forall log, exists m, utf8_text m (wire t args (props_enum p)) /\ logger_calls (sent_calls t args p) log = Ok (log ++ m).
Proof. exact sent_lemma. Qed.
Print Assumptions log_of_sent_message_partial.
Example log_of_sent_message_example : exists p, props_run [PSet (str "a") [195; 188; 10; 98]] = Ok p /\
  logger_calls (sent_calls MState [[49; 34; 195; 164]] p) [] =
  Ok (str "@@TRAX:state ""1\""" ++ [228] ++ str """ ""a=" ++ [252] ++ str "\nb"" " ++ [10]).
Proof. eexists. split; [vm_compute; reflexivity|]. vm_compute. reflexivity. Qed.

(** C97, messages received: only when the variable of the reader happens to be followed by a NUL, and only for characters below 128 *)
Theorem log_of_received_message_partial : forall beyond chars, In 0 beyond -> forall log,
  logger_calls (received_calls beyond chars) log = Ok (log ++ filter (fun c => (0 <? c) && (c <? 128)) chars).
Proof. exact received_calls_lemma. Qed.
Print Assumptions log_of_received_message_partial.
Example log_of_received_message_example : logger_calls (received_calls [0] (str "@@TRAX:quit" ++ [10])) [] = Ok (str "@@TRAX:quit" ++ [10]).
Proof. vm_compute. reflexivity. Qed.
(** C97 is violated: the conversion of the callback's argument reads beyond the character, ... *)
Theorem log_reads_beyond_character_refuted : forall c chars log, c <> 0 -> logger_calls (received_calls [] (c :: chars)) log = UB.
Proof. exact received_beyond. Qed.
Print Assumptions log_reads_beyond_character_refuted.
(** ... and characters outside ASCII are lost even if a NUL follows. *)
Theorem received_character_not_logged_refuted :
  utf8_text [97; 252] [97; 195; 188] /\ logger_calls (received_calls [0] [97; 195; 188]) [] = Ok [97].
Proof. exact (conj (proj1 (utf8_decode_text [97; 195; 188] [97; 252]) eq_refl) eq_refl). Qed.
Print Assumptions received_character_not_logged_refuted.
