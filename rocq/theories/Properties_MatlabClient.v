(** C108, C109: the Matlab client *)
From Coq Require Import Floats.SpecFloat.
From Verif Require Import CBase StrMap Props PropsSpec Num Region RegionGeom Image Formats Matlab MatlabSpec MatlabClient MatlabClientSpec MatlabClientProofs.
Local Open Scope Z_scope.

(** C108.  Options are pairs of a name in any letter case and a value.  Each has its effect, in any order; of several values the last counts, and the
    variables of several environments come together.  A single argument left over has no effect. *)
Theorem client_options_partial : forall command f kws rest,
  ~ In 0%N command -> Forall proper_option kws -> (List.length rest <= 1)%nat -> in_int (4 + 2 * Z.of_nat (List.length kws)) = true ->
  let ws := map snd kws in
  exists o, client_arguments (text_array command :: f :: flat_map written kws ++ rest) = done (o, command) /\
    p_verbosity o = last_some debugging ws Silent /\ p_timeout o = last_some seconds_of ws 30 /\ p_connection o = last_some connected ws Standard /\
    p_data o = last_some data_of ws None /\ p_directory o = last_some directory_of ws [] /\ p_log o = last_some log_of ws [] /\
    forall k v, In (k, v) (p_environment o) <-> last_option (bytes_eqb k) (variables ws) = Some v.
Proof. exact arguments_ok. Qed.
Print Assumptions client_options_partial.
Example client_options_case : Forall proper_option sample_options /\
  client_arguments (text_array (str "run") :: MStruct [] :: flat_map written sample_options) =
  done (mkOptions Debug 2 Standard [(str "A", str "3"); (str "B", str "2")] None [] [], str "run").
Proof. split; [exact sample_options_proper|vm_compute; reflexivity]. Qed.

(** A name that is no option's is an error *)
Theorem client_unknown_option : forall command f k v rest, ~ In 0%N k -> other_name k ->
  client_arguments (text_array command :: f :: text_array k :: v :: rest) = mex_error.
Proof. exact arguments_unknown. Qed.
Print Assumptions client_unknown_option.
Example client_unknown_option_case : other_name (str "name") /\ other_name (str "speed") /\ ~ other_name (str "LOG").
Proof. split; [intros [| | | | | |]; vm_compute; reflexivity|]. split; [intros [| | | | | |]; vm_compute; reflexivity|]. intros H. specialize (H (WLog [])). vm_compute in H. discriminate. Qed.

(** A deadline that is no number of seconds, as infinity, is not refused: the conversion to int is undefined *)
Theorem client_timeout_refuted : forall command f x, x = S754_nan \/ (exists s, x = S754_infinity s) ->
  client_arguments [text_array command; f; text_array (str "timeout"); MDouble 1 1 [x]] = UB.
Proof. exact timeout_ub. Qed.
Print Assumptions client_timeout_refuted.

(** C109.  In each turn the callback gets what is known of the tracker and its own data; what it asks for is sent, until it asks for no image.
    (For answers that never lack a property that an earlier one had.) *)
Theorem client_session_partial : forall m ts data events result, sane_meta m -> Forall sane_answer ts -> lasting (fun _ => False) ts ->
  client m ts (Some data) = (events, Ok result) -> conversation m false (None, S754_zero false, pm_empty) data ts events result.
Proof. exact client_talks. Qed.
Print Assumptions client_session_partial.
Example client_session_case :
  let ts := [first_turn props_create; frame_turn score; last_turn] in
  sane_meta sample_meta /\ Forall sane_answer ts /\ lasting (fun _ => False) ts /\
  exists a b c d e, client sample_meta ts (Some (text_array (str "data"))) = ([a; b; c; d; e], done (text_array (str "data"))) /\ (exists v, a = Called v (text_array (str "data"))) /\
    (exists images p, b = Started images sample_box p) /\ (exists images p, d = Framed images p) /\ exists v, e = Called v (text_array (str "data")) /\ showing v (str "score") (text_array (str "1")).
Proof.
  destruct sample_turns as (A & B & C). split; [exact B|]. split; [exact A|]. split; [exact C|]. eexists _, _, _, _, _. split; [vm_compute; reflexivity|].
  split; [eexists; reflexivity|]. split; [eexists _, _; reflexivity|]. split; [eexists _, _; reflexivity|]. eexists. split; [reflexivity|].
  eexists _, _. split; [reflexivity|]. split; [right; right; left; vm_compute; reflexivity|]. left. vm_compute. reflexivity.
Qed.

(** Calls of the callback and requests to the tracker alternate; the tracker is started first, and again before a new region while it runs.
    A session that ends well has asked once more than it has sent. *)
Theorem client_order_holds : forall m ts data events result, client m ts data = (events, result) ->
  regular false events /\ forall d, result = done d -> calls events = S (sent events).
Proof. exact client_order. Qed.
Print Assumptions client_order_holds.
Example client_order_case :
  let run := client sample_meta [first_turn score; first_turn props_create; frame_turn props_create; last_turn] None in
  calls (fst run) = 4%nat /\ sent (fst run) = 3%nat /\ snd run = done (MDouble 0 0 []).
Proof. vm_compute. split; [|split]; reflexivity. Qed.

(** A property that the last answer does not have is still shown when an earlier answer had it *)
Theorem client_stale_properties_refuted : exists m start frame final r p events v d, sane_meta m /\ Forall sane_answer [start; frame; final] /\
  t_answer frame = Some (r, p) /\ (forall key, ~ has p key) /\
  client m [start; frame; final] None = (events ++ [Called v d], done d) /\ showing v (str "score") (text_array (str "1")).
Proof. exact stale_shown. Qed.
Print Assumptions client_stale_properties_refuted.
