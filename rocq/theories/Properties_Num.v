(** Properties C14, C15 and C50: numbers stored in property dictionaries. *)
From Verif Require Import CBase StrMap Props PropsSpec Num PropsNum NumSpec PropsNumProofs.
Local Open Scope Z_scope.

(** C14: in every dictionary (any history of sets and clears), setting any 32-bit int succeeds without overrunning
    the 128-byte text buffer, reading it back gives the same int whatever the default, and other keys are unaffected. *)
Theorem int_property_round_trip : forall ops p key v def, props_run ops = Ok p -> in_int v = true ->
  exists p', props_set_int p key v = Ok p' /\ props_get_int p' key def = Ok v /\
    (forall k, bytes_eqb key k = false -> props_get p' k = props_get p k).
Proof. exact int_round_trip. Qed.
Print Assumptions int_property_round_trip.
Example int_property_round_trip_nonvacuous :
  props_get_int props_create (str "n") 5 = Ok 5 /\
  (p <- props_set_int props_create (str "n") (-2147483648) ;; props_get_int p (str "n") 5) = Ok (-2147483648) /\
  (p <- props_set_int props_create (str "n") 2147483647 ;; props_get p (str "n")) = Ok (Some (str "2147483647")).
Proof. now vm_compute. Qed.

(** C14: an absent key yields the default. *)
Theorem int_property_absent : forall ops p key def, props_run ops = Ok p -> pm_run ops key = None ->
  props_get_int p key def = Ok def.
Proof. exact int_default. Qed.
Print Assumptions int_property_absent.
Example int_property_absent_nonvacuous : pm_run [PSet (str "a") (str "1"); PClear; PSet (str "b") (str "2")] (str "a") = None.
Proof. reflexivity. Qed.

(** C15: every text that denotes an int (spaces, sign, digits) is read as that int ... *)
Theorem int_text_is_read : forall ops p key t v def, props_run ops = Ok p -> pm_run ops key = Some t -> int_text t v ->
  in_int v = true -> props_get_int p key def = Ok v.
Proof. exact int_of_text. Qed.
Print Assumptions int_text_is_read.
Example int_text_is_read_nonvacuous : int_text (str "  +0042") 42 /\ int_text (str "-7") (-7).
Proof.
  split; [exists (str "  "), (str "0042")|exists [], (str "7")];
  (split; [intros c H; repeat (destruct H as [<-|H]; [reflexivity|]); destruct H|]);
  (split; [intros c H; repeat (destruct H as [<-|H]; [reflexivity|]); destruct H|]); (split; [discriminate|]).
  - right; left. now split.
  - right; right. now split.
Qed.

(** C15, partial: a non-empty text no part of which reads as a number from the start gives the default.  Missing, because
    the code violates it: the empty text, fractions, and numbers beyond the int range (see the refutations below). *)
Theorem not_a_number_yields_default_partial : forall ops p key t def, props_run ops = Ok p -> pm_run ops key = Some t ->
  t <> [] -> (forall a b, t = a ++ b -> ~ number_text a) -> props_get_int p key def = Ok def.
Proof. exact int_not_number. Qed.
Print Assumptions not_a_number_yields_default_partial.
Example not_a_number_nonvacuous : forall a b, str "true" = a ++ b -> ~ number_text a.
Proof.
  intros a b E H. destruct (number_text_head a H) as (c & r & -> & Hc). injection E as <- _. discriminate Hc.
Qed.

(** C15, partial: an int followed by anything that cannot continue a number gives the default. *)
Theorem int_with_junk_yields_default_partial : forall ops p key a v c b def, props_run ops = Ok p ->
  pm_run ops key = Some (a ++ c :: b) -> int_text a v -> in_int v = true -> ~ In c (str "0123456789.eExX") ->
  props_get_int p key def = Ok def.
Proof. exact int_then_junk. Qed.
Print Assumptions int_with_junk_yields_default_partial.
Example junk_nonvacuous :
  (p <- props_set props_create (str "n") (str "12 px") ;; props_get_int p (str "n") 5) = Ok 5 /\
  (p <- props_set props_create (str "n") (str "true") ;; props_get_int p (str "n") 5) = Ok 5.
Proof. now vm_compute. Qed.

(** C15 violated: an empty text reads an uninitialised variable; a fraction is truncated instead of rejected; a number
    beyond the int range (or inf) is an undefined conversion. *)
Theorem unconvertible_int_yields_default_refuted : forall def,
  (exists p, props_set props_create (str "n") [] = Ok p /\ props_get_int p (str "n") def = UB) /\
  (exists p, props_set props_create (str "n") (str "3.7") = Ok p /\ props_get_int p (str "n") def = Ok 3) /\
  (exists p, props_set props_create (str "n") (str "1e10") = Ok p /\ props_get_int p (str "n") def = UB) /\
  (exists p, props_set props_create (str "n") (str "inf") = Ok p /\ props_get_int p (str "n") def = UB).
Proof.
  intros def. repeat (match goal with |- _ /\ _ => split end);
  match goal with |- exists p, ?x = Ok p /\ _ => let v := eval vm_compute in x in
    match v with Ok ?p0 => exists p0; split; vm_compute; reflexivity end end.
Qed.
Print Assumptions unconvertible_int_yields_default_refuted.

(** C50: a finite float property is stored without overrunning the buffer; what is read back is within one millionth
    of it, is exactly it from magnitude 16 up, and storing it again stores the same text. *)
Theorem float_property_round_trip : forall ops p key x def, props_run ops = Ok p -> finite_float x ->
  exists p' y, props_set_float p key x = Ok p' /\ props_get_float p' key def = Ok y /\
    closer_than 1000000 y x /\ (at_least 16 x -> units y = units x) /\
    (exists p'', props_set_float p' key y = Ok p'' /\ props_get p'' key = props_get p' key) /\
    (forall k, bytes_eqb key k = false -> props_get p' k = props_get p k).
Proof. exact float_round_trip. Qed.
Print Assumptions float_property_round_trip.
(** The float 0.1 (13421773 * 2^-27) and the largest float. *)
Example float_property_round_trip_nonvacuous :
  finite_float (S754_finite false 13421773 (-27)) /\ finite_float (S754_finite true 16777215 104) /\
  (p <- props_set_float props_create (str "x") (S754_finite false 13421773 (-27)) ;; props_get p (str "x"))
  = Ok (Some (str "0.100000")) /\
  at_least 16 (S754_finite true 16777215 104) /\ ~ at_least 16 (S754_finite false 13421773 (-27)).
Proof.
  split; [split; [reflexivity|exact I]|]. split; [split; [reflexivity|exact I]|]. split; [now vm_compute|].
  split; [vm_compute; discriminate|]. intros H. vm_compute in H. now apply H.
Qed.

(** C50: a non-empty text that is not a number yields the default. *)
Theorem float_not_a_number_yields_default : forall ops p key t def, props_run ops = Ok p -> pm_run ops key = Some t ->
  t <> [] -> ~ number_text t -> props_get_float p key def = Ok def.
Proof. exact float_not_number. Qed.
Print Assumptions float_not_a_number_yields_default.
Example float_not_a_number_nonvacuous :
  (p <- props_set props_create (str "x") (str "0.5m") ;; props_get_float p (str "x") S754_nan) = Ok S754_nan /\
  (p <- props_set props_create (str "x") (str "0.5") ;; props_get_float p (str "x") S754_nan)
  = Ok (S754_finite false 8388608 (-24)).
Proof. now vm_compute. Qed.
