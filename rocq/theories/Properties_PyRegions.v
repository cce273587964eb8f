(** C117: regions made in Python have the type, the coordinates and the number of points they were made of. *)
From Verif Require Import CBase Num NumSpec Region Matlab PyText PyArrays PySession PyRegions PyRegionsSpec PyRegionsProofs.
Local Open Scope Z_scope.

(** A rectangle returns its four numbers. *)
Theorem python_rectangle_partial : forall x y w h, ordinary x -> ordinary y -> ordinary w -> ordinary h ->
  exists o bx yb wb hb, rectangle_create x y w h = ret o /\ rectangle_bounds o = ret (bx, yb, wb, hb) /\ type_name (o_class o) = str "rectangle" /\
    comes_back x bx /\ comes_back y yb /\ comes_back w wb /\ comes_back h hb.
Proof. exact rectangle_lemma. Qed.
Print Assumptions python_rectangle_partial.
Example python_rectangle_case : exists o, rectangle_create (NInt 10) (NFloat (S754_finite true 5 (-1))) (NInt 100) (NInt 3) = ret o /\
  rectangle_bounds o = ret (double_of_int 10, S754_finite true 5629499534213120 (-51), double_of_int 100, double_of_int 3) /\
  fits (NInt 10) /\ ordinary (NInt 10) /\ ordinary (NFloat (S754_finite true 5 (-1))).
Proof.
  eexists. split; [vm_compute; reflexivity|]. split; [vm_compute; reflexivity|]. split; [cbn; lia|].
  split; (split; [vm_compute; discriminate|]); cbn; [exact Logic.I|lia].
Qed.
(** Other arguments are refused. *)
Theorem python_rectangle_refused : forall x y w h, In NOther [x; y; w; h] -> (forall n, In n [x; y; w; h] -> n = NOther \/ ordinary n) ->
  rectangle_create x y w h = raise ArgumentError.
Proof. exact rectangle_refused. Qed.
Print Assumptions python_rectangle_refused.
Example python_rectangle_refused_case : rectangle_create (NInt 1) NOther (NInt 2) NOther = raise ArgumentError.
Proof. vm_compute. reflexivity. Qed.
(** A special region returns its code, ... *)
Theorem python_special_partial : forall z, INT_MIN <= z <= INT_MAX ->
  exists o, special_create (NInt z) = ret o /\ special_code o = ret z /\ type_name (o_class o) = str "special".
Proof. exact special_lemma. Qed.
Print Assumptions python_special_partial.
Example python_special_case : INT_MIN <= -5 <= INT_MAX.
Proof. unfold INT_MIN, INT_MAX. lia. Qed.
(** ... but codes that are no C ints silently become others. *)
Theorem special_code_refuted : forall z k, INT_MIN <= z <= INT_MAX -> exists o, special_create (NInt (z + k * 2 ^ 32)) = ret o /\ special_code o = ret z.
Proof. exact special_wraps. Qed.
Print Assumptions special_code_refuted.
Example special_code_case : exists o, special_create (NInt 4294967297) = ret o /\ special_code o = ret 1.
Proof. eexists. split; vm_compute; reflexivity. Qed.
(** A polygon has as many points as the list, and they come back by index and in a loop; other indices are refused. *)
Theorem python_polygon_partial : forall ps, Forall good_point ps -> 2 < Z.of_nat (List.length ps) <= INT_MAX ->
  exists o back, polygon_create (PList ps) = Ok (inl o, 0%nat) /\ Forall2 point_back ps back /\
    type_name (o_class o) = str "polygon" /\ polygon_size o = ret (Z.of_nat (List.length ps)) /\
    (forall i q, 0 <= i -> nth_error back (Z.to_nat i) = Some q -> polygon_get o i = ret q) /\
    (forall i, i < 0 \/ Z.of_nat (List.length ps) <= i -> polygon_get o i = raise IndexError) /\
    (forall fuel, (List.length ps < fuel)%nat -> for_in fuel (IPolygon o) = ret back).
Proof. exact polygon_lemma. Qed.
Print Assumptions python_polygon_partial.
Example python_polygon_case :
  let ps := [PTuple [NInt 0; NInt 1]; PTuple [NInt 7; NInt (-2)]; PTuple [NFloat (S754_finite false 1 0); NInt 4; NOther]] in
  Forall good_point ps /\ exists o, polygon_create (PList ps) = Ok (inl o, 0%nat) /\ polygon_get o 1 = ret (double_of_int 7, double_of_int (-2)) /\
    for_in 4 (IPolygon o) = ret [(double_of_int 0, double_of_int 1); (double_of_int 7, double_of_int (-2)); (double_of_int 1, double_of_int 4)].
Proof.
  split.
  - repeat (apply Forall_cons; [eexists _, _; (split; [constructor|]); (split; (split; [vm_compute; discriminate|])); cbn; (exact Logic.I || lia)|]). apply Forall_nil.
  - eexists. split; [vm_compute; reflexivity|]. split; vm_compute; reflexivity.
Qed.
(** Arguments that are no list, too short, or contain something else than tuples are refused, ... *)
Theorem python_polygon_refused : forall a, a = PNoList \/ (exists l, a = PList l /\ ((List.length l < 3)%nat \/ In PNoTuple l)) ->
  polygon_create a = Ok (inr AssertionError, 0%nat).
Proof. exact polygon_refused. Qed.
Print Assumptions python_polygon_refused.
Example python_polygon_refused_case : In PNoTuple [PTuple []; PNoTuple; PTuple []].
Proof. right. left. reflexivity. Qed.
(** ... but a tuple without two numbers makes the call fail after the polygon was allocated, which is never released. *)
Theorem polygon_leak_refuted : forall good bad rest, Forall good_point good -> bad_point bad -> Forall (fun p => is_tuple p = true) rest ->
  2 < Z.of_nat (List.length (good ++ bad :: rest)) <= INT_MAX ->
  exists e, polygon_create (PList (good ++ bad :: rest)) = Ok (inr e, 1%nat).
Proof. exact polygon_leaks. Qed.
Print Assumptions polygon_leak_refuted.
Example polygon_leak_case : polygon_create (PList [PTuple [NInt 0; NInt 0]; PTuple [NInt 1]; PTuple [NInt 1; NInt 1]]) = Ok (inr IndexError, 1%nat).
Proof. vm_compute. reflexivity. Qed.
(** Whatever region the C library returns, the object is of the class of its type. *)
Theorem python_wrap : forall r, exists o, wrap (Some r) = Some o /\ o_region o = r /\
  encode_name region_codes (type_name (o_class o)) = ret (native_type (Some r)).
Proof. exact wrap_lemma. Qed.
Print Assumptions python_wrap.
Example python_wrap_case : wrap (Some (RSpecial 3)) = Some (mkObject CSpecial (RSpecial 3)).
Proof. reflexivity. Qed.
(** C117 is violated: Python's numbers are rounded to single precision without notice, ... *)
Theorem single_precision_refuted : ~ fits (NInt 16777217) /\
  exists o, rectangle_create (NInt 16777217) (NInt 0) (NInt 1) (NInt 1) = ret o /\
  exists x y w h, rectangle_bounds o = ret (x, y, w, h) /\ x = double_of_int 16777216.
Proof. exact rounded_int. Qed.
Print Assumptions single_precision_refuted.
(** ... large ones become infinite, ... *)
Theorem infinite_refuted : exists o, rectangle_create (NFloat (double_of_int (2 ^ 200))) (NInt 0) (NInt 1) (NInt 1) = ret o /\
  exists y w h, rectangle_bounds o = ret (S754_infinity false, y, w, h).
Proof. exact infinite_lemma. Qed.
Print Assumptions infinite_refuted.
(** ... and the iterator of a polygon cannot itself be used in a loop. *)
Theorem iterator_refuted : forall it fuel, for_in fuel (IIterator it) = raise TypeError.
Proof. exact not_iterable. Qed.
Print Assumptions iterator_refuted.
