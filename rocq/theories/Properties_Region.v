(** Properties C24 to C27: the text form of regions. *)
From Verif Require Import CBase Num NumSpec Region RegionSpec RegionProofs.
Local Open Scope Z_scope.

(** C24, partial: a special region with a code of magnitude at most 2^24 survives encoding and decoding.  Missing: larger
    codes, for which the code is wrong (next theorem). *)
Theorem special_region_round_trip_partial : forall c, exact_int c ->
  exists t, region_string (RSpecial c) = Ok (Some t) /\ region_parse t = Ok (true, Some (RSpecial c)).
Proof. exact special_round_trip. Qed.
Print Assumptions special_region_round_trip_partial.
Example special_region_round_trip_nonvacuous : exact_int (-16777216) /\ region_string (RSpecial (-3)) = Ok (Some (str "-3")).
Proof. split; [unfold exact_int; lia|now vm_compute]. Qed.

(** C24 violated: codes pass through single precision.  One is changed; for the largest int the conversion is undefined. *)
Theorem special_region_round_trip_refuted :
  (exists t, region_string (RSpecial 16777217) = Ok (Some t) /\ region_parse t = Ok (true, Some (RSpecial 16777216))) /\
  (exists t, region_string (RSpecial 2147483647) = Ok (Some t) /\ region_parse t = UB).
Proof. split; [exists (str "16777217")|exists (str "2147483647")]; now vm_compute. Qed.
Print Assumptions special_region_round_trip_refuted.

(** C25: rectangles with finite coordinates. *)
Theorem rectangle_text_is_stable : forall x y w h,
  finite_float x -> finite_float y -> finite_float w -> finite_float h ->
  exists t x' y' w' h', region_string (RRect x y w h) = Ok (Some t) /\
    region_parse t = Ok (true, Some (RRect x' y' w' h')) /\
    region_string (RRect x' y' w' h') = Ok (Some t) /\
    coord_close x' x /\ coord_close y' y /\ coord_close w' w /\ coord_close h' h.
Proof. exact rect_round_trip. Qed.
Print Assumptions rectangle_text_is_stable.
(** 0.1, -0, the smallest denormal and the largest float. *)
Example rectangle_text_is_stable_nonvacuous :
  Forall finite_float [S754_finite false 13421773 (-27); S754_zero true; S754_finite false 1 (-149); S754_finite false 16777215 104] /\
  region_string (RRect (S754_finite false 13421773 (-27)) (S754_zero true) (S754_finite false 1 (-149)) (S754_finite false 16777215 104))
  = Ok (Some (str "0.1000,-0.0000,0.0000,340282346638528859811704183484516925440.0000")).
Proof. split; [repeat constructor|now vm_compute]. Qed.

(** C25: polygons of at least three points with finite coordinates. *)
Theorem polygon_text_is_stable : forall pts, (3 <= List.length pts)%nat -> Forall point_finite pts ->
  exists t pts', region_string (RPoly pts) = Ok (Some t) /\
    region_parse t = Ok (true, Some (RPoly pts')) /\ region_string (RPoly pts') = Ok (Some t) /\
    Forall2 point_close pts' pts.
Proof. exact poly_round_trip. Qed.
Print Assumptions polygon_text_is_stable.
Example polygon_text_is_stable_nonvacuous :
  Forall point_finite [(float_0, float_0); (float_1, float_m2_5); (float_m2_5, float_1)] /\
  region_string (RPoly [(float_0, float_0); (float_1, float_m2_5); (float_m2_5, float_1)])
  = Ok (Some (str "0.0000,0.0000,1.0000,-2.5000,-2.5000,1.0000")).
Proof. split; [repeat constructor|now vm_compute]. Qed.

(** C26, partial: masks with some foreground, offsets and sides up to 2^24 and runs of at most 2^24 equal pixels decode to
    the same geometry and the same foreground.  Missing: all-background masks and larger numbers, where the code is wrong. *)
Theorem mask_text_round_trip_partial : forall x y w h data,
  exact_int x -> exact_int y -> exact_int w -> exact_int h ->
  in_int (w * h) = true -> Z.of_nat (List.length data) = w * h ->
  (exists d, In d data /\ d <> 0%N) -> short_runs (2 ^ 24) (foreground data) ->
  exists t data', region_string (RMask x y w h data) = Ok (Some t) /\
    region_parse t = Ok (true, Some (RMask x y w h data')) /\ foreground data' = foreground data.
Proof. exact mask_round_trip. Qed.
Print Assumptions mask_text_round_trip_partial.
Example mask_text_round_trip_nonvacuous :
  region_string (RMask (-1) 2 3 2 [255; 0; 0; 1; 1; 0]%N) = Ok (Some (str "mask:-1,2,3,2,0,1,2,2")) /\
  region_parse (str "mask:-1,2,3,2,0,1,2,2") = Ok (true, Some (RMask (-1) 2 3 2 [1; 0; 0; 1; 1; 0]%N)) /\
  short_runs (2 ^ 24) (foreground [255; 0; 0; 1; 1; 0]%N).
Proof.
  split; [now vm_compute|]. split; [now vm_compute|]. intros a m b v E _.
  apply (f_equal (@List.length bool)) in E. rewrite !app_length in E. cbn [foreground map List.length] in E. lia.
Qed.

(** C26 violated: a mask without foreground makes the receiver abort; a large offset arrives changed. *)
Theorem mask_text_round_trip_refuted :
  (exists t, region_string (RMask 0 0 2 1 [0; 0]%N) = Ok (Some t) /\ region_parse t = Abort) /\
  (exists t, region_string (RMask 16777217 0 1 1 [1]%N) = Ok (Some t) /\
     region_parse t = Ok (true, Some (RMask 16777216 0 1 1 [1]%N))).
Proof. split; [exists (str "mask:0,0,2,1")|exists (str "mask:16777217,0,1,1,0,1")]; now vm_compute. Qed.
Print Assumptions mask_text_round_trip_refuted.

(** C27, partial: a text without a colon that has a character other than a comma, has more than one field and, when
    it has four, does not contain the letter n, is decoded or rejected without harm.  Missing: the texts of the refutation. *)
Theorem region_decode_is_safe_partial : forall t, ~ In 58%N t -> (exists c, In c t /\ c <> 44%N) -> n_fields t <> 1%nat ->
  (n_fields t = 4%nat -> ~ In 110%N t /\ ~ In 78%N t) ->
  exists ok r, region_parse t = Ok (ok, r) /\ (ok = true <-> r <> None).
Proof. exact decode_plain_safe. Qed.
Print Assumptions region_decode_is_safe_partial.
Example region_decode_is_safe_nonvacuous :
  region_parse (str "1,,x,2") = Ok (true, Some (RRect float_1 float_0 float_0 (S754_finite false 8388608 (-22)))) /\
  region_parse (str "1,2,3") = Ok (false, None) /\ region_parse (str "nan,junk") = Ok (true, Some (RSpecial 0)).
Proof. now vm_compute. Qed.

(** C27, partial: any rectangle or polygon text with a prefix and the right number of fields decodes. *)
Theorem rect_prefix_decodes_partial : forall t, (exists c, In c t /\ c <> 44%N) -> n_fields t = 4%nat ->
  ~ In 110%N t -> ~ In 78%N t ->
  exists x y w h, region_parse (str "rect:" ++ t) = Ok (true, Some (RRect x y w h)).
Proof.
  exact (fun t H H4 Hn HN => match decode_rect_safe t H H4 Hn HN with
    | ex_intro _ x (ex_intro _ y (ex_intro _ w (ex_intro _ h (conj E _)))) =>
        ex_intro _ x (ex_intro _ y (ex_intro _ w (ex_intro _ h E)))
    end).
Qed.
Print Assumptions rect_prefix_decodes_partial.
Theorem poly_prefix_decodes_partial : forall t, (exists c, In c t /\ c <> 44%N) -> (3 <= n_fields t / 2)%nat ->
  (n_fields t mod 2 = 0)%nat -> ~ In 110%N t -> ~ In 78%N t ->
  exists pts, region_parse (str "poly:" ++ t) = Ok (true, Some (RPoly pts)) /\ List.length pts = (n_fields t / 2)%nat.
Proof. exact decode_poly_safe. Qed.
Print Assumptions poly_prefix_decodes_partial.
Example prefix_decodes_nonvacuous : n_fields (str "0,0,1,0,0,1") = 6%nat /\
  region_parse (str "poly:0,0,1,0,0,1") = Ok (true, Some (RPoly [(float_0, float_0); (float_1, float_0); (float_0, float_1)])).
Proof. now vm_compute. Qed.

(** C27 violated: short texts overrun the scratch array; a wrong number of fields fails an assertion; numbers beyond int
    are converted (undefined); and the empty text is reported as success without a region. *)
Theorem region_decode_is_safe_refuted :
  region_parse (str ",") = UB /\ region_parse (str ",,") = UB /\ region_parse (str "rect:") = UB /\
  region_parse (str "rect:1,2") = Abort /\ region_parse (str "poly:1,2,3,4") = Abort /\ region_parse (str "mask:0,0,1,1") = Abort /\
  region_parse (str "special:1,2") = Abort /\
  region_parse (str "3e9") = UB /\ region_parse (str "nan,0,0,3e9") = UB /\ region_parse (str "mask:0,0,65536,65536,1") = UB /\
  region_parse [] = Ok (true, None).
Proof. now vm_compute. Qed.
Print Assumptions region_decode_is_safe_refuted.

(** C27: prefixes are compared one character short, so other schemes are taken for known ones. *)
Theorem region_prefix_is_exact_refuted :
  region_parse (str "m:1,2,3,4") = region_parse (str "rect:1,2,3,4") /\
  region_parse (str "pola:0,0,1,0,0,1") = region_parse (str "poly:0,0,1,0,0,1").
Proof. now vm_compute. Qed.
Print Assumptions region_prefix_is_exact_refuted.
