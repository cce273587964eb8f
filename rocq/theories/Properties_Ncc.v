(** Theorems about the tutorial tracker (C132). *)
From Verif Require Import CBase Num Region Ncc NccSpec NccProofs.
Local Open Scope Z_scope.

(** ---- The files ---- *)
(** The list of pictures is what stands before the first empty line or the end of the file, line by line. *)
Theorem ncc_sequence_partial : forall fuel lines rest, Forall a_line lines -> (rest = [] \/ exists r, rest = newline :: r) -> (List.length lines < fuel)%nat ->
  readsequence fuel (ended lines ++ rest) = Ok lines.
Proof. exact sequence_read. Qed.
Print Assumptions ncc_sequence_partial.
(** But the tracker never stops reading a file whose last line has no end: it adds the last line for ever. *)
Theorem ncc_sequence_refuted : forall fuel lines l, Forall a_line lines -> a_line l -> readsequence fuel (ended lines ++ l) = NoFuel.
Proof. exact sequence_forever. Qed.
Print Assumptions ncc_sequence_refuted.
Example ncc_sequence_nonvacuous : Forall a_line [str "1.jpg"; str "2.jpg"] /\ readsequence 3 (str "1.jpg" ++ [newline] ++ str "2.jpg" ++ [newline]) = Ok [str "1.jpg"; str "2.jpg"] /\
  readsequence 1000 (str "1.jpg" ++ [newline] ++ str "2.jpg") = NoFuel.
Proof.
  split; [|split; vm_compute; reflexivity].
  repeat (apply Forall_cons; [split; [discriminate|intros X; vm_compute in X; repeat (destruct X as [X|X]; [discriminate X|]); exact X]|]). apply Forall_nil.
Qed.
(** The region is the rectangle with the four numbers of the file; whatever follows them is not looked at. *)
Theorem ncc_rectangle_partial : forall tx ty tw th x y w h rest, number_text tx x -> number_text ty y -> number_text tw w -> number_text th h -> no_digit rest ->
  readrectangle (tx ++ comma :: ty ++ comma :: tw ++ comma :: th ++ rest) = mkRect x y w h.
Proof. exact rectangle_read. Qed.
Print Assumptions ncc_rectangle_partial.
(** A file with three numbers is not refused: the last one is used twice. *)
Theorem ncc_rectangle_refuted : forall tx ty tw x y w, number_text tx x -> number_text ty y -> number_text tw w ->
  readrectangle (tx ++ comma :: ty ++ comma :: tw) = mkRect x y w w.
Proof. exact rectangle_short. Qed.
Print Assumptions ncc_rectangle_refuted.
Example ncc_rectangle_nonvacuous : number_text (str "-17") (-17) /\ number_text (str "042") 42 /\ readrectangle (str "-17,042,30,40" ++ [newline]) = mkRect (-17) 42 30 40 /\
  readrectangle (str "1,2,3" ++ [newline]) = mkRect 1 2 3 3.
Proof.
  split; [|split; [|split; vm_compute; reflexivity]]; (split; [split; discriminate|]).
  - right. exists (str "17"). split; [reflexivity|]. split; [discriminate|]. split; [|reflexivity]. repeat (apply Forall_cons; [cbn; split; discriminate|]). apply Forall_nil.
  - left. split; [discriminate|]. split; [|reflexivity]. repeat (apply Forall_cons; [cbn; split; discriminate|]). apply Forall_nil.
Qed.

(** ---- Tracking ---- *)
(** The first picture is refused exactly when the object is not in it; the template is always a part of the picture. *)
Theorem ncc_init_partial : forall cols rows r, size_ok cols rows -> moderate_rect r ->
  (init cols rows r = Ok None <-> cols - 1 < r_x r \/ rows - 1 < r_y r \/ r_x r + r_w r < 0 \/ r_y r + r_h r < 0) /\
  (forall t part, init cols rows r = Ok (Some (t, part)) -> inside cols rows part) /\
  (exists q, init cols rows r = Ok q).
Proof. exact init_none. Qed.
Print Assumptions ncc_init_partial.
(** An object that is in the first picture and does not touch its right or lower border is the template.  Then, whatever the next
    pictures are, the tracker searches parts of them only, around the last place of the object, and every answer has the size of the
    object and lies in the picture or is the one before. *)
Theorem ncc_track_partial : forall cols rows r l, size_ok cols rows -> moderate_rect r -> inside (cols - 1) (rows - 1) r -> Forall (proper_view (r_w r) (r_h r)) l ->
  exists t answers, init cols rows r = Ok (Some (t, r)) /\ track t l = Some answers /\ answers_ok (r_w r) (r_h r) r l answers.
Proof. exact ncc_run. Qed.
Print Assumptions ncc_track_partial.
Example ncc_track_nonvacuous : size_ok 100 80 /\ moderate_rect (mkRect 40 30 11 20) /\ inside 99 79 (mkRect 40 30 11 20) /\
  Forall (proper_view 11 20) [top_left 100 80; top_left 50 15; top_left 100 80] /\
  exists t, init 100 80 (mkRect 40 30 11 20) = Ok (Some (t, mkRect 40 30 11 20)) /\
    track t [top_left 100 80; top_left 50 15; top_left 100 80] =
      Some [(mkRect 26 20 11 20, Some (mkRect 26 20 40 40)); (mkRect 26 20 11 20, None); (mkRect 12 10 11 20, Some (mkRect 12 10 40 40))].
Proof.
  split; [unfold size_ok; lia|]. split; [unfold moderate_rect, moderate; cbn [r_x r_y r_w r_h]; lia|]. split; [unfold inside; cbn [r_x r_y r_w r_h]; lia|]. split.
  - repeat (apply Forall_cons; [split; [unfold size_ok; cbn [top_left v_cols v_rows]; lia|intros part _ W H; cbn [top_left v_best fst snd]; lia]|]). apply Forall_nil.
  - eexists. split; [vm_compute; reflexivity|vm_compute; reflexivity].
Qed.
(** An object at the right border loses its last column. *)
Theorem ncc_border_refuted : forall cols rows r, size_ok cols rows -> moderate_rect r -> 0 <= r_x r -> 0 <= r_y r -> 1 <= r_w r -> r_x r + r_w r = cols -> r_y r + r_h r <= rows - 1 ->
  exists t, init cols rows r = Ok (Some (t, mkRect (r_x r) (r_y r) (r_w r - 1) (r_h r))).
Proof. exact border. Qed.
Print Assumptions ncc_border_refuted.
(** An object that reaches over the left border and does not move is reported at the border. *)
Theorem ncc_clipped_refuted : forall cols rows r v, size_ok cols rows -> moderate_rect r -> r_x r < 0 -> 0 <= r_y r -> 1 <= r_x r + r_w r <= cols - 1 -> 1 <= r_h r -> r_y r + r_h r <= rows - 1 ->
  v_cols v = cols -> v_rows v = rows -> unmoved 0 (r_y r) v ->
  exists t part s, init cols rows r = Ok (Some (t, part)) /\ track t [v] = Some [(mkRect 0 (r_y r) (r_w r) (r_h r), s)].
Proof. exact clipped. Qed.
Print Assumptions ncc_clipped_refuted.
(** If its width is odd, it moves by one pixel even in a picture that is too small to be searched. *)
Theorem ncc_drift_refuted : forall cols rows r best t part, size_ok cols rows -> moderate_rect r -> r_x r < 0 -> 0 <= r_y r -> Z.odd (r_w r) = true ->
  init cols rows r = Ok (Some (t, part)) -> 1 <= r_w part ->
  track t [mkView 1 1 best] = Some [(mkRect (r_x r + 1) (r_y r) (r_w r) (r_h r), None)].
Proof. exact drifted. Qed.
Print Assumptions ncc_drift_refuted.
Example ncc_clipped_nonvacuous : exists t, init 100 80 (mkRect (-5) 30 21 20) = Ok (Some (t, mkRect 0 30 16 20)) /\
  track t [same_place 0 30 100 80] = Some [(mkRect 0 30 21 20, Some (mkRect 0 19 27 42))] /\
  track t [top_left 1 1] = Some [(mkRect (-4) 30 21 20, None)] /\
  (exists t', init 100 80 (mkRect 99 30 1 20) = Ok (Some (t', mkRect 99 30 0 20))).
Proof. eexists. split; [vm_compute; reflexivity|]. split; [vm_compute; reflexivity|]. split; [vm_compute; reflexivity|]. eexists. vm_compute. reflexivity. Qed.
