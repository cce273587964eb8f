(** Regions as an application uses them through the API (C65). *)
From Verif Require Import CBase Num Buffer Region RegionGeom RegionApi RegionApiSpec RegionApiProofs.
Local Open Scope Z_scope.

Definition one : spec_float := S754_finite false 1 0.
Definition two : spec_float := S754_finite false 1 1.
Definition sample_calls : list call :=
  [CreatePolygon 3; SetPoint 0 0 one two; SetPoint 0 1 two two; SetPoint 0 2 one one; Clone 0; SetPoint 0 0 two one;
   CreateMask 1 2 4 3; WritePixel 2 2 3 7%N; WritePixel 2 0 3 5%N; Clone 2; WritePixel 2 2 3 9%N; ReadPixel 3 2 3; Release 0; GetPoint 1 0; Release 2].
Lemma sample_proper : proper_calls [] sample_calls.
Proof.
  cbn. unfold live, INT_MAX.
  repeat match goal with
         | |- _ /\ _ => split
         | |- True => exact Logic.I
         | |- exists _, _ => eexists
         | |- Some _ = Some _ => reflexivity
         | |- (_ = _ -> False) => discriminate
         | |- _ => first [lia | reflexivity]
         end.
Qed.

(** For every sequence of proper calls each call gives what it would give if regions were independent values: nothing is undefined,
    and no change to one region, or its release, shows in another (in particular not in a clone). *)
Theorem region_calls_values : forall l, proper_calls [] l -> exists m, run_calls no_heap l = Ok (m, snd (run_values [] l)).
Proof. exact calls_refine. Qed.
Print Assumptions region_calls_values.
Example region_calls_values_sample : proper_calls [] sample_calls /\
  snd (run_values [] sample_calls) = [Region_named 0; Done; Done; Done; Region_named 1; Done; Region_named 2; Done; Done; Region_named 3; Done; Pixel_is 7; Done; Point_is one two; Done].
Proof. split; [exact sample_proper|]. vm_compute. reflexivity. Qed.

(** Once every region has been released, no memory is left. *)
Theorem region_no_leak : forall l m rs, proper_calls [] l -> released (fst (run_values [] l)) -> run_calls no_heap l = Ok (m, rs) -> nothing_left m.
Proof. exact calls_no_leak. Qed.
Print Assumptions region_no_leak.
Example region_no_leak_sample : let l := [CreatePolygon 3; Clone 0; CreateMask 0 0 2 2; Release 0; Release 2; Release 1] in
  proper_calls [] l /\ released (fst (run_values [] l)).
Proof.
  cbv zeta. split.
  - cbn. unfold live, INT_MAX. repeat match goal with |- _ /\ _ => split | |- True => exact Logic.I | |- exists _, _ => eexists; reflexivity | |- _ => first [lia|reflexivity] end; discriminate.
  - intros r. change (fst (run_values [] [CreatePolygon 3; Clone 0; CreateMask 0 0 2 2; Release 0; Release 2; Release 1])) with (@repeat (option content) None 3).
    destruct r as [|[|[|[|r]]]]; reflexivity.
Qed.

(** Reading a region twice gives the same if no call between the two changes that region. *)
Theorem region_untouched : forall l q l' r m rs, proper_calls [] (l ++ q :: l' ++ [q]) -> reads r q = true -> Forall (fun c => changes r c = false) l' ->
  run_calls no_heap (l ++ q :: l' ++ [q]) = Ok (m, rs) -> exists rs1 rs2 x, rs = rs1 ++ x :: rs2 ++ [x] /\ List.length rs1 = List.length l.
Proof. exact untouched. Qed.
Print Assumptions region_untouched.
Example region_untouched_sample :
  let l := [CreatePolygon 3; SetPoint 0 0 one two; Clone 0] in let q := GetPoint 1 0 in let l' := [SetPoint 0 0 two two; Release 0] in
  proper_calls [] (l ++ q :: l' ++ [q]) /\ reads 1 q = true /\ Forall (fun c => changes 1 c = false) l' /\
  (exists m, run_calls no_heap (l ++ q :: l' ++ [q]) = Ok (m, [Region_named 0; Done; Region_named 1; Point_is one two; Done; Done; Point_is one two])).
Proof.
  cbv zeta. split.
  - cbn. unfold live.
    repeat match goal with |- _ /\ _ => split | |- True => exact Logic.I | |- exists _, _ => eexists | |- Some _ = Some _ => reflexivity
           | |- (_ = _ -> False) => discriminate | |- _ => first [lia|reflexivity] end.
  - split; [reflexivity|split; [repeat constructor|]]. eexists. vm_compute. reflexivity.
Qed.

(** A point that was set is what is read until it is set again or the polygon is released. *)
Theorem region_point_last : forall l r i x y l' m rs,
  proper_calls [] (l ++ SetPoint r i x y :: l') -> Forall (fun c => changes_point r i c = false) l' ->
  proper_calls [] (l ++ SetPoint r i x y :: l' ++ [GetPoint r i]) /\
  (run_calls no_heap (l ++ SetPoint r i x y :: l' ++ [GetPoint r i]) = Ok (m, rs) -> last rs Done = Point_is x y).
Proof. exact point_last. Qed.
Print Assumptions region_point_last.
Example region_point_last_sample : let l := [CreatePolygon 3] in let l' := [SetPoint 0 1 two two; Clone 0] in
  proper_calls [] (l ++ SetPoint 0 2 one two :: l') /\ Forall (fun c => changes_point 0 2 c = false) l'.
Proof.
  cbv zeta. split; [|repeat constructor]. cbn. unfold live.
  repeat match goal with |- _ /\ _ => split | |- True => exact Logic.I | |- exists _, _ => eexists | |- Some _ = Some _ => reflexivity
         | |- (_ = _ -> False) => discriminate | |- _ => first [lia|reflexivity] end.
Qed.

(** A pixel written to a row of a mask is what is read there until it is written again or the mask is released. *)
Theorem region_pixel_last : forall l r i j v l' m rs,
  proper_calls [] (l ++ WritePixel r i j v :: l') -> Forall (fun c => changes_pixel r i j c = false) l' ->
  proper_calls [] (l ++ WritePixel r i j v :: l' ++ [ReadPixel r i j]) /\
  (run_calls no_heap (l ++ WritePixel r i j v :: l' ++ [ReadPixel r i j]) = Ok (m, rs) -> last rs Done = Pixel_is v).
Proof. exact pixel_last. Qed.
Print Assumptions region_pixel_last.
Example region_pixel_last_sample : let l := [CreateMask 0 0 3 2] in let l' := [WritePixel 0 0 2 3%N; Clone 0; WritePixel 0 1 1 3%N] in
  proper_calls [] (l ++ WritePixel 0 1 0 5%N :: l') /\ Forall (fun c => changes_pixel 0 1 0 c = false) l'.
Proof.
  cbv zeta. split; [|repeat constructor]. cbn. unfold live, INT_MAX.
  repeat match goal with |- _ /\ _ => split | |- True => exact Logic.I | |- exists _, _ => eexists | |- Some _ = Some _ => reflexivity
         | |- (_ = _ -> False) => discriminate | |- _ => first [lia|reflexivity] end.
Qed.

(** A function for another type of region stops the program, and so does a row outside of the mask. *)
Theorem region_wrong_type : forall l c r t v, proper_calls [] l -> nth r (fst (run_values [] l)) None = Some v ->
  asks c = Some (r, t) -> type_number v <> t -> run_calls no_heap (l ++ [c]) = Abort.
Proof. exact wrong_type. Qed.
Print Assumptions region_wrong_type.
Theorem region_row_outside : forall l r x y w h px i j v, proper_calls [] l -> nth r (fst (run_values [] l)) None = Some (Mask_of x y w h px) ->
  i < 0 \/ h <= i -> run_calls no_heap (l ++ [WritePixel r i j v]) = Abort /\ run_calls no_heap (l ++ [ReadPixel r i j]) = Abort.
Proof. exact row_outside. Qed.
Print Assumptions region_row_outside.
Example region_wrong_type_sample : run_calls no_heap [CreateMask 0 0 2 2; GetCount 0] = Abort /\ run_calls no_heap [CreateMask 0 0 2 2; ReadPixel 0 2 0] = Abort /\
  proper_calls [] [CreateMask 0 0 2 2] /\ nth 0 (fst (run_values [] [CreateMask 0 0 2 2])) None = Some (Mask_of 0 0 2 2 [None; None; None; None]).
Proof. split; [reflexivity|split; [reflexivity|split; [|reflexivity]]]. cbn. unfold INT_MAX. lia. Qed.

(** An index outside of a polygon does not stop the program although the assertion means to: memory outside of the arrays is
    read or written.  This is so for every index outside, negative ones too. *)
Theorem region_index_refuted : forall l r pts i x y, proper_calls [] l -> nth r (fst (run_values [] l)) None = Some (Polygon_of pts) ->
  i < 0 \/ Z.of_nat (List.length pts) <= i ->
  run_calls no_heap (l ++ [SetPoint r i x y]) = UB /\ run_calls no_heap (l ++ [GetPoint r i]) = UB.
Proof. exact point_outside. Qed.
Print Assumptions region_index_refuted.
Example region_index_refuted_sample : proper_calls [] [CreatePolygon 3] /\ nth 0 (fst (run_values [] [CreatePolygon 3])) None = Some (Polygon_of [None; None; None]).
Proof. split; [cbn; lia|reflexivity]. Qed.

(** The row functions and clone overflow on masks with more than 2^31 - 1 pixels, which can be created. *)
Theorem region_big_mask_refuted : forall x y w h i j v, 0 < w -> 0 <= i < h -> INT_MAX < w * i ->
  run_calls no_heap [CreateMask x y w h; WritePixel 0 i j v] = UB /\ run_calls no_heap [CreateMask x y w h; ReadPixel 0 i j] = UB /\
  run_calls no_heap [CreateMask x y w h; Clone 0] = UB /\ exists m, run_calls no_heap [CreateMask x y w h] = Ok (m, [Region_named 0]).
Proof. exact big_mask. Qed.
Print Assumptions region_big_mask_refuted.
Example region_big_mask_sample : 0 < 65536 /\ 0 <= 40000 < 65536 /\ INT_MAX < 65536 * 40000. Proof. unfold INT_MAX. lia. Qed.

(** Using a region after its release is undefined, as is reading a point or pixel of a new region. *)
Theorem region_released_use : forall l c r, proper_calls [] l -> nth r (fst (run_values [] l)) None = None ->
  changes r c = true \/ reads r c = true \/ c = Clone r -> run_calls no_heap (l ++ [c]) = UB.
Proof. exact use_after_release. Qed.
Print Assumptions region_released_use.
Example region_released_sample : run_calls no_heap [CreateSpecial 0; Release 0; Release 0] = UB /\ proper_calls [] [CreateSpecial 0; Release 0].
Proof. split; [reflexivity|]. cbn. unfold live. split; [exact Logic.I|split; [eexists; reflexivity|exact Logic.I]]. Qed.
Theorem region_fresh_refuted :
  proper_calls [] [CreatePolygon 3; GetCount 0] /\ run_calls no_heap [CreatePolygon 3; GetPoint 0 1] = UB /\
  run_calls no_heap [CreateMask 0 0 2 2; ReadPixel 0 1 1] = UB.
Proof. split; [|split; reflexivity]. cbn. split; [lia|split; [eexists; reflexivity|exact Logic.I]]. Qed.
Print Assumptions region_fresh_refuted.
