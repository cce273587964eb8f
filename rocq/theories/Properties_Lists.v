(** Property C41: object lists and image lists behave like arrays. *)
From Verif Require Import CBase Props PropsSpec Num Region Image Formats Handle SessionSpec Lists ListsSpec ListsProofs.
Local Open Scope Z_scope.

(** C41, partial: after any sequence of proper operations on any number of lists, sizes, regions and property values are those of
    arrays that went through the same assignments and concatenations; indices outside give nothing.
    Missing: appending a list to itself and setting an entry to itself (false, below). *)
Theorem object_lists_partial : forall ops, all_proper [] ops -> exists m, run_lops [] ops = Ok m /\ observes m (run_arrays [] ops).
Proof. exact lists_are_arrays. Qed.
Print Assumptions object_lists_partial.

Example object_lists_nonvacuous : all_proper [] sample_lops /\
  map (option_map (map fst)) (run_arrays [] sample_lops) = [None; Some [sample_mask; RSpecial 0; sample_mask; sample_mask]] /\
  snd (entry (run_arrays [] sample_lops) 1 2) (str "id") = Some (str "7") /\ snd (entry (run_arrays [] sample_lops) 1 3) (str "id") = Some (str "8").
Proof. exact sample_lops_proper. Qed.

(** C41 violated: appending a list to itself writes behind the end of its arrays. *)
Theorem append_to_itself_refuted : run_lops [] [LCreate 1; LAppend 0 0] = UB.
Proof. vm_compute. reflexivity. Qed.
Print Assumptions append_to_itself_refuted.
(** C41 violated: storing the region read from an entry in the same entry uses it after it was released. *)
Theorem set_to_itself_refuted : run_lops [] [LCreate 1; LSet 0 0 (RefEntry 0 0)] = UB.
Proof. vm_compute. reflexivity. Qed.
Print Assumptions set_to_itself_refuted.

(** C41: an image list returns the image last stored for a channel; unknown channels never hold an image. *)
Theorem image_lists_partial : forall live ops, iops_proper live (fun _ => None) ops ->
  exists live' l', run_iops (live, image_list_create) ops = Ok (live', l') /\ forall c, image_list_get l' c = Ok (run_channels (fun _ => None) ops c).
Proof. exact image_lists_are_maps. Qed.
Print Assumptions image_lists_partial.
Example image_lists_nonvacuous : iops_proper [7; 8]%nat (fun _ => None) [ISet (Some 7%nat) 1; ISet (Some 8%nat) 4; ISet (Some 9%nat) 3; IClear; ISet (Some 5%nat) 2].
Proof. exact sample_iops_proper. Qed.
(** Missing: an image stored for two channels is released twice when the list is cleared. *)
Theorem clear_twice_refuted : run_iops ([7]%nat, image_list_create) [ISet (Some 7%nat) 1; ISet (Some 7%nat) 2; IClear] = UB.
Proof. vm_compute. reflexivity. Qed.
Print Assumptions clear_twice_refuted.
