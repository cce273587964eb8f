(** Contents of the C++ lists: C94 (a list sends what it shows), C95 (a list shows what was put into it). *)
From Verif Require Import CBase StrMap Props PropsSpec Num PropsNum Region RegionGeom Formats Handle Lists ListsSpec Wrap WrapSpec WrapLists WrapListsSpec WrapListsProofs WrapListsSendProofs.
Local Open Scope Z_scope.

(** ---- C94 ---- *)
(** Partly: for programs that set positions only in lists that share with no other, that do not copy lists made by ObjectList(n)
    or ImageList(), and that receive lists with missing elements only into lists that show nothing *)
Theorem lists_send_partial : forall k n m ops s, is_list k -> run_vals k (begin_vals n m) ops = Some s ->
  throughout unshared k (begin n m) ops -> throughout over_empty k (begin n m) ops ->
  exists w, run_lops k (begin n m) ops = Ok w /\
    forall x l, value_of (lists s) x = VVal l -> list_show w x = Ok l /\ exists sent, list_send w x = Ok sent /\ sends k sent l.
Proof. exact lists_send. Qed.
Print Assumptions lists_send_partial.

(** A tracker's list: received, copied, an element taken out and put into a list of its own, the received one replaced *)
Definition tracker_program : list lop :=
  [LNew 0; LReceive 0 [true; true]; LCopy 1 0; LGet 0 0 1; LSized 2 2; LSet 2 0 0; LMake 1; LSet 2 1 1; LReceive 0 [true]; LMove 3 1; LAssign 1 0; LDestroy 0; LDrop 0].
Ltac fulfil := vm_compute; repeat match goal with
  | |- True => exact Logic.I
  | |- _ /\ _ => split
  | |- forall _, _ => intros ? E; injection E as <-; first [solve [left; repeat constructor] | solve [right; repeat constructor]]
  | |- exists n, Ok _ = Ok n /\ _ => eexists; split; [reflexivity|discriminate]
  | |- exists o, Some (Some _) = Some (Some o) /\ _ => eexists; split; [reflexivity|first [left; discriminate | right; reflexivity]]
  end.
Example lists_send_nonvacuous : exists s, run_vals KObjectList (begin_vals 4 2) tracker_program = Some s /\
  throughout unshared KObjectList (begin 4 2) tracker_program /\ throughout over_empty KObjectList (begin 4 2) tracker_program /\
  lists s = [VUnborn; VVal [Some 3%nat]; VVal [Some 1%nat; Some 2%nat]; VVal [Some 0%nat; Some 1%nat]].
Proof. eexists. split; [vm_compute; reflexivity|]. split; [|split]; [fulfil|fulfil|vm_compute; reflexivity]. Qed.
Definition frame_program : list lop := [LMake 0; LNew 0; LSet 0 0 0; LDrop 0; LNew 1; LReceive 1 [true; false; true]; LCopy 2 1; LReceive 1 [true; true; true]; LMoveAssign 0 2].
Example lists_send_images_nonvacuous : exists s, run_vals KImageList (begin_vals 3 1) frame_program = Some s /\
  throughout unshared KImageList (begin 3 1) frame_program /\ throughout over_empty KImageList (begin 3 1) frame_program /\
  lists s = [VVal [Some 1%nat; None; Some 3%nat]; VVal [Some 4%nat; Some 5%nat; Some 6%nat]; VVal [Some 0%nat; None; None]].
Proof. eexists. split; [vm_compute; reflexivity|]. split; [|split]; [fulfil|fulfil|vm_compute; reflexivity]. Qed.

(** Setting a position of a list changes what a copy of it sends, though not what the copy shows *)
Theorem copy_sends_other_elements_refuted :
  exists ops s w, run_vals KObjectList (begin_vals 2 1) ops = Some s /\ run_lops KObjectList (begin 2 1) ops = Ok w /\
    value_of (lists s) 1 = VVal [Some 0%nat] /\ list_show w 1 = Ok [Some 0%nat] /\ list_send w 1 = Ok (Some [Element 1]).
Proof.
  exists [LNew 0; LReceive 0 [true]; LCopy 1 0; LMake 0; LSet 0 0 0]. eexists. eexists. split; [vm_compute; reflexivity|]. split; [vm_compute; reflexivity|].
  split; [|split]; vm_compute; reflexivity.
Qed.
Print Assumptions copy_sends_other_elements_refuted.

(** ... and when the list and the element are gone, sending the copy reads a freed region *)
Theorem copy_sends_freed_element_refuted :
  exists ops s w, run_vals KObjectList (begin_vals 2 1) ops = Some s /\ run_lops KObjectList (begin 2 1) ops = Ok w /\
    value_of (lists s) 1 = VVal [Some 0%nat] /\ list_send w 1 = UB.
Proof.
  exists [LNew 0; LReceive 0 [true]; LCopy 1 0; LMake 0; LSet 0 0 0; LDestroy 0; LDrop 0]. eexists. eexists. split; [vm_compute; reflexivity|]. split; [vm_compute; reflexivity|].
  split; vm_compute; reflexivity.
Qed.
Print Assumptions copy_sends_freed_element_refuted.

(** A copy of a list made by ImageList() or ObjectList(n) takes the structure with it when it is destroyed *)
Theorem copy_of_new_list_refuted : forall k, is_list k ->
  exists ops s w, run_vals k (begin_vals 2 1) ops = Some s /\ run_lops k (begin 2 1) ops = Ok w /\
    (exists l, value_of (lists s) 0 = VVal l /\ l <> []) /\ list_send w 0 = UB.
Proof.
  intros k [-> | ->].
  - exists [LNew 0; LCopy 1 0; LDestroy 1]. eexists. eexists. split; [vm_compute; reflexivity|]. split; [vm_compute; reflexivity|].
    split; [eexists; split; [vm_compute; reflexivity|discriminate]|vm_compute; reflexivity].
  - exists [LSized 0 1; LCopy 1 0; LDestroy 1]. eexists. eexists. split; [vm_compute; reflexivity|]. split; [vm_compute; reflexivity|].
    split; [eexists; split; [vm_compute; reflexivity|discriminate]|vm_compute; reflexivity].
Qed.
Print Assumptions copy_of_new_list_refuted.

(** A position of ObjectList(n) that was never set shows an empty region, but a region is sent *)
Theorem unset_object_sent_refuted :
  exists w, run_lops KObjectList (begin 1 0) [LSized 0 1] = Ok w /\ list_show w 0 = Ok [None] /\ list_send w 0 = Ok (Some [Default]).
Proof. eexists. split; [vm_compute; reflexivity|]. split; vm_compute; reflexivity. Qed.
Print Assumptions unset_object_sent_refuted.

(** ---- C95 ---- *)
(** Partly: for programs that receive lists with missing elements only into lists that show nothing *)
Theorem lists_show_partial : forall k n m ops s w, is_list k -> run_vals k (begin_vals n m) ops = Some s -> run_lops k (begin n m) ops = Ok w ->
  throughout over_empty k (begin n m) ops ->
  (forall x l, value_of (lists s) x = VVal l -> list_show w x = Ok l) /\ elems w = singles s.
Proof. exact lists_show. Qed.
Print Assumptions lists_show_partial.

Example lists_show_nonvacuous : exists s w, run_vals KObjectList (begin_vals 2 1) [LNew 0; LReceive 0 [true; true]; LCopy 1 0; LMake 0; LSet 0 1 0; LGet 0 1 1] = Some s /\
  run_lops KObjectList (begin 2 1) [LNew 0; LReceive 0 [true; true]; LCopy 1 0; LMake 0; LSet 0 1 0; LGet 0 1 1] = Ok w /\
  throughout over_empty KObjectList (begin 2 1) [LNew 0; LReceive 0 [true; true]; LCopy 1 0; LMake 0; LSet 0 1 0; LGet 0 1 1] /\
  lists s = [VVal [Some 0%nat; Some 2%nat]; VVal [Some 0%nat; Some 1%nat]] /\ singles s = [Some 1%nat].
Proof. eexists. eexists. split; [vm_compute; reflexivity|]. split; [vm_compute; reflexivity|]. split; [fulfil|]. split; vm_compute; reflexivity. Qed.

(** An image list that is used for a second frame without a depth image still shows that of the first *)
Theorem old_image_shown_refuted :
  exists ops s w, run_vals KImageList (begin_vals 1 0) ops = Some s /\ run_lops KImageList (begin 1 0) ops = Ok w /\
    value_of (lists s) 0 = VVal [Some 3%nat; None; None] /\ list_show w 0 = Ok [Some 3%nat; Some 1%nat; None] /\
    list_send w 0 = Ok (Some [Element 3; Nothing; Nothing]).
Proof.
  exists [LNew 0; LReceive 0 [true; true; false]; LReceive 0 [true; false; false]]. eexists. eexists. split; [vm_compute; reflexivity|]. split; [vm_compute; reflexivity|].
  split; [|split]; vm_compute; reflexivity.
Qed.
Print Assumptions old_image_shown_refuted.

(** An image list that was moved from cannot receive a frame *)
Theorem moved_image_list_refuted : run_lops KImageList (begin 2 0) [LNew 0; LMove 1 0; LReceive 0 [true; false; false]] = UB.
Proof. vm_compute. reflexivity. Qed.
Print Assumptions moved_image_list_refuted.
