(** Properties C42 and C43: the C++ objects free the C object they share exactly once, and behave like values. *)
From Verif Require Import CBase StrMap Props PropsSpec Num PropsNum Region RegionGeom Formats Handle Lists ListsSpec Wrap WrapSpec WrapProofs WrapValueProofs.
Local Open Scope Z_scope.

(** C42, partial: in every allowed program over objects of one class, every object that holds a C object reaches it alive and
    unchanged, and the C objects released are, once each, those that no object holds any more.  When all objects are gone no
    counter is left allocated.
    Missing: assignment of an object to itself, copies of moved-from objects, and the constructors ObjectList(int) and
    ImageList(), which are not allowed (false, below). *)
Theorem ownership_partial : forall (V : Type) (k : class) (n : nat) (ops : list (wop V)) (s : holds V),
  run_holds k (start_holds n) ops = Some s ->
  exists w, run_wops k (start n) ops = Ok w /\
    (forall x r, held s x = HOwn r -> exists v, nth_error (created s) r = Some v /\ reaches w x r v) /\
    NoDup (released w) /\
    (forall r, In r (released w) <-> (r < List.length (created s))%nat /\ forall x, held s x <> HOwn r) /\
    (counter_alive w -> exists x, constructed (held s x) = true).
Proof. exact @ownership. Qed.
Print Assumptions ownership_partial.
Example ownership_nonvacuous :
  run_holds KRegion (start_holds 4) [WNew 0 0; WWrap 0 (Some 7); WCopy 1 0; WMove 2 0; WAssign 0 1; WWrap 1 (Some 8); WMoveAssign 0 1; WDestroy 2; WCopy 3 0; WDestroy 1]
  = Some (mkHolds [HOwn 1; HUnborn; HUnborn; HOwn 1] [7; 8]).
Proof. vm_compute. reflexivity. Qed.
Example ownership_metadata : run_holds KMetadata (start_holds 2) [WNew 0 5; WCopy 1 0; WDestroy 0] = Some (mkHolds [HUnborn; HOwn 0] [5]).
Proof. vm_compute. reflexivity. Qed.

(** C42 violated: assigning an object to itself releases what it holds, although it still exists; for an object list the
    released list is then released again. *)
Theorem self_assignment_refuted : forall (V : Type) (v : V),
  (exists w, run_wops KRegion (start 1) [WNew 0 v; WWrap 0 (Some v); WAssign 0 0] = Ok w /\ released w = [0%nat] /\ target w 0 = Ok None) /\
  run_wops KObjectList (start 1) [WNew 0 v; WWrap 0 (Some v); WAssign 0 0; WDestroy 0] = UB.
Proof. intros V v. split; [eexists; split; [vm_compute; reflexivity|split; vm_compute; reflexivity]|vm_compute; reflexivity]. Qed.
Print Assumptions self_assignment_refuted.
(** C42 violated: assigning to itself an object that shares its C object ends in a second release. *)
Theorem shared_self_assignment_refuted : forall (V : Type) (v : V),
  run_wops KRegion (start 2) [WNew 0 v; WWrap 0 (Some v); WCopy 1 0; WAssign 0 0; WDestroy 0; WDestroy 1] = UB.
Proof. intros. vm_compute. reflexivity. Qed.
Print Assumptions shared_self_assignment_refuted.
(** C42 violated: a copy of an object that was moved from releases a C object it does not own. *)
Theorem moved_from_copy_refuted : forall (V : Type) (v : V),
  run_wops KMetadata (start 3) [WNew 0 v; WMove 1 0; WCopy 2 0; WDestroy 2; WDestroy 1] = UB /\
  run_wops KRegion (start 3) [WNew 0 v; WWrap 0 (Some v); WMove 1 0; WCopy 2 0; WDestroy 2] = UB.
Proof. intros V v. split; vm_compute; reflexivity. Qed.
Print Assumptions moved_from_copy_refuted.
(** C42 violated: a list made by ObjectList(int) or ImageList() is never released, and is released too early when a copy of it is destroyed. *)
Theorem list_constructor_refuted : forall (V : Type) (v : V),
  (exists w, run_wops KObjectList (start 1) [WList 0 v; WDestroy 0] = Ok w /\ released w = [] /\ resources w = [Some v]) /\
  (exists w, run_wops KImageList (start 2) [WList 0 v; WCopy 1 0; WDestroy 1] = Ok w /\ target w 0 = UB).
Proof.
  intros V v. split; eexists; (split; [vm_compute; reflexivity|]).
  - split; vm_compute; reflexivity.
  - vm_compute. reflexivity.
Qed.
Print Assumptions list_constructor_refuted.

(** C43, partial: in every allowed program over Properties objects each object has a dictionary of its own.
    Missing: clear() on an object that shares its contents (false, below). *)
Theorem dictionary_values_partial : forall n ops vs, run_dicts (start_values n) ops = Some vs -> clears_alone (start n) ops ->
  exists w, run_dops (start n) ops = Ok w /\
    forall x m, value_of vs x = VVal m ->
      (forall k, properties_get w x k = Ok (m k)) /\ exists l, properties_size w x = Ok (List.length l) /\ enumerates l m.
Proof. exact dict_values. Qed.
Print Assumptions dictionary_values_partial.
Definition sample_dops : list dop :=
  [DNew 0; DSet 0 (str "a") (str "1"); DCopy 1 0; DSet 1 (str "a") (str "2"); DMove 2 0; DAssign 0 1; DClear 2; DSet 0 (str "b") (str "3"); DDestroy 2].
Example dictionary_values_nonvacuous : clears_alone (start 3) sample_dops /\
  option_map (map (fun v => match v with VVal m => Some (m (str "a"), m (str "b")) | _ => None end)) (run_dicts (start_values 3) sample_dops)
  = Some [Some (Some (str "2"), Some (str "3")); Some (Some (str "2"), None); None].
Proof. split; [apply clears_aloneb_ok; vm_compute; reflexivity|vm_compute; reflexivity]. Qed.
(** C43 violated: clear() on a dictionary that is shared leaves its contents in place, a later set() on it changes the other
    object, and reading it after the other object is gone uses released memory. *)
Theorem shared_clear_refuted :
  (w <- run_dops (start 2) [DNew 0; DSet 0 (str "a") (str "1"); DCopy 1 0; DClear 0] ;; properties_get w 0 (str "a")) = Ok (Some (str "1")) /\
  (w <- run_dops (start 2) [DNew 0; DSet 0 (str "a") (str "1"); DCopy 1 0; DClear 0; DSet 0 (str "a") (str "2")] ;; properties_get w 1 (str "a")) = Ok (Some (str "2")) /\
  (w <- run_dops (start 2) [DNew 0; DSet 0 (str "a") (str "1"); DCopy 1 0; DClear 0; DDestroy 1] ;; properties_get w 0 (str "a")) = UB.
Proof. split; [|split]; vm_compute; reflexivity. Qed.
Print Assumptions shared_clear_refuted.

(** C43, partial: in every allowed program over Region objects each object has a region of its own.
    Missing: writing mask pixels through an object that shares its contents (false, below). *)
Theorem region_values_partial : forall legacy n ops vs, run_regions (start_values n) ops = Some vs -> writes_alone legacy (start n) ops ->
  exists w, run_rops legacy (start n) ops = Ok w /\ forall x a, value_of vs x = VVal a -> target w x = Ok a.
Proof. exact region_values. Qed.
Print Assumptions region_values_partial.
Definition sample_rops : list rop :=
  [RNew 0; RGet 0 (RPoly [(fzero, fzero); (fzero, fzero)]); RCopy 1 0; RSetPoint 1 0 (float_of_int 1) (float_of_int 2); RNew 2; RGet 2 (RMask 0 0 2 1 [0; 0]%N);
   RWrite 2 0 1 1%N; RAssign 0 2; RSetCode 2 7].
Example region_values_nonvacuous : writes_alone false (start 3) sample_rops /\
  run_regions (start_values 3) sample_rops
  = Some [VVal (Some (RMask 0 0 2 1 [0; 1]%N)); VVal (Some (RPoly [(float_of_int 1, float_of_int 2); (fzero, fzero)])); VVal (Some (RSpecial 7))].
Proof. split; [apply writes_aloneb_ok; vm_compute; reflexivity|vm_compute; reflexivity]. Qed.
(** C43 violated: a mask pixel written through one object appears in the object it was copied from. *)
Theorem shared_write_refuted : forall legacy,
  (w <- run_rops legacy (start 2) [RNew 0; RGet 0 (RMask 0 0 1 1 [0]%N); RCopy 1 0; RWrite 1 0 0 1%N] ;; target w 0) = Ok (Some (RMask 0 0 1 1 [1]%N)).
Proof. intros. vm_compute. reflexivity. Qed.
Print Assumptions shared_write_refuted.
(** C43 violated: whether a polygon point can be set in a rectangle depends on whether a copy of the rectangle exists. *)
Theorem set_point_depends_on_copies_refuted : forall legacy,
  run_rops legacy (start 2) [RNew 0; RGet 0 (RRect fzero fzero fzero fzero); RSetPoint 0 0 fzero fzero] = Abort /\
  exists w, run_rops legacy (start 2) [RNew 0; RGet 0 (RRect fzero fzero fzero fzero); RCopy 1 0; RSetPoint 0 0 fzero fzero] = Ok w.
Proof. intros [|]; (split; [vm_compute; reflexivity|eexists; vm_compute; reflexivity]). Qed.
Print Assumptions set_point_depends_on_copies_refuted.
(** C42/C43 violated: a polygon point behind the last one is written behind the array instead of being refused. *)
Theorem set_point_index_refuted : forall legacy p,
  run_rops legacy (start 1) [RNew 0; RGet 0 (RPoly [p]); RSetPoint 0 1 fzero fzero] = UB.
Proof. intros. vm_compute. reflexivity. Qed.
Print Assumptions set_point_index_refuted.
