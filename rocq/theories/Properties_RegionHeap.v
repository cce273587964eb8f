(** All region functions on real memory: values, and what is left (C120). *)
From Verif Require Import CBase Num Buffer Region FloatOps RegionGeom RegionApi RegionApiSpec RegionHeap RegionHeapSpec RegionHeapProofs.
Local Open Scope Z_scope.

(** Whatever the sequence of calls: as long as each is proper on the values, none is undefined, and each gives what it gives if regions
    are independent values: neither temporary regions nor releases show in any other region. *)
Theorem region_apis_values : forall legacy l s rs n, means legacy [] l s rs n -> exists a, run_apis legacy fresh l = Ok (a, rs).
Proof. exact apis_refine. Qed.
Print Assumptions region_apis_values.
Example region_apis_values_sample : exists s rs n, means false [] sample_apis s rs n /\ rs <> [].
Proof. destruct sample_counted as (s & rs & n & M & _). exists s, rs, n. split; [exact M|]. inversion M. discriminate. Qed.

(** Once the application has released every region it was given, all arrays are gone, and the only blocks left are one per conversion of
    a polygon to a mask.  (The full property would be that nothing is left: region_apis_leak_refuted.) *)
Theorem region_apis_left_partial : forall legacy l s rs n m names, means legacy [] l s rs n -> released s ->
  run_apis legacy fresh l = Ok ((m, names), rs) -> present (regions m) = n /\ no_arrays m.
Proof. intros legacy l s rs n m names M R E. destruct (apis_left legacy l s rs n m names M R E) as (A & B & _). exact (conj A B). Qed.
Print Assumptions region_apis_left_partial.
Example region_apis_left_partial_sample : exists s rs n, means false [] leaky_apis s rs n /\ released s /\ n = 1%nat.
Proof. exact leaky_counted. Qed.

(** Without such conversions nothing is left. *)
Theorem region_apis_no_leak : forall legacy l s rs m names, means legacy [] l s rs 0 -> released s ->
  run_apis legacy fresh l = Ok ((m, names), rs) -> nothing_left m.
Proof. intros legacy l s rs m names M R E. exact (proj2 (proj2 (apis_left legacy l s rs 0 m names M R E)) eq_refl). Qed.
Print Assumptions region_apis_no_leak.
Example region_apis_no_leak_sample : exists s rs, means false [] sample_apis s rs 0 /\ released s.
Proof. destruct sample_counted as (s & rs & n & M & R & E). rewrite E in M. exact (ex_intro _ s (ex_intro _ rs (conj M R))). Qed.

(** At any time the memory holds one block per region that the application may still release, and the forgotten ones. *)
Theorem region_apis_blocks : forall legacy l s rs n m names, means legacy [] l s rs n -> run_apis legacy fresh l = Ok ((m, names), rs) ->
  present (regions m) = (present s + n)%nat.
Proof. intros legacy l s rs n m names M E. exact (proj1 (apis_memory legacy l s rs n m names M E)). Qed.
Print Assumptions region_apis_blocks.
Example region_apis_blocks_sample : exists s rs n, means false [] (firstn 10 sample_apis) s rs n /\ present s = 4%nat.
Proof. eexists _, _, _. split; [unfold sample_apis; cbn [firstn]; repeat meant|]. vm_compute. reflexivity. Qed.

(** Whoever converts a polygon to a mask never gets back to an empty memory, whatever is released, and however often. *)
Theorem region_apis_leak_refuted :
  (forall legacy l s rs n m names, means legacy [] l s rs (S n) -> released s -> run_apis legacy fresh l = Ok ((m, names), rs) -> ~ nothing_left m) /\
  exists a rs s, means false [] leaky_apis s rs 1 /\ released s /\ run_apis false fresh leaky_apis = Ok (a, rs).
Proof. exact leaky_always. Qed.
Print Assumptions region_apis_leak_refuted.
