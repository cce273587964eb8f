(** C27: which texts are read as regions without harm. *)
From Verif Require Import CBase Num NumSpec Region RegionSpec RegionSafeSpec RegionSafeProofs.
Local Open Scope Z_scope.

(** C27, for exactly these texts: decoding a text gives a region or reports failure if and only if the text is harmless. *)
Theorem region_decode_safe_exactly_partial : forall t, harmless t <-> exists ok r, region_parse t = Ok (ok, r) /\ (ok = true <-> r <> None).
Proof. exact safe_iff. Qed.
Print Assumptions region_decode_safe_exactly_partial.
Example region_decode_safe_case : harmless (str "mask:1,1,2,2,-1,3") /\ harmless (str "nan,nan,nan,-3") /\ harmless (str "recx:1,2,3,4") /\ harmless (str "1,2").
Proof.
  split; [|split; [|split]]; apply safe_iff; (eexists _, _; split; [vm_compute; reflexivity|]); (split; [discriminate|]); (reflexivity || (intros H; now destruct H)).
Qed.
(** The process is ended by an assertion if and only if a scheme is given and the number of fields is not the right one for it. *)
Theorem region_decode_aborts_exactly : forall t, region_parse t = Abort <-> miscounted t.
Proof. exact abort_iff. Qed.
Print Assumptions region_decode_aborts_exactly.
Example region_decode_aborts_case : miscounted (str "x:1,2").
Proof. apply abort_iff. vm_compute. reflexivity. Qed.
