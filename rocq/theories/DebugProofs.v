(** Proofs for debug messages. *)
From Verif Require Import CBase Num Props Message MessageApi Handle Debug DebugSpec.
Local Open Scope Z_scope.

Lemma byte_text l i c : nth_error l i = Some c -> byte_of l i = Ok c.
Proof. intros H. unfold byte_of. now rewrite H. Qed.
Lemma short_step root file : c_text root -> c_text file -> forall left position, (position + left = List.length root)%nat -> firstn position root = firstn position file -> (position <= List.length file)%nat ->
  exists name, short_loop root file left position = Ok name /\ short_name root file name.
Proof.
  intros Hr Hf. induction left as [|left IH]; intros position L P Le; cbn [short_loop].
  - exists (skipn position file). split; [reflexivity|]. left. rewrite Nat.add_0_r in L. subst position. rewrite firstn_all in P. rewrite P at 1. now rewrite firstn_skipn.
  - destruct (nth_error root position) as [r|] eqn:Er; [|apply nth_error_None in Er; lia].
    destruct (nth_error file position) as [c|] eqn:Ec.
    + rewrite (byte_text _ _ _ Ec). cbn [obind]. assert (c <> 0%N) by (intros ->; apply Hf; exact (nth_error_In _ _ Ec)). replace (c =? 0)%N with false by (symmetry; now apply N.eqb_neq).
      rewrite (byte_text _ _ _ Er). cbn [obind]. destruct (N.eqb_spec r c) as [->|Hn]; cbn [negb].
      * apply IH; [lia| |apply Nat.le_succ_l; apply nth_error_Some; congruence].
        apply nth_error_split in Er as (a & b & Ea & La). apply nth_error_split in Ec as (a' & b' & Ea' & La').
        assert (Pa : a = a'). { rewrite Ea, Ea', !firstn_app in P. rewrite (firstn_all2 a), (firstn_all2 a') in P by lia. rewrite La, La', Nat.sub_diag in P. cbn [firstn] in P. now rewrite !app_nil_r in P. }
        subst a'. rewrite Ea, Ea', !firstn_app, La. replace (S position - position)%nat with 1%nat by lia. reflexivity.
      * exists file. split; [reflexivity|]. right. split; [|reflexivity]. intros rest ->. rewrite nth_error_app1 in Ec by lia. congruence.
    + assert (position = List.length file) by (apply nth_error_None in Ec; lia). unfold byte_of at 1. rewrite Ec. subst position. rewrite Nat.eqb_refl. cbn [obind].
      change (0 =? 0)%N with true. cbv iota. exists file. split; [reflexivity|]. right. split; [|reflexivity]. intros rest E. apply (f_equal (@List.length N)) in E. rewrite app_length in E. lia.
Qed.
Lemma short_ok root s file : c_text root -> c_text file -> d_length s = List.length root -> exists name, short_file_name root s file = Ok name /\ short_name root file name.
Proof. intros Hr Hf L. unfold short_file_name. rewrite L. apply short_step; [exact Hr|exact Hf|lia|reflexivity|lia]. Qed.
Lemma short_unset root s file : d_length s = O -> short_file_name root s file = Ok file.
Proof. intros L. unfold short_file_name. now rewrite L. Qed.

(** ---- States ---- *)
Definition meant (variable : bool) (s : debug) : bool := if d_flag s <? 0 then variable else negb (d_flag s =? 0).
Lemma asked variable s : is_debug_enabled variable s = (meant variable s, snd (is_debug_enabled variable s)) /\ meant variable (snd (is_debug_enabled variable s)) = meant variable s /\
  d_target (snd (is_debug_enabled variable s)) = d_target s /\ d_length (snd (is_debug_enabled variable s)) = d_length s.
Proof. unfold is_debug_enabled, meant. destruct (d_flag s <? 0) eqn:E; [destruct variable; cbn; auto|]. cbn [snd]. rewrite E. auto. Qed.
Lemma after_ok variable root calls : forall s,
  let s' := fold_left (debug_do variable root) calls s in
  meant variable s' = switched (meant variable s) calls /\ d_target s' = target_after (d_target s) calls /\ (In Enable calls \/ d_length s = List.length root -> d_length s' = List.length root) /\ (~ In Enable calls -> d_length s' = d_length s).
Proof.
  induction calls as [|c calls IH]; intros s; [cbn; tauto|]. cbn [fold_left]. cbv zeta. destruct (IH (debug_do variable root s c)) as (A & B & C & D). rewrite A, B.
  destruct (asked variable s) as (_ & M & Tq & L). destruct c; cbn [switched target_after debug_do].
  - split; [reflexivity|]. split; [unfold debug_enable; cbn [d_target]; destruct (d_target s); reflexivity|]. split; [intros _; apply C; right; reflexivity|]. intros X. destruct X. now left.
  - split; [reflexivity|]. split; [reflexivity|]. split; [intros [[X|X]|X]; [discriminate X|apply C; auto|apply C; auto]|]. intros X. transitivity (d_length s); [apply D; intros Y; apply X; now right|reflexivity].
  - split; [reflexivity|]. split; [reflexivity|]. split; [intros [[X|X]|X]; [discriminate X|apply C; auto|apply C; auto]|]. intros X. transitivity (d_length s); [apply D; intros Y; apply X; now right|reflexivity].
  - split; [reflexivity|]. split; [reflexivity|]. split; [intros [[X|X]|X]; [discriminate X|apply C; auto|apply C; auto]|]. intros X. transitivity (d_length s); [apply D; intros Y; apply X; now right|reflexivity].
  - rewrite M, Tq. split; [reflexivity|]. split; [reflexivity|]. split; [intros [[X|X]|X]; [discriminate X|apply C; auto|apply C; right; cbn [debug_do]; now rewrite L]|].
    intros X. rewrite <- L. apply D. intros Y. apply X. now right.
Qed.
Lemma start_meant b variable : b <> Release -> meant variable (debug_start b) = on_at_start b variable.
Proof. destruct b; [congruence|reflexivity|reflexivity]. Qed.
Lemma message_ok b variable root calls file line text : b <> Release -> c_text root -> c_text file ->
  (switched (on_at_start b variable) calls = false -> exists s, debugmsg b variable root (debug_after b variable root calls) file line text = Ok (s, [])) /\
  (forall t, switched (on_at_start b variable) calls = true -> target_after None calls = Some t ->
    exists s name, debugmsg b variable root (debug_after b variable root calls) file line text = Ok (s, [(t, name ++ [40%N] ++ print_Z line ++ str "): "); (t, text)]) /\ (In Enable calls -> short_name root file name) /\ (~ In Enable calls -> name = file)) /\
  (switched (on_at_start b variable) calls = true -> target_after None calls = None -> debugmsg b variable root (debug_after b variable root calls) file line text = UB).
Proof.
  intros Hb Hr Hf. unfold debug_after. destruct (after_ok variable root calls (debug_start b)) as (M & Tq & L & L0). rewrite (start_meant b variable Hb) in M. change (d_target (debug_start b)) with (@None nat) in Tq.
  set (s := fold_left _ calls _) in *. clearbody s. destruct (asked variable s) as (E & _ & T' & L'). rewrite M in E.
  assert (D : debugmsg b variable root s file line text = let '(on, s) := is_debug_enabled variable s in if on then match d_target s with None => UB | Some t => name <- short_file_name root s file ;; Ok (s, [(t, name ++ [40%N] ++ print_Z line ++ str "): "); (t, text)]) end else Ok (s, [])) by (destruct b; [congruence|reflexivity|reflexivity]).
  rewrite D, E. set (s1 := snd (is_debug_enabled variable s)) in *. split; [intros ->; eexists; reflexivity|]. split.
  - intros t -> Et. rewrite T', Tq, Et. assert (Dec : In Enable calls \/ ~ In Enable calls).
    { clear. induction calls as [|c l [H|H]]; [right; intros []|left; now right|]. destruct c; [left; now left|right; intros [X|X]; [discriminate X|auto]..]. }
    destruct Dec as [Dec|Dec].
    + destruct (short_ok root s1 file Hr Hf) as (name & En & Hn); [rewrite L'; exact (L (or_introl Dec))|]. rewrite En. cbn [obind]. exists s1, name. split; [reflexivity|]. split; [auto|contradiction].
    + rewrite (short_unset root s1 file) by (rewrite L'; exact (L0 Dec)). cbn [obind]. exists s1, file. split; [reflexivity|]. split; [contradiction|reflexivity].
  - intros -> Et. now rewrite T', Tq, Et.
Qed.
Lemma setup_release variable root file s st o h : client_setup st o = Ok h -> client_setup_debug Release variable root file s st o = Ok (h, s, []).
Proof.
  intros E. unfold client_setup_debug. rewrite E. cbn [obind]. destruct h; [reflexivity|].
  destruct (read_total None st []) as (p & r & c & Ep & Er & _). change (Ok props_create = Ok p) in Ep. assert (p = props_create) as -> by congruence. rewrite Er. reflexivity.
Qed.
Lemma setup_quiet b variable root file calls st o h : b <> Release -> c_text root -> c_text file -> client_setup st o = Ok h ->
  switched (on_at_start b variable) calls = false -> exists s, client_setup_debug b variable root file (debug_after b variable root calls) st o = Ok (h, s, []).
Proof.
  intros Hb Hr Hf E Hs. unfold client_setup_debug. rewrite E. cbn [obind]. destruct h; [eexists; reflexivity|].
  destruct (read_total None st []) as (p & r & c & Ep & Er & _). change (Ok props_create = Ok p) in Ep. assert (p = props_create) as -> by congruence. rewrite Er. cbn [obind].
  destruct (message_ok b variable root calls file (bad_hello_line r) (bad_hello_text r) Hb Hr Hf) as (A & _). destruct (A Hs) as (s & ->). eexists. reflexivity.
Qed.
Lemma setup_loud b variable root file calls st o h t : b <> Release -> c_text root -> c_text file -> client_setup st o = Ok h ->
  switched (on_at_start b variable) calls = true -> target_after None calls = Some t ->
  exists s out, client_setup_debug b variable root file (debug_after b variable root calls) st o = Ok (h, s, out) /\ Forall (fun x => fst x = t) out /\ (h <> None <-> out = []).
Proof.
  intros Hb Hr Hf E Hs Ht. unfold client_setup_debug. rewrite E. cbn [obind]. destruct h as [h|]; [eexists _, _; split; [reflexivity|]; split; [apply Forall_nil|split; [reflexivity|discriminate]]|].
  destruct (read_total None st []) as (p & r & c & Ep & Er & _). change (Ok props_create = Ok p) in Ep. assert (p = props_create) as -> by congruence. rewrite Er. cbn [obind].
  destruct (message_ok b variable root calls file (bad_hello_line r) (bad_hello_text r) Hb Hr Hf) as (_ & A & _). destruct (A t Hs Ht) as (s & name & -> & _). cbn [obind fst snd]. eexists _, _. split; [reflexivity|].
  split; [repeat (apply Forall_cons; [reflexivity|]); apply Forall_nil|]. split; [congruence|discriminate].
Qed.
Lemma setup_crash b variable root file calls st o : b <> Release -> c_text root -> c_text file -> client_setup st o = Ok None ->
  switched (on_at_start b variable) calls = true -> target_after None calls = None -> client_setup_debug b variable root file (debug_after b variable root calls) st o = UB.
Proof.
  intros Hb Hr Hf E Hs Ht. unfold client_setup_debug. rewrite E. cbn [obind].
  destruct (read_total None st []) as (p & r & c & Ep & Er & _). change (Ok props_create = Ok p) in Ep. assert (p = props_create) as -> by congruence. rewrite Er. cbn [obind].
  destruct (message_ok b variable root calls file (bad_hello_line r) (bad_hello_text r) Hb Hr Hf) as (_ & _ & A). now rewrite (A Hs Ht).
Qed.
