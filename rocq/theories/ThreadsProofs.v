(** Proofs about the threads of a tracker object *)
From Verif Require Import CBase Threads ThreadsSpec.
From Coq Require Import Arith Lia.
Local Open Scope Z_scope.

(** ---- Basics ---- *)
Lemma thread_eqb_refl t : thread_eqb t t = true.
Proof. destruct t; reflexivity. Qed.
Lemma thread_eqb_eq a b : thread_eqb a b = true <-> a = b.
Proof. split; [destruct a, b; try reflexivity; discriminate|intros ->; apply thread_eqb_refl]. Qed.
Lemma thread_eqb_neq a b : a <> b -> thread_eqb a b = false.
Proof. destruct a, b; try reflexivity; congruence. Qed.
Lemma mutex_eqb_refl m : mutex_eqb m m = true.
Proof. destruct m; reflexivity. Qed.
Lemma mutex_eqb_eq a b : mutex_eqb a b = true <-> a = b.
Proof. split; [destruct a, b; try reflexivity; discriminate|intros ->; apply mutex_eqb_refl]. Qed.
Lemma mutex_eqb_neq a b : a <> b -> mutex_eqb a b = false.
Proof. destruct a, b; try reflexivity; congruence. Qed.
Lemma thread_eq_dec (a b : thread) : {a = b} + {a <> b}.
Proof. decide equality. Qed.
Lemma mutex_eq_dec (a b : mutex) : {a = b} + {a <> b}.
Proof. decide equality. Qed.
Lemma set_code_same f t k : set_code f t k t = k.
Proof. unfold set_code. rewrite thread_eqb_refl. reflexivity. Qed.
Lemma set_code_other f t k u : u <> t -> set_code f t k u = f u.
Proof. intros N. unfold set_code. rewrite thread_eqb_neq by congruence. reflexivity. Qed.
Lemma set_owner_same f m x : set_owner f m x m = x.
Proof. unfold set_owner. rewrite mutex_eqb_refl. reflexivity. Qed.
Lemma set_owner_other f m x u : u <> m -> set_owner f m x u = f u.
Proof. intros N. unfold set_owner. rewrite mutex_eqb_neq by congruence. reflexivity. Qed.
Lemma andthen_assoc a b c : andthen (andthen a b) c = andthen a (andthen b c).
Proof. induction a; cbn [andthen]; congruence. Qed.
Lemma andthen_done a : andthen a Done = a.
Proof. induction a; cbn [andthen]; congruence. Qed.

Definition plain (i : instr) : bool := match i with Lock _ | Unlock _ | Join _ => false | _ => true end.
Lemma step_plain c t b i k : plain i = true -> code_of c t = Do i k ->
  step c t b = Some (s <- exec i (mem c) ;; Ok (mkConfig (set_code (code_of c) t k) (owner_of c) s)).
Proof. intros P E. unfold step. rewrite E. destruct i; try discriminate P; reflexivity. Qed.

Inductive stepped (c : config) (t : thread) (b : bool) : config -> Prop :=
| sLock m k : code_of c t = Do (Lock m) k -> owner_of c m = None ->
    stepped c t b (mkConfig (set_code (code_of c) t k) (set_owner (owner_of c) m (Some t)) (mem c))
| sUnlock m k : code_of c t = Do (Unlock m) k -> owner_of c m = Some t ->
    stepped c t b (mkConfig (set_code (code_of c) t k) (set_owner (owner_of c) m None) (mem c))
| sJoin u k : code_of c t = Do (Join u) k -> code_of c u = Done ->
    stepped c t b (mkConfig (set_code (code_of c) t k) (owner_of c) (mem c))
| sDo i k s : plain i = true -> code_of c t = Do i k -> exec i (mem c) = Ok s ->
    stepped c t b (mkConfig (set_code (code_of c) t k) (owner_of c) s)
| sIf x y n k r s : code_of c t = If x y n k -> look x (mem c) b = Ok (r, s) ->
    stepped c t b (mkConfig (set_code (code_of c) t (andthen (if r then y else n) k)) (owner_of c) s)
| sWhile x y k r s : code_of c t = While x y k -> look x (mem c) b = Ok (r, s) ->
    stepped c t b (mkConfig (set_code (code_of c) t (if r then andthen y (While x y k) else k)) (owner_of c) s).

Lemma step_stepped c t b c' : step c t b = Some (Ok c') -> stepped c t b c'.
Proof.
  intros E. destruct (code_of c t) as [|i k|x y n k|x y k] eqn:Ec.
  - unfold step in E. rewrite Ec in E. discriminate.
  - destruct (plain i) eqn:Ep.
    + rewrite (step_plain c t b i k Ep Ec) in E. destruct (exec i (mem c)) as [s| | |] eqn:Ex; cbn [obind] in E; try discriminate.
      injection E as <-. exact (sDo c t b i k s Ep Ec Ex).
    + unfold step in E. rewrite Ec in E. destruct i as [m|m|u| | | | | | | | | | | | | | | | | | | | | | |]; try discriminate Ep.
      * destruct (owner_of c m) eqn:Eo; [discriminate|]. injection E as <-. exact (sLock c t b m k Ec Eo).
      * destruct (owner_of c m) as [u|] eqn:Eo; [|discriminate]. destruct (thread_eqb u t) eqn:Eu; [|discriminate].
        apply thread_eqb_eq in Eu. subst u. injection E as <-. exact (sUnlock c t b m k Ec Eo).
      * destruct (code_of c u) eqn:Eu; try discriminate. injection E as <-. exact (sJoin c t b u k Ec Eu).
  - unfold step in E. rewrite Ec in E. destruct (look x (mem c) b) as [[r s]| | |] eqn:El; cbn [obind fst snd] in E; try discriminate.
    injection E as <-. exact (sIf c t b x y n k r s Ec El).
  - unfold step in E. rewrite Ec in E. destruct (look x (mem c) b) as [[r s]| | |] eqn:El; cbn [obind fst snd] in E; try discriminate.
    injection E as <-. exact (sWhile c t b x y k r s Ec El).
Qed.

(** A property of configurations that every step keeps holds after every schedule *)
Lemma run_invariant (P : config -> Prop) :
  (forall c t b c', P c -> stepped c t b c' -> P c') ->
  forall l c c', P c -> run c l = Ok c' -> P c'.
Proof.
  intros H l. induction l as [|[t b] l IH]; intros c c' Pc E; cbn [run] in E.
  - injection E as <-. exact Pc.
  - destruct (step c t b) as [r|] eqn:Es.
    + destruct r as [c1| | |]; cbn [obind] in E; try discriminate. apply (IH c1 c'); [|exact E].
      apply (H c t b c1 Pc). apply step_stepped. exact Es.
    + exact (IH c c' Pc E).
Qed.
Lemma goes_invariant (P : config -> Prop) :
  (forall c t b c', P c -> stepped c t b c' -> P c') ->
  forall l c c', P c -> goes c l c' -> P c'.
Proof.
  intros H l c c' Pc G. induction G as [c|c t b c1 l c2 Es G IH]; [exact Pc|].
  apply IH. apply (H c t b c1 Pc). apply step_stepped. exact Es.
Qed.

(** ---- Lock order ---- *)
Definition rank (m : mutex) : nat := match m with WatchdogMutex => 0 | StateMutex => 1 | LoggerMutex => 2 end.
Fixpoint mutexes_eqb (a b : list mutex) : bool :=
  match a, b with
  | [], [] => true
  | x :: a', y :: b' => mutex_eqb x y && mutexes_eqb a' b'
  | _, _ => false
  end.
Lemma mutexes_eqb_eq a b : mutexes_eqb a b = true -> a = b.
Proof.
  revert b. induction a as [|x a IH]; intros [|y b] E; cbn [mutexes_eqb] in E; try discriminate; [reflexivity|].
  apply andb_prop in E. destruct E as [E1 E2]. apply mutex_eqb_eq in E1. rewrite E1, (IH b E2). reflexivity.
Qed.
Definition holds (m : mutex) (h : list mutex) : bool := existsb (mutex_eqb m) h.
Lemma holds_in m h : holds m h = true -> In m h.
Proof. unfold holds. intros E. apply existsb_exists in E as (x & H & E). apply mutex_eqb_eq in E. subst x. exact H. Qed.
(** What an instruction and a test require *)
Definition allowed (i : instr) (h : list mutex) : bool :=
  match i with
  | Register => holds WatchdogMutex h
  | Output => holds LoggerMutex h
  | NewProcess | DeleteProcess | ClearProcess => holds StateMutex h
  | _ => true
  end.
Definition allowed_test (x : test) (h : list mutex) : bool := match x with Callbacks => holds WatchdogMutex h | _ => true end.
(** The mutexes held after a program, given those held before, the latest first; None: the order is broken *)
Fixpoint locks (h : list mutex) (c : code) : option (list mutex) :=
  match c with
  | Done => Some h
  | Do (Lock m) k => if forallb (fun x => rank x <? rank m)%nat h then locks (m :: h) k else None
  | Do (Unlock m) k => match h with x :: h' => if mutex_eqb x m then locks h' k else None | [] => None end
  | Do (Join _) k => match h with [] => locks [] k | _ => None end
  | Do i k => if allowed i h then locks h k else None
  | If x y n k =>
      if allowed_test x h then
        match locks h y, locks h n with
        | Some a, Some b => if mutexes_eqb a b then locks a k else None
        | _, _ => None
        end
      else None
  | While _ y k => match locks h y with Some a => if mutexes_eqb a h then locks h k else None | None => None end
  end.
Lemma locks_plain h i k : plain i = true -> locks h (Do i k) = if allowed i h then locks h k else None.
Proof. destruct i; try discriminate; reflexivity. Qed.
Lemma locks_andthen c : forall h k h', locks h c = Some h' -> locks h (andthen c k) = locks h' k.
Proof.
  induction c as [|i c IH|x y _ n _ c IH|x y _ c IH]; intros h k h' E; cbn [andthen].
  - cbn [locks] in E. injection E as ->. reflexivity.
  - destruct (plain i) eqn:Ep.
    + rewrite locks_plain in * by exact Ep. destruct (allowed i h); [|discriminate]. exact (IH _ _ _ E).
    + destruct i; try discriminate Ep; cbn [locks] in *.
      * destruct (forallb _ h); [|discriminate]. exact (IH _ _ _ E).
      * destruct h as [|m' h]; [discriminate|]. destruct (mutex_eqb m' m); [|discriminate]. exact (IH _ _ _ E).
      * destruct h; [|discriminate]. exact (IH _ _ _ E).
  - cbn [locks] in *. destruct (allowed_test x h); [|discriminate]. destruct (locks h y) as [a|]; [|discriminate]. destruct (locks h n) as [b|]; [|discriminate].
    destruct (mutexes_eqb a b); [|discriminate]. exact (IH _ _ _ E).
  - cbn [locks] in *. destruct (locks h y) as [a|]; [|discriminate]. destruct (mutexes_eqb a h); [|discriminate]. exact (IH _ _ _ E).
Qed.
(** Which threads are joined *)
Fixpoint joins_only (p : thread -> bool) (c : code) : bool :=
  match c with
  | Done => true
  | Do (Join t) k => p t && joins_only p k
  | Do _ k => joins_only p k
  | If _ y n k => joins_only p y && joins_only p n && joins_only p k
  | While _ y k => joins_only p y && joins_only p k
  end.
Lemma joins_plain p i k : plain i = true -> joins_only p (Do i k) = joins_only p k.
Proof. destruct i; try discriminate; reflexivity. Qed.
Lemma joins_andthen p c k : joins_only p c = true -> joins_only p k = true -> joins_only p (andthen c k) = true.
Proof.
  intros C K. induction c as [|i c IH|x y _ n _ c IH|x y _ c IH]; cbn [andthen].
  - exact K.
  - destruct i; cbn [joins_only] in *; try (exact (IH C)).
    apply andb_prop in C. destruct C as [C1 C2]. rewrite C1, (IH C2). reflexivity.
  - cbn [joins_only] in *. apply andb_prop in C. destruct C as [C1 C2]. rewrite C1, (IH C2). reflexivity.
  - cbn [joins_only] in *. apply andb_prop in C. destruct C as [C1 C2]. rewrite C1, (IH C2). reflexivity.
Qed.
Definition may_join (t u : thread) : bool := match t, u with User, User => false | User, _ => true | _, _ => false end.

Definition orderly (c : config) : Prop :=
  forall t, joins_only (may_join t) (code_of c t) = true /\
            exists h, locks h (code_of c t) = Some [] /\ NoDup h /\ forall m, In m h <-> owner_of c m = Some t.

Lemma orderly_step c t b c' : orderly c -> stepped c t b c' -> orderly c'.
Proof.
  intros O T u. destruct (O u) as (Ju & h & Lh & Nh & Hh).
  destruct T as [m k Ec Eo|m k Ec Eo|v k Ec Ev|i k s Ep Ec Ex|x y n k r s Ec El|x y k r s Ec El]; cbn [code_of owner_of].
  - destruct (thread_eq_dec u t) as [->|N].
    + rewrite set_code_same. rewrite Ec in Ju, Lh. split; [exact Ju|]. cbn [locks] in Lh.
      destruct (forallb _ h) eqn:Ef; [|discriminate]. exists (m :: h). split; [exact Lh|].
      rewrite forallb_forall in Ef.
      assert (Nm : ~ In m h).
      { intros Hm. apply Hh in Hm. congruence. }
      split; [constructor; assumption|]. intros m'. cbn [In]. destruct (mutex_eq_dec m' m) as [->|Nm'].
      * rewrite set_owner_same. split; [reflexivity|left; reflexivity].
      * rewrite set_owner_other by exact Nm'. rewrite <- Hh. split; [intros [E|E]; [congruence|exact E]|right; assumption].
    + rewrite set_code_other by exact N. split; [exact Ju|]. exists h. split; [exact Lh|]. split; [exact Nh|].
      intros m'. rewrite Hh. destruct (mutex_eq_dec m' m) as [->|Nm'].
      * rewrite set_owner_same, Eo. split; [discriminate|intros E; congruence].
      * rewrite set_owner_other by exact Nm'. reflexivity.
  - destruct (thread_eq_dec u t) as [->|N].
    + rewrite set_code_same. rewrite Ec in Ju, Lh. split; [exact Ju|]. cbn [locks] in Lh.
      destruct h as [|m' h]; [discriminate|]. destruct (mutex_eqb m' m) eqn:Em; [|discriminate]. apply mutex_eqb_eq in Em. subst m'.
      exists h. split; [exact Lh|]. inversion Nh as [|? ? Nm Nh']; subst. split; [exact Nh'|]. intros m'.
      destruct (mutex_eq_dec m' m) as [->|Nm'].
      * rewrite set_owner_same. split; [intros A; contradiction|discriminate].
      * rewrite set_owner_other by exact Nm'. rewrite <- Hh. cbn [In]. split; [right; assumption|intros [E|E]; [congruence|exact E]].
    + rewrite set_code_other by exact N. split; [exact Ju|]. exists h. split; [exact Lh|]. split; [exact Nh|].
      intros m'. rewrite Hh. destruct (mutex_eq_dec m' m) as [->|Nm'].
      * rewrite set_owner_same, Eo. split; intros E; congruence.
      * rewrite set_owner_other by exact Nm'. reflexivity.
  - destruct (thread_eq_dec u t) as [->|N].
    + rewrite set_code_same. rewrite Ec in Ju, Lh. cbn [joins_only] in Ju. apply andb_prop in Ju. split; [apply Ju|].
      cbn [locks] in Lh. destruct h as [|m' h]; [|discriminate]. exists []. split; [exact Lh|]. split; [exact Nh|exact Hh].
    + rewrite set_code_other by exact N. split; [exact Ju|]. exists h. split; [exact Lh|]. split; [exact Nh|exact Hh].
  - destruct (thread_eq_dec u t) as [->|N].
    + rewrite set_code_same. rewrite Ec in Ju, Lh. rewrite joins_plain in Ju by exact Ep. rewrite locks_plain in Lh by exact Ep.
      destruct (allowed i h); [|discriminate]. split; [exact Ju|]. exists h. split; [exact Lh|]. split; [exact Nh|exact Hh].
    + rewrite set_code_other by exact N. split; [exact Ju|]. exists h. split; [exact Lh|]. split; [exact Nh|exact Hh].
  - destruct (thread_eq_dec u t) as [->|N].
    + rewrite set_code_same. rewrite Ec in Ju, Lh. cbn [joins_only] in Ju. apply andb_prop in Ju. destruct Ju as [J1 J2].
      apply andb_prop in J1. destruct J1 as [Jy Jn]. split; [apply joins_andthen; [destruct r; assumption|exact J2]|].
      cbn [locks] in Lh. destruct (allowed_test x h); [|discriminate]. destruct (locks h y) as [a|] eqn:Ey; [|discriminate]. destruct (locks h n) as [a'|] eqn:En; [|discriminate].
      destruct (mutexes_eqb a a') eqn:Ea; [|discriminate]. apply mutexes_eqb_eq in Ea. subst a'.
      exists h. split; [|split; [exact Nh|exact Hh]].
      rewrite (locks_andthen (if r then y else n) h k a); [exact Lh|]. destruct r; assumption.
    + rewrite set_code_other by exact N. split; [exact Ju|]. exists h. split; [exact Lh|]. split; [exact Nh|exact Hh].
  - destruct (thread_eq_dec u t) as [->|N].
    + rewrite set_code_same. rewrite Ec in Ju, Lh. pose proof Ju as Ju'. cbn [joins_only] in Ju. apply andb_prop in Ju. destruct Ju as [Jy Jk].
      split; [destruct r; [apply joins_andthen; assumption|exact Jk]|].
      pose proof Lh as Lw. cbn [locks] in Lh. destruct (locks h y) as [a|] eqn:Ey; [|discriminate].
      destruct (mutexes_eqb a h) eqn:Ea; [|discriminate]. apply mutexes_eqb_eq in Ea. subst a.
      exists h. split; [|split; [exact Nh|exact Hh]].
      destruct r; [|exact Lh]. rewrite (locks_andthen y h _ h Ey). exact Lw.
    + rewrite set_code_other by exact N. split; [exact Ju|]. exists h. split; [exact Lh|]. split; [exact Nh|exact Hh].
Qed.

Lemma user_locks l : locks [] (user l) = Some [].
Proof.
  induction l as [|x l IH]; cbn [user]; [vm_compute; reflexivity|]. rewrite locks_plain by reflexivity. cbn [allowed].
  rewrite (locks_andthen (call_code x) [] _ []); [exact IH|]. destruct x; vm_compute; reflexivity.
Qed.
Lemma user_joins l : joins_only (may_join User) (user l) = true.
Proof.
  induction l as [|x l IH]; cbn [user]; [vm_compute; reflexivity|]. rewrite joins_plain by reflexivity.
  apply joins_andthen; [|exact IH]. destruct x; vm_compute; reflexivity.
Qed.
Lemma orderly_initial n l : orderly (initial n l).
Proof.
  intros t. cbn [initial code_of owner_of]. split.
  - destruct t; [apply user_joins|vm_compute; reflexivity|vm_compute; reflexivity].
  - exists []. split; [|split; [constructor|intros m; split; [intros []|discriminate]]].
    destruct t; [apply user_locks|vm_compute; reflexivity|vm_compute; reflexivity].
Qed.

(** A thread that waits for a mutex waits for one that can go on, directly or not *)
Lemma lock_chain c : orderly c -> forall n t m k, (3 - rank m <= n)%nat -> code_of c t = Do (Lock m) k -> exists u, can_move c u.
Proof.
  intros O n. induction n as [|n IH]; intros t m k R E.
  - destruct m; cbn in R; lia.
  - destruct (owner_of c m) as [u|] eqn:Eo.
    + destruct (O u) as (_ & h & Lh & _ & Hh). assert (Hm : In m h) by (apply Hh; exact Eo).
      destruct (code_of c u) as [|i k'|x y z k'|x y k'] eqn:Eu.
      * cbn [locks] in Lh. injection Lh as ->. destruct Hm.
      * destruct (plain i) eqn:Ep.
        -- exists u. intros b. rewrite (step_plain c u b i k' Ep Eu). discriminate.
        -- destruct i as [m'|m'|v| | | | | | | | | | | | | | | | | | | | | | |]; try discriminate Ep; cbn [locks] in Lh.
           ++ destruct (forallb _ h) eqn:Ef; [|discriminate]. rewrite forallb_forall in Ef. specialize (Ef m Hm).
              apply Nat.ltb_lt in Ef. apply (IH u m' k'); [|exact Eu]. destruct m, m'; cbn in *; lia.
           ++ exists u. intros b. unfold step. rewrite Eu. destruct (owner_of c m') as [w|]; [destruct (thread_eqb w u)|]; discriminate.
           ++ destruct h; [destruct Hm|discriminate].
      * exists u. intros b. unfold step. rewrite Eu. discriminate.
      * exists u. intros b. unfold step. rewrite Eu. discriminate.
    + exists t. intros b. unfold step. rewrite E, Eo. discriminate.
Qed.
Lemma moves_or_waits c t : orderly c -> code_of c t <> Done ->
  (exists u, can_move c u) \/ (exists u k, t = User /\ u <> User /\ code_of c t = Do (Join u) k).
Proof.
  intros O N. destruct (code_of c t) as [|i k|x y z k|x y k] eqn:E; [congruence| | |].
  - destruct (plain i) eqn:Ep.
    + left. exists t. intros b. rewrite (step_plain c t b i k Ep E). discriminate.
    + destruct i as [m|m|u| | | | | | | | | | | | | | | | | | | | | | |]; try discriminate Ep.
      * left. exact (lock_chain c O 3 t m k ltac:(lia) E).
      * left. exists t. intros b. unfold step. rewrite E. destruct (owner_of c m) as [w|]; [destruct (thread_eqb w t)|]; discriminate.
      * right. exists u, k. destruct (O t) as [J _]. rewrite E in J. cbn [joins_only] in J. apply andb_prop in J. destruct J as [J _].
        destruct t, u; try discriminate J; (split; [reflexivity|]); (split; [discriminate|reflexivity]).
  - left. exists t. intros b. unfold step. rewrite E. discriminate.
  - left. exists t. intros b. unfold step. rewrite E. discriminate.
Qed.
Lemma orderly_moves c : orderly c -> unfinished c -> exists t, can_move c t.
Proof.
  intros O [t N]. destruct (moves_or_waits c t O N) as [M|(u & k & -> & Nu & E)]; [exact M|].
  destruct (code_of c u) as [|i k'|x y z k'|x y k'] eqn:Eu.
  - exists User. intros b. unfold step. rewrite E, Eu. discriminate.
  - destruct (moves_or_waits c u O) as [M|(v & k2 & Eq & _)]; [congruence|exact M|congruence].
  - destruct (moves_or_waits c u O) as [M|(v & k2 & Eq & _)]; [congruence|exact M|congruence].
  - destruct (moves_or_waits c u O) as [M|(v & k2 & Eq & _)]; [congruence|exact M|congruence].
Qed.
Lemma run_orderly n l sch c : run (initial n l) sch = Ok c -> orderly c.
Proof. intros E. exact (run_invariant orderly orderly_step sch _ _ (orderly_initial n l) E). Qed.

(** Protected sections *)
Lemma needs_owner n calls sch c t m : run (initial n calls) sch = Ok c -> needs c t m -> owner_of c m = Some t.
Proof.
  intros E H. destruct (run_orderly n calls sch c E t) as (_ & h & L & _ & O). apply O.
  destruct m; cbn [needs] in H.
  - destruct H as (k & [H|(y & z & H)]); rewrite H in L; cbn [locks allowed allowed_test] in L; destruct (holds _ h) eqn:F; try discriminate L; now apply holds_in.
  - destruct H as (k & [H|[H|H]]); rewrite H in L; cbn [locks allowed] in L; destruct (holds _ h) eqn:F; try discriminate L; now apply holds_in.
  - destruct H as (k & H); rewrite H in L; cbn [locks allowed] in L; destruct (holds _ h) eqn:F; try discriminate L; now apply holds_in.
Qed.
(** What the user's thread joins *)
Fixpoint will_join (t : thread) (c : code) : bool :=
  match c with
  | Done => false
  | Do (Join u) k => thread_eqb u t || will_join t k
  | Do _ k | If _ _ _ k | While _ _ k => will_join t k
  end.
Lemma will_join_andthen t a b : will_join t (andthen a b) = will_join t a || will_join t b.
Proof.
  induction a as [|i a IH|x y _ n _ a IH|x y _ a IH]; cbn [andthen will_join]; [reflexivity| |exact IH|exact IH].
  destruct i; try exact IH. rewrite IH. now rewrite orb_assoc.
Qed.
Definition joined (c : config) : Prop := forall t, t <> User -> will_join t (code_of c User) = true \/ code_of c t = Done.
Lemma joined_step c t b c' : joined c -> stepped c t b c' -> joined c'.
Proof.
  intros J T u Nu. specialize (J u Nu).
  assert (D : code_of c u = Done -> code_of c' u = Done).
  { intros Du. destruct (thread_eq_dec u t) as [->|N]; [|destruct T; cbn [code_of]; rewrite set_code_other by exact N; exact Du].
    destruct T; congruence. }
  destruct J as [J|J]; [|right; exact (D J)].
  destruct (thread_eq_dec t User) as [->|Nt].
  2: { left. destruct T; cbn [code_of]; rewrite set_code_other by congruence; exact J. }
  destruct T as [m k Ec Eo|m k Ec Eo|v k Ec Ev|i k s Ep Ec Ex|x y n k r s Ec El|x y k r s Ec El]; rewrite Ec in J; cbn [will_join] in J;
    cbn [code_of] in *; rewrite ?set_code_same.
  - left. exact J.
  - left. exact J.
  - destruct (thread_eqb v u) eqn:E; cbn [orb] in J; [|left; exact J]. apply thread_eqb_eq in E. subst v. right. exact (D Ev).
  - left. destruct i; try discriminate Ep; exact J.
  - left. rewrite will_join_andthen, J. apply orb_true_r.
  - left. destruct r; [|exact J]. rewrite will_join_andthen. cbn [will_join]. rewrite J. apply orb_true_r.
Qed.
Lemma joined_initial n l : joined (initial n l).
Proof.
  intros t N. left. cbn [initial code_of]. induction l as [|x l IH]; cbn [user will_join].
  - destruct t; [congruence|vm_compute; reflexivity|vm_compute; reflexivity].
  - rewrite will_join_andthen, IH. apply orb_true_r.
Qed.
Lemma destroyed_last n calls sch c : run (initial n calls) sch = Ok c -> code_of c User = Done -> forall t, code_of c t = Done.
Proof.
  intros E D t. pose proof (run_invariant joined joined_step sch _ _ (joined_initial n calls) E) as J.
  destruct t; [exact D| |].
  - destruct (J Watchdog) as [W|W]; [discriminate|rewrite D in W; discriminate W|exact W].
  - destruct (J Logger) as [W|W]; [discriminate|rewrite D in W; discriminate W|exact W].
Qed.

Lemma threads_never_deadlock n calls sch c : run (initial n calls) sch = Ok c -> unfinished c -> exists t, can_move c t.
Proof. intros E U. exact (orderly_moves c (run_orderly n calls sch c E) U). Qed.

(** ---- The destructor ends ---- *)
Fixpoint weight (c : code) : nat :=
  match c with
  | Done => 0
  | Do _ k => S (weight k)
  | If _ y n k => S (Nat.max (weight y) (weight n) + weight k)
  | While _ _ k => S (weight k)
  end.
Fixpoint loopless (c : code) : bool :=
  match c with
  | Done => true
  | Do _ k => loopless k
  | If _ y n k => loopless y && loopless n && loopless k
  | While _ _ _ => false
  end.
Fixpoint instr_pending (p : instr -> bool) (c : code) : bool :=
  match c with
  | Do i k => p i || instr_pending p k
  | If _ _ _ k => instr_pending p k
  | _ => false
  end.
Fixpoint has_loop (c : code) : bool :=
  match c with
  | Done => false
  | Do _ k | If _ _ _ k => has_loop k
  | While _ _ _ => true
  end.
(** The only loop is the given one, at the outermost level *)
Fixpoint shape (x : test) (B k0 : code) (c : code) : Prop :=
  match c with
  | Done => True
  | Do _ k => shape x B k0 k
  | If _ y n k => loopless y = true /\ loopless n = true /\ shape x B k0 k
  | While x' y k => x' = x /\ y = B /\ k = k0
  end.
Definition extra (run : bool) (p : instr -> bool) (B c : code) : nat :=
  if run && negb (instr_pending p c) && has_loop c then S (weight B) else 0%nat.
Lemma weight_andthen a b : weight (andthen a b) = (weight a + weight b)%nat.
Proof. induction a as [|i a IH|x y _ n _ a IH|x y _ a IH]; cbn [andthen weight]; try rewrite IH; lia. Qed.
Lemma pending_andthen p a b : loopless a = true -> instr_pending p (andthen a b) = instr_pending p a || instr_pending p b.
Proof.
  intros L. induction a as [|i a IH|x y _ n _ a IH|x y _ a IH]; cbn [andthen instr_pending loopless] in *.
  - reflexivity.
  - rewrite (IH L). apply Bool.orb_assoc.
  - apply andb_prop in L. exact (IH (proj2 L)).
  - discriminate.
Qed.
Lemma has_loop_andthen a b : loopless a = true -> has_loop (andthen a b) = has_loop b.
Proof.
  intros L. induction a as [|i a IH|x y _ n _ a IH|x y _ a IH]; cbn [andthen has_loop loopless] in *.
  - reflexivity.
  - exact (IH L).
  - apply andb_prop in L. exact (IH (proj2 L)).
  - discriminate.
Qed.
Lemma has_loop_loopless a : loopless a = true -> has_loop a = false.
Proof. intros L. rewrite <- (andthen_done a). rewrite has_loop_andthen by exact L. reflexivity. Qed.
Lemma shape_andthen x B k0 a b : loopless a = true -> shape x B k0 b -> shape x B k0 (andthen a b).
Proof.
  intros L H. induction a as [|i a IH|x' y _ n _ a IH|x' y _ a IH]; cbn [andthen shape loopless] in *.
  - exact H.
  - exact (IH L).
  - apply andb_prop in L. destruct L as [L1 L2]. apply andb_prop in L1. destruct L1 as [L1 L3].
    split; [exact L1|]. split; [exact L3|]. exact (IH L2).
  - discriminate.
Qed.
Lemma shape_loopless x B k0 a : loopless a = true -> shape x B k0 a.
Proof. intros L. rewrite <- (andthen_done a). apply shape_andthen; [exact L|]. exact I. Qed.
Lemma loopless_andthen a b : loopless a = true -> loopless b = true -> loopless (andthen a b) = true.
Proof.
  intros L H. induction a as [|i a IH|x' y _ n _ a IH|x' y _ a IH]; cbn [andthen loopless] in *.
  - exact H.
  - exact (IH L).
  - apply andb_prop in L. destruct L as [L1 L2]. rewrite L1, (IH L2). reflexivity.
  - discriminate.
Qed.

Lemma look_alive_flags s b r s' : look_alive s b = Ok (r, s') ->
  s_watchdog s' = s_watchdog s /\ s_logger s' = s_logger s /\ w_run s' = w_run s /\ l_run s' = l_run s.
Proof.
  unfold look_alive. destruct (the_process s) as [[n o]| | |]; cbn [obind]; try discriminate.
  destruct (o_started o && negb (o_dead o)); [destruct b|]; intros E; injection E as <- <-;
  (split; [reflexivity|split; [reflexivity|split; reflexivity]]).
Qed.
Lemma look_flags x s b r s' : look x s b = Ok (r, s') ->
  s_watchdog s' = s_watchdog s /\ s_logger s' = s_logger s /\ w_run s' = w_run s /\ l_run s' = l_run s.
Proof.
  assert (Z : forall q : bool, Ok (q, s) = Ok (r, s') -> s_watchdog s' = s_watchdog s /\ s_logger s' = s_logger s /\ w_run s' = w_run s /\ l_run s' = l_run s).
  { intros q E. injection E as _ <-. split; [reflexivity|split; [reflexivity|split; reflexivity]]. }
  destruct x; cbn [look]; try (apply Z).
  - destruct (s_process s); [apply look_alive_flags|apply Z].
  - apply look_alive_flags.
  - destruct (the_process s) as [[n o]| | |]; cbn [obind]; try discriminate. intros E. injection E as _ <-.
    destruct b; (split; [reflexivity|split; [reflexivity|split; reflexivity]]).
  - destruct (the_process s) as [q| | |]; cbn [obind]; try discriminate. apply Z.
  - destruct (the_client s) as [q| | |]; cbn [obind]; try discriminate. apply Z.
Qed.
Definition reads_watchdog (i : instr) : bool := match i with ReadWatchdog => true | _ => false end.
Definition reads_logger (i : instr) : bool := match i with ReadLogger => true | _ => false end.
Lemma exec_flags i s s' : exec i s = Ok s' ->
  (s_watchdog s = false -> s_watchdog s' = false) /\ (s_logger s = false -> s_logger s' = false) /\
  w_run s' = (if reads_watchdog i then s_watchdog s else w_run s) /\ l_run s' = (if reads_logger i then s_logger s else l_run s).
Proof.
  assert (Z : Ok s = Ok s' -> (s_watchdog s = false -> s_watchdog s' = false) /\ (s_logger s = false -> s_logger s' = false) /\
              w_run s' = w_run s /\ l_run s' = l_run s).
  { intros E. injection E as <-. split; [exact (fun H => H)|split; [exact (fun H => H)|split; reflexivity]]. }
  destruct i; cbn [exec reads_watchdog reads_logger]; try exact Z; intros E; revert E;
  try (destruct (the_process s) as [[? ?]| | |]; cbn [obind]; try discriminate; []);
  try (destruct (the_client s) as [?| | |]; cbn [obind]; try discriminate; []); try exact Z;
  intros E; injection E as E; subst s'; (split; [first [exact (fun H => H)|reflexivity]|split; [first [exact (fun H => H)|reflexivity]|split; reflexivity]]).
Qed.

Definition shaped (c : config) : Prop :=
  loopless (code_of c User) = true /\ shape WatchdogRun watchdog_body Done (code_of c Watchdog) /\
  shape LoggerRun logger_body (debug Done) (code_of c Logger).
Lemma shaped_step c t b c' : shaped c -> stepped c t b c' -> shaped c'.
Proof.
  intros (U & W & L) T.
  assert (G : forall x B k0, loopless B = true -> loopless k0 = true -> shape x B k0 (code_of c t) -> shape x B k0 (code_of c' t)).
  { intros x0 B k0 LB Lk H.
    destruct T as [m k Ec Eo|m k Ec Eo|v k Ec Ev|i k s Ep Ec Ex|x y n k r s Ec El|x y k r s Ec El]; cbn [code_of];
      rewrite set_code_same; rewrite Ec in H; cbn [shape] in H; try exact H.
    - destruct H as (H1 & H2 & H3). apply shape_andthen; [destruct r; assumption|exact H3].
    - destruct H as (-> & -> & ->). destruct r.
      + apply shape_andthen; [exact LB|]. cbn [shape]. split; [reflexivity|split; reflexivity].
      + apply shape_loopless. exact Lk. }
  assert (F : forall u, u <> t -> code_of c' u = code_of c u).
  { intros u N. destruct T; cbn [code_of]; apply set_code_other; exact N. }
  assert (V : loopless (code_of c t) = true -> loopless (code_of c' t) = true).
  { intros H.
    destruct T as [m k Ec Eo|m k Ec Eo|v k Ec Ev|i k s Ep Ec Ex|x y n k r s Ec El|x y k r s Ec El]; cbn [code_of];
      rewrite set_code_same; rewrite Ec in H; cbn [loopless] in H; try exact H.
    - apply andb_prop in H. destruct H as [H1 H2]. apply andb_prop in H1. destruct H1 as [H1 H3].
      apply loopless_andthen; [destruct r; assumption|exact H2].
    - discriminate. }
  destruct t.
  - split; [exact (V U)|]. rewrite !F by discriminate. split; assumption.
  - split; [rewrite F by discriminate; exact U|]. split; [|rewrite F by discriminate; exact L].
    apply G; [vm_compute; reflexivity|reflexivity|exact W].
  - split; [rewrite F by discriminate; exact U|]. split; [rewrite F by discriminate; exact W|].
    apply G; [vm_compute; reflexivity|vm_compute; reflexivity|exact L].
Qed.
Lemma shaped_initial n l : shaped (initial n l).
Proof.
  split; [|split; cbn; (split; [reflexivity|split; reflexivity])]. cbn [initial code_of].
  induction l as [|x l IH]; cbn [user]; [vm_compute; reflexivity|]. cbn [loopless]. apply loopless_andthen; [|exact IH].
  destruct x; vm_compute; reflexivity.
Qed.
Lemma ending_step c t b c' : ending c -> stepped c t b c' -> ending c'.
Proof.
  intros [W L] T. unfold ending.
  destruct T as [m k Ec Eo|m k Ec Eo|v k Ec Ev|i k s Ep Ec Ex|x y n k r s Ec El|x y k r s Ec El]; cbn [mem]; try (split; assumption).
  - destruct (exec_flags _ _ _ Ex) as (H1 & H2 & _). split; [exact (H1 W)|exact (H2 L)].
  - destruct (look_flags _ _ _ _ _ El) as (-> & -> & _). split; assumption.
  - destruct (look_flags _ _ _ _ _ El) as (-> & -> & _). split; assumption.
Qed.

(** What a thread can still do *)
Definition left_of (c : config) (t : thread) : nat :=
  match t with
  | User => weight (code_of c User)
  | Watchdog => weight (code_of c Watchdog) + extra (w_run (mem c)) reads_watchdog watchdog_body (code_of c Watchdog)
  | Logger => weight (code_of c Logger) + extra (l_run (mem c)) reads_logger logger_body (code_of c Logger)
  end.
Lemma extra_run r r' p B c : (r' = true -> r = true) -> (extra r' p B c <= extra r p B c)%nat.
Proof.
  intros H. unfold extra. destruct r'; [rewrite (H eq_refl); lia|]. cbn [andb]. lia.
Qed.
Lemma runs_step c t b c' : ending c -> stepped c t b c' ->
  (w_run (mem c') = true -> w_run (mem c) = true) /\ (l_run (mem c') = true -> l_run (mem c) = true).
Proof.
  intros [W L] T.
  destruct T as [m k Ec Eo|m k Ec Eo|v k Ec Ev|i k s Ep Ec Ex|x y n k r s Ec El|x y k r s Ec El]; cbn [mem]; try (split; exact (fun H => H)).
  - destruct (exec_flags _ _ _ Ex) as (_ & _ & -> & ->).
    split; [destruct (reads_watchdog i); [congruence|exact (fun H => H)]|destruct (reads_logger i); [congruence|exact (fun H => H)]].
  - destruct (look_flags _ _ _ _ _ El) as (_ & _ & -> & ->). split; exact (fun H => H).
  - destruct (look_flags _ _ _ _ _ El) as (_ & _ & -> & ->). split; exact (fun H => H).
Qed.
(** One step of a thread with a loop that ends when a flag is read *)
Lemma loop_step (x0 : test) (p : instr -> bool) (B k0 : code) (run run' : shared -> bool) c t b c' :
  (forall i, p i = true -> plain i = true) ->
  loopless B = true -> loopless k0 = true -> instr_pending p B = true ->
  (forall s b r s', look x0 s b = Ok (r, s') -> r = run s) ->
  (forall x s b r s', look x s b = Ok (r, s') -> run s' = run s) ->
  (forall i s, exec i (mem c) = Ok s -> run s = (if p i then false else run (mem c))) ->
  shape x0 B k0 (code_of c t) -> stepped c t b c' ->
  (weight (code_of c' t) + extra (run (mem c')) p B (code_of c' t) < weight (code_of c t) + extra (run (mem c)) p B (code_of c t))%nat.
Proof.
  intros Pp LB Lk PB Lr Lf Ef H T.
  destruct T as [m k Ec Eo|m k Ec Eo|v k Ec Ev|i k s Ep Ec Ex|x y n k r s Ec El|x y k r s Ec El]; cbn [code_of mem];
    rewrite set_code_same; rewrite Ec in *; cbn [weight shape] in *.
  - unfold extra. cbn [instr_pending has_loop]. destruct (p (Lock m)) eqn:Q; [discriminate (Pp _ Q)|]. cbn [orb]. lia.
  - unfold extra. cbn [instr_pending has_loop]. destruct (p (Unlock m)) eqn:Q; [discriminate (Pp _ Q)|]. cbn [orb]. lia.
  - unfold extra. cbn [instr_pending has_loop]. destruct (p (Join v)) eqn:Q; [discriminate (Pp _ Q)|]. cbn [orb]. lia.
  - rewrite (Ef i s Ex). unfold extra. cbn [instr_pending has_loop]. destruct (p i); cbn [orb andb]; lia.
  - destruct H as (Hy & Hn & H). rewrite (Lf _ _ _ _ _ El). rewrite weight_andthen. unfold extra. cbn [instr_pending has_loop].
    assert (Hb : loopless (if r then y else n) = true) by (destruct r; assumption).
    rewrite pending_andthen, has_loop_andthen by exact Hb.
    assert (Wb : (weight (if r then y else n) <= Nat.max (weight y) (weight n))%nat) by (destruct r; lia).
    destruct (run (mem c)), (instr_pending p (if r then y else n)), (instr_pending p k), (has_loop k); cbn [andb orb negb]; lia.
  - destruct H as (-> & -> & ->). rewrite (Lf _ _ _ _ _ El). pose proof (Lr _ _ _ _ El) as Er. subst r. unfold extra.
    destruct (run (mem c)).
    + rewrite weight_andthen, pending_andthen, has_loop_andthen by exact LB. rewrite PB. cbn [orb negb andb instr_pending has_loop weight]. lia.
    + cbn [andb]. lia.
Qed.
Lemma left_step c t b c' : ending c -> shaped c -> stepped c t b c' ->
  (left_of c' t < left_of c t)%nat /\ forall u, u <> t -> (left_of c' u <= left_of c u)%nat.
Proof.
  intros En (U & W & L) T. destruct (runs_step c t b c' En T) as [Rw Rl]. pose proof En as [Fw Fl].
  assert (F : forall u, u <> t -> code_of c' u = code_of c u).
  { intros u N. destruct T; cbn [code_of]; apply set_code_other; exact N. }
  split.
  - destruct t; cbn [left_of].
    + destruct T as [m k Ec Eo|m k Ec Eo|v k Ec Ev|i k s Ep Ec Ex|x y n k r s Ec El|x y k r s Ec El]; cbn [code_of];
        rewrite set_code_same; rewrite Ec in *; cbn [weight loopless] in *; try lia; try discriminate.
      rewrite weight_andthen. assert (Wb : (weight (if r then y else n) <= Nat.max (weight y) (weight n))%nat) by (destruct r; lia). lia.
    + apply (loop_step WatchdogRun reads_watchdog watchdog_body Done w_run w_run c Watchdog b c').
      * intros i Q. destruct i; try discriminate Q; reflexivity.
      * vm_compute. reflexivity.
      * reflexivity.
      * vm_compute. reflexivity.
      * intros s b' r s' E. cbn [look] in E. injection E as <- _. reflexivity.
      * intros x s b' r s' E. apply (look_flags _ _ _ _ _ E).
      * intros i s E. destruct (exec_flags _ _ _ E) as (_ & _ & -> & _). destruct (reads_watchdog i); [exact Fw|reflexivity].
      * exact W.
      * exact T.
    + apply (loop_step LoggerRun reads_logger logger_body (debug Done) l_run l_run c Logger b c').
      * intros i Q. destruct i; try discriminate Q; reflexivity.
      * vm_compute. reflexivity.
      * vm_compute. reflexivity.
      * vm_compute. reflexivity.
      * intros s b' r s' E. cbn [look] in E. injection E as <- _. reflexivity.
      * intros x s b' r s' E. apply (look_flags _ _ _ _ _ E).
      * intros i s E. destruct (exec_flags _ _ _ E) as (_ & _ & _ & ->). destruct (reads_logger i); [exact Fl|reflexivity].
      * exact L.
      * exact T.
  - intros u N. destruct u; cbn [left_of]; rewrite F by exact N.
    + lia.
    + apply Nat.add_le_mono_l. apply extra_run. exact Rw.
    + apply Nat.add_le_mono_l. apply extra_run. exact Rl.
Qed.
Definition left_over (c : config) : nat := (left_of c User + left_of c Watchdog + left_of c Logger)%nat.
Lemma left_over_step c t b c' : ending c -> shaped c -> stepped c t b c' -> (left_over c' < left_over c)%nat.
Proof.
  intros En Sh T. destruct (left_step c t b c' En Sh T) as [A B]. unfold left_over.
  destruct t.
  - pose proof (B Watchdog ltac:(discriminate)). pose proof (B Logger ltac:(discriminate)). lia.
  - pose proof (B User ltac:(discriminate)). pose proof (B Logger ltac:(discriminate)). lia.
  - pose proof (B User ltac:(discriminate)). pose proof (B Watchdog ltac:(discriminate)). lia.
Qed.
Lemma goes_bounded c l c' : ending c -> shaped c -> goes c l c' -> (List.length l + left_over c' <= left_over c)%nat.
Proof.
  intros En Sh G. induction G as [c|c t b c1 l c2 Es G IH]; cbn [List.length].
  - lia.
  - pose proof (step_stepped _ _ _ _ Es) as T. pose proof (left_over_step c t b c1 En Sh T) as D.
    specialize (IH (ending_step _ _ _ _ En T) (shaped_step _ _ _ _ Sh T)). lia.
Qed.
Lemma destructor_ends n calls sch c : run (initial n calls) sch = Ok c -> ending c ->
  exists most, forall l c', goes c l c' ->
    (List.length l <= most)%nat /\ ((forall t, ~ can_move c' t) -> forall t, code_of c' t = Done).
Proof.
  intros E En. exists (left_over c). intros l c' G.
  pose proof (run_invariant shaped shaped_step sch _ _ (shaped_initial n calls) E) as Sh.
  split; [pose proof (goes_bounded c l c' En Sh G); lia|].
  intros N t. pose proof (goes_invariant orderly orderly_step l c c' (run_orderly n calls sch c E) G) as O.
  destruct (code_of c' t) eqn:Ec; [reflexivity| | |]; exfalso;
    (destruct (orderly_moves c' O) as [u M]; [exists t; congruence|exact (N u M)]).
Qed.

(** ---- Which accesses are safe: the process ---- *)
Definition ptr (s : shared) : option nat * list bool := (s_process s, map o_deleted (s_objects s)).
Definition points (p : option nat * list bool) (d : bool) : Prop := exists n, fst p = Some n /\ nth_error (snd p) n = Some d.
Lemma set_at_map {A B} (f : A -> B) (l : list A) n x : map f (set_at l n x) = set_at (map f l) n (f x).
Proof. unfold set_at. rewrite map_app. cbn [map]. rewrite firstn_map, skipn_map. reflexivity. Qed.
Lemma set_at_same {A} (l : list A) n x : nth_error l n = Some x -> set_at l n x = l.
Proof.
  revert n. induction l as [|y l IH]; intros [|n] E; cbn in E; try discriminate.
  - injection E as ->. reflexivity.
  - change (set_at (y :: l) (S n) x) with (y :: set_at l n x). rewrite (IH n E). reflexivity.
Qed.
Lemma set_at_here {A} (l : list A) n x y : nth_error l n = Some y -> nth_error (set_at l n x) n = Some x.
Proof.
  revert n. induction l as [|z l IH]; intros [|n] E; cbn in E; try discriminate; [reflexivity|].
  change (nth_error (set_at l n x) n = Some x). exact (IH n E).
Qed.
Lemma the_process_ok s : points (ptr s) false -> exists n o, the_process s = Ok (n, o).
Proof.
  intros (n & E1 & E2). cbn [ptr fst snd] in *. unfold the_process. rewrite E1.
  rewrite nth_error_map in E2. destruct (nth_error (s_objects s) n) as [o|]; [|discriminate].
  cbn [option_map] in E2. injection E2 as E2. rewrite E2. exists n, o. reflexivity.
Qed.
Lemma the_process_inv s n o : the_process s = Ok (n, o) -> s_process s = Some n /\ nth_error (s_objects s) n = Some o /\ o_deleted o = false.
Proof.
  unfold the_process. destruct (s_process s) as [m|]; [|discriminate]. destruct (nth_error (s_objects s) m) as [q|] eqn:E; [|discriminate].
  destruct (o_deleted q) eqn:D; [discriminate|]. intros H. injection H as <- <-. split; [reflexivity|]. split; assumption.
Qed.
Lemma ptr_touch s n o a b : the_process s = Ok (n, o) -> ptr (with_process s (s_process s) (set_at (s_objects s) n (mkObject a b false))) = ptr s.
Proof.
  intros E. destruct (the_process_inv _ _ _ E) as (_ & E2 & E3). unfold ptr. cbn [with_process s_process s_objects]. f_equal.
  rewrite set_at_map. cbn [o_deleted]. apply set_at_same. rewrite nth_error_map, E2. cbn [option_map]. rewrite E3. reflexivity.
Qed.
Lemma look_alive_ptr s b r s' : look_alive s b = Ok (r, s') -> ptr s' = ptr s.
Proof.
  unfold look_alive. destruct (the_process s) as [[n o]| | |] eqn:E; cbn [obind]; try discriminate.
  destruct (o_started o && negb (o_dead o)); [destruct b|]; intros H; injection H as <- <-; try reflexivity.
  apply (ptr_touch _ _ _ _ _ E).
Qed.
Lemma look_ptr x s b r s' : look x s b = Ok (r, s') -> ptr s' = ptr s.
Proof.
  assert (Z : forall q : bool, Ok (q, s) = Ok (r, s') -> ptr s' = ptr s) by (intros q E; injection E as _ <-; reflexivity).
  destruct x; cbn [look]; try (apply Z).
  - destruct (s_process s); [apply look_alive_ptr|apply Z].
  - apply look_alive_ptr.
  - destruct (the_process s) as [[n o]| | |] eqn:E; cbn [obind]; try discriminate. intros H. injection H as _ <-.
    destruct b; [apply (ptr_touch _ _ _ _ _ E)|reflexivity].
  - destruct (the_process s) as [q| | |]; cbn [obind]; try discriminate. apply Z.
  - destruct (the_client s) as [q| | |]; cbn [obind]; try discriminate. apply Z.
Qed.
Definition moves_process (i : instr) : bool := match i with NewProcess | DeleteProcess | ClearProcess => true | _ => false end.
Lemma exec_ptr i s s' : moves_process i = false -> exec i s = Ok s' -> ptr s' = ptr s.
Proof.
  assert (Z : Ok s = Ok s' -> ptr s' = ptr s) by (intros E; injection E as <-; reflexivity).
  intros M. destruct i; try discriminate M; cbn [exec]; try exact Z; intros E; revert E;
  try (destruct (the_process s) as [[? ?]| | |]; cbn [obind]; try discriminate; []);
  try (destruct (the_client s) as [?| | |]; cbn [obind]; try discriminate; []); try exact Z;
  intros E; injection E as E; subst s'; reflexivity.
Qed.

(** What a thread knows: it does not hold the mutex; it holds it and the pointer is NULL or good; ... and good; ... and deleted *)
Inductive know := Out | Unknown | Good | Stale.
Definition know_eqb (a b : know) : bool :=
  match a, b with Out, Out | Unknown, Unknown | Good, Good | Stale, Stale => true | _, _ => false end.
Lemma know_eqb_eq a b : know_eqb a b = true -> a = b.
Proof. destruct a, b; try discriminate; reflexivity. Qed.
Definition after (u : thread) (a : know) (i : instr) : option know :=
  match i with
  | Lock StateMutex => match a with Out => Some Unknown | _ => None end
  | Unlock StateMutex => match a with Unknown | Good => Some Out | _ => None end
  | NewProcess => match a, u with Unknown, User => Some Good | _, _ => None end
  | UseProcess => match a, u with Good, _ => Some Good | Out, User => Some Out | _, _ => None end
  | GetError => match a, u with Out, Logger => Some Out | _, _ => None end
  | DeleteProcess => match a with Good => Some Stale | _ => None end
  | ClearProcess => match a with Stale => Some Unknown | _ => None end
  | UseClient => match u with Logger => None | _ => Some a end
  | NewClient | ClearClient | DeleteClient => match a, u with Out, User => Some Out | _, _ => None end
  | _ => Some a
  end.
Definition branch (u : thread) (a : know) (t : test) : option (know * know) :=
  match t with
  | HasProcess => match a with Unknown => Some (Good, Unknown) | Good => Some (Good, Good) | _ => None end
  | Running => match a with Unknown => Some (Unknown, Unknown) | _ => None end
  | IsAlive => match a, u with Good, _ => Some (Good, Good) | Out, User => Some (Out, Out) | _, _ => None end
  | Starts | ClientAlive => match a, u with Out, User => Some (Out, Out) | _, _ => None end
  | ErrorText => match a with Good => Some (Good, Good) | _ => None end
  | _ => Some (a, a)
  end.
Fixpoint proc (u : thread) (a : know) (c : code) : option know :=
  match c with
  | Done => Some a
  | Do i k => match after u a i with Some a' => proc u a' k | None => None end
  | If t y n k =>
      match branch u a t with
      | Some (a1, a2) =>
          match proc u a1 y, proc u a2 n with
          | Some b1, Some b2 => if know_eqb b1 b2 then proc u b1 k else None
          | _, _ => None
          end
      | None => None
      end
  | While t y k =>
      match branch u a t, proc u a y with
      | Some (a1, a2), Some b => if know_eqb a1 a && know_eqb a2 a && know_eqb b a then proc u a k else None
      | _, _ => None
      end
  end.
Lemma proc_andthen u c : forall a k a', proc u a c = Some a' -> proc u a (andthen c k) = proc u a' k.
Proof.
  induction c as [|i c IH|x y _ n _ c IH|x y _ c IH]; intros a k a' E; cbn [andthen proc] in *.
  - injection E as ->. reflexivity.
  - destruct (after u a i); [|discriminate]. exact (IH _ _ _ E).
  - destruct (branch u a x) as [[a1 a2]|]; [|discriminate]. destruct (proc u a1 y) as [b1|]; [|discriminate].
    destruct (proc u a2 n) as [b2|]; [|discriminate]. destruct (know_eqb b1 b2); [|discriminate]. exact (IH _ _ _ E).
  - destruct (branch u a x) as [[a1 a2]|]; [|discriminate]. destruct (proc u a y) as [b|]; [|discriminate].
    destruct (know_eqb a1 a && know_eqb a2 a && know_eqb b a); [|discriminate]. exact (IH _ _ _ E).
Qed.
Definition fine (s : shared) : Prop := s_process s = None \/ points (ptr s) false.
Definition means (c : config) (u : thread) (a : know) : Prop :=
  match a with
  | Out => owner_of c StateMutex <> Some u
  | Unknown => owner_of c StateMutex = Some u /\ fine (mem c)
  | Good => owner_of c StateMutex = Some u /\ points (ptr (mem c)) false
  | Stale => owner_of c StateMutex = Some u
  end.
Definition guarded (c : config) : Prop :=
  (owner_of c StateMutex = None -> fine (mem c)) /\
  forall u, exists a, proc u a (code_of c u) = Some Out /\ means c u a.
Lemma fine_ptr s s' : ptr s' = ptr s -> fine s -> fine s'.
Proof. intros E. unfold fine. rewrite E. unfold ptr in E. injection E as -> _. exact (fun H => H). Qed.
Lemma means_keep c c' u a : owner_of c' StateMutex = owner_of c StateMutex -> ptr (mem c') = ptr (mem c) -> means c u a -> means c' u a.
Proof.
  intros Eo Ep. destruct a; cbn [means]; rewrite Eo; try exact (fun H => H).
  - intros [H1 H2]. split; [exact H1|]. exact (fine_ptr _ _ Ep H2).
  - rewrite Ep. exact (fun H => H).
Qed.
(** A step that changes neither the owner nor the pointer *)
Lemma guarded_quiet c c' t a : guarded c ->
  owner_of c' StateMutex = owner_of c StateMutex -> ptr (mem c') = ptr (mem c) -> (forall u, u <> t -> code_of c' u = code_of c u) ->
  proc t a (code_of c' t) = Some Out -> means c t a -> guarded c'.
Proof.
  intros [G1 G2] Eo Ep F P M. split.
  - intros H. rewrite Eo in H. exact (fine_ptr _ _ Ep (G1 H)).
  - intros u. destruct (thread_eq_dec u t) as [->|N].
    + exists a. split; [exact P|]. exact (means_keep _ _ _ _ Eo Ep M).
    + destruct (G2 u) as (a' & P' & M'). exists a'. rewrite (F u N). split; [exact P'|]. exact (means_keep _ _ _ _ Eo Ep M').
Qed.
(** A step of the holder of the mutex *)
Lemma guarded_holder c c' t a : guarded c -> owner_of c StateMutex = Some t -> owner_of c' StateMutex = Some t ->
  (forall u, u <> t -> code_of c' u = code_of c u) ->
  proc t a (code_of c' t) = Some Out -> means c' t a -> guarded c'.
Proof.
  intros [G1 G2] Eo Eo' F P M. split; [congruence|].
  intros u. destruct (thread_eq_dec u t) as [->|N].
  - exists a. split; [exact P|exact M].
  - destruct (G2 u) as (a' & P' & M'). exists a'. rewrite (F u N). split; [exact P'|].
    destruct a'; cbn [means] in *; [congruence|destruct M'; congruence|destruct M'; congruence|congruence].
Qed.
Lemma after_quiet u a i a' : moves_process i = false -> plain i = true -> after u a i = Some a' -> a' = a.
Proof.
  intros M P E. destruct i; try discriminate M; try discriminate P; cbn [after] in E;
  try (injection E as <-; reflexivity); destruct a, u; try discriminate E; injection E as <-; reflexivity.
Qed.
Lemma guarded_step c t b c' : guarded c -> stepped c t b c' -> guarded c'.
Proof.
  intros G T. pose proof G as [G1 G2]. destruct (G2 t) as (a & P & M).
  assert (F : forall u, u <> t -> code_of c' u = code_of c u).
  { intros u N. destruct T; cbn [code_of]; apply set_code_other; exact N. }
  destruct T as [m k Ec Eo|m k Ec Eo|v k Ec Ev|i k s Ep Ec Ex|x y n k r s Ec El|x y k r s Ec El]; rewrite Ec in P; cbn [proc] in P.
  - destruct (mutex_eq_dec m StateMutex) as [->|Nm].
    + cbn [after] in P. destruct a; try discriminate P. split.
      * cbn [owner_of]. rewrite set_owner_same. discriminate.
      * intros u. destruct (thread_eq_dec u t) as [->|N].
        -- exists Unknown. cbn [code_of]. rewrite set_code_same. split; [exact P|]. cbn [means owner_of mem]. rewrite set_owner_same.
           split; [reflexivity|exact (G1 Eo)].
        -- destruct (G2 u) as (a' & P' & M'). exists a'. rewrite (F u N). split; [exact P'|].
           destruct a'; cbn [means owner_of] in *; rewrite set_owner_same; [congruence|destruct M'; congruence|destruct M'; congruence|congruence].
    + assert (Ea : after t a (Lock m) = Some a) by (destruct m; try reflexivity; congruence). rewrite Ea in P.
      apply (guarded_quiet c _ t a G); cbn [owner_of mem code_of]; [apply set_owner_other; congruence|reflexivity|exact F|rewrite set_code_same; exact P|exact M].
  - destruct (mutex_eq_dec m StateMutex) as [->|Nm].
    + cbn [after] in P.
      assert (Fi : fine (mem c) /\ proc t Out k = Some Out).
      { destruct a; try discriminate P; cbn [means] in M; (split; [|exact P]); [apply M|right; apply M]. }
      destruct Fi as [Fi Pk]. split.
      * cbn [mem]. intros _. exact Fi.
      * intros u. destruct (thread_eq_dec u t) as [->|N].
        -- exists Out. cbn [code_of]. rewrite set_code_same. split; [exact Pk|]. cbn [means owner_of]. rewrite set_owner_same. discriminate.
        -- destruct (G2 u) as (a' & P' & M'). exists a'. rewrite (F u N). split; [exact P'|].
           destruct a'; cbn [means owner_of] in *; rewrite set_owner_same; [discriminate|destruct M'; congruence|destruct M'; congruence|congruence].
    + assert (Ea : after t a (Unlock m) = Some a) by (destruct m; try reflexivity; congruence). rewrite Ea in P.
      apply (guarded_quiet c _ t a G); cbn [owner_of mem code_of]; [apply set_owner_other; congruence|reflexivity|exact F|rewrite set_code_same; exact P|exact M].
  - cbn [after] in P.
    apply (guarded_quiet c _ t a G); cbn [owner_of mem code_of]; [reflexivity|reflexivity|exact F|rewrite set_code_same; exact P|exact M].
  - destruct (after t a i) as [a'|] eqn:Ea; [|discriminate].
    destruct (moves_process i) eqn:Em.
    + destruct i; try discriminate Em; cbn [after] in Ea.
      * destruct a; try discriminate Ea. destruct t; try discriminate Ea. injection Ea as <-. cbn [means] in M.
        apply (guarded_holder c _ User Good G (proj1 M)); cbn [owner_of code_of]; [apply M|exact F|rewrite set_code_same; exact P|].
        cbn [means owner_of mem]. split; [apply M|]. cbn [exec] in Ex. injection Ex as <-.
        exists (List.length (s_objects (mem c))). cbn [ptr fst snd with_process s_process s_objects]. split; [reflexivity|].
        rewrite nth_error_map, nth_error_app2 by lia. rewrite Nat.sub_diag. reflexivity.
      * destruct a; try discriminate Ea. injection Ea as <-. cbn [means] in M.
        apply (guarded_holder c _ t Stale G (proj1 M)); cbn [owner_of code_of]; [apply M|exact F|rewrite set_code_same; exact P|].
        cbn [means owner_of]. apply M.
      * destruct a; try discriminate Ea. injection Ea as <-. cbn [means] in M.
        apply (guarded_holder c _ t Unknown G M); cbn [owner_of code_of]; [exact M|exact F|rewrite set_code_same; exact P|].
        cbn [means owner_of mem]. split; [exact M|]. cbn [exec] in Ex. injection Ex as <-. left. reflexivity.
    + pose proof (after_quiet t a i a' Em Ep Ea) as ->. pose proof (exec_ptr _ _ _ Em Ex) as Eq.
      apply (guarded_quiet c _ t a G); cbn [owner_of mem code_of]; [reflexivity|exact Eq|exact F|rewrite set_code_same; exact P|exact M].
  - destruct (branch t a x) as [[a1 a2]|] eqn:Eb; [|discriminate]. destruct (proc t a1 y) as [b1|] eqn:E1; [|discriminate].
    destruct (proc t a2 n) as [b2|] eqn:E2; [|discriminate]. destruct (know_eqb b1 b2) eqn:Ek; [|discriminate].
    apply know_eqb_eq in Ek. subst b2. pose proof (look_ptr _ _ _ _ _ El) as Eq.
    apply (guarded_quiet c _ t (if r then a1 else a2) G); cbn [owner_of mem code_of]; [reflexivity|exact Eq|exact F| |].
    + rewrite set_code_same. destruct r; [rewrite (proc_andthen t y a1 k b1 E1)|rewrite (proc_andthen t n a2 k b1 E2)]; exact P.
    + destruct x; cbn [branch] in Eb; try (injection Eb as <- <-; destruct r; exact M);
      destruct a, t; try discriminate Eb; injection Eb as <- <-; destruct r; try exact M;
      (cbn [means] in M |- *; destruct M as [M1 M2]; split; [exact M1|]; cbn [look] in El; destruct M2 as [M2|M2]; [rewrite M2 in El; discriminate|exact M2]).
  - destruct (branch t a x) as [[a1 a2]|] eqn:Eb; [|discriminate]. destruct (proc t a y) as [b1|] eqn:E1; [|discriminate].
    destruct (know_eqb a1 a && know_eqb a2 a && know_eqb b1 a) eqn:Ek; [|discriminate]. apply andb_prop in Ek. destruct Ek as [Ek Ek3].
    apply andb_prop in Ek. destruct Ek as [Ek1 Ek2]. apply know_eqb_eq in Ek1, Ek2, Ek3. subst a1 a2 b1.
    pose proof (look_ptr _ _ _ _ _ El) as Eq.
    apply (guarded_quiet c _ t a G); cbn [owner_of mem code_of]; [reflexivity|exact Eq|exact F| |exact M].
    rewrite set_code_same. destruct r; [|exact P]. rewrite (proc_andthen t y a _ a E1). cbn [proc]. rewrite Eb, E1.
    replace (know_eqb a a) with true by (destruct a; reflexivity). exact P.
Qed.
Lemma guarded_initial n l : guarded (initial n l).
Proof.
  split; [intros _; left; reflexivity|]. intros u. exists Out. split; [|cbn; discriminate]. cbn [initial code_of].
  destruct u; [|vm_compute; reflexivity|vm_compute; reflexivity].
  induction l as [|x l IH]; cbn [user]; [vm_compute; reflexivity|]. cbn [proc after].
  rewrite (proc_andthen User (call_code x) Out _ Out); [exact IH|]. destruct x; vm_compute; reflexivity.
Qed.

(** ---- Which accesses are safe: the client, used by the user's thread ---- *)
Definition clients (s : shared) : option nat * list bool := (s_client s, s_clients s).
Definition live (s : shared) : Prop :=
  exists n o, s_process s = Some n /\ nth_error (s_objects s) n = Some o /\ o_started o = true /\ o_dead o = false.
Definition cgood (s : shared) : Prop := points (clients s) false.
Definition cfine (s : shared) : Prop := s_client s = None \/ cgood s.
Lemma the_client_ok s : cgood s -> exists n, the_client s = Ok n.
Proof. intros (n & E1 & E2). cbn [clients fst snd] in *. unfold the_client. rewrite E1, E2. exists n. reflexivity. Qed.
Lemma look_alive_live s b r s' : look_alive s b = Ok (r, s') ->
  clients s' = clients s /\ (live s' -> live s) /\ (if r then live s' else ~ live s').
Proof.
  unfold look_alive. destruct (the_process s) as [[n o]| | |] eqn:E; cbn [obind]; try discriminate.
  destruct (the_process_inv _ _ _ E) as (E1 & E2 & E3).
  destruct (o_started o && negb (o_dead o)) eqn:Q; [destruct b|]; intros H; injection H as <- <-.
  - apply andb_prop in Q. destruct Q as [Q1 Q2]. apply Bool.negb_true_iff in Q2. split; [reflexivity|]. split; [exact (fun H => H)|].
    exists n, o. split; [exact E1|split; [exact E2|split; assumption]].
  - split; [reflexivity|]. cbn [with_process].
    assert (D : ~ live (with_process s (s_process s) (set_at (s_objects s) n (mkObject true true false)))).
    { intros (m & q & H1 & H2 & H3 & H4). cbn [with_process s_process s_objects] in *. rewrite E1 in H1. injection H1 as <-.
      rewrite (set_at_here _ _ _ _ E2) in H2. injection H2 as <-. discriminate H4. }
    split; [intros L; destruct (D L)|exact D].
  - split; [reflexivity|]. split; [exact (fun H => H)|]. intros (m & q & H1 & H2 & H3 & H4). rewrite E1 in H1. injection H1 as <-.
    rewrite E2 in H2. injection H2 as <-. rewrite H3, H4 in Q. discriminate Q.
Qed.
Definition is_starts (t : test) : bool := match t with Starts => true | _ => false end.
Lemma look_clients x s b r s' : look x s b = Ok (r, s') -> clients s' = clients s /\ (is_starts x = false -> live s' -> live s).
Proof.
  assert (Z : forall q : bool, Ok (q, s) = Ok (r, s') -> clients s' = clients s /\ (is_starts x = false -> live s' -> live s)).
  { intros q E. injection E as _ <-. split; [reflexivity|intros _ H; exact H]. }
  destruct x; cbn [look]; try (apply Z).
  - destruct (s_process s); [|apply Z]. intros E. destruct (look_alive_live _ _ _ _ E) as (E1 & E2 & _). split; [exact E1|intros _; exact E2].
  - intros E. destruct (look_alive_live _ _ _ _ E) as (E1 & E2 & _). split; [exact E1|intros _; exact E2].
  - destruct (the_process s) as [[n o]| | |] eqn:E; cbn [obind]; try discriminate. intros H. injection H as _ <-.
    split; [destruct b; reflexivity|discriminate].
  - destruct (the_process s) as [q| | |]; cbn [obind]; try discriminate. apply Z.
  - destruct (the_client s) as [q| | |]; cbn [obind]; try discriminate. apply Z.
Qed.
Definition moves_client (i : instr) : bool := match i with NewClient | DeleteClient | ClearClient => true | _ => false end.
Definition is_new_process (i : instr) : bool := match i with NewProcess => true | _ => false end.
Lemma exec_clients i s s' : moves_client i = false -> exec i s = Ok s' -> clients s' = clients s.
Proof.
  assert (Z : Ok s = Ok s' -> clients s' = clients s) by (intros E; injection E as <-; reflexivity).
  intros M. destruct i; try discriminate M; cbn [exec]; try exact Z; intros E; revert E;
  try (destruct (the_process s) as [[? ?]| | |]; cbn [obind]; try discriminate; []);
  try (destruct (the_client s) as [?| | |]; cbn [obind]; try discriminate; []); try exact Z;
  intros E; injection E as E; subst s'; reflexivity.
Qed.
Lemma exec_live i s s' : is_new_process i = false -> exec i s = Ok s' -> live s' -> live s.
Proof.
  assert (Z : Ok s = Ok s' -> live s' -> live s) by (intros E; injection E as <-; exact (fun H => H)).
  intros M. destruct (moves_process i) eqn:Em.
  - destruct i; try discriminate M; try discriminate Em; cbn [exec].
    + destruct (the_process s) as [[n o]| | |] eqn:E; cbn [obind]; try discriminate. intros H. injection H as <-.
      destruct (the_process_inv _ _ _ E) as (E1 & E2 & E3). intros (m & q & H1 & H2 & H3 & H4). cbn [with_process s_process s_objects] in *.
      rewrite E1 in H1. injection H1 as <-. rewrite (set_at_here _ _ _ _ E2) in H2. injection H2 as <-. cbn [o_started o_dead] in *.
      exists n, o. split; [exact E1|split; [exact E2|split; assumption]].
    + intros H. injection H as <-. intros (m & q & H1 & _). discriminate H1.
  - assert (Q : forall s'', s_process s'' = s_process s /\ s_objects s'' = s_objects s -> live s'' -> live s).
    { intros s'' [Q1 Q2] L. unfold live in *. rewrite Q1, Q2 in L. exact L. }
    destruct i; try discriminate M; try discriminate Em; cbn [exec]; try exact Z; intros E; revert E;
    try (destruct (the_process s) as [[? ?]| | |]; cbn [obind]; try discriminate; []);
    try (destruct (the_client s) as [?| | |]; cbn [obind]; try discriminate; []); try exact Z;
    intros E; injection E as E; subst s'; apply Q; split; reflexivity.
Qed.

(** What the user's thread knows of the client *)
Inductive cknow := CAny | CGood | CIdle | CIdleGood | CIdleStale | CStale | CFine.
Definition cmeans (s : shared) (a : cknow) : Prop :=
  match a with
  | CAny => cfine s /\ (live s -> cgood s)
  | CGood => cgood s
  | CIdle => cfine s /\ ~ live s
  | CIdleGood => cgood s /\ ~ live s
  | CIdleStale => ~ live s
  | CStale => True
  | CFine => cfine s
  end.
Definition cle (a b : cknow) : bool :=
  match a, b with
  | CAny, (CAny | CFine) | CGood, (CGood | CAny | CFine) | CIdle, (CIdle | CAny | CFine)
  | CIdleGood, (CIdleGood | CGood | CIdle | CAny | CFine) | CIdleStale, (CIdleStale | CStale) | CStale, CStale | CFine, CFine => true
  | _, _ => false
  end.
Lemma cle_means a b s : cle a b = true -> cmeans s a -> cmeans s b.
Proof. destruct a, b; try discriminate; intros _; cbn [cmeans]; unfold cfine; tauto. Qed.
Lemma cle_refl a : cle a a = true.
Proof. destruct a; reflexivity. Qed.
Lemma cle_trans a b c : cle a b = true -> cle b c = true -> cle a c = true.
Proof. destruct a, b, c; try discriminate; reflexivity. Qed.
Definition cjoin (a b : cknow) : option cknow :=
  if cle a b then Some b else if cle b a then Some a
  else if cle a CAny && cle b CAny then Some CAny else if cle a CFine && cle b CFine then Some CFine else None.
Lemma cjoin_le a b c : cjoin a b = Some c -> cle a c = true /\ cle b c = true.
Proof. destruct a, b; intros E; vm_compute in E; try discriminate E; injection E as <-; split; reflexivity. Qed.
Definition cafter (a : cknow) (i : instr) : option cknow :=
  match i with
  | UseClient => match a with CGood | CIdleGood => Some a | _ => None end
  | NewClient => Some CGood
  | DeleteClient => match a with CIdleGood => Some CIdleStale | CGood => Some CStale | _ => None end
  | ClearClient => match a with CIdleStale => Some CIdle | CStale => Some CFine | _ => None end
  | NewProcess => match a with CIdle | CIdleGood => Some a | _ => None end
  | _ => Some a
  end.
Definition cbranch (a : cknow) (t : test) : option (cknow * cknow) :=
  match t with
  | Running | IsAlive =>
      match a with
      | CAny => Some (CGood, CIdle) | CGood => Some (CGood, CIdleGood) | CIdle => Some (CIdle, CIdle) | CIdleGood => Some (CIdleGood, CIdleGood)
      | CFine => Some (CFine, CIdle) | _ => None
      end
  | Starts => match a with CIdle => Some (CFine, CIdle) | CIdleGood => Some (CGood, CIdleGood) | _ => None end
  | HasClient =>
      match a with
      | CAny => Some (CGood, CAny) | CGood => Some (CGood, CGood) | CIdle => Some (CIdleGood, CIdle) | CIdleGood => Some (CIdleGood, CIdleGood)
      | CFine => Some (CGood, CFine) | _ => None
      end
  | ClientAlive => match a with CGood | CIdleGood => Some (a, a) | _ => None end
  | _ => Some (a, a)
  end.
Inductive typed : cknow -> code -> cknow -> Prop :=
| tDone a b : cle a b = true -> typed a Done b
| tDo a a' i k b : cafter a i = Some a' -> typed a' k b -> typed a (Do i k) b
| tIf a t a1 a2 y n m k b : cbranch a t = Some (a1, a2) -> typed a1 y m -> typed a2 n m -> typed m k b -> typed a (If t y n k) b
| tWeak a a' c b : cle a a' = true -> typed a' c b -> typed a c b.
Lemma typed_post a c b b' : typed a c b -> cle b b' = true -> typed a c b'.
Proof.
  intros T L. induction T as [a b E|a a' i k b E T IH|a t a1 a2 y n m k b E T1 _ T2 _ T3 IH|a a' c b E T IH].
  - apply tDone. exact (cle_trans _ _ _ E L).
  - apply (tDo a a' i k); [exact E|exact (IH L)].
  - apply (tIf a t a1 a2 y n m k); [exact E|exact T1|exact T2|exact (IH L)].
  - apply (tWeak a a' c); [exact E|exact (IH L)].
Qed.
Lemma typed_andthen a c m k b : typed a c m -> typed m k b -> typed a (andthen c k) b.
Proof.
  intros T K. induction T as [a m E|a a' i c m E T IH|a t a1 a2 y n m' c m E T1 _ T2 _ T3 IH|a a' c m E T IH]; cbn [andthen].
  - apply (tWeak a m k); assumption.
  - apply (tDo a a' i); [exact E|exact (IH K)].
  - apply (tIf a t a1 a2 y n m'); [exact E|exact T1|exact T2|exact (IH K)].
  - apply (tWeak a a'); [exact E|exact (IH K)].
Qed.
Fixpoint infer (a : cknow) (c : code) : option cknow :=
  match c with
  | Done => Some a
  | Do i k => match cafter a i with Some a' => infer a' k | None => None end
  | If t y n k =>
      match cbranch a t with
      | Some (a1, a2) =>
          match infer a1 y, infer a2 n with
          | Some b1, Some b2 => match cjoin b1 b2 with Some m => infer m k | None => None end
          | _, _ => None
          end
      | None => None
      end
  | While _ _ _ => None
  end.
Lemma infer_typed c : forall a b, infer a c = Some b -> typed a c b.
Proof.
  induction c as [|i c IH|x y IHy n IHn c IH|x y _ c _]; intros a b E; cbn [infer] in E.
  - injection E as <-. apply tDone. apply cle_refl.
  - destruct (cafter a i) as [a'|] eqn:Ea; [|discriminate]. apply (tDo a a' i c b Ea). exact (IH _ _ E).
  - destruct (cbranch a x) as [[a1 a2]|] eqn:Eb; [|discriminate]. destruct (infer a1 y) as [b1|] eqn:E1; [|discriminate].
    destruct (infer a2 n) as [b2|] eqn:E2; [|discriminate]. destruct (cjoin b1 b2) as [m|] eqn:Ej; [|discriminate].
    destruct (cjoin_le _ _ _ Ej) as [L1 L2].
    apply (tIf a x a1 a2 y n m c b Eb); [exact (typed_post _ _ _ _ (IHy _ _ E1) L1)|exact (typed_post _ _ _ _ (IHn _ _ E2) L2)|exact (IH _ _ E)].
  - discriminate.
Qed.
Lemma typed_do a i k b : typed a (Do i k) b -> exists a0 a', cle a a0 = true /\ cafter a0 i = Some a' /\ typed a' k b.
Proof.
  intros T. remember (Do i k) as c eqn:Ec. revert i k Ec.
  induction T as [a b E|a a' i0 k0 b E T IH|a t a1 a2 y n m k0 b E T1 _ T2 _ T3 IH|a a' c b E T IH]; intros i k Ec; try discriminate Ec.
  - injection Ec as -> ->. exists a, a'. split; [apply cle_refl|]. split; assumption.
  - destruct (IH i k Ec) as (a0 & a1 & L & H). exists a0, a1. split; [exact (cle_trans _ _ _ E L)|exact H].
Qed.
Lemma typed_if a x y n k b : typed a (If x y n k) b ->
  exists a0 a1 a2 m, cle a a0 = true /\ cbranch a0 x = Some (a1, a2) /\ typed a1 y m /\ typed a2 n m /\ typed m k b.
Proof.
  intros T. remember (If x y n k) as c eqn:Ec. revert x y n k Ec.
  induction T as [a b E|a a' i0 k0 b E T IH|a t a1 a2 y0 n0 m k0 b E T1 _ T2 _ T3 _|a a' c b E T IH]; intros x y n k Ec; try discriminate Ec.
  - injection Ec as -> -> -> ->. exists a, a1, a2, m. split; [apply cle_refl|]. split; [exact E|split; [exact T1|split; assumption]].
  - destruct (IH x y n k Ec) as (a0 & a1 & a2 & m & L & H). exists a0, a1, a2, m. split; [exact (cle_trans _ _ _ E L)|exact H].
Qed.
Lemma typed_while a x y k b : ~ typed a (While x y k) b.
Proof.
  intros T. remember (While x y k) as c eqn:Ec. induction T; try discriminate Ec. exact (IHT Ec).
Qed.
Lemma cmeans_keep s s' a : clients s' = clients s -> (live s' -> live s) -> cmeans s a -> cmeans s' a.
Proof.
  intros E L. assert (Eg : cgood s' <-> cgood s) by (unfold cgood; rewrite E; reflexivity).
  assert (Ef : cfine s' <-> cfine s).
  { unfold cfine. rewrite Eg. unfold clients in E. injection E as -> _. reflexivity. }
  destruct a; cbn [cmeans]; tauto.
Qed.
Definition minded (c : config) : Prop := exists a b, typed a (code_of c User) b /\ cmeans (mem c) a.
Lemma minded_step c t b c' : guarded c -> minded c -> stepped c t b c' -> minded c'.
Proof.
  intros [_ G] (a & fin & Ty & M) T. destruct (thread_eq_dec t User) as [->|N].
  - destruct T as [m k Ec Eo|m k Ec Eo|v k Ec Ev|i k s Ep Ec Ex|x y n k r s Ec El|x y k r s Ec El]; rewrite Ec in Ty;
      unfold minded; cbn [code_of mem]; rewrite set_code_same.
    + destruct (typed_do _ _ _ _ Ty) as (a0 & a' & L & Ea & Tk). cbn [cafter] in Ea. injection Ea as <-.
      exists a0, fin. split; [exact Tk|exact (cle_means _ _ _ L M)].
    + destruct (typed_do _ _ _ _ Ty) as (a0 & a' & L & Ea & Tk). cbn [cafter] in Ea. injection Ea as <-.
      exists a0, fin. split; [exact Tk|exact (cle_means _ _ _ L M)].
    + destruct (typed_do _ _ _ _ Ty) as (a0 & a' & L & Ea & Tk). cbn [cafter] in Ea. injection Ea as <-.
      exists a0, fin. split; [exact Tk|exact (cle_means _ _ _ L M)].
    + destruct (typed_do _ _ _ _ Ty) as (a0 & a' & L & Ea & Tk). apply (cle_means _ _ _ L) in M. exists a', fin. split; [exact Tk|].
      destruct (moves_client i) eqn:Em.
      * destruct i; try discriminate Em; cbn [cafter exec] in *.
        -- injection Ea as <-. injection Ex as <-. cbn [cmeans]. exists (List.length (s_clients (mem c))). split; [reflexivity|].
           cbn [clients snd with_client s_clients]. rewrite nth_error_app2 by lia. rewrite Nat.sub_diag. reflexivity.
        -- destruct (the_client (mem c)) as [q| | |]; cbn [obind] in Ex; try discriminate. injection Ex as <-.
           destruct a0; try discriminate Ea; injection Ea as <-; cbn [cmeans] in *; [exact I|exact (proj2 M)].
        -- injection Ex as <-. destruct a0; try discriminate Ea; injection Ea as <-; cbn [cmeans] in *; [split; [left; reflexivity|exact M]|left; reflexivity].
      * destruct (is_new_process i) eqn:En.
        -- destruct i; try discriminate En. cbn [cafter exec] in *. injection Ex as <-.
           assert (D : ~ live (with_process (mem c) (Some (List.length (s_objects (mem c)))) (s_objects (mem c) ++ [mkObject false false false]))).
           { intros (m & q & H1 & H2 & H3 & _). cbn [with_process s_process s_objects] in *. injection H1 as <-.
             rewrite nth_error_app2 in H2 by lia. rewrite Nat.sub_diag in H2. injection H2 as <-. discriminate H3. }
           destruct a0; try discriminate Ea; injection Ea as <-; cbn [cmeans] in *; (split; [apply M|exact D]).
        -- apply (cmeans_keep (mem c)); [exact (exec_clients _ _ _ Em Ex)|exact (exec_live _ _ _ En Ex)|].
           destruct i; try discriminate Em; try discriminate En; cbn [cafter] in Ea; try (injection Ea as <-; exact M).
           destruct a0; try discriminate Ea; injection Ea as <-; exact M.
    + destruct (typed_if _ _ _ _ _ _ Ty) as (a0 & a1 & a2 & m & L & Eb & T1 & T2 & Tk). apply (cle_means _ _ _ L) in M.
      exists (if r then a1 else a2), fin.
      split; [destruct r; [exact (typed_andthen _ _ _ _ _ T1 Tk)|exact (typed_andthen _ _ _ _ _ T2 Tk)]|].
      destruct (look_clients _ _ _ _ _ El) as [Ecl Elv].
      assert (K : is_starts x = false -> cmeans s a0) by (intros Q; exact (cmeans_keep _ _ _ Ecl (Elv Q) M)).
      assert (Alive : look_alive (mem c) b = Ok (r, s) \/ (r = false /\ ~ live s) -> x = Running \/ x = IsAlive -> cmeans s (if r then a1 else a2)).
      { intros A X. assert (Lr : if r then live s else ~ live s).
        { destruct A as [A|[-> A]]; [|exact A]. destruct (look_alive_live _ _ _ _ A) as (_ & _ & A'). exact A'. }
        assert (Q : is_starts x = false) by (destruct X as [-> | ->]; reflexivity). specialize (K Q).
        assert (Eb' : cbranch a0 IsAlive = Some (a1, a2)) by (destruct X as [-> | ->]; exact Eb).
        clear - K Lr Eb'. destruct a0; try discriminate Eb'; cbn [cbranch] in Eb'; injection Eb' as <- <-; destruct r; cbn [cmeans] in *; unfold cfine in *; tauto. }
      destruct x; cbn [cbranch] in Eb; try (injection Eb as <- <-; specialize (K eq_refl); destruct r; exact K).
      * specialize (K eq_refl). cbn [look] in El. injection El as Er Es. subst s.
        destruct (s_client (mem c)) as [q|] eqn:Eq; subst r.
        -- assert (Q : cfine (mem c) -> cgood (mem c)) by (intros [Q|Q]; [congruence|exact Q]).
           destruct a0; try discriminate Eb; injection Eb as <- <-; cbn [cmeans] in *; tauto.
        -- destruct a0; try discriminate Eb; injection Eb as <- <-; cbn [cmeans] in *; tauto.
      * apply Alive; [|left; reflexivity]. cbn [look] in El. destruct (s_process (mem c)) eqn:Eq; [left; exact El|right].
        injection El as <- <-. split; [reflexivity|]. intros (m' & q & H & _). congruence.
      * apply Alive; [|right; reflexivity]. left. exact El.
      * cbn [look] in El. destruct (the_process (mem c)) as [[p o]| | |]; cbn [obind] in El; try discriminate. injection El as <- <-.
        destruct a0; try discriminate Eb; injection Eb as <- <-; destruct b; cbn [cmeans] in *; try exact M;
          (exact (proj1 M)).
      * specialize (K eq_refl). destruct a0; try discriminate Eb; injection Eb as <- <-; destruct r; exact K.
    + destruct (typed_while _ _ _ _ _ Ty).
  - assert (Eu : code_of c' User = code_of c User) by (destruct T; cbn [code_of]; apply set_code_other; congruence).
    exists a, fin. rewrite Eu. split; [exact Ty|]. destruct (G t) as (q & P & _).
    destruct T as [m k Ec Eo|m k Ec Eo|v k Ec Ev|i k s Ep Ec Ex|x y n k r s Ec El|x y k r s Ec El]; cbn [mem]; try exact M;
      rewrite Ec in P; cbn [proc] in P.
    + assert (A : moves_client i = false /\ is_new_process i = false).
      { destruct i; try (split; reflexivity); cbn [after] in P; destruct q, t; try discriminate P; congruence. }
      apply (cmeans_keep (mem c)); [exact (exec_clients _ _ _ (proj1 A) Ex)|exact (exec_live _ _ _ (proj2 A) Ex)|exact M].
    + destruct (look_clients _ _ _ _ _ El) as [E1 E2]. apply (cmeans_keep (mem c)); [exact E1| |exact M]. apply E2.
      destruct x; try reflexivity. cbn [branch] in P. destruct q, t; try discriminate P; congruence.
    + destruct (look_clients _ _ _ _ _ El) as [E1 E2]. apply (cmeans_keep (mem c)); [exact E1| |exact M]. apply E2.
      destruct x; try reflexivity. cbn [branch] in P. destruct q, t; try discriminate P; congruence.
Qed.
Lemma call_typed x : typed CAny (call_code x) CAny.
Proof.
  assert (H : exists b, infer CAny (call_code x) = Some b /\ cle b CAny = true).
  { destruct x; eexists; (split; [vm_compute; reflexivity|]); reflexivity. }
  destruct H as (b & E & L). exact (typed_post _ _ _ _ (infer_typed _ _ _ E) L).
Qed.
Lemma destroy_typed : exists b, typed CAny (Do Idle destroy) b.
Proof. eexists. apply infer_typed. vm_compute. reflexivity. Qed.
Lemma minded_initial n l : minded (initial n l).
Proof.
  destruct destroy_typed as [b Hb]. exists CAny, b. split.
  - cbn [initial code_of]. induction l as [|x l IH]; cbn [user]; [exact Hb|].
    apply (tDo CAny CAny); [reflexivity|]. exact (typed_andthen _ _ _ _ _ (call_typed x) IH).
  - cbn [cmeans]. split; [left; reflexivity|]. intros (m & o & H & _). discriminate H.
Qed.

Definition sound (c : config) : Prop := orderly c /\ guarded c /\ minded c.
Lemma sound_step c t b c' : sound c -> stepped c t b c' -> sound c'.
Proof.
  intros (O & G & M) T. split; [exact (orderly_step _ _ _ _ O T)|]. split; [exact (guarded_step _ _ _ _ G T)|exact (minded_step _ _ _ _ G M T)].
Qed.
Lemma run_sound n l sch c : run (initial n l) sch = Ok c -> sound c.
Proof.
  intros E. apply (run_invariant sound sound_step sch (initial n l)); [|exact E].
  split; [apply orderly_initial|]. split; [apply guarded_initial|apply minded_initial].
Qed.
(** What can go wrong *)
Lemma exec_ub i s : exec i s = UB ->
  ((i = UseProcess \/ i = DeleteProcess \/ i = GetError) /\ ~ points (ptr s) false) \/
  ((i = UseClient \/ i = DeleteClient) /\ ~ cgood s).
Proof.
  assert (P : the_process s = UB -> ~ points (ptr s) false).
  { intros E H. destruct (the_process_ok s H) as (n & o & Q). congruence. }
  assert (C : the_client s = UB -> ~ cgood s).
  { intros E H. destruct (the_client_ok s H) as (n & Q). congruence. }
  destruct i; cbn [exec]; try discriminate;
  try (destruct (the_process s) as [[? ?]| | |] eqn:E; cbn [obind]; try discriminate; intros _; left; split; [tauto|exact (P eq_refl)]).
  - destruct (the_client s) as [?| | |] eqn:E; cbn [obind]; try discriminate. intros _. right. split; [tauto|exact (C eq_refl)].
  - destruct (the_client s) as [?| | |] eqn:E; cbn [obind]; try discriminate. intros _. right. split; [tauto|exact (C eq_refl)].
Qed.
Lemma look_ub x s b : look x s b = UB ->
  ((x = IsAlive \/ x = Starts \/ x = ErrorText) /\ ~ points (ptr s) false) \/ (x = Running /\ ~ fine s) \/ (x = ClientAlive /\ ~ cgood s).
Proof.
  assert (P : the_process s = UB -> ~ points (ptr s) false).
  { intros E H. destruct (the_process_ok s H) as (n & o & Q). congruence. }
  assert (A : look_alive s b = UB -> ~ points (ptr s) false).
  { unfold look_alive. destruct (the_process s) as [[n o]| | |] eqn:E; cbn [obind]; try discriminate; [|intros _; exact (P eq_refl)].
    destruct (o_started o && negb (o_dead o)); [destruct b|]; discriminate. }
  assert (C : the_client s = UB -> ~ cgood s).
  { intros E H. destruct (the_client_ok s H) as (n & Q). congruence. }
  destruct x; cbn [look]; try discriminate.
  - destruct (s_process s) eqn:E; [|discriminate]. intros H. right. left. split; [reflexivity|]. intros [F|F]; [congruence|exact (A H F)].
  - intros H. left. split; [tauto|exact (A H)].
  - destruct (the_process s) as [[n o]| | |] eqn:E; cbn [obind]; try discriminate. intros _. left. split; [tauto|exact (P eq_refl)].
  - destruct (the_process s) as [[n o]| | |] eqn:E; cbn [obind]; try discriminate. intros _. left. split; [tauto|exact (P eq_refl)].
  - destruct (the_client s) as [?| | |] eqn:E; cbn [obind]; try discriminate. intros _. right. right. split; [reflexivity|exact (C eq_refl)].
Qed.
Lemma crash_unprotected c t b : sound c -> crashes c t b -> unprotected c t.
Proof.
  intros (O & [_ G] & (a & fin & Ty & M)) E. unfold crashes in E. destruct (G t) as (q & P & Q).
  destruct (code_of c t) as [|i k|x y n k|x y k] eqn:Ec; cbn [proc] in P.
  - unfold step in E. rewrite Ec in E. discriminate.
  - destruct (plain i) eqn:Ep.
    + rewrite (step_plain c t b i k Ep Ec) in E. destruct (exec i (mem c)) as [s| | |] eqn:Ex; cbn [obind] in E; try discriminate.
      destruct (after t q i) as [q'|] eqn:Ea; [|discriminate].
      destruct (exec_ub i (mem c) Ex) as [[[-> | [-> | ->]] H]|[[-> | ->] H]]; cbn [after] in Ea.
      * destruct q; try discriminate Ea; [|cbn [means] in Q; destruct (H (proj2 Q))].
        destruct t; try discriminate Ea. cbn [unprotected means] in *. split; [exact Q|]. exists k. left. exact Ec.
      * destruct q; try discriminate Ea. cbn [means] in Q. destruct (H (proj2 Q)).
      * destruct q; try discriminate Ea. destruct t; try discriminate Ea. cbn [unprotected means] in *. split; [exact Q|]. exists k. exact Ec.
      * destruct t; try discriminate Ea; cbn [unprotected]; [|exists k; exact Ec]. exfalso.
        rewrite Ec in Ty. destruct (typed_do _ _ _ _ Ty) as (a0 & a' & L & Eca & _). apply (cle_means _ _ _ L) in M. cbn [cafter] in Eca.
        destruct a0; try discriminate Eca; cbn [cmeans] in M; [exact (H M)|exact (H (proj1 M))].
      * destruct q; try discriminate Ea. destruct t; try discriminate Ea. exfalso.
        rewrite Ec in Ty. destruct (typed_do _ _ _ _ Ty) as (a0 & a' & L & Eca & _). apply (cle_means _ _ _ L) in M. cbn [cafter] in Eca.
        destruct a0; try discriminate Eca; cbn [cmeans] in M; [exact (H M)|exact (H (proj1 M))].
    + unfold step in E. rewrite Ec in E. destruct i as [m|m|u| | | | | | | | | | | | | | | | | | | | | | |]; try discriminate Ep.
      * destruct (owner_of c m); discriminate.
      * exfalso. destruct (O t) as (_ & h & Lh & _ & Hh). rewrite Ec in Lh. cbn [locks] in Lh. destruct h as [|m' h]; [discriminate|].
        destruct (mutex_eqb m' m) eqn:Em; [|discriminate]. apply mutex_eqb_eq in Em. subst m'.
        rewrite (proj1 (Hh m) (or_introl eq_refl)) in E. rewrite thread_eqb_refl in E. discriminate.
      * destruct (code_of c u); discriminate.
  - unfold step in E. rewrite Ec in E. destruct (look x (mem c) b) as [[r s]| | |] eqn:El; cbn [obind] in E; try discriminate.
    destruct (branch t q x) as [[q1 q2]|] eqn:Eb; [|discriminate].
    destruct (look_ub x (mem c) b El) as [[[-> | [-> | ->]] H]|[[-> H]|[-> H]]]; cbn [branch] in Eb.
    + destruct q; try discriminate Eb; [|cbn [means] in Q; destruct (H (proj2 Q))].
      destruct t; try discriminate Eb. cbn [unprotected means] in *. split; [exact Q|]. exists k. right. exists y, n. right. exact Ec.
    + destruct q; try discriminate Eb. destruct t; try discriminate Eb. cbn [unprotected means] in *. split; [exact Q|].
      exists k. right. exists y, n. left. exact Ec.
    + destruct q; try discriminate Eb. cbn [means] in Q. destruct (H (proj2 Q)).
    + destruct q; try discriminate Eb. cbn [means] in Q. destruct (H (proj2 Q)).
    + exfalso. destruct q; try discriminate Eb. destruct t; try discriminate Eb.
      rewrite Ec in Ty. destruct (typed_if _ _ _ _ _ _ Ty) as (a0 & a1 & a2 & m & L & Eca & _). apply (cle_means _ _ _ L) in M. cbn [cbranch] in Eca.
      destruct a0; try discriminate Eca; cbn [cmeans] in M; [exact (H M)|exact (H (proj1 M))].
  - exfalso. unfold step in E. rewrite Ec in E. destruct (look x (mem c) b) as [[r s]| | |] eqn:El; cbn [obind] in E; try discriminate.
    destruct (branch t q x) as [[q1 q2]|] eqn:Eb; [|discriminate]. destruct (proc t q y) as [q3|] eqn:E1; [|discriminate].
    destruct (know_eqb q1 q && know_eqb q2 q && know_eqb q3 q) eqn:Ek; [|discriminate]. apply andb_prop in Ek. destruct Ek as [Ek _].
    apply andb_prop in Ek. destruct Ek as [Ek1 Ek2]. apply know_eqb_eq in Ek1, Ek2. subst q1 q2.
    destruct t.
    + rewrite Ec in Ty. destruct (typed_while _ _ _ _ _ Ty).
    + destruct (look_ub x (mem c) b El) as [[[-> | [-> | ->]] H]|[[-> H]|[-> H]]]; cbn [branch] in Eb; destruct q; try discriminate Eb; cbn [means] in Q; destruct (H (proj2 Q)).
    + destruct (look_ub x (mem c) b El) as [[[-> | [-> | ->]] H]|[[-> H]|[-> H]]]; cbn [branch] in Eb; destruct q; try discriminate Eb; cbn [means] in Q; destruct (H (proj2 Q)).
Qed.
Lemma only_unprotected_crash n calls sch c t b : run (initial n calls) sch = Ok c -> crashes c t b -> unprotected c t.
Proof. intros E C. exact (crash_unprotected c t b (run_sound n calls sch c E) C). Qed.

(** ---- Between two calls ---- *)
(** What the watchdog does while the user's thread rests and the timeout is not armed: [a] tells whether terminate is known to be true *)
Definition qle (a b : bool) : Prop := b = true -> a = true.
Definition qafter (a : bool) (i : instr) : option bool :=
  match i with
  | SetLimit | StoreTimeout => None
  | DeleteProcess => if a then Some a else None
  | Terminate b => Some b
  | _ => Some a
  end.
Definition qbranch (a : bool) (x : test) : bool * bool := match x with Terminating => (true, a) | _ => (a, a) end.
Inductive quiet : bool -> code -> bool -> Prop :=
| qDone a b : qle a b -> quiet a Done b
| qDo a a' i k b : qafter a i = Some a' -> quiet a' k b -> quiet a (Do i k) b
| qIf a x y n m k b : quiet (fst (qbranch a x)) y m -> quiet (snd (qbranch a x)) n m -> quiet m k b -> quiet a (If x y n k) b
| qTimeout a y n m k b : quiet a n m -> quiet m k b -> quiet a (If TimeoutPositive y n k) b
| qWhile x y k b : quiet false y false -> quiet false k b -> quiet false (While x y k) b
| qWeak a a' c b : qle a a' -> quiet a' c b -> quiet a c b.
Lemma quiet_andthen a c m k b : quiet a c m -> quiet m k b -> quiet a (andthen c k) b.
Proof.
  intros T K. induction T as [a m L|a a' i c m E T IH|a x y n m' c m T1 _ T2 _ T3 IH|a y n m' c m T1 _ T3 IH|x y c m T1 _ T3 IH|a a' c m L T IH]; cbn [andthen].
  - exact (qWeak _ _ _ _ L K).
  - exact (qDo _ _ _ _ _ E (IH K)).
  - exact (qIf _ _ _ _ _ _ _ T1 T2 (IH K)).
  - exact (qTimeout _ _ _ _ _ _ T1 (IH K)).
  - exact (qWhile _ _ _ _ T1 (IH K)).
  - exact (qWeak _ _ _ _ L (IH K)).
Qed.
Lemma quiet_post a c b b' : quiet a c b -> qle b b' -> quiet a c b'.
Proof.
  intros T L. induction T as [a m L'|a a' i c m E T IH|a x y n m' c m T1 _ T2 _ T3 IH|a y n m' c m T1 _ T3 IH|x y c m T1 _ T3 IH|a a' c m L' T IH].
  - apply qDone. intros H. exact (L' (L H)).
  - exact (qDo _ _ _ _ _ E (IH L)).
  - exact (qIf _ _ _ _ _ _ _ T1 T2 (IH L)).
  - exact (qTimeout _ _ _ _ _ _ T1 (IH L)).
  - exact (qWhile _ _ _ _ T1 (IH L)).
  - exact (qWeak _ _ _ _ L' (IH L)).
Qed.
Fixpoint quiet_infer (a : bool) (c : code) : option bool :=
  match c with
  | Done => Some a
  | Do i k => match qafter a i with Some a' => quiet_infer a' k | None => None end
  | If TimeoutPositive _ n k => match quiet_infer a n with Some m => quiet_infer m k | None => None end
  | If x y n k =>
      match quiet_infer (fst (qbranch a x)) y, quiet_infer (snd (qbranch a x)) n with
      | Some a1, Some a2 => quiet_infer (a1 && a2) k
      | _, _ => None
      end
  | While _ y k => match quiet_infer false y with Some _ => quiet_infer false k | None => None end
  end.
Lemma quiet_sound c : forall a b, quiet_infer a c = Some b -> quiet a c b.
Proof.
  induction c as [|i c IH|x y IHy n IHn c IH|x y IHy c IH]; intros a b E; cbn [quiet_infer] in E.
  - injection E as <-. apply qDone. exact (fun H => H).
  - destruct (qafter a i) as [a'|] eqn:Ea; [|discriminate]. exact (qDo _ _ _ _ _ Ea (IH _ _ E)).
  - assert (D : x = TimeoutPositive \/ x <> TimeoutPositive) by (destruct x; first [left; reflexivity|right; discriminate]).
    destruct D as [-> | D].
    + destruct (quiet_infer a n) as [m|] eqn:En; [|discriminate]. exact (qTimeout _ _ _ _ _ _ (IHn _ _ En) (IH _ _ E)).
    + assert (E' : match quiet_infer (fst (qbranch a x)) y, quiet_infer (snd (qbranch a x)) n with
                   | Some a1, Some a2 => quiet_infer (a1 && a2) c | _, _ => None end = Some b) by (destruct x; try exact E; congruence).
      clear E. destruct (quiet_infer (fst (qbranch a x)) y) as [a1|] eqn:E1; [|discriminate].
      destruct (quiet_infer (snd (qbranch a x)) n) as [a2|] eqn:E2; [|discriminate].
      apply (qIf a x y n (a1 && a2) c b); [apply (quiet_post _ _ a1); [exact (IHy _ _ E1)|]|apply (quiet_post _ _ a2); [exact (IHn _ _ E2)|]|exact (IH _ _ E')];
        intros H; apply andb_prop in H; tauto.
  - destruct (quiet_infer false y) as [m|] eqn:Ey; [|discriminate].
    apply (qWeak a false); [discriminate|]. apply qWhile; [|exact (IH _ _ E)]. apply (quiet_post _ _ m); [exact (IHy _ _ Ey)|discriminate].
Qed.
Lemma quiet_do a i k b : quiet a (Do i k) b -> exists a0 a', qle a a0 /\ qafter a0 i = Some a' /\ quiet a' k b.
Proof.
  intros T. remember (Do i k) as c eqn:Ec. revert i k Ec.
  induction T as [a m L|a a' i0 c m E T _|a x y n m' c m T1 _ T2 _ T3 _|a y n m' c m T1 _ T3 _|x y c m T1 _ T3 _|a a' c m L T IH]; intros i k Ec; try discriminate Ec.
  - injection Ec as -> ->. exists a, a'. split; [exact (fun H => H)|]. split; assumption.
  - destruct (IH i k Ec) as (a0 & a1 & L1 & H). exists a0, a1. split; [intros H1; exact (L (L1 H1))|exact H].
Qed.
Lemma quiet_if a x y n k b : quiet a (If x y n k) b ->
  exists a0 m, qle a a0 /\ (x = TimeoutPositive \/ quiet (fst (qbranch a0 x)) y m) /\ quiet (snd (qbranch a0 x)) n m /\ quiet m k b.
Proof.
  intros T. remember (If x y n k) as c eqn:Ec. revert x y n k Ec.
  induction T as [a m L|a a' i0 c m E T _|a x0 y0 n0 m' c m T1 _ T2 _ T3 _|a y0 n0 m' c m T1 _ T3 _|x0 y0 c m T1 _ T3 _|a a' c m L T IH];
    intros x y n k Ec; try discriminate Ec.
  - injection Ec as -> -> -> ->. exists a, m'. split; [exact (fun H => H)|]. split; [right; exact T1|split; assumption].
  - injection Ec as <- -> -> ->. exists a, m'. split; [exact (fun H => H)|]. split; [left; reflexivity|split; assumption].
  - destruct (IH x y n k Ec) as (a0 & a1 & L1 & H). exists a0, a1. split; [intros H1; exact (L (L1 H1))|exact H].
Qed.
Lemma quiet_while a x y k b : quiet a (While x y k) b -> quiet false y false /\ quiet false k b.
Proof.
  intros T. remember (While x y k) as c eqn:Ec. revert x y k Ec.
  induction T as [a m L|a a' i0 c m E T _|a x0 y0 n0 m' c m T1 _ T2 _ T3 _|a y0 n0 m' c m T1 _ T3 _|x0 y0 c m T1 _ T3 _|a a' c m L T IH];
    intros x y k Ec; try discriminate Ec.
  - injection Ec as -> -> ->. split; assumption.
  - exact (IH x y k Ec).
Qed.
Lemma look_timeout x s b r s' : look x s b = Ok (r, s') -> s_timeout s' = s_timeout s /\ w_terminate s' = w_terminate s.
Proof.
  assert (Z : forall q : bool, Ok (q, s) = Ok (r, s') -> s_timeout s' = s_timeout s /\ w_terminate s' = w_terminate s).
  { intros q E. injection E as _ <-. split; reflexivity. }
  assert (A : look_alive s b = Ok (r, s') -> s_timeout s' = s_timeout s /\ w_terminate s' = w_terminate s).
  { unfold look_alive. destruct (the_process s) as [[n o]| | |]; cbn [obind]; try discriminate.
    destruct (o_started o && negb (o_dead o)); [destruct b|]; intros E; injection E as _ <-; split; reflexivity. }
  destruct x; cbn [look]; try (apply Z).
  - destruct (s_process s); [exact A|apply Z].
  - exact A.
  - destruct (the_process s) as [[n o]| | |]; cbn [obind]; try discriminate. intros H. injection H as _ <-. destruct b; split; reflexivity.
  - destruct (the_process s) as [q| | |]; cbn [obind]; try discriminate. apply Z.
  - destruct (the_client s) as [q| | |]; cbn [obind]; try discriminate. apply Z.
Qed.
(** The watchdog is quiet, the logger never touches the timeout, the pointer or terminate *)
Definition harmless_instr (i : instr) : bool :=
  match i with
  | Output | Pause | Lock _ | Unlock _ | ReadLogger | GetError | DropError => true
  | _ => false
  end.
Fixpoint harmless (c : code) : bool :=
  match c with
  | Done => true
  | Do i k => harmless_instr i && harmless k
  | If _ y n k => harmless y && harmless n && harmless k
  | While _ y k => harmless y && harmless k
  end.
Lemma harmless_andthen c k : harmless (andthen c k) = harmless c && harmless k.
Proof.
  induction c as [|i c IH|x y _ n _ c IH|x y _ c IH]; cbn [andthen harmless]; try rewrite IH; try reflexivity;
    rewrite ?Bool.andb_assoc; reflexivity.
Qed.
Definition resting (c : config) : Prop :=
  s_timeout (mem c) <= 0 /\ harmless (code_of c Logger) = true /\
  exists a b, quiet a (code_of c Watchdog) b /\ (a = true -> w_terminate (mem c) = true).
Lemma harmless_exec i s s' : harmless_instr i = true -> exec i s = Ok s' -> s_timeout s' = s_timeout s /\ w_terminate s' = w_terminate s.
Proof.
  assert (Z : Ok s = Ok s' -> s_timeout s' = s_timeout s /\ w_terminate s' = w_terminate s) by (intros E; injection E as <-; split; reflexivity).
  destruct i; try discriminate; intros _; cbn [exec]; try exact Z; try (intros E; injection E as <-; split; reflexivity).
  destruct (the_process s) as [q| | |]; cbn [obind]; try discriminate. intros E; injection E as <-; split; reflexivity.
Qed.
Lemma quiet_exec i s s' a a' : qafter a i = Some a' -> exec i s = Ok s' -> s_timeout s <= 0 -> (a = true -> w_terminate s = true) ->
  s_timeout s' <= 0 /\ (a' = true -> w_terminate s' = true).
Proof.
  intros Q E T W. destruct i; cbn [qafter] in Q; try discriminate Q; cbn [exec] in E; revert E;
  try (destruct (the_process s) as [[? ?]| | |]; cbn [obind]; try discriminate; []);
  try (destruct (the_client s) as [?| | |]; cbn [obind]; try discriminate; []);
  intros E; injection E as E; subst s'; try (injection Q as <-; split; [exact T|exact W]).
  - destruct a; [|discriminate Q]. injection Q as <-. split; [exact T|exact W].
  - injection Q as <-. split; [cbn [with_timeout s_timeout]; lia|exact W].
  - injection Q as <-. split; [exact T|exact (fun H => H)].
Qed.
Lemma resting_step c t b c' : t <> User -> resting c -> stepped c t b c' -> resting c'.
Proof.
  intros N (T0 & Hl & a & fin & Qt & W) T. destruct t; [congruence| |]; clear N.
  - assert (El : code_of c' Logger = code_of c Logger) by (destruct T; cbn [code_of]; apply set_code_other; discriminate).
    unfold resting. rewrite El.
    destruct T as [m k Ec Eo|m k Ec Eo|v k Ec Ev|i k s Ep Ec Ex|x y n k r s Ec Es|x y k r s Ec Es]; rewrite Ec in Qt;
      cbn [code_of mem]; rewrite set_code_same.
    + destruct (quiet_do _ _ _ _ Qt) as (a0 & a' & L & Ea & Qk). cbn [qafter] in Ea. injection Ea as <-.
      split; [exact T0|split; [exact Hl|]]. exists a0, fin. split; [exact Qk|]. intros H. exact (W (L H)).
    + destruct (quiet_do _ _ _ _ Qt) as (a0 & a' & L & Ea & Qk). cbn [qafter] in Ea. injection Ea as <-.
      split; [exact T0|split; [exact Hl|]]. exists a0, fin. split; [exact Qk|]. intros H. exact (W (L H)).
    + destruct (quiet_do _ _ _ _ Qt) as (a0 & a' & L & Ea & Qk). cbn [qafter] in Ea. injection Ea as <-.
      split; [exact T0|split; [exact Hl|]]. exists a0, fin. split; [exact Qk|]. intros H. exact (W (L H)).
    + destruct (quiet_do _ _ _ _ Qt) as (a0 & a' & L & Ea & Qk).
      destruct (quiet_exec i _ _ _ _ Ea Ex T0 (fun H => W (L H))) as [T1 W1].
      split; [exact T1|split; [exact Hl|]]. exists a', fin. split; [exact Qk|exact W1].
    + destruct (look_timeout _ _ _ _ _ Es) as [E1 E2]. rewrite E1, E2. split; [exact T0|split; [exact Hl|]].
      destruct (quiet_if _ _ _ _ _ _ Qt) as (a0 & m & L & Qy & Qn & Qk).
      destruct r.
      * destruct Qy as [-> | Qy]; [exfalso; cbn [look] in Es; injection Es as Es _; apply Z.ltb_lt in Es; lia|].
        exists (fst (qbranch a0 x)), fin. split; [exact (quiet_andthen _ _ _ _ _ Qy Qk)|].
        destruct x; try (intros H; exact (W (L H))). cbn [look] in Es. injection Es as Es _. intros _. exact Es.
      * exists (snd (qbranch a0 x)), fin. split; [exact (quiet_andthen _ _ _ _ _ Qn Qk)|].
        assert (Eq : snd (qbranch a0 x) = a0) by (destruct x; reflexivity). rewrite Eq. intros H. exact (W (L H)).
    + destruct (look_timeout _ _ _ _ _ Es) as [E1 E2]. rewrite E1, E2. split; [exact T0|split; [exact Hl|]].
      destruct (quiet_while _ _ _ _ _ Qt) as [Qy Qk]. exists false, fin. split; [|discriminate].
      destruct r; [|exact Qk]. exact (quiet_andthen _ _ _ _ _ Qy (qWhile _ _ _ _ Qy Qk)).
  - assert (Ew : code_of c' Watchdog = code_of c Watchdog) by (destruct T; cbn [code_of]; apply set_code_other; discriminate).
    unfold resting. rewrite Ew.
    assert (K : forall s k, s_timeout s = s_timeout (mem c) -> w_terminate s = w_terminate (mem c) -> harmless k = true ->
                s_timeout s <= 0 /\ harmless k = true /\ exists a b, quiet a (code_of c Watchdog) b /\ (a = true -> w_terminate s = true)).
    { intros s k E1 E2 E3. rewrite E1, E2. split; [exact T0|split; [exact E3|]]. exists a, fin. split; assumption. }
    destruct T as [m k Ec Eo|m k Ec Eo|v k Ec Ev|i k s Ep Ec Ex|x y n k r s Ec Es|x y k r s Ec Es]; rewrite Ec in Hl; cbn [harmless] in Hl;
      cbn [code_of mem]; rewrite set_code_same.
    + apply andb_prop in Hl. apply K; [reflexivity|reflexivity|tauto].
    + apply andb_prop in Hl. apply K; [reflexivity|reflexivity|tauto].
    + apply andb_prop in Hl. apply K; [reflexivity|reflexivity|tauto].
    + apply andb_prop in Hl. destruct (harmless_exec _ _ _ (proj1 Hl) Ex) as [E1 E2]. apply K; [exact E1|exact E2|tauto].
    + destruct (look_timeout _ _ _ _ _ Es) as [E1 E2]. apply K; [exact E1|exact E2|]. rewrite harmless_andthen.
      apply andb_prop in Hl. destruct Hl as [Hyn Hk]. apply andb_prop in Hyn. rewrite Hk. destruct r; rewrite Bool.andb_true_r; tauto.
    + destruct (look_timeout _ _ _ _ _ Es) as [E1 E2]. apply K; [exact E1|exact E2|]. apply andb_prop in Hl. destruct Hl as [Hy Hk].
      destruct r; [|exact Hk]. rewrite harmless_andthen. cbn [harmless]. rewrite Hy, Hk. reflexivity.
Qed.
Lemma logger_harmless_step c t b c' : harmless (code_of c Logger) = true -> stepped c t b c' -> harmless (code_of c' Logger) = true.
Proof.
  intros Hl T. destruct (thread_eq_dec t Logger) as [->|N].
  - destruct T as [m k Ec Eo|m k Ec Eo|v k Ec Ev|i k s Ep Ec Ex|x y n k r s Ec Es|x y k r s Ec Es]; rewrite Ec in Hl; cbn [harmless] in Hl;
      cbn [code_of]; rewrite set_code_same; try (apply andb_prop in Hl; tauto).
    + rewrite harmless_andthen. apply andb_prop in Hl. destruct Hl as [Hyn Hk]. apply andb_prop in Hyn. rewrite Hk. destruct r; rewrite Bool.andb_true_r; tauto.
    + apply andb_prop in Hl. destruct Hl as [Hy Hk]. destruct r; [|exact Hk]. rewrite harmless_andthen. cbn [harmless]. rewrite Hy, Hk. reflexivity.
  - replace (code_of c' Logger) with (code_of c Logger); [exact Hl|]. symmetry. destruct T; cbn [code_of]; apply set_code_other; congruence.
Qed.
Lemma resting_run l : Forall (fun x : thread * bool => fst x <> User) l -> forall c c', resting c -> run c l = Ok c' -> resting c'.
Proof.
  induction 1 as [|[t b] l N _ IH]; intros c c' R E; cbn [run] in E.
  - injection E as <-. exact R.
  - destruct (step c t b) as [r|] eqn:Es; [|exact (IH _ _ R E)].
    destruct r as [c1| | |]; cbn [obind] in E; try discriminate. apply (IH c1); [|exact E].
    exact (resting_step _ _ _ _ N R (step_stepped _ _ _ _ Es)).
Qed.
Lemma unarmed_watchdog_spares n calls sch c sch' c' t k : run (initial n calls) sch = Ok c ->
  s_timeout (mem c) <= 0 -> code_of c Watchdog = watchdog ->
  Forall (fun x : thread * bool => fst x <> User) sch' -> run c sch' = Ok c' ->
  t <> User -> code_of c' t = Do DeleteProcess k -> t = Watchdog /\ w_terminate (mem c') = true.
Proof.
  intros E0 T0 Ew F E N Ec.
  assert (R : resting c).
  { split; [exact T0|]. split.
    - apply (run_invariant (fun c => harmless (code_of c Logger) = true) logger_harmless_step sch (initial n calls)); [vm_compute; reflexivity|exact E0].
    - exists false, false. rewrite Ew. split; [|discriminate]. apply quiet_sound. vm_compute. reflexivity. }
  destruct (resting_run _ F _ _ R E) as (_ & Hl & a & b & Q & W). destruct t; [congruence| |].
  - split; [reflexivity|]. rewrite Ec in Q. destruct (quiet_do _ _ _ _ Q) as (a0 & a' & L & Ea & _). cbn [qafter] in Ea.
    destruct a0; [|discriminate Ea]. exact (W (L eq_refl)).
  - rewrite Ec in Hl. discriminate Hl.
Qed.
