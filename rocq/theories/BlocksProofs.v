(** Proofs about the memory of sessions *)
From Verif Require Import CBase Message Handle Blocks BlocksSpec.
From Coq Require Import Permutation.
Local Open Scope Z_scope.

(** ---- Blocks counted ---- *)

Definition cnt (l : list nat) (x : nat) : nat := count_occ Nat.eq_dec l x.
Definition one (a x : nat) : nat := if Nat.eq_dec a x then 1%nat else 0%nat.
Lemma cnt_nil x : cnt [] x = 0%nat. Proof. reflexivity. Qed.
Lemma cnt_cons a l x : cnt (a :: l) x = (one a x + cnt l x)%nat.
Proof. unfold cnt, one. cbn [count_occ]. destruct (Nat.eq_dec a x); reflexivity. Qed.
Lemma cnt_app l1 l2 x : cnt (l1 ++ l2) x = (cnt l1 x + cnt l2 x)%nat. Proof. apply count_occ_app. Qed.
Lemma one_same x : one x x = 1%nat. Proof. unfold one. now destruct (Nat.eq_dec x x). Qed.
Lemma cnt_in l x : (0 < cnt l x)%nat <-> In x l.
Proof. unfold cnt. rewrite (count_occ_In Nat.eq_dec l x). lia. Qed.
Ltac counts := rewrite ?cnt_nil, ?cnt_cons, ?cnt_app; repeat rewrite ?cnt_nil, ?cnt_cons, ?cnt_app.
Definition same (l1 l2 : list nat) : Prop := forall x, cnt l1 x = cnt l2 x.
Ltac perm := let y := fresh "y" in intros y; repeat rewrite ?cnt_nil, ?cnt_cons, ?cnt_app; lia.

Definition holds (m : mem) (l : list nat) : Prop :=
  same (m_live m) l /\ (forall x, (cnt (m_live m) x <= 1)%nat) /\ forall x, (0 < cnt (m_live m) x)%nat -> (x < m_next m)%nat.
Lemma holds_as m l l' : holds m l -> same l l' -> holds m l'.
Proof. intros (A & B) H. split; [|exact B]. intros x. now rewrite A. Qed.
Lemma mem_holds m : mem_ok m -> holds m (m_live m).
Proof.
  intros [A B]. split; [intros x; reflexivity|]. split.
  - intros x. unfold cnt. now apply NoDup_count_occ.
  - intros x H. apply B, cnt_in, H.
Qed.
Lemma holds_perm m l : holds m l -> Permutation (m_live m) l.
Proof. intros (A & _). apply (Permutation_count_occ Nat.eq_dec). exact A. Qed.

(** ---- Commands ---- *)

Definition runs {A} (f : mm A) (m : mem) (P : A -> mem -> Prop) : Prop := exists a m', f m = Ok (a, m') /\ P a m'.
Lemma runs_bind {A B} (f : mm A) (k : A -> mm B) m P : runs f m (fun a m' => runs (k a) m' P) -> runs (mb f k) m P.
Proof. intros (a & m1 & E & b & m2 & E2 & H). exists b, m2. split; [|exact H]. unfold mb. rewrite E. cbn [obind fst snd]. exact E2. Qed.
Lemma runs_ret {A} (a : A) m (P : A -> mem -> Prop) : P a m -> runs (mret a) m P.
Proof. intros H. exists a, m. auto. Qed.
Lemma runs_weaken {A} (f : mm A) m (P Q : A -> mem -> Prop) : runs f m P -> (forall a m', P a m' -> Q a m') -> runs f m Q.
Proof. intros (a & m' & E & H) W. exists a, m'. auto. Qed.
Lemma runs_new m l (P : nat -> mem -> Prop) : holds m l -> (forall x m', holds m' (x :: l) -> P x m') -> runs new m P.
Proof.
  intros (A & B & C) H. eexists. eexists. split; [reflexivity|]. apply H. unfold holds. cbn [m_live m_next].
  assert (F : cnt (m_live m) (m_next m) = 0%nat).
  { destruct (cnt (m_live m) (m_next m)) eqn:E; [reflexivity|]. specialize (C (m_next m)). rewrite E in C. lia. }
  split; [|split].
  - intros x. rewrite !cnt_cons. now rewrite A.
  - intros x. rewrite cnt_cons. unfold one. destruct (Nat.eq_dec (m_next m) x) as [<-|]; [rewrite F; lia|]. apply B.
  - intros x. rewrite cnt_cons. unfold one. destruct (Nat.eq_dec (m_next m) x) as [<-|]; [lia|]. intros X. specialize (C x X). lia.
Qed.
Lemma take_spec x l : (0 < cnt l x)%nat -> exists r, take x l = Some r /\ same l (x :: r).
Proof.
  induction l as [|y l IH]; intros H; [cbn in H; lia|]. cbn [take]. destruct (Nat.eqb_spec x y) as [<-|N].
  - exists l. split; [reflexivity|]. intros z. reflexivity.
  - rewrite cnt_cons in H. unfold one in H. destruct (Nat.eq_dec y x) as [->|]; [congruence|]. destruct (IH H) as (r & -> & R).
    exists (y :: r). split; [reflexivity|]. intros z. specialize (R z). rewrite !cnt_cons in *. lia.
Qed.
Lemma runs_free x m l l' (P : unit -> mem -> Prop) : holds m l -> same l (x :: l') -> (forall m', holds m' l' -> P tt m') -> runs (free x) m P.
Proof.
  intros (A & B & C) S H. destruct (take_spec x (m_live m)) as (r & E & R).
  { rewrite A, S, cnt_cons, one_same. lia. }
  eexists. eexists. split; [unfold free; rewrite E; reflexivity|]. apply H. unfold holds. cbn [m_live m_next].
  split; [|split].
  - intros z. specialize (R z). rewrite A, S in R. rewrite !cnt_cons in R. lia.
  - intros z. specialize (R z). specialize (B z). rewrite cnt_cons in R. lia.
  - intros z Hz. apply C. rewrite R, cnt_cons. lia.
Qed.
Lemma runs_touch x m l (P : unit -> mem -> Prop) : holds m l -> (0 < cnt l x)%nat -> P tt m -> runs (touch x) m P.
Proof.
  intros (A & _) I H. exists tt, m. split; [|exact H]. unfold touch. replace (existsb (Nat.eqb x) (m_live m)) with true; [reflexivity|].
  symmetry. apply existsb_exists. exists x. split; [|apply Nat.eqb_refl]. apply cnt_in. now rewrite A.
Qed.
Definition opt_block (o : option nat) : list nat := match o with Some x => [x] | None => [] end.
Definition strings_blocks (l : list (option nat)) : list nat := flat_map opt_block l.
Definition img_blocks (i : img) : list nat := [j_block i; j_data i].
Definition oimg_blocks (i : option img) : list nat := match i with Some i => img_blocks i | None => [] end.
Definition images_blocks (l : list (option img)) : list nat := flat_map oimg_blocks l.
Definition ilist_blocks (l : ilist) : list nat := il_block l :: images_blocks (il_images l).
Definition rgn_block (r : option rgn) : list nat := match r with Some r => [g_block r] | None => [] end.
Definition obj_blocks (o : option rgn * nat) : list nat := rgn_block (fst o) ++ [snd o].
Definition objs_blocks (l : list (option rgn * nat)) : list nat := flat_map obj_blocks l.
Definition olist_blocks (l : olist) : list nat := ol_block l :: ol_regions l :: ol_properties l :: objs_blocks (ol_objects l).
Definition mdata_blocks (d : mdata) : list nat := d_block d :: d_custom d :: strings_blocks (d_strings d).
Definition conn_blocks (h : conn) : list nat := c_block h :: c_stream h :: opt_block (c_error h) ++ mdata_blocks (c_meta h).
Definition opt {A} (f : A -> list nat) (o : option A) : list nat := match o with Some a => f a | None => [] end.
Lemma objs_cons o l : objs_blocks (o :: l) = rgn_block (fst o) ++ snd o :: objs_blocks l.
Proof. unfold objs_blocks, obj_blocks. cbn [flat_map]. now rewrite <- app_assoc. Qed.
Definition real (o : option rgn * nat) : Prop := fst o <> None.

Ltac present := unfold conn_blocks, olist_blocks, ilist_blocks, mdata_blocks, img_blocks; repeat rewrite ?cnt_nil, ?cnt_cons, ?cnt_app, ?one_same; lia.

(** The list without one of its elements *)
Ltac without x l :=
  match l with
  | x :: ?r => r
  | ?a :: ?r => let r' := without x r in constr:(a :: r')
  | ?l1 ++ ?l2 => let r' := without x l1 in constr:(r' ++ l2)
  | ?l1 ++ ?l2 => let r' := without x l2 in constr:(l1 ++ r')
  end.
Ltac step :=
  lazymatch goal with
  | |- runs (mb _ _) _ _ => apply runs_bind
  | |- runs (mret _) _ _ => apply runs_ret
  | H : holds ?m ?l |- runs new ?m _ => apply (runs_new m l); [exact H|]; let x := fresh "b" in let m' := fresh "m" in let Hn := fresh "Hn" in intros x m' Hn; clear H; rename Hn into H; try clear m
  | H : holds ?m ?l |- runs (free ?x) ?m _ =>
      let r := without x l in apply (runs_free x m l r); [exact H|perm|]; let m' := fresh "m" in let Hn := fresh "Hn" in intros m' Hn; clear H; rename Hn into H; try clear m
  | H : holds ?m ?l |- runs (touch ?x) ?m _ => apply (runs_touch x m l); [exact H|present|]
  end.
Ltac steps := repeat (step; cbv beta).

Lemma free_opt_ok o m R (P : unit -> mem -> Prop) : holds m (opt_block o ++ R) -> (forall m', holds m' R -> P tt m') -> runs (free_opt o) m P.
Proof. intros H K. destruct o as [x|]; cbn [free_opt opt_block app] in *; [step; auto|]. step. auto. Qed.
Lemma free_opts_ok l : forall m R (P : unit -> mem -> Prop), holds m (strings_blocks l ++ R) -> (forall m', holds m' R -> P tt m') -> runs (each free_opt l) m P.
Proof.
  induction l as [|o l IH]; intros m R P H K; cbn [each strings_blocks flat_map app] in *; [step; auto|].
  step. rewrite <- app_assoc in H. apply (free_opt_ok o m _ _ H). intros m' H'. now apply (IH m' R).
Qed.
Lemma new_if_ok b m R (P : option nat -> mem -> Prop) : holds m R -> (forall o m', holds m' (opt_block o ++ R) -> P o m') -> runs (new_if b) m P.
Proof. intros H K. destruct b; cbn [new_if]; steps; apply K; assumption. Qed.
Lemma new_strings_ok l : forall m R (P : list (option nat) -> mem -> Prop), holds m R -> (forall s m', holds m' (strings_blocks s ++ R) -> P s m') -> runs (new_strings l) m P.
Proof.
  induction l as [|b l IH]; intros m R P H K; cbn [new_strings]; [step; now apply (K [])|].
  step. apply (new_if_ok b m R _ H). intros o m1 H1. step. apply (IH m1 _ _ H1). intros s m2 H2. step. apply (K (o :: s)).
  apply (holds_as _ _ _ H2). unfold strings_blocks. cbn [flat_map]. perm.
Qed.
Lemma new_mdata_ok l m R (P : mdata -> mem -> Prop) : holds m R -> (forall d m', holds m' (mdata_blocks d ++ R) -> P d m') -> runs (new_mdata l) m P.
Proof.
  intros H K. unfold new_mdata. steps. apply (new_strings_ok l _ _ _ H). intros s m1 H1. steps. apply K.
  apply (holds_as _ _ _ H1). unfold mdata_blocks. cbn [d_block d_custom d_strings app]. perm.
Qed.
Lemma release_mdata_ok d m R (P : unit -> mem -> Prop) : holds m (mdata_blocks d ++ R) -> (forall m', holds m' R -> P tt m') -> runs (release_mdata d) m P.
Proof.
  intros H K. unfold release_mdata. step. apply (free_opts_ok (d_strings d) m (d_block d :: d_custom d :: R)).
  - apply (holds_as _ _ _ H). unfold mdata_blocks. perm.
  - intros m1 H1. steps. auto.
Qed.
Lemma release_image_ok i m R (P : unit -> mem -> Prop) : holds m (img_blocks i ++ R) -> (forall m', holds m' R -> P tt m') -> runs (release_image i) m P.
Proof. intros H K. unfold release_image, img_blocks in *. cbn [app] in H. steps. auto. Qed.
Lemma new_image_ok m R (P : img -> mem -> Prop) : holds m R -> (forall i m', holds m' (img_blocks i ++ R) -> P i m') -> runs new_image m P.
Proof. intros H K. unfold new_image. steps. apply K. apply (holds_as _ _ _ H). unfold img_blocks. cbn [j_block j_data]. perm. Qed.
Lemma images_none n : images_blocks (repeat None n) = [].
Proof. induction n as [|n IH]; [reflexivity|exact IH]. Qed.
Lemma clear_images_ok l : forall m R (P : unit -> mem -> Prop), holds m (images_blocks l ++ R) -> (forall m', holds m' R -> P tt m') ->
  runs (each (fun i => match i with Some i => release_image i | None => mret tt end) l) m P.
Proof.
  induction l as [|i l IH]; intros m R P H K; cbn [each images_blocks flat_map app] in *; [step; auto|].
  rewrite <- app_assoc in H. destruct i as [i|]; cbn [oimg_blocks app] in H.
  - step. apply (release_image_ok i m _ _ H). intros m1 H1. now apply (IH m1 R).
  - steps. now apply (IH m R).
Qed.
Lemma drop_ilist_ok l m R (P : unit -> mem -> Prop) : holds m (ilist_blocks l ++ R) -> (forall m', holds m' R -> P tt m') ->
  runs (clear_ilist l ;;; release_ilist l) m P.
Proof.
  intros H K. unfold ilist_blocks in H. cbn [app] in H. step. unfold clear_ilist. steps.
  apply (clear_images_ok (il_images l) m (il_block l :: R)); [apply (holds_as _ _ _ H); perm|]. intros m1 H1. unfold release_ilist. steps. auto.
Qed.
Lemma drop_images_ok l m R (P : unit -> mem -> Prop) : holds m (opt ilist_blocks l ++ R) -> (forall m', holds m' R -> P tt m') ->
  runs (drop_images l) m P.
Proof. intros H K. destruct l as [l|]; cbn [drop_images opt app] in *; [now apply (drop_ilist_ok l m R)|step; auto]. Qed.
Lemma release_objects_ok l : Forall real l -> forall m R (P : unit -> mem -> Prop), holds m (objs_blocks l ++ R) -> (forall m', holds m' R -> P tt m') ->
  runs (each release_object l) m P.
Proof.
  induction 1 as [|[r p] l X _ IH]; intros m R P H K; [cbn [each]; step; auto|]. rewrite objs_cons in H.
  unfold real in X. cbn [fst] in X. destruct r as [r|]; [|congruence]. cbn [fst snd rgn_block app each] in *.
  unfold release_object at 1. cbn [fst snd release_region]. steps. now apply (IH _ R).
Qed.
Definition olist_real (l : olist) : Prop := Forall real (ol_objects l).
Lemma release_olist_ok l m R (P : unit -> mem -> Prop) : olist_real l -> holds m (olist_blocks l ++ R) -> (forall m', holds m' R -> P tt m') ->
  runs (release_olist l) m P.
Proof.
  intros X H K. unfold release_olist. step.
  apply (release_objects_ok _ X m (ol_block l :: ol_regions l :: ol_properties l :: R)).
  - apply (holds_as _ _ _ H). unfold olist_blocks. perm.
  - intros m1 H1. steps. auto.
Qed.
Lemma new_objects_ok n : forall m R (P : list (option rgn * nat) -> mem -> Prop), holds m R ->
  (forall l m', List.length l = n -> Forall real l -> holds m' (objs_blocks l ++ R) -> P l m') -> runs (new_objects n) m P.
Proof.
  induction n as [|n IH]; intros m R P H K; cbn [new_objects]; [step; apply K; auto|].
  steps. apply (IH _ _ _ H). intros l m' L X H'. steps. apply K.
  - cbn [List.length]. now rewrite L.
  - constructor; [discriminate|exact X].
  - apply (holds_as _ _ _ H'). rewrite objs_cons. cbn [fst snd rgn_block g_block app]. perm.
Qed.
Lemma new_olist_ok n m R (P : olist -> mem -> Prop) : holds m R ->
  (forall l m', List.length (ol_objects l) = n -> olist_real l -> holds m' (olist_blocks l ++ R) -> P l m') -> runs (new_olist n) m P.
Proof.
  intros H K. unfold new_olist. steps. apply (new_objects_ok n _ _ _ H). intros l m' L X H'. steps. apply K; cbn [ol_objects]; auto.
  apply (holds_as _ _ _ H'). unfold olist_blocks. cbn [ol_block ol_regions ol_properties ol_objects]. perm.
Qed.
Lemma clone_ok r m R (P : option rgn -> mem -> Prop) : r <> None -> holds m (rgn_block r ++ R) ->
  (forall c m', c <> None -> option_map g_kind c = option_map g_kind r -> holds m' (rgn_block c ++ rgn_block r ++ R) -> P c m') -> runs (clone_region r) m P.
Proof.
  intros X H K. destruct r as [r|]; [|congruence]. cbn [clone_region rgn_block app] in *. steps. apply K; [discriminate|reflexivity|].
  cbn [rgn_block g_block app]. assumption.
Qed.
Definition kinds (l : list (option rgn * nat)) : list (option rkind) := map (fun o => option_map g_kind (fst o)) l.
Definition one_set (i : nat) (r : option rgn) (l l' : list (option rgn * nat)) : Prop :=
  (forall j, j <> i -> nth_error (kinds l') j = nth_error (kinds l) j) /\
  ((i < List.length l)%nat -> nth_error (kinds l') i = Some (option_map g_kind r)).
Lemma set_object_ok l : Forall real l -> forall i r m R (P : list (option rgn * nat) -> mem -> Prop), r <> None -> holds m (objs_blocks l ++ rgn_block r ++ R) ->
  (forall l' m', List.length l' = List.length l -> one_set i r l l' -> Forall real l' -> holds m' (objs_blocks l' ++ rgn_block r ++ R) -> P l' m') -> runs (set_object l i r) m P.
Proof.
  induction 1 as [|[q p] l X Y IH]; intros i r m R P Nr H K; [destruct i; cbn [set_object]; step; (apply K; [reflexivity|split; [reflexivity|intros X; cbn in X; lia]|constructor|exact H])|].
  unfold real in X. cbn [fst] in X. destruct q as [q|]; [|congruence]. rewrite objs_cons in H. cbn [fst snd rgn_block app] in H.
  destruct i as [|i]; cbn [set_object fst snd release_region].
  - steps. apply (clone_ok r _ (p :: objs_blocks l ++ R) _ Nr); [apply (holds_as _ _ _ H); perm|].
    intros c m2 Nc Kc H2. step. apply K; [reflexivity| |constructor; [exact Nc|exact Y]|].
    + split; [intros [|j] Hj; [congruence|reflexivity]|]. intros _. cbn [kinds map nth_error fst]. now rewrite Kc.
    +
    apply (holds_as _ _ _ H2). rewrite objs_cons. cbn [fst snd]. perm.
  - step. apply (IH i r m (g_block q :: p :: R) _ Nr); [apply (holds_as _ _ _ H); perm|].
    intros l' m2 L [S1 S2] X' H2. step. apply K; [cbn [List.length]; now rewrite L| |constructor; [discriminate|exact X']|].
    + split; [intros [|j] Hj; [reflexivity|apply (S1 j); congruence]|]. intros Hi. apply S2. cbn [List.length] in Hi. lia.
    +
    apply (holds_as _ _ _ H2). rewrite objs_cons. cbn [fst snd rgn_block app]. perm.
Qed.
Lemma set_olist_ok l i r m R (P : olist -> mem -> Prop) : olist_real l -> r <> None -> holds m (olist_blocks l ++ rgn_block r ++ R) ->
  (forall l' m', List.length (ol_objects l') = List.length (ol_objects l) -> one_set i r (ol_objects l) (ol_objects l') -> olist_real l' -> holds m' (olist_blocks l' ++ rgn_block r ++ R) -> P l' m') -> runs (set_olist l i r) m P.
Proof.
  intros X Nr H K. unfold set_olist. step. apply (set_object_ok _ X i r m (ol_block l :: ol_regions l :: ol_properties l :: R) _ Nr).
  - apply (holds_as _ _ _ H). unfold olist_blocks. perm.
  - intros l' m1 L So X' H1. step. apply K; [exact L|exact So|exact X'|]. apply (holds_as _ _ _ H1). unfold olist_blocks. cbn [ol_block ol_regions ol_properties ol_objects]. perm.
Qed.

(** ---- Handles ---- *)

Lemma conn_as h : same (conn_blocks h) (c_block h :: c_stream h :: opt_block (c_error h) ++ mdata_blocks (c_meta h)).
Proof. intros x. reflexivity. Qed.
Lemma drop_error_ok h m R (P : conn -> mem -> Prop) : holds m (conn_blocks h ++ R) ->
  (forall m', holds m' (conn_blocks (with_error h None) ++ R) -> P (with_error h None) m') -> runs (drop_error h) m P.
Proof.
  intros H K. unfold drop_error. step. apply (runs_touch _ m _ _ H); [unfold conn_blocks; present|]. step.
  apply (free_opt_ok (c_error h) m (conn_blocks (with_error h None) ++ R)).
  - apply (holds_as _ _ _ H). unfold conn_blocks. cbn [with_error c_block c_stream c_error c_meta opt_block app]. perm.
  - intros m1 H1. step. auto.
Qed.
Lemma put_error_ok h m R (P : conn -> mem -> Prop) : holds m (conn_blocks h ++ R) ->
  (forall e m', holds m' (conn_blocks (with_error h e) ++ R) -> P (with_error h e) m') -> runs (put_error h) m P.
Proof.
  intros H K. unfold put_error. steps.
  apply (free_opt_ok (c_error h) m0 (b :: conn_blocks (with_error h None) ++ R)).
  - apply (holds_as _ _ _ H). unfold conn_blocks. cbn [with_error c_block c_stream c_error c_meta opt_block app]. perm.
  - intros m1 H1. steps. apply K. apply (holds_as _ _ _ H1). unfold conn_blocks. cbn [with_error c_block c_stream c_error c_meta opt_block app]. perm.
Qed.

(** What calls keep of a handle *)
Definition kin (h h' : conn) : Prop := c_server h' = c_server h /\ c_regions h' = c_regions h.
Lemma kin_refl h : kin h h. Proof. split; reflexivity. Qed.
Lemma kin_trans a b c : kin a b -> kin b c -> kin a c.
Proof. intros [A B] [C D]. split; congruence. Qed.
Lemma kin_error h e : kin h (with_error h e). Proof. split; reflexivity. Qed.
Lemma killed_blocks h : conn_blocks (killed h) = conn_blocks h. Proof. reflexivity. Qed.
Lemma objects_blocks h n : conn_blocks (with_objects h n) = conn_blocks h. Proof. reflexivity. Qed.
Ltac handle H := rewrite ?killed_blocks, ?objects_blocks in *.

Lemma validate_ok h b m R (P : unit -> mem -> Prop) : c_server h = b -> holds m (conn_blocks h ++ R) -> P tt m -> runs (validate h b) m P.
Proof. intros E H K. unfold validate. steps. rewrite E, eqb_reflx. step. exact K. Qed.
Lemma write_ok h m R (P : unit -> mem -> Prop) : holds m (conn_blocks h ++ R) -> P tt m -> runs (write h) m P.
Proof. intros H K. unfold write. steps. exact K. Qed.
Lemma refuse_ok h m R (P : Z * conn -> mem -> Prop) : holds m (conn_blocks h ++ R) ->
  (forall r m', kin h (snd r) -> holds m' (conn_blocks (snd r) ++ R) -> P r m') -> runs (refuse h) m P.
Proof. intros H K. unfold refuse. step. apply (put_error_ok h m R _ H). intros e m1 H1. step. apply K; [apply kin_error|exact H1]. Qed.
Lemma end_session_ok h m R (P : conn -> mem -> Prop) : holds m (conn_blocks h ++ R) ->
  (forall h' m', kin h h' -> holds m' (conn_blocks h' ++ R) -> P h' m') -> runs (end_session h) m P.
Proof.
  intros H K. unfold end_session. step. apply (drop_error_ok h m R _ H). intros m1 H1.
  destruct (c_dead (with_error h None)); [step; apply K; [apply kin_error|exact H1]|].
  steps. apply (write_ok _ _ (b0 :: b :: R)); [apply (holds_as _ _ _ H1); perm|]. steps. apply K; [apply kin_error|exact H1].
Qed.
Lemma cleanup_ok h m R (P : unit -> mem -> Prop) : holds m (conn_blocks h ++ R) -> (forall m', holds m' R -> P tt m') -> runs (cleanup h) m P.
Proof.
  intros H K. unfold cleanup. step. apply (end_session_ok h m R _ H). intros h1 m1 _ H1. step.
  apply (release_mdata_ok (c_meta h1) m1 (c_block h1 :: c_stream h1 :: opt_block (c_error h1) ++ R)).
  - apply (holds_as _ _ _ H1). unfold conn_blocks. perm.
  - intros m2 H2. steps. unfold drop_error. steps. apply (free_opt_ok (c_error h1) _ (c_block h1 :: R)); [apply (holds_as _ _ _ H2); perm|].
    intros m4 H4. steps. cbn [with_error c_block]. steps. auto.
Qed.
Lemma parse_ok p m R (P : bool * option rgn -> mem -> Prop) : p <> PNull -> holds m R ->
  (forall q m', holds m' (g_block q :: R) -> P (true, Some q) m') -> (forall m', holds m' R -> P (false, None) m') -> runs (parse_region p) m P.
Proof.
  intros N H K1 K2. destruct p as [| |k]; [|congruence|]; cbn [parse_region]; steps; [now apply K2|].
  apply (K1 (mkRgn k b0)). exact H.
Qed.

(** ---- The client ---- *)

Lemma wait_states_ok n : forall i h code ol l m R (P : Z * conn * option olist * list amsg -> mem -> Prop), olist_real ol -> Forall msg_text l ->
  holds m (conn_blocks h ++ olist_blocks ol ++ R) ->
  (forall c h' o l' m', kin h h' -> Forall msg_text l' -> match o with Some ol => olist_real ol | None => c = TRAX_ERROR \/ c = TRAX_QUIT end ->
     holds m' (conn_blocks h' ++ opt olist_blocks o ++ R) -> P (c, h', o, l') m') -> runs (wait_states n i h code ol l) m P.
Proof.
  induction n as [|n IH]; intros i h code ol l m R P Ro Fl H K; cbn [wait_states]; [step; apply K; auto using kin_refl|].
  steps. assert (Fg : msg_text (fst (next_message l)) /\ Forall msg_text (snd (next_message l))).
  { destruct Fl; cbn; split; auto. constructor. }
  destruct (next_message l) as [g l']. cbn [fst snd] in Fg. destruct Fg as [Fg Fl'].
  assert (Stop : forall c h' m, c = TRAX_ERROR \/ c = TRAX_QUIT -> kin h h' -> conn_blocks h' = conn_blocks h -> holds m (b0 :: b :: conn_blocks h ++ olist_blocks ol ++ R) ->
    runs (free b0 ;;; free b ;;; release_olist ol ;;; mret (c, h', None, l')) m P).
  { clear H. intros c h' m' Hc Kh Eh H. steps. apply (release_olist_ok ol _ (conn_blocks h ++ R) _ Ro); [apply (holds_as _ _ _ H); perm|].
    intros m4 H4. step. apply K; auto. rewrite Eh. cbn [opt app]. exact H4. }
  destruct (g_code g =? TRAX_STATE); [|destruct (g_code g =? TRAX_QUIT); [|destruct (g_code g =? TRAX_ERROR)]].
  - destruct (g_args g) as [|x [|y args]] eqn:Ea; try (apply Stop; [auto|apply kin_refl|reflexivity|exact H]).
    assert (Nx : a_region x <> PNull) by (unfold msg_text in Fg; rewrite Ea in Fg; now inversion Fg). step.
    apply (parse_ok _ _ _ _ Nx H).
    + intros q m2 H2. cbn [fst snd]. step.
      apply (set_olist_ok ol i (Some q) m2 (b0 :: b :: conn_blocks h ++ R) _ Ro ltac:(discriminate)); [apply (holds_as _ _ _ H2); cbn [rgn_block]; perm|].
      intros ol' m3 _ _ Ro' H3. cbn [release_region rgn_block app] in *. clear H H2. steps.
      apply (IH _ _ _ _ _ _ R _ Ro' Fl'); [apply (holds_as _ _ _ H3); perm|exact K].
    + intros m2 H2. cbn [fst]. apply Stop; [auto|apply kin_refl|reflexivity|exact H2].
  - destruct (g_args g); [apply (Stop TRAX_QUIT (killed h)); [auto|split; reflexivity|reflexivity|exact H]|apply Stop; [auto|apply kin_refl|reflexivity|exact H]].
  - apply Stop; [auto|apply kin_refl|reflexivity|exact H].
  - steps. apply (IH _ _ _ _ _ _ R _ Ro Fl'); [exact H|exact K].
Qed.
Lemma await_ok h l m R (P : Z * conn * option olist * list amsg -> mem -> Prop) : c_server h = false -> Forall msg_text l -> holds m (conn_blocks h ++ R) ->
  (forall c h' o l' m', kin h h' -> Forall msg_text l' -> match o with Some ol => olist_real ol | None => c = TRAX_ERROR \/ c = TRAX_QUIT end ->
     holds m' (conn_blocks h' ++ opt olist_blocks o ++ R) -> P (c, h', o, l') m') -> runs (await_states h l) m P.
Proof.
  intros Sv Fl H K. unfold await_states. step. apply (validate_ok h false m R _ Sv H). destruct (c_dead h).
  - step. apply (put_error_ok h m R _ H). intros e m1 H1. step. apply K; auto using kin_error.
  - step. apply (new_olist_ok (c_objects h) m _ _ H). intros ol m1 _ Ro H1.
    apply (wait_states_ok _ _ _ _ _ _ m1 R _ Ro Fl); [apply (holds_as _ _ _ H1); perm|exact K].
Qed.

Lemma has_kind_in k l : has_kind k l = true <-> In k l.
Proof.
  unfold has_kind. rewrite existsb_exists. split.
  - intros (x & Hx & E). destruct k, x; try discriminate; exact Hx.
  - intros Hx. exists k. split; [exact Hx|]. now destruct k.
Qed.
Lemma convert_ok r k m R (P : option rgn -> mem -> Prop) : g_kind r <> KSpecial -> ~ (g_kind r = KPoly /\ k = KMask) -> holds m (g_block r :: R) ->
  (forall c m', holds m' (g_block c :: g_block r :: R) -> P (Some c) m') -> runs (convert_region r k) m P.
Proof.
  intros N1 N2 H K. unfold convert_region. steps.
  destruct (g_kind r) eqn:E, k; try congruence; try (exfalso; tauto); steps; apply K; exact H.
Qed.
Lemma region_argument_ok h r m R (P : unit -> mem -> Prop) : sent_kind (c_regions h) (g_kind r) -> holds m (g_block r :: R) ->
  (forall m', holds m' (g_block r :: R) -> P tt m') -> runs (region_argument h (Some r)) m P.
Proof.
  intros (N1 & (k0 & I0 & S0) & Hk) H K. unfold region_argument. steps.
  destruct (has_kind (g_kind r) (c_regions h)) eqn:Hh; [steps; auto|].
  assert (Nk : ~ In (g_kind r) (c_regions h)) by (rewrite <- has_kind_in, Hh; discriminate).
  step. unfold autoconvert. destruct (has_kind KMask (c_regions h)) eqn:E1.
  { apply has_kind_in in E1. destruct Hk as [Hk|[Hk|Hk]]; [congruence|congruence|].
    apply (convert_ok r KMask m R _ N1); [intros [X _]; congruence|exact H|]. intros c m1 H1. cbn [release_region]. steps. auto. }
  destruct (has_kind KPoly (c_regions h)) eqn:E2.
  { apply (convert_ok r KPoly m R _ N1); [intros [_ X]; congruence|exact H|]. intros c m1 H1. cbn [release_region]. steps. auto. }
  destruct (has_kind KRect (c_regions h)) eqn:E3.
  { apply (convert_ok r KRect m R _ N1); [intros [_ X]; congruence|exact H|]. intros c m1 H1. cbn [release_region]. steps. auto. }
  exfalso. destruct k0; [congruence| | |]; apply has_kind_in in I0; congruence.
Qed.
Definition sendable (h : conn) (o : option rgn * nat) : Prop := exists r, fst o = Some r /\ sent_kind (c_regions h) (g_kind r).
Lemma send_objects_ok h l : Forall (sendable h) l -> forall m R (P : unit -> mem -> Prop), holds m (conn_blocks h ++ objs_blocks l ++ R) ->
  (forall m', holds m' (conn_blocks h ++ objs_blocks l ++ R) -> P tt m') -> runs (each (send_object h) l) m P.
Proof.
  induction 1 as [|[r p] l (q & Eq & Sk) _ IH]; intros m R P H K; [cbn [each]; step; auto|].
  cbn [fst] in Eq. subst r. rewrite objs_cons in *. cbn [fst snd rgn_block app each] in *. unfold send_object at 1. cbn [fst snd]. steps.
  apply (region_argument_ok h q _ (b :: p :: conn_blocks h ++ objs_blocks l ++ R) _ Sk); [apply (holds_as _ _ _ H); perm|].
  intros m1 H1. steps. apply (write_ok h _ (g_block q :: b :: p :: objs_blocks l ++ R)); [apply (holds_as _ _ _ H1); perm|].
  steps. apply (IH _ (g_block q :: p :: R)); [apply (holds_as _ _ _ H1); perm|]. intros m3 H3. apply K. apply (holds_as _ _ _ H3). perm.
Qed.
(** Images that are in use *)
Definition shown (l : list (option img)) (R : list nat) : Prop := forall i, In (Some i) l -> (0 < cnt R (j_block i))%nat /\ (0 < cnt R (j_data i))%nat.
Lemma shown_own l R : shown l (images_blocks l ++ R).
Proof.
  intros i Hi. unfold images_blocks. rewrite !cnt_app. assert (X : In (j_block i) (flat_map oimg_blocks l) /\ In (j_data i) (flat_map oimg_blocks l)).
  { split; apply in_flat_map; exists (Some i); (split; [exact Hi|]); cbn; auto. }
  destruct X as [X Y]. apply cnt_in in X, Y. lia.
Qed.
Lemma encode_ok chans : forall l m R (P : bool -> mem -> Prop), holds m R -> shown l R -> (forall b, P b m) -> runs (encode_images chans l) m P.
Proof.
  induction chans as [|[] cs IH]; intros l m R P H S K; cbn [encode_images]; [step; apply K| |].
  - destruct l as [|[i|] l]; cbn [encode_images]; [step; apply K| |step; apply K]. destruct (S i (or_introl eq_refl)) as [S1 S2].
    step. apply (runs_touch _ _ _ _ H S1). step. apply (runs_touch _ _ _ _ H S2). apply (IH l _ R _ H); [|exact K]. intros j Hj. apply S. now right.
  - destruct l as [|i l]; cbn [encode_images]; [step; apply K|].
    apply (IH l _ R _ H); [|exact K]. intros j Hj. apply S. now right.
Qed.
Lemma send_frame_ok h il m R (P : Z * conn -> mem -> Prop) : shown (il_images il) R -> holds m (conn_blocks h ++ il_block il :: R) ->
  (forall r m', kin h (snd r) -> holds m' (conn_blocks (snd r) ++ il_block il :: R) -> P r m') -> runs (send_frame h il) m P.
Proof.
  intros Sh H K. unfold send_frame. steps.
  apply (encode_ok _ _ _ _ _ H); [intros i Hi; destruct (Sh i Hi); repeat rewrite ?cnt_cons, ?cnt_app; lia|].
  intros [|].
  - step. apply (write_ok h _ (b :: il_block il :: R)); [apply (holds_as _ _ _ H); perm|]. steps. apply K; [apply kin_refl|exact H].
  - step. apply (put_error_ok h _ (b :: il_block il :: R)); [apply (holds_as _ _ _ H); perm|]. intros e m1 H1. clear H. steps.
    apply K; [apply kin_error|exact H1].
Qed.
Lemma frame_ok h il objs m R (P : Z * conn -> mem -> Prop) : c_server h = false ->
  match objs with Some o => Forall (sendable h) (ol_objects o) | None => True end -> shown (il_images il) R -> holds m (conn_blocks h ++ il_block il :: opt olist_blocks objs ++ R) ->
  (forall r m', kin h (snd r) -> holds m' (conn_blocks (snd r) ++ il_block il :: opt olist_blocks objs ++ R) -> P r m') -> runs (frame h il objs) m P.
Proof.
  intros Sv So Sh H K. unfold frame. step. apply (validate_ok h false m _ _ Sv H). step. apply (drop_error_ok h m _ _ H). intros m1 H1.
  assert (K' : forall r m', kin (with_error h None) (snd r) -> holds m' (conn_blocks (snd r) ++ il_block il :: opt olist_blocks objs ++ R) -> P r m').
  { intros r m' Kr Hr. apply K; [|exact Hr]. exact (kin_trans _ _ _ (kin_error h None) Kr). }
  destruct (c_dead _); [apply (refuse_ok _ _ _ _ H1 K')|]. destruct (c_v4 _).
  - destruct (Nat.ltb _ _ && _); [apply (refuse_ok _ _ _ _ H1 K')|]. step.
    destruct objs as [o|]; cbn [opt] in *.
    + apply (send_objects_ok (with_error h None) (ol_objects o) So m1 (ol_block o :: ol_regions o :: ol_properties o :: il_block il :: R)).
      { apply (holds_as _ _ _ H1). unfold olist_blocks. perm. }
      intros m2 H2. apply (send_frame_ok _ _ m2 (olist_blocks o ++ R)); [intros i Hi; destruct (Sh i Hi); rewrite !cnt_app; lia| |].
      { rewrite objects_blocks. apply (holds_as _ _ _ H2). unfold olist_blocks. perm. }
      intros r m3 Kr H3. apply K'; [exact Kr|exact H3].
    + cbn [each]. step. apply (send_frame_ok _ _ m1 R _ Sh); [exact H1|]. intros r m3 Kr H3. apply K'; [exact Kr|exact H3].
  - destruct (Nat.ltb _ _); [apply (refuse_ok _ _ _ _ H1 K')|].
    apply (send_frame_ok _ _ m1 (opt olist_blocks objs ++ R)); [intros i Hi; destruct (Sh i Hi); rewrite !cnt_app; lia|exact H1|]. intros r m3 Kr H3. apply K'; [exact Kr|exact H3].
Qed.
Lemma initialize_ok h il o m R (P : Z * conn -> mem -> Prop) : c_server h = false -> Forall (sendable h) (ol_objects o) ->
  shown (il_images il) R -> holds m (conn_blocks h ++ il_block il :: olist_blocks o ++ R) ->
  (forall r m', kin h (snd r) -> holds m' (conn_blocks (snd r) ++ il_block il :: olist_blocks o ++ R) -> P r m') -> runs (initialize h il o) m P.
Proof.
  intros Sv So Sh H K. unfold initialize. step. apply (validate_ok h false m _ _ Sv H). step. apply (drop_error_ok h m _ _ H). intros m1 H1. clear H.
  assert (K' : forall r m', kin (with_error h None) (snd r) -> holds m' (conn_blocks (snd r) ++ il_block il :: olist_blocks o ++ R) -> P r m').
  { intros r m' Kr Hr. apply K; [|exact Hr]. exact (kin_trans _ _ _ (kin_error h None) Kr). }
  destruct (c_dead _); [apply (refuse_ok _ _ _ _ H1 K')|]. steps.
  destruct (Nat.ltb _ _) eqn:Hn; [apply (refuse_ok _ _ _ _ H1 K')|]. destruct (negb _ && _); [apply (refuse_ok _ _ _ _ H1 K')|].
  destruct (c_v4 _).
  - step. assert (F : runs (frame (with_objects (with_error h None) 0) il (Some o)) m1 P).
    { apply (frame_ok (with_objects (with_error h None) 0) il (Some o) m1 R _ Sv So Sh); [exact H1|]. intros r m2 Kr H2. apply K'; [exact Kr|exact H2]. }
    destruct (Nat.ltb 0 (c_objects (with_error h None))); [apply (write_ok _ _ _ _ H1); exact F|step; exact F].
  - destruct (ol_objects o) as [|[q p] l] eqn:Eo; [discriminate|]. inversion So as [|? ? (r & Er & Sk) _]; subst.
    cbn [fst] in Er. subst q. cbn [fst]. destruct (g_kind r) eqn:Ek; [destruct Sk as [Sk _]; congruence| | |]; rewrite <- Ek in Sk; steps.
    all: apply (encode_ok _ _ _ _ _ H1); [intros i Hi; destruct (Sh i Hi); repeat rewrite ?cnt_cons, ?cnt_app; lia|].
    all: intros [|].
    all: try (step; apply (put_error_ok (with_error h None) _ (b :: il_block il :: olist_blocks o ++ R)); [apply (holds_as _ _ _ H1); perm|];
      intros e mm2 HH2; clear H1; steps; apply K'; [apply kin_error|exact HH2]).
    all: step; apply (region_argument_ok (with_error h None) r _ (b :: conn_blocks (with_error h None) ++ il_block il :: ol_block o :: ol_regions o :: ol_properties o :: p :: objs_blocks l ++ R) _ Sk);
      [apply (holds_as _ _ _ H1); unfold olist_blocks; rewrite Eo, objs_cons; cbn [rgn_block fst snd]; perm|]; intros mm2 HH2; clear H1;
      step; apply (write_ok _ _ (g_block r :: b :: il_block il :: ol_block o :: ol_regions o :: ol_properties o :: p :: objs_blocks l ++ R));
      [apply (holds_as _ _ _ HH2); perm|]; steps; apply K'; [split; reflexivity|]; cbn [snd]; rewrite objects_blocks; apply (holds_as _ _ _ HH2);
      unfold olist_blocks; rewrite Eo, objs_cons; cbn [rgn_block fst snd]; perm.
Qed.

(** ---- The server ---- *)

Lemma decode_ok chans : forall args, (count_channels chans <= List.length args)%nat -> forall m R (P : bool * list (option img) -> mem -> Prop), holds m R ->
  (forall r m', holds m' (images_blocks (snd r) ++ R) -> P r m') -> runs (decode_list chans args) m P.
Proof.
  induction chans as [|[] cs IH]; intros args L m R P H K; cbn [decode_list].
  - step. apply K. exact H.
  - unfold count_channels in L. cbn [filter List.length] in L. destruct args as [|x args]; [cbn in L; lia|]. cbn [List.length] in L. apply le_S_n in L.
    destruct (a_image x) as [ok|].
    + step. apply (new_image_ok m _ _ H). intros i m1 H1. destruct ok.
      * step. apply (IH args L m1 _ _ H1). intros r m2 H2. step. apply K. apply (holds_as _ _ _ H2). unfold images_blocks. cbn [fst snd flat_map oimg_blocks]. perm.
      * step. apply K. apply (holds_as _ _ _ H1). cbn [snd]. unfold images_blocks. cbn [flat_map oimg_blocks]. fold images_blocks.
        change (flat_map oimg_blocks (repeat None (List.length cs))) with (images_blocks (repeat None (List.length cs))). rewrite images_none. perm.
    + step. apply K. cbn [snd]. rewrite images_none. exact H.
  - step. apply (IH args L m _ _ H). intros r m1 H1. step. apply K. exact H1.
Qed.
Definition lreal (o : option olist) : Prop := match o with Some ol => olist_real ol | None => True end.
Lemma move_ok l : forall i ol m R (P : olist -> mem -> Prop), Forall real l -> olist_real ol -> holds m (objs_blocks l ++ olist_blocks ol ++ R) ->
  (forall ol' m', olist_real ol' -> holds m' (olist_blocks ol' ++ R) -> P ol' m') -> runs (move_objects i l ol) m P.
Proof.
  induction l as [|[r p] l IH]; intros i ol m R P Fl Ro H K; cbn [move_objects]; [step; apply K; auto|].
  inversion Fl as [|? ? Fr Fl']; subst. unfold real in Fr. cbn [fst] in Fr. rewrite objs_cons in H. cbn [fst snd] in H. cbn [fst snd]. step.
  apply (set_olist_ok ol i r m (p :: objs_blocks l ++ R) _ Ro Fr); [apply (holds_as _ _ _ H); perm|]. intros ol' m1 _ _ Ro' H1. clear H.
  destruct r as [q|]; [|congruence]. cbn [rgn_block release_region app] in *. steps.
  apply (IH _ _ _ R _ Fl' Ro'); [apply (holds_as _ _ _ H1); perm|exact K].
Qed.
Lemma finish_ok l m R (P : option olist -> mem -> Prop) : Forall real l -> holds m (objs_blocks l ++ R) ->
  (forall o m', lreal o -> (o = None <-> l = []) -> holds m' (opt olist_blocks o ++ R) -> P o m') -> runs (finish_objects l) m P.
Proof.
  intros Fl H K. unfold finish_objects. destruct l as [|o l]; [step; apply K; [exact Logic.I|tauto|exact H]|]. step.
  apply (new_olist_ok _ m _ _ H). intros ol m1 _ Ro H1. step. apply (move_ok _ _ _ m1 R _ Fl Ro); [apply (holds_as _ _ _ H1); perm|].
  intros ol' m2 Ro' H2. step. apply K; [exact Ro'|split; discriminate|exact H2].
Qed.
Definition fair (l : list amsg) : Prop := Forall msg_text l /\ Forall no_reset l.
(** What comes back with a code *)
Definition returned {A} (c : Z) (il : option ilist) (o : A) (none : A) : Prop :=
  (c = TRAX_INITIALIZE -> il <> None /\ o <> none) /\ (c = TRAX_FRAME -> il <> None) /\ (c = TRAX_QUIT -> il = None) /\
  (c <> TRAX_INITIALIZE -> c <> TRAX_FRAME -> c <> TRAX_QUIT -> il = None /\ o = none).
Definition mot_post (h : conn) (b : bool) (l0 : list amsg) (R : list nat) (P : Z * conn * option ilist * option olist * list amsg -> mem -> Prop) : Prop :=
  forall c h' il o l' m', kin h h' -> fair l' -> lreal o -> returned c il o None -> (settled b l0 -> settled false l' /\ (c = TRAX_QUIT -> o = None)) ->
    holds m' (conn_blocks h' ++ opt ilist_blocks il ++ opt olist_blocks o ++ R) -> P (c, h', il, o, l') m'.
Lemma mot_post_kin h h' b l0 R P : kin h h' -> mot_post h b l0 R P -> mot_post h' b l0 R P.
Proof. intros K1 K c h2 il o l' m' K2. apply K. exact (kin_trans _ _ _ K1 K2). Qed.
Lemma mot_post_settled h b b' l0 l1 R P : (settled b l0 -> settled b' l1) -> mot_post h b l0 R P -> mot_post h b' l1 R P.
Proof. intros S K c h2 il o l' m' A B C D E F. apply K; auto. Qed.
Lemma settled_less l : forall b, settled b l -> settled false l.
Proof.
  induction l as [|g l IH]; intros b; cbn [settled]; [auto|]. destruct (_ =? TRAX_INITIALIZE); [auto|]. destruct (_ =? TRAX_FRAME); [auto|].
  destruct (_ =? TRAX_QUIT); [|apply IH]. intros [_ X]. split; [reflexivity|]. exact (IH _ X).
Qed.
Lemma settled_tail g l b : settled b (g :: l) -> settled false l.
Proof.
  cbn [settled]. destruct (_ =? TRAX_INITIALIZE); [apply settled_less|]. destruct (_ =? TRAX_FRAME); [auto|].
  destruct (_ =? TRAX_QUIT); [|apply settled_less]. intros [_ X]. exact (settled_less _ _ X).
Qed.
Lemma mot_end_ok h code il objs a p ra pa b l0 l m R P : Forall real objs -> fair l ->
  returned code il objs [] -> (settled b l0 -> settled false l /\ (code = TRAX_QUIT -> objs = [])) ->
  holds m (a :: p :: ra :: pa :: conn_blocks h ++ opt ilist_blocks il ++ objs_blocks objs ++ R) -> mot_post h b l0 R P -> runs (mot_end h code il objs a p ra pa l) m P.
Proof.
  intros Fo Fl Rt St H K. unfold mot_end. step.
  apply (finish_ok objs m (a :: p :: ra :: pa :: conn_blocks h ++ opt ilist_blocks il ++ R) _ Fo); [apply (holds_as _ _ _ H); perm|].
  intros o m1 Ro No H1. clear H. steps. apply K; [split; reflexivity|exact Fl|exact Ro| | |].
  - destruct Rt as (R1 & R2 & R3 & R4). split; [|split; [exact R2|split; [exact R3|]]].
    + intros E. destruct (R1 E) as [X Y]. split; [exact X|]. intros Z0. apply Y. now apply No.
    + intros A B C. destruct (R4 A B C) as [X Y]. split; [exact X|]. now apply No.
  - intros S. destruct (St S) as [X Y]. split; [exact X|]. intros E. apply No. auto.
  - rewrite objects_blocks. apply (holds_as _ _ _ H1). perm.
Qed.
Lemma mot_failure_ok h il objs a p ra pa b l0 l m R P : Forall real objs -> fair l -> (settled b l0 -> settled false l) ->
  holds m (a :: p :: ra :: pa :: conn_blocks h ++ opt ilist_blocks il ++ objs_blocks objs ++ R) -> mot_post h b l0 R P -> runs (mot_failure h il objs a p ra pa l) m P.
Proof.
  intros Fo Fl St H K. unfold mot_failure. step.
  apply (drop_images_ok il m (a :: p :: ra :: pa :: conn_blocks h ++ objs_blocks objs ++ R)); [apply (holds_as _ _ _ H); perm|].
  intros m1 H1. step. unfold drop_objects.
  apply (release_objects_ok objs Fo m1 (a :: p :: ra :: pa :: conn_blocks h ++ R)); [apply (holds_as _ _ _ H1); perm|].
  intros m2 H2. apply (mot_end_ok _ _ _ _ _ _ _ _ b l0 _ m2 R); [constructor|exact Fl| |intros S; split; [now apply St|reflexivity]|exact H2|exact K].
  split; [discriminate|split; [discriminate|split; [discriminate|auto]]].
Qed.
Lemma objs_snoc l o : objs_blocks (l ++ [o]) = objs_blocks l ++ rgn_block (fst o) ++ [snd o].
Proof. unfold objs_blocks. rewrite flat_map_app. cbn [flat_map]. now rewrite app_nil_r. Qed.
Lemma mot_loop_ok l : fair l -> forall h il result objs cap ra pa bb m R P, Forall real objs -> (objs <> [] -> bb = true) ->
  holds m (ra :: pa :: conn_blocks h ++ opt ilist_blocks il ++ objs_blocks objs ++ R) -> mot_post h bb l R P ->
  il = None -> runs (mot_loop l h il result objs cap ra pa) m P.
Proof.
  induction l as [|g l IH]; intros Fl h il result objs cap ra pa bb m R P Fo Fb H K Il.
  - cbn [mot_loop]. steps. apply (mot_failure_ok _ _ _ _ _ _ _ bb [] _ _ R); [exact Fo|exact Fl|cbn; auto|exact H|exact K].
  - cbn [mot_loop]. steps. assert (Fg : msg_text g /\ no_reset g /\ fair l).
    { destruct Fl as [F1 F2]. inversion F1; inversion F2; subst. repeat split; assumption. }
    destruct Fg as (Fg & Fr & Fl'). specialize (IH Fl').
    assert (Fail : forall il ra pa m, holds m (b0 :: b :: ra :: pa :: conn_blocks h ++ opt ilist_blocks il ++ objs_blocks objs ++ R) ->
      runs (mot_failure h il objs b0 b ra pa l) m P).
    { intros il' ra' pa' m' H'. apply (mot_failure_ok _ _ _ _ _ _ _ bb (g :: l) _ _ R); [exact Fo|exact Fl'|apply settled_tail|exact H'|exact K]. }
    assert (Fail2 : forall m, holds m (b0 :: b :: ra :: pa :: conn_blocks h ++ opt ilist_blocks il ++ objs_blocks objs ++ R) ->
      runs (h <-- put_error h ;; mot_failure h il objs b0 b ra pa l) m P).
    { clear H. intros m' H. step. apply (put_error_ok h _ (b0 :: b :: ra :: pa :: opt ilist_blocks il ++ objs_blocks objs ++ R)); [apply (holds_as _ _ _ H); perm|].
      intros e m2 H2. apply (mot_failure_ok _ _ _ _ _ _ _ bb (g :: l) _ _ R); [exact Fo|exact Fl'|apply settled_tail|apply (holds_as _ _ _ H2); perm|].
      apply (mot_post_kin h); [apply kin_error|exact K]. }
    destruct (g_code g =? TRAX_ERROR); [apply Fail; exact H|]. destruct (g_code g =? TRAX_QUIT) eqn:Eq.
    { destruct (g_args g); [|exact (Fail2 _ H)]. apply Z.eqb_eq in Eq.
      apply (mot_end_ok _ _ _ _ _ _ _ _ bb (g :: l) _ _ R); [exact Fo|exact Fl'| | |exact H|].
      { split; [discriminate|split; [discriminate|split; [auto|congruence]]]. }
      { cbn [settled]. rewrite Eq. intros [-> S]. split; [exact S|]. intros _. destruct objs; [reflexivity|]. discriminate (Fb ltac:(discriminate)). }
      apply (mot_post_kin h); [split; reflexivity|exact K]. }
    destruct (g_code g =? TRAX_FRAME) eqn:Ef.
    { destruct (_ && _) eqn:Er; [exact (Fail2 _ H)|]. destruct (negb _) eqn:Ec in |- *; [exact (Fail2 _ H)|]. apply negb_false_iff, Nat.eqb_eq in Ec.
      clear Fail2. subst il. unfold new_ilist. steps. cbn [il_block].
      apply (decode_ok (c_channels h) (g_args g) ltac:(rewrite Ec; apply le_n) _ _ _ H). intros r m3 H3. clear H.
      assert (H4 : holds m3 (b0 :: b :: ra :: pa :: conn_blocks h ++ opt ilist_blocks (Some (mkIlist b1 (snd r))) ++ objs_blocks objs ++ R)).
      { apply (holds_as _ _ _ H3). unfold opt, ilist_blocks. cbn [il_block il_images]. perm. }
      destruct (fst r); [|apply Fail; exact H4]. apply (mot_end_ok _ _ _ _ _ _ _ _ bb (g :: l) _ _ R); [exact Fo|exact Fl'| | |exact H4|exact K].
      - destruct (result =? TRAX_INITIALIZE) eqn:Eres; cbn [negb orb andb] in *.
        + apply Z.eqb_eq in Eres. assert (No : objs <> []) by (destruct objs; [discriminate|discriminate]).
          destruct (Nat.ltb 0 (c_objects h)); [|rewrite Eres]; (split; [intros _; split; [discriminate|exact No]|split; [discriminate|split; [discriminate|congruence]]]).
        + split; [discriminate|split; [discriminate|split; [discriminate|congruence]]].
      - intros S. split; [exact (settled_tail _ _ _ S)|]. intros X. exfalso. revert X.
        destruct (result =? TRAX_INITIALIZE) eqn:Eres; cbn [negb orb]; [apply Z.eqb_eq in Eres; destruct (Nat.ltb 0 (c_objects h)); [|rewrite Eres]|]; discriminate. }
    destruct (g_code g =? TRAX_INITIALIZE) eqn:Ei; [|steps; apply (IH _ _ _ _ _ _ _ bb _ R); [exact Fo|exact Fb|exact H| |exact Il]; apply (mot_post_settled h bb bb (g :: l) l); [|exact K];
      cbn [settled]; rewrite Ei, Ef, Eq; auto].
    destruct (g_args g) as [|x [|y args]] eqn:Ea; [apply Z.eqb_eq in Ei; exfalso; apply Fr; auto| |exact (Fail2 _ H)]. clear Fail2.
    assert (Nx : a_region x <> PNull) by (unfold msg_text in Fg; rewrite Ea in Fg; now inversion Fg).
    assert (Go : forall cap' ra' pa' m', holds m' (b0 :: b :: ra' :: pa' :: conn_blocks h ++ opt ilist_blocks il ++ objs_blocks objs ++ R) ->
      runs (parse_region (a_region x)) m' (fun r m2 => runs (
            if fst r then q <-- new ;; free b0 ;;; free b ;;; mot_loop l h il TRAX_INITIALIZE (objs ++ [(snd r, q)]) cap' ra' pa'
            else mot_failure h il objs b0 b ra' pa' l) m2 P)).
    { clear H. intros cap' ra' pa' m' H. apply (parse_ok _ _ _ _ Nx H).
      - intros q m2 H2. cbn [fst snd]. clear H. steps.
        apply (IH _ _ _ _ _ _ _ true _ R); [apply Forall_app; split; [exact Fo|constructor; [discriminate|constructor]]|reflexivity| | |exact Il].
        2: { apply (mot_post_settled h bb true (g :: l) l); [|exact K]. cbn [settled]. now rewrite Ei. }
        apply (holds_as _ _ _ H2). rewrite objs_snoc. cbn [rgn_block fst snd]. perm.
      - intros m2 H2. cbn [fst]. apply Fail. exact H2. }
    destruct (Nat.ltb cap _); unfold realloc; steps; [apply Go|apply Go; exact H]. apply (holds_as _ _ _ H). perm.
Qed.
Lemma wait_mot_ok h l m R P : c_server h = true -> c_dead h = false -> fair l -> holds m (conn_blocks h ++ R) -> mot_post h false l R P -> runs (wait_mot h None l) m P.
Proof.
  intros Sv Dd Fl H K. unfold wait_mot. steps. apply (validate_ok h true _ (b0 :: b :: R) _ Sv); [apply (holds_as _ _ _ H); perm|].
  step. apply (drop_error_ok h _ (b0 :: b :: R)); [apply (holds_as _ _ _ H); perm|]. intros m2 H2. cbn [with_error c_dead]. rewrite Dd.
  apply (mot_loop_ok l Fl _ _ _ _ _ _ _ false m2 R); [constructor|congruence|apply (holds_as _ _ _ H2); unfold opt, objs_blocks; cbn [flat_map]; perm| |reflexivity].
  apply (mot_post_kin h); [apply kin_error|exact K].
Qed.

Definition sot_post (h : conn) (R : list nat) (P : Z * conn * option ilist * option rgn * list amsg -> mem -> Prop) : Prop :=
  forall c h' il r l' m', kin h h' -> fair l' -> holds m' (conn_blocks h' ++ opt ilist_blocks il ++ rgn_block r ++ R) -> P (c, h', il, r, l') m'.
Lemma sot_post_kin h h' R P : kin h h' -> sot_post h R P -> sot_post h' R P.
Proof. intros K1 K c h2 il o l' m' K2. apply K. exact (kin_trans _ _ _ K1 K2). Qed.
Lemma sot_end_ok h code il r a p l m R P : fair l -> holds m (a :: p :: conn_blocks h ++ opt ilist_blocks il ++ rgn_block r ++ R) -> sot_post h R P ->
  runs (sot_end h code il r a p l) m P.
Proof. intros Fl H K. unfold sot_end. steps. apply K; [apply kin_refl|exact Fl|exact H]. Qed.
Lemma sot_failure_ok h il r a p l m R P : fair l -> holds m (a :: p :: conn_blocks h ++ opt ilist_blocks il ++ rgn_block r ++ R) -> sot_post h R P ->
  runs (sot_failure h il r a p l) m P.
Proof.
  intros Fl H K. unfold sot_failure. step.
  apply (drop_images_ok il m (a :: p :: conn_blocks h ++ rgn_block r ++ R)); [apply (holds_as _ _ _ H); perm|]. intros m1 H1. clear H. step.
  destruct r as [r|]; cbn [rgn_block app] in H1; steps; (apply (sot_end_ok _ _ _ _ _ _ _ _ R); [exact Fl|exact H1|exact K]).
Qed.
Lemma wait_sot_ok h l m R P : c_server h = true -> fair l -> holds m (conn_blocks h ++ R) -> sot_post h R P -> runs (wait_sot h None None l) m P.
Proof.
  intros Sv Fl H K0. unfold wait_sot. step. apply (validate_ok h true _ _ _ Sv H). step. apply (drop_error_ok h _ _ _ H). intros m1 H1. clear H.
  assert (K : sot_post (with_error h None) R P) by (apply (sot_post_kin h); [apply kin_error|exact K0]). clear K0.
  assert (Sv' : c_server (with_error h None) = true) by exact Sv. revert H1 K Sv'. generalize (with_error h None). clear h Sv. intros h H K Sv.
  destruct (c_dead h).
  { step. apply (put_error_ok _ _ _ _ H). intros e m2 H2. step. apply K; [apply kin_error|exact Fl|exact H2]. }
  destruct (c_v4 h).
  { step. apply (put_error_ok _ _ _ _ H). intros e m2 H2. step. apply K; [apply kin_error|exact Fl|exact H2]. }
  steps. assert (Fg : msg_text (fst (next_message l)) /\ fair (snd (next_message l))).
  { destruct Fl as [F1 F2]. destruct F1; cbn; [repeat split; constructor|]. inversion F2; subst. repeat split; assumption. }
  destruct (next_message l) as [g l']. cbn [fst snd] in Fg. destruct Fg as [Fg Fl'].
  assert (Fail2 : forall m, holds m (b0 :: b :: conn_blocks h ++ R) -> runs (h <-- put_error h ;; sot_failure h None None b0 b l') m P).
  { clear H. intros m' H. step. apply (put_error_ok h _ (b0 :: b :: R)); [apply (holds_as _ _ _ H); perm|].
    intros e m3 H3. apply (sot_failure_ok _ _ _ _ _ _ _ R); [exact Fl'|apply (holds_as _ _ _ H3); unfold opt, rgn_block; perm|].
    apply (sot_post_kin h); [apply kin_error|exact K]. }
  assert (Fail : forall il m, holds m (b0 :: b :: conn_blocks h ++ opt ilist_blocks il ++ R) -> runs (sot_failure h il None b0 b l') m P).
  { intros il m' H'. apply (sot_failure_ok _ _ _ _ _ _ _ R); [exact Fl'|exact H'|exact K]. }
  destruct (g_code g =? TRAX_FRAME).
  { destruct (negb _) eqn:Ec in |- *; [exact (Fail2 _ H)|]. apply negb_false_iff, Nat.eqb_eq in Ec.
    clear Fail2. unfold new_ilist. steps. cbn [il_block]. apply (decode_ok (c_channels h) (g_args g) ltac:(rewrite Ec; apply le_n) _ _ _ H). intros r m4 H4. clear H.
    assert (H5 : holds m4 (b0 :: b :: conn_blocks h ++ opt ilist_blocks (Some (mkIlist b1 (snd r))) ++ R)).
    { apply (holds_as _ _ _ H4). unfold opt, ilist_blocks. cbn [il_block il_images]. perm. }
    destruct (fst r); [|apply Fail; exact H5]. apply (sot_end_ok _ _ _ _ _ _ _ _ R); [exact Fl'|exact H5|exact K]. }
  destruct (g_code g =? TRAX_QUIT).
  { destruct (g_args g); [|exact (Fail2 _ H)]. apply (sot_end_ok _ _ _ _ _ _ _ _ R); [exact Fl'|exact H|].
    apply (sot_post_kin h); [split; reflexivity|exact K]. }
  destruct (g_code g =? TRAX_INITIALIZE); [|apply Fail; exact H].
  destruct (negb _) eqn:Ec in |- *; [exact (Fail2 _ H)|]. apply negb_false_iff, Nat.eqb_eq in Ec. clear Fail2.
  unfold new_ilist. steps. cbn [il_block].
  apply (decode_ok (c_channels h) (g_args g) ltac:(rewrite Ec; lia) _ _ _ H). intros r m4 H4. clear H.
  assert (H5 : holds m4 (b0 :: b :: conn_blocks h ++ opt ilist_blocks (Some (mkIlist b1 (snd r))) ++ R)).
  { apply (holds_as _ _ _ H4). unfold opt, ilist_blocks. cbn [il_block il_images]. perm. }
  destruct (fst r); [|apply Fail; exact H5].
  destruct (nth_error (g_args g) (count_channels (c_channels h))) as [x|] eqn:En; [|apply nth_error_None in En; lia].
  apply nth_error_In in En. assert (Nx : a_region x <> PNull) by exact (proj1 (Forall_forall _ _) Fg x En). step.
  apply (parse_ok _ _ _ _ Nx H5).
  - intros q m5 H6. cbn [fst snd]. apply (sot_end_ok _ _ _ _ _ _ _ _ R); [exact Fl'| |].
    + rewrite objects_blocks. apply (holds_as _ _ _ H6). cbn [rgn_block]. perm.
    + apply (sot_post_kin h); [split; reflexivity|exact K].
  - intros m5 H6. cbn [fst]. apply Fail. exact H6.
Qed.
Lemma send_states_ok h l : Forall real l -> forall m R (P : unit -> mem -> Prop), holds m (conn_blocks h ++ objs_blocks l ++ R) ->
  P tt m \/ True -> (forall m', holds m' (conn_blocks h ++ objs_blocks l ++ R) -> P tt m') -> runs (each (send_state h) l) m P.
Proof.
  induction 1 as [|[r p] l Rr _ IH]; intros m R P H _ K; [cbn [each]; step; auto|].
  unfold real in Rr. destruct r as [q|]; [|cbn in Rr; congruence]. rewrite objs_cons in *. cbn [fst snd rgn_block app each] in *. unfold send_state at 1. cbn [fst snd].
  steps. apply (write_ok h _ (b0 :: b :: g_block q :: p :: objs_blocks l ++ R)); [apply (holds_as _ _ _ H); perm|].
  steps. apply (IH _ (g_block q :: p :: R)); [apply (holds_as _ _ _ H); perm|auto|]. intros m3 H3. apply K. apply (holds_as _ _ _ H3). perm.
Qed.
Lemma reply_mot_ok h ol m R (P : Z * conn -> mem -> Prop) : c_server h = true -> olist_real ol -> holds m (conn_blocks h ++ olist_blocks ol ++ R) ->
  (forall r m', kin h (snd r) -> holds m' (conn_blocks (snd r) ++ olist_blocks ol ++ R) -> P r m') -> runs (reply_mot h ol) m P.
Proof.
  intros Sv Ro H K. unfold reply_mot. step. apply (validate_ok h true m _ _ Sv H). step. apply (drop_error_ok h m _ _ H). intros m1 H1. clear H.
  assert (K' : forall r m', kin (with_error h None) (snd r) -> holds m' (conn_blocks (snd r) ++ olist_blocks ol ++ R) -> P r m').
  { intros r m' Kr Hr. apply K; [|exact Hr]. exact (kin_trans _ _ _ (kin_error h None) Kr). }
  destruct (c_dead _); [apply (refuse_ok _ _ _ _ H1 K')|]. steps.
  destruct (_ && _); [apply (refuse_ok _ _ _ _ H1 K')|]. destruct (negb _) in |- *; [apply (refuse_ok _ _ _ _ H1 K')|]. steps.
  apply (send_states_ok _ (ol_objects ol) Ro _ (ol_block ol :: ol_regions ol :: ol_properties ol :: R)); [apply (holds_as _ _ _ H1); unfold olist_blocks; perm|auto|].
  intros m2 H2. step. apply K'; [apply kin_refl|]. apply (holds_as _ _ _ H2). unfold olist_blocks. cbn [snd]. perm.
Qed.
Lemma reply_sot_ok h g p m R (P : Z * conn -> mem -> Prop) : c_server h = true -> holds m (conn_blocks h ++ g_block g :: p :: R) ->
  (forall r m', kin h (snd r) -> holds m' (conn_blocks (snd r) ++ g_block g :: p :: R) -> P r m') -> runs (reply_sot h g (Some p)) m P.
Proof.
  intros Sv H K. unfold reply_sot. step. apply (validate_ok h true m _ _ Sv H). step. apply (drop_error_ok h m _ _ H). intros m1 H1. clear H.
  assert (K' : forall r m', kin (with_error h None) (snd r) -> holds m' (conn_blocks (snd r) ++ g_block g :: p :: R) -> P r m').
  { intros r m' Kr Hr. apply K; [|exact Hr]. exact (kin_trans _ _ _ (kin_error h None) Kr). }
  destruct (c_dead _); [apply (refuse_ok _ _ _ _ H1 K')|]. destruct (c_v4 _); [apply (refuse_ok _ _ _ _ H1 K')|]. steps.
  apply (write_ok _ _ (b0 :: b :: g_block g :: p :: R)); [apply (holds_as _ _ _ H1); perm|]. steps. apply K'; [apply kin_refl|exact H1].
Qed.

(** ---- Programs ---- *)

Lemma make_images_ok given : forall m R (P : list (option img) -> mem -> Prop), holds m R -> (forall l m', holds m' (images_blocks l ++ R) -> P l m') ->
  runs (make_images given) m P.
Proof.
  induction given as [|[] given IH]; intros m R P H K; cbn [make_images].
  - step. apply K. exact H.
  - step. step. apply (new_image_ok m _ _ H). intros i m1 H1. steps. apply (IH _ _ _ H1). intros l m2 H2. step. apply K.
    unfold images_blocks in *. cbn [flat_map oimg_blocks]. apply (holds_as _ _ _ H2). perm.
  - steps. apply (IH _ _ _ H). intros l m2 H2. step. apply K. exact H2.
Qed.
Lemma make_ilist_ok given m R (P : ilist -> mem -> Prop) : holds m R -> (forall il m', holds m' (ilist_blocks il ++ R) -> P il m') -> runs (make_ilist given) m P.
Proof.
  intros H K. unfold make_ilist, new_ilist. steps. apply (make_images_ok _ _ _ _ H). intros l m2 H2. step. apply K.
  unfold ilist_blocks. cbn [il_block il_images]. apply (holds_as _ _ _ H2). perm.
Qed.
Lemma put_objects_ok ks : forall i all ol m R (P : olist -> mem -> Prop), (List.length ks + i = List.length (ol_objects ol))%nat -> List.length all = (List.length ks + i)%nat ->
  (exists pre, all = pre ++ ks /\ List.length pre = i) -> (forall j, (j < i)%nat -> nth_error (kinds (ol_objects ol)) j = nth_error (map Some all) j) ->
  olist_real ol -> holds m (olist_blocks ol ++ R) ->
  (forall ol' m', (forall j, nth_error (kinds (ol_objects ol')) j = nth_error (map Some all) j) -> olist_real ol' -> holds m' (olist_blocks ol' ++ R) -> P ol' m') ->
  runs (put_objects i ks ol) m P.
Proof.
  induction ks as [|k ks IH]; intros i all ol m R P L La Es Hj Ro H K; cbn [put_objects].
  - step. apply K; auto. intros j. destruct (Nat.lt_ge_cases j i) as [Hl|Hl]; [now apply Hj|]. cbn [List.length] in L, La.
    rewrite !(proj2 (nth_error_None _ _)); [reflexivity| |]; unfold kinds; rewrite map_length; lia.
  - unfold make_region. cbn [List.length] in L, La. steps. cbn [release_region g_block].
    apply (set_olist_ok ol i (Some (mkRgn k b)) _ R _ Ro ltac:(discriminate)); [apply (holds_as _ _ _ H); cbn [rgn_block g_block]; perm|].
    intros ol' m2 L' [S1 S2] Ro' H2. cbn [rgn_block g_block] in H2. clear H. steps.
    apply (IH _ all _ _ R); [lia|lia| | |exact Ro'|apply (holds_as _ _ _ H2); perm|exact K].
    + destruct Es as (pre & -> & Lp). exists (pre ++ [k]). split; [now rewrite <- app_assoc|]. rewrite app_length. cbn [List.length]. lia.
    + intros j Hlt. destruct (Nat.eq_dec j i) as [->|Nj].
      * rewrite S2 by lia. cbn [option_map g_kind]. rewrite nth_error_map.
        replace (nth_error all i) with (Some k); [reflexivity|].
        destruct Es as (pre & -> & Lp). rewrite nth_error_app2 by lia. now rewrite Lp, Nat.sub_diag.
      * rewrite S1 by exact Nj. apply Hj. lia.
Qed.
Lemma make_olist_ok ks m R (P : olist -> mem -> Prop) : holds m R ->
  (forall ol m', (forall o, In o (ol_objects ol) -> exists r, fst o = Some r /\ In (g_kind r) ks) -> olist_real ol -> holds m' (olist_blocks ol ++ R) -> P ol m') -> runs (make_olist ks) m P.
Proof.
  intros H K. unfold make_olist. step. apply (new_olist_ok _ m _ _ H). intros ol m1 L Ro H1.
  apply (put_objects_ok ks 0 ks ol m1 R); [lia|lia|now exists []|intros j Hj; lia|exact Ro|exact H1|].
  intros ol' m2 Hk Ro' H2. apply K; [|exact Ro'|exact H2].
  intros o Ho. apply In_nth_error in Ho. destruct Ho as [j Ej]. specialize (Hk j). unfold kinds in Hk. rewrite !nth_error_map, Ej in Hk. cbn [option_map] in Hk.
  destruct (nth_error ks j) as [k|] eqn:Ek; [|discriminate]. cbn [option_map] in Hk. destruct (fst o) as [r|]; [|discriminate].
  exists r. split; [reflexivity|]. cbn [option_map] in Hk. injection Hk as ->. now apply nth_error_In in Ek.
Qed.
Definition call_post (server : bool) (regions : list rkind) (R : list nat) (good : list amsg -> Prop) (P : conn * list amsg -> mem -> Prop) : Prop :=
  forall h l m, c_server h = server -> c_regions h = regions -> good l -> holds m (conn_blocks h ++ R) -> P (h, l) m.
Lemma client_call_ok op h l m R P : for_client op = true -> op_ok (c_regions h) op -> c_server h = false -> Forall msg_text l -> holds m (conn_blocks h ++ R) ->
  call_post false (c_regions h) R (Forall msg_text) P -> runs (call op h l) m P.
Proof.
  intros Fc Ok Sv Fl H K. assert (K' : forall h' l' m', kin h h' -> Forall msg_text l' -> holds m' (conn_blocks h' ++ R) -> P (h', l') m').
  { intros h' l' m' [A B]. apply K; congruence. }
  clear K. rename K' into K.
  assert (Sn : forall ks ol, Forall (sent_kind (c_regions h)) ks -> (forall o, In o (ol_objects ol) -> exists r, fst o = Some r /\ In (g_kind r) ks) ->
    Forall (sendable h) (ol_objects ol)).
  { intros ks ol Fk Hk. apply Forall_forall. intros o Ho. destruct (Hk o Ho) as (r & Er & Ir). exists r. split; [exact Er|].
    exact (proj1 (Forall_forall _ _) Fk _ Ir). }
  destruct op; cbn [for_client] in Fc; try discriminate; cbn [call op_ok] in *.
  - step. apply (make_ilist_ok _ _ _ _ H). intros il m1 H1. step. apply (make_olist_ok _ _ _ _ H1). intros ol m2 Hk Ro H2. step.
    apply (initialize_ok h il ol m2 (images_blocks (il_images il) ++ R) _ Sv (Sn _ _ Ok Hk) (shown_own _ _)); [apply (holds_as _ _ _ H2); unfold ilist_blocks; perm|]. intros r m3 Kr H3. step.
    unfold give_ilist. apply (drop_ilist_ok il m3 (conn_blocks (snd r) ++ olist_blocks ol ++ R)); [apply (holds_as _ _ _ H3); unfold ilist_blocks; perm|]. intros m4 H4. step.
    apply (release_olist_ok ol m4 (conn_blocks (snd r) ++ R) _ Ro); [apply (holds_as _ _ _ H4); perm|]. intros m5 H5. step. apply K; assumption.
  - step. apply (make_ilist_ok _ _ _ _ H). intros il m1 H1. step. apply (make_olist_ok _ _ _ _ H1). intros ol m2 Hk Ro H2. step.
    apply (frame_ok h il (Some ol) m2 (images_blocks (il_images il) ++ R) _ Sv (Sn _ _ Ok Hk) (shown_own _ _)); [apply (holds_as _ _ _ H2); cbn [opt]; unfold ilist_blocks; perm|]. intros r m3 Kr H3. step. cbn [opt] in H3.
    unfold give_ilist. apply (drop_ilist_ok il m3 (conn_blocks (snd r) ++ olist_blocks ol ++ R)); [apply (holds_as _ _ _ H3); unfold ilist_blocks; perm|]. intros m4 H4. step.
    apply (release_olist_ok ol m4 (conn_blocks (snd r) ++ R) _ Ro); [apply (holds_as _ _ _ H4); perm|]. intros m5 H5. step. apply K; assumption.
  - step. apply (await_ok h l m R _ Sv Fl H). intros c h' o l' m1 Kh Fl' Ro H1. step. destruct o as [ol|]; cbn [give opt] in *.
    + apply (release_olist_ok ol m1 (conn_blocks h' ++ R) _ Ro); [apply (holds_as _ _ _ H1); perm|]. intros m2 H2. step. apply K; assumption.
    + steps. apply K; assumption.
  - step. apply (end_session_ok h m R _ H). intros h' m1 Kh H1. step. apply K; assumption.
Qed.
Lemma server_call_ok op h l m R P : for_server op = true -> c_server h = true -> fair l -> holds m (conn_blocks h ++ R) ->
  call_post true (c_regions h) R fair P -> runs (call op h l) m P.
Proof.
  intros Fc Sv Fl H K. assert (K' : forall h' l' m', kin h h' -> fair l' -> holds m' (conn_blocks h' ++ R) -> P (h', l') m').
  { intros h' l' m' [A B]. apply K; congruence. }
  clear K. rename K' into K.
  destruct op; cbn [for_server] in Fc; try discriminate; cbn [call] in *.
  - destruct (c_dead h) eqn:Ed; [step; apply K; auto using kin_refl|]. step. apply (wait_mot_ok h l m R _ Sv Ed Fl H).
    intros c h' il o l' m1 Kh Fl' Ro _ _ H1. step.
    assert (Next : forall m2, holds m2 (opt olist_blocks o ++ conn_blocks h' ++ R) -> runs (give release_olist o ;;; mret (h', l')) m2 P).
    { intros m2 H2. step. destruct o as [ol|]; cbn [give opt] in *; [apply (release_olist_ok ol m2 _ _ Ro H2); intros m3 H3|]; steps; apply K; assumption. }
    destruct il as [il|]; cbn [give opt] in *.
    + unfold give_ilist. apply (drop_ilist_ok il m1 (opt olist_blocks o ++ conn_blocks h' ++ R)); [apply (holds_as _ _ _ H1); perm|]. intros m2 H2. apply Next. exact H2.
    + step. apply Next. apply (holds_as _ _ _ H1). perm.
  - step. apply (wait_sot_ok h l m R _ Sv Fl H).
    intros c h' il o l' m1 Kh Fl' H1. step.
    assert (Next : forall m2, holds m2 (rgn_block o ++ conn_blocks h' ++ R) -> runs (give (fun r => release_region (Some r)) o ;;; mret (h', l')) m2 P).
    { intros m2 H2. step. destruct o as [q|]; cbn [give rgn_block app release_region] in *; steps; apply K; assumption. }
    destruct il as [il|]; cbn [give opt] in *.
    + unfold give_ilist. apply (drop_ilist_ok il m1 (rgn_block o ++ conn_blocks h' ++ R)); [apply (holds_as _ _ _ H1); perm|]. intros m2 H2. apply Next. exact H2.
    + step. apply Next. apply (holds_as _ _ _ H1). perm.
  - step. apply (make_olist_ok _ _ _ _ H). intros ol m1 _ Ro H1. step. apply (reply_mot_ok h ol m1 R _ Sv Ro); [apply (holds_as _ _ _ H1); perm|].
    intros r m2 Kr H2. step. apply (release_olist_ok ol m2 (conn_blocks (snd r) ++ R) _ Ro); [apply (holds_as _ _ _ H2); perm|]. intros m3 H3. step. apply K; assumption.
  - unfold make_region. steps. apply (reply_sot_ok h (mkRgn region b) b0 _ R _ Sv); [apply (holds_as _ _ _ H); cbn [g_block]; perm|].
    intros r m3 Kr H3. cbn [release_region g_block] in *. clear H. steps. apply K; assumption.
  - step. apply (end_session_ok h m R _ H). intros h' m1 Kh H1. step. apply K; assumption.
Qed.
Lemma client_calls_ok ops : Forall (fun op => for_client op = true) ops -> forall h l m R (P : conn -> mem -> Prop), Forall (op_ok (c_regions h)) ops -> c_server h = false ->
  Forall msg_text l -> holds m (conn_blocks h ++ R) -> (forall h' m', holds m' (conn_blocks h' ++ R) -> P h' m') -> runs (calls ops h l) m P.
Proof.
  induction 1 as [|op ops Fc _ IH]; intros h l m R P Fo Sv Fl H K; cbn [calls]; [step; auto|]. inversion Fo as [|? ? Oo Fo']; subst. step.
  apply (client_call_ok op h l m R _ Fc Oo Sv Fl H). intros h' l' m' Sv' Er Fl' H'. cbn [fst snd].
  apply (IH h' l' m' R); [now rewrite Er|exact Sv'|exact Fl'|exact H'|exact K].
Qed.
Lemma server_calls_ok ops : Forall (fun op => for_server op = true) ops -> forall h l m R (P : conn -> mem -> Prop), c_server h = true ->
  fair l -> holds m (conn_blocks h ++ R) -> (forall h' m', holds m' (conn_blocks h' ++ R) -> P h' m') -> runs (calls ops h l) m P.
Proof.
  induction 1 as [|op ops Fc _ IH]; intros h l m R P Sv Fl H K; cbn [calls]; [step; auto|]. step.
  apply (server_call_ok op h l m R _ Fc Sv Fl H). intros h' l' m' Sv' Er Fl' H'. cbn [fst snd].
  apply (IH h' l' m' R); [exact Sv'|exact Fl'|exact H'|exact K].
Qed.
Lemma runs_back {A} (f : mm A) m (P : A -> Prop) : mem_ok m -> runs f m (fun a m' => P a /\ holds m' (m_live m)) -> exists a m', f m = Ok (a, m') /\ P a /\ same_blocks m m'.
Proof.
  intros Mo (a & m' & E & Pa & Hh). exists a, m'. split; [exact E|]. split; [exact Pa|]. now apply holds_perm.
Qed.
Lemma client_memory v4 multi channels regions v2 chans strings ops l m : mem_ok m -> Forall (fun op => for_client op = true) ops -> Forall (op_ok regions) ops ->
  Forall msg_text l -> (v2 = true -> chans = true) ->
  exists m', client_program v4 multi channels regions (Hello v2 true true chans strings) ops l m = Ok (tt, m') /\ same_blocks m m'.
Proof.
  intros Mo Fc Fo Fl Hv. destruct (runs_back (client_program v4 multi channels regions (Hello v2 true true chans strings) ops l) m (fun _ => True) Mo) as ([] & m' & E & _ & B); [|now exists m'].
  pose proof (mem_holds m Mo) as H. unfold client_program, setup_client, read_text. steps.
  assert (Rd : forall m (P : unit -> mem -> Prop) L, holds m L -> (forall m', holds m' L -> P tt m') -> runs (if v2 then if chans then x <-- new ;; free x else mfail UB else mret tt) m P).
  { clear H. intros m' P L H K. destruct v2; [rewrite (Hv eq_refl)|]; steps; auto. }
  eapply Rd; [exact H|]. clear H Rd. intros mm1 H. step. apply (new_strings_ok _ _ _ _ H). intros s mm2 H2. step.
  apply (new_mdata_ok _ _ _ _ H2). intros d mm3 H3. step.
  match type of H2 with holds _ (_ ++ ?L) => apply (free_opts_ok s mm3 (mdata_blocks d ++ L)) end; [apply (holds_as _ _ _ H3); perm|].
  intros mm4 H4. clear H H2 H3. steps. eapply client_calls_ok; [exact Fc|exact Fo|reflexivity|exact Fl| |].
  - apply (holds_as _ _ _ H4). unfold conn_blocks. cbn [c_block c_stream c_error c_meta opt_block]. instantiate (1 := m_live m). perm.
  - intros h' m' H'. apply (cleanup_ok h' m' _ _ H'). auto.
Qed.
Lemma server_memory v4 multi channels regions strings ops l m : mem_ok m -> Forall (fun op => for_server op = true) ops ->
  Forall msg_text l -> Forall no_reset l ->
  exists m', server_program v4 multi channels regions strings ops l m = Ok (tt, m') /\ same_blocks m m'.
Proof.
  intros Mo Fc Fl Fr. destruct (runs_back (server_program v4 multi channels regions strings ops l) m (fun _ => True) Mo) as ([] & m' & E & _ & B); [|now exists m'].
  pose proof (mem_holds m Mo) as H. unfold server_program, setup_server. step. apply (new_mdata_ok _ _ _ _ H). intros d m1 H1. clear H. rename H1 into H. steps.
  apply (new_mdata_ok _ _ _ _ H). intros d2 m2 H2. clear H. steps. apply (release_mdata_ok d _ (b0 :: b :: mdata_blocks d2 ++ m_live m)); [apply (holds_as _ _ _ H2); perm|].
  intros m3 H3. clear H2. steps. eapply server_calls_ok; [exact Fc|reflexivity|split; [exact Fl|exact Fr]| |].
  - apply (holds_as _ _ _ H3). unfold conn_blocks. cbn [c_block c_stream c_error c_meta opt_block]. instantiate (1 := m_live m). perm.
  - intros h' m' H'. apply (cleanup_ok h' m' _ _ H'). auto.
Qed.

(** ---- What is left over ---- *)

Lemma holds_left m m' l : mem_ok m -> holds m' (l ++ m_live m) -> Permutation (m_live m') (l ++ m_live m).
Proof. intros _ (A & _). apply (Permutation_count_occ Nat.eq_dec). intros x. exact (A x). Qed.
Lemma resets_ok n : forall h result objs cap ra pa m R (P : Z * conn * option ilist * option olist * list amsg -> mem -> Prop), Forall real objs ->
  holds m (ra :: pa :: conn_blocks h ++ objs_blocks objs ++ R) ->
  (forall h' l m', List.length l = (2 * n)%nat -> holds m' (conn_blocks h' ++ l ++ R) -> P (TRAX_ERROR, h', None, None, []) m') ->
  runs (mot_loop (repeat reset_message n) h None result objs cap ra pa) m P.
Proof.
  induction n as [|n IH]; intros h result objs cap ra pa m R P Fo H K; cbn [repeat].
  - cbn [mot_loop]. steps. unfold mot_failure, mot_end. step. cbn [drop_images]. steps.
    apply (release_objects_ok objs Fo _ (b0 :: b :: ra :: pa :: conn_blocks h ++ R)); [apply (holds_as _ _ _ H); perm|]. intros mm2 H2. clear H.
    cbn [finish_objects]. steps. apply (K _ []); [reflexivity|exact H2].
  - cbn [mot_loop]. steps. change (g_code reset_message) with TRAX_INITIALIZE. change (g_args reset_message) with (@nil arg).
    change (TRAX_INITIALIZE =? TRAX_ERROR) with false. change (TRAX_INITIALIZE =? TRAX_QUIT) with false.
    change (TRAX_INITIALIZE =? TRAX_FRAME) with false. change (TRAX_INITIALIZE =? TRAX_INITIALIZE) with true. cbv iota.
    apply (IH _ _ _ _ _ _ _ (b0 :: b :: R)); [exact Fo|rewrite objects_blocks; apply (holds_as _ _ _ H); perm|].
    intros h' l m' L H'. apply (K h' (b0 :: b :: l)); [cbn [List.length]; lia|]. apply (holds_as _ _ _ H'). perm.
Qed.
Lemma reset_leak n m : mem_ok m -> exists m', server_program true true [true] [KRect] [] [SWaitMany] (repeat reset_message n) m = Ok (tt, m') /\ left_over (2 * n) m m'.
Proof.
  intros Mo. enough (Rn : runs (server_program true true [true] [KRect] [] [SWaitMany] (repeat reset_message n)) m (fun _ m' => exists l, List.length l = (2 * n)%nat /\ holds m' (l ++ m_live m))).
  { destruct Rn as ([] & m' & E & l & L & Hh). exists m'. split; [exact E|]. exists l. split; [exact L|]. now apply holds_left. }
  pose proof (mem_holds m Mo) as H. unfold server_program, setup_server. step. apply (new_mdata_ok _ _ _ _ H). intros d m1 H1. clear H. rename H1 into H. steps.
  apply (new_mdata_ok _ _ _ _ H). intros d2 m2 H2. clear H. steps. apply (release_mdata_ok d _ (b0 :: b :: mdata_blocks d2 ++ m_live m)); [apply (holds_as _ _ _ H2); perm|].
  intros m3 H3. clear H2. cbn [calls call]. step. step. cbn [c_dead]. step. unfold wait_mot.
  set (h := mkConn b0 true false true true [true] [KRect] 0 None b d2).
  assert (Hc : holds m3 (conn_blocks h ++ m_live m)) by (apply (holds_as _ _ _ H3); unfold conn_blocks, h; cbn [c_block c_stream c_error c_meta opt_block]; perm).
  assert (Sv : c_server h = true) by reflexivity. assert (Dd : c_dead h = false) by reflexivity. clear H3. clearbody h. step. step. step. step.
  match type of Hc with holds _ (?x :: ?y :: _) => set (c1 := x) in *; set (c2 := y) in *; clearbody c1 c2 end. step. apply (validate_ok h true _ (c1 :: c2 :: m_live m) _ Sv); [apply (holds_as _ _ _ Hc); perm|]. step.
  apply (drop_error_ok h _ (c1 :: c2 :: m_live m)); [apply (holds_as _ _ _ Hc); perm|]. intros mm4 H4. cbn [with_error c_dead]. rewrite Dd.
  apply (resets_ok n _ _ _ _ _ _ _ (m_live m)); [constructor|apply (holds_as _ _ _ H4); unfold objs_blocks; cbn [flat_map]; perm|].
  intros h' l m' L H'. cbn [give]. steps. cbn [fst snd]. steps. apply (cleanup_ok h' m' _ _ H'). intros m5 H5. exists l. auto.
Qed.
Lemma waits_ok n : forall h m R (P : conn -> mem -> Prop), c_server h = true -> c_dead h = true -> holds m (conn_blocks h ++ R) ->
  (forall h' l m', List.length l = (2 * n)%nat -> holds m' (conn_blocks h' ++ l ++ R) -> P h' m') -> runs (waits n h) m P.
Proof.
  induction n as [|n IH]; intros h m R P Sv Dd H K; cbn [waits].
  - step. apply (K h []); [reflexivity|exact H].
  - unfold wait_mot. steps. apply (validate_ok h true _ (b0 :: b :: R) _ Sv); [apply (holds_as _ _ _ H); perm|]. step.
    apply (drop_error_ok h _ (b0 :: b :: R)); [apply (holds_as _ _ _ H); perm|]. intros mm4 H4. cbn [with_error c_dead]. rewrite Dd. step.
    apply (put_error_ok _ _ _ _ H4). intros e mm5 H5. steps. cbn [give]. steps. cbn [give]. steps.
    apply (IH (with_error (with_error h None) e) _ _ _ Sv Dd H5). intros h' l m' L H'. apply (K h' (l ++ [b0; b])); [rewrite app_length; cbn [List.length]; lia|].
    apply (holds_as _ _ _ H'). perm.
Qed.
Lemma late_leak n m : mem_ok m -> exists m', late_server n m = Ok (tt, m') /\ left_over (2 * n) m m'.
Proof.
  intros Mo. enough (Rn : runs (late_server n) m (fun _ m' => exists l, List.length l = (2 * n)%nat /\ holds m' (l ++ m_live m))).
  { destruct Rn as ([] & m' & E & l & L & Hh). exists m'. split; [exact E|]. exists l. split; [exact L|]. now apply holds_left. }
  pose proof (mem_holds m Mo) as H. unfold late_server, setup_server. step. apply (new_mdata_ok _ _ _ _ H). intros d m1 H1. clear H. rename H1 into H. steps.
  apply (new_mdata_ok _ _ _ _ H). intros d2 m2 H2. clear H. steps. apply (release_mdata_ok d _ (b0 :: b :: mdata_blocks d2 ++ m_live m)); [apply (holds_as _ _ _ H2); perm|].
  intros m3 H3. clear H2. steps. unfold end_session, drop_error, with_error. cbn [c_block c_error free_opt c_server c_dead c_v4 c_multi c_channels c_regions c_objects c_stream c_meta].
  steps. unfold write. cbn [c_block c_stream c_dead]. steps.
  match goal with |- context [waits n ?h] => apply (waits_ok n h _ (m_live m)); [reflexivity|reflexivity| |] end.
  - apply (holds_as _ _ _ H3). unfold conn_blocks, killed. cbn [c_block c_stream c_error c_meta opt_block]. perm.
  - intros h' l m' L H'. apply (cleanup_ok h' m' _ _ H'). intros m5 H5. exists l. auto.
Qed.
Lemma empty_ok : mem_ok (mkMem 0 []).
Proof. split; [constructor|]. intros x []. Qed.
Lemma perm_length (m m' : mem) : same_blocks m m' -> List.length (m_live m') = List.length (m_live m).
Proof. apply Permutation_length. Qed.
Lemma greeting_leak : exists m', client_program true true [true] [KRect] NoHello [] [] (mkMem 0 []) = Ok (tt, m') /\ left_over 1 (mkMem 0 []) m'.
Proof. eexists. split; [vm_compute; reflexivity|]. eexists [_]. split; [reflexivity|]. cbn [m_live app]. apply Permutation_refl. Qed.
Lemma polygon_leak : exists m', client_program true true [true] [KMask] (Hello true true true true []) [CInit [true] [KPoly]] [] (mkMem 0 []) = Ok (tt, m') /\
  left_over 1 (mkMem 0 []) m'.
Proof. eexists. split; [vm_compute; reflexivity|]. eexists [_]. split; [reflexivity|]. cbn [m_live app]. apply Permutation_refl. Qed.
Lemma empty_text :
  client_program true true [true] [KRect] (Hello true true true true []) [CInit [true] [KRect]; CWait] [state_message PNull] (mkMem 0 []) = UB /\
  server_program true true [true; true] [KRect] [] [SWaitMany] [object_message PNull; image_message true] (mkMem 0 []) = UB /\
  client_program true true [true] [KRect] (Hello true false true true []) [] [] (mkMem 0 []) = UB /\
  client_program true true [true] [KRect] (Hello true true false true []) [] [] (mkMem 0 []) = UB /\
  client_program true true [true] [KRect] (Hello true true true false []) [] [] (mkMem 0 []) = UB.
Proof. split; [|split; [|split; [|split]]]; vm_compute; reflexivity. Qed.
Lemma some_ok : mem_ok (mkMem 3 [2; 0])%nat.
Proof. split; [repeat constructor; cbn; intuition discriminate|]. cbn. intros x [<-|[<-|[]]]; lia. Qed.
Lemma sample_client : mem_ok (mkMem 3 [2; 0])%nat /\ Forall (fun op => for_client op = true) sample_ops /\
  Forall (op_ok [KRect; KMask]) sample_ops /\ Forall msg_text sample_states.
Proof.
  split; [exact some_ok|]. split; [repeat (apply Forall_cons; [reflexivity|]); apply Forall_nil|]. split.
  - repeat (apply Forall_cons; [|]); try apply Forall_nil; cbn [op_ok]; try exact Logic.I; repeat (apply Forall_cons; [|]); try apply Forall_nil;
      (split; [discriminate|split; [exists KRect; split; [now left|discriminate]|left; cbn; auto]]).
  - repeat (apply Forall_cons; [unfold msg_text; cbn [g_args state_message]; repeat (apply Forall_cons; [discriminate|]); apply Forall_nil|]). apply Forall_nil.
Qed.
Lemma sample_server : mem_ok (mkMem 3 [2; 0])%nat /\ Forall (fun op => for_server op = true) sample_serving /\
  Forall msg_text sample_requests /\ Forall no_reset sample_requests.
Proof.
  split; [exact some_ok|]. split; [repeat (apply Forall_cons; [reflexivity|]); apply Forall_nil|]. split.
  - repeat (apply Forall_cons; [unfold msg_text; cbn [g_args object_message image_message]; repeat (apply Forall_cons; [discriminate|]); apply Forall_nil|]). apply Forall_nil.
  - repeat (apply Forall_cons; [|]); try apply Forall_nil; unfold no_reset; cbn [g_args object_message image_message]; intros [A B]; discriminate.
Qed.
