(** Proofs about the memory of Python programs *)
From Coq Require Import Lia Permutation.
From Verif Require Import CBase Message Handle Blocks BlocksSpec BlocksProofs PyLife PyLifeSpec.
Local Open Scope Z_scope.

Definition var_blocks (v : pvar) : list nat := match v with VImage i => img_blocks i | VRegion r => [g_block r] | VProps p => [p] end.
Definition vars_blocks (l : list (option pvar)) : list nat := flat_map (opt var_blocks) l.
Lemma vars_cons v l : vars_blocks (v :: l) = opt var_blocks v ++ vars_blocks l. Proof. reflexivity. Qed.
Lemma vars_app l l' : vars_blocks (l ++ l') = vars_blocks l ++ vars_blocks l'. Proof. apply flat_map_app. Qed.

Lemma split_off R x : (0 < cnt R x)%nat -> exists R', same R (x :: R').
Proof. intros H. destruct (take_spec x R H) as (r & _ & S). now exists r. Qed.
Lemma log_ok t m R (P : unit -> mem -> Prop) : holds m (opt_block t ++ R) -> P tt m -> runs (log t) m P.
Proof. intros H K. destruct t as [t|]; cbn [log opt_block app] in *; steps; exact K. Qed.
Lemma wrap_images_ok given m R (P : ilist -> mem -> Prop) : holds m R -> (forall b m', holds m' (b :: R) -> P (mkIlist b given) m') -> runs (wrap_images given) m P.
Proof. intros H K. unfold wrap_images, new_ilist. steps. cbn [il_block]. apply K. exact H. Qed.
Lemma fill_objects_ok rs : forall i all ol m R (P : olist -> mem -> Prop), (forall r, In r rs -> (0 < cnt R (g_block r))%nat) ->
  (List.length rs + i = List.length (ol_objects ol))%nat -> List.length all = (List.length rs + i)%nat ->
  (exists pre, all = pre ++ map g_kind rs /\ List.length pre = i) -> (forall j, (j < i)%nat -> nth_error (kinds (ol_objects ol)) j = nth_error (map Some all) j) ->
  olist_real ol -> holds m (olist_blocks ol ++ R) ->
  (forall ol' m', (forall j, nth_error (kinds (ol_objects ol')) j = nth_error (map Some all) j) -> olist_real ol' -> holds m' (olist_blocks ol' ++ R) -> P ol' m') ->
  runs (fill_objects i rs ol) m P.
Proof.
  induction rs as [|r rs IH]; intros i all ol m R P Hr L La Es Hj Ro H K; cbn [fill_objects].
  - step. apply K; auto. intros j. destruct (Nat.lt_ge_cases j i) as [Hl|Hl]; [now apply Hj|]. cbn [List.length] in L, La.
    rewrite !(proj2 (nth_error_None _ _)); [reflexivity| |]; unfold kinds; rewrite map_length; lia.
  - cbn [List.length] in L, La. steps. destruct (split_off R (g_block r) (Hr r (or_introl eq_refl))) as (R' & Sr).
    apply (set_olist_ok ol i (Some r) _ (b :: R') _ Ro ltac:(discriminate)).
    { apply (holds_as _ _ _ H). intros x. specialize (Sr x). cbn [rgn_block]. repeat rewrite ?cnt_cons, ?cnt_app, ?cnt_nil in *. lia. }
    intros ol' m2 L' [S1 S2] Ro' H2. cbn [rgn_block] in H2. clear H. steps.
    apply (IH _ all _ _ R); [intros q Hq; apply Hr; now right|lia|lia| | |exact Ro'| |exact K].
    + destruct Es as (pre & -> & Lp). exists (pre ++ [g_kind r]). split; [now rewrite <- app_assoc|]. rewrite app_length. cbn [List.length]. lia.
    + intros j Hlt. destruct (Nat.eq_dec j i) as [->|Nj].
      * rewrite S2 by lia. cbn [option_map]. rewrite nth_error_map.
        replace (nth_error all i) with (Some (g_kind r)); [reflexivity|].
        destruct Es as (pre & -> & Lp). rewrite nth_error_app2 by lia. now rewrite Lp, Nat.sub_diag.
      * rewrite S1 by exact Nj. apply Hj. lia.
    + apply (holds_as _ _ _ H2). intros x. specialize (Sr x). repeat rewrite ?cnt_cons, ?cnt_app, ?cnt_nil in *. lia.
Qed.
Lemma wrap_objects_ok rs m R (P : olist -> mem -> Prop) : holds m R -> (forall r, In r rs -> (0 < cnt R (g_block r))%nat) ->
  (forall ol m', (forall o, In o (ol_objects ol) -> exists r q, fst o = Some r /\ In q rs /\ g_kind r = g_kind q) -> olist_real ol -> holds m' (olist_blocks ol ++ R) -> P ol m') ->
  runs (wrap_objects rs) m P.
Proof.
  intros H Hr K. unfold wrap_objects. step. apply (new_olist_ok _ m _ _ H). intros ol m1 L Ro H1.
  apply (fill_objects_ok rs 0 (map g_kind rs) ol m1 R); [exact Hr|lia|rewrite map_length; lia|now exists []|intros j Hj; lia|exact Ro|exact H1|].
  intros ol' m2 Hk Ro' H2. apply K; [|exact Ro'|exact H2].
  intros o Ho. apply In_nth_error in Ho. destruct Ho as [j Ej]. specialize (Hk j). unfold kinds in Hk. rewrite !nth_error_map, Ej in Hk. cbn [option_map] in Hk.
  destruct (nth_error rs j) as [q|] eqn:Ek; [|discriminate]. cbn [option_map] in Hk. destruct (fst o) as [r|]; [|discriminate].
  exists r, q. split; [reflexivity|]. split; [now apply nth_error_In in Ek|]. cbn [option_map] in Hk. now injection Hk.
Qed.
Lemma wrap_regions_ok l : Forall real l -> forall m R (P : list rgn -> mem -> Prop), holds m (objs_blocks l ++ R) ->
  (forall k m', holds m' (map g_block k ++ objs_blocks l ++ R) -> P k m') -> runs (wrap_regions l) m P.
Proof.
  induction 1 as [|[r p] l Rr _ IH]; intros m R P H K; cbn [wrap_regions]; [step; apply K; exact H|].
  unfold real in Rr. cbn [fst] in Rr. rewrite objs_cons in *. cbn [fst snd] in *. steps.
  apply (clone_ok r _ (p :: objs_blocks l ++ R) _ Rr); [apply (holds_as _ _ _ H); perm|]. intros c m1 Nc _ H1. step.
  apply (IH _ (rgn_block c ++ rgn_block r ++ p :: R)); [apply (holds_as _ _ _ H1); perm|]. intros k m2 H2. step.
  destruct c as [c|]; [|congruence]. apply K. apply (holds_as _ _ _ H2). cbn [map rgn_block]. perm.
Qed.
Lemma wrap_object_list_ok ol m R (P : list rgn -> mem -> Prop) : olist_real ol -> holds m (olist_blocks ol ++ R) ->
  (forall k m', holds m' (map g_block k ++ olist_blocks ol ++ R) -> P k m') -> runs (wrap_object_list ol) m P.
Proof.
  intros Ro H K. unfold wrap_object_list. steps.
  apply (wrap_regions_ok _ Ro _ (ol_block ol :: ol_regions ol :: ol_properties ol :: R)); [apply (holds_as _ _ _ H); unfold olist_blocks; perm|].
  intros k m1 H1. apply K. apply (holds_as _ _ _ H1). unfold olist_blocks. perm.
Qed.
Lemma release_ilist_ok b l m R (P : unit -> mem -> Prop) : holds m (b :: R) -> (forall m', holds m' R -> P tt m') -> runs (release_ilist (mkIlist b l)) m P.
Proof. intros H K. unfold release_ilist. cbn [il_block]. steps. auto. Qed.
Lemma given_blocks l : same (images_blocks l) (flat_map img_blocks (given_images l)).
Proof.
  induction l as [|[i|] l IH]; [intros x; reflexivity| |exact IH]. intros x. specialize (IH x). unfold images_blocks in *. cbn [flat_map oimg_blocks given_images].
  rewrite !cnt_app. lia.
Qed.
Lemma drop_handle_ok t h m R (P : unit -> mem -> Prop) : holds m (conn_blocks h ++ R) -> (c_dead h = true \/ exists R', same R (opt_block t ++ R')) ->
  (forall m', holds m' R -> P tt m') -> runs (drop_handle t h) m P.
Proof.
  intros H D K. unfold drop_handle. step. destruct (c_dead h).
  - step. now apply (cleanup_ok h m R).
  - destruct D as [D|(R' & S)]; [discriminate|]. apply (log_ok t m (conn_blocks h ++ R')); [|now apply (cleanup_ok h m R)].
    apply (holds_as _ _ _ H). intros x. specialize (S x). rewrite !cnt_app in *. lia.
Qed.

Lemma sent_b_ok regions k : sent_b regions k = true -> sent_kind regions k.
Proof.
  unfold sent_b. intros H. apply andb_true_iff in H as [H H3]. apply andb_true_iff in H as [H1 H2].
  assert (E : forall a b, has_kind a [b] = true <-> a = b). { intros a b. rewrite has_kind_in. cbn. intuition. }
  split; [|split].
  - intros X. apply E in X. rewrite X in H1. discriminate.
  - apply existsb_exists in H2. destruct H2 as (r & Ir & Hr). exists r. split; [exact Ir|]. intros X. apply E in X. rewrite X in Hr. discriminate.
  - apply orb_true_iff in H3 as [H3|H3]; [apply orb_true_iff in H3 as [H3|H3]|].
    + left. now apply has_kind_in.
    + right; left. intros X. apply has_kind_in in X. rewrite X in H3. discriminate.
    + right; right. now apply E.
Qed.
Lemma client_send_ok t first h given rs l m R (P : conn * list rgn * list amsg -> mem -> Prop) : c_server h = false -> Forall msg_text l ->
  shown given R -> (forall r, In r rs -> (0 < cnt R (g_block r))%nat) -> (forall r, In r rs -> sent_kind (c_regions h) (g_kind r)) ->
  holds m (conn_blocks h ++ opt_block t ++ R) ->
  (forall h' k l' m', kin h h' -> Forall msg_text l' -> holds m' (conn_blocks h' ++ opt_block t ++ map g_block k ++ R) -> P (h', k, l') m') ->
  runs (client_send t first false h given rs l) m P.
Proof.
  intros Sv Fl Sh Hr Sk H K. unfold client_send. step. apply (wrap_images_ok given m _ _ H). intros b m1 H1. step.
  apply (wrap_objects_ok rs m1 _ _ H1). { intros r Ir. specialize (Hr r Ir). repeat rewrite ?cnt_cons, ?cnt_app. lia. }
  intros ol m2 Hk Ro H2. clear H H1. assert (So : Forall (sendable h) (ol_objects ol)).
  { apply Forall_forall. intros o Ho. destruct (Hk o Ho) as (r & q & Er & Iq & Ek). exists r. split; [exact Er|]. rewrite Ek. auto. }
  step. rename H2 into H.
  match goal with |- runs new ?mm _ => apply (runs_new mm _ _ H) end. clear H. intros tp m3 H. step.
  apply (log_ok t _ (tp :: olist_blocks ol ++ b :: conn_blocks h ++ R)); [apply (holds_as _ _ _ H); perm|]. step.
  assert (Rn : runs (if first then initialize h (mkIlist b given) ol else frame h (mkIlist b given) (Some ol)) m3
    (fun r m' => kin h (snd r) /\ holds m' (conn_blocks (snd r) ++ b :: olist_blocks ol ++ tp :: opt_block t ++ R))).
  { assert (Sh' : shown (il_images (mkIlist b given)) (tp :: opt_block t ++ R)).
    { intros i Hi. destruct (Sh i Hi). repeat rewrite ?cnt_cons, ?cnt_app. lia. }
    destruct first.
    - apply (initialize_ok h _ ol m3 (tp :: opt_block t ++ R) _ Sv So Sh'); [apply (holds_as _ _ _ H); cbn [il_block]; perm|]. auto.
    - apply (frame_ok h _ (Some ol) m3 (tp :: opt_block t ++ R) _ Sv So Sh'); [apply (holds_as _ _ _ H); cbn [il_block opt]; perm|]. auto. }
  apply (runs_weaken _ _ _ _ Rn). clear Rn H. intros r m4 [Kr H]. destruct (fst r =? TRAX_ERROR).
  - step. apply (release_ilist_ok b given m4 (conn_blocks (snd r) ++ olist_blocks ol ++ tp :: opt_block t ++ R)); [apply (holds_as _ _ _ H); perm|]. clear H. intros m5 H. step.
    apply (release_olist_ok ol m5 (conn_blocks (snd r) ++ tp :: opt_block t ++ R) _ Ro); [apply (holds_as _ _ _ H); perm|]. clear H. intros m6 H. steps.
    apply K; [exact Kr|exact Fl|exact H].
  - step. apply (release_olist_ok ol m4 (b :: conn_blocks (snd r) ++ tp :: opt_block t ++ R) _ Ro); [apply (holds_as _ _ _ H); perm|]. clear H. intros m5 H. step.
    match goal with |- runs new ?mm _ => apply (runs_new mm _ _ H) end. clear H. intros p m6 H. step.
    apply (log_ok t _ (p :: b :: conn_blocks (snd r) ++ tp :: R)); [apply (holds_as _ _ _ H); perm|]. step.
    apply (await_ok (snd r) l m6 (p :: b :: tp :: opt_block t ++ R)); [destruct Kr; congruence|exact Fl|apply (holds_as _ _ _ H); perm|]. clear H.
    intros c h' o l' m7 Kh Fl' Ro' H. step.
    assert (Done : forall k m8, holds m8 (conn_blocks h' ++ opt olist_blocks o ++ p :: b :: tp :: opt_block t ++ map g_block k ++ R) ->
      runs (release_ilist (mkIlist b given) ;;; free tp ;;; free p ;;; (match o with Some ol => release_olist ol | None => mret tt end) ;;; mret (h', k, l')) m8 P).
    { clear H. intros k m8 H. step. apply (release_ilist_ok b given m8 (conn_blocks h' ++ opt olist_blocks o ++ p :: tp :: opt_block t ++ map g_block k ++ R)); [apply (holds_as _ _ _ H); perm|].
      clear H. intros m9 H. steps. destruct o as [q|]; cbn [opt app] in H.
      - apply (release_olist_ok q _ (conn_blocks h' ++ opt_block t ++ map g_block k ++ R) _ Ro'); [apply (holds_as _ _ _ H); perm|]. clear H. intros m10 H. step.
        apply K; [exact (kin_trans _ _ _ Kr Kh)|exact Fl'|exact H].
      - steps. apply K; [exact (kin_trans _ _ _ Kr Kh)|exact Fl'|exact H]. }
    destruct (c =? TRAX_ERROR) eqn:Ee; [|destruct (c =? TRAX_QUIT) eqn:Eq].
    + step. apply Done. exact H.
    + unfold properties_get. cbn [new_if]. repeat (match goal with |- runs (mb (release_ilist _) _) _ _ => fail 1 | _ => step end; cbv beta). apply Done. exact H.
    + destruct o as [q|]; [|destruct Ro' as [->| ->]; [rewrite Z.eqb_refl in Ee|rewrite Z.eqb_refl in Eq]; discriminate].
      cbn [opt] in *. apply (wrap_object_list_ok q m7 (conn_blocks h' ++ p :: b :: tp :: opt_block t ++ R) _ Ro'); [apply (holds_as _ _ _ H); perm|].
      clear H. intros k m8 H. apply Done. apply (holds_as _ _ _ H). perm.
Qed.
Lemma server_wait_ok t h l m R (P : conn * (list img * list rgn * list nat) * list amsg -> mem -> Prop) : c_server h = true -> c_dead h = false -> fair l -> settled false l ->
  holds m (conn_blocks h ++ opt_block t ++ R) ->
  (forall h' i k p l' m', kin h h' -> fair l' -> settled false l' ->
     holds m' (conn_blocks h' ++ opt_block t ++ flat_map img_blocks i ++ map g_block k ++ p ++ R) -> P (h', (i, k, p), l') m') ->
  runs (server_wait t h l) m P.
Proof.
  intros Sv Dd Fl Se H K. unfold server_wait. step.
  match goal with |- runs new ?mm _ => apply (runs_new mm _ _ H) end. clear H. intros p m1 H. step.
  apply (log_ok t _ (p :: conn_blocks h ++ R)); [apply (holds_as _ _ _ H); perm|]. step.
  apply (wait_mot_ok h l m1 (p :: opt_block t ++ R) _ Sv Dd Fl); [apply (holds_as _ _ _ H); perm|]. clear H.
  intros c h' il o l' m2 Kh Fl' Lo (R1 & R2 & R3 & R4) S' H. specialize (S' Se). destruct S' as [Se' Q].
  destruct (Z.eqb_spec c TRAX_QUIT) as [E|E].
  - step. rewrite (Q E), (R3 E) in H. apply K; [exact Kh|exact Fl'|exact Se'|]. apply (holds_as _ _ _ H). cbn [opt flat_map map]. perm.
  - destruct (Z.eqb_spec c TRAX_INITIALIZE) as [E2|E2]; [|destruct (Z.eqb_spec c TRAX_FRAME) as [E3|E3]].
    + destruct (R1 E2) as [Ni No]. destruct il as [[b il]|]; [|congruence]. destruct o as [ol|]; [|congruence]. cbn [opt lreal] in *.
      unfold wrap_image_list, ilist_blocks in *. cbn [il_block il_images] in *. steps.
      apply (wrap_object_list_ok ol m2 (conn_blocks h' ++ (b :: images_blocks il) ++ p :: opt_block t ++ R) _ Lo); [apply (holds_as _ _ _ H); perm|].
      clear H. intros k m3 H. step. apply (release_ilist_ok b il m3 (map g_block k ++ olist_blocks ol ++ conn_blocks h' ++ images_blocks il ++ p :: opt_block t ++ R)); [apply (holds_as _ _ _ H); perm|].
      clear H. intros m4 H. step. apply (release_olist_ok ol m4 (map g_block k ++ conn_blocks h' ++ images_blocks il ++ p :: opt_block t ++ R) _ Lo); [apply (holds_as _ _ _ H); perm|].
      clear H. intros m5 H. step. apply K; [exact Kh|exact Fl'|exact Se'|]. apply (holds_as _ _ _ H). pose proof (given_blocks il) as G. intros x. specialize (G x).
      repeat rewrite ?cnt_cons, ?cnt_app, ?cnt_nil. lia.
    + pose proof (R2 E3) as Ni. destruct il as [[b il]|]; [|congruence]. cbn [opt] in *.
      unfold wrap_image_list, ilist_blocks in *. cbn [il_block il_images] in *. steps.
      match goal with |- runs (release_ilist _) ?mm _ => apply (release_ilist_ok b il mm (conn_blocks h' ++ images_blocks il ++ opt olist_blocks o ++ p :: opt_block t ++ R)); [apply (holds_as _ _ _ H); perm|] end.
      clear H. intros m4 H. step.
      assert (F : forall k m5, holds m5 (map g_block k ++ conn_blocks h' ++ images_blocks il ++ p :: opt_block t ++ R) -> runs (mret (h', (given_images il, k, [p]), l')) m5 P).
      { clear H. intros k m5 H. step. apply K; [exact Kh|exact Fl'|exact Se'|]. apply (holds_as _ _ _ H). pose proof (given_blocks il) as G. intros x. specialize (G x).
        repeat rewrite ?cnt_cons, ?cnt_app, ?cnt_nil. lia. }
      destruct o as [ol|]; cbn [opt lreal app] in *.
      * step. apply (wrap_object_list_ok ol m4 (conn_blocks h' ++ images_blocks il ++ p :: opt_block t ++ R) _ Lo); [apply (holds_as _ _ _ H); perm|].
        clear H. intros k m5 H. step. apply (release_olist_ok ol m5 (map g_block k ++ conn_blocks h' ++ images_blocks il ++ p :: opt_block t ++ R) _ Lo); [apply (holds_as _ _ _ H); perm|].
        clear H. intros m6 H. step. apply F. exact H.
      * step. apply F. exact H.
    + destruct (R4 E2 E3 E) as [-> ->]. cbn [opt app] in H. steps. apply K; [exact Kh|exact Fl'|exact Se'|]. apply (holds_as _ _ _ H). cbn [flat_map map app]. perm.
Qed.
Lemma server_status_ok t h rs m R (P : conn -> mem -> Prop) : c_server h = true -> (forall r, In r rs -> (0 < cnt R (g_block r))%nat) ->
  holds m (conn_blocks h ++ opt_block t ++ R) -> (forall h' m', kin h h' -> holds m' (conn_blocks h' ++ opt_block t ++ R) -> P h' m') ->
  runs (server_status t h rs) m P.
Proof.
  intros Sv Hr H K. unfold server_status. step.
  match goal with |- runs new ?mm _ => apply (runs_new mm _ _ H) end. clear H. intros tp m1 H. step.
  apply (wrap_objects_ok rs m1 _ _ H). { intros r Ir. specialize (Hr r Ir). repeat rewrite ?cnt_cons, ?cnt_app. lia. }
  clear H. intros ol m2 _ Ro H. step. apply (log_ok t _ (olist_blocks ol ++ tp :: conn_blocks h ++ R)); [apply (holds_as _ _ _ H); perm|]. step.
  apply (reply_mot_ok h ol m2 (tp :: opt_block t ++ R) _ Sv Ro); [apply (holds_as _ _ _ H); perm|]. clear H. intros r m3 Kr H. step.
  apply (release_olist_ok ol m3 (conn_blocks (snd r) ++ tp :: opt_block t ++ R) _ Ro); [apply (holds_as _ _ _ H); perm|]. clear H. intros m4 H. steps.
  apply K; [exact Kr|exact H].
Qed.
Lemma end_dead_ok h m R (P : conn -> mem -> Prop) : holds m (conn_blocks h ++ R) ->
  (forall h' m', kin h h' -> c_dead h' = true -> holds m' (conn_blocks h' ++ R) -> P h' m') -> runs (end_session h) m P.
Proof.
  intros H K. unfold end_session. step. apply (drop_error_ok h m R _ H). intros m1 H1.
  destruct (c_dead (with_error h None)) eqn:D; [step; apply K; [apply kin_error|exact D|exact H1]|].
  steps. apply (write_ok _ _ (b0 :: b :: R)); [apply (holds_as _ _ _ H1); perm|]. steps. apply K; [apply kin_error|reflexivity|exact H1].
Qed.
Lemma session_quit_ok t h m R (P : option conn -> mem -> Prop) : holds m (conn_blocks h ++ opt_block t ++ R) ->
  (forall c m', (forall h', c = Some h' -> c_dead h' = true /\ kin h h') -> holds m' (opt conn_blocks c ++ opt_block t ++ R) -> P c m') ->
  runs (session_quit t h) m P.
Proof.
  intros H K. unfold session_quit. step.
  assert (G : runs (h0 <-- end_session h;; (if c_server h0 then drop_handle t h0;;; mret None else mret (Some h0))) m P).
  { step. apply (end_dead_ok h m (opt_block t ++ R) _ H). clear H. intros h' m1 Kh D H. destruct (c_server h').
    - step. apply (drop_handle_ok t h' m1 (opt_block t ++ R) _ H (or_introl D)). clear H. intros m2 H. step. apply K; [discriminate|exact H].
    - step. apply K; [intros h2 E; injection E as <-; auto|exact H]. }
  destruct (c_dead h); [step; exact G|]. apply (log_ok t m (conn_blocks h ++ R)); [apply (holds_as _ _ _ H); perm|exact G].
Qed.

(** ---- Objects of a program ---- *)
Lemma object_in vars : forall i v, object vars i = Some v -> forall x, cnt (vars_blocks vars) x = (cnt (var_blocks v) x + cnt (vars_blocks (gone i vars)) x)%nat.
Proof.
  induction vars as [|w vars IH]; intros i v E x; [destruct i; discriminate|]. destruct i as [|i].
  - unfold object in E. cbn [nth_error] in E. subst w. cbn [gone]. rewrite !vars_cons. cbn [opt]. rewrite !cnt_app, cnt_nil. lia.
  - unfold object in E. cbn [nth_error] in E. cbn [gone]. rewrite !vars_cons, !cnt_app. rewrite (IH i v E x). lia.
Qed.
Lemma images_of_in vars l : forall given, images_of vars l = Some given -> forall i, In (Some i) given -> exists n, object vars n = Some (VImage i).
Proof.
  induction l as [|x l IH]; intros given E i Hi; cbn [images_of] in E; [injection E as <-; destruct Hi|].
  destruct x as [n|], (images_of vars l) as [r|]; try discriminate.
  - destruct (object vars n) as [[j| |]|] eqn:O; try discriminate. injection E as <-. destruct Hi as [Hi|Hi]; [injection Hi as <-; eauto|eauto].
  - injection E as <-. destruct Hi as [Hi|Hi]; [discriminate|eauto].
Qed.
Lemma regions_of_in vars l : forall rs, regions_of vars l = Some rs -> forall r, In r rs -> exists n, object vars n = Some (VRegion r).
Proof.
  induction l as [|n l IH]; intros rs E r Hr; cbn [regions_of] in E; [injection E as <-; destruct Hr|].
  destruct (object vars n) as [[|g|]|] eqn:O; try discriminate. destruct (regions_of vars l) as [r'|]; [|discriminate].
  injection E as <-. destruct Hr as [<-|Hr]; eauto.
Qed.
Lemma images_shown vars l given R : images_of vars l = Some given -> shown given (vars_blocks vars ++ R).
Proof.
  intros E i Hi. destruct (images_of_in vars l given E i Hi) as [n O]. pose proof (object_in vars n _ O) as X. cbn [var_blocks] in X. unfold img_blocks in X.
  rewrite !cnt_app, !X. repeat rewrite ?cnt_cons, ?one_same. lia.
Qed.
Lemma regions_there vars l rs R : regions_of vars l = Some rs -> forall r, In r rs -> (0 < cnt (vars_blocks vars ++ R) (g_block r))%nat.
Proof.
  intros E r Hr. destruct (regions_of_in vars l rs E r Hr) as [n O]. pose proof (object_in vars n _ O) as X. cbn [var_blocks] in X.
  rewrite !cnt_app, !X. repeat rewrite ?cnt_cons, ?one_same. lia.
Qed.
Lemma collect_ok v m R (P : unit -> mem -> Prop) : holds m (var_blocks v ++ R) -> (forall m', holds m' R -> P tt m') -> runs (collect v) m P.
Proof. intros H K. destruct v; cbn [collect var_blocks] in *; [now apply (release_image_ok i m R)| |]; cbn [app release_region] in *; steps; auto. Qed.
Lemma collects_ok vars : forall m R (P : unit -> mem -> Prop), holds m (vars_blocks vars ++ R) -> (forall m', holds m' R -> P tt m') ->
  runs (each (fun v => match v with Some v => collect v | None => mret tt end) vars) m P.
Proof.
  induction vars as [|v vars IH]; intros m R P H K; cbn [each]; [step; now apply K|]. rewrite vars_cons, <- app_assoc in H. step. destruct v as [v|]; cbn [opt app] in H.
  - apply (collect_ok v m _ _ H). intros m' H'. now apply (IH m' R).
  - step. now apply (IH m R).
Qed.

(** ---- Programs ---- *)
Definition talk (h : conn) (l : list amsg) : Prop := if c_server h then fair l /\ settled false l else Forall msg_text l.
Lemma talk_kin h h' l : kin h h' -> talk h l -> talk h' l.
Proof. intros [E _]. unfold talk. now rewrite E. Qed.
Definition state_blocks (st : pstate) : list nat := opt_block (s_thunk st) ++ opt conn_blocks (s_handle st) ++ vars_blocks (s_vars st).
Definition well (t : option nat) (st : pstate) : Prop := s_thunk st = t /\ forall h, s_handle st = Some h -> talk h (s_messages st).
Lemma some_blocks {A} (f : A -> pvar) (g : A -> list nat) (l : list A) : (forall a, var_blocks (f a) = g a) -> vars_blocks (map Some (map f l)) = flat_map g l.
Proof. intros E. unfold vars_blocks. induction l as [|a l IH]; [reflexivity|]. cbn [map flat_map opt]. now rewrite E, IH. Qed.
Lemma flat_one {A} (f : A -> nat) (l : list A) : flat_map (fun a => [f a]) l = map f l.
Proof. induction l; cbn [flat_map map app]; congruence. Qed.
Lemma flat_id (l : list nat) : flat_map (fun a => [a]) l = l. Proof. rewrite flat_one. apply map_id. Qed.
Lemma pstep_ok op t st m R (P : pstate -> mem -> Prop) : no_get op -> well t st -> holds m (state_blocks st ++ R) ->
  (forall st' m', well t st' -> (op = Quit -> forall h, s_handle st' = Some h -> c_dead h = true) -> holds m' (state_blocks st' ++ R) -> P st' m') ->
  runs (pstep op st) m P.
Proof.
  intros Ng [Wt Wh] H K. destruct st as [t' hd vars l]. cbn [s_thunk s_handle s_messages] in *. subst t'.
  assert (Same : forall m1, op <> Quit \/ hd = None -> holds m1 (state_blocks (mkPstate t hd vars l) ++ R) -> P (mkPstate t hd vars l) m1).
  { intros m1 N H1. apply K; [split; [reflexivity|exact Wh]| |exact H1]. intros E h E'. cbn [s_handle] in E'. destruct N; congruence. }
  assert (More : forall m1 new_vars, op <> Quit -> holds m1 (vars_blocks (map Some new_vars) ++ state_blocks (mkPstate t hd vars l) ++ R) -> P (more (mkPstate t hd vars l) new_vars) m1).
  { intros m1 nv N H1. apply K; [split; [reflexivity|exact Wh]|congruence|]. apply (holds_as _ _ _ H1). unfold state_blocks, more. cbn [s_thunk s_handle s_vars]. rewrite vars_app. perm. }
  unfold pstep. cbn [s_thunk s_handle s_vars s_messages].
  destruct op as [|k| |i|i|i b|first reason images objects| |objects|].
  - step. apply (new_image_ok m _ _ H). intros i m1 H1. step. apply More; [discriminate|]. apply (holds_as _ _ _ H1). unfold vars_blocks. cbn [map flat_map opt var_blocks]. perm.
  - unfold make_region. steps. apply More; [discriminate|]. apply (holds_as _ _ _ H). unfold vars_blocks. cbn [map flat_map opt var_blocks g_block]. perm.
  - steps. apply More; [discriminate|]. apply (holds_as _ _ _ H). unfold vars_blocks. cbn [map flat_map opt var_blocks g_block]. perm.
  - destruct (object vars i) as [v|] eqn:O; [|step; apply Same; [left; discriminate|exact H]]. pose proof (object_in vars i v O) as X.
    step. apply (collect_ok v m (state_blocks (mkPstate t hd (gone i vars) l) ++ R)).
    { apply (holds_as _ _ _ H). intros x. specialize (X x). unfold state_blocks. cbn [s_thunk s_handle s_vars]. rewrite !cnt_app. lia. }
    intros m1 H1. step. apply K; [split; [reflexivity|exact Wh]|discriminate|exact H1].
  - destruct (object vars i) as [v|] eqn:O; [|step; apply Same; [left; discriminate|exact H]]. pose proof (object_in vars i v O) as X.
    assert (H1 : holds m (var_blocks v ++ state_blocks (mkPstate t hd (gone i vars) l) ++ R)).
    { apply (holds_as _ _ _ H). intros x. specialize (X x). unfold state_blocks. cbn [s_thunk s_handle s_vars]. rewrite !cnt_app. lia. }
    assert (F : runs (mret (mkPstate t hd vars l)) m P) by (step; apply Same; [left; discriminate|exact H]). clear H.
    step. destruct v; cbn [read var_blocks] in *; unfold img_blocks in *; cbn [app] in H1; repeat (match goal with |- runs (mret (mkPstate _ _ _ _)) _ _ => fail 1 | _ => step end; cbv beta); exact F.
  - destruct (object vars i) as [[| |p]|] eqn:O; try (step; apply Same; [left; discriminate|exact H]). pose proof (object_in vars i _ O) as X.
    destruct b; [destruct Ng|]. assert (H1 : holds m (p :: state_blocks (mkPstate t hd (gone i vars) l) ++ R)).
    { apply (holds_as _ _ _ H). intros x. specialize (X x). unfold state_blocks. cbn [s_thunk s_handle s_vars]. cbn [var_blocks] in X. rewrite !cnt_cons, !cnt_app in *. rewrite cnt_nil in X. lia. }
    assert (F : runs (mret (mkPstate t hd vars l)) m P) by (step; apply Same; [left; discriminate|exact H]). clear H.
    step. unfold properties_get. cbn [new_if]. repeat (match goal with |- runs (mret (mkPstate _ _ _ _)) _ _ => fail 1 | _ => step end; cbv beta); exact F.
  - destruct hd as [h|]; [|step; apply Same; [left; discriminate|exact H]].
    destruct (images_of vars images) as [given|] eqn:Ei; [|step; apply Same; [left; discriminate|exact H]].
    destruct (regions_of vars objects) as [rs|] eqn:Er; [|step; apply Same; [left; discriminate|exact H]].
    destruct (negb (c_server h) && _) eqn:G; [|step; apply Same; [left; discriminate|exact H]].
    apply andb_true_iff in G as [Sv G]. apply negb_true_iff in Sv. rewrite forallb_forall in G.
    destruct reason; [destruct Ng|]. specialize (Wh h eq_refl). unfold talk in Wh. rewrite Sv in Wh. step.
    apply (client_send_ok t first h given rs l m (vars_blocks vars ++ R) _ Sv Wh (images_shown _ _ _ _ Ei) (regions_there _ _ _ _ Er)).
    { intros r Ir. apply sent_b_ok. exact (G r Ir). }
    { apply (holds_as _ _ _ H). unfold state_blocks. cbn [s_thunk s_handle s_vars opt]. perm. }
    intros h' k l' m1 Kh Fl H1. step. apply K; [split; [reflexivity|]|discriminate|].
    + cbn [more s_handle s_messages]. intros h2 E. injection E as <-. unfold talk. destruct Kh as [-> _]. now rewrite Sv.
    + apply (holds_as _ _ _ H1). unfold state_blocks, more. cbn [s_thunk s_handle s_vars opt]. rewrite vars_app, (some_blocks VRegion (fun r => [g_block r])) by reflexivity.
      rewrite flat_one. perm.
  - destruct hd as [h|]; [|step; apply Same; [left; discriminate|exact H]].
    destruct (c_server h && negb (c_dead h)) eqn:G; [|step; apply Same; [left; discriminate|exact H]].
    apply andb_true_iff in G as [Sv D]. apply negb_true_iff in D. specialize (Wh h eq_refl). unfold talk in Wh. rewrite Sv in Wh. destruct Wh as [Fl Se]. step.
    apply (server_wait_ok t h l m (vars_blocks vars ++ R) _ Sv D Fl Se).
    { apply (holds_as _ _ _ H). unfold state_blocks. cbn [s_thunk s_handle s_vars opt]. perm. }
    intros h' i k p l' m1 Kh Fl' Se' H1. step. apply K; [split; [reflexivity|]|discriminate|].
    + cbn [more s_handle s_messages]. intros h2 E. injection E as <-. unfold talk. destruct Kh as [-> _]. now rewrite Sv.
    + apply (holds_as _ _ _ H1). unfold state_blocks, more. cbn [s_thunk s_handle s_vars opt]. rewrite vars_app, !map_app, !vars_app.
      rewrite (some_blocks VRegion (fun r => [g_block r])), (some_blocks VImage img_blocks), (some_blocks VProps (fun r => [r])) by reflexivity.
      rewrite flat_one, flat_id. perm.
  - destruct hd as [h|]; [|step; apply Same; [left; discriminate|exact H]].
    destruct (regions_of vars objects) as [rs|] eqn:Er; [|step; apply Same; [left; discriminate|exact H]].
    destruct (c_server h) eqn:Sv; [|step; apply Same; [left; discriminate|exact H]]. step.
    apply (server_status_ok t h rs m (vars_blocks vars ++ R) _ Sv (regions_there _ _ _ _ Er)).
    { apply (holds_as _ _ _ H). unfold state_blocks. cbn [s_thunk s_handle s_vars opt]. perm. }
    intros h' m1 Kh H1. step. apply K; [split; [reflexivity|]|discriminate|].
    + cbn [s_handle s_messages]. intros h2 E. injection E as <-. exact (talk_kin _ _ _ Kh (Wh h eq_refl)).
    + apply (holds_as _ _ _ H1). unfold state_blocks. cbn [s_thunk s_handle s_vars opt]. perm.
  - destruct hd as [h|]; [|step; apply Same; [right; reflexivity|exact H]]. step.
    apply (session_quit_ok t h m (vars_blocks vars ++ R)).
    { apply (holds_as _ _ _ H). unfold state_blocks. cbn [s_thunk s_handle s_vars opt]. perm. }
    intros c m1 Hc H1. step. apply K; [split; [reflexivity|]| |].
    + cbn [s_handle s_messages]. intros h2 E. exact (talk_kin _ _ _ (proj2 (Hc h2 E)) (Wh h eq_refl)).
    + intros _ h2 E. exact (proj1 (Hc h2 E)).
    + apply (holds_as _ _ _ H1). unfold state_blocks. cbn [s_thunk s_handle s_vars opt]. perm.
Qed.
Lemma psteps_ok ops : forall t st m R (P : pstate -> mem -> Prop), Forall no_get ops -> well t st -> holds m (state_blocks st ++ R) ->
  (forall st' m', well t st' -> holds m' (state_blocks st' ++ R) -> P st' m') -> runs (psteps ops st) m P.
Proof.
  induction ops as [|op ops IH]; intros t st m R P F W H K; cbn [psteps]; [step; auto|]. inversion F as [|? ? F1 F2]; subst. step.
  apply (pstep_ok op t st m R _ F1 W H). intros st' m' W' _ H'. now apply (IH t st' m' R).
Qed.
Lemma psteps_app ops : forall ops' st m P, runs (psteps ops st) m (fun st' m' => runs (psteps ops' st') m' P) -> runs (psteps (ops ++ ops') st) m P.
Proof.
  induction ops as [|op ops IH]; intros ops' st m P H; cbn [psteps app] in *.
  - destruct H as (a & m' & E & X). unfold mret in E. injection E as <- <-. exact X.
  - destruct H as (a & m' & E & X). unfold mb in E. destruct (pstep op st m) as [[st1 m1]| | |] eqn:Es; cbn [obind fst snd] in E; try discriminate.
    apply runs_bind. exists st1, m1. split; [exact Es|]. apply IH. exists a, m'. auto.
Qed.
Lemma pend_ok st m R (P : unit -> mem -> Prop) : (s_thunk st <> None -> forall h, s_handle st = Some h -> c_dead h = true) -> holds m (state_blocks st ++ R) ->
  (forall m', holds m' R -> P tt m') -> runs (pend st) m P.
Proof.
  intros D H K. unfold pend, delete. step. step. unfold state_blocks in H.
  apply (free_opt_ok (s_thunk st) m (opt conn_blocks (s_handle st) ++ vars_blocks (s_vars st) ++ R)); [apply (holds_as _ _ _ H); perm|]. clear H. intros m1 H.
  destruct (s_handle st) as [h|]; cbn [opt app] in H.
  - apply (drop_handle_ok _ h m1 (vars_blocks (s_vars st) ++ R) _ H).
    + destruct (s_thunk st) as [t|]; [left; apply D; [discriminate|reflexivity]|right]. exists (vars_blocks (s_vars st) ++ R). intros x. reflexivity.
    + clear H. intros m2 H. apply (collects_ok _ m2 R _ H K).
  - step. apply (collects_ok _ m1 R _ H K).
Qed.
Lemma program_ok logger t st ops m R (P : unit -> mem -> Prop) : Forall no_get ops -> quits logger ops -> (logger = false -> t = None) -> well t st -> holds m (state_blocks st ++ R) ->
  (forall m', holds m' R -> P tt m') -> runs (st <-- psteps ops st ;; pend st) m P.
Proof.
  intros F Q Ht W H K. step. destruct logger.
  - destruct (Q eq_refl) as [ops' ->]. apply Forall_app in F as [F _]. apply psteps_app. apply (psteps_ok ops' t st m R _ F W H).
    clear H. intros st1 m1 W1 H. cbn [psteps]. step. apply (pstep_ok Quit t st1 m1 R _ Logic.I W1 H). clear H. intros st2 m2 W2 D H. step.
    apply (pend_ok st2 m2 R _ (fun _ => D eq_refl) H K).
  - apply (psteps_ok ops t st m R _ F W H). clear H. intros st1 m1 [W1 _] H. apply (pend_ok st1 m1 R _); [|exact H|exact K]. rewrite W1, (Ht eq_refl). congruence.
Qed.
Lemma setup_client_ok s v4 multi channels regions v2 chans strings m R (P : option conn -> mem -> Prop) : (v2 = true -> chans = true) -> holds m (s :: R) ->
  (forall h m', c_server h = false -> c_regions h = regions -> holds m' (conn_blocks h ++ R) -> P (Some h) m') ->
  runs (setup_client s v4 multi channels regions (Hello v2 true true chans strings)) m P.
Proof.
  intros Hv H K. unfold setup_client, read_text. steps.
  assert (Rd : forall m (P : unit -> mem -> Prop) L, holds m L -> (forall m', holds m' L -> P tt m') -> runs (if v2 then if chans then x <-- new ;; free x else mfail UB else mret tt) m P).
  { clear H K. intros m' P' L H K. destruct v2; [rewrite (Hv eq_refl)|]; steps; auto. }
  eapply Rd; [exact H|]. clear H Rd. intros mm1 H. step. apply (new_strings_ok _ _ _ _ H). intros q mm2 H2. step.
  apply (new_mdata_ok _ _ _ _ H2). intros d mm3 H3. step.
  match type of H2 with holds _ (_ ++ ?L) => apply (free_opts_ok q mm3 (mdata_blocks d ++ L)) end; [apply (holds_as _ _ _ H3); perm|].
  intros mm4 H4. clear H H2 H3. steps. apply K; [reflexivity|reflexivity|].
  apply (holds_as _ _ _ H4). unfold conn_blocks. cbn [c_block c_stream c_error c_meta opt_block]. perm.
Qed.
Lemma setup_server_ok d s v4 multi channels regions m R (P : conn -> mem -> Prop) : holds m (mdata_blocks d ++ s :: R) ->
  (forall h m', c_server h = true -> holds m' (conn_blocks h ++ mdata_blocks d ++ R) -> P h m') ->
  runs (setup_server d s v4 multi channels regions) m P.
Proof.
  intros H K. unfold setup_server. steps. apply (new_mdata_ok _ _ _ _ H). intros d2 m2 H2. clear H. steps. apply K; [reflexivity|].
  apply (holds_as _ _ _ H2). unfold conn_blocks. cbn [c_block c_stream c_error c_meta opt_block]. perm.
Qed.
Lemma new_logger_ok logger m R (P : option nat -> mem -> Prop) : holds m R ->
  (forall t m', (logger = false -> t = None) -> holds m' (opt_block t ++ R) -> P t m') -> runs (new_if logger) m P.
Proof. intros H K. destruct logger; cbn [new_if]; steps; apply K; auto; discriminate. Qed.
Lemma python_client logger v4 multi channels regions v2 chans strings ops l m : mem_ok m -> Forall no_get ops -> quits logger ops -> Forall msg_text l -> (v2 = true -> chans = true) ->
  exists m', prun (client_init logger false v4 multi channels regions (Hello v2 true true chans strings)) ops l m = Ok (tt, m') /\ same_blocks m m'.
Proof.
  intros Mo F Q Fl Hv. destruct (runs_back (prun (client_init logger false v4 multi channels regions (Hello v2 true true chans strings)) ops l) m (fun _ => True) Mo) as ([] & m' & E & _ & B); [|now exists m'].
  pose proof (mem_holds m Mo) as H. unfold prun, client_init. step. step. apply (new_logger_ok logger m _ _ H). clear H. intros t m1 Ht H. step.
  match goal with |- runs new ?mm _ => apply (runs_new mm _ _ H) end. clear H. intros s m2 H. step. apply (log_ok t _ (s :: m_live m)); [apply (holds_as _ _ _ H); perm|]. step.
  apply (setup_client_ok s v4 multi channels regions v2 chans strings m2 (opt_block t ++ m_live m) _ Hv); [apply (holds_as _ _ _ H); perm|]. clear H. intros h m3 Sv _ H. step.
  apply (program_ok logger t _ ops m3 (m_live m) _ F Q Ht).
  - split; [reflexivity|]. cbn [s_handle s_messages]. intros h' E. injection E as <-. unfold talk. now rewrite Sv.
  - apply (holds_as _ _ _ H). unfold state_blocks. cbn [s_thunk s_handle s_vars opt vars_blocks flat_map]. perm.
  - auto.
Qed.
Lemma python_server logger v4 multi channels regions strings ops l m : mem_ok m -> Forall no_get ops -> quits logger ops -> Forall msg_text l -> Forall no_reset l -> settled false l ->
  exists m', prun (server_init logger false v4 multi channels regions strings) ops l m = Ok (tt, m') /\ same_blocks m m'.
Proof.
  intros Mo F Q Fl Fr Se. destruct (runs_back (prun (server_init logger false v4 multi channels regions strings) ops l) m (fun _ => True) Mo) as ([] & m' & E & _ & B); [|now exists m'].
  pose proof (mem_holds m Mo) as H. unfold prun, server_init. step. step. apply (new_logger_ok logger m _ _ H). clear H. intros t m1 Ht H. step.
  apply (new_mdata_ok _ _ _ _ H). clear H. intros d m2 H. step.
  match goal with |- runs new ?mm _ => apply (runs_new mm _ _ H) end. clear H. intros s m3 H. step. apply (log_ok t _ (s :: mdata_blocks d ++ m_live m)); [apply (holds_as _ _ _ H); perm|]. step.
  apply (setup_server_ok d s v4 multi channels regions m3 (opt_block t ++ m_live m) _); [apply (holds_as _ _ _ H); perm|]. clear H. intros h m4 Sv H. step.
  apply (release_mdata_ok d m4 (conn_blocks h ++ opt_block t ++ m_live m)); [apply (holds_as _ _ _ H); perm|]. clear H. intros m5 H. step.
  apply (program_ok logger t _ ops m5 (m_live m) _ F Q Ht).
  - split; [reflexivity|]. cbn [s_handle s_messages]. intros h' E. injection E as <-. unfold talk, fair. now rewrite Sv.
  - apply (holds_as _ _ _ H). unfold state_blocks. cbn [s_thunk s_handle s_vars opt vars_blocks flat_map]. perm.
  - auto.
Qed.

(** ---- What is left over ---- *)
Lemma gets_ok n : forall h p vars l m R (P : pstate -> mem -> Prop), holds m (conn_blocks h ++ p :: R) ->
  (forall k m', List.length k = n -> holds m' (k ++ conn_blocks h ++ p :: R) -> P (mkPstate None (Some h) (Some (VProps p) :: vars) l) m') ->
  runs (psteps (repeat (Get 0 true) n) (mkPstate None (Some h) (Some (VProps p) :: vars) l)) m P.
Proof.
  induction n as [|n IH]; intros h p vars l m R P H K; cbn [repeat psteps]; [step; now apply (K [])|]. step.
  unfold pstep. cbn [s_vars object nth_error]. unfold properties_get. cbn [new_if].
  repeat (match goal with |- runs (psteps _ _) _ _ => fail 1 | _ => step end; cbv beta).
  apply (IH h p vars l _ (b :: R)); [apply (holds_as _ _ _ H); perm|]. intros k m' L H'. apply (K (b :: k)); [cbn [List.length]; lia|]. apply (holds_as _ _ _ H'). perm.
Qed.
Lemma get_leak n m : mem_ok m -> exists m', prun (server_init false false true true [true] [KRect] []) (MakeProps :: repeat (Get 0 true) n) [] m = Ok (tt, m') /\ left_over n m m'.
Proof.
  intros Mo. enough (Rn : runs (prun (server_init false false true true [true] [KRect] []) (MakeProps :: repeat (Get 0 true) n) []) m (fun _ m' => exists l, List.length l = n /\ holds m' (l ++ m_live m))).
  { destruct Rn as ([] & m' & E & l & L & Hh). exists m'. split; [exact E|]. exists l. split; [exact L|]. now apply holds_left. }
  pose proof (mem_holds m Mo) as H. unfold prun, server_init. cbn [new_if log]. step. step. step. step.
  apply (new_mdata_ok _ _ _ _ H). clear H. intros d m2 H. step.
  match goal with |- runs new ?mm _ => apply (runs_new mm _ _ H) end. clear H. intros s m3 H. step. unfold log. repeat (match goal with |- runs (setup_server _ _ _ _ _ _) _ _ => fail 1 | _ => step end; cbv beta).
  apply (setup_server_ok d s true true [true] [KRect] m3 (m_live m) _); [apply (holds_as _ _ _ H); perm|]. clear H. intros h m4 Sv H. step.
  apply (release_mdata_ok d m4 (conn_blocks h ++ m_live m)); [apply (holds_as _ _ _ H); perm|]. clear H. intros m5 H. step. cbv beta iota zeta. step.
  cbn [psteps]. step. unfold pstep. unfold more. cbn [s_thunk s_handle s_vars s_messages map app]. step.
  match goal with |- runs new ?mm _ => apply (runs_new mm _ _ H) end. clear H. intros p m6 H. step.
  apply (gets_ok n h p [] [] m6 (m_live m)); [apply (holds_as _ _ _ H); perm|]. clear H. intros k m7 L H.
  apply (pend_ok _ m7 (k ++ m_live m)); [cbn; congruence|apply (holds_as _ _ _ H); unfold state_blocks; cbn [s_thunk s_handle s_vars opt vars_blocks flat_map var_blocks]; perm|].
  intros m8 H8. exists k. auto.
Qed.
Lemma python_no_greeting logger interrupted v4 multi channels regions g ops l m : mem_ok m -> g = NoHello \/ g = HelloArgs ->
  exists m', prun (client_init logger interrupted v4 multi channels regions g) ops l m = Ok (tt, m') /\ left_over 1 m m'.
Proof.
  intros Mo Hg. enough (Rn : runs (prun (client_init logger interrupted v4 multi channels regions g) ops l) m (fun _ m' => exists l, List.length l = 1%nat /\ holds m' (l ++ m_live m))).
  { destruct Rn as ([] & m' & E & k & L & Hh). exists m'. split; [exact E|]. exists k. split; [exact L|]. now apply holds_left. }
  pose proof (mem_holds m Mo) as H. unfold prun, client_init, setup_client. step. step. apply (new_logger_ok logger m _ _ H). clear H. intros t m1 Ht H. step.
  match goal with |- runs new ?mm _ => apply (runs_new mm _ _ H) end. clear H. intros s m2 H. step. apply (log_ok t _ (s :: m_live m)); [apply (holds_as _ _ _ H); perm|].
  destruct t as [t|]; cbn [opt_block app] in H; (destruct Hg as [-> | ->]; steps; cbn [free_opt]; steps; exists [s]; (split; [reflexivity|]); apply (holds_as _ _ _ H); cbn [opt_block]; perm).
Qed.
Ltac leak l := eexists; split; [vm_compute; reflexivity|]; exists l; split; [reflexivity|]; cbn [m_live app]; apply Permutation_refl.
Lemma python_leaks :
  (exists m', prun (server_init true true true true [true] [KRect] [true]) [] [] (mkMem 0 []) = Ok (tt, m') /\ left_over 3 (mkMem 0 []) m') /\
  (exists m', prun (server_init false false true true [true] [KRect] []) [Wait] [object_message (PRegion KRect); object_message (PRegion KRect); mkMsg TRAX_QUIT []] (mkMem 0 []) = Ok (tt, m') /\
     left_over 7 (mkMem 0 []) m') /\
  (exists m', prun (client_init true true true true [true] [KRect] greeting) [] [] (mkMem 0 []) = Ok (tt, m') /\ left_over 5 (mkMem 0 []) m') /\
  (exists m', prun (client_init false false true true [true] [KRect] greeting) [MakeImage; MakeRegion KRect; Send true true [Some 0%nat] [1%nat]] [mkMsg TRAX_QUIT []] (mkMem 0 []) = Ok (tt, m') /\
     left_over 1 (mkMem 0 []) m').
Proof. split; [leak [3; 2; 1]%nat|split; [leak [33; 32; 31; 29; 27; 26; 25]%nat|split; [leak [11; 10; 9; 2; 1]%nat|leak [34]%nat]]]. Qed.
Lemma logger_gone : prun (server_init true false true true [true] [KRect] []) [] [] (mkMem 0 []) = UB /\
  prun (client_init true false true true [true] [KRect] greeting) [] [] (mkMem 0 []) = UB.
Proof. split; vm_compute; reflexivity. Qed.
Lemma sample_python : mem_ok (mkMem 3 [2; 0])%nat /\ Forall no_get sample_client_ops /\ Forall no_get sample_server_ops /\ quits true sample_client_ops /\ quits true sample_server_ops /\
  Forall msg_text sample_answers /\ Forall msg_text sample_requests /\ Forall no_reset sample_requests /\ settled false sample_requests.
Proof.
  destruct sample_server as (A & _ & B & C). split; [exact A|]. split; [repeat constructor|]. split; [repeat constructor|].
  split; [intros _; unfold sample_client_ops; eexists (_ :: _ :: _ :: _ :: _ :: _ :: _ :: _ :: _ :: _ :: _ :: _ :: _ :: _ :: _ :: _ :: []); reflexivity|].
  split; [intros _; unfold sample_server_ops; eexists (_ :: _ :: _ :: _ :: _ :: _ :: _ :: _ :: _ :: _ :: _ :: []); reflexivity|].
  split; [unfold sample_answers; repeat (apply Forall_cons; [unfold msg_text; cbn; repeat (apply Forall_cons; [unfold arg_text; cbn; discriminate|]); apply Forall_nil|]); apply Forall_nil|].
  split; [exact B|]. split; [exact C|]. vm_compute. auto.
Qed.
