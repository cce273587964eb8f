(** Proofs about the texts of the Python bindings *)
From Coq Require Import Lia.
From Verif Require Import CBase StrMap Props PropsSpec StrMapProofs PropsProofs Message MessageSpec PyText PyTextSpec.

(** ---- UTF-8 ---- *)

Ltac bools :=
  repeat match goal with
  | H : _ && _ = true |- _ => apply andb_true_iff in H as [? ?]
  | H : negb _ = true |- _ => apply negb_true_iff in H
  | H : (_ <=? _) = true |- _ => apply N.leb_le in H
  | H : (_ <? _) = true |- _ => apply N.ltb_lt in H
  | H : (_ <=? _) = false |- _ => apply N.leb_gt in H
  | H : (_ <? _) = false |- _ => apply N.ltb_ge in H
  end.

Lemma surrogate_scalar c : c < 65536 -> is_surrogate c = false -> scalar c.
Proof.
  unfold is_surrogate, scalar. intros H E.
  destruct (55296 <=? c) eqn:A; cbn [andb] in E; bools; [right|left]; lia.
Qed.
Lemma scalar_surrogate c : scalar c -> is_surrogate c = false.
Proof.
  unfold is_surrogate, scalar. intros H.
  destruct (55296 <=? c) eqn:A; cbn [andb]; [|reflexivity]. bools. apply N.leb_gt. lia.
Qed.

Lemma encode_char_form c b : encode_char c = Some b <-> utf8_form c b.
Proof.
  unfold encode_char. split.
  - destruct (c <? 128) eqn:A; [intros E; injection E as <-; bools; now constructor|].
    destruct (c <? 2048) eqn:B.
    { intros E; injection E as <-. bools. apply form2; [lia| |apply N.mod_lt; lia].
      rewrite (N.div_mod c 64) at 1 by lia. lia. }
    destruct (c <? 65536) eqn:C.
    { destruct (is_surrogate c) eqn:G; [discriminate|]. intros E; injection E as <-. bools.
      apply form3; [lia|now apply surrogate_scalar| |apply N.mod_lt; lia|apply N.mod_lt; lia].
      replace (c / 4096) with (c / 64 / 64) by (rewrite N.div_div by lia; reflexivity).
      pose proof (N.div_mod c 64 ltac:(lia)). pose proof (N.div_mod (c / 64) 64 ltac:(lia)). lia. }
    destruct (c <? 1114112) eqn:D; [|discriminate]. intros E; injection E as <-. bools.
    apply form4; [lia| |apply N.mod_lt; lia|apply N.mod_lt; lia|apply N.mod_lt; lia].
    replace (c / 262144) with (c / 64 / 64 / 64) by (rewrite !N.div_div by lia; reflexivity).
    replace (c / 4096) with (c / 64 / 64) by (rewrite N.div_div by lia; reflexivity).
    pose proof (N.div_mod c 64 ltac:(lia)). pose proof (N.div_mod (c / 64) 64 ltac:(lia)).
    pose proof (N.div_mod (c / 64 / 64) 64 ltac:(lia)). lia.
  - intros F. destruct F as [c H|c y x H E X|c z y x H G E Y X|c w z y x H E W Y X].
    + rewrite (proj2 (N.ltb_lt _ _) H). reflexivity.
    + rewrite (proj2 (N.ltb_ge _ _)) by lia. rewrite (proj2 (N.ltb_lt c 2048)) by lia.
      assert (c / 64 = y) as -> by (symmetry; apply (N.div_unique c 64 y x); lia).
      assert (c mod 64 = x) as -> by (symmetry; apply (N.mod_unique c 64 y x); lia). reflexivity.
    + rewrite (proj2 (N.ltb_ge _ _)) by lia. rewrite (proj2 (N.ltb_ge c 2048)) by lia. rewrite (proj2 (N.ltb_lt c 65536)) by lia.
      rewrite scalar_surrogate by assumption.
      assert (c mod 64 = x) as -> by (symmetry; apply (N.mod_unique c 64 (64 * z + y) x); lia).
      replace (c / 4096) with (c / 64 / 64) by (rewrite N.div_div by lia; reflexivity).
      assert (c / 64 = 64 * z + y) as -> by (symmetry; apply (N.div_unique c 64 _ x); lia).
      assert ((64 * z + y) / 64 = z) as -> by (symmetry; apply (N.div_unique _ 64 z y); lia).
      assert ((64 * z + y) mod 64 = y) as -> by (symmetry; apply (N.mod_unique _ 64 z y); lia). reflexivity.
    + rewrite (proj2 (N.ltb_ge _ _)) by lia. rewrite (proj2 (N.ltb_ge c 2048)) by lia. rewrite (proj2 (N.ltb_ge c 65536)) by lia.
      rewrite (proj2 (N.ltb_lt c 1114112)) by lia.
      replace (c / 262144) with (c / 64 / 64 / 64) by (rewrite !N.div_div by lia; reflexivity).
      replace (c / 4096) with (c / 64 / 64) by (rewrite N.div_div by lia; reflexivity).
      assert (c mod 64 = x) as -> by (symmetry; apply (N.mod_unique c 64 (4096 * w + 64 * z + y) x); lia).
      assert (c / 64 = 4096 * w + 64 * z + y) as -> by (symmetry; apply (N.div_unique c 64 _ x); lia).
      assert ((4096 * w + 64 * z + y) mod 64 = y) as -> by (symmetry; apply (N.mod_unique _ 64 (64 * w + z) y); lia).
      assert ((4096 * w + 64 * z + y) / 64 = 64 * w + z) as -> by (symmetry; apply (N.div_unique _ 64 _ y); lia).
      assert ((64 * w + z) mod 64 = z) as -> by (symmetry; apply (N.mod_unique _ 64 w z); lia).
      assert ((64 * w + z) / 64 = w) as -> by (symmetry; apply (N.div_unique _ 64 w z); lia). reflexivity.
Qed.

Lemma utf8_encode_text s : forall b, utf8_encode s = Some b <-> utf8_text s b.
Proof.
  induction s as [|c s IH]; intros b; cbn [utf8_encode].
  - split.
    + intros E; injection E as <-. exists []. split; [constructor|reflexivity].
    + intros (f & F & ->). inversion F. reflexivity.
  - split.
    + destruct (encode_char c) as [x|] eqn:X; [|discriminate]. destruct (utf8_encode s) as [r|] eqn:R; [|discriminate].
      intros E; injection E as <-. destruct (proj1 (IH r) eq_refl) as (f & F & ->).
      exists (x :: f). split; [constructor; [now apply encode_char_form|exact F]|reflexivity].
    + intros (f & F & ->). inversion F as [|? x ? f' X F' E1 E2]; subst.
      rewrite (proj2 (encode_char_form c x) X), (proj2 (IH (concat f'))) by (exists f'; auto). reflexivity.
Qed.

Lemma utf8_decode_form c x r : utf8_form c x -> utf8_decode (x ++ r) = push c (utf8_decode r).
Proof.
  intros F. destruct F as [c H|c y x H E X|c z y x H G E Y X|c w z y x H E W Y X]; cbn [app utf8_decode].
  - rewrite (proj2 (N.ltb_lt _ _) H). reflexivity.
  - rewrite (proj2 (N.ltb_ge _ _)) by lia.
    rewrite (proj2 (N.leb_le _ _)) by lia. rewrite (proj2 (N.leb_le (192 + y) _)) by lia. cbn [andb].
    unfold trail. rewrite (proj2 (N.leb_le _ _)) by lia. rewrite (proj2 (N.leb_le (128 + x) _)) by lia. cbn [andb].
    replace ((192 + y - 192) * 64 + (128 + x - 128)) with c by lia. reflexivity.
  - rewrite (proj2 (N.ltb_ge _ _)) by lia.
    replace ((194 <=? 224 + z) && (224 + z <=? 223)) with false by (rewrite (proj2 (N.leb_gt (224 + z) 223)) by lia; now rewrite andb_false_r).
    rewrite (proj2 (N.leb_le _ _)) by lia. rewrite (proj2 (N.leb_le (224 + z) _)) by lia. cbn [andb].
    replace ((224 + z - 224) * 4096 + (128 + y - 128) * 64 + (128 + x - 128)) with c by lia. cbv zeta.
    unfold trail. rewrite (proj2 (N.leb_le 128 (128 + y))), (proj2 (N.leb_le (128 + y) 191)) by lia.
    rewrite (proj2 (N.leb_le 128 (128 + x))), (proj2 (N.leb_le (128 + x) 191)) by lia.
    rewrite (proj2 (N.leb_le 2048 c)) by lia. rewrite scalar_surrogate by assumption. reflexivity.
  - rewrite (proj2 (N.ltb_ge _ _)) by lia.
    replace ((194 <=? 240 + w) && (240 + w <=? 223)) with false by (rewrite (proj2 (N.leb_gt (240 + w) 223)) by lia; now rewrite andb_false_r).
    replace ((224 <=? 240 + w) && (240 + w <=? 239)) with false by (rewrite (proj2 (N.leb_gt (240 + w) 239)) by lia; now rewrite andb_false_r).
    rewrite (proj2 (N.leb_le _ _)) by lia. rewrite (proj2 (N.leb_le (240 + w) _)) by lia. cbn [andb].
    replace ((240 + w - 240) * 262144 + (128 + z - 128) * 4096 + (128 + y - 128) * 64 + (128 + x - 128)) with c by lia. cbv zeta.
    unfold trail. rewrite (proj2 (N.leb_le 128 (128 + z))), (proj2 (N.leb_le (128 + z) 191)) by lia.
    rewrite (proj2 (N.leb_le 128 (128 + y))), (proj2 (N.leb_le (128 + y) 191)) by lia.
    rewrite (proj2 (N.leb_le 128 (128 + x))), (proj2 (N.leb_le (128 + x) 191)) by lia.
    rewrite (proj2 (N.leb_le 65536 c)), (proj2 (N.ltb_lt c 1114112)) by lia. reflexivity.
Qed.

Lemma utf8_text_cons c x s r : utf8_form c x -> utf8_text s r -> utf8_text (c :: s) (x ++ r).
Proof. intros F (f & A & ->). exists (x :: f). split; [now constructor|reflexivity]. Qed.

Lemma utf8_decode_some n : forall b s, (List.length b <= n)%nat -> utf8_decode b = Some s -> utf8_text s b.
Proof.
  assert (P : forall c r s, push c r = Some s -> exists t, r = Some t /\ s = c :: t).
  { intros c [t|] s; cbn [push]; intros E; [injection E as <-; eauto|discriminate]. }
  induction n as [|n IH]; intros b s L.
  - destruct b; cbn [List.length] in L; [|lia]. cbn. intros E; injection E as <-. exists []. split; [constructor|reflexivity].
  - destruct b as [|a l1]; cbn [utf8_decode].
    { intros E; injection E as <-. exists []. split; [constructor|reflexivity]. }
    cbn [List.length] in L.
    destruct (a <? 128) eqn:A.
    { intros E. apply P in E as (t & E & ->). bools. change (a :: l1) with ([a] ++ l1).
      apply utf8_text_cons; [now constructor|]. apply IH; [lia|exact E]. }
    destruct l1 as [|b l2]; [discriminate|]. cbn [List.length] in L.
    destruct ((194 <=? a) && (a <=? 223)) eqn:B.
    { destruct (trail b) eqn:T; [|discriminate]. intros E. apply P in E as (t & E & ->). unfold trail in T. bools.
      change (a :: b :: l2) with ([a; b] ++ l2). apply utf8_text_cons; [|apply IH; [lia|exact E]].
      replace [a; b] with [192 + (a - 192); 128 + (b - 128)] by (f_equal; [lia|f_equal; lia]). apply form2; lia. }
    destruct l2 as [|c l3]; [discriminate|]. cbn [List.length] in L.
    destruct ((224 <=? a) && (a <=? 239)) eqn:C.
    { cbv zeta. destruct (trail b && trail c && _ && negb _) eqn:T; [|discriminate].
      intros E. apply P in E as (t & E & ->). unfold trail in T. bools.
      change (a :: b :: c :: l3) with ([a; b; c] ++ l3). apply utf8_text_cons; [|apply IH; [lia|exact E]].
      set (v := (a - 224) * 4096 + (b - 128) * 64 + (c - 128)) in *.
      replace [a; b; c] with [224 + (a - 224); 128 + (b - 128); 128 + (c - 128)] by (f_equal; [lia|f_equal; [lia|f_equal; lia]]).
      assert (v < 65536) by (unfold v; lia).
      apply form3; [lia|now apply surrogate_scalar|unfold v; lia|lia|lia]. }
    destruct l3 as [|d l4]; [discriminate|]. cbn [List.length] in L.
    destruct ((240 <=? a) && (a <=? 244)) eqn:D; [|discriminate].
    cbv zeta. destruct (trail b && trail c && trail d && _ && _) eqn:T; [|discriminate].
    intros E. apply P in E as (t & E & ->). unfold trail in T. bools.
    change (a :: b :: c :: d :: l4) with ([a; b; c; d] ++ l4). apply utf8_text_cons; [|apply IH; [lia|exact E]].
    set (v := (a - 240) * 262144 + (b - 128) * 4096 + (c - 128) * 64 + (d - 128)) in *.
    replace [a; b; c; d] with [240 + (a - 240); 128 + (b - 128); 128 + (c - 128); 128 + (d - 128)]
      by (f_equal; [lia|f_equal; [lia|f_equal; [lia|f_equal; lia]]]).
    apply form4; [lia|unfold v; lia|lia|lia|lia].
Qed.

Lemma utf8_decode_text b s : utf8_decode b = Some s <-> utf8_text s b.
Proof.
  split; [apply (utf8_decode_some (List.length b)); lia|].
  intros (f & F & ->). induction F as [|c x s f X F IH]; [reflexivity|].
  cbn [concat]. rewrite (utf8_decode_form c x _ X), IH. reflexivity.
Qed.

(** ---- Properties ---- *)

Lemma form_nonzero c x : utf8_form c x -> c <> 0 -> ~ In 0 x.
Proof. intros F H. destruct F; cbn [In]; lia. Qed.
Lemma plain_encode s : plain s -> exists b, utf8_encode s = Some b /\ ~ In 0 b.
Proof.
  induction 1 as [|c s [H Z0] P (b & E & X)]; [exists []; cbn; auto|].
  destruct (encode_char c) as [x|] eqn:C.
  - exists (x ++ b). cbn [utf8_encode]. rewrite C, E. split; [reflexivity|].
    rewrite in_app_iff. apply encode_char_form in C. pose proof (form_nonzero c x C Z0). tauto.
  - exfalso. unfold encode_char in C. unfold scalar in H.
    destruct (c <? 128); [discriminate|]. destruct (c <? 2048); [discriminate|].
    destruct (c <? 65536) eqn:D; [rewrite scalar_surrogate in C by assumption; discriminate|].
    rewrite (proj2 (N.ltb_lt c 1114112)) in C by (bools; lia). discriminate.
Qed.
Lemma encode_decode s b : utf8_encode s = Some b -> utf8_decode b = Some s.
Proof. intros E. apply utf8_decode_text, utf8_encode_text, E. Qed.
Lemma decode_encode s b : utf8_decode b = Some s -> utf8_encode s = Some b.
Proof. intros E. apply utf8_encode_text, utf8_decode_text, E. Qed.

Lemma c_string_no_nul s : ~ In 0 s -> c_string s = s.
Proof.
  induction s as [|c s IH]; intros H; [reflexivity|]. cbn [c_string In] in *.
  destruct (c =? 0) eqn:E; [apply N.eqb_eq in E; tauto|]. now rewrite IH by tauto.
Qed.

Definition enc (s : text) : list N := match utf8_encode s with Some b => b | None => [] end.
Lemma enc_plain s : plain s -> utf8_encode s = Some (enc s) /\ ~ In 0 (enc s).
Proof. intros P. destruct (plain_encode s P) as (b & E & H). unfold enc. rewrite E. auto. Qed.

Lemma properties_set_plain p k v : plain k -> plain v -> properties_set p k v = lift (props_set p (enc k) (enc v)).
Proof.
  intros Pk Pv. destruct (enc_plain k Pk) as [Ek Hk]. destruct (enc_plain v Pv) as [Ev Hv].
  unfold properties_set, encode. rewrite Ek, Ev. unfold pbind, ret. cbn [obind].
  now rewrite !c_string_no_nul by assumption.
Qed.

Definition set_op (kv : text * text) : pop := PSet (enc (fst kv)) (enc (snd kv)).
Definition plain_pair (kv : text * text) : Prop := plain (fst kv) /\ plain (snd kv).
Lemma set_items_run sets : Forall plain_pair sets -> forall p, sm_ok p ->
  exists p', set_items sets p = ret p' /\ sm_ok p' /\ (forall k, sm_lookup p' k = fold_left pm_step (map set_op sets) (sm_lookup p) k).
Proof.
  induction 1 as [|[k v] sets [Pk Pv] F IH]; intros p Hp; cbn [set_items map fold_left].
  - exists p. auto.
  - destruct (sm_put_spec p (enc k) (enc v) Hp) as (p1 & E & O & _ & L).
    rewrite properties_set_plain by assumption. unfold props_set. rewrite E. unfold lift, pbind. cbn [obind].
    destruct (IH p1 O) as (p' & E' & O' & L'). exists p'. split; [exact E'|split; [exact O'|]].
    intros x. rewrite L'. clear - L.
    assert (G : forall ops (a b : pmap), (forall y, a y = b y) -> forall y, fold_left pm_step ops a y = fold_left pm_step ops b y).
    { induction ops as [|[|] ops IH]; intros a b H y; cbn [fold_left pm_step]; [apply H| |reflexivity].
      apply IH. intros z. unfold pm_set. destruct (bytes_eqb k0 z); auto. }
    apply G. exact L.
Qed.

Lemma latest_from sets : forall k acc,
  fold_left (fun acc kv => if bytes_eqb (fst kv) k then Some (snd kv) else acc) sets acc
  = match latest sets k with Some v => Some v | None => acc end.
Proof.
  unfold latest. induction sets as [|[k0 v0] sets IH]; intros k acc; cbn [fold_left fst snd]; [reflexivity|].
  rewrite IH, (IH k (if bytes_eqb k0 k then Some v0 else None)).
  destruct (bytes_eqb k0 k); destruct (fold_left _ sets None); reflexivity.
Qed.
Lemma latest_cons k0 v0 sets k :
  latest ((k0, v0) :: sets) k = match latest sets k with Some v => Some v | None => if bytes_eqb k0 k then Some v0 else None end.
Proof. unfold latest at 1. cbn [fold_left fst snd]. apply latest_from. Qed.
Lemma latest_in sets k v : latest sets k = Some v -> In (k, v) sets.
Proof.
  induction sets as [|[k0 v0] sets IH]; [discriminate|]. rewrite latest_cons.
  destruct (latest sets k) as [w|]; [intros E; injection E as ->; right; auto|].
  destruct (bytes_eqb k0 k) eqn:B; [|discriminate]. intros E; injection E as ->. apply bytes_eqb_eq in B. subst. now left.
Qed.

Lemma sets_lookup sets : Forall plain_pair sets -> forall (sp : pmap) kb,
  fold_left pm_step (map set_op sets) sp kb =
  match utf8_decode kb with
  | Some k => match latest sets k with Some v => Some (enc v) | None => sp kb end
  | None => sp kb
  end.
Proof.
  induction 1 as [|[k0 v0] sets [Pk Pv] F IH]; intros sp kb; cbn [map fold_left].
  - destruct (utf8_decode kb); reflexivity.
  - rewrite IH. cbn [set_op pm_step fst snd]. unfold pm_set. destruct (enc_plain k0 Pk) as [Ek _].
    destruct (bytes_eqb (enc k0) kb) eqn:B.
    + apply bytes_eqb_eq in B. rewrite <- B, (encode_decode k0 (enc k0) Ek), latest_cons, bytes_eqb_refl.
      destruct (latest sets k0); reflexivity.
    + destruct (utf8_decode kb) as [k|] eqn:D; [|reflexivity]. rewrite latest_cons.
      destruct (latest sets k); [reflexivity|]. destruct (bytes_eqb k0 k) eqn:C; [|reflexivity].
      apply bytes_eqb_eq in C. subst k0. apply decode_encode in D. rewrite Ek in D. injection D as D. rewrite D, bytes_eqb_refl in B.
      discriminate.
Qed.

Lemma properties_get_spec p k d : sm_ok p -> plain k ->
  properties_get p k d =
  match sm_lookup p (enc k) with
  | None => ret d
  | Some v => match utf8_decode v with Some s => ret (Some s) | None => raise UnicodeDecodeError end
  end.
Proof.
  intros Hp Pk. destruct (enc_plain k Pk) as [Ek Hk]. unfold properties_get, encode. rewrite Ek.
  unfold pbind, ret. cbn [obind]. rewrite c_string_no_nul by assumption.
  rewrite props_get_spec by assumption. unfold lift. cbn [obind].
  destruct (sm_lookup p (enc k)) as [v|]; [|reflexivity]. unfold decode. destruct (utf8_decode v); reflexivity.
Qed.

(** The dictionary: what a fold of setdefault gives for pairs without repeated keys *)
Definition decoded (kv : list N * list N) : option (text * text) :=
  match utf8_decode (fst kv), utf8_decode (snd kv) with Some k, Some v => Some (k, v) | _, _ => None end.
Lemma dict_get_none d k : dict_get d k = None <-> ~ In k (map fst d).
Proof.
  unfold dict_get. induction d as [|[k0 v0] d IH]; cbn [find map In fst snd]; [tauto|].
  destruct (bytes_eqb k0 k) eqn:B.
  - apply bytes_eqb_eq in B. split; [discriminate|tauto].
  - rewrite IH. split; [|tauto]. intros H [->|]; [now rewrite bytes_eqb_refl in B|tauto].
Qed.
Lemma dict_fold l : (forall k v, In (k, v) l -> ~ In 0 k /\ ~ In 0 v) -> NoDup (map fst l) -> forall d,
  NoDup (map fst d) -> (forall k v, In (k, v) l -> forall t, utf8_decode k = Some t -> ~ In t (map fst d)) ->
  NoDup (map fst (fold_left dict_callback l d)) /\
  forall k v, In (k, v) (fold_left dict_callback l d) <-> In (k, v) d \/ exists kv, In kv l /\ decoded kv = Some (k, v).
Proof.
  induction l as [|[kb vb] l IH]; intros Z0 N1 d N2 Dis; cbn [fold_left].
  - split; [exact N2|]. intros k v. split; [tauto|]. intros [H|(? & [] & _)]. exact H.
  - cbn [map fst] in N1. inversion N1 as [|? ? N3 N4]; subst.
    destruct (Z0 kb vb (or_introl eq_refl)) as [Zk Zv].
    assert (C : (dict_callback d (kb, vb) = d /\ decoded (kb, vb) = None) \/
                exists k v, decoded (kb, vb) = Some (k, v) /\ dict_callback d (kb, vb) = d ++ [(k, v)] /\ utf8_decode kb = Some k /\ ~ In k (map fst d)).
    { unfold dict_callback, decoded. cbn [fst snd]. rewrite !c_string_no_nul by assumption.
      destruct (utf8_decode kb) as [k|] eqn:K; [|auto]. destruct (utf8_decode vb) as [v|]; [|auto].
      right. exists k, v. pose proof (Dis kb vb (or_introl eq_refl) k K) as H.
      unfold setdefault. rewrite (proj2 (dict_get_none d k) H). auto. }
    destruct C as [[-> X]|(k & v & X & -> & K & H)].
    + destruct (IH (fun a b h => Z0 a b (or_intror h)) N4 d N2 (fun a b h => Dis a b (or_intror h))) as [A B]. split; [exact A|].
      intros a b. rewrite B. split; [intros [|(kv & ? & ?)]; [auto|right; exists kv; cbn [In]; auto]|].
      intros [|(kv & [<-|I0] & E)]; [auto|rewrite X in E; discriminate|right; eauto].
    + destruct (IH (fun a b h => Z0 a b (or_intror h)) N4 (d ++ [(k, v)])) as [A B].
      * rewrite map_app. cbn [map fst]. apply NoDup_snoc; assumption.
      * intros a b I0 t E. rewrite map_app, in_app_iff. cbn [map fst In].
        intros [J|[J|[]]]; [exact (Dis a b (or_intror I0) t E J)|]. subst t.
        apply decode_encode in E. apply decode_encode in K. rewrite E in K. injection K as <-.
        apply N3. apply in_map_iff. exists (a, b). auto.
      * split; [exact A|]. intros a b. rewrite B, in_app_iff. cbn [In]. split.
        -- intros [[|[J|[]]]|(kv & ? & ?)]; [auto| |right; eauto]. injection J as <- <-. right. eauto.
        -- intros [|(kv & [<-|I0] & E)]; [auto| |right; eauto]. rewrite X in E. injection E as <- <-. auto.
Qed.

Lemma dict_shows p : sm_ok p -> (forall k v, sm_lookup p k = Some v -> ~ In 0 k /\ ~ In 0 v) ->
  shows (properties_dict p) (fun k v => exists kb vb, utf8_text k kb /\ utf8_text v vb /\ sm_lookup p kb = Some vb).
Proof.
  intros Hp Z0. destruct (enum_enumerates p Hp) as [N1 E1].
  destruct (dict_fold (props_enum p)) with (d := @nil (text * text)) as [A B].
  - intros k v H. apply Z0. now apply E1.
  - exact N1.
  - constructor.
  - auto.
  - split; [exact A|]. intros k v. unfold properties_dict. rewrite B. cbn [In]. split.
    + intros [[]|([kb vb] & H & D)]. unfold decoded in D. cbn [fst snd] in D.
      destruct (utf8_decode kb) as [k'|] eqn:K; [|discriminate]. destruct (utf8_decode vb) as [v'|] eqn:V; [|discriminate].
      injection D as <- <-. exists kb, vb. rewrite <- !utf8_decode_text. split; [exact K|split; [exact V|]]. now apply E1.
    + intros (kb & vb & K & V & L). right. exists (kb, vb). rewrite <- utf8_decode_text in K, V. split; [now apply E1|].
      unfold decoded. cbn [fst snd]. now rewrite K, V.
Qed.

Lemma sets_no_nul sets (sp : pmap) : Forall plain_pair sets -> (forall k v, sp k = Some v -> ~ In 0 k /\ ~ In 0 v) ->
  forall k v, fold_left pm_step (map set_op sets) sp k = Some v -> ~ In 0 k /\ ~ In 0 v.
Proof.
  intros F. revert sp. induction F as [|[k0 v0] sets [Pk Pv] F IH]; intros sp H k v; cbn [map fold_left]; [apply H|].
  apply IH. intros k1 v1. cbn [set_op pm_step fst snd]. unfold pm_set. destruct (bytes_eqb (enc k0) k1) eqn:B; [|apply H].
  intros E; injection E as <-. apply bytes_eqb_eq in B. subst k1.
  split; [apply (enc_plain k0 Pk)|apply (enc_plain v0 Pv)].
Qed.

Lemma pm_empty_no_nul k v : sm_lookup props_create k = Some v -> ~ In 0 k /\ ~ In 0 v.
Proof. unfold props_create. rewrite sm_new_lookup. discriminate. Qed.

(** Properties set from Python *)
Definition holds_sets (p : props) (sets : list (text * text)) : Prop :=
  sm_ok p /\ forall kb, sm_lookup p kb = fold_left pm_step (map set_op sets) (fun _ => None) kb.
Lemma set_items_holds sets0 sets p : Forall plain_pair sets -> holds_sets p sets0 ->
  exists p', set_items sets p = ret p' /\ holds_sets p' (sets0 ++ sets).
Proof.
  intros F [Hp L]. destruct (set_items_run sets F p Hp) as (p' & E & O & L'). exists p'. split; [exact E|split; [exact O|]].
  intros kb. rewrite L', map_app, fold_left_app.
  rewrite !sets_lookup by assumption. rewrite L. reflexivity.
Qed.
Lemma create_holds : holds_sets props_create [].
Proof. split; [apply props_create_ok|]. intros kb. apply sm_new_lookup. Qed.
Lemma holds_get p sets : Forall plain_pair sets -> holds_sets p sets ->
  forall k d, plain k -> properties_get p k d = ret (match latest sets k with Some v => Some v | None => d end).
Proof.
  intros F [Hp L] k d Pk. rewrite properties_get_spec by assumption. rewrite L, sets_lookup by assumption.
  destruct (enc_plain k Pk) as [Ek _]. rewrite (encode_decode k _ Ek).
  destruct (latest sets k) as [v|] eqn:V; [|reflexivity].
  apply latest_in in V. rewrite Forall_forall in F. destruct (F _ V) as [_ Pv]. cbn [snd] in Pv.
  destruct (enc_plain v Pv) as [Ev _]. now rewrite (encode_decode v _ Ev).
Qed.
Lemma holds_dict p sets : Forall plain_pair sets -> holds_sets p sets ->
  shows (properties_dict p) (fun k v => latest sets k = Some v).
Proof.
  intros F [Hp L]. destruct (dict_shows p Hp) as [A B].
  - intros k v. rewrite L. apply sets_no_nul; [exact F|discriminate].
  - split; [exact A|]. intros k v. rewrite B. split.
    + intros (kb & vb & K & V & E). rewrite L, sets_lookup in E by assumption.
      rewrite <- utf8_decode_text in K, V. rewrite K in E. destruct (latest sets k) as [w|] eqn:W; [|discriminate].
      injection E as <-. apply latest_in in W. rewrite Forall_forall in F. destruct (F _ W) as [_ Pw]. cbn [snd] in Pw.
      destruct (enc_plain w Pw) as [Ew _]. rewrite (encode_decode w _ Ew) in V. exact V.
    + intros W. pose proof (latest_in _ _ _ W) as J. rewrite Forall_forall in F. destruct (F _ J) as [Pk Pv]. cbn [fst snd] in Pk, Pv.
      rewrite <- Forall_forall in F.
      destruct (enc_plain k Pk) as [Ek _]. destruct (enc_plain v Pv) as [Ev _].
      exists (enc k), (enc v). rewrite <- !utf8_encode_text. split; [exact Ek|split; [exact Ev|]].
      rewrite L, sets_lookup by assumption. rewrite (encode_decode k _ Ek), W. reflexivity.
Qed.

Lemma python_properties_lemma : forall sets, Forall (fun kv => plain (fst kv) /\ plain (snd kv)) sets ->
  exists p, set_items sets props_create = ret p /\
    (forall k d, plain k -> properties_get p k d = ret (match latest sets k with Some v => Some v | None => d end)) /\
    shows (properties_dict p) (fun k v => latest sets k = Some v).
Proof.
  intros sets F. destruct (set_items_holds [] sets props_create F create_holds) as (p & E & H). cbn [app] in H.
  exists p. split; [exact E|]. split; [now apply holds_get|now apply holds_dict].
Qed.

Lemma latest_app a b k : latest (a ++ b) k = match latest b k with Some v => Some v | None => latest a k end.
Proof. unfold latest at 1. rewrite fold_left_app. apply latest_from. Qed.
Lemma latest_nodup d : NoDup (map fst d) -> forall k v, In (k, v) d <-> latest d k = Some v.
Proof.
  intros N1 k v. split; [|apply latest_in]. revert N1. induction d as [|[k0 v0] d IH]; intros N1; [intros []|].
  cbn [map fst] in N1. inversion N1 as [|? ? N2 N3]; subst. rewrite latest_cons. intros [E|H].
  - injection E as -> ->. rewrite bytes_eqb_refl. destruct (latest d k) as [w|] eqn:W; [|reflexivity].
    apply latest_in in W. exfalso. apply N2. apply in_map_iff. exists (k, w). auto.
  - now rewrite (IH N3 H).
Qed.

Lemma copy_lemma : forall ssets dsets, Forall (fun kv => plain (fst kv) /\ plain (snd kv)) (ssets ++ dsets) ->
  exists s d r, set_items ssets props_create = ret s /\ set_items dsets props_create = ret d /\ properties_copy d s = ret r /\
    forall k def, plain k ->
      properties_get r k def =
      ret (match latest ssets k with Some v => Some v | None => match latest dsets k with Some v => Some v | None => def end end).
Proof.
  intros ssets dsets F. apply Forall_app in F as [F1 F2].
  destruct (set_items_holds [] ssets props_create F1 create_holds) as (s & E1 & H1). cbn [app] in H1.
  destruct (set_items_holds [] dsets props_create F2 create_holds) as (d & E2 & H2). cbn [app] in H2.
  destruct (holds_dict s ssets F1 H1) as [N1 B1].
  assert (F3 : Forall plain_pair (properties_dict s)).
  { apply Forall_forall. intros [k v] H. apply B1, latest_in in H. rewrite Forall_forall in F1. exact (F1 _ H). }
  destruct (set_items_holds dsets (properties_dict s) d F3 H2) as (r & E3 & H3).
  exists s, d, r. split; [exact E1|]. split; [exact E2|]. split; [exact E3|]. intros k def Pk.
  rewrite (holds_get r (dsets ++ properties_dict s)) by (try apply Forall_app; auto).
  rewrite latest_app.
  assert (latest (properties_dict s) k = latest ssets k) as ->; [|destruct (latest ssets k); reflexivity].
  destruct (latest ssets k) as [v|] eqn:V.
  - apply B1 in V. now apply (latest_nodup _ N1).
  - destruct (latest (properties_dict s) k) as [v|] eqn:W; [|reflexivity]. apply latest_in, B1 in W. congruence.
Qed.

Lemma ops_no_nul ops : c_strings_set ops -> forall (sp : pmap), (forall k v, sp k = Some v -> ~ In 0 k /\ ~ In 0 v) ->
  forall k v, fold_left pm_step ops sp k = Some v -> ~ In 0 k /\ ~ In 0 v.
Proof.
  induction 1 as [|o ops H F IH]; intros sp Z0; cbn [fold_left]; [exact Z0|]. apply IH. intros k v.
  destruct o as [k0 v0|]; cbn [pm_step]; [|discriminate]. unfold pm_set. destruct (bytes_eqb k0 k) eqn:B; [|apply Z0].
  intros E; injection E as <-. apply bytes_eqb_eq in B. subst k0. exact H.
Qed.

Lemma received_lemma : forall ops p, props_run ops = Ok p -> c_strings_set ops ->
  (forall k kb d, plain k -> utf8_text k kb ->
     (pm_run ops kb = None -> properties_get p k d = ret d) /\
     (forall vb v, pm_run ops kb = Some vb -> utf8_text v vb -> properties_get p k d = ret (Some v)) /\
     (forall vb, pm_run ops kb = Some vb -> (forall v, ~ utf8_text v vb) -> properties_get p k d = raise UnicodeDecodeError)) /\
  shows (properties_dict p) (fun k v => exists kb vb, utf8_text k kb /\ utf8_text v vb /\ pm_run ops kb = Some vb).
Proof.
  intros ops p R C. destruct (props_run_spec ops) as (m & R' & Hp & L). rewrite R in R'. injection R' as <-.
  split.
  - intros k kb d Pk K. rewrite properties_get_spec by assumption. rewrite L.
    assert (enc k = kb) as -> by (unfold enc; rewrite (proj2 (utf8_encode_text k kb) K); reflexivity).
    split; [|split].
    + intros ->. reflexivity.
    + intros vb v -> V. rewrite (proj2 (utf8_decode_text vb v) V). reflexivity.
    + intros vb -> V. destruct (utf8_decode vb) as [v|] eqn:D; [|reflexivity].
      exfalso. apply (V v), utf8_decode_text, D.
  - destruct (dict_shows p Hp) as [A B].
    + intros k v. rewrite L. apply (ops_no_nul ops C). discriminate.
    + split; [exact A|]. intros k v. rewrite B. split; intros (kb & vb & K & V & E); exists kb, vb; rewrite L in *; auto.
Qed.

(** ---- Loggers ---- *)

Definition valid (b : list N) : Prop := exists s, utf8_text s b.
Lemma text_app s1 b1 s2 b2 : utf8_text s1 b1 -> utf8_text s2 b2 -> utf8_text (s1 ++ s2) (b1 ++ b2).
Proof.
  intros (f1 & F1 & ->) (f2 & F2 & ->). exists (f1 ++ f2). rewrite concat_app. split; [now apply Forall2_app|reflexivity].
Qed.
Lemma valid_app a b : valid a -> valid b -> valid (a ++ b).
Proof. intros [s A] [t B]. exists (s ++ t). now apply text_app. Qed.
Lemma valid_ascii l : Forall (fun c => c < 128) l -> valid l.
Proof.
  induction 1 as [|c l H F [s (f & A & ->)]]; [exists []; exists []; split; [constructor|reflexivity]|].
  exists (c :: s). exists ([c] :: f). split; [constructor; [now constructor|exact A]|reflexivity].
Qed.
Lemma form_ascii_inside c x d : utf8_form c x -> In d x -> d < 128 -> x = [d].
Proof. intros F H L. destruct F; cbn [In] in H; [destruct H as [->|[]]; reflexivity|exfalso; lia..]. Qed.
Lemma form_nonempty c x : utf8_form c x -> x <> [].
Proof. intros F. destruct F; discriminate. Qed.
Lemma split_ascii s f : Forall2 utf8_form s f -> forall a c b, concat f = a ++ c :: b -> c < 128 -> valid a /\ valid b.
Proof.
  induction 1 as [|d x s f X F IH]; intros a c b E L; [destruct a; discriminate E|].
  cbn [concat] in E. apply app_eq_app in E as (r & [[E1 E2]|[E1 E2]]).
  - (* x = a ++ r, c :: b = r ++ concat f *)
    destruct r as [|e r].
    + cbn [app] in E2. rewrite app_nil_r in E1. subst x. destruct (IH [] c b (eq_sym E2) L) as [_ B].
      split; [|exact B]. exists [d]. exists [a]. split; [repeat constructor; exact X|cbn; now rewrite app_nil_r].
    + cbn [app] in E2. injection E2 as <- E2. pose proof (form_ascii_inside d x c X) as H.
      rewrite E1 in H. specialize (H ltac:(apply in_or_app; right; now left) L).
      destruct a as [|a0 a]; [|destruct a; discriminate H]. cbn [app] in H. injection H as ->. cbn [app] in E2. subst b.
      split; [exists []; exists []; split; [constructor|reflexivity]|]. exists s. exists f. auto.
  - (* a = x ++ r *)
    subst a. destruct (IH r c b E2 L) as [[s' A] B]. split; [|exact B].
    exists (d :: s'). apply utf8_text_cons; assumption.
Qed.
Lemma valid_split a c b : valid (a ++ c :: b) -> c < 128 -> valid a /\ valid b.
Proof. intros [s (f & F & E)] L. exact (split_ascii s f F a c b (eq_sym E) L). Qed.

Definition logs (cs : list log_call) (bytes : list N) : Prop :=
  forall log, exists m, utf8_text m bytes /\ logger_calls cs log = Ok (log ++ m).
Lemma logger_calls_app a b : forall log, logger_calls (a ++ b) log = (l <- logger_calls a log ;; logger_calls b l).
Proof.
  induction a as [|c a IH]; intros log; cbn [app logger_calls obind]; [reflexivity|].
  destruct (logger_call log c); cbn [obind]; auto.
Qed.
Lemma logs_app a b x y : logs a x -> logs b y -> logs (a ++ b) (x ++ y).
Proof.
  intros A B log. destruct (A log) as (m & M & E). destruct (B (log ++ m)) as (m' & M' & E').
  exists (m ++ m'). split; [now apply text_app|]. rewrite logger_calls_app, E. cbn [obind]. now rewrite E', app_assoc.
Qed.
Lemma logs_nil : logs [] [].
Proof. intros log. exists []. split; [exists []; split; [constructor|reflexivity]|]. cbn [logger_calls]. now rewrite app_nil_r. Qed.
Lemma logs_flush : logs [LogFlush] [].
Proof. intros log. exists []. split; [exists []; split; [constructor|reflexivity]|]. cbn [logger_calls logger_call obind]. now rewrite app_nil_r. Qed.
Lemma logs_flat_map {A} (f : A -> list log_call) (g : A -> list N) l :
  (forall a, In a l -> logs (f a) (g a)) -> logs (flat_map f l) (flat_map g l).
Proof.
  induction l as [|a l IH]; intros H; cbn [flat_map]; [apply logs_nil|].
  apply logs_app; [apply H; now left|]. apply IH. intros b I0. apply H. now right.
Qed.
Lemma c_string_prefix piece rest : ~ In 0 piece -> exists r, c_string (piece ++ rest) = piece ++ r.
Proof.
  induction piece as [|c piece IH]; intros H; cbn [app c_string]; [eauto|]. cbn [In] in H.
  destruct (c =? 0) eqn:E; [apply N.eqb_eq in E; tauto|]. destruct (IH ltac:(tauto)) as (r & ->). exists r. reflexivity.
Qed.
Lemma logs_piece piece rest : valid piece -> ~ In 0 piece -> logs (piece_call piece rest) piece.
Proof.
  intros [s T] H. destruct piece as [|c piece]; cbn [piece_call]; [apply logs_nil|]. intros log.
  exists s. split; [exact T|]. cbn [logger_calls logger_call].
  assert (existsb (N.eqb 0) ((c :: piece) ++ rest ++ [0]) = true) as ->.
  { apply existsb_exists. exists 0. split; [|reflexivity]. rewrite !in_app_iff. right. right. now left. }
  destruct (c_string_prefix (c :: piece) (rest ++ [0]) H) as (r & ->). cbn [app].
  change (c :: piece ++ r) with ((c :: piece) ++ r).
  rewrite firstn_app, firstn_all, Nat.sub_diag. cbn [firstn]. rewrite app_nil_r.
  rewrite (proj2 (utf8_decode_text _ s) T). reflexivity.
Qed.
Lemma valid_nil : valid [].
Proof. apply valid_ascii. constructor. Qed.
Lemma logs_escaped l : forall pending, valid (pending ++ l) -> ~ In 0 (pending ++ l) -> logs (escaped_calls l pending) (pending ++ esc l).
Proof.
  induction l as [|c l IH]; intros pending V H; cbn [escaped_calls].
  - cbn [esc flat_map]. rewrite app_nil_r in *. now apply logs_piece.
  - assert (Hp : ~ In 0 pending) by (intros J; apply H, in_or_app; auto).
    assert (Hl : ~ In 0 l) by (intros J; apply H, in_or_app; right; now right).
    change (esc (c :: l)) with (esc_char c ++ esc l).
    assert (B1 : logs (piece_call [c_bsl] []) [92]).
    { apply logs_piece; [apply valid_ascii; repeat constructor|cbn; intros [J|[]]; discriminate J]. }
    assert (B2 : logs (piece_call [c_n] []) [110]).
    { apply logs_piece; [apply valid_ascii; repeat constructor|cbn; intros [J|[]]; discriminate J]. }
    unfold esc_char, c_quote, c_bsl, c_nl in *.
    destruct (c =? 34) eqn:E1; [|destruct (c =? 92) eqn:E2; [|destruct (c =? 10) eqn:E3]]; cbn [orb].
    + apply N.eqb_eq in E1. subst c. cbn [N.eqb Pos.eqb].
      destruct (valid_split pending 34 l V ltac:(lia)) as [V1 V2].
      change ([92; 34] ++ esc l) with ([92] ++ ([34] ++ esc l)).
      apply logs_app; [now apply logs_piece|]. apply logs_app; [exact B1|].
      apply IH; [apply valid_app; [apply valid_ascii; repeat constructor|exact V2]|]. cbn [app In]. intros [J|J]; [discriminate|auto].
    + apply N.eqb_eq in E2. subst c. cbn [N.eqb Pos.eqb].
      destruct (valid_split pending 92 l V ltac:(lia)) as [V1 V2].
      change ([92; 92] ++ esc l) with ([92] ++ ([92] ++ esc l)).
      apply logs_app; [now apply logs_piece|]. apply logs_app; [exact B1|].
      apply IH; [apply valid_app; [apply valid_ascii; repeat constructor|exact V2]|]. cbn [app In]. intros [J|J]; [discriminate|auto].
    + apply N.eqb_eq in E3. subst c. cbn [N.eqb Pos.eqb].
      destruct (valid_split pending 10 l V ltac:(lia)) as [V1 V2].
      change ([92; 110] ++ esc l) with ([92] ++ ([110] ++ ([] ++ esc l))).
      apply logs_app; [now apply logs_piece|]. apply logs_app; [exact B1|]. apply logs_app; [exact B2|].
      apply IH; [exact V2|exact Hl].
    + rewrite app_assoc. apply IH; rewrite <- app_assoc; assumption.
Qed.

Lemma logs_string s : valid s -> ~ In 0 s -> logs (string_call s) s.
Proof. apply logs_piece. Qed.
Lemma ascii_nonzero l : forallb (fun c => (0 <? c) && (c <? 128)) l = true -> valid l /\ ~ In 0 l.
Proof.
  intros H. rewrite forallb_forall in H. split.
  - apply valid_ascii, Forall_forall. intros c J. specialize (H c J). bools. assumption.
  - intros J. specialize (H 0 J). discriminate H.
Qed.
Lemma logs_ascii l : forallb (fun c => (0 <? c) && (c <? 128)) l = true -> logs (string_call l) l.
Proof. intros H. destruct (ascii_nonzero l H). now apply logs_string. Qed.

Lemma sent_lemma : forall t args ops p, props_run ops = Ok p ->
  Forall (fun a => no_nul a /\ exists s, utf8_text s a) args ->
  (forall k v, pm_run ops k = Some v -> no_nul k /\ no_nul v /\ (exists s, utf8_text s k) /\ exists s, utf8_text s v) ->
  forall log, exists m, utf8_text m (wire t args (props_enum p)) /\ logger_calls (sent_calls t args p) log = Ok (log ++ m).
Proof.
  intros t args ops p R A P. change (logs (sent_calls t args p) (wire t args (props_enum p))).
  destruct (props_run_spec ops) as (m & R' & Hp & L). rewrite R in R'. injection R' as <-.
  destruct (enum_enumerates p Hp) as [_ E1].
  unfold sent_calls, wire.
  apply logs_app; [apply logs_ascii; reflexivity|].
  apply logs_app; [apply logs_ascii; destruct t; reflexivity|].
  apply logs_app; [apply logs_ascii; reflexivity|].
  apply logs_app.
  { apply logs_flat_map. intros a I0. rewrite Forall_forall in A. destruct (A a I0) as [Z0 V].
    unfold wire_arg. apply logs_app; [apply logs_ascii; reflexivity|].
    apply logs_app; [apply (logs_escaped a []); assumption|apply logs_ascii; reflexivity]. }
  apply logs_app.
  { apply logs_flat_map. intros [k v] I0. apply E1 in I0. rewrite L in I0. destruct (P k v I0) as (Zk & Zv & Vk & Vv).
    cbn [fst snd]. unfold wire_prop. cbn [fst snd]. apply logs_app; [apply logs_ascii; reflexivity|].
    apply logs_app; [now apply logs_string|]. apply logs_app; [apply logs_ascii; reflexivity|].
    apply logs_app; [apply (logs_escaped v []); assumption|apply logs_ascii; reflexivity]. }
  change [10] with ([10] ++ ([] : list N)). apply logs_app; [apply logs_ascii; reflexivity|apply logs_flush].
Qed.

(** Received characters, when a NUL happens to follow the variable in memory: each character is decoded alone *)
Lemma received_calls_lemma : forall beyond chars, In 0 beyond -> forall log,
  logger_calls (received_calls beyond chars) log = Ok (log ++ filter (fun c => (0 <? c) && (c <? 128)) chars).
Proof.
  intros beyond chars B. unfold received_calls. induction chars as [|c chars IH]; intros log; cbn [map app logger_calls].
  - cbn [logger_call obind filter]. now rewrite app_nil_r.
  - cbn [logger_call filter].
    assert (existsb (N.eqb 0) (c :: beyond) = true) as ->.
    { apply existsb_exists. exists 0. split; [now right|reflexivity]. }
    cbn [c_string]. destruct (c =? 0) eqn:E.
    + apply N.eqb_eq in E. subst c. cbn [obind]. rewrite IH. reflexivity.
    + apply N.eqb_neq in E. rewrite (proj2 (N.ltb_lt 0 c)) by lia. cbn [andb firstn].
      destruct (c <? 128) eqn:C.
      * cbn [utf8_decode]. rewrite C. cbn [push obind]. rewrite IH, <- app_assoc. reflexivity.
      * cbn [utf8_decode]. rewrite C. cbn [obind]. now rewrite IH.
Qed.
Lemma received_beyond : forall c chars log, c <> 0 -> logger_calls (received_calls [] (c :: chars)) log = UB.
Proof. intros [|c] chars log H; [congruence|reflexivity]. Qed.
