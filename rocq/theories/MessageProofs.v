(** Lemmas about the message reader and writer. *)
From Verif Require Import CBase StrMap Props PropsSpec StrMapProofs PropsProofs Message MessageSpec.

(** ---- Writer ---- *)

Lemma esc_app a b : esc (a ++ b) = esc a ++ esc b.
Proof. unfold esc. apply flat_map_app. Qed.

Lemma escaped_chunks_concat l : forall pending, concat (escaped_chunks l pending) = pending ++ esc l.
Proof.
  induction l as [|c l IH]; intros pending.
  - cbn. now rewrite app_nil_r.
  - cbn [escaped_chunks]. change (esc (c :: l)) with (esc_char c ++ esc l). unfold esc_char, c_quote, c_bsl, c_nl, c_n.
    destruct (c =? 34) eqn:E1; [|destruct (c =? 92) eqn:E2; [|destruct (c =? 10) eqn:E3]]; cbn [orb].
    + replace (c =? 10) with false by lia. cbn [concat]. rewrite IH.
      replace c with 34 by lia. reflexivity.
    + replace (c =? 10) with false by lia. cbn [concat]. rewrite IH.
      replace c with 92 by lia. reflexivity.
    + cbn [concat]. rewrite IH. reflexivity.
    + rewrite IH, <- app_assoc. reflexivity.
Qed.

Lemma write_escaped_concat s : concat (write_escaped s) = esc s.
Proof. destruct s as [|c s]; [reflexivity|]. unfold write_escaped. now rewrite escaped_chunks_concat. Qed.

Lemma concat_concat_app {A} (a b : list (list (list A))) :
  concat (concat (a ++ b)) = concat (concat a) ++ concat (concat b).
Proof. now rewrite concat_app, concat_app. Qed.

Lemma message_outputs_wire t args p : concat (concat (message_outputs t args p)) = wire t args (props_enum p).
Proof.
  unfold message_outputs, wire. rewrite !concat_concat_app.
  assert (A : concat (concat (flat_map argument_outputs args)) = flat_map wire_arg args).
  { induction args as [|a args IH]; [reflexivity|]. cbn [flat_map]. rewrite concat_concat_app, IH. f_equal.
    unfold argument_outputs. cbn [concat]. rewrite !concat_app, write_escaped_concat. reflexivity. }
  assert (P : forall l, concat (concat (flat_map property_outputs l)) = flat_map wire_prop l).
  { clear. induction l as [|kv l IH]; [reflexivity|]. cbn [flat_map]. rewrite concat_concat_app, IH. f_equal.
    unfold property_outputs, wire_prop. cbn [concat]. rewrite !concat_app, write_escaped_concat.
    cbn [concat app]. rewrite !app_nil_r. reflexivity. }
  rewrite A, P. cbn [concat app]. rewrite <- !app_assoc. reflexivity.
Qed.

Lemma write_all_ok sched : no_error sched -> forall buf,
  exists r, write_all sched buf = (r, buf, true) /\ no_error r.
Proof.
  induction sched as [|w sched IH]; intros H buf.
  - exists []. split; [destruct buf; reflexivity|constructor].
  - inversion_clear H as [|? ? Hw Hs].
    destruct buf as [|b buf]; [exists (w :: sched); split; [reflexivity|now constructor]|].
    destruct w as [n|]; [|congruence]. cbn [write_all].
    destruct (IH Hs (skipn n (b :: buf))) as (r & E & Hr). rewrite E.
    exists r. split; [|exact Hr]. now rewrite firstn_skipn.
Qed.

(** In every case the bytes one buffer write delivers are a prefix of the buffer, and all of it on success. *)
Lemma write_all_prefix sched : forall buf r d ok, write_all sched buf = (r, d, ok) ->
  (exists tl, buf = d ++ tl) /\ (ok = true -> d = buf).
Proof.
  induction sched as [|w sched IH]; intros buf r d ok H.
  - destruct buf; inversion H; subst; (split; [exists []; now rewrite ?app_nil_r|reflexivity]).
  - destruct buf as [|b buf]; [inversion H; subst; split; [exists []; reflexivity|reflexivity]|].
    destruct w as [n|].
    + cbn [write_all] in H. destruct (write_all sched (skipn n (b :: buf))) as [[r' d'] ok'] eqn:E.
      inversion H; subst. apply IH in E as [[tl Htl] Hok]. split.
      * exists tl. rewrite <- app_assoc, <- Htl. now rewrite firstn_skipn.
      * intros Hk. rewrite (Hok Hk). apply firstn_skipn.
    + inversion H; subst. split; [exists (b :: buf); reflexivity|discriminate].
Qed.

Lemma write_buffer_ok o buf : no_error (o_sched o) ->
  exists o', write_buffer o buf = (o', true) /\ no_error (o_sched o') /\
    o_bytes o' = o_bytes o ++ buf /\ o_log o' = o_log o ++ buf.
Proof.
  intros H. destruct buf as [|b buf].
  - exists o. rewrite !app_nil_r. repeat split; auto.
  - cbn [write_buffer]. destruct (write_all_ok _ H (b :: buf)) as (r & E & Hr). rewrite E.
    eexists. split; [reflexivity|]. cbn. auto.
Qed.

Lemma run_output_ok chunks : forall o, no_error (o_sched o) ->
  no_error (o_sched (run_output o chunks)) /\
  o_bytes (run_output o chunks) = o_bytes o ++ concat chunks /\
  o_log (run_output o chunks) = o_log o ++ concat chunks.
Proof.
  induction chunks as [|b chunks IH]; intros o H; cbn [run_output concat].
  - rewrite !app_nil_r. auto.
  - destruct (write_buffer_ok o b H) as (o' & E & H' & Hb & Hl). rewrite E.
    destruct (IH o' H') as (? & Hb' & Hl'). rewrite Hb', Hl', Hb, Hl, <- !app_assoc. auto.
Qed.

Lemma run_outputs_ok outs : forall o, no_error (o_sched o) ->
  no_error (o_sched (fold_left run_output outs o)) /\
  o_bytes (fold_left run_output outs o) = o_bytes o ++ concat (concat outs) /\
  o_log (fold_left run_output outs o) = o_log o ++ concat (concat outs).
Proof.
  induction outs as [|x outs IH]; intros o H; cbn [fold_left concat].
  - cbn [concat]. rewrite !app_nil_r. auto.
  - destruct (run_output_ok x o H) as (H' & Hb & Hl).
    destruct (IH _ H') as (? & Hb' & Hl'). rewrite Hb', Hl', Hb, Hl, concat_app, <- !app_assoc. auto.
Qed.

Lemma write_message_ok o t args p : no_error (o_sched o) ->
  no_error (o_sched (write_message o t args p)) /\
  o_bytes (write_message o t args p) = o_bytes o ++ wire t args (props_enum p) /\
  o_log (write_message o t args p) = o_log o ++ wire t args (props_enum p).
Proof. intros H. unfold write_message. rewrite <- message_outputs_wire. now apply run_outputs_ok. Qed.

(** ---- One line per message ---- *)
Lemma esc_no_nl s : ~ In 10 (esc s).
Proof.
  unfold esc. rewrite in_flat_map. intros (c & _ & H). unfold esc_char in H.
  destruct (c =? 34) eqn:E1; [cbn in H; intuition lia|].
  destruct (c =? 92) eqn:E2; [cbn in H; intuition lia|].
  destruct (c =? 10) eqn:E3; [cbn in H; intuition lia|].
  cbn in H. intuition lia.
Qed.

Lemma wire_one_line t args kvs : Forall (fun kv => ~ In 10 (fst kv)) kvs ->
  exists body, wire t args kvs = str "@@TRAX:" ++ body ++ [10] /\ ~ In 10 body.
Proof.
  intros H. exists (type_name t ++ [32] ++ flat_map wire_arg args ++ flat_map wire_prop kvs). split.
  - unfold wire. rewrite <- !app_assoc. reflexivity.
  - rewrite !in_app_iff. intros [Hi|[Hi|[Hi|Hi]]].
    + destruct t; cbn in Hi; intuition lia.
    + cbn in Hi. intuition lia.
    + apply in_flat_map in Hi as (a & _ & Hi). unfold wire_arg in Hi. rewrite !in_app_iff in Hi.
      destruct Hi as [Hi|[Hi|Hi]]; [cbn in Hi; intuition lia| |cbn in Hi; intuition lia].
      now apply esc_no_nl in Hi.
    + apply in_flat_map in Hi as (kv & Hkv & Hi). unfold wire_prop in Hi. rewrite !in_app_iff in Hi.
      rewrite Forall_forall in H. specialize (H kv Hkv).
      destruct Hi as [Hi|[Hi|[Hi|[Hi|Hi]]]]; try (cbn in Hi; intuition lia); try contradiction.
      now apply esc_no_nl in Hi.
Qed.

(** ---- Reader over a plain byte list ---- *)
Fixpoint run (l : list N) (s : reader) : reader * list N * list N :=
  if rd_complete s then (s, l, [])
  else
    match l with
    | [] => match rd_type s with
            | None => (s, [], [])
            | Some _ => (step (set_complete s) c_nl, [], [c_nl])
            end
    | c :: l' =>
        if c <? 128 then let '(s', r, lg) := run l' (step s c) in (s', r, c :: lg)
        else match rd_type s with
             | None => (s, l', [])
             | Some _ => (step (set_complete s) c_nl, l', [c_nl])
             end
    end.


Lemma step_complete s c : rd_complete s = true -> rd_complete (step s c) = true.
Proof.
  intros H. destruct s as [t cm ps k v a se]. cbn in H. subst cm. unfold step. cbn [rd_state].
  destruct ps; repeat match goal with |- context [if ?b then _ else _] => destruct b end;
    cbn; repeat match goal with |- context [match ?b with _ => _ end] => destruct b end; reflexivity.
Qed.

Lemma run_complete l s : rd_complete s = true -> run l s = (s, l, []).
Proof. intros H. destruct l; cbn [run]; now rewrite H. Qed.

Lemma read_loop_complete fuel st s log : rd_complete s = true -> read_loop fuel st s log = Ok (s, st, log).
Proof. intros H. destruct fuel; cbn [read_loop]; now rewrite H. Qed.

Lemma read_char_delivers st v st' : delivers st -> read_char st = (v, st') ->
  delivers st' /\
  match stream_bytes st with
  | [] => v = None /\ stream_bytes st' = []
  | c :: l => v = char_val c /\ stream_bytes st' = l /\ (S (stream_size st') <= stream_size st)%nat
  end.
Proof.
  intros H E. destruct st as [b sc]. unfold read_char, delivers, stream_bytes, stream_size in *. cbn in *.
  destruct b as [|c b].
  - destruct sc as [|ch sc]; [inversion E; subst; cbn; auto|].
    inversion_clear H as [|? ? Hc Hs]. destruct ch as [|c ch]; [congruence|].
    inversion E; subst. cbn. split; [exact Hs|]. split; [reflexivity|]. split; [reflexivity|].
    rewrite ?app_length. cbn. lia.
  - inversion E; subst. cbn. split; [exact H|]. split; [reflexivity|]. split; [reflexivity|]. lia.
Qed.

Lemma read_loop_run fuel : forall st s log, delivers st -> (stream_size st < fuel)%nat ->
  exists st', read_loop fuel st s log =
    (let '(s', r, lg) := run (stream_bytes st) s in Ok (s', st', log ++ lg)) /\
    delivers st' /\ stream_bytes st' = snd (fst (run (stream_bytes st) s)).
Proof.
  induction fuel as [|fuel IH]; intros st s log Hd Hf; [lia|].
  destruct (rd_complete s) eqn:Ec.
  - rewrite run_complete, read_loop_complete by exact Ec. exists st. cbn. rewrite app_nil_r. auto.
  - cbn [read_loop]. rewrite Ec. destruct (read_char st) as [v st1] eqn:Er.
    destruct (read_char_delivers _ _ _ Hd Er) as [Hd1 Hm].
    destruct (stream_bytes st) as [|c l] eqn:Eb; cbn [run]; rewrite Ec.
    + destruct Hm as [-> Hb]. destruct (rd_type s) as [t|] eqn:Et.
      * rewrite read_loop_complete by now apply step_complete.
        exists st1. cbn [fst snd]. auto.
      * exists st1. rewrite app_nil_r. auto.
    + destruct Hm as [-> [Hb Hsz]]. unfold char_val. destruct (c <? 128) eqn:E128.
      * destruct (IH st1 (step s c) (log ++ [c]) Hd1 ltac:(lia)) as (st' & E1 & E2 & E3).
        rewrite Hb in E1, E3.
        destruct (run l (step s c)) as [[s' r] lg]. cbn [fst snd] in *. exists st'.
        rewrite E1, <- app_assoc. cbn [app]. auto.
      * destruct (rd_type s) as [t|] eqn:Et.
        -- rewrite read_loop_complete by now apply step_complete.
           exists st1. cbn [fst snd]. auto.
        -- exists st1. rewrite app_nil_r. auto.
Qed.

(** What a read returns, as a function of the bytes of the stream only. *)
Lemma read_message_run t st p : delivers st ->
  exists st', delivers st' /\
    read_message t st p =
    (let '(s, r, lg) := run (stream_bytes st) (reader_start t) in
     p' <- enum_into props_set (rd_sets s) p ;; Ok (mkRead (rd_type s) (rd_args s) p' st' lg)) /\
    stream_bytes st' = snd (fst (run (stream_bytes st) (reader_start t))).
Proof.
  intros Hd. unfold read_message.
  destruct (read_loop_run (S (S (stream_size st))) st (reader_start t) [] Hd ltac:(lia)) as (st' & E & Hd' & Hb).
  exists st'. split; [exact Hd'|]. split; [|exact Hb].
  rewrite E. destruct (run (stream_bytes st) (reader_start t)) as [[s r] lg]. reflexivity.
Qed.

(** ---- Feeding bytes ---- *)
Definition feeds (s : reader) (l : list N) (s' : reader) : Prop :=
  forall r, run (l ++ r) s = (let '(a, b, lg) := run r s' in (a, b, l ++ lg)).

Lemma feeds_nil s : feeds s [] s.
Proof. intros r. cbn [app]. destruct (run r s) as [[a b] lg]. reflexivity. Qed.

Lemma feeds_app s l1 s1 l2 s2 : feeds s l1 s1 -> feeds s1 l2 s2 -> feeds s (l1 ++ l2) s2.
Proof.
  intros H1 H2 r. rewrite <- app_assoc, H1, H2. destruct (run r s2) as [[a b] lg].
  now rewrite <- app_assoc.
Qed.

Lemma feeds_one s c : rd_complete s = false -> c <? 128 = true -> feeds s [c] (step s c).
Proof. intros H Hc r. cbn [app run]. rewrite H, Hc. destruct (run r (step s c)) as [[a b] lg]. reflexivity. Qed.

Lemma feeds_cons s c s1 l s2 : rd_complete s = false -> c <? 128 = true -> step s c = s1 ->
  feeds s1 l s2 -> feeds s (c :: l) s2.
Proof. intros H Hc E Hf. change (c :: l) with ([c] ++ l). eapply feeds_app; [|exact Hf]. subst s1. now apply feeds_one. Qed.

Lemma feeds_one_eq s c s1 : rd_complete s = false -> c <? 128 = true -> step s c = s1 -> feeds s [c] s1.
Proof. intros H Hc E. eapply feeds_cons; eauto. apply feeds_nil. Qed.

(** ---- Strings ---- *)
Lemma text_ok_c_string s : text_ok s = true -> c_string s = s.
Proof.
  induction s as [|c s IH]; intros H; [reflexivity|]. cbn in H. apply andb_true_iff in H as [Hc Hs].
  unfold text_char in Hc. cbn [c_string]. replace (c =? 0) with false by lia. now rewrite IH.
Qed.

Lemma key_ok_valid k : key_ok k = is_valid_key k.
Proof.
  unfold key_ok, is_valid_key. destruct (Nat.ltb 64 (List.length k)) eqn:E.
  - apply andb_false_iff. left. lia.
  - replace (Nat.leb (List.length k) 64) with true by lia. cbn [andb].
    induction k as [|c k IH]; [reflexivity|]. cbn [forallb].
    unfold is_key_char at 1, is_alnum. rewrite <- IH by (cbn [List.length] in E; lia). reflexivity.
Qed.

Lemma key_char_text c : is_key_char c = true -> text_char c = true /\ c <> 34 /\ c <> 92 /\ c <> 61 /\ c <> 10.
Proof. unfold is_key_char, is_alnum, is_digit, is_upper, is_lower, text_char. intros H. lia. Qed.

Lemma valid_key_chars k : is_valid_key k = true -> forallb is_key_char k = true.
Proof. unfold is_valid_key. destruct (Nat.ltb _ _); [discriminate|auto]. Qed.

Lemma key_ok_text k : key_ok k = true -> text_ok k = true.
Proof.
  rewrite key_ok_valid. intros H%valid_key_chars. unfold text_ok.
  rewrite forallb_forall in *. intros c Hc. now apply key_char_text, H.
Qed.

Lemma invalid_with_eq x y : is_valid_key (x ++ 61 :: y) = false.
Proof.
  unfold is_valid_key. destruct (Nat.ltb _ _); [reflexivity|].
  rewrite forallb_app. cbn. apply andb_false_r.
Qed.

(** ---- Quoted strings ---- *)
Fixpoint no_hit (k : list N) (l : list N) : Prop :=
  match l with
  | [] => True
  | c :: l' => (c = 61 -> is_valid_key k = false) /\ no_hit (k ++ [c]) l'
  end.

Lemma no_hit_after x y l : no_hit (x ++ 61 :: y) l.
Proof.
  revert y. induction l as [|c l IH]; intros y; [exact I|]. split.
  - intros _. apply invalid_with_eq.
  - rewrite <- app_assoc. cbn [app]. apply IH.
Qed.

Lemma no_hit_arg a : forall k0,
  match before_eq a with Some k => is_valid_key (k0 ++ k) = false | None => True end -> no_hit k0 a.
Proof.
  induction a as [|c a IH]; intros k0 H; [exact I|]. cbn [before_eq] in H. destruct (c =? 61) eqn:E.
  - rewrite app_nil_r in H. split; [auto|]. replace c with 61 by lia. apply (no_hit_after k0 []).
  - split; [lia|]. apply IH. destruct (before_eq a) as [k|]; cbn [option_map] in H; [|exact I].
    now rewrite <- app_assoc.
Qed.

Lemma arg_ok_no_hit a : arg_ok a = true -> text_ok a = true /\ no_hit [] a.
Proof.
  unfold arg_ok. intros H. apply andb_true_iff in H as [H1 H2]. split; [exact H1|].
  apply no_hit_arg. destruct (before_eq a) as [k|]; [|exact I].
  rewrite key_ok_valid in H2. now apply negb_true_iff.
Qed.

Ltac one := eapply feeds_cons; [reflexivity|try reflexivity|unfold step; cbn [rd_state]; reflexivity|].

Lemma quoted_key_char t k v A S c : text_char c = true -> (c = 61 -> is_valid_key k = false) ->
  feeds (mkReader t false PQuotedKey k v A S) (esc_char c) (mkReader t false PQuotedKey (k ++ [c]) v A S).
Proof.
  intros Hc Hk. unfold text_char in Hc. unfold esc_char.
  destruct (c =? 34) eqn:E1; [|destruct (c =? 92) eqn:E2; [|destruct (c =? 10) eqn:E3]].
  - replace c with 34 by lia. eapply feeds_cons; [reflexivity|reflexivity|reflexivity|].
    apply feeds_one_eq; reflexivity.
  - replace c with 92 by lia. eapply feeds_cons; [reflexivity|reflexivity|reflexivity|].
    apply feeds_one_eq; reflexivity.
  - replace c with 10 by lia. eapply feeds_cons; [reflexivity|reflexivity|reflexivity|].
    apply feeds_one_eq; reflexivity.
  - apply feeds_one_eq; [reflexivity|lia|]. unfold step. cbn [rd_state rd_key].
    unfold c_bsl, c_quote, c_eq. rewrite E1, E2. destruct (c =? 61) eqn:E4; [|reflexivity].
    rewrite Hk by lia. reflexivity.
Qed.

Lemma quoted_key t v A S a : forall k, text_ok a = true -> no_hit k a ->
  feeds (mkReader t false PQuotedKey k v A S) (esc a) (mkReader t false PQuotedKey (k ++ a) v A S).
Proof.
  induction a as [|c a IH]; intros k Ht Hn.
  - rewrite app_nil_r. apply feeds_nil.
  - cbn in Ht. apply andb_true_iff in Ht as [Hc Ht]. destruct Hn as [Hk Hn].
    change (esc (c :: a)) with (esc_char c ++ esc a).
    eapply feeds_app; [apply quoted_key_char; auto|].
    replace (k ++ c :: a) with ((k ++ [c]) ++ a) by (now rewrite <- app_assoc). now apply IH.
Qed.

Lemma quoted_value_char t k v A S c : text_char c = true ->
  feeds (mkReader t false PQuotedValue k v A S) (esc_char c) (mkReader t false PQuotedValue k (v ++ [c]) A S).
Proof.
  intros Hc. unfold text_char in Hc. unfold esc_char.
  destruct (c =? 34) eqn:E1; [|destruct (c =? 92) eqn:E2; [|destruct (c =? 10) eqn:E3]].
  - replace c with 34 by lia. eapply feeds_cons; [reflexivity|reflexivity|reflexivity|].
    apply feeds_one_eq; reflexivity.
  - replace c with 92 by lia. eapply feeds_cons; [reflexivity|reflexivity|reflexivity|].
    apply feeds_one_eq; reflexivity.
  - replace c with 10 by lia. eapply feeds_cons; [reflexivity|reflexivity|reflexivity|].
    apply feeds_one_eq; reflexivity.
  - apply feeds_one_eq; [reflexivity|lia|]. unfold step. cbn [rd_state].
    unfold c_bsl, c_quote. rewrite E1, E2. reflexivity.
Qed.

Lemma quoted_value t k A S a : forall v, text_ok a = true ->
  feeds (mkReader t false PQuotedValue k v A S) (esc a) (mkReader t false PQuotedValue k (v ++ a) A S).
Proof.
  induction a as [|c a IH]; intros v Ht.
  - rewrite app_nil_r. apply feeds_nil.
  - cbn in Ht. apply andb_true_iff in Ht as [Hc Ht].
    change (esc (c :: a)) with (esc_char c ++ esc a).
    eapply feeds_app; [apply quoted_value_char; auto|].
    replace (v ++ c :: a) with ((v ++ [c]) ++ a) by (now rewrite <- app_assoc). now apply IH.
Qed.

Lemma esc_key k : forallb is_key_char k = true -> esc k = k.
Proof.
  induction k as [|c k IH]; intros H; [reflexivity|]. cbn in H. apply andb_true_iff in H as [Hc Hk].
  change (esc (c :: k)) with (esc_char c ++ esc k). rewrite IH by exact Hk.
  apply key_char_text in Hc. unfold esc_char.
  replace (c =? 34) with false by lia. replace (c =? 92) with false by lia. replace (c =? 10) with false by lia.
  reflexivity.
Qed.

Lemma key_no_hit k : forall k0, forallb is_key_char k = true -> no_hit k0 k.
Proof.
  induction k as [|c k IH]; intros k0 H; [exact I|]. cbn in H. apply andb_true_iff in H as [Hc Hk].
  apply key_char_text in Hc. split; [lia|]. now apply IH.
Qed.

Lemma feeds_arg t k v A S a : arg_ok a = true ->
  exists k' v', feeds (mkReader (Some t) false PSpace k v A S) (wire_arg a)
                      (mkReader (Some t) false PSpace k' v' (A ++ [a]) S).
Proof.
  intros Ha. destruct (arg_ok_no_hit a Ha) as [Ht Hn]. exists a, [].
  unfold wire_arg. eapply feeds_cons; [reflexivity|reflexivity|reflexivity|].
  eapply feeds_app; [apply (quoted_key (Some t) [] A S a []); assumption|].
  cbn [app]. eapply feeds_cons; [reflexivity|reflexivity| |].
  - unfold step. cbn. unfold set_state, append_arg. cbn. rewrite text_ok_c_string by exact Ht. reflexivity.
  - apply feeds_one_eq; reflexivity.
Qed.

Lemma feeds_prop t k v A S kv : kv_ok kv = true ->
  exists k' v', feeds (mkReader (Some t) false PSpace k v A S) (wire_prop kv)
                      (mkReader (Some t) false PSpace k' v' A (S ++ [kv])).
Proof.
  unfold kv_ok. intros H. apply andb_true_iff in H as [Hk Hv]. destruct kv as [key val]. cbn [fst snd] in *.
  pose proof (key_ok_text _ Hk) as Hkt. rewrite key_ok_valid in Hk. pose proof (valid_key_chars _ Hk) as Hkc.
  exists [], []. unfold wire_prop. cbn [fst snd].
  eapply feeds_cons; [reflexivity|reflexivity|reflexivity|].
  eapply feeds_app.
  { pose proof (quoted_key (Some t) [] A S key [] Hkt (key_no_hit key [] Hkc)) as Q.
    rewrite esc_key in Q by exact Hkc. exact Q. }
  cbn [app]. eapply feeds_cons; [reflexivity|reflexivity| |].
  { unfold step. cbn [rd_state rd_key]. cbn [N.eqb Pos.eqb c_bsl c_quote c_eq]. rewrite Hk. reflexivity. }
  unfold set_state. cbn [rd_type rd_complete rd_key rd_val rd_args rd_sets].
  eapply feeds_app; [apply (quoted_value (Some t) key A S val []); exact Hv|].
  cbn [app]. eapply feeds_cons; [reflexivity|reflexivity| |].
  - unfold step. cbn. unfold reset_val, reset_key, set_state, append_prop. cbn. rewrite !text_ok_c_string by assumption. reflexivity.
  - apply feeds_one_eq; reflexivity.
Qed.

Lemma feeds_args t S args : forall k v A, forallb arg_ok args = true ->
  exists k' v', feeds (mkReader (Some t) false PSpace k v A S) (flat_map wire_arg args)
                      (mkReader (Some t) false PSpace k' v' (A ++ args) S).
Proof.
  induction args as [|a args IH]; intros k v A H.
  - exists k, v. rewrite app_nil_r. apply feeds_nil.
  - cbn in H. apply andb_true_iff in H as [Ha H].
    destruct (feeds_arg t k v A S a Ha) as (k1 & v1 & H1).
    destruct (IH k1 v1 (A ++ [a]) H) as (k2 & v2 & H2).
    exists k2, v2. rewrite <- app_assoc in H2. cbn [flat_map]. eapply feeds_app; eauto.
Qed.

Lemma feeds_props t A kvs : forall k v S, forallb kv_ok kvs = true ->
  exists k' v', feeds (mkReader (Some t) false PSpace k v A S) (flat_map wire_prop kvs)
                      (mkReader (Some t) false PSpace k' v' A (S ++ kvs)).
Proof.
  induction kvs as [|a kvs IH]; intros k v S H.
  - exists k, v. rewrite app_nil_r. apply feeds_nil.
  - cbn in H. apply andb_true_iff in H as [Ha H].
    destruct (feeds_prop t k v A S a Ha) as (k1 & v1 & H1).
    destruct (IH k1 v1 (S ++ [a]) H) as (k2 & v2 & H2).
    exists k2, v2. rewrite <- app_assoc in H2. cbn [flat_map]. eapply feeds_app; eauto.
Qed.

Lemma feeds_header t0 t A S :
  feeds (mkReader t0 false (PPrefix 0) [] [] A S) (str "@@TRAX:" ++ type_name t ++ [32])
        (mkReader (Some t) false PSpace [] [] A S).
Proof.
  destruct t; cbn [str map list_ascii_of_string app type_name];
    repeat (eapply feeds_cons; [reflexivity|reflexivity|reflexivity|]); apply feeds_nil.
Qed.

Lemma feeds_wire t0 t args kvs A S : forallb arg_ok args = true -> forallb kv_ok kvs = true ->
  exists k v, feeds (mkReader t0 false (PPrefix 0) [] [] A S) (wire t args kvs)
                    (mkReader (Some t) true PSpace k v (A ++ args) (S ++ kvs)).
Proof.
  intros Ha Hp.
  destruct (feeds_args t S args [] [] A Ha) as (k1 & v1 & H1).
  destruct (feeds_props t (A ++ args) kvs k1 v1 S Hp) as (k2 & v2 & H2).
  exists k2, v2. unfold wire.
  replace (str "@@TRAX:" ++ type_name t ++ [32] ++ flat_map wire_arg args ++ flat_map wire_prop kvs ++ [10])
    with ((str "@@TRAX:" ++ type_name t ++ [32]) ++ flat_map wire_arg args ++ flat_map wire_prop kvs ++ [10])
    by (rewrite <- !app_assoc; reflexivity).
  eapply feeds_app; [apply feeds_header|]. eapply feeds_app; [exact H1|]. eapply feeds_app; [exact H2|].
  apply feeds_one_eq; reflexivity.
Qed.

(** ---- Lines that are not messages ---- *)

Lemma feeds_pass t k v A S l : ascii l = true -> ~ In 10 l ->
  feeds (mkReader t false PPass k v A S) (l ++ [10]) (mkReader t false (PPrefix 0) k v A S).
Proof.
  induction l as [|c l IH]; intros Ha Hn.
  - apply feeds_one_eq; reflexivity.
  - cbn in Ha. apply andb_true_iff in Ha as [Hc Ha]. cbn [app].
    eapply feeds_cons; [reflexivity|exact Hc| |apply IH; [exact Ha|intros H; apply Hn; now right]].
    unfold step. cbn [rd_state]. unfold c_nl. destruct (c =? 10) eqn:E; [|reflexivity].
    exfalso. apply Hn. left. lia.
Qed.

Lemma feeds_nonprefix t k v A S l : forall n, ascii l = true -> ~ In 10 l -> (n < 7)%nat ->
  starts_with (skipn n TRAX_PREFIX) l = false ->
  feeds (mkReader t false (PPrefix n) k v A S) (l ++ [10]) (mkReader t false (PPrefix 0) k v A S).
Proof.
  induction l as [|c l IH]; intros n Ha Hn Hlt Hs.
  - cbn [app]. apply feeds_one_eq; [reflexivity|reflexivity|]. unfold step. cbn [rd_state].
    do 7 (destruct n as [|n]; [reflexivity|]). lia.
  - cbn in Ha. apply andb_true_iff in Ha as [Hc Ha]. cbn [app].
    assert (Hc10 : c <> 10) by (intros ->; apply Hn; now left).
    assert (Hn' : ~ In 10 l) by (intros H; apply Hn; now right).
    destruct (c =? nth n TRAX_PREFIX 0) eqn:E.
    + eapply feeds_cons; [reflexivity|exact Hc| |].
      { unfold step. cbn [rd_state]. rewrite E. reflexivity. }
      assert (Hsk : skipn n TRAX_PREFIX = nth n TRAX_PREFIX 0 :: skipn (Datatypes.S n) TRAX_PREFIX).
      { clear - Hlt. do 7 (destruct n as [|n]; [reflexivity|]). lia. }
      rewrite Hsk in Hs. cbn [starts_with] in Hs. rewrite N.eqb_sym, E in Hs. cbn [andb] in Hs.
      destruct (Nat.eqb n 6) eqn:E6.
      * apply Nat.eqb_eq in E6. subst n. cbn in Hs. discriminate.
      * apply IH; auto. lia.
    + eapply feeds_cons; [reflexivity|exact Hc| |apply feeds_pass; auto].
      unfold step. cbn [rd_state]. rewrite E. unfold c_nl. replace (c =? 10) with false by lia. reflexivity.
Qed.

Lemma feeds_junk_line t A S l : ascii l = true -> ~ In 10 l -> starts_with (str "@@TRAX:") l = false ->
  feeds (mkReader t false (PPrefix 0) [] [] A S) (l ++ [10]) (mkReader t false (PPrefix 0) [] [] A S).
Proof. intros. apply feeds_nonprefix; auto. lia. Qed.

Lemma feeds_junk t A S ls : Forall (fun l => ascii l = true /\ ~ In 10 l /\ starts_with (str "@@TRAX:") l = false) ls ->
  feeds (mkReader t false (PPrefix 0) [] [] A S) (flat_map (fun l => l ++ [10]) ls)
        (mkReader t false (PPrefix 0) [] [] A S).
Proof.
  induction ls as [|l ls IH]; intros H; [apply feeds_nil|].
  inversion_clear H as [|? ? (Ha & Hn & Hs) Hls]. cbn [flat_map].
  eapply feeds_app; [now apply feeds_junk_line|now apply IH].
Qed.

(** Lines with the prefix whose header is not a known message type followed by a space. *)
Lemma feeds_type_word t v A S w : forall k, forallb is_alnum w = true ->
  feeds (mkReader t false PType k v A S) w (mkReader t false PType (k ++ w) v A S).
Proof.
  induction w as [|c w IH]; intros k H; [rewrite app_nil_r; apply feeds_nil|].
  cbn in H. apply andb_true_iff in H as [Hc Hw].
  eapply feeds_cons; [reflexivity| | |].
  - unfold is_alnum, is_digit, is_upper, is_lower in Hc. lia.
  - unfold step. cbn [rd_state]. rewrite Hc. reflexivity.
  - cbn. replace (k ++ c :: w) with ((k ++ [c]) ++ w) by (now rewrite <- app_assoc). now apply IH.
Qed.

Lemma alnum_text w : forallb is_alnum w = true -> text_ok w = true.
Proof.
  unfold text_ok. rewrite !forallb_forall. intros H c Hc. specialize (H c Hc).
  unfold is_alnum, is_digit, is_upper, is_lower in H. unfold text_char. lia.
Qed.

Lemma feeds_bad_header t A S w c l :
  forallb is_alnum w = true -> is_alnum c = false -> c <> 10 -> c <? 128 = true ->
  (c = 32 -> parse_message_type w = None) -> ascii l = true -> ~ In 10 l ->
  exists t', feeds (mkReader t false (PPrefix 0) [] [] A S) (str "@@TRAX:" ++ w ++ [c] ++ l ++ [10])
        (mkReader t' false (PPrefix 0) [] [] A S).
Proof.
  intros Hw Hc Hc10 Hc128 Hsp Hl Hn. exists (if c =? 32 then None else t).
  eapply feeds_app.
  { cbn [str map list_ascii_of_string].
    repeat (eapply feeds_cons; [reflexivity|reflexivity|reflexivity|]); apply feeds_nil. }
  cbn. eapply feeds_app; [apply (feeds_type_word t [] A S w []); exact Hw|].
  cbn [app]. eapply feeds_cons; [reflexivity|exact Hc128| |apply feeds_pass; auto].
  unfold step. cbn [rd_state rd_key]. rewrite Hc. unfold c_sp, c_nl.
  rewrite text_ok_c_string by now apply alnum_text.
  destruct (c =? 32) eqn:E.
  - rewrite Hsp by lia. reflexivity.
  - replace (c =? 10) with false by lia. reflexivity.
Qed.

(** ---- Applying the properties ---- *)
Lemma props_set_all l : NoDup (map fst l) -> forall dest, sm_ok dest ->
  exists r, enum_into props_set l dest = Ok r /\ sm_ok r /\
    forall k, sm_lookup r k = over (pm_assoc l) (sm_lookup dest) k.
Proof.
  intros Hnd dest Hd.
  destruct (enum_into_overwrite (fun _ => true) props_set l ltac:(reflexivity) Hnd dest Hd) as (r & E & Hr & Hl).
  exists r. split; [exact E|]. split; [exact Hr|]. intros k. rewrite Hl. unfold over. reflexivity.
Qed.

Lemma props_set_any l : forall dest, sm_ok dest -> exists r, enum_into props_set l dest = Ok r /\ sm_ok r.
Proof.
  induction l as [|[k v] l IH]; intros dest Hd; [exists dest; split; [reflexivity|exact Hd]|].
  destruct (sm_put_spec dest k v Hd) as (m & E & Hm & _).
  destruct (IH m Hm) as (r & Er & Hr). exists r. split; [|exact Hr].
  cbn [enum_into]. unfold props_set at 1. rewrite E. exact Er.
Qed.
