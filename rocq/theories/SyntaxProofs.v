(** The reader accepts the documented message syntax. *)
From Verif Require Import CBase StrMap Props PropsSpec StrMapProofs PropsProofs Message MessageSpec MessageProofs MessageApi.

Ltac step_eq := unfold step; cbn [rd_state rd_key]; unfold c_sp, c_nl, c_cr, c_bsl, c_quote, c_eq, c_n.

(** One item in a quoted or unquoted key or value *)
Lemma qk_item t k v A S i : item_ok true i = true -> (i = Raw 61 -> is_valid_key k = false) ->
  feeds (mkReader t false PQuotedKey k v A S) (item_text i) (mkReader t false PQuotedKey (k ++ [item_char i]) v A S).
Proof.
  intros H Hk. destruct i as [c|c]; cbn [item_text item_char item_ok] in *; unfold text_char in H.
  - apply feeds_one_eq; [reflexivity|lia|]. step_eq.
    replace (c =? 92) with false by lia. replace (c =? 34) with false by lia.
    destruct (c =? 61) eqn:E; [|reflexivity]. rewrite Hk; [reflexivity|]. f_equal. lia.
  - eapply feeds_cons; [reflexivity|reflexivity|reflexivity|].
    apply feeds_one_eq; [reflexivity|destruct (c =? 10); lia|]. step_eq.
    destruct (c =? 10) eqn:E; [cbn; replace c with 10 by lia; reflexivity|].
    replace (c =? 110) with false by lia. rewrite E. reflexivity.
Qed.

Lemma uk_item t k v A S i : item_ok false i = true -> (i = Raw 61 -> is_valid_key k = false) ->
  feeds (mkReader t false PUnquotedKey k v A S) (item_text i) (mkReader t false PUnquotedKey (k ++ [item_char i]) v A S).
Proof.
  intros H Hk. destruct i as [c|c]; cbn [item_text item_char item_ok] in *; unfold text_char in H.
  - apply feeds_one_eq; [reflexivity|lia|]. step_eq.
    replace (c =? 92) with false by lia. replace (c =? 10) with false by lia. replace (c =? 32) with false by lia.
    destruct (c =? 61) eqn:E; [|reflexivity]. rewrite Hk; [reflexivity|]. f_equal. lia.
  - eapply feeds_cons; [reflexivity|reflexivity|reflexivity|].
    apply feeds_one_eq; [reflexivity|destruct (c =? 10); lia|]. step_eq.
    destruct (c =? 10) eqn:E; [cbn; replace c with 10 by lia; reflexivity|].
    replace (c =? 110) with false by lia. rewrite E. reflexivity.
Qed.

Lemma qv_item t k v A S i : item_ok true i = true ->
  feeds (mkReader t false PQuotedValue k v A S) (item_text i) (mkReader t false PQuotedValue k (v ++ [item_char i]) A S).
Proof.
  intros H. destruct i as [c|c]; cbn [item_text item_char item_ok] in *; unfold text_char in H.
  - apply feeds_one_eq; [reflexivity|lia|]. step_eq.
    replace (c =? 92) with false by lia. replace (c =? 34) with false by lia. reflexivity.
  - eapply feeds_cons; [reflexivity|reflexivity|reflexivity|].
    apply feeds_one_eq; [reflexivity|destruct (c =? 10); lia|]. step_eq.
    destruct (c =? 10) eqn:E; [cbn; replace c with 10 by lia; reflexivity|].
    replace (c =? 110) with false by lia. rewrite E. reflexivity.
Qed.

Lemma uv_item t k v A S i : item_ok false i = true ->
  feeds (mkReader t false PUnquotedValue k v A S) (item_text i) (mkReader t false PUnquotedValue k (v ++ [item_char i]) A S).
Proof.
  intros H. destruct i as [c|c]; cbn [item_text item_char item_ok] in *; unfold text_char in H.
  - apply feeds_one_eq; [reflexivity|lia|]. step_eq.
    replace (c =? 92) with false by lia. replace (c =? 10) with false by lia. replace (c =? 32) with false by lia. reflexivity.
  - eapply feeds_cons; [reflexivity|reflexivity|reflexivity|].
    apply feeds_one_eq; [reflexivity|destruct (c =? 10); lia|]. step_eq.
    destruct (c =? 10) eqn:E; [cbn; replace c with 10 by lia; reflexivity|].
    replace (c =? 110) with false by lia. rewrite E. reflexivity.
Qed.

(** Lists of items *)
Definition st_key (q : bool) : pstate := if q then PQuotedKey else PUnquotedKey.
Definition st_val (q : bool) : pstate := if q then PQuotedValue else PUnquotedValue.

Lemma key_items q t v A S l : forall k, forallb (item_ok q) l = true -> no_named k l = true ->
  feeds (mkReader t false (st_key q) k v A S) (flat_map item_text l)
        (mkReader t false (st_key q) (k ++ map item_char l) v A S).
Proof.
  induction l as [|i l IH]; intros k H Hn; [rewrite app_nil_r; apply feeds_nil|].
  cbn in H. apply andb_true_iff in H as [Hi Hl]. cbn [flat_map map].
  assert (Hk : i = Raw 61 -> is_valid_key k = false).
  { intros ->. cbn in Hn. apply andb_true_iff in Hn as [Hn _]. rewrite key_ok_valid in Hn. now apply negb_true_iff. }
  assert (Hn' : no_named (k ++ [item_char i]) l = true).
  { destruct i; cbn [no_named item_char] in *; [now apply andb_true_iff in Hn as [_ Hn]|exact Hn]. }
  assert (F : feeds (mkReader t false (st_key q) k v A S) (item_text i)
                    (mkReader t false (st_key q) (k ++ [item_char i]) v A S))
    by (destruct q; [now apply qk_item|now apply uk_item]).
  eapply feeds_app; [exact F|].
  replace (k ++ item_char i :: map item_char l) with ((k ++ [item_char i]) ++ map item_char l) by (now rewrite <- app_assoc).
  now apply IH.
Qed.

Lemma val_items q t k A S l : forall v, forallb (item_ok q) l = true ->
  feeds (mkReader t false (st_val q) k v A S) (flat_map item_text l)
        (mkReader t false (st_val q) k (v ++ map item_char l) A S).
Proof.
  induction l as [|i l IH]; intros v H; [rewrite app_nil_r; apply feeds_nil|].
  cbn in H. apply andb_true_iff in H as [Hi Hl]. cbn [flat_map map].
  assert (F : feeds (mkReader t false (st_val q) k v A S) (item_text i)
                    (mkReader t false (st_val q) k (v ++ [item_char i]) A S))
    by (destruct q; [now apply qv_item|now apply uv_item]).
  eapply feeds_app; [exact F|].
  replace (v ++ item_char i :: map item_char l) with ((v ++ [item_char i]) ++ map item_char l) by (now rewrite <- app_assoc).
  now apply IH.
Qed.

Lemma items_text q l : forallb (item_ok q) l = true -> text_ok (map item_char l) = true.
Proof.
  induction l as [|i l IH]; intros H; [reflexivity|]. cbn in H. apply andb_true_iff in H as [Hi Hl].
  cbn. apply andb_true_iff. split; [|now apply IH]. destruct i as [c|c]; cbn [item_ok item_char] in *;
    destruct (text_char c); try reflexivity; discriminate Hi.
Qed.

Lemma key_chars_feed q t v A S key : forall k, forallb is_key_char key = true ->
  feeds (mkReader t false (st_key q) k v A S) key (mkReader t false (st_key q) (k ++ key) v A S).
Proof.
  induction key as [|c key IH]; intros k H; [rewrite app_nil_r; apply feeds_nil|].
  cbn in H. apply andb_true_iff in H as [Hc H]. pose proof (key_char_text c Hc) as (Ht & H34 & H92 & H61 & H10).
  assert (H32 : c <> 32) by (intros ->; discriminate Hc).
  unfold text_char in Ht.
  eapply (feeds_cons _ _ (mkReader t false (st_key q) (k ++ [c]) v A S)); [destruct q; reflexivity|lia| |].
  - destruct q; cbn [st_key]; step_eq; replace (c =? 92) with false by lia;
      replace (c =? 61) with false by lia.
    + replace (c =? 34) with false by lia. reflexivity.
    + replace (c =? 10) with false by lia. replace (c =? 32) with false by lia. reflexivity.
  - replace (k ++ c :: key) with ((k ++ [c]) ++ key) by (now rewrite <- app_assoc). now apply IH.
Qed.

(** A token up to but excluding its terminator; [tail_state] is the reader state there. *)
Definition tok_args (A : list (list N)) (t : token) : list (list N) :=
  A ++ match tk_key t with None => [token_value t] | Some _ => [] end.
Definition tok_sets (S : list (list N * list N)) (t : token) : list (list N * list N) :=
  S ++ match tk_key t with Some k => [(k, token_value t)] | None => [] end.

(** An unquoted token leaves the reader inside the key or the value. *)
Lemma unquoted_body mt k v A S t : tk_quoted t = false -> token_ok t = true ->
  feeds (mkReader mt false PSpace k v A S) (token_text t)
    (match tk_key t with
     | None => mkReader mt false PUnquotedKey (token_value t) [] A S
     | Some key => mkReader mt false PUnquotedValue key (token_value t) A S
     end).
Proof.
  intros Hq H. unfold token_ok in H. rewrite Hq in H. cbn [orb] in H. unfold token_text. rewrite Hq.
  apply andb_true_iff in H as [Hi H]. destruct (tk_key t) as [key|] eqn:Ek.
  - apply andb_true_iff in H as [Hk Hne]. rewrite key_ok_valid in Hk. pose proof (valid_key_chars _ Hk) as Hkc.
    destruct key as [|c key]; [discriminate Hne|].
    cbn in Hkc. apply andb_true_iff in Hkc as [Hc Hkc].
    pose proof (key_char_text c Hc) as (Ht & H34 & H92 & H61 & H10). unfold text_char in Ht.
    assert (H32 : c <> 32) by (intros ->; discriminate Hc).
    assert (H13 : c <> 13) by (intros ->; discriminate Hc).
    cbn [app]. eapply feeds_cons; [reflexivity|lia| |].
    { step_eq. replace (c =? 32) with false by lia. replace (c =? 13) with false by lia.
      replace (c =? 10) with false by lia. replace (c =? 34) with false by lia. cbn. reflexivity. }
    cbn. rewrite <- app_assoc. eapply feeds_app; [apply (key_chars_feed false mt [] A S key [c] Hkc)|].
    cbn [app]. eapply feeds_cons; [reflexivity|reflexivity| |].
    { step_eq. cbn. rewrite Hk. reflexivity. }
    cbn. unfold token_value. apply (val_items false mt (c :: key) A S (tk_items t) []). exact Hi.
  - apply andb_true_iff in H as [Hn Hf]. unfold token_value. destruct (tk_items t) as [|[c|c] l]; try discriminate Hf.
    cbn in Hf, Hi, Hn. apply andb_true_iff in Hi as [Hc Hi]. unfold text_char in Hc.
    apply andb_true_iff in Hn as [Hn1 Hn]. cbn [app flat_map item_text].
    eapply feeds_cons; [reflexivity|lia| |].
    { step_eq. replace (c =? 32) with false by lia. replace (c =? 13) with false by lia.
      replace (c =? 10) with false by lia. replace (c =? 34) with false by lia. cbn. reflexivity. }
    cbn. apply (key_items false mt [] A S l [c]); assumption.
Qed.

Lemma quoted_token mt k v A S t : tk_quoted t = true -> token_ok t = true ->
  exists k' v', feeds (mkReader mt false PSpace k v A S) (token_text t)
                      (mkReader mt false PSpaceExpect k' v' (tok_args A t) (tok_sets S t)).
Proof.
  intros Hq H. unfold token_ok in H. rewrite Hq in H. cbn [orb] in H. unfold token_text, tok_args, tok_sets. rewrite Hq.
  apply andb_true_iff in H as [Hi H]. pose proof (items_text _ _ Hi) as Htx. destruct (tk_key t) as [key|] eqn:Ek.
  - apply andb_true_iff in H as [Hk _]. pose proof (key_ok_text _ Hk) as Hkt.
    rewrite key_ok_valid in Hk. pose proof (valid_key_chars _ Hk) as Hkc.
    exists [], []. cbn [app]. eapply feeds_cons; [reflexivity|reflexivity|reflexivity|].
    cbn. rewrite <- !app_assoc. eapply feeds_app; [apply (key_chars_feed true mt [] A S key [] Hkc)|].
    cbn [app]. eapply feeds_cons; [reflexivity|reflexivity| |].
    { step_eq. cbn. rewrite Hk. reflexivity. }
    cbn. eapply feeds_app; [apply (val_items true mt key A S (tk_items t) []); exact Hi|].
    apply feeds_one_eq; [reflexivity|reflexivity|]. step_eq. cbn. unfold reset_val, reset_key, set_state, append_prop. cbn.
    fold (token_value t). rewrite !text_ok_c_string by assumption. rewrite app_nil_r. reflexivity.
  - apply andb_true_iff in H as [Hn _]. exists (token_value t), [].
    cbn [app]. eapply feeds_cons; [reflexivity|reflexivity|reflexivity|].
    cbn. eapply feeds_app; [apply (key_items true mt [] A S (tk_items t) []); assumption|].
    apply feeds_one_eq; [reflexivity|reflexivity|]. step_eq. cbn. unfold set_state, append_arg. cbn.
    fold (token_value t). rewrite text_ok_c_string by assumption. rewrite app_nil_r. reflexivity.
Qed.

Lemma feeds_spaces mt k v A S n : feeds (mkReader mt false PSpace k v A S) (spaces n) (mkReader mt false PSpace k v A S).
Proof.
  induction n as [|n IH]; [apply feeds_nil|]. eapply feeds_cons; [reflexivity|reflexivity|reflexivity|]. exact IH.
Qed.

Lemma token_text_value t : token_ok t = true -> text_ok (token_value t) = true.
Proof. unfold token_ok. intros H. apply andb_true_iff in H as [H _]. now apply items_text in H. Qed.

Lemma token_space mt k v A S t n : token_ok t = true ->
  exists k' v', feeds (mkReader (Some mt) false PSpace k v A S) (token_text t ++ spaces (Datatypes.S n))
                      (mkReader (Some mt) false PSpace k' v' (tok_args A t) (tok_sets S t)).
Proof.
  intros H. pose proof (token_text_value t H) as Hv. destruct (tk_quoted t) eqn:Eq.
  - destruct (quoted_token (Some mt) k v A S t Eq H) as (k' & v' & HF). exists k', v'.
    eapply feeds_app; [exact HF|]. eapply feeds_cons; [reflexivity|reflexivity|reflexivity|]. apply feeds_spaces.
  - pose proof (unquoted_body (Some mt) k v A S t Eq H) as HF. unfold tok_args, tok_sets.
    destruct (tk_key t) as [key|] eqn:Ek.
    + exists [], []. eapply feeds_app; [exact HF|].
      eapply feeds_cons; [reflexivity|reflexivity| |apply feeds_spaces].
      step_eq. cbn. unfold reset_val, reset_key, set_state, append_prop. cbn.
      rewrite (text_ok_c_string key), (text_ok_c_string (token_value t)); auto.
      { rewrite app_nil_r. reflexivity. }
      unfold token_ok in H. rewrite Ek in H. apply andb_true_iff in H as [_ H].
      apply andb_true_iff in H as [H _]. now apply key_ok_text.
    + exists [], []. eapply feeds_app; [exact HF|].
      eapply feeds_cons; [reflexivity|reflexivity| |apply feeds_spaces].
      step_eq. cbn. unfold reset_key, set_state, append_arg. cbn.
      rewrite (text_ok_c_string (token_value t)) by exact Hv. rewrite app_nil_r. reflexivity.
Qed.

(** The complete reader at the end of a line, as far as it matters. *)
Definition ends (mt : option mtype) (A : list (list N)) (S : list (list N * list N)) (s : reader) : Prop :=
  rd_type s = mt /\ rd_complete s = true /\ rd_args s = A /\ rd_sets s = S.

Lemma token_newline mt k v A S t : token_ok t = true ->
  exists s, feeds (mkReader (Some mt) false PSpace k v A S) (token_text t ++ [10]) s /\
            ends (Some mt) (tok_args A t) (tok_sets S t) s.
Proof.
  intros H. pose proof (token_text_value t H) as Hv. destruct (tk_quoted t) eqn:Eq.
  - destruct (quoted_token (Some mt) k v A S t Eq H) as (k' & v' & HF). eexists. split.
    + eapply feeds_app; [exact HF|]. apply feeds_one_eq; reflexivity.
    + repeat split.
  - pose proof (unquoted_body (Some mt) k v A S t Eq H) as HF. unfold tok_args, tok_sets.
    destruct (tk_key t) as [key|] eqn:Ek; (eexists; split;
      [eapply feeds_app; [exact HF|]; apply feeds_one_eq; reflexivity|]).
    + unfold ends. cbn. rewrite (text_ok_c_string key), (text_ok_c_string (token_value t)); auto.
      { rewrite app_nil_r. repeat split. }
      unfold token_ok in H. rewrite Ek in H. apply andb_true_iff in H as [_ H].
      apply andb_true_iff in H as [H _]. now apply key_ok_text.
    + unfold ends. cbn. rewrite (text_ok_c_string (token_value t)) by exact Hv. rewrite app_nil_r. repeat split.
Qed.

Definition toks_args A ts := fold_left tok_args ts A.
Definition toks_sets S ts := fold_left tok_sets ts S.

Lemma tokens_space mt toks : forall k v A S, forallb token_ok (map fst toks) = true ->
  exists k' v', feeds (mkReader (Some mt) false PSpace k v A S)
                      (flat_map (fun tn => token_text (fst tn) ++ spaces (Datatypes.S (snd tn))) toks)
                      (mkReader (Some mt) false PSpace k' v' (toks_args A (map fst toks)) (toks_sets S (map fst toks))).
Proof.
  induction toks as [|[t n] toks IH]; intros k v A S H.
  - exists k, v. apply feeds_nil.
  - cbn in H. apply andb_true_iff in H as [Ht H].
    destruct (token_space mt k v A S t n Ht) as (k1 & v1 & H1).
    destruct (IH k1 v1 (tok_args A t) (tok_sets S t) H) as (k2 & v2 & H2).
    exists k2, v2. cbn [flat_map fst snd]. eapply feeds_app; eauto.
Qed.

Lemma header_word t0 A S w mt : forallb is_alnum w = true -> parse_message_type w = Some mt ->
  feeds (mkReader t0 false (PPrefix 0) [] [] A S) (str "@@TRAX:" ++ w ++ [32]) (mkReader (Some mt) false PSpace [] [] A S).
Proof.
  intros Hw Hp. eapply feeds_app.
  { cbn [str map list_ascii_of_string].
    repeat (eapply feeds_cons; [reflexivity|reflexivity|reflexivity|]); apply feeds_nil. }
  cbn. eapply feeds_app; [apply (feeds_type_word t0 [] A S w []); exact Hw|].
  apply feeds_one_eq; [reflexivity|reflexivity|]. unfold step. cbn.
  rewrite text_ok_c_string by now apply alnum_text. rewrite Hp. reflexivity.
Qed.

Lemma bare_header t0 A S w mt : forallb is_alnum w = true -> parse_message_type w = Some mt ->
  exists s, feeds (mkReader t0 false (PPrefix 0) [] [] A S) (bare_line w) s /\ ends (Some mt) A S s.
Proof.
  intros Hw Hp. eexists. split.
  - unfold bare_line. eapply feeds_app.
    { cbn [str map list_ascii_of_string].
      repeat (eapply feeds_cons; [reflexivity|reflexivity|reflexivity|]); apply feeds_nil. }
    cbn. eapply feeds_app; [apply (feeds_type_word t0 [] A S w []); exact Hw|].
    apply feeds_one_eq; [reflexivity|reflexivity|]. unfold step. cbn.
    rewrite text_ok_c_string by now apply alnum_text. rewrite Hp. reflexivity.
  - repeat split.
Qed.

Lemma line_feeds t0 w mt sp toks final : forallb is_alnum w = true -> parse_message_type w = Some mt ->
  forallb token_ok (line_tokens toks final) = true ->
  exists s, feeds (reader_start t0) (line_text w sp toks final) s /\
    ends (Some mt) (toks_args [] (line_tokens toks final)) (toks_sets [] (line_tokens toks final)) s.
Proof.
  intros Hw Hp Ht. unfold line_tokens in *. rewrite forallb_app in Ht. apply andb_true_iff in Ht as [Ht Hf].
  destruct (tokens_space mt toks [] [] [] [] Ht) as (k1 & v1 & H1).
  unfold toks_args, toks_sets. rewrite !fold_left_app.
  fold (toks_args [] (map fst toks)) (toks_sets [] (map fst toks)).
  assert (G : exists s, feeds (mkReader (Some mt) false PSpace k1 v1 (toks_args [] (map fst toks)) (toks_sets [] (map fst toks)))
       (match final with Some t => token_text t | None => [] end ++ [10]) s /\
       ends (Some mt) (fold_left tok_args match final with Some t => [t] | None => [] end (toks_args [] (map fst toks)))
            (fold_left tok_sets match final with Some t => [t] | None => [] end (toks_sets [] (map fst toks))) s).
  { destruct final as [t|].
    - cbn in Hf. rewrite andb_true_r in Hf. now apply token_newline.
    - eexists. split; [apply feeds_one_eq; reflexivity|]. repeat split. }
  destruct G as (s & G1 & G2). exists s. split; [|exact G2].
  unfold line_text. change (spaces (Datatypes.S sp)) with ([32] ++ spaces sp).
  replace (str "@@TRAX:" ++ w ++ ([32] ++ spaces sp) ++
     flat_map (fun tn => token_text (fst tn) ++ spaces (Datatypes.S (snd tn))) toks ++
     match final with Some t => token_text t | None => [] end ++ [10])
   with ((str "@@TRAX:" ++ w ++ [32]) ++ spaces sp ++
     flat_map (fun tn => token_text (fst tn) ++ spaces (Datatypes.S (snd tn))) toks ++
     match final with Some t => token_text t | None => [] end ++ [10]) by (rewrite <- !app_assoc; reflexivity).
  eapply feeds_app; [apply header_word; eassumption|]. eapply feeds_app; [apply feeds_spaces|].
  eapply feeds_app; [exact H1|exact G1].
Qed.

Lemma toks_args_eq ts : forall A, toks_args A ts = A ++ positional ts.
Proof.
  induction ts as [|t ts IH]; intros A; [now rewrite app_nil_r|].
  change (toks_args A (t :: ts)) with (toks_args (tok_args A t) ts).
  rewrite IH. unfold tok_args. rewrite <- app_assoc. reflexivity.
Qed.

Definition set_ops (l : list (list N * list N)) : list pop := map (fun kv => PSet (fst kv) (snd kv)) l.
Lemma toks_sets_eq ts : forall S, set_ops (toks_sets S ts) = set_ops S ++ named ts.
Proof.
  induction ts as [|t ts IH]; intros S; [now rewrite app_nil_r|].
  change (toks_sets S (t :: ts)) with (toks_sets (tok_sets S t) ts).
  rewrite IH. unfold tok_sets, set_ops. rewrite map_app, <- app_assoc.
  unfold named. cbn [flat_map]. destruct (tk_key t); reflexivity.
Qed.

Lemma enum_into_run l : forall dest, sm_ok dest ->
  exists r, enum_into props_set l dest = Ok r /\ sm_ok r /\
   forall k, sm_lookup r k = fold_left pm_step (set_ops l) (sm_lookup dest) k.
Proof.
  induction l as [|[k v] l IH]; intros dest Hd; [exists dest; refine (conj eq_refl (conj Hd _)); reflexivity|].
  destruct (sm_put_spec dest k v Hd) as (m & E & Hm & _ & Hl).
  destruct (IH m Hm) as (r & Er & Hr & Hrl). exists r. split; [|split; [exact Hr|]].
  - cbn [enum_into]. unfold props_set at 1. rewrite E. exact Er.
  - intros key. rewrite Hrl. cbn [set_ops map fold_left fst snd pm_step].
    assert (G : forall ops m1 m2, (forall k, m1 k = m2 k) -> forall k, fold_left pm_step ops m1 k = fold_left pm_step ops m2 k).
    { clear. induction ops as [|o ops IH]; intros m1 m2 H k; [apply H|]. cbn [fold_left]. apply IH. intros k'.
      destruct o; cbn [pm_step]; [|reflexivity]. unfold pm_set. now rewrite H. }
    apply G. intros k'. now rewrite Hl.
Qed.

Lemma fed_line t st line rest mt A S s : delivers st -> stream_bytes st = line ++ rest ->
  feeds (reader_start t) line s -> ends (Some mt) A S s ->
  exists r, read_message t st props_create = Ok r /\ rr_type r = Some mt /\ rr_args r = A /\
    (forall k, props_get (rr_props r) k = Ok (pm_run (set_ops S) k)) /\
    stream_bytes (rr_stream r) = rest /\ rr_log r = line.
Proof.
  intros Hd Hb HF (H1 & H2 & H3 & H4). destruct (read_message_run t st props_create Hd) as (st' & Hd' & Er & Hst').
  rewrite Hb, (HF rest) in Er, Hst'. rewrite run_complete in Er, Hst' by exact H2. cbn [fst snd] in *.
  destruct (enum_into_run (rd_sets s) props_create props_create_ok) as (p & Ep & Hp & Hl).
  rewrite Ep in Er. cbn [obind] in Er. eexists. split; [exact Er|]. cbn.
  split; [exact H1|]. split; [exact H3|]. split; [|split; [exact Hst'|now rewrite app_nil_r]].
  intros k. rewrite props_get_spec by exact Hp. rewrite Hl, H4. f_equal. unfold pm_run.
  assert (G : forall ops m1 m2, (forall k, m1 k = m2 k) -> fold_left pm_step ops m1 k = fold_left pm_step ops m2 k).
  { clear. induction ops as [|o ops IH]; intros m1 m2 H; [apply H|]. cbn [fold_left]. apply IH. intros k'.
    destruct o; cbn [pm_step]; [|reflexivity]. unfold pm_set. now rewrite H. }
  apply G. intros k'. unfold props_create. now rewrite sm_new_lookup.
Qed.

Lemma documented_syntax w mt sp toks final : forallb is_alnum w = true -> parse_message_type w = Some mt ->
  forallb token_ok (line_tokens toks final) = true ->
  forall t st rest, delivers st -> stream_bytes st = line_text w sp toks final ++ rest ->
  exists r, read_message t st props_create = Ok r /\ rr_type r = Some mt /\
    rr_args r = positional (line_tokens toks final) /\
    (forall k, props_get (rr_props r) k = Ok (pm_run (named (line_tokens toks final)) k)) /\
    stream_bytes (rr_stream r) = rest /\ rr_log r = line_text w sp toks final.
Proof.
  intros Hw Hp Ht t st rest Hd Hb. destruct (line_feeds t w mt sp toks final Hw Hp Ht) as (s & HF & He).
  rewrite toks_args_eq in He.
  destruct (fed_line t st _ rest mt _ _ s Hd Hb HF He) as (r & E & H1 & H2 & H3 & H4).
  exists r. rewrite toks_sets_eq in H3. auto.
Qed.

Lemma documented_bare w mt : forallb is_alnum w = true -> parse_message_type w = Some mt ->
  forall t st rest, delivers st -> stream_bytes st = bare_line w ++ rest ->
  exists r, read_message t st props_create = Ok r /\ rr_type r = Some mt /\ rr_args r = [] /\
    (forall k, props_get (rr_props r) k = Ok None) /\
    stream_bytes (rr_stream r) = rest /\ rr_log r = bare_line w.
Proof.
  intros Hw Hp t st rest Hd Hb. destruct (bare_header t [] [] w mt Hw Hp) as (s & HF & He).
  destruct (fed_line t st _ rest mt _ _ s Hd Hb HF He) as (r & E & H1 & H2 & H3 & H4). exists r. auto.
Qed.

(** An escape as the first character of an unquoted argument is not recognised. *)
Lemma first_escape_broken : exists items r,
  forallb (item_ok false) items = true /\ no_named [] items = true /\
  read_message None (one_chunk (str "@@TRAX:frame " ++ flat_map item_text items ++ [10])) props_create = Ok r /\
  rr_args r <> [map item_char items].
Proof.
  exists [Esc 34; Raw 97]. eexists. split; [reflexivity|]. split; [reflexivity|]. split; [vm_compute; reflexivity|].
  cbn. discriminate.
Qed.

(** The log of a failed write misses bytes that were written. *)
Lemma log_failed_write : exists sched m o, send (mkO sched [] []) m = Ok o /\ o_log o <> o_bytes o.
Proof.
  exists [WAccept 3; WError; WError; WError; WError], (mkMsg MQuit [] []). eexists.
  split; [vm_compute; reflexivity|]. cbn. discriminate.
Qed.
