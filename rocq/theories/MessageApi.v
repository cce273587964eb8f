(** The message properties, as lemmas about applications (histories, schedules, chunkings). *)
From Verif Require Import CBase StrMap Props PropsSpec StrMapProofs PropsProofs Message MessageSpec MessageProofs.

Lemma msg_kvs m p : props_run (m_hist m) = Ok p -> msg_ok m -> forallb kv_ok (props_enum p) = true.
Proof.
  intros E [_ H]. destruct (props_api (m_hist m)) as (p' & E' & _ & _ & [_ En] & _).
  rewrite E in E'. inversion E'; subst p'. apply forallb_forall. intros [k v] Hin. apply H. now apply En.
Qed.

Lemma send_wire o m : no_error (o_sched o) ->
  exists p o', props_run (m_hist m) = Ok p /\ enumerates (props_enum p) (pm_run (m_hist m)) /\
    send o m = Ok o' /\ no_error (o_sched o') /\
    o_bytes o' = o_bytes o ++ wire (m_type m) (m_args m) (props_enum p) /\
    o_log o' = o_log o ++ wire (m_type m) (m_args m) (props_enum p).
Proof.
  intros H. destruct (props_api (m_hist m)) as (p & E & _ & _ & En & _).
  exists p, (write_message o (m_type m) (m_args m) p).
  split; [exact E|]. split; [exact En|]. split; [unfold send; rewrite E; reflexivity|].
  now apply write_message_ok.
Qed.

Lemma read_fed t st m p pre rest :
  props_run (m_hist m) = Ok p -> enumerates (props_enum p) (pm_run (m_hist m)) -> msg_ok m -> delivers st ->
  (exists t', feeds (reader_start t) pre (reader_start t')) ->
  stream_bytes st = pre ++ wire (m_type m) (m_args m) (props_enum p) ++ rest ->
  exists r, read_message t st props_create = Ok r /\ receives r m /\
    stream_bytes (rr_stream r) = rest /\ delivers (rr_stream r) /\
    rr_log r = pre ++ wire (m_type m) (m_args m) (props_enum p).
Proof.
  intros E En Hok Hd (t' & Hpre) Hb.
  destruct (read_message_run t st props_create Hd) as (st' & Hd' & Er & Hst').
  rewrite Hb in Er, Hst'.
  destruct (feeds_wire t' (m_type m) (m_args m) (props_enum p) [] [] (proj1 Hok) (msg_kvs m p E Hok)) as (k & v & Hw).
  pose proof (feeds_app _ _ _ _ _ Hpre Hw rest) as HF.
  rewrite <- app_assoc in HF. rewrite HF in Er, Hst'.
  rewrite run_complete in Er, Hst' by reflexivity. cbn [fst snd rd_sets rd_type rd_args app] in Er, Hst'.
  destruct (props_set_all (props_enum p) (proj1 En) props_create props_create_ok) as (d & Ed & Hdok & Hdl).
  rewrite Ed in Er. cbn [obind] in Er.
  eexists. split; [exact Er|]. unfold receives. cbn [rr_type rr_args rr_props rr_stream rr_log].
  split; [|split; [exact Hst'|split; [exact Hd'|now rewrite app_nil_r]]].
  split; [reflexivity|]. split; [reflexivity|].
  intros key. rewrite props_get_spec by exact Hdok. rewrite Hdl. unfold over.
  rewrite (pm_assoc_enumerates _ _ En). destruct (pm_run (m_hist m) key); [reflexivity|].
  unfold props_create. now rewrite sm_new_lookup.
Qed.

Lemma feeds_refl t : exists t', feeds (reader_start t) [] (reader_start t').
Proof. exists t. apply feeds_nil. Qed.

(** C01 *)
Lemma round_trip m sched : msg_ok m -> no_error sched ->
  exists o, send (mkO sched [] []) m = Ok o /\
  forall t st rest, delivers st -> stream_bytes st = o_bytes o ++ rest ->
  exists r, read_message t st props_create = Ok r /\ receives r m /\
    stream_bytes (rr_stream r) = rest /\ delivers (rr_stream r).
Proof.
  intros Hm Hs. destruct (send_wire (mkO sched [] []) m Hs) as (p & o & E & En & Es & _ & Hb & _).
  exists o. split; [exact Es|]. intros t st rest Hd Hst. rewrite Hb in Hst. cbn [o_bytes app] in Hst.
  destruct (read_fed t st m p [] rest E En Hm Hd (feeds_refl t) Hst) as (r & Hr & Hrec & Hrest & Hd' & _).
  exists r. auto.
Qed.

(** Sequences with plain lines in front of each message. *)
Lemma read_transcript items : Forall (fun it => Forall plain_line (fst it) /\ msg_ok (snd it)) items ->
  exists bytes, transcript items = Ok bytes /\
  forall t st rest, delivers st -> stream_bytes st = bytes ++ rest ->
  exists rs st', read_many (List.length items) t st = Ok (rs, st') /\
    Forall2 receives rs (map snd items) /\ stream_bytes st' = rest /\ delivers st'.
Proof.
  induction items as [|[ls m] items IH]; intros H.
  - exists []. split; [reflexivity|]. intros t st rest Hd Hb. exists [], st. cbn. repeat split; auto.
  - inversion_clear H as [|? ? [Hls Hm] Hi]. cbn [fst snd] in *.
    destruct (IH Hi) as (bytes & Eb & Hread).
    destruct (send_wire (mkO [] [] []) m ltac:(constructor)) as (p & o & E & En & Es & _ & Hob & _).
    cbn [o_bytes app] in Hob.
    exists (lines ls ++ o_bytes o ++ bytes). split; [cbn [transcript]; rewrite Es; cbn [obind]; rewrite Eb; reflexivity|].
    intros t st rest Hd Hst. rewrite Hob, <- !app_assoc in Hst.
    destruct (read_fed t st m p (lines ls) (bytes ++ rest) E En Hm Hd) as (r & Hr & Hrec & Hrest & Hd' & _).
    + exists t. apply feeds_junk. exact Hls.
    + exact Hst.
    + destruct (Hread (rr_type r) (rr_stream r) rest Hd' Hrest) as (rs & st' & Hrs & Hf & Hb & Hd'').
      exists (r :: rs), st'. cbn [List.length read_many]. rewrite Hr. cbn [obind]. rewrite Hrs. cbn [obind fst snd].
      cbn [map]. repeat split; auto.
Qed.

(** send_all gives the concatenation of the wire images, for every schedule without errors. *)
Lemma send_all_bytes ms : exists bytes, transcript (map (fun m => ([], m)) ms) = Ok bytes /\
  forall o, no_error (o_sched o) ->
    exists o', send_all o ms = Ok o' /\ no_error (o_sched o') /\
      o_bytes o' = o_bytes o ++ bytes /\ o_log o' = o_log o ++ bytes.
Proof.
  induction ms as [|m ms (bytes & Eb & IH)].
  - exists []. split; [reflexivity|]. intros o H. exists o. rewrite !app_nil_r. auto.
  - destruct (send_wire (mkO [] [] []) m ltac:(constructor)) as (p & o0 & E & En & Es & _ & Hob & _).
    cbn [o_bytes app] in Hob.
    exists (o_bytes o0 ++ bytes). split.
    { cbn [map transcript]. rewrite Es. cbn [obind]. rewrite Eb. reflexivity. }
    intros o H. destruct (send_wire o m H) as (p' & o1 & E' & _ & Es' & H1 & Hb1 & Hl1).
    rewrite E in E'. inversion E'; subst p'.
    destruct (IH o1 H1) as (o2 & E2 & H2 & Hb2 & Hl2).
    exists o2. cbn [send_all]. rewrite Es'. cbn [obind].
    rewrite Hb2, Hl2, Hb1, Hl1, Hob, <- !app_assoc. auto.
Qed.

(** C02 *)
Lemma sequence_round_trip ms sched : Forall msg_ok ms -> no_error sched ->
  exists o, send_all (mkO sched [] []) ms = Ok o /\
  forall t st rest, delivers st -> stream_bytes st = o_bytes o ++ rest ->
  exists rs st', read_many (List.length ms) t st = Ok (rs, st') /\
    Forall2 receives rs ms /\ stream_bytes st' = rest /\ delivers st'.
Proof.
  intros Hms Hs. destruct (send_all_bytes ms) as (bytes & Eb & H).
  destruct (H (mkO sched [] []) Hs) as (o & Eo & _ & Hb & _). exists o. split; [exact Eo|].
  cbn [o_bytes app] in Hb. intros t st rest Hd Hst. rewrite Hb in Hst.
  destruct (read_transcript (map (fun m => ([], m)) ms)) as (bytes' & Eb' & Hread).
  - apply Forall_map. cbn. revert Hms. apply Forall_impl. intros m Hm. split; [constructor|exact Hm].
  - rewrite Eb in Eb'. inversion Eb'; subst bytes'.
    destruct (Hread t st rest Hd Hst) as (rs & st' & Hr & Hf & Hrest & Hd').
    exists rs, st'. rewrite map_length in Hr. rewrite map_map, map_id in Hf. auto.
Qed.

(** C03 *)
Lemma chunking_one t st1 st2 p : sm_ok p -> delivers st1 -> delivers st2 -> stream_bytes st1 = stream_bytes st2 ->
  exists r1 r2, read_message t st1 p = Ok r1 /\ read_message t st2 p = Ok r2 /\ same_read r1 r2 /\
    stream_bytes (rr_stream r1) = stream_bytes (rr_stream r2) /\
    delivers (rr_stream r1) /\ delivers (rr_stream r2) /\ sm_ok (rr_props r1).
Proof.
  intros Hp H1 H2 E.
  destruct (read_message_run t st1 p H1) as (s1 & D1 & E1 & B1).
  destruct (read_message_run t st2 p H2) as (s2 & D2 & E2 & B2).
  rewrite <- E in E2, B2. destruct (run (stream_bytes st1) (reader_start t)) as [[s r] lg].
  destruct (props_set_any (rd_sets s) p Hp) as (p' & Ep & Hp'). rewrite Ep in E1, E2. cbn [obind fst snd] in *.
  eexists. eexists. split; [exact E1|]. split; [exact E2|]. unfold same_read. cbn. rewrite B1, B2.
  refine (conj (conj eq_refl (conj eq_refl (conj eq_refl eq_refl))) (conj eq_refl (conj D1 (conj D2 Hp')))).
Qed.

Lemma chunking n : forall t st1 st2, delivers st1 -> delivers st2 -> stream_bytes st1 = stream_bytes st2 ->
  exists rs1 rs2 st1' st2', read_many n t st1 = Ok (rs1, st1') /\ read_many n t st2 = Ok (rs2, st2') /\
    List.length rs1 = n /\ Forall2 same_read rs1 rs2 /\ stream_bytes st1' = stream_bytes st2'.
Proof.
  induction n as [|n IH]; intros t st1 st2 H1 H2 E.
  - exists [], [], st1, st2. cbn. repeat split; auto.
  - destruct (chunking_one t st1 st2 props_create props_create_ok H1 H2 E)
      as (r1 & r2 & E1 & E2 & Hs & Hb & D1 & D2 & _).
    destruct (IH (rr_type r1) _ _ D1 D2 Hb) as (rs1 & rs2 & st1' & st2' & F1 & F2 & Hl & HF & HB).
    exists (r1 :: rs1), (r2 :: rs2), st1', st2'. cbn [read_many].
    rewrite E1, E2. cbn [obind]. destruct Hs as (Ht & Ha). rewrite <- Ht, F1, F2. cbn [obind fst snd List.length].
    split; [reflexivity|]. split; [reflexivity|]. split; [congruence|]. split; [|exact HB].
    constructor; [|exact HF]. split; assumption.
Qed.

(** C04 *)
Lemma short_writes ms sched : no_error sched ->
  exists o o0, send_all (mkO sched [] []) ms = Ok o /\ send_all (mkO [] [] []) ms = Ok o0 /\
    o_bytes o = o_bytes o0.
Proof.
  intros Hs. destruct (send_all_bytes ms) as (bytes & _ & H).
  destruct (H (mkO sched [] []) Hs) as (o & Eo & _ & Hb & _).
  destruct (H (mkO [] [] []) ltac:(constructor)) as (o0 & Eo0 & _ & Hb0 & _).
  exists o, o0. cbn [o_bytes] in *. split; [exact Eo|]. split; [exact Eo0|]. congruence.
Qed.

(** A stream that fails for good: from some call on every write returns -1. *)
Lemma write_all_dead n buf : buf <> [] -> write_all (repeat WError (S n)) buf = (repeat WError n, [], false).
Proof. intros H. destruct buf; [congruence|reflexivity]. Qed.

Lemma run_output_dead n o chunks : o_sched o = repeat WError (S n) ->
  o_bytes (run_output o chunks) = o_bytes o /\ exists n', o_sched (run_output o chunks) = repeat WError n' /\ (n <= n')%nat.
Proof.
  revert o. induction chunks as [|b chunks IH]; intros o Ho; cbn [run_output].
  - split; [reflexivity|]. exists (S n). split; [exact Ho|lia].
  - destruct b as [|x b].
    + cbn [write_buffer]. now apply IH.
    + unfold write_buffer. rewrite Ho, write_all_dead by discriminate. cbn [o_bytes o_sched].
      rewrite app_nil_r. split; [reflexivity|]. exists n. split; [reflexivity|lia].
Qed.

Lemma run_outputs_dead outs : forall n o, o_sched o = repeat WError n -> (List.length outs <= n)%nat ->
  o_bytes (fold_left run_output outs o) = o_bytes o.
Proof.
  induction outs as [|x outs IH]; intros n o Ho Hl; [reflexivity|].
  cbn [fold_left List.length] in *. destruct n as [|n]; [lia|].
  destruct (run_output_dead n o x Ho) as (Hb & n' & Hn' & Hle).
  rewrite (IH n' _ Hn' ltac:(lia)). exact Hb.
Qed.

(** What one write_all call does with a schedule of good calls followed by failures for ever. *)
Definition dying (sched : list wres) (n : nat) : Prop :=
  exists good m, sched = good ++ repeat WError m /\ no_error good /\ (n <= m)%nat.

Lemma write_all_dying good m : no_error good -> forall buf,
  exists r d ok, write_all (good ++ repeat WError (S m)) buf = (r, d, ok) /\
    (exists tl, buf = d ++ tl) /\
    if ok : bool then d = buf /\ exists good', r = good' ++ repeat WError (S m) /\ no_error good'
    else r = repeat WError m.
Proof.
  induction good as [|w good IH]; intros Hg buf.
  - destruct buf as [|b buf].
    + exists (repeat WError (S m)), [], true. split; [reflexivity|]. split; [exists []; reflexivity|].
      split; [reflexivity|]. exists []. split; [reflexivity|constructor].
    + exists (repeat WError m), [], false. split; [reflexivity|]. split; [exists (b :: buf); reflexivity|reflexivity].
  - inversion_clear Hg as [|? ? Hw Hg']. destruct w as [k|]; [|congruence].
    destruct buf as [|b buf].
    + exists ((WAccept k :: good) ++ repeat WError (S m)), [], true. split; [reflexivity|]. split; [exists []; reflexivity|].
      split; [reflexivity|]. exists (WAccept k :: good). split; [reflexivity|]. constructor; [discriminate|exact Hg'].
    + destruct (IH Hg' (skipn k (b :: buf))) as (r & d & ok & E & [tl Htl] & Hok).
      exists r, (firstn k (b :: buf) ++ d), ok. split.
      { cbn [app write_all]. rewrite E. reflexivity. }
      split.
      { exists tl. rewrite <- app_assoc, <- Htl. now rewrite firstn_skipn. }
      destruct ok; [|exact Hok]. destruct Hok as [-> Hr]. split; [apply firstn_skipn|exact Hr].
Qed.

Lemma run_output_dying m chunks : forall o good, o_sched o = good ++ repeat WError (S m) -> no_error good ->
  exists d tl, o_bytes (run_output o chunks) = o_bytes o ++ d /\ concat chunks = d ++ tl /\
   ((tl = [] /\ exists good', o_sched (run_output o chunks) = good' ++ repeat WError (S m) /\ no_error good') \/
    o_sched (run_output o chunks) = repeat WError m).
Proof.
  induction chunks as [|b chunks IH]; intros o good Ho Hg; cbn [run_output concat].
  - exists [], []. rewrite app_nil_r. split; [reflexivity|]. split; [reflexivity|]. left. split; [reflexivity|]. eauto.
  - destruct b as [|x b].
    + cbn [write_buffer]. apply (IH o good Ho Hg).
    + unfold write_buffer. rewrite Ho.
      destruct (write_all_dying good m Hg (x :: b)) as (r & d & ok & E & [tl Htl] & Hok). rewrite E.
      destruct ok.
      * destruct Hok as [-> (good' & Hr & Hg')].
        destruct (IH (mkO r (o_bytes o ++ (x :: b)) (o_log o ++ (x :: b))) good' Hr Hg') as (d' & tl' & Hb' & Hc' & Hs').
        exists ((x :: b) ++ d'), tl'. rewrite Hb'. cbn [o_bytes]. rewrite Hc', <- !app_assoc. auto.
      * exists d, (tl ++ concat chunks). cbn [o_bytes o_sched]. split; [reflexivity|]. split.
        { rewrite Htl, <- app_assoc. reflexivity. }
        right. exact Hok.
Qed.

Lemma run_outputs_dying outs : forall m o good, o_sched o = good ++ repeat WError (S m) -> no_error good ->
  (List.length outs <= m)%nat ->
  exists d tl, o_bytes (fold_left run_output outs o) = o_bytes o ++ d /\ concat (concat outs) = d ++ tl.
Proof.
  induction outs as [|x outs IH]; intros m o good Ho Hg Hl; cbn [fold_left].
  - exists [], []. rewrite app_nil_r. auto.
  - cbn [List.length] in Hl. destruct (run_output_dying m x o good Ho Hg) as (d & tl & Hb & Hc & [[-> (good' & Hs & Hg')]|Hs]).
    + destruct (IH m _ good' Hs Hg' ltac:(lia)) as (d' & tl' & Hb' & Hc').
      exists (d ++ d'), tl'. rewrite Hb', Hb, <- app_assoc. split; [reflexivity|].
      cbn [concat]. rewrite concat_app, Hc, Hc', app_nil_r, <- app_assoc. reflexivity.
    + exists d, (tl ++ concat (concat outs)). rewrite (run_outputs_dead outs m _ Hs ltac:(lia)). split; [exact Hb|].
      cbn [concat]. rewrite concat_app, Hc, <- app_assoc. reflexivity.
Qed.

Lemma dead_stream_prefix m good : no_error good ->
  exists full n0, send (mkO [] [] []) m = Ok full /\
  forall n, (n0 <= n)%nat ->
   exists o tl, send (mkO (good ++ repeat WError n) [] []) m = Ok o /\ o_bytes full = o_bytes o ++ tl.
Proof.
  intros Hg. destruct (send_wire (mkO [] [] []) m ltac:(constructor)) as (p & full & E & _ & Es & _ & Hb & _).
  exists full, (S (List.length (message_outputs (m_type m) (m_args m) p))). split; [exact Es|].
  intros n Hn. destruct n as [|n]; [lia|].
  destruct (run_outputs_dying (message_outputs (m_type m) (m_args m) p) n (mkO (good ++ repeat WError (S n)) [] [])
              good eq_refl Hg ltac:(lia)) as (d & tl & Hd & Hc).
  exists (write_message (mkO (good ++ repeat WError (S n)) [] []) (m_type m) (m_args m) p), tl.
  split; [unfold send; rewrite E; reflexivity|].
  unfold write_message. rewrite Hd, Hb. cbn [o_bytes app]. rewrite <- Hc. symmetry. apply message_outputs_wire.
Qed.

(** C06 *)
Lemma one_line m sched : no_error sched -> (forall k v, pm_run (m_hist m) k = Some v -> ~ In 10 k) ->
  exists o body, send (mkO sched [] []) m = Ok o /\ o_bytes o = str "@@TRAX:" ++ body ++ [10] /\ ~ In 10 body.
Proof.
  intros Hs Hk. destruct (send_wire (mkO sched [] []) m Hs) as (p & o & E & [_ En] & Es & _ & Hb & _).
  destruct (wire_one_line (m_type m) (m_args m) (props_enum p)) as (body & Hw & Hn).
  - apply Forall_forall. intros [k v] Hin. apply (Hk k v). now apply En.
  - exists o, body. split; [exact Es|]. split; [|exact Hn]. rewrite Hb. exact Hw.
Qed.

(** C07, any stream *)
Lemma read_char_any st v st' : read_char st = (v, st') ->
  (exists c, stream_bytes st = c ++ stream_bytes st') /\
  (match v with Some _ => (S (stream_size st') <= stream_size st)%nat | None => (stream_size st' <= stream_size st)%nat end).
Proof.
  intros E. destruct st as [b sc]. unfold read_char, stream_bytes, stream_size in *. cbn in *.
  destruct b as [|c b].
  - destruct sc as [|ch sc]; [inversion E; subst; cbn; split; [exists []; reflexivity|lia]|].
    destruct ch as [|c ch].
    + inversion E; subst. cbn. split; [exists []; reflexivity|lia].
    + inversion E; subst. cbn. split; [exists [c]; reflexivity|]. destruct (char_val c); lia.
  - inversion E; subst. cbn. split; [exists [c]; reflexivity|]. destruct (char_val c); lia.
Qed.

Lemma read_loop_total fuel : forall st s log, (stream_size st < fuel)%nat ->
  exists s' st' lg, read_loop fuel st s log = Ok (s', st', lg) /\ exists c, stream_bytes st = c ++ stream_bytes st'.
Proof.
  induction fuel as [|fuel IH]; intros st s log Hf; [lia|].
  cbn [read_loop]. destruct (rd_complete s) eqn:Ec.
  - eexists _, _, _. split; [reflexivity|]. exists []. reflexivity.
  - destruct (read_char st) as [v st1] eqn:Er. destruct (read_char_any _ _ _ Er) as [[c Hc] Hsz].
    destruct v as [x|].
    + destruct (IH st1 (step s x) (log ++ [x]) ltac:(lia)) as (s' & st' & lg & E & [c' Hc']).
      eexists _, _, _. split; [exact E|]. exists (c ++ c'). rewrite Hc, Hc', <- app_assoc. reflexivity.
    + destruct (rd_type s).
      * rewrite read_loop_complete by now apply step_complete.
        eexists _, _, _. split; [reflexivity|]. exists c. exact Hc.
      * eexists _, _, _. split; [reflexivity|]. exists c. exact Hc.
Qed.

Lemma read_total t st hist : exists p r consumed, props_run hist = Ok p /\ read_message t st p = Ok r /\
  stream_bytes st = consumed ++ stream_bytes (rr_stream r).
Proof.
  destruct (props_run_spec hist) as (p & E & Hp & _). unfold read_message.
  destruct (read_loop_total (S (S (stream_size st))) st (reader_start t) [] ltac:(lia)) as (s & st' & lg & Er & [c Hc]).
  destruct (props_set_any (rd_sets s) p Hp) as (p' & Ep & _).
  exists p. eexists. exists c. split; [exact E|]. rewrite Er. cbn [obind]. rewrite Ep. cbn [obind].
  split; [reflexivity|]. exact Hc.
Qed.

(** C08 *)
Lemma eof_stale t : exists r, read_message t (mkStream [] []) props_create = Ok r /\ rr_type r = t /\ rr_args r = [].
Proof. destruct t as [t|]; eexists; (split; [reflexivity|]); split; reflexivity. Qed.

Lemma stream_empty st : delivers st -> stream_bytes st = [] -> st = mkStream [] [].
Proof.
  destruct st as [b sc]. unfold delivers, stream_bytes. cbn. intros H E.
  apply app_eq_nil in E as [-> E]. destruct sc as [|ch sc]; [reflexivity|].
  inversion_clear H as [|? ? Hc _]. cbn in E. apply app_eq_nil in E as [E _]. congruence.
Qed.

(** After any non-empty sequence of messages the read at the end of the stream returns one more message, of the type
    of the last one. *)
Lemma eof_invents ms m sched : Forall msg_ok (ms ++ [m]) -> no_error sched ->
  exists o, send_all (mkO sched [] []) (ms ++ [m]) = Ok o /\
  forall t st, delivers st -> stream_bytes st = o_bytes o ->
  exists rs r st', read_many (S (List.length (ms ++ [m]))) t st = Ok (rs ++ [r], st') /\
    Forall2 receives rs (ms ++ [m]) /\ rr_type r = Some (m_type m) /\ rr_args r = [].
Proof.
  intros Hms Hs. destruct (sequence_round_trip _ sched Hms Hs) as (o & Eo & H).
  exists o. split; [exact Eo|]. intros t st Hd Hb.
  destruct (H t st [] Hd ltac:(now rewrite app_nil_r)) as (rs & st' & Er & HF & Hb' & Hd').
  apply stream_empty in Hb'; [|exact Hd']. subst st'.
  assert (G : forall n t st rs st', read_many n t st = Ok (rs, st') ->
     read_many (S n) t st = (r <- read_message (last (map rr_type rs) t) st' props_create ;; Ok (rs ++ [r], rr_stream r))).
  { clear. induction n as [|n IH]; intros t st rs st' E.
    - inversion E; subst. cbn [read_many map last]. destruct (read_message t st' props_create); reflexivity.
    - cbn [read_many] in E. destruct (read_message t st props_create) as [r| | |] eqn:Er; try discriminate.
      cbn [obind] in E. destruct (read_many n (rr_type r) (rr_stream r)) as [[rs1 st1]| | |] eqn:En; try discriminate.
      inversion E; subst. cbn [fst snd].
      change (read_many (S (S n)) t st) with
        (r <- read_message t st props_create ;; rest <- read_many (S n) (rr_type r) (rr_stream r) ;;
         Ok (r :: fst rest, snd rest)).
      rewrite Er. cbn [obind]. rewrite (IH _ _ _ _ En).
      replace (last (map rr_type (r :: rs1)) t) with (last (map rr_type rs1) (rr_type r)).
      + destruct (read_message (last (map rr_type rs1) (rr_type r)) st' props_create); reflexivity.
      + clear. destruct rs1 as [|r1 rs1]; [reflexivity|]. cbn [map]. revert r1 r t.
        induction rs1 as [|r2 rs1 IH]; intros r1 r t; [reflexivity|].
        cbn [map] in *. cbn [last] in *. apply (IH r2 r t). }
  rewrite (G _ _ _ _ _ Er).
  assert (L : last (map rr_type rs) t = Some (m_type m)).
  { clear - HF. apply Forall2_app_inv_r in HF as (a & b & Ha & Hb & ->).
    inversion Hb as [|x y ? ? Hx Hn]; subst. inversion Hn; subst. rewrite map_app. cbn [map].
    rewrite last_last. apply Hx. }
  rewrite L. destruct (eof_stale (Some (m_type m))) as (r & E & Ht & Ha). rewrite E. cbn [obind].
  exists rs, r, (rr_stream r). auto.
Qed.

(** A new stream on which nothing but plain lines arrived. *)
Lemma eof_new_stream ls st : Forall plain_line ls -> delivers st -> stream_bytes st = lines ls ->
  exists r, read_message None st props_create = Ok r /\ rr_type r = None /\ rr_args r = [].
Proof.
  intros Hl Hd Hb. destruct (read_message_run None st props_create Hd) as (st' & Hd' & Er & _).
  rewrite Hb in Er. pose proof (feeds_junk None [] [] ls Hl []) as HF. rewrite app_nil_r in HF.
  unfold lines in Er. change (reader_start None) with (mkReader None false (PPrefix 0) [] [] [] []) in Er.
  rewrite HF in Er. cbn in Er. eexists. split; [exact Er|]. split; reflexivity.
Qed.

(** C10: rejected headers *)
Lemma bad_header_isolated m w c l sched : msg_ok m -> no_error sched ->
  forallb is_alnum w = true -> is_alnum c = false -> c <> 10 -> c < 128 ->
  (c = 32 -> parse_message_type w = None) -> ascii l = true -> ~ In 10 l ->
  exists o, send (mkO sched [] []) m = Ok o /\
  forall t st rest, delivers st -> stream_bytes st = (str "@@TRAX:" ++ w ++ [c] ++ l ++ [10]) ++ o_bytes o ++ rest ->
  exists r, read_message t st props_create = Ok r /\ receives r m /\ stream_bytes (rr_stream r) = rest.
Proof.
  intros Hm Hs Hw Hc Hc10 Hc128 Hsp Hl Hn.
  destruct (send_wire (mkO sched [] []) m Hs) as (p & o & E & En & Es & _ & Hb & _).
  exists o. split; [exact Es|]. intros t st rest Hd Hst. rewrite Hb in Hst. cbn [o_bytes app] in Hst.
  destruct (read_fed t st m p (str "@@TRAX:" ++ w ++ [c] ++ l ++ [10]) rest E En Hm Hd) as (r & Hr & Hrec & Hrest & _).
  - apply feeds_bad_header; auto. lia.
  - rewrite Hst. reflexivity.
  - exists r. auto.
Qed.

(** C11 *)
Lemma run_log l : forall s s' r lg, ascii l = true -> run l s = (s', r, lg) ->
  (l = lg ++ r) \/ (r = [] /\ lg = l ++ [10]).
Proof.
  induction l as [|c l IH]; intros s s' r lg Ha E; cbn [run] in E.
  - destruct (rd_complete s); [inversion E; subst; now left|]. destruct (rd_type s); inversion E; subst; auto.
  - destruct (rd_complete s); [inversion E; subst; now left|].
    cbn in Ha. apply andb_true_iff in Ha as [Hc Ha]. rewrite Hc in E.
    destruct (run l (step s c)) as [[s1 r1] lg1] eqn:E1. inversion E; subst.
    destruct (IH _ _ _ _ Ha E1) as [H|[H1 H2]].
    + left. cbn [app]. now rewrite <- H.
    + right. split; [exact H1|]. now rewrite H2.
Qed.

Lemma log_read t st : delivers st -> ascii (stream_bytes st) = true ->
  exists r, read_message t st props_create = Ok r /\
    (stream_bytes st = rr_log r ++ stream_bytes (rr_stream r) \/
     (stream_bytes (rr_stream r) = [] /\ rr_log r = stream_bytes st ++ [10])).
Proof.
  intros Hd Ha. destruct (read_message_run t st props_create Hd) as (st' & Hd' & Er & Hb).
  destruct (run (stream_bytes st) (reader_start t)) as [[s r] lg] eqn:E.
  destruct (props_set_any (rd_sets s) props_create props_create_ok) as (p' & Ep & _).
  rewrite Ep in Er. cbn [obind fst snd] in *. eexists. split; [exact Er|]. cbn. rewrite Hb.
  now apply (run_log _ _ _ _ _ Ha E).
Qed.

Lemma log_message ms m sched : msg_ok m -> no_error sched ->
  exists o, send_all (mkO sched [] []) ms = Ok o /\ o_log o = o_bytes o /\
  exists o1, send (mkO sched [] []) m = Ok o1 /\
  forall t st rest, delivers st -> stream_bytes st = o_bytes o1 ++ rest ->
  exists r, read_message t st props_create = Ok r /\ rr_log r = o_bytes o1.
Proof.
  intros Hm Hs. destruct (send_all_bytes ms) as (bytes & _ & H).
  destruct (H (mkO sched [] []) Hs) as (o & Eo & _ & Hb & Hl). exists o. split; [exact Eo|].
  split; [rewrite Hb, Hl; reflexivity|].
  destruct (send_wire (mkO sched [] []) m Hs) as (p & o1 & E & En & Es & _ & Hb1 & _).
  exists o1. split; [exact Es|]. intros t st rest Hd Hst. rewrite Hb1 in *. cbn [o_bytes app] in *.
  destruct (read_fed t st m p [] rest E En Hm Hd (feeds_refl t) Hst) as (r & Hr & _ & _ & _ & Hlog).
  exists r. split; [exact Hr|]. exact Hlog.
Qed.

(** ---- Violations: concrete witnesses ---- *)
Definition one_chunk (l : list N) : istream := mkStream l [].

Lemma transient_write_error : exists sched m full o,
  send (mkO [] [] []) m = Ok full /\ send (mkO sched [] []) m = Ok o /\
  ~ (exists tl, o_bytes full = o_bytes o ++ tl).
Proof.
  exists [WAccept 7; WError], (mkMsg MQuit [] []). eexists. eexists.
  split; [reflexivity|]. split; [vm_compute; reflexivity|]. vm_compute. intros [tl H]. discriminate.
Qed.

Lemma non_ascii_broken : exists m o r,
  (forall k, pm_run (m_hist m) k = None) /\ m_args m = [[195; 169]] /\
  send (mkO [] [] []) m = Ok o /\ read_message None (one_chunk (o_bytes o)) props_create = Ok r /\ ~ receives r m.
Proof.
  exists (mkMsg MFrame [[195; 169]] []). eexists. eexists.
  split; [reflexivity|]. split; [reflexivity|]. split; [reflexivity|]. split; [vm_compute; reflexivity|].
  intros (_ & H & _). cbn in H. discriminate.
Qed.

(** A rejected line, ending in a backslash inside quotes, followed by a plain line. *)
Definition bad_line : list N := str "@@TRAX:frame ""old"" ""key=value"" ""a\" ++ [10] ++ str "hi" ++ [10].

Lemma leak : exists m o r, msg_ok m /\ send (mkO [] [] []) m = Ok o /\
  read_message None (one_chunk (bad_line ++ o_bytes o)) props_create = Ok r /\
  rr_type r = Some (m_type m) /\ m_args m = [] /\ rr_args r = [str "old"] /\
  pm_run (m_hist m) (str "key") = None /\ props_get (rr_props r) (str "key") = Ok (Some (str "value")).
Proof.
  exists (mkMsg MQuit [] []). eexists. eexists.
  split; [split; [reflexivity|intros k v H; discriminate H]|].
  split; [reflexivity|]. split; [vm_compute; reflexivity|]. repeat split.
Qed.

(** A line with an unknown message type and nothing else. *)
Definition unknown_line : list N := str "@@TRAX:bogus" ++ [10].

Lemma swallow : exists m o r, msg_ok m /\ send (mkO [] [] []) m = Ok o /\
  read_message None (one_chunk (unknown_line ++ o_bytes o)) props_create = Ok r /\
  rr_type r = None /\ stream_bytes (rr_stream r) = [].
Proof.
  exists (mkMsg MQuit [] []). eexists. eexists.
  split; [split; [reflexivity|intros k v H; discriminate H]|].
  split; [reflexivity|]. split; [vm_compute; reflexivity|]. repeat split.
Qed.

(** A rejected line: a letter directly after a closing quote.  The letter stays in the key buffer and is put in front
    of the next message's type. *)
Definition stray_line : list N := str "@@TRAX:frame ""old""x" ++ [10].

Lemma stray : exists m o r, msg_ok m /\ send (mkO [] [] []) m = Ok o /\
  read_message None (one_chunk (stray_line ++ o_bytes o)) props_create = Ok r /\
  rr_type r = None /\ stream_bytes (rr_stream r) = [].
Proof.
  exists (mkMsg MQuit [] []). eexists. eexists.
  split; [split; [reflexivity|intros k v H; discriminate H]|].
  split; [reflexivity|]. split; [vm_compute; reflexivity|]. repeat split.
Qed.
