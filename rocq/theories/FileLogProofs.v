(** Proofs about the log file (C136). *)
From Coq Require Import Lia.
From Verif Require Import CBase Props Message MessageSpec MessageProofs MessageApi PyText FileLog FileLogSpec.
Local Open Scope nat_scope.

(** ---- What the calls hold ---- *)
Definition call_text (c : log_call) : list N := match c with LogFlush => [] | LogPiece memory length => firstn length memory end.
Definition call_ok (c : log_call) : Prop := match c with LogFlush => True | LogPiece memory length => length <= List.length memory end.
Definition holds (cs : list log_call) (s : list N) : Prop := Forall call_ok cs /\ flat_map call_text cs = s.
Lemma holds_app a b s u : holds a s -> holds b u -> holds (a ++ b) (s ++ u).
Proof. intros [A1 A2] [B1 B2]. split; [apply Forall_app; now split|]. now rewrite flat_map_app, A2, B2. Qed.
Lemma holds_nil : holds [] [].
Proof. split; [constructor|reflexivity]. Qed.
Lemma holds_piece piece rest : holds (piece_call piece rest) piece.
Proof.
  destruct piece as [|c piece]; [apply holds_nil|]. cbn [piece_call]. split.
  - apply Forall_cons; [|apply Forall_nil]. cbn [call_ok]. rewrite app_length. lia.
  - cbn [flat_map call_text]. rewrite firstn_app, firstn_all, Nat.sub_diag, firstn_O, !app_nil_r. reflexivity.
Qed.
Lemma holds_flat {A} (f : A -> list log_call) (g : A -> list N) l : (forall a, holds (f a) (g a)) -> holds (flat_map f l) (flat_map g l).
Proof. intros H. induction l as [|a l IH]; cbn [flat_map]; [apply holds_nil|]. now apply holds_app. Qed.
Lemma holds_escaped l : forall pending, holds (escaped_calls l pending) (pending ++ esc l).
Proof.
  induction l as [|c l IH]; intros pending; cbn [escaped_calls].
  - cbn [esc flat_map]. rewrite app_nil_r. apply holds_piece.
  - change (esc (c :: l)) with (esc_char c ++ esc l). unfold esc_char, c_quote, c_bsl, c_nl, c_n.
    destruct (c =? 34)%N eqn:E1; [|destruct (c =? 92)%N eqn:E2; [|destruct (c =? 10)%N eqn:E3]]; cbn [orb].
    + apply N.eqb_eq in E1. subst c. cbn [N.eqb Pos.eqb]. apply holds_app; [apply holds_piece|].
      change ([92; 34]%N ++ esc l) with ([92]%N ++ ([34]%N ++ esc l)). apply holds_app; [apply holds_piece|apply IH].
    + apply N.eqb_eq in E2. subst c. cbn [N.eqb Pos.eqb]. apply holds_app; [apply holds_piece|].
      change ([92; 92]%N ++ esc l) with ([92]%N ++ ([92]%N ++ esc l)). apply holds_app; [apply holds_piece|apply IH].
    + apply N.eqb_eq in E3. subst c. apply holds_app; [apply holds_piece|].
      change ([92; 110]%N ++ esc l) with ([92]%N ++ ([110]%N ++ ([] ++ esc l))).
      apply holds_app; [apply holds_piece|]. apply holds_app; [apply holds_piece|apply IH].
    + rewrite app_assoc. apply IH.
Qed.
Lemma holds_flush : holds [LogFlush] [].
Proof. split; [apply Forall_cons; [exact Logic.I|apply Forall_nil]|reflexivity]. Qed.
Lemma holds_exchange e : holds (calls_of e) (bytes_of e).
Proof.
  destruct e as [t args p|chars]; cbn [calls_of bytes_of].
  - unfold sent_calls, wire, string_call.
    apply holds_app; [apply holds_piece|]. apply holds_app; [apply holds_piece|]. apply holds_app; [apply holds_piece|].
    apply holds_app.
    { apply holds_flat. intros a. unfold wire_arg. apply holds_app; [apply holds_piece|].
      apply holds_app; [apply (holds_escaped a [])|apply holds_piece]. }
    apply holds_app.
    { apply holds_flat. intros kv. unfold wire_prop. apply holds_app; [apply holds_piece|]. apply holds_app; [apply holds_piece|].
      apply holds_app; [apply holds_piece|]. apply holds_app; [apply (holds_escaped (snd kv) [])|apply holds_piece]. }
    change [10]%N with ([10]%N ++ ([] : list N)). apply holds_app; [apply holds_piece|apply holds_flush].
  - unfold received_calls. rewrite <- (app_nil_r chars) at 2. apply holds_app; [|apply holds_flush].
    induction chars as [|c chars IH]; cbn [map]; [apply holds_nil|].
    change (c :: chars) with ([c] ++ chars). change (?a :: map ?f chars) with ([a] ++ map f chars). apply holds_app; [|exact IH].
    split; [apply Forall_cons; [cbn; lia|apply Forall_nil]|reflexivity].
Qed.
Lemma ends_flush e : exists cs, calls_of e = cs ++ [LogFlush].
Proof.
  destruct e as [t args p|chars]; cbn [calls_of].
  - unfold sent_calls. rewrite !app_assoc. eexists. reflexivity.
  - unfold received_calls. eexists. reflexivity.
Qed.
Lemma all_end_flush es : es = [] \/ exists cs, flat_map calls_of es = cs ++ [LogFlush].
Proof.
  induction es as [|e es IH]; [now left|]. right. cbn [flat_map]. destruct IH as [->|(cs & ->)].
  - cbn [flat_map]. rewrite app_nil_r. apply ends_flush.
  - rewrite app_assoc. eexists. reflexivity.
Qed.

(** ---- The file ---- *)
Definition grows (f f' : lfile) (s : list N) : Prop :=
  on_disk f' ++ held f' = on_disk f ++ held f ++ s /\ (exists q, on_disk f' = on_disk f ++ q) /\
  List.length (on_disk f') + room f' = List.length (on_disk f) + room f.
Lemma grows_pass n f : grows f (pass n f) [].
Proof.
  unfold grows, pass. set (m := Nat.min n (Nat.min (List.length (held f)) (room f))). cbn [on_disk held room]. split; [|split].
  - now rewrite <- app_assoc, firstn_skipn, app_nil_r.
  - eexists. reflexivity.
  - rewrite app_length, firstn_length. subst m. lia.
Qed.
Lemma grows_trans f g h s u : grows f g s -> grows g h u -> grows f h (s ++ u).
Proof.
  intros (A1 & (q & A2) & A3) (B1 & (r & B2) & B3). split; [|split; [|lia]].
  - rewrite B1. rewrite app_assoc, A1, <- !app_assoc. reflexivity.
  - exists (q ++ r). now rewrite B2, A2, app_assoc.
Qed.
Lemma grows_call f c n : call_ok c -> exists f', file_logger (Some f) c n = Ok (Some f') /\ grows f f' (call_text c).
Proof.
  intros O. destruct c as [|memory length]; cbn [file_logger call_text].
  - eexists. split; [reflexivity|]. apply grows_pass.
  - cbn [call_ok] in O. rewrite (proj2 (Nat.leb_le _ _) O). eexists. split; [reflexivity|].
    unfold fwrite. set (s := firstn length memory). pose proof (grows_pass n (mkFile (on_disk f) (held f ++ s) (room f))) as (A & B & C).
    cbn [on_disk held room] in A, B, C. split; [|split; [exact B|exact C]]. rewrite A, app_nil_r. reflexivity.
Qed.
Lemma grows_all calls : forall f, Forall call_ok (map fst calls) ->
  exists f', log_all (LogTo (Some f)) calls = Ok (LogTo (Some f')) /\ grows f f' (flat_map call_text (map fst calls)).
Proof.
  induction calls as [|[c n] calls IH]; intros f O; cbn [map fst flat_map log_all] in *.
  - exists f. split; [reflexivity|]. split; [now rewrite app_nil_r|]. split; [exists []; now rewrite app_nil_r|reflexivity].
  - apply Forall_cons_iff in O as [O1 O2]. destruct (grows_call f c n O1) as (g & E & G). rewrite E. cbn [obind].
    destruct (IH g O2) as (h & E2 & H). exists h. split; [exact E2|]. now apply grows_trans with g.
Qed.
Lemma log_all_app a : forall l b, log_all l (a ++ b) = (l' <- log_all l a ;; log_all l' b).
Proof.
  induction a as [|[c n] a IH]; intros l b; [reflexivity|]. cbn [app log_all]. destruct l as [|data]; [apply IH|].
  destruct (file_logger data c n); cbn [obind]; [apply IH|reflexivity..].
Qed.
(** After the exchanges the C library holds nothing, unless the disk is full. *)
Lemma run_exchanges es calls f : map fst calls = flat_map calls_of es -> held f = [] ->
  exists f', log_all (LogTo (Some f)) calls = Ok (LogTo (Some f')) /\ grows f f' (flat_map bytes_of es) /\ (held f' = [] \/ room f' = 0).
Proof.
  intros M H. assert (A : holds (flat_map calls_of es) (flat_map bytes_of es)) by (apply holds_flat, holds_exchange).
  destruct A as [A1 A2]. destruct (all_end_flush es) as [->|(cs & E)].
  - cbn [flat_map] in *. destruct calls; [|discriminate M]. exists f. split; [reflexivity|]. split; [|now left].
    split; [now rewrite app_nil_r|]. split; [exists []; now rewrite app_nil_r|reflexivity].
  - rewrite <- A2, <- M. rewrite <- M in A1. rewrite E in M. clear E A2.
    destruct (exists_last (l := calls)) as (calls0 & [c n] & ->); [intros ->; destruct cs; discriminate M|].
    rewrite map_app in *. cbn [map fst] in *. apply app_inj_tail in M as [M ->]. apply Forall_app in A1 as [A1 _].
    destruct (grows_all calls0 f A1) as (g & E & G). exists (fflush g). split; [|split].
    + rewrite log_all_app, E. reflexivity.
    + rewrite flat_map_app. apply grows_trans with g; [exact G|]. apply grows_pass.
    + unfold fflush, pass. cbn [held room]. rewrite Nat.min_assoc, Nat.min_id.
      destruct (Nat.le_ge_cases (List.length (held g)) (room g)) as [L|L].
      * left. rewrite Nat.min_l by exact L. apply skipn_all.
      * right. rewrite Nat.min_r by exact L. lia.
Qed.
Lemma file_whole es calls f : map fst calls = flat_map calls_of es -> held f = [] -> List.length (flat_map bytes_of es) <= room f ->
  exists f', log_all (logger_setup_file (Some f)) calls = Ok (LogTo (Some f')) /\ on_disk f' = on_disk f ++ flat_map bytes_of es /\ held f' = [] /\
    room f' + List.length (flat_map bytes_of es) = room f.
Proof.
  intros M H R. destruct (run_exchanges es calls f M H) as (f' & E & (G1 & G2 & G3) & K). exists f'. split; [exact E|].
  rewrite H in G1. cbn [app] in G1.
  assert (N0 : held f' = []).
  { destruct K as [K|K]; [exact K|]. pose proof (f_equal (@List.length N) G1) as L. rewrite !app_length in L. apply length_zero_iff_nil. lia. }
  rewrite N0, app_nil_r in G1. split; [exact G1|]. split; [exact N0|]. rewrite G1, app_length in G3. lia.
Qed.
Lemma file_crash es e calls some more f : map fst calls = flat_map calls_of es ++ some -> some ++ more = calls_of e -> held f = [] ->
  List.length (flat_map bytes_of es) <= room f ->
  exists f' q, log_all (logger_setup_file (Some f)) calls = Ok (LogTo (Some f')) /\ on_disk f' = on_disk f ++ flat_map bytes_of es ++ q /\ prefix_of q (bytes_of e).
Proof.
  intros M S0 H R. apply map_eq_app in M as (a & b & -> & Ma & Mb).
  destruct (file_whole es a f Ma H R) as (g & E & D & N0 & _). destruct (holds_exchange e) as [O T]. rewrite <- S0 in O, T.
  apply Forall_app in O as [O _]. rewrite <- Mb in O. destruct (grows_all b g O) as (h & E2 & (G1 & (q & G2) & _)).
  exists h, q. split; [|split].
  - rewrite log_all_app, E. exact E2.
  - now rewrite G2, D, app_assoc.
  - rewrite N0, G2, <- app_assoc in G1. cbn [app] in G1. apply app_inv_head in G1. rewrite flat_map_app, <- Mb, <- G1 in T.
    exists (held h ++ flat_map call_text more). now rewrite <- T, <- app_assoc.
Qed.
Lemma file_full es calls f : map fst calls = flat_map calls_of es -> held f = [] -> room f < List.length (flat_map bytes_of es) ->
  exists f', log_all (logger_setup_file (Some f)) calls = Ok (LogTo (Some f')) /\ on_disk f' = on_disk f ++ firstn (room f) (flat_map bytes_of es).
Proof.
  intros M H R. destruct (run_exchanges es calls f M H) as (f' & E & (G1 & G2 & G3) & K). exists f'. split; [exact E|].
  rewrite H in G1. cbn [app] in G1. pose proof (f_equal (@List.length N) G1) as L. rewrite !app_length in L.
  destruct K as [K|K]; [rewrite K in L; cbn [List.length] in L; lia|].
  destruct G2 as (q & G2). rewrite G2, <- app_assoc in G1. apply app_inv_head in G1. rewrite G2, <- G1.
  rewrite G2, app_length in G3. rewrite firstn_app. replace (room f - List.length q) with 0 by lia. rewrite firstn_O, app_nil_r.
  rewrite firstn_all2 by lia. reflexivity.
Qed.
Lemma no_file calls : log_all NoLog calls = Ok NoLog /\ log_all (logger_setup_file None) calls = Ok (LogTo None).
Proof.
  induction calls as [|[c n] calls [A B]]; [now split|]. cbn [log_all logger_setup_file file_logger obind] in *. now split.
Qed.
Lemma file_received t st f : delivers st -> ascii (stream_bytes st) = true -> held f = [] -> List.length (stream_bytes st) < room f ->
  exists r, read_message t st props_create = Ok r /\
    forall calls, map fst calls = received_calls [] (rr_log r) ->
    exists f' s, log_all (logger_setup_file (Some f)) calls = Ok (LogTo (Some f')) /\ held f' = [] /\ on_disk f' = on_disk f ++ s /\
      (stream_bytes st = s ++ stream_bytes (rr_stream r) \/ stream_bytes (rr_stream r) = [] /\ s = stream_bytes st ++ [10%N]).
Proof.
  intros D A H R. destruct (log_read t st D A) as (r & E & C). exists r. split; [exact E|]. intros calls M.
  assert (R2 : List.length (flat_map bytes_of [Receives (rr_log r)]) <= room f).
  { cbn [flat_map bytes_of]. rewrite app_nil_r. destruct C as [C|[_ C]].
    - pose proof (f_equal (@List.length N) C) as L. rewrite app_length in L. lia.
    - rewrite C, app_length. cbn [List.length]. lia. }
  destruct (file_whole [Receives (rr_log r)] calls f) as (f' & E2 & D2 & N0 & _); [cbn [flat_map calls_of]; now rewrite app_nil_r|exact H|exact R2|].
  exists f', (rr_log r). cbn [flat_map bytes_of] in D2. rewrite app_nil_r in D2. split; [exact E2|]. split; [exact N0|]. split; [exact D2|exact C].
Qed.

(** ---- Streams that fail ---- *)
Lemma part_refl a : part_of a a.
Proof. induction a; constructor; assumption. Qed.
Lemma part_empty b : part_of [] b.
Proof. induction b; constructor; assumption. Qed.
Lemma part_app a b c d : part_of a b -> part_of c d -> part_of (a ++ c) (b ++ d).
Proof. intros H K. induction H; cbn [app]; [exact K|now apply part_keep|now apply part_skip]. Qed.
Definition logged (o o' : ostate) (buf : list N) : Prop :=
  exists d g, o_bytes o' = o_bytes o ++ d /\ o_log o' = o_log o ++ g /\ part_of g d /\ part_of d buf.
Lemma logged_refl o buf : logged o o buf.
Proof. exists [], []. rewrite !app_nil_r. split; [reflexivity|]. split; [reflexivity|]. split; [constructor|apply part_empty]. Qed.
Lemma logged_trans o p q a b : logged o p a -> logged p q b -> logged o q (a ++ b).
Proof.
  intros (d & g & A1 & A2 & A3 & A4) (e & h & B1 & B2 & B3 & B4). exists (d ++ e), (g ++ h).
  rewrite B1, A1, B2, A2, <- !app_assoc. split; [reflexivity|]. split; [reflexivity|]. split; now apply part_app.
Qed.
Lemma logged_buffer o buf : logged o (fst (write_buffer o buf)) buf.
Proof.
  destruct buf as [|x buf]; [apply logged_refl|]. unfold write_buffer. destruct (write_all (o_sched o) (x :: buf)) as [[r d] ok] eqn:E.
  apply write_all_prefix in E as [[tl T] K]. cbn [fst]. exists d, (if ok then x :: buf else []). cbn [o_bytes o_log].
  split; [reflexivity|]. split; [reflexivity|]. split.
  - destruct ok; [rewrite (K eq_refl); apply part_refl|apply part_empty].
  - rewrite T, <- (app_nil_r d) at 1. apply part_app; [apply part_refl|apply part_empty].
Qed.
Lemma logged_output chunks : forall o, logged o (run_output o chunks) (concat chunks).
Proof.
  induction chunks as [|b chunks IH]; intros o; cbn [run_output concat]; [apply logged_refl|].
  pose proof (logged_buffer o b) as L. destruct (write_buffer o b) as [o' ok]. cbn [fst] in L. destruct ok.
  - eapply logged_trans; [exact L|apply IH].
  - rewrite <- (app_nil_r (b ++ _)). destruct L as (d & g & A1 & A2 & A3 & A4). exists d, g. split; [exact A1|]. split; [exact A2|]. split; [exact A3|].
    rewrite app_nil_r, <- (app_nil_r d). apply part_app; [exact A4|apply part_empty].
Qed.
Lemma logged_outputs outs : forall o, logged o (fold_left run_output outs o) (concat (concat outs)).
Proof.
  induction outs as [|x outs IH]; intros o; cbn [fold_left concat]; [apply logged_refl|]. rewrite concat_app.
  eapply logged_trans; [apply logged_output|apply IH].
Qed.
Lemma only_sent o t args p : exists d g, o_bytes (write_message o t args p) = o_bytes o ++ d /\ o_log (write_message o t args p) = o_log o ++ g /\
  part_of g d /\ part_of d (wire t args (props_enum p)).
Proof. rewrite <- message_outputs_wire. apply logged_outputs. Qed.

(** A stream that is broken stays so: the rest of the message is neither sent nor logged. *)
Lemma output_dead m chunks : forall o, o_sched o = repeat WError (S m) ->
  o_bytes (run_output o chunks) = o_bytes o /\ o_log (run_output o chunks) = o_log o /\
  (o_sched (run_output o chunks) = repeat WError (S m) \/ o_sched (run_output o chunks) = repeat WError m).
Proof.
  induction chunks as [|b chunks IH]; intros o Ho; cbn [run_output].
  - split; [reflexivity|]. split; [reflexivity|]. now left.
  - destruct b as [|x b]; cbn [write_buffer]; [now apply IH|].
    rewrite Ho. cbn [repeat write_all]. cbn [o_bytes o_log o_sched]. rewrite !app_nil_r. split; [reflexivity|]. split; [reflexivity|]. now right.
Qed.
Lemma outputs_dead outs : forall m o, o_sched o = repeat WError m -> List.length outs <= m ->
  o_bytes (fold_left run_output outs o) = o_bytes o /\ o_log (fold_left run_output outs o) = o_log o.
Proof.
  induction outs as [|x outs IH]; intros m o Ho L; cbn [fold_left]; [now split|].
  cbn [List.length] in L. destruct m as [|m]; [lia|].
  destruct (output_dead m x o Ho) as (A & B & [C|C]).
  - destruct (IH _ _ C ltac:(lia)) as [D E]. rewrite D, E. now split.
  - destruct (IH _ _ C ltac:(lia)) as [D E]. rewrite D, E. now split.
Qed.
Lemma output_dying m chunks : forall o good, o_sched o = good ++ repeat WError (S m) -> no_error good ->
  exists g u tl, o_bytes (run_output o chunks) = o_bytes o ++ g ++ u /\ o_log (run_output o chunks) = o_log o ++ g /\ concat chunks = g ++ u ++ tl /\
   ((u = [] /\ tl = [] /\ exists good', o_sched (run_output o chunks) = good' ++ repeat WError (S m) /\ no_error good') \/
    o_sched (run_output o chunks) = repeat WError m).
Proof.
  induction chunks as [|b chunks IH]; intros o good Ho Hg; cbn [run_output concat].
  - exists [], [], []. rewrite !app_nil_r. split; [reflexivity|]. split; [reflexivity|]. split; [reflexivity|]. left. split; [reflexivity|]. split; [reflexivity|]. eauto.
  - destruct b as [|x b].
    + cbn [write_buffer]. apply (IH o good Ho Hg).
    + unfold write_buffer. rewrite Ho.
      destruct (write_all_dying good m Hg (x :: b)) as (r & d & ok & E & [tl Htl] & Hok). rewrite E. destruct ok.
      * destruct Hok as [-> (good' & Hr & Hg')].
        destruct (IH (mkO r (o_bytes o ++ (x :: b)) (o_log o ++ (x :: b))) good' Hr Hg') as (g & u & tl' & Hb' & Hl' & Hc' & Hs').
        exists ((x :: b) ++ g), u, tl'. rewrite Hb', Hl'. cbn [o_bytes o_log]. rewrite Hc', <- !app_assoc. auto.
      * exists [], d, (tl ++ concat chunks). cbn [o_bytes o_sched o_log app]. rewrite !app_nil_r. split; [reflexivity|]. split; [reflexivity|]. split.
        { change (x :: b ++ concat chunks) with ((x :: b) ++ concat chunks). rewrite Htl, <- app_assoc. reflexivity. }
        right. exact Hok.
Qed.
Lemma outputs_dying outs : forall m o good, o_sched o = good ++ repeat WError (S m) -> no_error good -> List.length outs <= m ->
  exists g u tl, o_bytes (fold_left run_output outs o) = o_bytes o ++ g ++ u /\ o_log (fold_left run_output outs o) = o_log o ++ g /\
    concat (concat outs) = g ++ u ++ tl.
Proof.
  induction outs as [|x outs IH]; intros m o good Ho Hg Hl; cbn [fold_left].
  - exists [], [], []. rewrite !app_nil_r. auto.
  - cbn [List.length] in Hl. cbn [concat]. rewrite concat_app.
    destruct (output_dying m x o good Ho Hg) as (g & u & tl & Hb & Hg0 & Hc & [(-> & -> & good' & Hs & Hg')|Hs]).
    + destruct (IH m _ good' Hs Hg' ltac:(lia)) as (g' & u' & tl' & Hb' & Hl' & Hc').
      exists (g ++ g'), u', tl'. rewrite Hb', Hb, Hl', Hg0, Hc, Hc', !app_nil_r, <- !app_assoc. auto.
    + destruct (outputs_dead outs m _ Hs ltac:(lia)) as [D E]. exists g, u, (tl ++ concat (concat outs)).
      rewrite D, E, Hc, <- !app_assoc. auto.
Qed.
Lemma broken_log t args p good n : no_error good -> List.length (message_outputs t args p) < n ->
  exists g u tl, o_bytes (write_message (mkO (good ++ repeat WError n) [] []) t args p) = g ++ u /\
    o_log (write_message (mkO (good ++ repeat WError n) [] []) t args p) = g /\ wire t args (props_enum p) = g ++ u ++ tl.
Proof.
  intros Hg Hn. destruct n as [|m]; [lia|]. rewrite <- message_outputs_wire.
  exact (outputs_dying (message_outputs t args p) m (mkO (good ++ repeat WError (S m)) [] []) good eq_refl Hg ltac:(lia)).
Qed.
Lemma broken_log_any t args p good : no_error good -> exists enough, forall n, enough <= n ->
  exists g u tl, o_bytes (write_message (mkO (good ++ repeat WError n) [] []) t args p) = g ++ u /\
    o_log (write_message (mkO (good ++ repeat WError n) [] []) t args p) = g /\ wire t args (props_enum p) = g ++ u ++ tl.
Proof. intros H. exists (S (List.length (message_outputs t args p))). intros n L. apply broken_log; [exact H|lia]. Qed.
Lemma hole t args p : wire t args (props_enum p) = str "@@TRAX:" ++ o_bytes (write_message (mkO [WError] [] []) t args p) /\
  o_log (write_message (mkO [WError] [] []) t args p) = o_bytes (write_message (mkO [WError] [] []) t args p).
Proof.
  rewrite <- message_outputs_wire. unfold write_message.
  assert (exists rest, message_outputs t args p = [TRAX_PREFIX] :: rest) as (rest & ->) by (eexists; reflexivity).
  cbn [fold_left]. change (run_output (mkO [WError] [] []) [TRAX_PREFIX]) with (mkO [] [] []).
  destruct (run_outputs_ok rest (mkO [] [] []) ltac:(constructor)) as (_ & B & L). rewrite B, L. cbn [o_bytes o_log app concat].
  split; reflexivity.
Qed.

(** ---- The file over a stream that fails ---- *)
Definition log_grows (o o' : ostate) (cs : list log_call) : Prop := exists g, holds cs g /\ o_log o' = o_log o ++ g.
Lemma log_grows_refl o : log_grows o o [].
Proof. exists []. split; [apply holds_nil|now rewrite app_nil_r]. Qed.
Lemma log_grows_trans o p q a b : log_grows o p a -> log_grows p q b -> log_grows o q (a ++ b).
Proof. intros (g & A & B) (h & C & D). exists (g ++ h). split; [now apply holds_app|]. now rewrite D, B, app_assoc. Qed.
Lemma log_grows_buffer o buf : log_grows o (fst (write_buffer o buf)) (buffer_calls o buf).
Proof.
  destruct buf as [|x buf]; [apply log_grows_refl|]. unfold write_buffer, buffer_calls.
  destruct (write_all (o_sched o) (x :: buf)) as [[r d] ok]. cbn [fst]. exists (if ok then x :: buf else []). split; [|reflexivity].
  destruct ok; [|apply holds_nil]. split; [apply Forall_cons; [apply Nat.le_refl|apply Forall_nil]|].
  cbn [flat_map call_text]. now rewrite firstn_all, app_nil_r.
Qed.
Lemma log_grows_output chunks : forall o, log_grows o (run_output o chunks) (output_calls o chunks).
Proof.
  induction chunks as [|b chunks IH]; intros o; cbn [run_output output_calls]; [apply log_grows_refl|].
  pose proof (log_grows_buffer o b) as L. destruct (write_buffer o b) as [o' ok]. cbn [fst] in L. destruct ok.
  - eapply log_grows_trans; [exact L|apply IH].
  - now rewrite app_nil_r.
Qed.
Lemma log_grows_outputs outs : forall o, log_grows o (fold_left run_output outs o) (outputs_calls o outs).
Proof.
  induction outs as [|x outs IH]; intros o; cbn [fold_left outputs_calls]; [apply log_grows_refl|].
  eapply log_grows_trans; [apply log_grows_output|apply IH].
Qed.
Lemma part_length a b : part_of a b -> List.length a <= List.length b.
Proof. intros H. induction H; cbn [List.length]; lia. Qed.
Lemma file_of_stream o t args p calls f : map fst calls = write_calls o t args p -> held f = [] ->
  List.length (wire t args (props_enum p)) <= room f ->
  exists f' d g, log_all (logger_setup_file (Some f)) calls = Ok (LogTo (Some f')) /\ held f' = [] /\ on_disk f' = on_disk f ++ g /\
    o_bytes (write_message o t args p) = o_bytes o ++ d /\ part_of g d /\ part_of d (wire t args (props_enum p)) /\
    o_log (write_message o t args p) = o_log o ++ g /\ room f' + List.length g = room f.
Proof.
  intros M H R. destruct (only_sent o t args p) as (d & g & B & L & P1 & P2).
  destruct (log_grows_outputs (message_outputs t args p) o) as (g' & [K1 K2] & L').
  change (fold_left run_output (message_outputs t args p) o) with (write_message o t args p) in L'.
  assert (K3 : g = g') by (rewrite L in L'; now apply app_inv_head in L'). rewrite <- K3 in K2. clear L' K3.
  unfold write_calls in M. apply map_eq_app in M as (a & b & -> & Ma & Mb).
  destruct b as [|[c n] [|]]; [discriminate Mb| |discriminate Mb]. cbn [map fst] in Mb. injection Mb as ->.
  rewrite <- Ma in K1, K2. destruct (grows_all a f K1) as (h & E & (G1 & G2 & G3)). rewrite K2, H in G1. cbn [app] in G1.
  exists (fflush h), d, g. split; [unfold logger_setup_file; rewrite log_all_app, E; reflexivity|].
  assert (S1 : List.length (held h) <= room h).
  { pose proof (f_equal (@List.length N) G1) as Q. rewrite !app_length in Q. apply part_length in P1. apply part_length in P2. lia. }
  unfold fflush, pass. cbn [held on_disk]. rewrite Nat.min_assoc, Nat.min_id, Nat.min_l by exact S1. rewrite skipn_all, firstn_all.
  split; [reflexivity|]. split; [exact G1|]. split; [exact B|]. split; [exact P1|]. split; [exact P2|]. split; [exact L|].
  cbn [room]. pose proof (f_equal (@List.length N) G1) as Q. rewrite !app_length in Q. lia.
Qed.

Lemma file_of_streams ms : forall o calls f, map fst calls = calls_over o ms -> held f = [] -> List.length (text_of ms) <= room f ->
  exists f' d g, log_all (logger_setup_file (Some f)) calls = Ok (LogTo (Some f')) /\ held f' = [] /\ on_disk f' = on_disk f ++ g /\
    o_bytes (stream_after o ms) = o_bytes o ++ d /\ part_of g d /\ part_of d (text_of ms) /\ o_log (stream_after o ms) = o_log o ++ g.
Proof.
  induction ms as [|[[t args] p] ms IH]; intros o calls f M H R; cbn [calls_over stream_after] in *.
  - destruct calls; [|discriminate M]. exists f, [], []. rewrite !app_nil_r. split; [reflexivity|]. split; [exact H|]. split; [reflexivity|]. split; [reflexivity|].
    split; [constructor|]. split; [constructor|reflexivity].
  - change (text_of ((t, args, p) :: ms)) with (wire t args (props_enum p) ++ text_of ms) in *. rewrite app_length in R.
    apply map_eq_app in M as (a & b & -> & Ma & Mb).
    destruct (file_of_stream o t args p a f Ma H ltac:(lia)) as (h & d & g & E & K & D & B & P1 & P2 & L & Q).
    pose proof (part_length _ _ P1) as L1. pose proof (part_length _ _ P2) as L2.
    destruct (IH (write_message o t args p) b h Mb K ltac:(lia)) as (f' & d' & g' & E' & K' & D' & B' & P1' & P2' & L').
    exists f', (d ++ d'), (g ++ g'). unfold logger_setup_file in *. rewrite log_all_app, E. split; [exact E'|]. split; [exact K'|].
    rewrite D', D, B', B, L', L, <- !app_assoc. split; [reflexivity|]. split; [reflexivity|]. split; [now apply part_app|]. split; [now apply part_app|reflexivity].
Qed.
