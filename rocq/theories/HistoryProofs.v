(** Call histories: termination is final and announced at most once. *)
From Verif Require Import CBase StrMap Props PropsSpec StrMapProofs PropsProofs Message MessageSpec MessageProofs
  Num PropsNum Region RegionGeom Image Formats FormatsSpec FormatsProofs Handle SessionSpec HandleProofs SessionProofs HistorySpec.
Local Open Scope Z_scope.

(** Messages written between two states, with a schedule that stays free of errors *)
Definition said (h h' : handle) (ms : list message) : Prop := sent (h_out h) (h_out h') (flat_map message_bytes ms).
Lemma said_nil h h' : no_error (o_sched (h_out h)) -> h_out h' = h_out h -> said h h' [].
Proof. intros Hn E. unfold said. rewrite E. now apply sent_nil. Qed.
Lemma said_write h t args p : no_error (o_sched (h_out h)) -> said h (handle_write h t args p) [(t, args, props_enum (given p))].
Proof. intros Hn. unfold said. cbn [flat_map]. rewrite app_nil_r. now apply handle_write_sent. Qed.
Lemma said_app h h1 h2 a b : said h h1 a -> said h1 h2 b -> said h h2 (a ++ b).
Proof. unfold said. rewrite flat_map_app. apply sent_trans. Qed.
Lemma said_ok h h' ms : said h h' ms -> no_error (o_sched (h_out h')).
Proof. intros H. apply H. Qed.
Lemma said_same h h1 h' ms : h_out h1 = h_out h -> said h1 h' ms -> said h h' ms.
Proof. unfold said. now intros ->. Qed.
Lemma said_same_r h h1 h' ms : h_out h1 = h_out h' -> said h h1 ms -> said h h' ms.
Proof. unfold said. now intros ->. Qed.

(** What a call that does not terminate may do: messages other than quit; the end of a connection is kept. *)
Definition no_quit (ms : list message) : Prop := forallb (fun m => negb (is_quit m)) ms = true.
Definition normal (h h' : handle) : Prop :=
  (exists ms, said h h' ms /\ no_quit ms) /\ (h_terminated h = true -> h_terminated h' = true).
Lemma normal_quiet h h' : no_error (o_sched (h_out h)) -> h_out h' = h_out h -> (h_terminated h = true -> h_terminated h' = true) -> normal h h'.
Proof. intros Hn E Ht. split; [exists []; split; [now apply said_nil|reflexivity]|exact Ht]. Qed.
Lemma normal_write h t args p : t <> MQuit -> no_error (o_sched (h_out h)) -> normal h (handle_write h t args p).
Proof.
  intros Ht Hn. split; [|auto]. exists [(t, args, props_enum (given p))]. split; [now apply said_write|].
  unfold no_quit. cbn. destruct t; congruence || reflexivity.
Qed.
Lemma normal_trans a b c : normal a b -> (no_error (o_sched (h_out b)) -> normal b c) -> normal a c.
Proof.
  intros ((ms & H1 & Q1) & T1) H. destruct (H (said_ok _ _ _ H1)) as ((ns & H2 & Q2) & T2). split; [|auto].
  exists (ms ++ ns). split; [now apply (said_app a b c)|]. unfold no_quit in *. now rewrite forallb_app, Q1, Q2.
Qed.
Lemma normal_ok h h' : normal h h' -> no_error (o_sched (h_out h')).
Proof. intros ((ms & H & _) & _). now apply said_ok in H. Qed.

Lemma read_quiet h r h' : handle_read h = Ok (r, h') -> h_out h' = h_out h /\ h_terminated h' = h_terminated h.
Proof.
  unfold handle_read. destruct (read_message _ _ _); try discriminate. cbn [obind]. intros E. injection E as _ <-. now split.
Qed.

Ltac inv_ok E := match type of E with
  | Ok _ = Ok _ => injection E; clear E; intros; subst
  | _ => try discriminate E
  end.

Lemma client_wait_loop_quiet n : forall h acc p result code h' l q, client_wait_loop n h acc p result = Ok (code, h', l, q) ->
  h_out h' = h_out h /\ (h_terminated h = true -> h_terminated h' = true).
Proof.
  induction n as [|n IH]; intros h acc p result code h' l q E; cbn [client_wait_loop] in E; [inv_ok E; auto|].
  destruct (handle_read h) as [[r h1]| | |] eqn:Er; try discriminate. cbn [obind] in E. apply read_quiet in Er as (O1 & T1).
  rewrite <- O1, <- T1.
  destruct (rr_type r) as [[| | | |]|].
  - exact (IH _ _ _ _ _ _ _ _ E).
  - exact (IH _ _ _ _ _ _ _ _ E).
  - exact (IH _ _ _ _ _ _ _ _ E).
  - destruct (rr_args r); [|inv_ok E; auto]. destruct (copy_out _ _ _); try discriminate. cbn [obind] in E. inv_ok E. auto.
  - destruct (rr_args r) as [|a [|? ?]]; [inv_ok E; auto| |inv_ok E; auto].
    destruct (region_parse a) as [[[|] [reg|]]| | |]; try discriminate; cbn [obind] in E; [|inv_ok E; auto..].
    destruct (region_clone reg); try discriminate. cbn [obind] in E. destruct (copy_properties _ _ _); try discriminate. cbn [obind] in E.
    exact (IH _ _ _ _ _ _ _ _ E).
  - inv_ok E. auto.
Qed.

Lemma mot_failure_quiet h objs p code h' l o q : mot_failure h objs p = Ok (code, h', l, o, q) -> h' = h.
Proof. unfold mot_failure. destruct (existsb _ _); [discriminate|]. intros E. now inv_ok E. Qed.
Lemma mot_end_quiet result h images objs p code h' l o q : mot_end result h images objs p = Ok (code, h', l, o, q) ->
  h_out h' = h_out h /\ h_terminated h' = h_terminated h.
Proof.
  unfold mot_end. destruct objs; [intros E; inv_ok E; auto|]. destruct (mot_objects _); try discriminate. cbn [obind].
  intros E. inv_ok E. auto.
Qed.
Lemma wait_mot_loop_quiet slack argc fuel : forall h images result objs p code h' l o q,
  wait_mot_loop fuel slack argc h images result objs p = Ok (code, h', l, o, q) ->
  h_out h' = h_out h /\ (h_terminated h = true -> h_terminated h' = true).
Proof.
  induction fuel as [|fuel IH]; intros h images result objs p code h' l o q E; cbn [wait_mot_loop] in E; [discriminate|].
  destruct (handle_read h) as [[r h1]| | |] eqn:Er; try discriminate. cbn [obind] in E. apply read_quiet in Er as (O1 & T1).
  rewrite <- O1, <- T1.
  destruct (rr_type r) as [[| | | |]|].
  - exact (IH _ _ _ _ _ _ _ _ _ _ E).
  - destruct (rr_args r) as [|a [|? ?]].
    + apply IH in E. exact E.
    + destruct (region_parse a) as [[[|] reg]| | |]; try discriminate; cbn [obind] in E; [|apply mot_failure_quiet in E; subst; auto].
      destruct (copy_properties _ _ _); try discriminate. cbn [obind] in E. exact (IH _ _ _ _ _ _ _ _ _ _ E).
    + apply mot_failure_quiet in E. subst. auto.
  - destruct (_ && _); [apply mot_failure_quiet in E; subst; auto|]. destruct (negb (_ =? argc)); [apply mot_failure_quiet in E; subst; auto|].
    destruct (decode_images _ _ _ _ _) as [[ims|]| | |]; try discriminate; cbn [obind] in E; [|apply mot_failure_quiet in E; subst; auto].
    destruct (copy_out _ _ _); try discriminate. cbn [obind] in E. apply mot_end_quiet in E as (-> & ->). auto.
  - destruct (negb (_ =? 0)); [apply mot_failure_quiet in E; subst; auto|]. destruct (copy_out _ _ _); try discriminate. cbn [obind] in E.
    apply mot_end_quiet in E as (-> & ->). auto.
  - exact (IH _ _ _ _ _ _ _ _ _ _ E).
  - apply mot_failure_quiet in E. subst. auto.
Qed.

Lemma server_wait_sot_quiet slack h images reg p code h' l o q : server_wait_sot slack h images reg p = Ok (code, h', l, o, q) ->
  h_out h' = h_out h /\ (h_terminated h = true -> h_terminated h' = true).
Proof.
  unfold server_wait_sot. destruct (negb (h_server h)); [discriminate|]. destruct (negb (alive (clear_error h))); [intros E; inv_ok E; auto|].
  destruct (is_version_4 (clear_error h)); [intros E; inv_ok E; auto|].
  destruct (image_list_count _); try discriminate. cbn [obind].
  destruct (handle_read (clear_error h)) as [[r h1]| | |] eqn:Er; try discriminate. cbn [obind]. apply read_quiet in Er as (O1 & T1).
  change (h_out (clear_error h)) with (h_out h) in O1. change (h_terminated (clear_error h)) with (h_terminated h) in T1. rewrite <- O1, <- T1.
  intros E. destruct (rr_type r) as [[| | | |]|]; try (inv_ok E; auto; fail).
  - destruct (negb _); [inv_ok E; auto|]. destruct (decode_images _ _ _ _ _) as [[ims|]| | |]; try discriminate; cbn [obind] in E; [|inv_ok E; auto].
    destruct (nth_error _ _); [|discriminate]. destruct (region_parse _) as [[[|] ?]| | |]; try discriminate; cbn [obind] in E; [|inv_ok E; auto].
    destruct (copy_out _ _ _); try discriminate. cbn [obind] in E. inv_ok E. auto.
  - destruct (negb _); [inv_ok E; auto|]. destruct (decode_images _ _ _ _ _) as [[ims|]| | |]; try discriminate; cbn [obind] in E; [|inv_ok E; auto].
    destruct (copy_out _ _ _); try discriminate. cbn [obind] in E. inv_ok E. auto.
  - destruct (negb _); [inv_ok E; auto|]. destruct (copy_out _ _ _); try discriminate. cbn [obind] in E. inv_ok E. auto.
Qed.

(** ---- sending ---- *)
Lemma send_objects_normal legacy l : forall h h', no_error (o_sched (h_out h)) -> send_objects legacy h l = Ok h' -> normal h h'.
Proof.
  induction l as [|[r p] l IH]; intros h h' Hn E; cbn [send_objects] in E; [inv_ok E; apply normal_quiet; auto|].
  destruct (region_argument _ _ _) as [args| | |]; try discriminate. cbn [obind] in E.
  apply (normal_trans _ (handle_write h MInitialize args (Some p))); [apply normal_write; [discriminate|exact Hn]|].
  intros Hn'. now apply IH.
Qed.
Lemma send_frame_normal h images p code h' : no_error (o_sched (h_out h)) -> send_frame h images p = Ok (code, h') ->
  normal h h' /\ (code = TRAX_OK \/ (code = TRAX_ERROR /\ h_out h' = h_out h)).
Proof.
  intros Hn. unfold send_frame. destruct (image_arguments _ _ _) as [[a|]| | |]; try discriminate; cbn [obind].
  - destruct (all_texts a); try discriminate. cbn [obind]. intros E. inv_ok E. split; [apply normal_write; [discriminate|exact Hn]|auto].
  - intros E. inv_ok E. split; [apply normal_quiet; auto|auto].
Qed.
Lemma client_frame_normal legacy h images objects p code h' : no_error (o_sched (h_out h)) ->
  client_frame legacy h images objects p = Ok (code, h') -> normal h h'.
Proof.
  intros Hn. unfold client_frame. destruct (h_server h); [discriminate|]. destruct (negb (alive (clear_error h))); [intros E; inv_ok E; apply normal_quiet; auto|].
  destruct (is_version_4 (clear_error h)).
  - destruct (if 1 <? _ then _ else _) as [[|]| | |]; try discriminate; cbn [obind]; [intros E; inv_ok E; apply normal_quiet; auto|].
    destruct (send_objects legacy (clear_error h) _) as [h1| | |] eqn:E1; try discriminate. cbn [obind]. intros E.
    pose proof (send_objects_normal legacy _ (clear_error h) h1 Hn E1) as N1.
    apply (normal_trans _ (clear_error h)); [apply normal_quiet; auto|]. intros _.
    apply (normal_trans _ h1); [exact N1|]. intros Hn1.
    apply (normal_trans _ (set_objects h1 (h_objects h1 + Z.of_nat (List.length match objects with Some l => l | None => [] end)))).
    { apply normal_quiet; auto. }
    intros _. match type of E with send_frame ?x _ _ = _ => exact (proj1 (send_frame_normal x images p code h' Hn1 E)) end.
  - destruct (0 <? _); intros E; [inv_ok E; apply normal_quiet; auto|].
    apply (normal_trans _ (clear_error h)); [apply normal_quiet; auto|]. intros _. match type of E with send_frame ?x _ _ = _ => exact (proj1 (send_frame_normal x images p code h' Hn E)) end.
Qed.
Lemma client_initialize_normal legacy h images objects p code h' : no_error (o_sched (h_out h)) ->
  client_initialize legacy h images objects p = Ok (code, h') -> normal h h'.
Proof.
  intros Hn. unfold client_initialize. destruct (h_server h); [discriminate|]. destruct (negb (alive (clear_error h))); [intros E; inv_ok E; apply normal_quiet; auto|].
  destruct (_ <? 1); [intros E; inv_ok E; apply normal_quiet; auto|].
  destruct (is_multi_object (clear_error h)) as [m| | |]; try discriminate. cbn [obind].
  destruct (_ && _); [intros E; inv_ok E; apply normal_quiet; auto|].
  destruct (is_version_4 (clear_error h)).
  - intros E. set (h1 := if 0 <? h_objects (clear_error h) then _ else _) in E.
    assert (N1 : normal h h1).
    { unfold h1. destruct (0 <? _); [|apply normal_quiet; auto].
      apply (normal_trans _ (handle_write (clear_error h) MInitialize [] None)).
      - apply (normal_trans _ (clear_error h)); [apply normal_quiet; auto|]. intros _. apply normal_write; [discriminate|exact Hn].
      - intros Hn1. apply normal_quiet; auto. }
    apply (normal_trans _ h1); [exact N1|]. intros Hn1. now apply (client_frame_normal legacy _ images (Some objects) p code h').
  - destruct objects as [|[r d] objects]; [discriminate|]. destruct (region_bit r =? 1); [discriminate|].
    destruct (image_arguments _ _ _) as [[a|]| | |]; try discriminate; cbn [obind]; [|intros E; inv_ok E; apply normal_quiet; auto].
    destruct (region_argument _ _ _) as [ra| | |]; try discriminate. cbn [obind]. destruct (all_texts a) as [args| | |]; try discriminate. cbn [obind].
    intros E. inv_ok E. apply (normal_trans _ (clear_error h)); [apply normal_quiet; auto|]. intros _.
    apply (normal_trans _ (handle_write (clear_error h) MInitialize (args ++ ra) p)); [apply normal_write; [discriminate|exact Hn]|].
    intros Hn1. apply normal_quiet; auto.
Qed.
Lemma send_states_normal l : forall h code h', no_error (o_sched (h_out h)) -> send_states h l = Ok (code, h') -> normal h h'.
Proof.
  induction l as [|[r p] l IH]; intros h code h' Hn E; cbn [send_states] in E; [inv_ok E; apply normal_quiet; auto|].
  destruct (region_string r) as [[t|]| | |]; try discriminate; cbn [obind] in E; [|inv_ok E; apply normal_quiet; auto].
  apply (normal_trans _ (handle_write h MState [t] (Some p))); [apply normal_write; [discriminate|exact Hn]|].
  intros Hn'. now apply (IH _ code).
Qed.
Lemma reply_sot_normal h r p code h' : no_error (o_sched (h_out h)) -> server_reply_sot h r p = Ok (code, h') -> normal h h'.
Proof.
  intros Hn. unfold server_reply_sot. destruct (negb (h_server h)); [discriminate|]. destruct (negb (alive (clear_error h))); [intros E; inv_ok E; apply normal_quiet; auto|].
  destruct (is_version_4 _); [intros E; inv_ok E; apply normal_quiet; auto|].
  destruct (region_string r) as [[t|]| | |]; try discriminate; cbn [obind]; intros E; inv_ok E; [|apply normal_quiet; auto].
  apply (normal_trans _ (clear_error h)); [apply normal_quiet; auto|]. intros _. apply normal_write; [discriminate|exact Hn].
Qed.
Lemma reply_mot_normal h l code h' : no_error (o_sched (h_out h)) -> server_reply_mot h l = Ok (code, h') -> normal h h'.
Proof.
  intros Hn. unfold server_reply_mot. destruct (negb (h_server h)); [discriminate|]. destruct (negb (alive (clear_error h))); [intros E; inv_ok E; apply normal_quiet; auto|].
  destruct (is_multi_object _) as [m| | |]; try discriminate. cbn [obind].
  destruct (_ && _); [intros E; inv_ok E; apply normal_quiet; auto|]. destruct (negb _); [intros E; inv_ok E; apply normal_quiet; auto|].
  intros E. apply (normal_trans _ (clear_error h)); [apply normal_quiet; auto|]. intros _. now apply (send_states_normal l _ code).
Qed.

(** ---- one call ---- *)
Lemma run_call_normal legacy slack h c code h' : no_error (o_sched (h_out h)) -> run_call legacy slack h c = Ok (code, h') ->
  normal h h' \/ (exists reason, c = CTerminate reason) /\ h_terminated h = false /\ h_terminated h' = true /\
    exists kvs, said h h' [(MQuit, [], kvs)].
Proof.
  intros Hn E. destruct c; cbn [run_call] in E.
  - left. unfold client_wait in E. destruct (h_server h); [discriminate|]. destruct (negb (alive h)); [cbn [obind] in E; inv_ok E; apply normal_quiet; auto|].
    destruct (client_wait_loop _ _ _ _ _) as [[[[code1 h1] l] q]| | |] eqn:E1; try discriminate. cbn [obind] in E. inv_ok E.
    apply client_wait_loop_quiet in E1 as (A & B). now apply normal_quiet.
  - left. now apply (client_frame_normal legacy h images objects p code h').
  - left. now apply (client_initialize_normal legacy h images objects p code h').
  - left. destruct (server_wait_sot _ _ _ _ _) as [[[[[code1 h1] l] o] q]| | |] eqn:E1; try discriminate. cbn [obind] in E. inv_ok E.
    apply server_wait_sot_quiet in E1 as (A & B). now apply normal_quiet.
  - left. unfold server_wait_mot in E. destruct (negb (h_server h)); [discriminate|]. destruct (negb (alive (clear_error h))); [cbn [obind] in E; inv_ok E; apply normal_quiet; auto|].
    destruct (image_list_count _); try discriminate. cbn [obind] in E.
    destruct (wait_mot_loop _ _ _ _ _ _ _ _) as [[[[[code1 h1] l] o] q]| | |] eqn:E1; try discriminate. cbn [obind] in E. inv_ok E.
    apply wait_mot_loop_quiet in E1 as (A & B). now apply normal_quiet.
  - left. now apply (reply_sot_normal h r p code h').
  - left. now apply (reply_mot_normal h objects code h').
  - unfold terminate in E. destruct (negb (alive (clear_error h))) eqn:Ea; [inv_ok E; left; apply normal_quiet; auto|].
    destruct (set_optional _ _ _) as [p| | |]; try discriminate. cbn [obind] in E. inv_ok E. right. split; [now exists reason|].
    split; [unfold alive, clear_error in Ea; cbn [h_terminated] in Ea; now destruct (h_terminated h)|]. split; [reflexivity|]. exists (props_enum p).
    apply (said_same h (terminated (clear_error h))); [reflexivity|].
    exact (said_write (terminated (clear_error h)) MQuit [] (Some p) Hn).
  - left. inv_ok E. apply normal_quiet; auto.
Qed.

(** On a terminated handle nothing is sent; the communication functions report an error. *)
Lemma dead_call legacy slack h c code h' : h_terminated h = true -> run_call legacy slack h c = Ok (code, h') ->
  h_out h' = h_out h /\ h_terminated h' = true /\ (communicates c = true -> code = TRAX_ERROR) /\
  (forall reason, c = CTerminate reason -> code = TRAX_OK).
Proof.
  intros Ht E.
  assert (Ha : alive h = false) by (unfold alive; now rewrite Ht). assert (Hb : alive (clear_error h) = false) by (unfold alive; cbn; now rewrite Ht).
  destruct c; cbn [run_call communicates] in *.
  - unfold client_wait in E. rewrite Ha in E. destruct (h_server h); [discriminate|]. cbn [negb obind] in E. inv_ok E. repeat split; auto; discriminate.
  - unfold client_frame in E. rewrite Hb in E. destruct (h_server h); [discriminate|]. cbn [negb obind] in E. inv_ok E. repeat split; auto; discriminate.
  - unfold client_initialize in E. rewrite Hb in E. destruct (h_server h); [discriminate|]. cbn [negb obind] in E. inv_ok E. repeat split; auto; discriminate.
  - unfold server_wait_sot in E. rewrite Hb in E. destruct (negb (h_server h)); [discriminate|]. cbn [negb obind] in E. inv_ok E. repeat split; auto; discriminate.
  - unfold server_wait_mot in E. rewrite Hb in E. destruct (negb (h_server h)); [discriminate|]. cbn [negb obind] in E. inv_ok E. repeat split; auto; discriminate.
  - unfold server_reply_sot in E. rewrite Hb in E. destruct (negb (h_server h)); [discriminate|]. cbn [negb obind] in E. inv_ok E. repeat split; auto; discriminate.
  - unfold server_reply_mot in E. rewrite Hb in E. destruct (negb (h_server h)); [discriminate|]. cbn [negb obind] in E. inv_ok E. repeat split; auto; discriminate.
  - unfold terminate in E. rewrite Hb in E. cbn [negb] in E. inv_ok E. repeat split; auto; discriminate.
  - inv_ok E. repeat split; auto; discriminate.
Qed.

Lemma dead_calls legacy slack cs : forall h codes h', h_terminated h = true -> run_calls legacy slack h cs = Ok (codes, h') ->
  h_out h' = h_out h /\ h_terminated h' = true /\ Forall2 (fun c code => communicates c = true -> code = TRAX_ERROR) cs codes.
Proof.
  induction cs as [|c cs IH]; intros h codes h' Ht E; cbn [run_calls] in E; [inv_ok E; auto|].
  destruct (run_call legacy slack h c) as [[code h1]| | |] eqn:E1; try discriminate. cbn [obind fst snd] in E.
  destruct (run_calls legacy slack h1 cs) as [[codes1 h2]| | |] eqn:E2; try discriminate. cbn [obind fst snd] in E. inv_ok E.
  destruct (dead_call _ _ _ _ _ _ Ht E1) as (A & B & C & _). destruct (IH _ _ _ B E2) as (A' & B' & C').
  split; [now rewrite A'|]. split; [exact B'|]. now constructor.
Qed.

Lemma history_quits legacy slack cs : forall h codes h', no_error (o_sched (h_out h)) -> run_calls legacy slack h cs = Ok (codes, h') ->
  exists ms, spoke h h' ms /\ (no_quit ms \/ exists ns q, ms = ns ++ [q] /\ no_quit ns /\ is_quit q = true /\ h_terminated h = false /\ h_terminated h' = true).
Proof.
  induction cs as [|c cs IH]; intros h codes h' Hn E; cbn [run_calls] in E.
  - inv_ok E. exists []. split; [unfold spoke; cbn; now rewrite app_nil_r|]. now left.
  - destruct (run_call legacy slack h c) as [[code h1]| | |] eqn:E1; try discriminate. cbn [obind fst snd] in E.
    destruct (run_calls legacy slack h1 cs) as [[codes1 h2]| | |] eqn:E2; try discriminate. cbn [obind fst snd] in E. inv_ok E.
    destruct (run_call_normal legacy slack h c code h1 Hn E1) as [((ms & S1 & Q1) & T1)|(_ & Hh & Ht & kvs & S1)].
    + destruct (IH h1 codes1 h' (said_ok _ _ _ S1) E2) as (ms2 & S2 & Q2). exists (ms ++ ms2). split.
      * unfold spoke. rewrite S2, (proj1 S1), flat_map_app. now rewrite app_assoc.
      * destruct Q2 as [Q2|(ns & q & -> & Qn & Qq & Hh1 & Hh')]; [left; unfold no_quit in *; now rewrite forallb_app, Q1, Q2|].
        right. exists (ms ++ ns), q. split; [apply app_assoc|]. split; [unfold no_quit in *; now rewrite forallb_app, Q1, Qn|].
        split; [exact Qq|]. split; [|exact Hh']. destruct (h_terminated h) eqn:Eh; [|reflexivity]. rewrite T1 in Hh1 by reflexivity. discriminate.
    + destruct (dead_calls legacy slack cs h1 codes1 h' Ht E2) as (A & B & _). exists [(MQuit, [], kvs)]. split.
      * unfold spoke. rewrite A. exact (proj1 S1).
      * right. exists [], (MQuit, [], kvs). unfold no_quit. cbn. auto 10.
Qed.

(** ---- states in which a call is refused ---- *)
Lemma dead_total legacy slack h c : h_terminated h = true -> right_role h c = true ->
  exists code h', run_call legacy slack h c = Ok (code, h').
Proof.
  intros Ht Hr.
  assert (Ha : alive h = false) by (unfold alive; now rewrite Ht). assert (Hb : alive (clear_error h) = false) by (unfold alive; cbn; now rewrite Ht).
  unfold right_role in Hr.
  destruct c; cbn [run_call for_client for_server] in *; try (destruct (h_server h) eqn:Es; cbn [negb] in Hr; try discriminate).
  - unfold client_wait. rewrite Es, Ha. cbn [negb obind]. eauto.
  - unfold client_frame. rewrite Es, Hb. cbn [negb]. eauto.
  - unfold client_initialize. rewrite Es, Hb. cbn [negb]. eauto.
  - unfold server_wait_sot. rewrite Es, Hb. cbn [negb obind]. eauto.
  - unfold server_wait_mot. rewrite Es, Hb. cbn [negb obind]. eauto.
  - unfold server_reply_sot. rewrite Es, Hb. cbn [negb]. eauto.
  - unfold server_reply_mot. rewrite Es, Hb. cbn [negb]. eauto.
  - unfold terminate. rewrite Hb. cbn [negb]. eauto.
  - unfold terminate. rewrite Hb. cbn [negb]. eauto.
  - eauto.
  - eauto.
Qed.

Lemma role_keep legacy slack h c code h' : run_call legacy slack h c = Ok (code, h') -> h_terminated h = true -> h_server h' = h_server h.
Proof.
  intros E Ht.
  assert (Ha : alive h = false) by (unfold alive; now rewrite Ht). assert (Hb : alive (clear_error h) = false) by (unfold alive; cbn; now rewrite Ht).
  destruct c; cbn [run_call] in E;
    unfold client_wait, client_frame, client_initialize, server_wait_sot, server_wait_mot, server_reply_sot, server_reply_mot, terminate in E;
    rewrite ?Ha, ?Hb in E; try (destruct (h_server h) eqn:Es; try discriminate; cbn [negb obind] in E; inv_ok E; exact Es).
Qed.

Lemma dead_history legacy slack cs : forall h, h_terminated h = true -> Forall (fun c => right_role h c = true) cs ->
  exists codes h', run_calls legacy slack h cs = Ok (codes, h') /\ o_bytes (h_out h') = o_bytes (h_out h) /\ is_alive h' = false /\
    Forall2 (fun c code => communicates c = true -> code = TRAX_ERROR) cs codes.
Proof.
  intros h Ht Hr.
  assert (T : exists codes h', run_calls legacy slack h cs = Ok (codes, h')).
  { revert h Ht Hr. induction cs as [|c cs IH]; intros h Ht Hr; cbn [run_calls]; [eauto|]. inversion Hr as [|? ? Hc Hcs]; subst.
    destruct (dead_total legacy slack h c Ht Hc) as (code & h1 & E1). rewrite E1. cbn [obind fst snd].
    pose proof (role_keep _ _ _ _ _ _ E1 Ht) as Es. destruct (dead_call _ _ _ _ _ _ Ht E1) as (_ & T1 & _).
    destruct (IH h1 T1) as (codes & h2 & E2).
    { apply Forall_impl with (2 := Hcs). intros d. unfold right_role. now rewrite Es. }
    rewrite E2. cbn [obind]. eauto. }
  destruct T as (codes & h' & E). exists codes, h'. destruct (dead_calls legacy slack cs h codes h' Ht E) as (A & B & C).
  split; [exact E|]. split; [now rewrite A|]. split; [unfold is_alive, alive; now rewrite B|exact C].
Qed.

Lemma quit_once legacy slack cs h codes h' : no_error (o_sched (h_out h)) -> run_calls legacy slack h cs = Ok (codes, h') ->
  exists ms, spoke h h' ms /\
    (filter is_quit ms = [] \/
     exists ns q, ms = ns ++ [q] /\ filter is_quit ns = [] /\ is_quit q = true /\ is_alive h = true /\ is_alive h' = false).
Proof.
  intros Hn E. destruct (history_quits legacy slack cs h codes h' Hn E) as (ms & S & Q). exists ms. split; [exact S|].
  assert (K : forall l, no_quit l -> filter is_quit l = []).
  { unfold no_quit. induction l as [|m l IH]; [reflexivity|]. cbn. destruct (is_quit m); [discriminate|exact IH]. }
  destruct Q as [Q|(ns & q & -> & Qn & Qq & A & B)]; [left; now apply K|]. right. exists ns, q. unfold is_alive, alive. rewrite A, B. auto.
Qed.

Lemma terminate_sends h reason : no_error (o_sched (h_out h)) -> is_alive h = true ->
  exists h' kvs, terminate h reason = Ok (TRAX_OK, h') /\ is_alive h' = false /\ spoke h h' [(MQuit, [], kvs)] /\
    match reason with Some t => kvs = [(str "trax.reason", t)] | None => kvs = [] end.
Proof.
  intros Hn Ha. unfold is_alive, alive in Ha. unfold terminate.
  assert (Hb : alive (clear_error h) = true) by exact Ha. rewrite Hb. cbn [negb].
  assert (P : exists p, set_optional props_create (str "trax.reason") reason = Ok p /\
    props_enum p = match reason with Some t => [(str "trax.reason", t)] | None => [] end).
  { destruct reason as [t|]; cbn [set_optional]; [|eauto]. eexists. split; [vm_compute; reflexivity|]. vm_compute. reflexivity. }
  destruct P as (p & -> & Ep). cbn [obind].
  eexists. exists (props_enum p). split; [reflexivity|]. split; [reflexivity|]. split.
  - apply (said_same h (terminated (clear_error h))); [reflexivity|]. exact (said_write (terminated (clear_error h)) MQuit [] (Some p) Hn).
  - rewrite Ep. destruct reason; reflexivity.
Qed.

(** ---- C38 ---- *)
Lemma wrong_role_aborts legacy slack h c : right_role h c = false -> run_call legacy slack h c = Abort.
Proof.
  unfold right_role. intros Hr. destruct c; cbn [run_call for_client for_server] in *; destruct (h_server h) eqn:Es; try discriminate Hr;
    unfold client_wait, client_frame, client_initialize, server_wait_sot, server_wait_mot, server_reply_sot, server_reply_mot;
    rewrite Es; reflexivity.
Qed.
Lemma reply_count_refused h objects : h_server h = true -> md_flags (h_meta h) <> None -> Z.of_nat (List.length objects) <> h_objects h ->
  exists h', server_reply_mot h objects = Ok (TRAX_ERROR, h') /\ h_out h' = h_out h /\ h_error h' = true.
Proof.
  intros Hs Hf Hn. unfold server_reply_mot. rewrite Hs. cbn [negb]. destruct (negb (alive (clear_error h))); [eexists; split; [reflexivity|split; reflexivity]|].
  unfold is_multi_object. change (md_flags (h_meta (clear_error h))) with (md_flags (h_meta h)).
  destruct (md_flags (h_meta h)) as [f|]; [|congruence]. cbn [obind].
  destruct (_ && _); [eexists; split; [reflexivity|split; reflexivity]|].
  change (h_objects (clear_error h)) with (h_objects h).
  replace (Z.of_nat (List.length objects) =? h_objects h) with false by lia. cbn [negb].
  eexists; split; [reflexivity|split; reflexivity].
Qed.
Lemma sot_refused slack h images reg p r : h_server h = true -> 4 <= h_version h ->
  (exists h', server_wait_sot slack h images reg p = Ok (TRAX_ERROR, h', images, reg, p) /\ h_out h' = h_out h /\ h_in h' = h_in h /\ h_error h' = true) /\
  (exists h', server_reply_sot h r p = Ok (TRAX_ERROR, h') /\ h_out h' = h_out h /\ h_error h' = true).
Proof.
  intros Hs Hv. unfold server_wait_sot, server_reply_sot. rewrite Hs. cbn [negb].
  assert (V : is_version_4 (clear_error h) = true) by (unfold is_version_4; cbn; lia). rewrite V.
  destruct (negb (alive (clear_error h))); split; eexists; (split; [reflexivity|]); repeat split.
Qed.

(** ---- C39 ---- *)
Lemma complete_arguments ch images : List.length images = 3%nat -> images_complete ch images ->
  image_arguments ch channel_ids images <> Ok None.
Proof.
  intros Hl Hc. destruct images as [|a [|b [|c [|]]]]; try discriminate Hl.
  pose proof (Hc 0%nat ltac:(lia)) as H0. pose proof (Hc 1%nat ltac:(lia)) as H1. pose proof (Hc 2%nat ltac:(lia)) as H2. change (Z.of_nat 0) with 0 in H0. change (Z.of_nat 1) with 1 in H1. change (Z.of_nat 2) with 2 in H2. cbn [nth] in *.
  assert (B : forall k id, id = 2 ^ k -> 0 <= k -> supports ch id = Z.testbit ch k).
  { intros k id -> Hk. apply supports_bit. exact Hk. }
  cbn [channel_ids image_arguments].
  rewrite (B 0 TRAX_CHANNEL_COLOR eq_refl ltac:(lia)), (B 1 TRAX_CHANNEL_DEPTH eq_refl ltac:(lia)), (B 2 TRAX_CHANNEL_IR eq_refl ltac:(lia)).
  destruct (Z.testbit ch 0); [destruct a as [a|]; [|now specialize (H0 eq_refl)]|];
  (destruct (Z.testbit ch 1); [destruct b as [b|]; [|now specialize (H1 eq_refl)]|]);
  (destruct (Z.testbit ch 2); [destruct c as [c|]; [|now specialize (H2 eq_refl)]|]);
  repeat (match goal with |- context [image_encode ?i] => destruct (image_encode i) end; cbn [obind option_map]; try discriminate); discriminate.
Qed.
Lemma send_objects_meta legacy l : forall h h', send_objects legacy h l = Ok h' -> h_meta h' = h_meta h.
Proof.
  induction l as [|[r p] l IH]; intros h h' E; cbn [send_objects] in E; [now inv_ok E|].
  destruct (region_argument _ _ _); try discriminate. cbn [obind] in E. now apply IH in E.
Qed.
Lemma send_frame_complete h images p code h' : List.length images = 3%nat -> images_complete (md_channels (h_meta h)) images ->
  send_frame h images p = Ok (code, h') -> code = TRAX_OK.
Proof.
  intros Hl Hc. unfold send_frame. pose proof (complete_arguments _ _ Hl Hc) as Hne.
  destruct (image_arguments _ _ _) as [[a|]| | |]; try discriminate; cbn [obind]; [|congruence].
  destruct (all_texts a); try discriminate. cbn [obind]. intros E. now inv_ok E.
Qed.
Lemma send_frame_quiet h images p code h' : send_frame h images p = Ok (code, h') -> code <> TRAX_OK -> h_out h' = h_out h.
Proof.
  unfold send_frame. destruct (image_arguments _ _ _) as [[a|]| | |]; try discriminate; cbn [obind].
  - destruct (all_texts a); try discriminate. cbn [obind]. intros E. now inv_ok E.
  - intros E _. now inv_ok E.
Qed.
Lemma client_frame_quiet legacy h images objects p code h' :
  h_version h < 4 \/ objects = [] \/ List.length images = 3%nat /\ images_complete (md_channels (h_meta h)) images ->
  client_frame legacy h images (Some objects) p = Ok (code, h') -> code <> TRAX_OK -> h_out h' = h_out h.
Proof.
  intros G. unfold client_frame. destruct (h_server h); [discriminate|]. destruct (negb (alive _)); [intros E _; now inv_ok E|].
  destruct (is_version_4 (clear_error h)) eqn:V.
  - destruct (if 1 <? _ then _ else _) as [[|]| | |]; try discriminate; cbn [obind]; [intros E _; now inv_ok E|].
    destruct G as [G|G]; [unfold is_version_4 in V; cbn in V; lia|].
    destruct objects as [|o objects].
    + cbn [send_objects obind]. intros E Hne. now apply (send_frame_quiet _ _ _ _ _ E).
    + destruct G as [G|(Hl & Hc)]; [discriminate|]. destruct (send_objects _ _ _) as [h1| | |] eqn:E1; try discriminate. cbn [obind].
      apply send_objects_meta in E1. intros E Hne.
      apply send_frame_complete in E; [contradiction|exact Hl|]. cbn [h_meta set_objects]. rewrite E1. exact Hc.
  - destruct (0 <? _); intros E Hne; [now inv_ok E|]. now apply (send_frame_quiet _ _ _ _ _ E).
Qed.
Lemma failed_send_quiet legacy h init images objects p code h' :
  h_version h < 4 \/ (init = false /\ objects = []) \/ List.length images = 3%nat /\ images_complete (md_channels (h_meta h)) images ->
  client_send legacy h init images objects p = Ok (code, h') -> code <> TRAX_OK -> o_bytes (h_out h') = o_bytes (h_out h).
Proof.
  intros G E Hne. assert (K : h_out h' = h_out h); [|now rewrite K]. unfold client_send in E. destruct init.
  - unfold client_initialize in E. destruct (h_server h) eqn:Hs; [discriminate|]. destruct (negb (alive (clear_error h))) eqn:Ha; [now inv_ok E|].
    destruct (_ <? 1); [now inv_ok E|]. destruct (is_multi_object (clear_error h)) as [m| | |] eqn:Em; try discriminate. cbn [obind] in E.
    destruct (negb m && _) eqn:Hm; [now inv_ok E|].
    destruct (is_version_4 (clear_error h)) eqn:V.
    + exfalso. destruct G as [G|[(G & _)|(Hl & Hc)]]; [unfold is_version_4 in V; cbn in V; lia|discriminate|].
      set (h1 := if 0 <? h_objects (clear_error h) then _ else _) in E.
      assert (F : h_server h1 = false /\ alive (clear_error h1) = true /\ is_version_4 (clear_error h1) = true /\ h_objects h1 <= 0 /\ h_meta h1 = h_meta h /\
        is_multi_object (clear_error h1) = Ok m).
      { apply negb_false_iff in Ha. unfold h1. destruct (0 <? h_objects (clear_error h)) eqn:Eo; repeat match goal with |- _ /\ _ => split end; try assumption; try reflexivity.
        cbn [h_objects clear_error] in *. lia. }
      destruct F as (F1 & F2 & F3 & F4 & F5 & F6). clearbody h1. unfold client_frame in E. rewrite F1, F2, F3 in E. cbn [negb] in E.
      assert (X : (if 1 <? h_objects (clear_error h1) + Z.of_nat (List.length objects) then m <- is_multi_object (clear_error h1) ;; Ok (negb m) else Ok false) = Ok false).
      { change (h_objects (clear_error h1)) with (h_objects h1). destruct (1 <? h_objects h1 + _) eqn:L; [|reflexivity]. rewrite F6. cbn [obind].
        destruct m; [reflexivity|]. cbn [negb andb] in Hm. lia. }
      rewrite X in E. cbn [obind] in E. destruct (send_objects _ _ _) as [h2| | |] eqn:E1; try discriminate. cbn [obind] in E.
      apply send_objects_meta in E1. apply send_frame_complete in E; [contradiction|exact Hl|]. cbn [h_meta set_objects]. rewrite E1.
      change (h_meta (clear_error h1)) with (h_meta h1). rewrite F5. exact Hc.
    + destruct objects as [|[r d] objects]; [discriminate|]. destruct (region_bit r =? 1); [discriminate|].
      destruct (image_arguments _ _ _) as [[a|]| | |]; try discriminate; cbn [obind] in E; [|now inv_ok E].
      destruct (region_argument _ _ _) as [ra| | |]; try discriminate. cbn [obind] in E. destruct (all_texts a); try discriminate. cbn [obind] in E. now inv_ok E.
  - apply (client_frame_quiet legacy h images objects p code h'); [|exact E|exact Hne]. destruct G as [G|[(_ & G)|G]]; auto.
Qed.

(** ---- C57: the end of the input ---- *)
Definition at_end (h : handle) : Prop := st_buf (h_in h) = [] /\ st_script (h_in h) = [].
Lemma read_at_end h : at_end h -> exists r, handle_read h = Ok (r, with_in h (h_type h) (h_in h)) /\ rr_type r = h_type h /\ rr_args r = [].
Proof.
  intros (Hb & Hs). unfold handle_read. destruct (h_in h) as [b sc]. cbn in Hb, Hs. subst b sc.
  destruct (h_type h) as [[]|]; eexists; (split; [vm_compute; reflexivity|]); split; reflexivity.
Qed.
Lemma mot_hangs fuel slack argc : forall h images result objs p, at_end h -> h_type h = Some MInitialize ->
  wait_mot_loop fuel slack argc h images result objs p = NoFuel.
Proof.
  induction fuel as [|fuel IH]; intros h images result objs p He Ht; [reflexivity|]. cbn [wait_mot_loop].
  destruct (read_at_end h He) as (r & -> & Er & Ea). cbn [obind]. rewrite Er, Ht, Ea. apply IH; [exact He|reflexivity].
Qed.
Lemma wait_mot_hangs fuel slack h images p : at_end h -> h_type h = Some MInitialize -> h_server h = true -> is_alive h = true ->
  0 <= md_channels (h_meta h) <= INT_MAX -> server_wait_mot fuel slack h images p = NoFuel.
Proof.
  intros He Ht Hs Ha Hc. unfold server_wait_mot. rewrite Hs. change (alive (clear_error h)) with (is_alive h). rewrite Ha. cbn [negb].
  change (h_meta (clear_error h)) with (h_meta h). rewrite image_list_count_ok by exact Hc. cbn [obind]. now apply mot_hangs.
Qed.
Lemma popcount_positive z : 1 <= z <= INT_MAX -> (1 <= popcount32 z)%nat.
Proof.
  intros Hz. change (popcount32 z) with (sum_bits 32 z). rewrite sum_bits_pop by (unfold INT_MAX in Hz; change (2 ^ Z.of_nat 32) with 4294967296; lia).
  destruct z as [|p|p]; try lia. cbn [pop]. destruct (land_lower p) as (_ & H). lia.
Qed.
Lemma wait_mot_ends fuel slack h images p : at_end h -> h_type h = None \/ h_type h = Some MFrame -> h_server h = true -> is_alive h = true ->
  1 <= md_channels (h_meta h) <= INT_MAX -> exists h', server_wait_mot (S fuel) slack h images p = Ok (TRAX_ERROR, h', None, None, p).
Proof.
  intros He Ht Hs Ha Hc. unfold server_wait_mot. rewrite Hs. change (alive (clear_error h)) with (is_alive h). rewrite Ha. cbn [negb].
  change (h_meta (clear_error h)) with (h_meta h). rewrite image_list_count_ok by lia. cbn [obind wait_mot_loop].
  destruct (read_at_end (clear_error h) He) as (r & -> & Er & Ea). cbn [obind]. rewrite Er, Ea. change (h_type (clear_error h)) with (h_type h).
  destruct Ht as [->| ->]; [eexists; reflexivity|]. change ((TRAX_ERROR =? TRAX_INITIALIZE) && _)%bool with false. cbv iota. cbn [List.length Z.of_nat].
  pose proof (popcount_positive (md_channels (h_meta h)) ltac:(lia)) as Hp.
  replace (0 =? Z.of_nat (popcount32 (md_channels (h_meta h)))) with false by lia. cbn [negb]. eexists. reflexivity.
Qed.
Lemma wait_sot_ends slack h images reg p : at_end h -> h_type h <> Some MQuit -> h_server h = true -> is_alive h = true -> h_version h < 4 ->
  1 <= md_channels (h_meta h) <= INT_MAX -> exists h', server_wait_sot slack h images reg p = Ok (TRAX_ERROR, h', None, None, p).
Proof.
  intros He Ht Hs Ha Hv Hc. unfold server_wait_sot. rewrite Hs. change (alive (clear_error h)) with (is_alive h). rewrite Ha. cbn [negb].
  replace (is_version_4 (clear_error h)) with false by (unfold is_version_4; cbn; lia).
  change (h_meta (clear_error h)) with (h_meta h). rewrite image_list_count_ok by lia. cbn [obind].
  destruct (read_at_end (clear_error h) He) as (r & -> & Er & Ea). cbn [obind]. rewrite Er, Ea. change (h_type (clear_error h)) with (h_type h).
  pose proof (popcount_positive (md_channels (h_meta h)) ltac:(lia)) as Hp. cbn [List.length Z.of_nat].
  destruct (h_type h) as [[]|]; try congruence; try (eexists; reflexivity).
  - replace (0 =? Z.of_nat (popcount32 (md_channels (h_meta h))) + 1) with false by lia. cbn [negb]. eexists. reflexivity.
  - replace (0 =? Z.of_nat (popcount32 (md_channels (h_meta h)))) with false by lia. cbn [negb]. eexists. reflexivity.
Qed.
Lemma client_wait_ends h p : at_end h -> h_type h = None \/ h_type h = Some MState -> h_server h = false ->
  exists h' l, client_wait h p = Ok (TRAX_ERROR, h', l, p).
Proof.
  intros He Ht Hs. unfold client_wait. rewrite Hs. destruct (negb (alive h)); [eauto|].
  destruct (Z.to_nat (h_objects h)); cbn [client_wait_loop]; [eauto|].
  destruct (read_at_end h He) as (r & -> & Er & Ea). cbn [obind]. rewrite Er, Ea. destruct Ht as [->| ->]; eauto.
Qed.

(** A hello message without formats *)
Lemma hello_without p version : props_get_int p (str "trax.version") 1 = Ok version ->
  props_get p (str "trax.region") = Ok None -> hello_metadata p = UB.
Proof. intros Hv Hr. unfold hello_metadata. rewrite Hv. cbn [obind]. rewrite Hr. reflexivity. Qed.
Lemma terminate_dead h reason : h_terminated h = true -> terminate h reason = Ok (TRAX_OK, clear_error h).
Proof. intros Ht. unfold terminate, alive. cbn. rewrite Ht. reflexivity. Qed.
Lemma ok_not_error : TRAX_OK <> TRAX_ERROR. Proof. discriminate. Qed.
Definition abandoned : handle :=
  match client_send false sample_client true sample_missing [sample_object] None with Ok (_, h) => h | _ => sample_client end.
Lemma abandoned_server : exists h1, client_send false sample_client true sample_missing [sample_object] None = Ok (TRAX_ERROR, h1) /\
  forall fuel, server_wait_mot fuel 0 (arrive whole_cut (written sample_client h1) sample_server) None None = NoFuel.
Proof.
  exists abandoned. split; [vm_compute; reflexivity|]. intros [|fuel]; [vm_compute; reflexivity|].
  set (h := arrive _ _ _).
  assert (E : exists r h', handle_read (clear_error h) = Ok (r, h') /\ at_end h' /\ h_type h' = Some MInitialize /\ rr_type r = Some MInitialize /\
     exists a reg d, rr_args r = [a] /\ region_parse a = Ok (true, reg) /\ copy_properties (rr_props r) props_create ALL_OVERWRITE = Ok d).
  { eexists. eexists. split; [vm_compute; reflexivity|]. split; [split; reflexivity|]. split; [reflexivity|]. split; [reflexivity|].
    eexists. eexists. eexists. split; [reflexivity|]. split; [vm_compute; reflexivity|]. vm_compute; reflexivity. }
  destruct E as (r & h' & Er & He & Ht & Et & a & reg & d & Ea & Ep & Ed).
  assert (Es : h_server h = true) by (vm_compute; reflexivity). assert (Ha : alive (clear_error h) = true) by (vm_compute; reflexivity).
  assert (Hc : image_list_count (md_channels (h_meta (clear_error h))) = Ok 2) by (vm_compute; reflexivity).
  clearbody h. unfold server_wait_mot. rewrite Es, Ha, Hc. cbn [negb obind wait_mot_loop]. rewrite Er. cbn [obind]. rewrite Et, Ea, Ep. cbn [obind].
  rewrite Ed. cbn [obind]. now apply mot_hangs.
Qed.

(** ---- a quit message of the other side ---- *)
Lemma client_wait_loop_quit n : forall h acc p result code h' l q, result <> TRAX_QUIT -> client_wait_loop n h acc p result = Ok (code, h', l, q) ->
  code = TRAX_QUIT -> h_terminated h' = true.
Proof.
  induction n as [|n IH]; intros h acc p result code h' l q Hr E Hc; cbn [client_wait_loop] in E; [inv_ok E; congruence|].
  destruct (handle_read h) as [[r h1]| | |]; try discriminate. cbn [obind] in E.
  destruct (rr_type r) as [[| | | |]|].
  - apply (IH _ _ _ _ _ _ _ _) in E; [exact E|discriminate|exact Hc].
  - apply (IH _ _ _ _ _ _ _ _) in E; [exact E|discriminate|exact Hc].
  - apply (IH _ _ _ _ _ _ _ _) in E; [exact E|discriminate|exact Hc].
  - destruct (rr_args r); [|inv_ok E; discriminate]. destruct (copy_out _ _ _); try discriminate. cbn [obind] in E. inv_ok E. reflexivity.
  - destruct (rr_args r) as [|a [|? ?]]; [inv_ok E; discriminate| |inv_ok E; discriminate].
    destruct (region_parse a) as [[[|] [reg|]]| | |]; try discriminate; cbn [obind] in E; try (inv_ok E; discriminate).
    destruct (region_clone reg); try discriminate. cbn [obind] in E. destruct (copy_properties _ _ _); try discriminate. cbn [obind] in E.
    apply (IH _ _ _ _ _ _ _ _) in E; [exact E|discriminate|exact Hc].
  - inv_ok E. discriminate.
Qed.
Lemma mot_end_code result h images objs p code h' l o q : mot_end result h images objs p = Ok (code, h', l, o, q) -> code = result /\ h_terminated h' = h_terminated h.
Proof.
  unfold mot_end. destruct objs; [intros E; inv_ok E; auto|]. destruct (mot_objects _); try discriminate. cbn [obind]. intros E. inv_ok E. auto.
Qed.
Lemma mot_failure_code h objs p code h' l o q : mot_failure h objs p = Ok (code, h', l, o, q) -> code = TRAX_ERROR.
Proof. unfold mot_failure. destruct (existsb _ _); [discriminate|]. intros E. now inv_ok E. Qed.
Lemma wait_mot_loop_quit slack argc fuel : forall h images result objs p code h' l o q, result <> TRAX_QUIT ->
  wait_mot_loop fuel slack argc h images result objs p = Ok (code, h', l, o, q) -> code = TRAX_QUIT -> h_terminated h' = true.
Proof.
  induction fuel as [|fuel IH]; intros h images result objs p code h' l o q Hr E Hc; cbn [wait_mot_loop] in E; [discriminate|].
  destruct (handle_read h) as [[r h1]| | |]; try discriminate. cbn [obind] in E.
  destruct (rr_type r) as [[| | | |]|].
  - now apply (IH _ _ _ _ _ _ _ _ _ _) in E.
  - destruct (rr_args r) as [|a [|? ?]].
    + apply (IH _ _ _ _ _ _ _ _ _ _) in E; [exact E|discriminate|exact Hc].
    + destruct (region_parse a) as [[[|] reg]| | |]; try discriminate; cbn [obind] in E; [|apply mot_failure_code in E; subst; discriminate].
      destruct (copy_properties _ _ _); try discriminate. cbn [obind] in E. apply (IH _ _ _ _ _ _ _ _ _ _) in E; [exact E|discriminate|exact Hc].
    + apply mot_failure_code in E. subst. discriminate.
  - destruct (_ && _); [apply mot_failure_code in E; subst; discriminate|]. destruct (negb (_ =? argc)); [apply mot_failure_code in E; subst; discriminate|].
    destruct (decode_images _ _ _ _ _) as [[ims|]| | |]; try discriminate; cbn [obind] in E; [|apply mot_failure_code in E; subst; discriminate].
    destruct (copy_out _ _ _); try discriminate. cbn [obind] in E. apply mot_end_code in E as (E & _). exfalso. destruct (negb _ || _); [subst; discriminate|congruence].
  - destruct (negb (_ =? 0)); [apply mot_failure_code in E; subst; discriminate|]. destruct (copy_out _ _ _); try discriminate. cbn [obind] in E.
    apply mot_end_code in E as (_ & ->). reflexivity.
  - now apply (IH _ _ _ _ _ _ _ _ _ _) in E.
  - apply mot_failure_code in E. subst. discriminate.
Qed.
Lemma quit_received legacy slack h c h' : run_call legacy slack h c = Ok (TRAX_QUIT, h') -> is_alive h' = false.
Proof.
  assert (K : h_terminated h' = true -> is_alive h' = false) by (unfold is_alive, alive; now intros ->).
  intros E. apply K. destruct c; cbn [run_call] in E.
  - unfold client_wait in E. destruct (h_server h); [discriminate|]. destruct (negb (alive h)); [discriminate|].
    destruct (client_wait_loop _ _ _ _ _) as [[[[code1 h1] l] q]| | |] eqn:E1; try discriminate. cbn [obind] in E. inv_ok E.
    apply client_wait_loop_quit in E1; [exact E1|discriminate|reflexivity].
  - exfalso. assert (X : forall h, send_frame h images p <> Ok (TRAX_QUIT, h')).
    { intros g. unfold send_frame. destruct (image_arguments _ _ _) as [[texts|]| | |]; cbn [obind]; try discriminate.
      destruct (all_texts texts); discriminate. }
    unfold client_frame in E. destruct (h_server h); [discriminate|]. destruct (negb (alive _)); [discriminate|]. destruct (is_version_4 _).
    + destruct (if 1 <? _ then _ else _) as [[|]| | |]; try discriminate; cbn [obind] in E.
      destruct (send_objects _ _ _); try discriminate. cbn [obind] in E. now apply X in E.
    + destruct (0 <? _); [discriminate|]. now apply X in E.
  - exfalso. assert (X : forall h, send_frame h images p <> Ok (TRAX_QUIT, h')).
    { intros g. unfold send_frame. destruct (image_arguments _ _ _) as [[texts|]| | |]; cbn [obind]; try discriminate.
      destruct (all_texts texts); discriminate. }
    unfold client_initialize in E. destruct (h_server h); [discriminate|]. destruct (negb (alive _)); [discriminate|]. destruct (_ <? 1); [discriminate|].
    destruct (is_multi_object _); try discriminate. cbn [obind] in E. destruct (_ && _); [discriminate|]. destruct (is_version_4 _).
    + unfold client_frame in E. destruct (h_server _); [discriminate|]. destruct (negb (alive _)); [discriminate|]. destruct (is_version_4 _).
      * destruct (if 1 <? _ then _ else _) as [[|]| | |]; try discriminate; cbn [obind] in E.
        destruct (send_objects _ _ _); try discriminate. cbn [obind] in E. now apply X in E.
      * destruct (0 <? _); [discriminate|]. now apply X in E.
    + destruct objects as [|[r d] objects]; [discriminate|]. destruct (region_bit r =? 1); [discriminate|].
      destruct (image_arguments _ _ _) as [[texts|]| | |]; cbn [obind] in E; try discriminate.
      destruct (region_argument _ _ _); try discriminate. cbn [obind] in E. destruct (all_texts texts); discriminate.
  - unfold server_wait_sot in E. destruct (negb (h_server h)); [discriminate|]. destruct (negb (alive (clear_error h))); [discriminate|].
    destruct (is_version_4 _); [discriminate|]. destruct (image_list_count _); try discriminate. cbn [obind] in E.
    destruct (handle_read _) as [[r h1]| | |]; try discriminate. cbn [obind] in E.
    destruct (rr_type r) as [[| | | |]|]; try discriminate.
    + destruct (negb _); [discriminate|]. destruct (decode_images _ _ _ _ _) as [[ims|]| | |]; cbn [obind] in E; try discriminate.
      destruct (nth_error _ _); [|discriminate]. destruct (region_parse _) as [[[|] ?]| | |]; cbn [obind] in E; try discriminate.
      destruct (copy_out _ _ _); discriminate.
    + destruct (negb _); [discriminate|]. destruct (decode_images _ _ _ _ _) as [[ims|]| | |]; cbn [obind] in E; try discriminate.
      destruct (copy_out _ _ _); discriminate.
    + destruct (negb _); [discriminate|]. destruct (copy_out _ _ _); try discriminate. cbn [obind] in E. inv_ok E. reflexivity.
  - unfold server_wait_mot in E. destruct (negb (h_server h)); [discriminate|]. destruct (negb (alive (clear_error h))); [discriminate|].
    destruct (image_list_count _); try discriminate. cbn [obind] in E.
    destruct (wait_mot_loop _ _ _ _ _ _ _ _) as [[[[[code1 h1] l] o] q]| | |] eqn:E1; try discriminate. cbn [obind] in E. inv_ok E.
    apply wait_mot_loop_quit in E1; [exact E1|discriminate|reflexivity].
  - unfold server_reply_sot in E. destruct (negb (h_server h)); [discriminate|]. destruct (negb (alive _)); [discriminate|]. destruct (is_version_4 _); [discriminate|].
    destruct (region_string r) as [[t|]| | |]; discriminate.
  - unfold server_reply_mot in E. destruct (negb (h_server h)); [discriminate|]. destruct (negb (alive _)); [discriminate|].
    destruct (is_multi_object _); try discriminate. cbn [obind] in E. destruct (_ && _); [discriminate|]. destruct (negb _); [discriminate|].
    exfalso. revert E. generalize (clear_error h). induction objects as [|[r p] l IH]; intros g E; cbn [send_states] in E; [discriminate|].
    destruct (region_string r) as [[t|]| | |]; cbn [obind] in E; try discriminate. now apply IH in E.
  - unfold terminate in E. destruct (negb _); [discriminate|]. destruct (set_optional _ _ _); discriminate.
  - discriminate.
Qed.
