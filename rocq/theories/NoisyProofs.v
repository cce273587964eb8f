(** Proofs about trackers that print lines of their own. *)
From Verif Require Import CBase Props PropsSpec PropsProofs StrMapProofs Message MessageSpec MessageProofs MessageApi Num Region Image Formats Handle
  SessionSpec HandleProofs SessionProofs HandshakeProofs HistorySpec HistoryProofs SendableProofs NoisySpec.
Local Open Scope Z_scope.

(** ---- inserting lines ---- *)
Lemma first_line (a b x y : list N) : ~ In 10%N a -> ~ In 10%N b -> a ++ 10%N :: x = b ++ 10%N :: y -> a = b /\ x = y.
Proof.
  revert b. induction a as [|c a IH]; intros [|d b] Ha Hb E; cbn [app] in E.
  - injection E as E. now split.
  - injection E as E _. elim Hb. now left.
  - injection E as E _. elim Ha. now left.
  - injection E as -> E. destruct (IH b) as (-> & ->); [intros H; apply Ha; now right|intros H; apply Hb; now right|exact E|]. now split.
Qed.
Lemma lines_cons l ls : lines (l :: ls) = l ++ 10%N :: lines ls.
Proof. unfold lines. cbn [flat_map]. now rewrite <- app_assoc. Qed.

Lemma printed_nil_inv out' : printed [] out' -> exists ls, Forall plain_line ls /\ out' = lines ls.
Proof.
  intros H. remember [] as out eqn:E. induction H as [|line out out' Hn H IH|line out out' Hp H IH].
  - exists []. split; [constructor|reflexivity].
  - now destruct line.
  - destruct (IH E) as (ls & Hls & ->). exists (line :: ls). split; [now constructor|]. now rewrite lines_cons.
Qed.
Lemma printed_cons_inv l out out' : ~ In 10%N l -> printed (l ++ 10%N :: out) out' ->
  exists ls rest, Forall plain_line ls /\ out' = lines ls ++ l ++ 10%N :: rest /\ printed out rest.
Proof.
  intros Hl H. remember (l ++ 10%N :: out) as x eqn:E. revert l out Hl E. induction H as [|line o o' Hn H IH|line o o' Hp H IH]; intros l out Hl E.
  - now destruct l.
  - destruct (first_line line l o out Hn Hl E) as (-> & ->). exists [], o'. split; [constructor|]. split; [reflexivity|exact H].
  - destruct (IH l out Hl E) as (ls & rest & Hls & -> & Hr). exists (line :: ls), rest. split; [now constructor|]. split; [|exact Hr].
    now rewrite lines_cons, <- app_assoc.
Qed.
Lemma printed_app a a' b b' : printed a a' -> printed b b' -> printed (a ++ b) (a' ++ b').
Proof.
  induction 1 as [|line o o' Hn H IH|line o o' Hp H IH]; intros Hb; [exact Hb| |]; rewrite <- ?app_assoc; cbn [app].
  - apply printed_message; [exact Hn|now apply IH].
  - apply printed_own; [exact Hp|now apply IH].
Qed.
Lemma printed_same ls : Forall (fun l => ~ In 10%N l) ls -> printed (lines ls) (lines ls).
Proof. induction 1 as [|l ls Hl _ IH]; [constructor|]. rewrite lines_cons. now apply printed_message. Qed.
Lemma printed_owns ls out out' : Forall plain_line ls -> printed out out' -> printed out (lines ls ++ out').
Proof.
  intros Hl H. induction Hl as [|l ls Hl _ IH]; [exact H|]. rewrite lines_cons, <- app_assoc. cbn [app]. now apply printed_own.
Qed.
Lemma talker_around before after : Forall plain_line before -> Forall plain_line after -> talker (fun out => lines before ++ out ++ lines after).
Proof.
  intros Hb Ha ls Hls. apply printed_owns; [exact Hb|]. rewrite <- (app_nil_r (lines ls)) at 1. apply printed_app; [now apply printed_same|].
  rewrite <- (app_nil_r (lines after)). apply printed_owns; [exact Ha|constructor].
Qed.
Lemma silent_talker : talker silent.
Proof. intros ls H. now apply printed_same. Qed.

(** ---- messages ---- *)
Lemma message_line m : message_ok m -> exists l, message_bytes m = l ++ [10%N] /\ ~ In 10%N l.
Proof.
  intros (_ & Hk). destruct (wire_one_line (fst (fst m)) (snd (fst m)) (snd m)) as (body & E & Hn).
  - apply Forall_forall. intros kv Hi. rewrite forallb_forall in Hk. specialize (Hk kv Hi). unfold kv_ok in Hk.
    apply andb_true_iff in Hk as (Hk & _). intros H10. unfold key_ok in Hk.
    repeat match goal with H : _ && _ = true |- _ => apply andb_true_iff in H as (? & ?) end.
    match goal with H : forallb _ (fst kv) = true |- _ => rewrite forallb_forall in H; specialize (H _ H10); vm_compute in H; discriminate H end.
  - exists (str "@@TRAX:" ++ body). split; [unfold message_bytes; now rewrite E, <- app_assoc|].
    intros H. apply in_app_or in H as [H|H]; [|now apply Hn]. vm_compute in H. repeat (destruct H as [H|H]; [discriminate H|]). exact H.
Qed.
Lemma messages_lines ms : Forall message_ok ms -> exists ls, Forall (fun l => ~ In 10%N l) ls /\ flat_map message_bytes ms = lines ls.
Proof.
  induction 1 as [|m ms Hm _ (ls & Hls & E)]; [exists []; split; [constructor|reflexivity]|].
  destruct (message_line m Hm) as (l & El & Hl). exists (l :: ls). split; [now constructor|]. cbn [flat_map]. rewrite E, El, lines_cons, <- app_assoc. reflexivity.
Qed.

(** ---- what the two clients hear ---- *)
Definition hears (ms : list message) (st st' : istream) : Prop :=
  Forall message_ok ms /\ delivers st /\ delivers st' /\ stream_bytes st = flat_map message_bytes ms /\ printed (stream_bytes st) (stream_bytes st').
Definition alike (h h' : handle) : Prop := exists ms st', h' = with_in h (h_type h) st' /\ hears ms (h_in h) st'.

Lemma hears_nil_read t st st' : hears [] st st' -> exists r r', read_message t st props_create = Ok r /\ read_message t st' props_create = Ok r' /\
  rr_type r' = rr_type r /\ rr_args r' = rr_args r /\ rr_props r' = rr_props r /\ hears [] (rr_stream r) (rr_stream r').
Proof.
  intros (_ & Hd & Hd' & Hb & Hp). rewrite Hb in Hp. cbn [flat_map] in Hb, Hp.
  destruct (printed_nil_inv _ Hp) as (ls & Hls & E).
  destruct (read_message_run t st props_create Hd) as (s1 & D1 & R1 & B1).
  destruct (read_message_run t st' props_create Hd') as (s2 & D2 & R2 & B2).
  pose proof (feeds_junk t [] [] ls Hls []) as HF. rewrite app_nil_r in HF.
  change (reader_start t) with (mkReader t false (PPrefix 0) [] [] [] []) in *.
  rewrite Hb in R1, B1. rewrite E in R2, B2. change (lines ls) with (flat_map (fun l => l ++ [10%N]) ls) in R2, B2. rewrite HF in R2, B2.
  cbn [run rd_complete rd_type] in R1, R2, B1, B2. destruct t as [t|].
  - destruct (enum_into props_set (rd_sets (step (set_complete (mkReader (Some t) false (PPrefix 0) [] [] [] [])) c_nl)) props_create) as [d| | |] eqn:Ed;
      cbn [fst snd] in *; rewrite ?Ed in R1, R2; try (vm_compute in Ed; discriminate Ed).
    cbn [obind] in R1, R2. do 2 eexists. split; [exact R1|]. split; [exact R2|]. cbn [rr_type rr_args rr_props rr_stream].
    do 3 (split; [reflexivity|]). split; [constructor|]. split; [exact D1|]. split; [exact D2|]. rewrite B1, B2. split; [reflexivity|constructor].
  - cbn [rd_sets enum_into obind fst snd] in R1, R2, B1, B2. do 2 eexists. split; [exact R1|]. split; [exact R2|]. cbn [rr_type rr_args rr_props rr_stream].
    do 3 (split; [reflexivity|]). split; [constructor|]. split; [exact D1|]. split; [exact D2|]. rewrite B1, B2. split; [reflexivity|constructor].
Qed.

Lemma hears_cons_read t m ms st st' : hears (m :: ms) st st' ->
  match read_message t st props_create, read_message t st' props_create with
  | Ok r, Ok r' => rr_type r' = rr_type r /\ rr_args r' = rr_args r /\ rr_props r' = rr_props r /\ hears ms (rr_stream r) (rr_stream r')
  | UB, UB | Abort, Abort | NoFuel, NoFuel => True
  | _, _ => False
  end.
Proof.
  intros (Hms & Hd & Hd' & Hb & Hp). inversion Hms as [|? ? Hm Hms']; subst.
  rewrite Hb in Hp. cbn [flat_map] in Hb, Hp. destruct (message_line m Hm) as (l & El & Hl).
  rewrite El, <- app_assoc in Hp. cbn [app] in Hp. destruct (printed_cons_inv l _ _ Hl Hp) as (ls & rest & Hls & E & Hr).
  assert (E' : stream_bytes st' = lines ls ++ message_bytes m ++ rest) by (rewrite E, El, <- app_assoc; reflexivity).
  destruct (read_message_run t st props_create Hd) as (s1 & D1 & R1 & B1).
  destruct (read_message_run t st' props_create Hd') as (s2 & D2 & R2 & B2).
  pose proof (feeds_junk t [] [] ls Hls) as HJ. change (flat_map (fun l => l ++ [10%N]) ls) with (lines ls) in HJ.
  destruct (feeds_wire t (fst (fst m)) (snd (fst m)) (snd m) [] [] (proj1 Hm) (proj2 Hm)) as (k & v & HW).
  change (reader_start t) with (mkReader t false (PPrefix 0) [] [] [] []) in *.
  rewrite Hb in R1, B1. rewrite E' in R2, B2. rewrite HJ in R2, B2. unfold message_bytes in *. rewrite HW in R1, R2, B1, B2.
  rewrite run_complete in R1, R2, B1, B2 by reflexivity. cbn [fst snd rd_sets rd_type rd_args app] in R1, R2, B1, B2.
  rewrite R1, R2. destruct (enum_into props_set (snd m) props_create) as [d| | |]; cbn [obind]; try exact Logic.I.
  cbn [rr_type rr_args rr_props rr_stream]. do 3 (split; [reflexivity|]). split; [exact Hms'|]. split; [exact D1|]. split; [exact D2|].
  rewrite B1, B2. split; [reflexivity|exact Hr].
Qed.

Lemma read_alike h h' : alike h h' ->
  match handle_read h, handle_read h' with
  | Ok (r, k), Ok (r', k') => rr_type r' = rr_type r /\ rr_args r' = rr_args r /\ rr_props r' = rr_props r /\ alike k k'
  | UB, UB | Abort, Abort | NoFuel, NoFuel => True
  | _, _ => False
  end.
Proof.
  intros (ms & st' & -> & H). unfold handle_read. cbn [h_type h_in with_in]. destruct ms as [|m ms].
  - destruct (hears_nil_read (h_type h) (h_in h) st' H) as (r & r' & -> & -> & A & B & C & D). cbn [obind].
    do 3 (split; [assumption|]). exists [], (rr_stream r'). split; [|exact D]. rewrite A. reflexivity.
  - pose proof (hears_cons_read (h_type h) m ms (h_in h) st' H) as X.
    destruct (read_message (h_type h) (h_in h) props_create) as [r| | |], (read_message (h_type h) st' props_create) as [r'| | |]; try exact X; cbn [obind].
    destruct X as (A & B & C & D). do 3 (split; [assumption|]). exists ms, (rr_stream r'). split; [|exact D]. rewrite A. reflexivity.
Qed.

(** ---- calls ---- *)
Definition same_result {A : Type} (a b : outcome (A * handle)) : Prop :=
  match a, b with
  | Ok (x, h), Ok (y, h') => y = x /\ alike h h'
  | UB, UB | Abort, Abort | NoFuel, NoFuel => True
  | _, _ => False
  end.
Definition swap (r : outcome client_result) : outcome (result * handle) :=
  x <- r ;; let '(code, h', objects, q) := x in Ok ((code, objects, q), h').

Lemma alike_terminated h h' : alike h h' -> alike (terminated h) (terminated h').
Proof. intros (ms & st' & -> & H). exists ms, st'. now split. Qed.
Lemma alike_error h h' : alike h h' -> alike (set_error h) (set_error h').
Proof. intros (ms & st' & -> & H). exists ms, st'. now split. Qed.

Lemma wait_loop_alike n : forall h h' acc p res, alike h h' ->
  same_result (swap (client_wait_loop n h acc p res)) (swap (client_wait_loop n h' acc p res)).
Proof.
  induction n as [|n IH]; intros h h' acc p res H; cbn [client_wait_loop].
  - cbn. split; [reflexivity|exact H].
  - pose proof (read_alike h h' H) as X.
    destruct (handle_read h) as [[r k]| | |], (handle_read h') as [[r' k']| | |]; try (now destruct X); cbn [obind]; try exact Logic.I.
    destruct X as (-> & -> & -> & Hk).
    destruct (rr_type r) as [t|]; [|cbn; now split].
    destruct t; try (now apply IH).
    + destruct (rr_args r); [|cbn; now split]. destruct (copy_out (rr_props r) p ALL_OVERWRITE); cbn [obind swap]; try exact Logic.I.
      cbn. split; [reflexivity|]. now apply alike_terminated.
    + destruct (rr_args r) as [|a [|? ?]]; [cbn; now split| |cbn; now split].
      destruct (region_parse a) as [[[] [reg|]]| | |]; cbn [obind]; try exact Logic.I; try (cbn; now split).
      destruct (region_clone reg); cbn [obind]; try exact Logic.I.
      destruct (copy_properties (rr_props r) props_create ALL_OVERWRITE); cbn [obind]; try exact Logic.I. now apply IH.
Qed.
Lemma wait_alike h h' p : alike h h' -> same_result (swap (client_wait h p)) (swap (client_wait h' p)).
Proof.
  intros H. pose proof H as (ms & st' & E & _). unfold client_wait.
  replace (h_server h') with (h_server h) by (now rewrite E). replace (alive h') with (alive h) by (now rewrite E). replace (h_objects h') with (h_objects h) by (now rewrite E).
  destruct (h_server h); [exact Logic.I|]. destruct (alive h); cbn [negb]; [now apply wait_loop_alike|]. cbn. split; [reflexivity|]. now apply alike_error.
Qed.

(** Sending does not look at the stream that is read. *)
Definition moved (t : option mtype) (st : istream) (r : outcome (Z * handle)) : outcome (Z * handle) := x <- r ;; Ok (fst x, with_in (snd x) t st).
Lemma send_objects_moved legacy t st l : forall h, send_objects legacy (with_in h t st) l = (x <- send_objects legacy h l ;; Ok (with_in x t st)).
Proof.
  induction l as [|[r p] l IH]; intros h; [reflexivity|]. cbn [send_objects]. change (h_meta (with_in h t st)) with (h_meta h).
  destruct (region_argument legacy (md_region (h_meta h)) r) as [args| | |]; cbn [obind]; try reflexivity. exact (IH (handle_write h MInitialize args (Some p))).
Qed.
Lemma send_frame_moved t st h images p : send_frame (with_in h t st) images p = moved t st (send_frame h images p).
Proof.
  unfold send_frame. change (h_meta (with_in h t st)) with (h_meta h).
  destruct (image_arguments (md_channels (h_meta h)) channel_ids images) as [[a|]| | |]; cbn [obind moved]; try reflexivity.
  destruct (all_texts a); reflexivity.
Qed.
Lemma frame_moved legacy t st h images objects p : client_frame legacy (with_in h t st) images objects p = moved t st (client_frame legacy h images objects p).
Proof.
  unfold client_frame. change (h_server (with_in h t st)) with (h_server h). destruct (h_server h); [reflexivity|]. cbv zeta.
  change (alive (clear_error (with_in h t st))) with (alive (clear_error h)). destruct (negb (alive (clear_error h))); [reflexivity|].
  change (is_version_4 (clear_error (with_in h t st))) with (is_version_4 (clear_error h)).
  change (h_objects (clear_error (with_in h t st))) with (h_objects (clear_error h)).
  change (is_multi_object (clear_error (with_in h t st))) with (is_multi_object (clear_error h)).
  set (objs := match objects with Some l => l | None => [] end). destruct (is_version_4 (clear_error h)).
  - destruct (if 1 <? _ then _ else _) as [[]| | |]; cbn [obind moved]; try reflexivity.
    change (clear_error (with_in h t st)) with (with_in (clear_error h) t st). rewrite send_objects_moved.
    destruct (send_objects legacy (clear_error h) objs) as [h1| | |]; cbn [obind]; try reflexivity.
    exact (send_frame_moved t st (set_objects h1 (h_objects h1 + Z.of_nat (List.length objs))) images p).
  - destruct (0 <? Z.of_nat (List.length objs)); [reflexivity|]. exact (send_frame_moved t st (clear_error h) images p).
Qed.
Lemma initialize_moved legacy t st h images objects p :
  client_initialize legacy (with_in h t st) images objects p = moved t st (client_initialize legacy h images objects p).
Proof.
  unfold client_initialize. change (h_server (with_in h t st)) with (h_server h). destruct (h_server h); [reflexivity|]. cbv zeta.
  change (alive (clear_error (with_in h t st))) with (alive (clear_error h)). destruct (negb (alive (clear_error h))); [reflexivity|].
  destruct (Z.of_nat (List.length objects) <? 1); [reflexivity|].
  change (is_version_4 (clear_error (with_in h t st))) with (is_version_4 (clear_error h)).
  change (is_multi_object (clear_error (with_in h t st))) with (is_multi_object (clear_error h)).
  change (h_objects (clear_error (with_in h t st))) with (h_objects (clear_error h)).
  change (h_meta (clear_error (with_in h t st))) with (h_meta (clear_error h)).
  destruct (is_multi_object (clear_error h)) as [m| | |]; cbn [obind moved]; try reflexivity.
  destruct (negb m && (1 <? Z.of_nat (List.length objects))); [reflexivity|].
  destruct (is_version_4 (clear_error h)).
  - destruct (0 <? h_objects (clear_error h)).
    + exact (frame_moved legacy t st (set_objects (handle_write (clear_error h) MInitialize [] None) 0) images (Some objects) p).
    + exact (frame_moved legacy t st (clear_error h) images (Some objects) p).
  - destruct objects as [|[r q] objects]; [reflexivity|]. destruct (region_bit r =? 1); [reflexivity|].
    destruct (image_arguments (md_channels (h_meta (clear_error h))) channel_ids images) as [[a|]| | |]; cbn [obind]; try reflexivity.
    destruct (region_argument legacy (md_region (h_meta (clear_error h))) r); cbn [obind]; try reflexivity.
    destruct (all_texts a); reflexivity.
Qed.
Lemma terminate_moved t st h reason : terminate (with_in h t st) reason = moved t st (terminate h reason).
Proof.
  unfold terminate. cbv zeta. change (alive (clear_error (with_in h t st))) with (alive (clear_error h)). destruct (negb (alive (clear_error h))); [reflexivity|].
  destruct (set_optional props_create (str "trax.reason") reason); reflexivity.
Qed.
Lemma with_in_self h : with_in h (h_type h) (h_in h) = h. Proof. now destruct h. Qed.

(** A call that sends: both clients get the same and write the same. *)
Lemma sends_alike (f : handle -> outcome (Z * handle)) : (forall t st h, f (with_in h t st) = moved t st (f h)) -> forall h h', alike h h' -> same_result (f h) (f h').
Proof.
  intros Hf h h' (ms & st' & -> & H). rewrite Hf. pose proof (Hf (h_type h) (h_in h) h) as E. rewrite with_in_self in E.
  destruct (f h) as [[code k]| | |]; cbn [moved obind fst snd same_result] in *; try exact Logic.I.
  split; [reflexivity|]. injection E as E. assert (Et : h_type k = h_type h) by (rewrite E; reflexivity). assert (Ei : h_in k = h_in h) by (rewrite E; reflexivity).
  exists ms, st'. rewrite Et, Ei. now split.
Qed.

(** ---- whole lives of a client ---- *)
Lemma arriving h h' ms quiet loud : alike h h' -> noisy ms quiet loud ->
  alike (with_in h (h_type h) (mkStream (st_buf (h_in h)) (st_script (h_in h) ++ quiet)))
        (with_in h' (h_type h') (mkStream (st_buf (h_in h')) (st_script (h_in h') ++ loud))).
Proof.
  intros (ms0 & st' & -> & (H1 & H2 & H3 & H4 & H5)) (K1 & K2 & K3 & K4 & K5).
  assert (J : forall st chunks, stream_bytes (mkStream (st_buf st) (st_script st ++ chunks)) = stream_bytes st ++ concat chunks).
  { intros st chunks. unfold stream_bytes. cbn [st_buf st_script]. now rewrite concat_app, app_assoc. }
  exists (ms0 ++ ms). eexists. split; [reflexivity|]. cbn [with_in h_in]. split; [now apply Forall_app|].
  split; [apply Forall_app; now split|]. split; [apply Forall_app; now split|]. rewrite !J. split.
  - now rewrite H4, K4, flat_map_app.
  - now apply printed_app.
Qed.
Lemma act_alike legacy d h h' : alike h h' -> same_result (act legacy h d) (act legacy h' d).
Proof.
  intros H. destruct d as [p|images objects p|images objects p|reason]; cbn [act].
  - exact (wait_alike h h' p H).
  - pose proof (sends_alike (fun h => client_frame legacy h images objects p) (fun t st k => frame_moved legacy t st k images objects p) h h' H) as X. cbv beta in X.
    destruct (client_frame legacy h images objects p) as [[a b]| | |], (client_frame legacy h' images objects p) as [[a' b']| | |]; cbn [same_result] in X; try exact X; cbn [obind].
    cbn [fst snd same_result]. destruct X as (-> & X). now split.
  - pose proof (sends_alike (fun h => client_initialize legacy h images objects p) (fun t st k => initialize_moved legacy t st k images objects p) h h' H) as X. cbv beta in X.
    destruct (client_initialize legacy h images objects p) as [[a b]| | |], (client_initialize legacy h' images objects p) as [[a' b']| | |]; cbn [same_result] in X; try exact X; cbn [obind].
    cbn [fst snd same_result]. destruct X as (-> & X). now split.
  - pose proof (sends_alike (fun h => terminate h reason) (fun t st k => terminate_moved t st k reason) h h' H) as X. cbv beta in X.
    destruct (terminate h reason) as [[a b]| | |], (terminate h' reason) as [[a' b']| | |]; cbn [same_result] in X; try exact X; cbn [obind].
    cbn [fst snd same_result]. destruct X as (-> & X). now split.
Qed.
Lemma live_alike legacy quiet loud : Forall2 noisy_step quiet loud -> forall h h', alike h h' -> same_result (live legacy h quiet) (live legacy h' loud).
Proof.
  induction 1 as [|[q d] [l d'] quiet loud (Hd & ms & Hn) _ IH]; intros h h' H; [now split|]. cbn [fst snd] in Hd, Hn. subst d'. cbn [live].
  pose proof (act_alike legacy d _ _ (arriving h h' ms q l H Hn)) as X.
  destruct (act legacy (with_in h _ _) d) as [[a b]| | |], (act legacy (with_in h' _ _) d) as [[a' b']| | |]; cbn [same_result] in X; try (now destruct X); cbn [obind]; try exact Logic.I.
  destruct X as (-> & X). cbn [fst snd]. specialize (IH b b' X).
  destruct (live legacy b quiet) as [[rs k]| | |], (live legacy b' loud) as [[rs' k']| | |]; cbn [same_result] in IH; try (now destruct IH); cbn [obind]; try exact Logic.I.
  destruct IH as (-> & IH). cbn [fst snd same_result]. now split.
Qed.

Lemma setup_alike ms quiet loud o : noisy ms quiet loud ->
  match client_setup (mkStream [] quiet) o, client_setup (mkStream [] loud) o with
  | Ok (Some h), Ok (Some h') => alike h h'
  | Ok None, Ok None | UB, UB | Abort, Abort | NoFuel, NoFuel => True
  | _, _ => False
  end.
Proof.
  intros (K1 & K2 & K3 & K4 & K5). assert (H : hears ms (mkStream [] quiet) (mkStream [] loud)) by (split; [exact K1|split; [exact K2|split; [exact K3|split; [exact K4|exact K5]]]]).
  unfold client_setup. destruct ms as [|m ms].
  - destruct (hears_nil_read None _ _ H) as (r & r' & -> & -> & A & B & C & D). cbn [obind]. rewrite A, B, C.
    destruct (rr_type r) as [[]|]; try exact Logic.I. destruct (rr_args r); [|exact Logic.I].
    destruct (hello_metadata (rr_props r)) as [mv| | |]; cbn [obind]; try exact Logic.I. exists [], (rr_stream r'). split; [reflexivity|exact D].
  - pose proof (hears_cons_read None m ms _ _ H) as X.
    destruct (read_message None (mkStream [] quiet) props_create) as [r| | |], (read_message None (mkStream [] loud) props_create) as [r'| | |]; try (now destruct X); cbn [obind]; try exact Logic.I.
    destruct X as (A & B & C & D). rewrite A, B, C.
    destruct (rr_type r) as [[]|]; try exact Logic.I. destruct (rr_args r); [|exact Logic.I].
    destruct (hello_metadata (rr_props r)) as [mv| | |]; cbn [obind]; try exact Logic.I. exists ms, (rr_stream r'). split; [reflexivity|exact D].
Qed.
Lemma life_alike legacy ms first first' sched quiet loud : noisy ms first first' -> Forall2 noisy_step quiet loud ->
  life legacy first' sched loud = life legacy first sched quiet.
Proof.
  intros Hf Hs. unfold life. pose proof (setup_alike ms first first' (mkO sched [] []) Hf) as X.
  destruct (client_setup (mkStream [] first) (mkO sched [] [])) as [[h|]| | |], (client_setup (mkStream [] first') (mkO sched [] [])) as [[h'|]| | |];
    try (now destruct X); cbn [obind]; try reflexivity.
  pose proof (live_alike legacy quiet loud Hs h h' X) as Y. assert (Ev : h_version h' = h_version h /\ h_meta h' = h_meta h) by (destruct X as (? & ? & -> & _); now split).
  destruct Ev as (-> & ->).
  destruct (live legacy h quiet) as [[rs k]| | |], (live legacy h' loud) as [[rs' k']| | |]; cbn [same_result] in Y; try (now destruct Y); cbn [obind]; try reflexivity.
  destruct Y as (-> & (? & ? & -> & _)). reflexivity.
Qed.

(** ---- sessions ---- *)
Lemma state_messages l : Forall state_sendable l -> exists ms, Forall message_ok ms /\ objects_wire MState l = flat_map message_bytes ms.
Proof.
  induction 1 as [|[r p] l ((r' & Ha) & Hp) _ (ms & Hms & E)]; [exists []; split; [constructor|reflexivity]|]. cbn [fst snd] in *.
  destruct (arrives_text r r' Ha) as (_ & Ea & _). exists ((MState, [region_text r], props_enum p) :: ms). split.
  - constructor; [|exact Hms]. split; cbn [fst snd]; [cbn [forallb]; now rewrite Ea|now apply clean_kvs].
  - cbn [objects_wire flat_map fst snd message_bytes]. fold (objects_wire MState l). now rewrite E.
Qed.
Lemma sent_talk talk cut ms c c' bytes : talker talk -> cutter cut -> Forall message_ok ms -> bytes = flat_map message_bytes ms -> alike c c' ->
  alike (arrive cut bytes c) (arrive cut (talk bytes) c').
Proof.
  intros Ht Hc Hms E H. destruct (Hc bytes) as (A & B). destruct (Hc (talk bytes)) as (A' & B').
  apply (arriving c c' ms); [exact H|]. split; [exact Hms|]. split; [exact B|]. split; [exact B'|]. rewrite A, A'. split; [exact E|].
  destruct (messages_lines ms Hms) as (ls & Hls & El). rewrite E, El. now apply Ht.
Qed.
Lemma reply_messages s l code s' : no_error (o_sched (h_out s)) -> Forall state_sendable l -> server_reply_mot s l = Ok (code, s') ->
  exists ms, Forall message_ok ms /\ written s s' = flat_map message_bytes ms /\ no_error (o_sched (h_out s')).
Proof.
  intros Ho Hl. unfold server_reply_mot. destruct (negb (h_server s)); [discriminate|]. cbv zeta.
  assert (Q : forall k, Ok (code, s') = Ok (TRAX_ERROR, k) -> h_out k = h_out s -> exists ms, Forall message_ok ms /\ written s s' = flat_map message_bytes ms /\ no_error (o_sched (h_out s'))).
  { intros k E Ek. injection E as -> ->. exists []. split; [constructor|]. unfold written. rewrite Ek. split; [apply skipn_all|exact Ho]. }
  destruct (negb (alive (clear_error s))); [intros E; symmetry in E; now apply (Q _ E)|].
  destruct (is_multi_object (clear_error s)) as [m| | |]; cbn [obind]; try discriminate.
  destruct (negb m && negb (Z.of_nat (List.length l) =? 1)); [intros E; symmetry in E; now apply (Q _ E)|].
  destruct (negb (Z.of_nat (List.length l) =? h_objects (clear_error s))); [intros E; symmetry in E; now apply (Q _ E)|].
  intros E. destruct (send_states_ok l Hl (clear_error s) Ho) as (o & E' & So). rewrite E' in E. injection E as _ <-.
  destruct (state_messages l Hl) as (ms & Hms & Em). exists ms. split; [exact Hms|]. split; [|exact (proj2 So)]. rewrite <- Em. now apply sent_written.
Qed.
Lemma reply_message s r p code s' : no_error (o_sched (h_out s)) -> state_sendable (r, p) -> server_reply_sot s r (Some p) = Ok (code, s') ->
  exists ms, Forall message_ok ms /\ written s s' = flat_map message_bytes ms /\ no_error (o_sched (h_out s')).
Proof.
  intros Ho ((r' & Ha) & Hp). cbn [fst snd] in Ha, Hp. unfold server_reply_sot. destruct (negb (h_server s)); [discriminate|]. cbv zeta.
  assert (Q : forall k c, Ok (code, s') = Ok (c, k) -> h_out k = h_out s -> exists ms, Forall message_ok ms /\ written s s' = flat_map message_bytes ms /\ no_error (o_sched (h_out s'))).
  { intros k c E Ek. injection E as -> ->. exists []. split; [constructor|]. unfold written. rewrite Ek. split; [apply skipn_all|exact Ho]. }
  destruct (negb (alive (clear_error s))); [intros E; symmetry in E; now apply (Q _ _ E)|].
  destruct (is_version_4 (clear_error s)); [intros E; symmetry in E; now apply (Q _ _ E)|].
  destruct (arrives_text r r' Ha) as (Er & Ea & _). rewrite Er. cbn [obind]. intros E. injection E as _ <-.
  pose proof (handle_write_sent (clear_error s) MState [region_text r] (Some p) Ho) as So.
  exists [(MState, [region_text r], props_enum p)]. split; [|split; [|exact (proj2 So)]].
  - constructor; [|constructor]. split; cbn [fst snd]; [cbn [forallb]; now rewrite Ea|now apply clean_kvs].
  - cbn [flat_map]. rewrite app_nil_r. unfold message_bytes. cbn [fst snd]. exact (sent_written s (handle_write (clear_error s) MState [region_text r] (Some p)) _ So).
Qed.
Lemma wait_mot_out fuel slack h images p code h' l o q : server_wait_mot fuel slack h images p = Ok (code, h', l, o, q) -> h_out h' = h_out h.
Proof.
  intros E. assert (X : run_call false slack h (CWaitMot fuel images p) = Ok (code, h')) by (cbn [run_call]; rewrite E; reflexivity).
  unfold server_wait_mot in E. destruct (negb (h_server h)); [discriminate|]. cbv zeta in E. destruct (negb (alive (clear_error h))).
  - injection E as _ <- _ _ _. reflexivity.
  - destruct (image_list_count (md_channels (h_meta (clear_error h)))); cbn [obind] in E; try discriminate.
    apply wait_mot_loop_quiet in E. etransitivity; [apply E|reflexivity].
Qed.

Lemma loud_round_alike legacy slack talk c c' s r k k' sn : talker talk -> cutter (rd_cut2 r) -> Forall state_sendable (rd_reply r) -> no_error (o_sched (h_out s)) ->
  alike c c' -> play_round legacy slack c s r = Ok (k, k', sn) ->
  exists d, loud_round legacy slack talk c' s r = Ok (d, k', sn) /\ alike k d /\ no_error (o_sched (h_out k')).
Proof.
  intros Ht Hc2 Hst Ho H. unfold play_round, loud_round.
  assert (X : same_result (if rd_init r then client_initialize legacy c (rd_images r) (rd_objects r) (rd_props r) else client_frame legacy c (rd_images r) (Some (rd_objects r)) (rd_props r))
    (if rd_init r then client_initialize legacy c' (rd_images r) (rd_objects r) (rd_props r) else client_frame legacy c' (rd_images r) (Some (rd_objects r)) (rd_props r))).
  { destruct (rd_init r).
    - exact (sends_alike (fun h => client_initialize legacy h (rd_images r) (rd_objects r) (rd_props r)) (fun t st k => initialize_moved legacy t st k _ _ _) c c' H).
    - exact (sends_alike (fun h => client_frame legacy h (rd_images r) (Some (rd_objects r)) (rd_props r)) (fun t st k => frame_moved legacy t st k _ _ _) c c' H). }
  destruct (if rd_init r then client_initialize legacy c _ _ _ else _) as [[code c1]| | |]; try discriminate.
  destruct (if rd_init r then client_initialize legacy c' _ _ _ else _) as [[code' c1']| | |]; cbn [same_result] in X; try (now destruct X).
  destruct X as (-> & H1). cbn [obind].
  assert (Ew : written c' c1' = written c c1) by (destruct H as (? & ? & -> & _), H1 as (? & ? & -> & _); reflexivity). rewrite Ew.
  destruct (server_wait_mot _ slack _ None (Some props_create)) as [[[[[event s1] images] objects] p]| | |] eqn:E2; cbn [obind]; try discriminate.
  apply wait_mot_out in E2. assert (Ho1 : no_error (o_sched (h_out s1))) by (rewrite E2; exact Ho).
  destruct (server_reply_mot s1 (rd_reply r)) as [[replied s2]| | |] eqn:E3; cbn [obind]; try discriminate.
  destruct (reply_messages s1 (rd_reply r) replied s2 Ho1 Hst E3) as (ms & Hms & Em & Ho2).
  pose proof (sent_talk talk (rd_cut2 r) ms c1 c1' _ Ht Hc2 Hms Em H1) as H2. pose proof (wait_alike _ _ (Some props_create) H2) as Y.
  destruct (client_wait (arrive (rd_cut2 r) (written s1 s2) c1) (Some props_create)) as [[[[st c2] res] q]| | |]; cbn [obind]; try discriminate.
  destruct (client_wait (arrive (rd_cut2 r) (talk (written s1 s2)) c1') (Some props_create)) as [[[[st' c2'] res'] q']| | |]; cbn in Y; try (now destruct Y).
  destruct Y as (Y & H3). injection Y as <- <- <-. cbn [obind]. intros E. injection E as <- <- <-. exists c2'. split; [reflexivity|]. now split.
Qed.
Lemma loud_sround_alike legacy slack talk c c' s r k k' sn : talker talk -> cutter (sr_cut2 r) -> state_sendable (sr_reply r) -> no_error (o_sched (h_out s)) ->
  alike c c' -> play_sround legacy slack c s r = Ok (k, k', sn) ->
  exists d, loud_sround legacy slack talk c' s r = Ok (d, k', sn) /\ alike k d /\ no_error (o_sched (h_out k')).
Proof.
  intros Ht Hc2 Hst Ho H. unfold play_sround, loud_sround.
  assert (X : same_result (match sr_object r with
       | Some reg => client_initialize legacy c (sr_images r) [(reg, props_create)] (sr_props r)
       | None => client_frame legacy c (sr_images r) None (sr_props r) end)
    (match sr_object r with
       | Some reg => client_initialize legacy c' (sr_images r) [(reg, props_create)] (sr_props r)
       | None => client_frame legacy c' (sr_images r) None (sr_props r) end)).
  { destruct (sr_object r) as [reg|].
    - exact (sends_alike (fun h => client_initialize legacy h (sr_images r) [(reg, props_create)] (sr_props r)) (fun t st k => initialize_moved legacy t st k _ _ _) c c' H).
    - exact (sends_alike (fun h => client_frame legacy h (sr_images r) None (sr_props r)) (fun t st k => frame_moved legacy t st k _ _ _) c c' H). }
  destruct (match sr_object r with Some reg => client_initialize legacy c (sr_images r) [(reg, props_create)] (sr_props r) | None => client_frame legacy c (sr_images r) None (sr_props r) end) as [[code c1]| | |]; try discriminate.
  destruct (match sr_object r with Some reg => client_initialize legacy c' (sr_images r) [(reg, props_create)] (sr_props r) | None => client_frame legacy c' (sr_images r) None (sr_props r) end) as [[code' c1']| | |]; cbn [same_result] in X; try (now destruct X).
  destruct X as (-> & H1). cbn [obind].
  assert (Ew : written c' c1' = written c c1) by (destruct H as (? & ? & -> & _), H1 as (? & ? & -> & _); reflexivity). rewrite Ew.
  destruct (server_wait_sot slack _ None None (Some props_create)) as [[[[[event s1] images] reg] p]| | |] eqn:E2; cbn [obind]; try discriminate.
  apply server_wait_sot_quiet in E2. assert (Ho1 : no_error (o_sched (h_out s1))) by (rewrite (proj1 E2); exact Ho).
  destruct (server_reply_sot s1 (fst (sr_reply r)) (Some (snd (sr_reply r)))) as [[replied s2]| | |] eqn:E3; cbn [obind]; try discriminate.
  destruct (reply_message s1 (fst (sr_reply r)) (snd (sr_reply r)) replied s2 Ho1) as (ms & Hms & Em & Ho2); [now rewrite <- surjective_pairing|exact E3|].
  pose proof (sent_talk talk (sr_cut2 r) ms c1 c1' _ Ht Hc2 Hms Em H1) as H2. pose proof (wait_alike _ _ (Some props_create) H2) as Y.
  destruct (client_wait (arrive (sr_cut2 r) (written s1 s2) c1) (Some props_create)) as [[[[st c2] res] q]| | |]; cbn [obind]; try discriminate.
  destruct (client_wait (arrive (sr_cut2 r) (talk (written s1 s2)) c1') (Some props_create)) as [[[[st' c2'] res'] q']| | |]; cbn in Y; try (now destruct Y).
  destruct Y as (Y & H3). injection Y as <- <- <-. cbn [obind]. intros E. injection E as <- <- <-. exists c2'. split; [reflexivity|]. now split.
Qed.

Lemma loud_play_alike legacy slack rs : Forall (fun r => talker (fst r) /\ cutter (rd_cut2 (snd r)) /\ Forall state_sendable (rd_reply (snd r))) rs ->
  forall c c' s k k' sns, no_error (o_sched (h_out s)) -> alike c c' -> play legacy slack c s (map snd rs) = Ok (k, k', sns) ->
  exists d, loud_play legacy slack c' s rs = Ok (d, k', sns) /\ alike k d.
Proof.
  induction 1 as [|[talk r] rs (Ht & Hc & Hs) _ IH]; intros c c' s k k' sns Ho H E; cbn [map fst snd play loud_play] in *.
  - injection E as <- <- <-. exists c'. now split.
  - destruct (play_round legacy slack c s r) as [[[c1 s1] sn]| | |] eqn:E1; try discriminate. cbn [obind] in E.
    destruct (loud_round_alike legacy slack talk c c' s r c1 s1 sn Ht Hc Hs Ho H E1) as (d1 & -> & H1 & Ho1). cbn [obind].
    destruct (play legacy slack c1 s1 (map snd rs)) as [[[c2 s2] sns']| | |] eqn:E2; try discriminate. cbn [obind] in E. injection E as <- <- <-.
    destruct (IH c1 d1 s1 c2 s2 sns' Ho1 H1 E2) as (d2 & -> & H2). exists d2. now split.
Qed.
Lemma loud_splay_alike legacy slack rs : Forall (fun r => talker (fst r) /\ cutter (sr_cut2 (snd r)) /\ state_sendable (sr_reply (snd r))) rs ->
  forall c c' s k k' sns, no_error (o_sched (h_out s)) -> alike c c' -> splay legacy slack c s (map snd rs) = Ok (k, k', sns) ->
  exists d, loud_splay legacy slack c' s rs = Ok (d, k', sns) /\ alike k d.
Proof.
  induction 1 as [|[talk r] rs (Ht & Hc & Hs) _ IH]; intros c c' s k k' sns Ho H E; cbn [map fst snd splay loud_splay] in *.
  - injection E as <- <- <-. exists c'. now split.
  - destruct (play_sround legacy slack c s r) as [[[c1 s1] sn]| | |] eqn:E1; try discriminate. cbn [obind] in E.
    destruct (loud_sround_alike legacy slack talk c c' s r c1 s1 sn Ht Hc Hs Ho H E1) as (d1 & -> & H1 & Ho1). cbn [obind].
    destruct (splay legacy slack c1 s1 (map snd rs)) as [[[c2 s2] sns']| | |] eqn:E2; try discriminate. cbn [obind] in E. injection E as <- <- <-.
    destruct (IH c1 d1 s1 c2 s2 sns' Ho1 H1 E2) as (d2 & -> & H2). exists d2. now split.
Qed.

(** ---- connections ---- *)
Lemma hello_message m version sched : metadata_ok m version -> no_error sched ->
  exists s p, server_setup m (mkStream [] []) (mkO sched [] []) version = Ok s /\ clean p /\ o_bytes (h_out s) = wire MHello [] (props_enum p) /\
    no_error (o_sched (h_out s)).
Proof.
  intros Hm Hs. pose proof Hm as (Hv & (Hcm & Hck) & Hint & Htx & Hch & Hfl).
  pose proof (spoken_range version Hv) as Hsv. pose proof (made_ok _ Hcm) as Hcok.
  destruct (hello_properties_ok m (spoken version) Hsv Hcm Hfl) as (p & tr & ti & tc & flags & Ep & Er & Dr & Ei & Di & Ec & Dc & Mp & Lp & Fl).
  unfold server_setup. replace (version <=? TRAX_VERSION) with true by lia.
  change (if version <? 1 then TRAX_VERSION else version) with (spoken version). rewrite Ep. cbn [obind snd fst].
  unfold metadata_create. replace (md_channels m =? 0) with false by lia. cbn [obind].
  set (h0 := mkHandle true false _ _ _ _ _ _ _).
  assert (Hclean : clean p).
  { split; [exact Mp|]. intros k v E. rewrite props_get_spec in E by now apply made_ok. injection E as E. rewrite Lp in E. revert k v E.
    change (clean_map (hello_map m (spoken version) tr ti tc (sm_lookup (md_custom m)))). unfold hello_map.
    inversion Htx as [|? ? Hn Htx1]; subst. inversion Htx1 as [|? ? Hd Htx2]; subst. inversion Htx2 as [|? ? Hfa _]; subst.
    apply clean_opt; [|reflexivity|]. 2:{ destruct (_ && _); [apply print_Z_text|exact Logic.I]. }
    apply clean_opt; [|reflexivity|exact Hfa]. apply clean_opt; [|reflexivity|exact Hd]. apply clean_opt; [|reflexivity|exact Hn].
    apply clean_set; [|unfold kv_ok; cbn [fst snd]; rewrite (encode_text channel_names _ _ eq_refl Ec); reflexivity].
    apply clean_set; [|unfold kv_ok; cbn [fst snd]; rewrite (encode_text image_names _ _ eq_refl Ei); reflexivity].
    apply clean_set; [|unfold kv_ok; cbn [fst snd]; rewrite (encode_text region_names _ _ eq_refl Er); reflexivity].
    apply clean_set; [|unfold kv_ok; cbn [fst snd]; rewrite print_Z_text; reflexivity].
    intros k v E. apply Hck. rewrite props_get_spec by exact Hcok. now rewrite E. }
  pose proof (handle_write_sent h0 MHello [] (Some p) Hs) as (Sb & Se). cbn [given h0 h_out o_bytes app] in Sb.
  exists (handle_write h0 MHello [] (Some p)), p. split; [reflexivity|]. split; [exact Hclean|]. now split.
Qed.
Lemma loud_connect_ok m version talk cut sched_s sched_c c s : metadata_ok m version -> talker talk -> cutter cut -> no_error sched_s ->
  connect m version cut sched_s sched_c = Ok (Some (c, s)) ->
  exists c', loud_connect m version talk cut sched_s sched_c = Ok (Some (c', s)) /\ alike c c'.
Proof.
  intros Hm Ht Hcut Hs. destruct (hello_message m version sched_s Hm Hs) as (s0 & p & E & Hp & Eb & _). unfold connect, loud_connect. rewrite E. cbn [obind].
  assert (Hn : noisy [(MHello, [], props_enum p)] (cut (o_bytes (h_out s0))) (cut (talk (o_bytes (h_out s0))))).
  { assert (Hms : Forall message_ok [(MHello, [], props_enum p)]) by (constructor; [|constructor]; split; [reflexivity|now apply clean_kvs]).
    destruct (Hcut (o_bytes (h_out s0))) as (A & B). destruct (Hcut (talk (o_bytes (h_out s0)))) as (A' & B').
    assert (Ef : o_bytes (h_out s0) = flat_map message_bytes [(MHello, [], props_enum p)]) by (cbn [flat_map message_bytes fst snd]; now rewrite app_nil_r).
    split; [exact Hms|]. split; [exact B|]. split; [exact B'|]. rewrite A, A'. split; [exact Ef|].
    destruct (messages_lines _ Hms) as (ls & Hls & El). rewrite Ef, El. now apply Ht. }
  pose proof (setup_alike _ _ _ (mkO sched_c [] []) Hn) as X.
  destruct (client_setup (mkStream [] (cut (o_bytes (h_out s0)))) (mkO sched_c [] [])) as [[h|]| | |]; cbn [obind]; try discriminate.
  destruct (client_setup (mkStream [] (cut (talk (o_bytes (h_out s0))))) (mkO sched_c [] [])) as [[h'|]| | |]; try (now destruct X).
  cbn [obind]. intros F. injection F as <- <-. exists h'. now split.
Qed.

Lemma rounds_cuts slack m multi rs : forall n, rounds_ok slack m multi n rs -> Forall (fun r => cutter (rd_cut2 r) /\ Forall state_sendable (rd_reply r)) rs.
Proof.
  induction rs as [|r rs IH]; intros n H; [constructor|]. cbn [rounds_ok] in H. destruct H as ((_ & Hc & _ & _ & _ & _ & _ & _ & _ & Hst) & Hrs).
  constructor; [now split|]. exact (IH _ Hrs).
Qed.
Lemma both_lists {A B : Type} (P : A -> Prop) (Q : B -> Prop) l : Forall P (map fst l) -> Forall Q (map snd l) -> Forall (fun x : A * B => P (fst x) /\ Q (snd x)) l.
Proof.
  intros H1 H2. rewrite Forall_map in H1, H2. apply Forall_forall. intros x Hx. rewrite Forall_forall in H1, H2. split; auto.
Qed.

Lemma loud_session legacy slack m version talk cut sched_s sched_c rs : metadata_ok m version -> spoken version = 4 -> talker talk -> cutter cut ->
  no_error sched_s -> no_error sched_c -> Forall talker (map fst rs) -> rounds_ok slack m (multi_object m version) 0 (map snd rs) ->
  exists c s c' s' sns, loud_connect m version talk cut sched_s sched_c = Ok (Some (c, s)) /\ conveyed m version (h_meta c) /\
    loud_play legacy slack c s rs = Ok (c', s', sns) /\ all_seen slack m 0 (map snd rs) sns.
Proof.
  intros Hm H4 Ht Hcut Hs Hc Hts Hrs.
  destruct (session_delivers legacy slack m version cut sched_s sched_c (map snd rs) Hm H4 Hcut Hs Hc Hrs) as (c & s & c' & s' & sns & E & E' & Hsn & _).
  destruct (connect_ok m version cut sched_s sched_c Hm Hcut Hs Hc) as (c0 & s0 & E0 & _ & _ & Hcv & _ & _ & _ & _ & _ & _ & _ & _ & _ & Ho & _).
  rewrite E in E0. injection E0 as <- <-.
  destruct (loud_connect_ok m version talk cut sched_s sched_c c s Hm Ht Hcut Hs E) as (d & El & H).
  assert (Hf : Forall (fun r => talker (fst r) /\ cutter (rd_cut2 (snd r)) /\ Forall state_sendable (rd_reply (snd r))) rs).
  { exact (both_lists talker (fun r => cutter (rd_cut2 r) /\ Forall state_sendable (rd_reply r)) rs Hts (rounds_cuts _ _ _ _ _ Hrs)). }
  destruct (loud_play_alike legacy slack rs Hf c d s c' s' sns Ho H E') as (d' & Ep & _).
  exists d, s, d', s', sns. split; [exact El|]. split; [|split; [exact Ep|exact Hsn]]. destruct H as (? & ? & -> & _). exact Hcv.
Qed.
Lemma loud_ssession legacy slack m version talk cut sched_s sched_c rs : metadata_ok m version -> spoken version <> 4 ->
  (spoken version = 1 -> md_channels m = TRAX_CHANNEL_COLOR) -> talker talk -> cutter cut ->
  no_error sched_s -> no_error sched_c -> Forall talker (map fst rs) -> srounds_ok slack m (map snd rs) ->
  exists c s c' s' sns, loud_connect m version talk cut sched_s sched_c = Ok (Some (c, s)) /\ conveyed m version (h_meta c) /\
    loud_splay legacy slack c s rs = Ok (c', s', sns) /\ Forall2 (sseen_ok slack m) (map snd rs) sns.
Proof.
  intros Hm H4 H1 Ht Hcut Hs Hc Hts Hrs.
  destruct (ssession_delivers legacy slack m version cut sched_s sched_c (map snd rs) Hm H4 H1 Hcut Hs Hc Hrs) as (c & s & c' & s' & sns & E & E' & Hsn).
  destruct (connect_ok m version cut sched_s sched_c Hm Hcut Hs Hc) as (c0 & s0 & E0 & _ & _ & Hcv & _ & _ & _ & _ & _ & _ & _ & _ & _ & Ho & _).
  rewrite E in E0. injection E0 as <- <-.
  destruct (loud_connect_ok m version talk cut sched_s sched_c c s Hm Ht Hcut Hs E) as (d & El & H).
  assert (Hf : Forall (fun r => talker (fst r) /\ cutter (sr_cut2 (snd r)) /\ state_sendable (sr_reply (snd r))) rs).
  { apply (both_lists talker (fun r => cutter (sr_cut2 r) /\ state_sendable (sr_reply r)) rs Hts). apply (Forall_impl _ (P := sround_ok slack m)); [|exact (proj1 Hrs)].
    intros r (_ & Hc2 & _ & _ & _ & Hst). now split. }
  destruct (loud_splay_alike legacy slack rs Hf c d s c' s' sns Ho H E') as (d' & Ep & _).
  exists d, s, d', s', sns. split; [exact El|]. split; [|split; [exact Ep|exact Hsn]]. destruct H as (? & ? & -> & _). exact Hcv.
Qed.

Lemma sample_plain : Forall plain_line [str "loading model"; []; str "@@TRAX"; str "done: @@TRAX:quit"].
Proof. repeat (apply Forall_cons; [split; [vm_compute; reflexivity|]; split; [|vm_compute; reflexivity]; vm_compute; intuition discriminate|]). apply Forall_nil. Qed.
Lemma sample_talker : talker sample_talk.
Proof.
  pose proof sample_plain as H. inversion H as [|? ? A H1]; subst. inversion H1 as [|? ? B H2]; subst. inversion H2 as [|? ? C H3]; subst.
  apply talker_around; [|exact H3]. exact (Forall_cons _ A (Forall_cons _ B (Forall_cons _ C (Forall_nil _)))).
Qed.
Lemma noisy_one talk m cut cut' : talker talk -> message_ok m -> cutter cut -> cutter cut' -> noisy [m] (cut (message_bytes m)) (cut' (talk (message_bytes m))).
Proof.
  intros Ht Hm Hc Hc'. destruct (Hc (message_bytes m)) as (A & B). destruct (Hc' (talk (message_bytes m))) as (A' & B').
  split; [constructor; [exact Hm|constructor]|]. split; [exact B|]. split; [exact B'|]. rewrite A, A'. split; [cbn [flat_map]; now rewrite app_nil_r|].
  destruct (message_line m Hm) as (l & E & Hl). specialize (Ht [l] ltac:(constructor; [exact Hl|constructor])). unfold lines in Ht. cbn [flat_map] in Ht. now rewrite app_nil_r, <- E in Ht.
Qed.
Lemma sample_life_ok : noisy [sample_hello] (whole_cut (message_bytes sample_hello)) (byte_cut (sample_talk (message_bytes sample_hello))) /\
  Forall2 noisy_step (sample_life silent) (sample_life sample_talk) /\
  exists v m rs b, life false (whole_cut (message_bytes sample_hello)) [] (sample_life silent) = Ok (Some (v, m, rs, b)) /\ v = 4 /\
    map (fun r : result => fst (fst r)) rs = [TRAX_OK; TRAX_STATE; TRAX_QUIT].
Proof.
  split; [|split].
  - apply noisy_one; [exact sample_talker|split; vm_compute; reflexivity|exact whole_cutter|exact byte_cutter].
  - unfold sample_life. apply Forall2_cons; [|apply Forall2_cons; [|apply Forall2_cons; [|apply Forall2_nil]]].
    + split; [reflexivity|]. exists []. split; [constructor|]. split; [constructor|]. split; [constructor|]. split; [reflexivity|]. constructor.
    + split; [reflexivity|]. exists [sample_state]. cbn [fst]. unfold silent. apply noisy_one; [exact sample_talker|split; vm_compute; reflexivity|exact whole_cutter|exact whole_cutter].
    + split; [reflexivity|]. exists [sample_quit]. cbn [fst]. unfold silent. apply noisy_one; [exact sample_talker|split; vm_compute; reflexivity|exact byte_cutter|exact byte_cutter].
  - do 4 eexists. split; [vm_compute; reflexivity|]. split; vm_compute; reflexivity.
Qed.
Lemma map_pair_fst {A B : Type} (a : A) (l : list B) (P : A -> Prop) : P a -> Forall P (map fst (map (pair a) l)).
Proof. intros H. induction l as [|b l IH]; cbn [map fst]; constructor; assumption. Qed.
Lemma map_pair_snd {A B : Type} (a : A) (l : list B) : map snd (map (pair a) l) = l.
Proof. rewrite map_map. apply map_id. Qed.
Lemma sample_loud_ok : metadata_ok sample_metadata 0 /\ talker sample_talk /\ talker silent /\
  Forall talker (map fst (map (pair sample_talk) sample_rounds)) /\
  rounds_ok 0 sample_metadata (multi_object sample_metadata 0) 0 (map snd (map (pair sample_talk) sample_rounds)).
Proof.
  split; [exact sample_metadata_ok|]. split; [exact sample_talker|]. split; [exact silent_talker|]. split; [apply map_pair_fst; exact sample_talker|].
  rewrite map_pair_snd. exact sample_rounds_ok.
Qed.
Lemma sample_loud3_ok : metadata_ok sample_metadata3 3 /\ talker sample_talk /\
  Forall talker (map fst (map (pair sample_talk) sample_srounds)) /\ srounds_ok 0 sample_metadata3 (map snd (map (pair sample_talk) sample_srounds)).
Proof.
  split; [exact sample_metadata3_ok|]. split; [exact sample_talker|]. split; [apply map_pair_fst; exact sample_talker|].
  rewrite map_pair_snd. exact sample_srounds_ok.
Qed.
Lemma unfinished_lost : exists c s c' s' sn, connect sample_metadata 0 whole_cut [] [] = Ok (Some (c, s)) /\
  loud_round false 0 unfinished_talk c s (nth 0 sample_rounds sample_empty_mask_round) = Ok (c', s', sn) /\
  sn_replied sn = TRAX_OK /\ sn_state sn = TRAX_ERROR /\ sn_result sn = None /\
  loud_connect sample_metadata 0 unfinished_talk whole_cut [] [] = Ok None.
Proof.
  do 5 eexists. split; [vm_compute; reflexivity|]. split; [vm_compute; reflexivity|]. split; [vm_compute; reflexivity|]. split; [vm_compute; reflexivity|].
  split; vm_compute; reflexivity.
Qed.
Lemma foreign_breaks : exists c s c' s' sn, connect sample_metadata 0 whole_cut [] [] = Ok (Some (c, s)) /\
  loud_round false 0 foreign_talk c s (nth 0 sample_rounds sample_empty_mask_round) = Ok (c', s', sn) /\
  sn_replied sn = TRAX_OK /\ sn_state sn = 1 /\ option_map (map fst) (sn_result sn) = Some [RSpecial 0; RSpecial 0] /\
  loud_connect sample_metadata 0 foreign_talk whole_cut [] [] = Ok None.
Proof.
  do 5 eexists. split; [vm_compute; reflexivity|]. split; [vm_compute; reflexivity|]. split; [vm_compute; reflexivity|]. split; [vm_compute; reflexivity|].
  split; vm_compute; reflexivity.
Qed.
