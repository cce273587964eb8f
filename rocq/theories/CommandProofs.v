(** Proofs about the splitting of commands and about deadlines. *)
From Verif Require Import CBase Lists Support SupportSpec.
Local Open Scope Z_scope.

Lemma loop_spaces n rest : forall i prev, exists prev', token_loop (repeat c_sp n ++ rest) i prev None false = token_loop rest (i + n) prev' None false.
Proof.
  induction n as [|n IH]; intros i prev; cbn [repeat app]; [exists prev; now rewrite Nat.add_0_r|]. cbn [token_loop]. change (c_sp =? c_sp)%N with true. cbv iota.
  destruct (IH (S i) (Some c_sp)) as (p & ->). exists p. f_equal. lia.
Qed.
Lemma loop_plain w rest s : ~ In c_sp w -> forall i prev, rest = [] \/ (exists r, rest = c_sp :: r) ->
  token_loop (w ++ rest) i prev (Some s) false = (Some s, match rest with [] => None | _ => Some (i + List.length w)%nat end, (i + List.length w)%nat, false).
Proof.
  induction w as [|c w IH]; intros H i prev Hr; cbn [app List.length].
  - rewrite Nat.add_0_r. destruct Hr as [->|(r & ->)]; [reflexivity|]. cbn [token_loop]. change (c_sp =? c_sp)%N with true. reflexivity.
  - cbn [token_loop]. destruct (c =? c_sp)%N eqn:E; [exfalso; apply H; left; lia|]. cbn [negb andb orb].
    rewrite IH; [|intros K; apply H; now right|exact Hr]. rewrite Nat.add_succ_comm. now destruct rest.
Qed.
Lemma loop_quoted w rest s : ~ In c_quote w -> forall i p, last (p :: w) 0%N <> c_apos ->
  token_loop (w ++ c_quote :: rest) i (Some p) (Some s) true = (Some s, Some (i + List.length w)%nat, (i + List.length w)%nat, true).
Proof.
  induction w as [|c w IH]; intros H i p Hp; cbn [app List.length].
  - cbn [token_loop negb andb orb]. change (c_quote =? c_quote)%N with true. cbn [last] in Hp. destruct (p =? c_apos)%N eqn:E; [lia|]. cbn [negb andb]. rewrite Nat.add_0_r. reflexivity.
  - cbn [token_loop]. destruct (c =? c_quote)%N eqn:E; [exfalso; apply H; left; lia|]. cbn [negb andb orb].
    rewrite IH; [|intros K; apply H; now right|destruct w; exact Hp]. rewrite Nat.add_succ_comm. reflexivity.
Qed.
Lemma skipn_app_length {A} (a b : list A) : skipn (List.length a) (a ++ b) = b.
Proof. now rewrite skipn_app, skipn_all, Nat.sub_diag. Qed.
Lemma firstn_app_length {A} (a b : list A) : firstn (List.length a) (a ++ b) = a.
Proof. rewrite firstn_app, firstn_all, Nat.sub_diag, firstn_O. apply app_nil_r. Qed.
Definition over (i : item) (post : list N) : nat := match i, post with Plain _, [] => 0 | _, _ => 1 end.
Lemma plain_case pre n w post : (List.length w <= 1023)%nat -> ~ In c_sp w -> match w with [] => False | c :: _ => c <> c_quote end -> post = [] \/ (exists r, post = c_sp :: r) ->
  next_token (pre ++ repeat c_sp n ++ w ++ post) (List.length pre) 1024 = Ok (Some (w, List.length pre + n + List.length w + over (Plain w) post)%nat).
Proof.
  intros Hl Hs Hw Hp. unfold next_token. rewrite !app_length, repeat_length. destruct (_ <? _)%nat eqn:A; [lia|]. clear A.
  rewrite skipn_app_length. destruct (loop_spaces n (w ++ post) (List.length pre) None) as (prev & ->). destruct w as [|c w]; [contradiction|].
  cbn [app token_loop]. destruct (c =? c_sp)%N eqn:E; [exfalso; apply Hs; left; lia|]. destruct (c =? c_quote)%N eqn:E2; [lia|].
  rewrite loop_plain; [|intros K; apply Hs; now right|exact Hp]. cbn [List.length] in *.
  set (s := (List.length pre + n)%nat). assert (Hse : (S s + List.length w - s = S (List.length w))%nat) by lia.
  assert (match (match post with [] => None | _ :: _ => Some (S s + List.length w)%nat end) with Some e => Some e | None => Some (S s + List.length w)%nat end = Some (S s + List.length w)%nat) as -> by (now destruct post).
  rewrite Hse. destruct (1024 - 1 <? S (List.length w))%nat eqn:B; [lia|]. destruct (_ <? S (List.length w) + 1)%nat eqn:C; [lia|]. clear B C.
  assert (skipn s (pre ++ repeat c_sp n ++ c :: w ++ post) = (c :: w) ++ post) as ->.
  { rewrite app_assoc. unfold s. rewrite <- (repeat_length c_sp n) at 1. rewrite <- app_length. apply skipn_app_length. }
  change (S (List.length w)) with (List.length (c :: w)) at 1. rewrite firstn_app_length. f_equal. f_equal. f_equal.
  unfold over. destruct post as [|c' post]; cbn [List.length].
  - destruct (_ =? _)%nat eqn:D; lia.
  - destruct (_ =? _)%nat eqn:D; lia.
Qed.
Lemma quoted_case pre n w post : (List.length w <= 1023)%nat -> ~ In c_quote w -> last w 0%N <> c_apos ->
  next_token (pre ++ repeat c_sp n ++ ([c_quote] ++ w ++ [c_quote]) ++ post) (List.length pre) 1024 = Ok (Some (w, List.length pre + n + List.length (item_text (Quoted w)) + 1)%nat).
Proof.
  intros Hl Hq Hw. unfold next_token. cbn [item_text]. rewrite <- !app_assoc. rewrite !app_length, repeat_length. destruct (_ <? _)%nat eqn:A; [lia|]. clear A.
  rewrite skipn_app_length. destruct (loop_spaces n ([c_quote] ++ w ++ [c_quote] ++ post) (List.length pre) None) as (prev & ->).
  cbn [app token_loop]. change (c_quote =? c_sp)%N with false. change (c_quote =? c_quote)%N with true. cbv iota.
  rewrite loop_quoted; [|exact Hq|destruct w; [discriminate|exact Hw]]. cbn [List.length] in *.
  set (s := (List.length pre + n)%nat). assert (Hse : (S s + List.length w - S s = List.length w)%nat) by lia. rewrite Hse.
  destruct (1024 - 1 <? List.length w)%nat eqn:B; [lia|]. destruct (_ <? List.length w + 1)%nat eqn:C; [lia|]. clear B C.
  assert (skipn (S s) (pre ++ repeat c_sp n ++ c_quote :: w ++ c_quote :: post) = w ++ c_quote :: post) as ->.
  { replace (pre ++ repeat c_sp n ++ c_quote :: w ++ c_quote :: post) with ((pre ++ repeat c_sp n ++ [c_quote]) ++ w ++ c_quote :: post) by (now rewrite <- !app_assoc).
    assert (S s = List.length (pre ++ repeat c_sp n ++ [c_quote])) as -> by (rewrite !app_length, repeat_length; cbn [List.length]; unfold s; lia). apply skipn_app_length. }
  rewrite firstn_app_length. f_equal. f_equal. f_equal. destruct (_ =? _)%nat eqn:D; lia.
Qed.
Lemma item_case pre n i post : item_ok i -> post = [] \/ (exists r, post = c_sp :: r) ->
  next_token (pre ++ repeat c_sp n ++ item_text i ++ post) (List.length pre) 1024 = Ok (Some (word_of i, List.length pre + n + List.length (item_text i) + over i post)%nat).
Proof.
  intros (Hl & Hi) Hp. destruct i as [w|w]; cbn [word_of item_text] in *.
  - destruct Hi. now apply plain_case.
  - destruct Hi. unfold over. apply quoted_case; assumption.
Qed.
Lemma item_nonempty i : item_ok i -> (0 < List.length (item_text i))%nat.
Proof. intros (_ & H). destruct i as [[|c w]|w]; cbn [item_text] in *; [tauto| |]; cbn [app List.length]; lia. Qed.

Lemma parse_items items : forall n i pre tokens fuel trailing, item_ok i -> Forall (fun p => item_ok (snd p)) items -> Forall (fun p => (1 <= fst p)%nat) items ->
  (List.length tokens <= List.length pre)%nat -> (List.length items < fuel)%nat ->
  parse_loop fuel (pre ++ command_text ((n, i) :: items) trailing) (List.length pre) tokens = Ok (Some (tokens ++ word_of i :: map (fun p => word_of (snd p)) items)).
Proof.
  induction items as [|(n', i') items IH]; intros n i pre tokens fuel trailing Hi Hs Hn Ht Hf; (destruct fuel as [|fuel]; [lia|]); pose proof (item_nonempty i Hi) as Hne.
  - cbn [parse_loop command_text]. rewrite item_case; [|exact Hi|destruct trailing; [right; now exists []|now left]]. cbn [obind].
    rewrite !app_length, repeat_length. destruct (_ <=? List.length tokens)%nat eqn:A; [lia|].
    clear A. destruct trailing, i; cbn [over List.length]; (destruct (_ <=? _)%nat eqn:B; [reflexivity|cbn [item_text word_of] in *; lia]).
  - cbn [parse_loop]. inversion Hs as [|? ? Hi' Hs']; subst. inversion Hn as [|? ? Hn1 Hn']; subst. cbn [fst snd] in *. destruct n' as [|n']; [lia|].
    pose proof (item_nonempty i' Hi') as Hne'.
    change (command_text ((n, i) :: (S n', i') :: items) trailing) with (repeat c_sp n ++ item_text i ++ command_text ((S n', i') :: items) trailing).
    change (command_text ((S n', i') :: items) trailing) with (c_sp :: command_text ((n', i') :: items) trailing).
    rewrite item_case; [|exact Hi|right; eauto]. cbn [obind].
    assert (Hlen : List.length (pre ++ repeat c_sp n ++ item_text i ++ c_sp :: command_text ((n', i') :: items) trailing)
      = (List.length pre + n + List.length (item_text i) + 1 + n' + List.length (item_text i') + List.length (command_text items trailing))%nat).
    { cbn [command_text]. rewrite !app_length. cbn [List.length]. rewrite !app_length, !repeat_length. lia. }
    rewrite Hlen. destruct (_ <=? List.length tokens)%nat eqn:A; [lia|].
    assert (over i (c_sp :: command_text ((n', i') :: items) trailing) = 1%nat) as -> by (now destruct i).
    match goal with |- (if ?c then Ok (Some _) else _) = _ => assert (c = false) as -> by lia end. clear A.
    replace (pre ++ repeat c_sp n ++ item_text i ++ c_sp :: command_text ((n', i') :: items) trailing)
      with ((pre ++ repeat c_sp n ++ item_text i ++ [c_sp]) ++ command_text ((n', i') :: items) trailing) by (now rewrite <- !app_assoc).
    replace (List.length pre + n + List.length (item_text i) + 1)%nat with (List.length (pre ++ repeat c_sp n ++ item_text i ++ [c_sp]))
      by (rewrite !app_length, repeat_length; cbn [List.length]; lia).
    rewrite IH; [|exact Hi'|exact Hs'|exact Hn'| |cbn [List.length] in Hf; lia].
    + cbn [map snd]. rewrite <- app_assoc. reflexivity.
    + rewrite !app_length. cbn [List.length]. lia.
Qed.
Lemma items_length items trailing : Forall (fun p => item_ok (snd p)) items -> (List.length items <= List.length (command_text items trailing))%nat.
Proof.
  induction items as [|(n, i) items IH]; intros H; cbn [command_text List.length]; [lia|]. inversion H; subst. cbn [snd] in *. pose proof (item_nonempty i H2).
  rewrite !app_length. specialize (IH H3). lia.
Qed.
Lemma parse_command_text items trailing : command_ok items -> parse_command (command_text items trailing) = Ok (Some (map (fun p => word_of (snd p)) items)).
Proof.
  intros (Hne & Hi & Hs). pose proof (items_length items trailing Hi) as Hl. destruct items as [|(n, i) items]; [congruence|]. inversion Hi; subst. cbn [tl snd] in *.
  unfold parse_command. apply (parse_items items n i []); try assumption; [cbn [List.length]; lia|]. cbn [List.length] in Hl. lia.
Qed.
Lemma words_of_command items trailing : command_ok items -> process_words (command_text items trailing) = Ok (map (fun p => word_of (snd p)) items).
Proof. intros H. unfold process_words. rewrite parse_command_text by exact H. reflexivity. Qed.

(** the command of the command-line client *)
Lemma cli_text args : args <> [] -> cli_command args = command_text (match args with [] => [] | a :: args => (1%nat, Quoted a) :: map (fun a => (2%nat, Quoted a)) args end) true.
Proof.
  destruct args as [|a args]; [congruence|]. intros _. revert a. unfold cli_command. induction args as [|a' args IH]; intros a.
  - cbn [map concat command_text repeat item_text app]. now rewrite <- !app_assoc.
  - cbn [map concat] in *. rewrite IH. cbn [command_text map repeat item_text app]. now rewrite <- !app_assoc.
Qed.
Lemma cli_words args : args <> [] -> Forall quotable args -> process_words (cli_command args) = Ok args.
Proof.
  intros Hne H. rewrite cli_text by exact Hne. destruct args as [|a args]; [congruence|]. inversion H as [|? ? Ha Hs]; subst. rewrite words_of_command.
  - cbn [map snd word_of]. rewrite map_map. cbn [snd word_of]. now rewrite map_id.
  - split; [discriminate|]. cbn [tl]. split.
    + constructor; [destruct Ha as (A & B & C); split; [exact A|split; assumption]|]. apply Forall_map. eapply Forall_impl; [|exact Hs]. intros b (A & B & C). split; [exact A|split; assumption].
    + apply Forall_map. apply Forall_forall. intros b _. cbn [fst]. lia.
Qed.

(** every command *)
Lemma loop_bounds rest : forall i prev s q s' e' i' q', token_loop rest i prev s q = (s', e', i', q') -> match s with Some s => (s <= i)%nat | None => True end ->
  (i <= i' <= i + List.length rest)%nat /\ match e' with Some e => e = i' /\ (e < i + List.length rest)%nat | None => i' = (i + List.length rest)%nat end /\
  match s' with Some s => (s <= i')%nat | None => True end /\ (s = None -> match s' with Some s1 => (i < i + List.length rest)%nat | None => True end).
Proof.
  induction rest as [|c rest IH]; intros i prev s q s' e' i' q' H Hs; cbn [token_loop List.length] in *.
  - injection H as <- <- <- <-. split; [lia|]. split; [lia|]. split; [exact Hs|]. intros ->. exact I.
  - destruct s as [s|].
    + destruct (_ || _).
      * injection H as <- <- <- <-. split; [lia|]. split; [split; [reflexivity|lia]|]. split; [lia|]. discriminate.
      * apply IH in H; [|lia]. destruct H as (A & B & C & _). split; [lia|]. split; [destruct e'; [destruct B; split; [assumption|lia]|lia]|]. split; [exact C|]. discriminate.
    + assert (K : (S i <= i' <= S i + List.length rest)%nat /\ match e' with Some e => e = i' /\ (e < S i + List.length rest)%nat | None => i' = (S i + List.length rest)%nat end /\
        match s' with Some s => (s <= i')%nat | None => True end).
      { destruct (c =? c_sp)%N; [|destruct (c =? c_quote)%N]; (apply IH in H; [|lia || exact I]); destruct H as (A & B & C & D); (split; [exact A|split; [exact B|exact C]]). }
      destruct K as (A & B & C). split; [lia|]. split; [destruct e'; [destruct B; split; [assumption|lia]|lia]|]. split; [exact C|]. intros _. destruct s'; [lia|exact I].
Qed.
Lemma next_token_total command start : (start <= List.length command)%nat ->
  exists r, next_token command start 1024 = Ok r /\ match r with Some (t, p) => (start < p)%nat | None => True end.
Proof.
  intros H. unfold next_token. destruct (_ <? _)%nat eqn:A; [lia|]. destruct (token_loop (skipn start command) start None None false) as (((s, e), i), q) eqn:E.
  apply loop_bounds in E; [|exact I]. rewrite skipn_length in E. destruct E as (B & C & D & F). specialize (F eq_refl).
  destruct s as [s|]; [|exists None; split; [reflexivity|exact I]]. destruct (match e with Some e0 => Some e0 | None => if q then None else Some i end) as [e1|] eqn:G; [|exists None; split; [reflexivity|exact I]].
  assert (e1 = i) by (destruct e; [injection G as <-; tauto|]; destruct q; congruence). subst e1.
  destruct (1024 - 1 <? i - s)%nat; [exists None; split; [reflexivity|exact I]|]. destruct (List.length command + 1 <? i - s + 1)%nat eqn:K; [lia|]. eexists. split; [reflexivity|].
  destruct (i =? List.length command)%nat eqn:L; [lia|]. destruct q; lia.
Qed.
Lemma parse_loop_total command : forall fuel position tokens, (position <= List.length command)%nat -> (List.length tokens <= position)%nat -> (List.length command < fuel + position)%nat ->
  (position < List.length command \/ List.length tokens < List.length command \/ List.length command = 0)%nat ->
  exists r, parse_loop fuel command position tokens = Ok r.
Proof.
  induction fuel as [|fuel IH]; intros position tokens Hp Ht Hf Hd; [lia|]. cbn [parse_loop].
  destruct (next_token_total command position Hp) as (r & E & Hr). rewrite E. cbn [obind]. destruct r as [(t, p)|]; [|eauto].
  assert (List.length command <> 0)%nat.
  { intros K. destruct command; [|discriminate]. unfold next_token in E. cbn [List.length] in *. assert (position = O) by lia. subst position. cbn in E. discriminate. }
  destruct (List.length command <=? List.length tokens)%nat eqn:A; [lia|]. destruct (List.length command <=? p)%nat eqn:B; [eauto|].
  apply IH; [lia|rewrite app_length; cbn [List.length]; lia|lia|lia].
Qed.
Lemma parse_total command : exists r, parse_command command = Ok r.
Proof. apply parse_loop_total; cbn [List.length]; lia. Qed.

(** ---- deadlines ---- *)
Lemma deadline_exact sec usec ms : nanoseconds (deadline sec usec ms) = nanoseconds (sec, 1000 * usec) + ms * 1000000.
Proof. unfold deadline, nanoseconds. destruct (1000000 <? usec + ms * 1000); cbn [fst snd]; lia. Qed.
Lemma deadline_valid sec usec ms : 0 <= usec < 1000000 -> 0 <= ms ->
  (valid_time (deadline sec usec ms) <-> usec + ms * 1000 < 2000000 /\ usec + ms * 1000 <> 1000000).
Proof. intros H1 H2. unfold deadline, valid_time. destruct (1000000 <? usec + ms * 1000) eqn:E; cbn [fst snd]; lia. Qed.
