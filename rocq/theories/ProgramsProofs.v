(** Proofs about the command line programs *)
From Coq Require Import Lia.
From Verif Require Import CBase Image Num NumProofs FloatOps Sockets SocketsProofs Programs ProgramsSpec.
Local Open Scope Z_scope.

Lemma word_here pre (w : text) post : word_at (pre ++ w :: post) (List.length pre) = Ok w.
Proof. unfold word_at. now rewrite nth_error_app2, Nat.sub_diag by lia. Qed.
Lemma char_here (a : text) c b : char_at (a ++ c :: b) (List.length a) = Ok c.
Proof. unfold char_at. now rewrite nth_error_app2, Nat.sub_diag by lia. Qed.
Lemma char_end (a : text) : char_at a (List.length a) = Ok 0%N.
Proof. unfold char_at. rewrite (proj2 (nth_error_None a _)) by lia. now rewrite Nat.eqb_refl. Qed.

(** The word being read: "-", letters that were read, the letter, the rest *)
Definition dash : N := letter "-".
Lemma str_dash : str "-" = [dash]. Proof. reflexivity. Qed.
Definition next_scan (pre : list text) (read rest : text) : scan :=
  match rest with [] => mkScan (S (List.length pre)) 1 | _ => mkScan (List.length pre) (S (S (List.length read))) end.
Lemma starts_ok pre read c rest post : c <> dash -> c <> 0%N ->
  (if Nat.eqb (S (List.length read)) 1 then starts (pre ++ (dash :: read ++ c :: rest) :: post) (mkScan (List.length pre) (S (List.length read)))
   else Ok (true, mkScan (List.length pre) (S (List.length read)))) = Ok (true, mkScan (List.length pre) (S (List.length read))).
Proof.
  intros N1 N2. destruct read as [|x read]; [|reflexivity]. cbn [List.length Nat.eqb app]. unfold starts. cbn [n_ind n_sp].
  rewrite (proj2 (Nat.leb_gt _ _)) by (rewrite app_length; cbn [List.length]; lia). rewrite word_here. cbn [obind].
  change (char_at (dash :: c :: rest) 0) with (Ok dash). change (char_at (dash :: c :: rest) 1) with (Ok c). cbn [obind].
  change (dash =? letter "-")%N with true. cbn [negb]. rewrite (proj2 (N.eqb_neq c 0) N2).
  destruct rest; [|reflexivity]. change (dash =? letter "-")%N with true. change (letter "-") with dash. rewrite (proj2 (N.eqb_neq c dash) N1). reflexivity.
Qed.
Lemma forward_ok pre read c rest post : plain rest -> forward (pre ++ (dash :: read ++ c :: rest) :: post) (mkScan (List.length pre) (S (List.length read))) = Ok (next_scan pre read rest).
Proof.
  intros Pr. unfold forward. cbn [n_ind n_sp]. rewrite word_here. cbn [obind].
  replace (char_at (dash :: read ++ c :: rest) (S (S (List.length read)))) with (match rest with [] => Ok 0%N | x :: _ => Ok x end).
  - destruct rest as [|x rest]; [reflexivity|]. cbn [obind next_scan]. inversion Pr; subst. now rewrite (proj2 (N.eqb_neq x 0)).
  - destruct rest as [|x rest].
    + replace (S (S (List.length read))) with (List.length (dash :: read ++ [c])) by (cbn [List.length]; rewrite app_length; cbn [List.length]; lia). now rewrite char_end.
    + replace (dash :: read ++ c :: x :: rest) with ((dash :: read ++ [c]) ++ x :: rest) by (cbn [app]; now rewrite <- app_assoc).
      replace (S (S (List.length read))) with (List.length (dash :: read ++ [c])) by (cbn [List.length]; rewrite app_length; cbn [List.length]; lia). now rewrite char_here.
Qed.
Lemma getopt_flag opts pre read c rest post r : c <> dash -> c <> 0%N -> c <> letter ":" -> plain rest -> after c opts = Some r -> takes_argument r = false ->
  getopt (pre ++ (dash :: read ++ c :: rest) :: post) opts (mkScan (List.length pre) (S (List.length read))) = Ok (Found c None, next_scan pre read rest).
Proof.
  intros N1 N2 N3 Pr A T. unfold getopt. cbn [n_sp]. rewrite starts_ok by assumption. cbn [obind negb]. cbn [n_ind n_sp]. rewrite word_here. cbn [obind].
  change (char_at (dash :: read ++ c :: rest) (S (List.length read))) with (char_at (read ++ c :: rest) (List.length read)).
  rewrite char_here. cbn [obind]. rewrite (proj2 (N.eqb_neq c 0) N2), (proj2 (N.eqb_neq c _) N3), A, T, (forward_ok pre read c rest post Pr). reflexivity.
Qed.
Lemma getopt_attached opts pre read c x rest post r : c <> dash -> c <> 0%N -> c <> letter ":" -> x <> 0%N -> after c opts = Some r -> takes_argument r = true ->
  getopt (pre ++ (dash :: read ++ c :: x :: rest) :: post) opts (mkScan (List.length pre) (S (List.length read))) = Ok (Found c (Some (x :: rest)), mkScan (S (List.length pre)) 1).
Proof.
  intros N1 N2 N3 N4 A T. unfold getopt. cbn [n_sp]. rewrite starts_ok by assumption. cbn [obind negb]. cbn [n_ind n_sp]. rewrite word_here. cbn [obind].
  change (char_at (dash :: read ++ c :: x :: rest) (S (List.length read))) with (char_at (read ++ c :: x :: rest) (List.length read)).
  rewrite char_here. cbn [obind]. rewrite (proj2 (N.eqb_neq c 0) N2), (proj2 (N.eqb_neq c _) N3), A, T. unfold argument. cbn [n_ind n_sp]. rewrite word_here. cbn [obind].
  replace (dash :: read ++ c :: x :: rest) with ((dash :: read ++ [c]) ++ x :: rest) by (cbn [app]; now rewrite <- app_assoc).
  replace (S (S (List.length read))) with (List.length (dash :: read ++ [c])) by (cbn [List.length]; rewrite app_length; cbn [List.length]; lia).
  rewrite char_here. cbn [obind]. rewrite (proj2 (N.eqb_neq x 0) N4). cbn [negb]. now rewrite skipn_app, skipn_all, Nat.sub_diag.
Qed.
Lemma getopt_next opts pre read c a post r : c <> dash -> c <> 0%N -> c <> letter ":" -> after c opts = Some r -> takes_argument r = true ->
  getopt (pre ++ (dash :: read ++ [c]) :: a :: post) opts (mkScan (List.length pre) (S (List.length read))) = Ok (Found c (Some a), mkScan (S (S (List.length pre))) 1).
Proof.
  intros N1 N2 N3 A T. unfold getopt. cbn [n_sp]. rewrite starts_ok by assumption. cbn [obind negb]. cbn [n_ind n_sp]. rewrite word_here. cbn [obind].
  change (char_at (dash :: read ++ [c]) (S (List.length read))) with (char_at (read ++ [c]) (List.length read)).
  rewrite char_here. cbn [obind]. rewrite (proj2 (N.eqb_neq c 0) N2), (proj2 (N.eqb_neq c _) N3), A, T. unfold argument. cbn [n_ind n_sp]. rewrite word_here. cbn [obind].
  replace (S (S (List.length read))) with (List.length (dash :: read ++ [c])) at 1 by (cbn [List.length]; rewrite app_length; cbn [List.length]; lia).
  rewrite char_end. cbn [obind]. change (0 =? 0)%N with true. cbn [negb]. rewrite (proj2 (Nat.leb_gt _ _)) by (rewrite app_length; cbn [List.length]; lia).
  replace (pre ++ (dash :: read ++ [c]) :: a :: post) with ((pre ++ [dash :: read ++ [c]]) ++ a :: post) by (now rewrite <- app_assoc).
  replace (S (List.length pre)) with (List.length (pre ++ [dash :: read ++ [c]])) by (rewrite app_length; cbn [List.length]; lia). now rewrite word_here.
Qed.
Lemma getopt_end opts pre tail words : command_follows tail words -> exists n, getopt (pre ++ tail) opts (mkScan (List.length pre) 1) = Ok (NoMore, n) /\ skipn (n_ind n) (pre ++ tail) = words.
Proof.
  intros [Ne [->|[-> F]]]; unfold getopt, starts; cbn [n_sp n_ind Nat.eqb].
  - rewrite (proj2 (Nat.leb_gt _ _)) by (rewrite app_length; cbn [List.length]; lia). rewrite word_here. cbn [obind]. exists (mkScan (S (List.length pre)) 1). split; [reflexivity|]. cbn [n_ind].
    replace (pre ++ str "--" :: words) with ((pre ++ [str "--"]) ++ words) by (now rewrite <- app_assoc).
    replace (S (List.length pre)) with (List.length (pre ++ [str "--"])) by (rewrite app_length; cbn [List.length]; lia).
    now rewrite skipn_app, skipn_all, Nat.sub_diag.
  - destruct words as [|w words]; [congruence|]. rewrite (proj2 (Nat.leb_gt _ _)) by (rewrite app_length; cbn [List.length]; lia). rewrite word_here. cbn [obind].
    exists (mkScan (List.length pre) 1). cbn [n_ind]. split; [|now rewrite skipn_app, skipn_all, Nat.sub_diag].
    destruct w as [|c [|d w]].
    + reflexivity.
    + change (char_at [c] 0) with (Ok c). change (char_at [c] 1) with (Ok 0%N). cbn [obind]. destruct (negb _); reflexivity.
    + change (char_at (c :: d :: w) 0) with (Ok c). cbn [obind]. rewrite (proj2 (N.eqb_neq c _) F). reflexivity.
Qed.

(** A program whose options do what the specification says *)
Section Program.
  Variables (opts : text) (handle : N -> option text -> settings -> outcome (course settings)) (failure : Z) (has : opt -> bool).
  Definition letter_ok (o : opt) : Prop :=
    exists r, after (opt_letter o) opts = Some r /\ takes_argument r = match opt_arg o with Some _ => true | None => false end.
  Hypothesis letters_ok : forall o, has o = true -> letter_ok o.
  Hypothesis handle_ok : forall o s, has o = true -> opt_ok o -> handle (opt_letter o) (opt_arg o) s = Ok (if is_help o then Exit 0 else Go (effect o s)).
  Lemma letter_good o : opt_letter o <> dash /\ opt_letter o <> 0%N /\ opt_letter o <> letter ":".
  Proof. destruct o; split; [|split| |split| |split| |split| |split| |split| |split| |split| |split| |split| |split| |split| |split| |split| |split| |split| |split| |split| |split]; vm_compute; discriminate. Qed.
  Definition result (os : list opt) (s : settings) (k : settings -> outcome (course (settings * list text))) : outcome (course (settings * list text)) :=
    if existsb is_help os then Ok (Exit 0) else k (fold_left (fun s o => effect o s) os s).
  Lemma result_app os os' s k : result (os ++ os') s k = result os s (fun s => result os' s k).
  Proof. unfold result. rewrite existsb_app, fold_left_app. destruct (existsb is_help os); reflexivity. Qed.
  Lemma result_ext os s k k' : (forall s, k s = k' s) -> result os s k = result os s k'.
  Proof. intros E. unfold result. now rewrite E. Qed.
  Lemma letters_plain l : plain (map opt_letter l).
  Proof. apply Forall_forall. intros c Hc. apply in_map_iff in Hc. destruct Hc as (o & <- & _). apply letter_good. Qed.
  (** letters [todo] of a word, followed by [rest] *)
  Lemma flags_run todo : forall read pre rest post fuel s, plain rest -> Forall flag todo -> Forall (fun o => has o = true) todo -> Forall opt_ok todo ->
    (rest <> [] \/ todo <> []) ->
    options (List.length todo + fuel) opts handle failure (pre ++ (dash :: read ++ map opt_letter todo ++ rest) :: post) (mkScan (List.length pre) (S (List.length read))) s =
    result todo s (options fuel opts handle failure (pre ++ (dash :: read ++ map opt_letter todo ++ rest) :: post)
      (match rest with [] => mkScan (S (List.length pre)) 1 | _ => mkScan (List.length pre) (S (List.length read + List.length todo)) end)).
  Proof.
    induction todo as [|o todo IH]; intros read pre rest post fuel s Pr Ff Fh Fo Ne.
    - destruct rest as [|x rest]; [destruct Ne; congruence|]. cbn [List.length Nat.add result existsb fold_left]. now rewrite Nat.add_0_r.
    - inversion Ff as [|? ? F1 Ff']; inversion Fh as [|? ? H1 Fh']; inversion Fo as [|? ? O1 Fo']; subst. destruct (letters_ok o H1) as (r & A & T).
      unfold flag in F1. rewrite F1 in T. destruct (letter_good o) as (N1 & N2 & N3). cbn [List.length Nat.add options map app].
      assert (Pn : plain (map opt_letter todo ++ rest)) by (apply Forall_app; split; [apply letters_plain|exact Pr]).
      rewrite (getopt_flag opts pre read (opt_letter o) (map opt_letter todo ++ rest) post r N1 N2 N3 Pn A T). cbn [obind].
      pose proof (handle_ok o s H1 O1) as Ho. rewrite F1 in Ho. rewrite Ho. cbn [obind]. unfold result. cbn [existsb fold_left]. destruct (is_help o); [reflexivity|]. cbn [orb].
      destruct (todo) as [|o2 todo'] eqn:Et.
      + destruct rest as [|x rest]; cbn [map app next_scan List.length Nat.add existsb fold_left]; [reflexivity|]. f_equal. f_equal. lia.
      + rewrite <- Et in *. specialize (IH (read ++ [opt_letter o]) pre rest post fuel (effect o s) Pr Ff' Fh' Fo' ltac:(right; rewrite Et; discriminate)).
        unfold result in IH. rewrite <- app_assoc in IH. cbn [app] in IH. rewrite app_length in IH. cbn [List.length] in IH.
        replace (next_scan pre read (map opt_letter todo ++ rest)) with (mkScan (List.length pre) (S (List.length read + 1))) by (rewrite Et; cbn [map app next_scan]; f_equal; lia).
        rewrite IH. destruct (existsb is_help todo); [reflexivity|]. destruct rest; [reflexivity|]. f_equal. f_equal. lia.
  Qed.
  Definition good (p : piece) : Prop := piece_ok p /\ Forall (fun o => has o = true) (piece_opts p) /\ Forall opt_ok (piece_opts p).
  Lemma shift (pre : list text) ws post : pre ++ ws ++ post = (pre ++ ws) ++ post. Proof. apply app_assoc. Qed.
  Lemma piece_run p pre post fuel s : good p ->
    options (List.length (piece_opts p) + fuel) opts handle failure (pre ++ piece_words p ++ post) (mkScan (List.length pre) 1) s =
    result (piece_opts p) s (options fuel opts handle failure (pre ++ piece_words p ++ post) (mkScan (List.length (pre ++ piece_words p)) 1)).
  Proof.
    intros (Pk & Fh & Fo). destruct p as [o more|before o attached]; cbn [piece_opts piece_words] in *.
    - rewrite str_dash. pose proof (flags_run (o :: more) [] pre [] post fuel s ltac:(constructor) Pk Fh Fo ltac:(right; discriminate)) as X.
      rewrite app_nil_r in X. cbn [app] in *. change (S (@List.length N [])) with 1%nat in X. etransitivity; [exact X|]. rewrite app_length. cbn [List.length]. now rewrite Nat.add_1_r.
    - destruct Pk as (Ff & Na & At). apply Forall_app in Fh as [Fh Fh1]. apply Forall_app in Fo as [Fo Fo1]. inversion Fh1 as [|? ? H1 _]; inversion Fo1 as [|? ? O1 _]; subst.
      destruct (letters_ok o H1) as (r & A & T). destruct (opt_arg o) as [a|] eqn:Ea; [|congruence]. destruct (letter_good o) as (N1 & N2 & N3).
      pose proof (handle_ok o) as Ho. rewrite Ea in Ho. pose proof (proj1 O1 a Ea) as Pa.
      assert (Re : forall w scan2 ws, ws = w ++ post -> getopt (pre ++ ws) opts (mkScan (List.length pre) (S (List.length before))) = Ok (Found (opt_letter o) (Some a), scan2) ->
        forall s, options (1 + fuel) opts handle failure (pre ++ ws) (mkScan (List.length pre) (S (List.length before))) s =
                  result [o] s (options fuel opts handle failure (pre ++ ws) scan2)).
      { intros w scan2 ws _ G s'. cbn [Nat.add options]. rewrite G. cbn [obind]. rewrite Ho by assumption. cbn [obind]. unfold result. cbn [existsb fold_left]. rewrite orb_false_r.
        destruct (is_help o); reflexivity. }
      rewrite app_length. cbn [List.length]. unfold arg_text. rewrite Ea. rewrite result_app. rewrite str_dash. cbn [app]. rewrite <- Nat.add_assoc. destruct attached.
      + destruct a as [|x a]; [now specialize (At eq_refl)|]. inversion Pa; subst.
        pose proof (flags_run before [] pre (opt_letter o :: x :: a) post (1 + fuel) s) as X. cbn [app] in *. change (S (@List.length N [])) with 1%nat in X.
        etransitivity; [apply X; [apply Forall_cons; [exact N2|exact Pa]|exact Ff|exact Fh|exact Fo|left; discriminate]|]. clear X. cbn [List.length Nat.add].
        rewrite app_length. cbn [List.length]. rewrite Nat.add_1_r. apply result_ext. intros s'.
        apply (Re [dash :: map opt_letter before ++ opt_letter o :: x :: a] _ _ eq_refl).
        pose proof (getopt_attached opts pre (map opt_letter before) (opt_letter o) x a post r N1 N2 N3 ltac:(assumption) A T) as G. rewrite map_length in G. exact G.
      + pose proof (flags_run before [] pre [opt_letter o] (a :: post) (1 + fuel) s) as X. cbn [app] in *. change (S (@List.length N [])) with 1%nat in X.
        etransitivity; [apply X; [apply Forall_cons; [exact N2|constructor]|exact Ff|exact Fh|exact Fo|left; discriminate]|]. clear X. cbn [List.length Nat.add].
        rewrite app_length. cbn [List.length]. rewrite Nat.add_comm. cbn [Nat.add]. apply result_ext. intros s'.
        apply (Re [dash :: map opt_letter before ++ [opt_letter o]; a] _ _ eq_refl).
        pose proof (getopt_next opts pre (map opt_letter before) (opt_letter o) a post r N1 N2 N3 A T) as G. rewrite map_length in G. exact G.
  Qed.
  Lemma pieces_run ps : forall pre tail words fuel s, Forall good ps -> command_follows tail words ->
    options (S (List.length (all_opts ps)) + fuel) opts handle failure (pre ++ concat (map piece_words ps) ++ tail) (mkScan (List.length pre) 1) s =
    result (all_opts ps) s (fun s => Ok (Go (s, words))).
  Proof.
    induction ps as [|p ps IH]; intros pre tail words fuel s Fg C.
    - cbn [map concat app all_opts List.length Nat.add options]. destruct (getopt_end opts pre tail words C) as (n & G & W). rewrite G. cbn [obind]. rewrite W.
      unfold result. cbn [all_opts map concat existsb fold_left]. destruct words; [destruct C; congruence|reflexivity].
    - inversion Fg as [|? ? G Fg']; subst. unfold all_opts. cbn [map concat]. rewrite <- app_assoc, result_app, app_length.
      replace (S (List.length (piece_opts p) + List.length (concat (map piece_opts ps))) + fuel)%nat with (List.length (piece_opts p) + (S (List.length (all_opts ps)) + fuel))%nat by (unfold all_opts; lia).
      rewrite piece_run by exact G. apply result_ext. intros s'. rewrite shift. apply IH; assumption.
  Qed.
  Lemma letters_count ps : (List.length (all_opts ps) <= List.length (concat (concat (map piece_words ps))))%nat.
  Proof.
    induction ps as [|p ps IH]; [apply le_n|]. unfold all_opts in *. cbn [map concat]. rewrite concat_app, !app_length.
    assert (List.length (piece_opts p) <= List.length (concat (piece_words p)))%nat; [|lia].
    destruct p as [o more|before o []]; cbn [piece_opts piece_words concat app]; rewrite ?app_nil_r; rewrite !app_length; cbn [List.length app]; rewrite ?app_length, ?map_length; cbn [List.length]; rewrite ?map_length; lia.
  Qed.
  Lemma program_run prog ps tail words : Forall good ps -> command_follows tail words ->
    let argv := prog :: concat (map piece_words ps) ++ tail in
    options (enough argv) opts handle failure argv (mkScan 1 1) initial = Ok (expected (all_opts ps) words).
  Proof.
    intros Fg C. cbv zeta. pose proof (letters_count ps) as L.
    set (rest := (List.length (concat (prog :: concat (map piece_words ps) ++ tail)) + List.length (prog :: concat (map piece_words ps) ++ tail) - List.length (all_opts ps))%nat).
    replace (enough (prog :: concat (map piece_words ps) ++ tail)) with (S (List.length (all_opts ps)) + rest)%nat.
    - pose proof (pieces_run ps [prog] tail words rest initial Fg C) as X. cbn [app List.length] in X. rewrite X. unfold result, expected. destruct (existsb is_help _); reflexivity.
    - unfold enough, rest. cbn [concat]. rewrite concat_app, !app_length. lia.
  Qed.
End Program.

(** ---- The programs ---- *)
Lemma assignment_ok k v : ~ In (letter "=") k -> assignment (k ++ str "=" ++ v) = Some (k, v).
Proof.
  intros Nk. induction k as [|c k IH]; [reflexivity|]. cbn [app assignment]. rewrite (proj2 (N.eqb_neq c _)) by (intros ->; apply Nk; left; reflexivity).
  change (k ++ str "=" ++ v) with (k ++ (str "=" ++ v)) in IH. rewrite IH; [reflexivity|]. intros H. apply Nk. right. exact H.
Qed.
Lemma threshold_ok t : threshold t = clipped (float_of_double (atof t)).
Proof.
  unfold threshold, clipped, fMIN, fMAX. generalize (float_of_double (atof t)). intros f.
  assert (E : fgt (S754_zero false) f = flt f (S754_zero false)).
  { unfold fgt, flt, fcmp. destruct f as [[]|[]| |[] m e]; try reflexivity;
    rewrite (Z.min_comm (fexp (S754_zero false))), (Z.compare_antisym (fmant (S754_finite _ m e) * _)); match goal with |- context [CompOpp ?c] => destruct c; reflexivity end. }
  rewrite E. destruct (flt f (S754_zero false)) eqn:L; [reflexivity|]. reflexivity.
Qed.
Ltac option_case H := try discriminate H; destruct H as (Ho & Hr); cbn [opt_letter opt_arg is_help effect];
  match goal with |- ?h _ _ _ = _ => unfold h end; repeat match goal with |- context [(letter ?a =? letter ?b)%N] => let v := eval vm_compute in (letter a =? letter b)%N in change (letter a =? letter b)%N with v; cbv iota end;
  unfold given; cbn [obind]; rewrite ?SocketsProofs.atoi_print, ?threshold_ok by lia; unfold set_env, set_prop; rewrite ?assignment_ok by assumption; rewrite ?Z.max_r by lia; try reflexivity.
Lemma client_handles o s : client_has o = true -> opt_ok o -> client_option (opt_letter o) (opt_arg o) s = Ok (if is_help o then Exit 0 else Go (effect o s)).
Proof. intros Hh H. destruct o; try discriminate Hh; option_case H. Qed.
Lemma test_handles o s : test_has o && negb (is_rounds o) = true -> opt_ok o -> test_option (opt_letter o) (opt_arg o) s = Ok (if is_help o then Exit 0 else Go (effect o s)).
Proof. intros Hh H. destruct o; try discriminate Hh; option_case H. Qed.
Lemma player_handles o s : player_has o && negb (is_window o) = true -> opt_ok o -> player_option (opt_letter o) (opt_arg o) s = Ok (if is_help o then Exit 0 else Go (effect o s)).
Proof. intros Hh H. destruct o; try discriminate Hh; option_case H. Qed.
Lemma client_letters o : client_has o = true -> letter_ok client_options o.
Proof. intros H. destruct o; try discriminate H; (eexists; split; [reflexivity|reflexivity]). Qed.
Lemma test_letters o : test_has o && negb (is_rounds o) = true -> letter_ok test_options o.
Proof. intros H. destruct o; try discriminate H; (eexists; split; [reflexivity|reflexivity]). Qed.
Lemma player_letters o : player_has o && negb (is_window o) = true -> letter_ok player_options o.
Proof. intros H. destruct o; try discriminate H; (eexists; split; [reflexivity|reflexivity]). Qed.
Lemma goods has ps : Forall piece_ok ps -> Forall opt_ok (all_opts ps) -> forallb has (all_opts ps) = true -> Forall (good has) ps.
Proof.
  intros Fp Fo Fh. rewrite forallb_forall in Fh. rewrite Forall_forall in *. intros p Hp. split; [auto|].
  assert (I : forall o, In o (piece_opts p) -> In o (all_opts ps)). { intros o Ho. apply in_concat. exists (piece_opts p). split; [now apply in_map|exact Ho]. }
  split; apply Forall_forall; intros o Ho; [apply Fh|apply Fo]; now apply I.
Qed.
Lemma client_options_spec prog ps tail words : Forall piece_ok ps -> Forall opt_ok (all_opts ps) -> forallb client_has (all_opts ps) = true -> command_follows tail words ->
  traxclient (prog :: concat (map piece_words ps) ++ tail) = Ok (expected (all_opts ps) words).
Proof. intros P O H C. exact (program_run _ _ _ _ client_letters client_handles prog ps tail words (goods _ ps P O H) C). Qed.
Lemma forallb_both (f g : opt -> bool) l : forallb f l = true -> existsb g l = false -> forallb (fun o => f o && negb (g o)) l = true.
Proof.
  induction l as [|x l IH]; [reflexivity|]. cbn [forallb existsb]. intros A B. apply andb_true_iff in A as [A1 A2]. apply orb_false_iff in B as [B1 B2].
  rewrite A1, B1. cbn [negb andb]. now apply IH.
Qed.
Lemma test_options_spec prog ps tail words : Forall piece_ok ps -> Forall opt_ok (all_opts ps) -> forallb test_has (all_opts ps) = true -> existsb is_rounds (all_opts ps) = false ->
  command_follows tail words -> traxtest (prog :: concat (map piece_words ps) ++ tail) = Ok (expected (all_opts ps) words).
Proof. intros P O H R C. exact (program_run _ _ _ _ test_letters test_handles prog ps tail words (goods _ ps P O (forallb_both _ _ _ H R)) C). Qed.
Lemma player_options_spec prog ps tail words : Forall piece_ok ps -> Forall opt_ok (all_opts ps) -> forallb player_has (all_opts ps) = true -> existsb is_window (all_opts ps) = false ->
  command_follows tail words -> traxplayer (prog :: concat (map piece_words ps) ++ tail) = Ok (expected (all_opts ps) words).
Proof. intros P O H R C. exact (program_run _ _ _ _ player_letters player_handles prog ps tail words (goods _ ps P O (forallb_both _ _ _ H R)) C). Qed.
Lemma put_lookup k v l k' : lookup k' (put k v l) = if list_eq_dec N.eq_dec k k' then Some v else lookup k' l.
Proof.
  induction l as [|[k1 v1] l IH]; cbn [put lookup]; [reflexivity|]. destruct (list_eq_dec N.eq_dec k1 k) as [->|N1].
  - cbn [lookup]. destruct (list_eq_dec N.eq_dec k k'); reflexivity.
  - cbn [lookup]. rewrite IH. destruct (list_eq_dec N.eq_dec k1 k') as [->|]; [|reflexivity]. destruct (list_eq_dec N.eq_dec k k'); congruence.
Qed.

(** ---- Every command line ---- *)
Definition valid (argv : list text) (n : scan) : Prop := n_sp n = 1%nat \/ exists w, nth_error argv (n_ind n) = Some w /\ (1 <= n_sp n < List.length w)%nat.
Definition remaining (argv : list text) (n : scan) : nat := (List.length (concat (skipn (n_ind n) argv)) - (n_sp n - 1))%nat.
Lemma remaining_word (argv : list text) i w : nth_error argv i = Some w -> List.length (concat (skipn i argv)) = (List.length w + List.length (concat (skipn (S i) argv)))%nat.
Proof.
  revert i. induction argv as [|a argv IH]; intros [|i] H; try discriminate H.
  - injection H as ->. cbn [skipn concat]. now rewrite app_length.
  - cbn [nth_error] in H. exact (IH i H).
Qed.
Lemma remaining_next (argv : list text) i : (List.length (concat (skipn (S i) argv)) <= List.length (concat (skipn i argv)))%nat.
Proof.
  destruct (nth_error argv i) as [w|] eqn:E; [rewrite (remaining_word argv i w E); lia|].
  apply nth_error_None in E. rewrite (skipn_all2 argv (n := S i)) by lia. cbn. lia.
Qed.
Lemma char_in (w : text) i : (i < List.length w)%nat -> exists c, char_at w i = Ok c /\ In c w.
Proof. intros H. unfold char_at. destruct (nth_error w i) as [c|] eqn:E; [exists c; split; [reflexivity|exact (nth_error_In w i E)]|]. apply nth_error_None in E. lia. Qed.
Lemma char_next (w : text) i : plain w -> (i < List.length w)%nat ->
  exists c, char_at w (S i) = Ok c /\ (if (c =? 0)%N then S i = List.length w else (S i < List.length w)%nat).
Proof.
  intros P H. destruct (Nat.eq_dec (S i) (List.length w)) as [E|E].
  - exists 0%N. rewrite E. split; [apply char_end|reflexivity].
  - destruct (char_in w (S i)) as (c & C & Ic); [lia|]. exists c. split; [exact C|]. unfold plain in P. rewrite Forall_forall in P. rewrite (proj2 (N.eqb_neq c 0) (P c Ic)). lia.
Qed.
Definition found_ok (argv : list text) (opts : text) (n : scan) (f : found) (n' : scan) : Prop :=
  match f with
  | Found c arg => valid argv n' /\ (remaining argv n' < remaining argv n)%nat /\ In c (concat argv) /\
      exists r, after c opts = Some r /\ takes_argument r = match arg with Some _ => true | None => false end
  | _ => True
  end.
Lemma getopt_total argv opts n : Forall plain argv -> valid argv n -> exists f n', getopt argv opts n = Ok (f, n') /\ found_ok argv opts n f n'.
Proof.
  intros P V. unfold getopt.
  assert (S1 : (exists n', (if Nat.eqb (n_sp n) 1 then starts argv n else Ok (true, n)) = Ok (false, n')) \/
    ((if Nat.eqb (n_sp n) 1 then starts argv n else Ok (true, n)) = Ok (true, n) /\ exists w, nth_error argv (n_ind n) = Some w /\ (1 <= n_sp n < List.length w)%nat)).
  { destruct V as [V|V].
    - rewrite V, Nat.eqb_refl. unfold starts. destruct (List.length argv <=? n_ind n)%nat eqn:L; [left; eexists; reflexivity|].
      apply Nat.leb_gt in L. destruct (nth_error argv (n_ind n)) as [w|] eqn:E; [|apply nth_error_None in E; lia]. unfold word_at. rewrite E. cbn [obind].
      assert (Pw : plain w) by (rewrite Forall_forall in P; apply P; exact (nth_error_In _ _ E)).
      destruct w as [|a w]; [left; eexists; reflexivity|]. change (char_at (a :: w) 0) with (Ok a). cbn [obind]. destruct (negb (a =? letter "-")%N); [left; eexists; reflexivity|].
      destruct w as [|b w]; [left; eexists; reflexivity|]. change (char_at (a :: b :: w) 1) with (Ok b). cbn [obind].
      destruct (b =? 0)%N; [left; eexists; reflexivity|]. match goal with |- context [if ?c then Ok (false, _) else _] => destruct c end; [left; eexists; reflexivity|].
      right. split; [reflexivity|]. eexists. split; [reflexivity|]. cbn [List.length]. lia.
    - destruct V as (w & E & L). destruct (Nat.eqb (n_sp n) 1) eqn:E1.
      + apply Nat.eqb_eq in E1. unfold starts. rewrite (proj2 (Nat.leb_gt _ _)) by (apply nth_error_Some; congruence). unfold word_at. rewrite E. cbn [obind].
        destruct w as [|a [|b w]]; cbn [List.length] in L; [lia|lia|].
        change (char_at (a :: b :: w) 0) with (Ok a). cbn [obind]. destruct (negb (a =? letter "-")%N); [left; eexists; reflexivity|].
        change (char_at (a :: b :: w) 1) with (Ok b). cbn [obind].
        destruct (b =? 0)%N; [left; eexists; reflexivity|]. match goal with |- context [if ?c then Ok (false, _) else _] => destruct c end; [left; eexists; reflexivity|].
        right. split; [reflexivity|]. eexists. split; [reflexivity|]. cbn [List.length]. lia.
      + right. split; [reflexivity|]. exists w. now split. }
  destruct S1 as [(n' & ->)|(-> & w & E & L)]; cbn [obind negb].
  { exists NoMore, n'. split; [reflexivity|exact Logic.I]. }
  assert (Pw : plain w) by (rewrite Forall_forall in P; apply P; exact (nth_error_In _ _ E)).
  assert (Iw : forall c, In c w -> In c (concat argv)) by (intros c Hc; apply in_concat; exists w; split; [exact (nth_error_In _ _ E)|exact Hc]).
  unfold word_at at 1. rewrite E. cbn [obind]. destruct (char_in w (n_sp n)) as (c & C & Ic); [lia|]. rewrite C. cbn [obind].
  rewrite (proj2 (N.eqb_neq c 0)) by (unfold plain in Pw; rewrite Forall_forall in Pw; now apply Pw).
  destruct (char_next w (n_sp n) Pw) as (d & D & Dd); [lia|]. pose proof (remaining_word argv _ w E) as R. pose proof (remaining_next argv (S (n_ind n))) as R2.
  assert (F : exists n', forward argv n = Ok n' /\ valid argv n' /\ (remaining argv n' < remaining argv n)%nat).
  { unfold forward, word_at. rewrite E. cbn [obind]. rewrite D. cbn [obind]. eexists. split; [reflexivity|]. unfold remaining. rewrite R. destruct (d =? 0)%N; cbn [n_ind n_sp].
    - split; [left; reflexivity|lia].
    - split; [right; exists w; cbn [n_ind n_sp]; split; [exact E|lia]|rewrite R; lia]. }
  destruct F as (n1 & F1 & F2 & F3).
  destruct (if (c =? letter ":")%N then None else after c opts) as [r|] eqn:A.
  - assert (A' : after c opts = Some r) by (destruct (c =? letter ":")%N; [discriminate|exact A]). destruct (takes_argument r) eqn:T.
    + unfold argument, word_at. rewrite E. cbn [obind]. rewrite D. cbn [obind]. destruct (d =? 0)%N eqn:Zd; cbn [negb].
      * destruct (List.length argv <=? S (n_ind n))%nat eqn:L2; [do 2 eexists; split; [reflexivity|exact Logic.I]|]. apply Nat.leb_gt in L2.
        destruct (nth_error argv (S (n_ind n))) as [a|] eqn:Ea; [|apply nth_error_None in Ea; lia]. cbn [obind]. do 2 eexists. split; [reflexivity|].
        split; [left; reflexivity|]. split; [unfold remaining; cbn [n_ind n_sp]; rewrite R; lia|]. split; [auto|]. exists r. now split.
      * do 2 eexists. split; [reflexivity|]. split; [left; reflexivity|]. split; [unfold remaining; cbn [n_ind n_sp]; rewrite R; lia|]. split; [auto|]. exists r. now split.
    + rewrite F1. cbn [obind]. do 2 eexists. split; [reflexivity|]. split; [exact F2|]. split; [exact F3|]. split; [auto|]. exists r. now split.
  - rewrite F1. cbn [obind]. do 2 eexists. split; [reflexivity|exact Logic.I].
Qed.
Lemma options_total argv opts handle failure : Forall plain argv ->
  (forall c r arg s, after c opts = Some r -> takes_argument r = match arg with Some _ => true | None => false end -> In c (concat argv) -> exists x, handle c arg s = Ok x) ->
  forall fuel n s, valid argv n -> (remaining argv n < fuel)%nat -> exists r, options fuel opts handle failure argv n s = Ok r.
Proof.
  intros P H fuel. induction fuel as [|fuel IH]; intros n s V R; [lia|]. cbn [options]. destruct (getopt_total argv opts n P V) as (f & n' & G & F). rewrite G. cbn [obind].
  destruct f as [| |c arg]; [eexists; reflexivity|eexists; reflexivity|]. destruct F as (V' & R' & Ic & r & A & T). destruct (H c r arg s A T Ic) as (x & X). rewrite X. cbn [obind].
  destruct x as [z|s']; [eexists; reflexivity|]. apply IH; [exact V'|lia].
Qed.
Lemma remaining_enough argv : (remaining argv (mkScan 1 1) < enough argv)%nat.
Proof. unfold remaining, enough. cbn [n_ind n_sp]. pose proof (remaining_next argv 0). change (skipn 0 argv) with argv in *. lia. Qed.
Lemma after_in c l r : after c l = Some r -> In c l.
Proof. induction l as [|x l IH]; [discriminate|]. cbn [after]. destruct (x =? c)%N eqn:E; intros H; [left; now apply N.eqb_eq|right; auto]. Qed.
Ltac each_letter A := apply after_in in A as Ain; vm_compute in Ain; repeat (destruct Ain as [<-|Ain]; [vm_compute in A; try discriminate A; injection A as <-|]); [..|now elim Ain].
Lemma client_total argv : Forall plain argv -> exists r, traxclient argv = Ok r.
Proof.
  intros P. apply options_total; [exact P| |left; reflexivity|apply remaining_enough].
  intros c r arg s A T _. each_letter A; destruct arg as [a|]; try discriminate T; (eexists; reflexivity).
Qed.
Lemma test_total argv : Forall plain argv -> ~ In (letter "I") (concat argv) -> exists r, traxtest argv = Ok r.
Proof.
  intros P N. apply options_total; [exact P| |left; reflexivity|apply remaining_enough].
  intros c r arg s A T Ic. each_letter A; destruct arg as [a|]; try discriminate T; try (eexists; reflexivity). exfalso. apply N. exact Ic.
Qed.
Lemma player_total argv : Forall plain argv -> exists r, traxplayer argv = Ok r.
Proof.
  intros P. apply options_total; [exact P| |left; reflexivity|apply remaining_enough].
  intros c r arg s A T _. each_letter A; destruct arg as [a|]; try discriminate T; (eexists; reflexivity).
Qed.

(** ---- The run of traxtest ---- *)
Definition framed (k : tracker) (frame : nat) : event := Framed (if k_multi k && Nat.eqb (Nat.modulo frame 5) 3 then 1 else 0).
Lemma frames_ok n k round : connected k -> forall frame, exists l s, test_frames n k round frame = (l, s) /\ (exists rest, map (framed k) (seq frame n) = l ++ rest) /\ s <> Stopped /\
  (s = RoundDone <-> forall i, (frame <= i < frame + n)%nat -> k_answer k round i = true /\ k_frame k round i = true) /\ (s = RoundDone -> l = map (framed k) (seq frame n)).
Proof.
  intros C. induction n as [|n IH]; intros frame; cbn [test_frames].
  - exists [], RoundDone. split; [reflexivity|]. split; [exists []; reflexivity|]. split; [discriminate|]. split; [|reflexivity]. split; [intros _ i Hi; lia|reflexivity].
  - cbn [seq map]. destruct (k_answer k round frame) eqn:A.
    + fold (framed k frame). destruct (k_frame k round frame) eqn:F.
      * destruct (IH (S frame)) as (l & s & E & (rest & R) & Ns & I1 & I2). rewrite E. exists (framed k frame :: l), s. split; [reflexivity|].
        split; [exists rest; rewrite R; reflexivity|]. split; [exact Ns|]. split.
        -- rewrite I1. split; intros H i Hi; [|apply H; lia]. destruct (Nat.eq_dec i frame) as [->|]; [now split|]. apply H. lia.
        -- intros D. now rewrite (I2 D).
      * exists [framed k frame], Thrown. split; [reflexivity|]. split; [eexists; reflexivity|]. split; [discriminate|]. split; [|discriminate].
        split; [discriminate|]. intros H. destruct (H frame) as [_ X]; [lia|congruence].
    + rewrite (C round frame A). exists [], Thrown. split; [reflexivity|]. split; [eexists; reflexivity|]. split; [discriminate|]. split; [|discriminate].
      split; [discriminate|]. intros H. destruct (H frame) as [X _]; [lia|congruence].
Qed.
Lemma frames_script k : map (framed k) (seq 0 20) = if k_multi k then concat (repeat [Framed 0; Framed 0; Framed 0; Framed 1; Framed 0] 4) else repeat (Framed 0) 20.
Proof. cbn [seq map]. unfold framed. destruct (k_multi k); reflexivity. Qed.
Lemma round_events k : round_script (k_multi k) = Initialized (if k_multi k then 3 else 1) :: map (framed k) (seq 0 20).
Proof. rewrite frames_script. unfold round_script. destruct (k_multi k); reflexivity. Qed.
Definition round_works (k : tracker) (round : nat) : Prop :=
  k_alive k round = true /\ k_initialize k round = true /\ forall frame, (frame < 20)%nat -> k_answer k round frame = true /\ k_frame k round frame = true.
Lemma rounds_ok todo k : connected k -> forall round, exists l z, test_rounds todo k round = (l, z) /\ (exists rest, script todo (k_multi k) = l ++ rest) /\ (z = 0 \/ z = 1) /\
  (z = 0 <-> forall i, (round <= i < round + todo)%nat -> round_works k i) /\ (z = 0 -> l = script todo (k_multi k)).
Proof.
  intros C. induction todo as [|todo IH]; intros round; cbn [test_rounds].
  - exists [], 0. split; [reflexivity|]. split; [exists []; reflexivity|]. split; [now left|]. split; [|reflexivity]. split; [intros _ i Hi; lia|reflexivity].
  - unfold script. cbn [repeat concat]. fold (script todo (k_multi k)).
    assert (Bad : ~ round_works k round -> forall l, (exists rest, round_script (k_multi k) = l ++ rest) ->
      exists l' z, (l, 1) = (l', z) /\ (exists rest, round_script (k_multi k) ++ script todo (k_multi k) = l' ++ rest) /\ (z = 0 \/ z = 1) /\
      (z = 0 <-> forall i, (round <= i < round + S todo)%nat -> round_works k i) /\ (z = 0 -> l' = round_script (k_multi k) ++ script todo (k_multi k))).
    { intros Nw l (rest & R). exists l, 1. split; [reflexivity|]. split; [rewrite R, <- app_assoc; eexists; reflexivity|]. split; [now right|].
      split; [|discriminate]. split; [discriminate|]. intros H. elim Nw. apply H. lia. }
    destruct (k_alive k round) eqn:Al; cbn [negb]; [|apply Bad; [intros (X & _); congruence|exists (round_script (k_multi k)); reflexivity]].
    destruct (k_initialize k round) eqn:In; cbn [negb]; [|apply Bad; [intros (_ & X & _); congruence|rewrite round_events; eexists; reflexivity]].
    destruct (frames_ok 20 k round C 0) as (l & s & E & (rest & R) & Ns & I1 & I2). rewrite E. destruct s.
    + specialize (I2 eq_refl). rewrite round_events. subst l. destruct (IH (S round)) as (l' & z & E' & (rest' & R') & Z1 & J1 & J2). rewrite E'.
      exists (Initialized (if k_multi k then 3 else 1) :: map (framed k) (seq 0 20) ++ l'), z. split; [reflexivity|].
      split; [exists rest'; rewrite R'; cbn [app]; now rewrite <- app_assoc|]. split; [exact Z1|]. split.
      * rewrite J1. split; intros H i Hi; [|apply H; lia]. destruct (Nat.eq_dec i round) as [->|]; [|apply H; lia].
        split; [exact Al|]. split; [exact In|]. intros f Hf. apply (proj1 I1 eq_refl). lia.
      * intros Z0. rewrite (J2 Z0). reflexivity.
    + congruence.
    + apply Bad; [|rewrite round_events; exists rest; rewrite R; reflexivity]. intros (_ & _ & X). assert (Thrown = RoundDone); [|discriminate].
      apply I1. intros i Hi. apply X. lia.
Qed.
Lemma image_chosen f : (exists i, choose_image f = Some i) <-> exists g, In g [TRAX_IMAGE_PATH; TRAX_IMAGE_MEMORY; TRAX_IMAGE_BUFFER] /\ Z.land f g <> 0.
Proof.
  unfold choose_image. destruct (Z.land f TRAX_IMAGE_BUFFER =? 0) eqn:A; cbn [negb].
  - destruct (Z.land f TRAX_IMAGE_MEMORY =? 0) eqn:B; cbn [negb].
    + destruct (Z.land f TRAX_IMAGE_PATH =? 0) eqn:D; cbn [negb].
      * split; [intros (i & Hi); discriminate|]. apply Z.eqb_eq in A, B, D. intros (g & [<-|[<-|[<-|[]]]] & Hg); congruence.
      * split; [|eexists; reflexivity]. intros _. exists TRAX_IMAGE_PATH. apply Z.eqb_neq in D. split; [now left|exact D].
    + split; [|eexists; reflexivity]. intros _. exists TRAX_IMAGE_MEMORY. apply Z.eqb_neq in B. split; [right; now left|exact B].
  - split; [|eexists; reflexivity]. intros _. exists TRAX_IMAGE_BUFFER. apply Z.eqb_neq in A. split; [right; right; now left|exact A].
Qed.
Lemma test_verdict rounds k : connected k -> (snd (run_test rounds k) = 0 <-> works rounds k).
Proof.
  intros C. unfold run_test, works. destruct (k_starts k); cbn [negb]; [|split; [discriminate|intros (X & _); discriminate]].
  pose proof (image_chosen (k_formats k)) as I. destruct (choose_image (k_formats k)) as [i|].
  - destruct (rounds_ok rounds k C 0) as (l & z & E & _ & _ & J & _). rewrite E. cbn [snd]. rewrite J. split.
    + intros H. split; [reflexivity|]. split; [apply I; now exists i|]. intros round Hr. apply H. lia.
    + intros (_ & _ & H) j Hj. apply H. lia.
  - split; [discriminate|]. intros (_ & X & _). apply I in X. destruct X as (i & Hi). discriminate.
Qed.
Lemma test_sends rounds k : connected k -> (exists rest, script rounds (k_multi k) = fst (run_test rounds k) ++ rest) /\
  (works rounds k -> fst (run_test rounds k) = script rounds (k_multi k)) /\ (snd (run_test rounds k) = 0 \/ snd (run_test rounds k) = 1).
Proof.
  intros C. pose proof (test_verdict rounds k C) as V. revert V. unfold run_test. destruct (k_starts k); cbn [negb].
  - destruct (choose_image (k_formats k)).
    + destruct (rounds_ok rounds k C 0) as (l & z & E & P & Z1 & _ & J). rewrite E. cbn [fst snd]. intros V. split; [exact P|]. split; [|exact Z1]. intros W. apply J. now apply V.
    + cbn [fst snd]. intros V. split; [eexists; reflexivity|]. split; [intros W; apply V in W; discriminate|now right].
  - cbn [fst snd]. intros V. split; [eexists; reflexivity|]. split; [intros W; apply V in W; discriminate|now right].
Qed.

(** ---- The player ---- *)
Lemma interactive_skip us more : undecided us -> forall c, exists c', interactive (us ++ more) c = interactive more c'.
Proof.
  induction us as [|u us IH]; intros N c; [exists c; reflexivity|]. cbn [app interactive].
  assert (N' : undecided us) by (intros H; apply N; now right). destruct u; cbn [user_does]; try apply (IH N'). exfalso. apply N. now left.
Qed.
Lemma selection before x y x' y' rest c : undecided before -> interactive (before ++ Press x y :: Release x' y' :: KeySpace :: rest) c = Some (Some (x, y, x' - x, y' - y), rest).
Proof. intros N. destruct (interactive_skip before (Press x y :: Release x' y' :: KeySpace :: rest) N c) as (c' & ->). reflexivity. Qed.
Lemma cancelled before rest c : undecided before -> interactive (before ++ KeyQ :: KeySpace :: rest) c = Some (None, rest).
Proof. intros N. destruct (interactive_skip before (KeyQ :: KeySpace :: rest) N c) as (c' & ->). reflexivity. Qed.
Lemma never_cancelled us c : undecided us -> interactive us c = None.
Proof. intros N. destruct (interactive_skip us [] N c) as (c' & E). rewrite app_nil_r in E. rewrite E. reflexivity. Qed.
Lemma never_plays frames us r : run_player frames us <> Plays r.
Proof. unfold run_player, play_first. destruct frames; [discriminate|]. destruct (interactive us _) as [[[?|] ?]|]; discriminate. Qed.
Lemma q_goes_on us c : undecided us -> interactive (us ++ [KeyQ]) c = None.
Proof. intros N. apply never_cancelled. intros H. apply in_app_or in H. destruct H as [H|[H|[]]]; [exact (N H)|discriminate H]. Qed.
Lemma left_up : exists us r rest, interactive us (mkCapture false (0, 0) None) = Some (Some r, rest) /\ let '(_, _, w, h) := r in w < 0 /\ h < 0.
Proof. exists [Press 10 10; Release 2 3; KeySpace], (10, 10, -8, -7), []. split; [reflexivity|]. split; reflexivity. Qed.
Lemma sample_player_ok : undecided [Press 3 4; KeyQ; Release 10 20] /\ run_player 5 [Press 3 4; Release 10 20; KeySpace] = Complains.
Proof. split; [|reflexivity]. intros [H|[H|[H|[]]]]; discriminate H. Qed.
Lemma unset_bytes resource i : 320 * 80 * 3 <= i < 320 * 240 * 3 -> raw_byte resource i = None.
Proof. intros H. unfold raw_byte. rewrite (proj2 (Z.ltb_ge i (320 * 240))) by lia. now rewrite andb_false_r. Qed.
Lemma sample_tests_ok : connected (sample_tracker true) /\ works 2 (sample_tracker true) /\ connected silent_tracker /\ ~ works 1 silent_tracker /\
  fst (run_test 1 silent_tracker) = [Initialized 3; Framed 0; Framed 0; Framed 0; Framed 1; Framed 0; Framed 0; Framed 0].
Proof.
  split; [intros r f H; discriminate H|]. split.
  { split; [reflexivity|]. split; [exists TRAX_IMAGE_MEMORY; split; [right; now left|vm_compute; discriminate]|]. intros r _. split; [reflexivity|]. split; [reflexivity|]. intros f _. split; reflexivity. }
  split; [intros r f H; reflexivity|]. split; [|vm_compute; reflexivity]. intros (_ & _ & W). destruct (W 0%nat) as (_ & _ & X); [lia|]. destruct (X 7%nat) as [Y _]; [lia|]. discriminate Y.
Qed.
Lemma plain_all (t : text) : forallb (fun c => negb (c =? 0)%N) t = true -> plain t.
Proof. intros H. rewrite forallb_forall in H. apply Forall_forall. intros c Hc. specialize (H c Hc). apply negb_true_iff, N.eqb_neq in H. exact H. Qed.
Lemma sample_options_ok : Forall piece_ok sample_pieces /\ Forall opt_ok (all_opts sample_pieces) /\ forallb client_has (all_opts sample_pieces) = true /\
  command_follows [str "--"; str "-x"] [str "-x"] /\ existsb is_help (all_opts sample_pieces) = false /\
  forallb (fun o => test_has o && negb (is_rounds o) && player_has o && negb (is_window o)) (all_opts sample_test_pieces) = true.
Proof.
  split.
  { unfold sample_pieces.
    apply Forall_cons; [apply Forall_cons; [reflexivity|apply Forall_cons; [reflexivity|apply Forall_nil]]|].
    apply Forall_cons; [split; [apply Forall_nil|split; discriminate]|].
    apply Forall_cons; [split; [apply Forall_cons; [reflexivity|apply Forall_nil]|split; discriminate]|].
    apply Forall_cons; [split; [apply Forall_nil|split; discriminate]|].
    apply Forall_cons; [split; [apply Forall_nil|split; discriminate]|].
    apply Forall_cons; [split; [apply Forall_nil|split; discriminate]|]. apply Forall_nil. }
  split.
  { unfold sample_pieces, all_opts. cbn [map piece_opts concat app].
    repeat (apply Forall_cons; [split; [intros a Ha; cbn [opt_arg] in Ha; try discriminate Ha; injection Ha as <-; apply plain_all; vm_compute; reflexivity
                                       |first [exact Logic.I|lia|(intros H; vm_compute in H; repeat (destruct H as [H|H]; [discriminate H|]); exact H)]]|]). apply Forall_nil. }
  split; [reflexivity|]. split; [split; [discriminate|left; reflexivity]|]. split; reflexivity.
Qed.
