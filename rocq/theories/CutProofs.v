From Coq Require Import Lia.
From Verif Require Import CBase StrMap Props PropsSpec StrMapProofs PropsProofs Message MessageSpec MessageProofs MessageApi CutSpec.

Lemma feeds_end s x s1 : feeds s x s1 -> exists lg, run x s = (fst (fst (run [] s1)), snd (fst (run [] s1)), lg).
Proof.
  intros F. specialize (F []). rewrite app_nil_r in F. rewrite F. destruct (run [] s1) as [[a b] lg]. eexists. reflexivity.
Qed.

(** A prefix of a concatenation ends in the first or in the second list. *)
Lemma split_prefix {A} (a b x y : list A) : a ++ b = x ++ y ->
  (exists x', x = a ++ x' /\ b = x' ++ y) \/ (exists y', a = x ++ y' /\ y' <> [] /\ y = y' ++ b).
Proof.
  revert x. induction a as [|c a IH]; intros x E.
  - left. exists x. split; [reflexivity|exact E].
  - destruct x as [|d x].
    + right. exists (c :: a). cbn [app] in *. split; [reflexivity|]. split; [discriminate|]. now symmetry.
    + cbn [app] in E. injection E as -> E. destruct (IH x E) as [(x' & -> & Eb)|(y' & -> & Hy & Ey)].
      * left. exists x'. split; [reflexivity|exact Eb].
      * right. exists y'. split; [reflexivity|]. split; [exact Hy|exact Ey].
Qed.

Lemma esc_char_cut c x y : esc_char c = x ++ y -> y <> [] -> x = [] \/ x = [92].
Proof.
  unfold esc_char. destruct (c =? 34); [|destruct (c =? 92); [|destruct (c =? 10)]]; intros E Hy;
    (destruct x as [|d x]; [now left|]); cbn [app] in E; injection E as <- E;
    try (destruct x; [|discriminate E]; cbn [app] in E; congruence).
  all: destruct x as [|e x]; [now right|]; cbn [app] in E; injection E as <- E; destruct x; [|discriminate E]; cbn [app] in E; congruence.
Qed.

(** A cut inside a quoted text without a key before it *)
Lemma cut_key t v A S a : forall k x y, text_ok a = true -> no_hit k a -> esc a = x ++ y ->
  exists k' ps, feeds (mkReader t false PQuotedKey k v A S) x (mkReader t false ps k' v A S) /\
    (ps = PQuotedKey \/ (ps = PQuotedEscapeKey /\ exists s, x = s ++ [92])).
Proof.
  induction a as [|c a IH]; intros k x y Ht Hn E.
  - destruct x; [|discriminate E]. exists k, PQuotedKey. split; [apply feeds_nil|now left].
  - change (esc (c :: a)) with (esc_char c ++ esc a) in E. cbn in Ht. apply andb_true_iff in Ht as [Hc Ht]. destruct Hn as [Hh Hn].
    destruct (split_prefix _ _ _ _ E) as [(x' & -> & E')|(y' & E' & Hy & _)].
    + destruct (IH (k ++ [c]) x' y Ht Hn E') as (k' & ps & F & Hp). exists k', ps. split.
      * eapply feeds_app; [|exact F]. now apply quoted_key_char.
      * destruct Hp as [Hp|[Hp [s ->]]]; [now left|]. right. split; [exact Hp|]. exists (esc_char c ++ s). now rewrite app_assoc.
    + destruct (esc_char_cut _ _ _ E' Hy) as [->| ->].
      * exists k, PQuotedKey. split; [apply feeds_nil|now left].
      * exists k, PQuotedEscapeKey. split; [apply feeds_one_eq; reflexivity|]. right. split; [reflexivity|]. exists []. reflexivity.
Qed.

Lemma cut_value t k A S a : forall v x y, text_ok a = true -> esc a = x ++ y ->
  exists v' ps, feeds (mkReader t false PQuotedValue k v A S) x (mkReader t false ps k v' A S) /\
    (ps = PQuotedValue \/ (ps = PQuotedEscapeValue /\ exists s, x = s ++ [92])).
Proof.
  induction a as [|c a IH]; intros v x y Ht E.
  - destruct x; [|discriminate E]. exists v, PQuotedValue. split; [apply feeds_nil|now left].
  - change (esc (c :: a)) with (esc_char c ++ esc a) in E. cbn in Ht. apply andb_true_iff in Ht as [Hc Ht].
    destruct (split_prefix _ _ _ _ E) as [(x' & -> & E')|(y' & E' & Hy & _)].
    + destruct (IH (v ++ [c]) x' y Ht E') as (k' & ps & F & Hp). exists k', ps. split.
      * eapply feeds_app; [|exact F]. now apply quoted_value_char.
      * destruct Hp as [Hp|[Hp [s ->]]]; [now left|]. right. split; [exact Hp|]. exists (esc_char c ++ s). now rewrite app_assoc.
    + destruct (esc_char_cut _ _ _ E' Hy) as [->| ->].
      * exists v, PQuotedValue. split; [apply feeds_nil|now left].
      * exists v, PQuotedEscapeValue. split; [apply feeds_one_eq; reflexivity|]. right. split; [reflexivity|]. exists []. reflexivity.
Qed.

(** ---- Parts ---- *)
Definition part : Type := list N + list N * list N.
Definition part_wire (p : part) : list N := match p with inl a => wire_arg a | inr kv => wire_prop kv end.
Definition part_ok (p : part) : bool := match p with inl a => arg_ok a | inr kv => kv_ok kv end.
Definition part_args (p : part) : list (list N) := match p with inl a => [a] | inr _ => [] end.
Definition part_sets (p : part) : list (list N * list N) := match p with inl _ => [] | inr kv => [kv] end.

Lemma feeds_part t k v A S p : part_ok p = true ->
  exists k' v', feeds (mkReader (Some t) false PSpace k v A S) (part_wire p)
                      (mkReader (Some t) false PSpace k' v' (A ++ part_args p) (S ++ part_sets p)).
Proof.
  destruct p as [a|kv]; cbn [part_ok part_wire part_args part_sets]; intros H; rewrite app_nil_r; [now apply feeds_arg|now apply feeds_prop].
Qed.

Definition quiet (ps : pstate) : Prop := ps = PSpace \/ ps = PQuotedKey \/ ps = PQuotedValue.
Definition escaping (ps : pstate) : Prop := ps = PQuotedEscapeKey \/ ps = PQuotedEscapeValue.

(** The state after a proper prefix of a part *)
Definition cut_state (t : mtype) (A : list (list N)) (S : list (list N * list N)) (p : part) (x : list N) (s : reader) : Prop :=
  exists ps k v A' S', s = mkReader (Some t) false ps k v A' S' /\
    ((quiet ps /\ A' = A /\ S' = S /\ (List.length x + 1 < List.length (part_wire p))%nat) \/
     (escaping ps /\ exists x', x = x' ++ [92]) \/
     (ps = PSpaceExpect /\ A' = A ++ part_args p /\ S' = S ++ part_sets p /\ (List.length x + 1 = List.length (part_wire p))%nat)).

Lemma last_two {A} (a b : A) x y : [a; b] = x ++ y -> y <> [] -> x = [] \/ x = [a].
Proof.
  intros E Hy. destruct x as [|c x]; [now left|]. cbn [app] in E. injection E as <- E. destruct x as [|d x]; [now right|].
  cbn [app] in E. injection E as <- E. destruct x; [|discriminate E]. cbn [app] in E. congruence.
Qed.

Lemma cut_arg t k v A S a x y : arg_ok a = true -> wire_arg a = x ++ y -> y <> [] ->
  exists s, feeds (mkReader (Some t) false PSpace k v A S) x s /\ cut_state t A S (inl a) x s.
Proof.
  intros Ha E Hy. destruct (arg_ok_no_hit a Ha) as [Ht Hn].
  assert (L : List.length (wire_arg a) = (1 + (List.length (esc a) + 2))%nat) by (unfold wire_arg; rewrite !app_length; reflexivity).
  destruct x as [|q x].
  { eexists. split; [apply feeds_nil|]. exists PSpace, k, v, A, S. split; [reflexivity|]. left. split; [now left|]. split; [reflexivity|]. split; [reflexivity|].
    cbn [part_wire]. rewrite L. cbn [List.length]. lia. }
  unfold wire_arg in E. cbn [app] in E. injection E as <- E.
  assert (F0 : feeds (mkReader (Some t) false PSpace k v A S) [34] (mkReader (Some t) false PQuotedKey [] [] A S)) by (apply feeds_one_eq; reflexivity).
  destruct (split_prefix _ _ _ _ E) as [(x' & -> & E')|(y' & E' & Hy' & _)].
  - assert (F1 := quoted_key (Some t) [] A S a [] Ht Hn). cbn [app] in F1.
    assert (F2 := feeds_app _ _ _ _ _ F0 F1).
    destruct (last_two _ _ _ _ E' Hy) as [->| ->].
    + rewrite app_nil_r. eexists. split; [exact F2|]. exists PQuotedKey, a, [], A, S. split; [reflexivity|]. left. split; [right; now left|].
      split; [reflexivity|]. split; [reflexivity|]. cbn [part_wire]. rewrite L. cbn [List.length]. lia.
    + eexists. split.
      * change (34 :: esc a ++ [34]) with ([34] ++ esc a ++ [34]). rewrite app_assoc. eapply feeds_app; [exact F2|].
        apply feeds_one_eq; reflexivity.
      * exists PSpaceExpect, a, [], (A ++ [a]), S. split.
        -- transitivity (mkReader (Some t) false PSpaceExpect a [] (A ++ [c_string a]) S); [reflexivity|].
           rewrite (text_ok_c_string a Ht). reflexivity.
        -- right. right. split; [reflexivity|]. cbn [part_args part_sets part_wire]. rewrite app_nil_r. split; [reflexivity|]. split; [reflexivity|].
           rewrite L. cbn [List.length]. rewrite app_length. cbn [List.length]. lia.
  - destruct (cut_key (Some t) [] A S a [] x y' Ht Hn E') as (k' & ps & F & Hp).
    assert (Lx : (List.length x <= List.length (esc a))%nat) by (rewrite E', app_length; lia).
    eexists. split; [exact (feeds_app _ [34] _ x _ F0 F)|]. exists ps, k', [], A, S. split; [reflexivity|].
    destruct Hp as [->|[-> [s ->]]].
    + left. split; [right; now left|]. split; [reflexivity|]. split; [reflexivity|]. cbn [part_wire]. rewrite L. cbn [List.length]. lia.
    + right. left. split; [now left|]. exists (34 :: s). reflexivity.
Qed.

Lemma cut_prop t k v A S kv x y : kv_ok kv = true -> wire_prop kv = x ++ y -> y <> [] ->
  exists s, feeds (mkReader (Some t) false PSpace k v A S) x s /\ cut_state t A S (inr kv) x s.
Proof.
  destruct kv as [key val]. unfold kv_ok. cbn [fst snd]. intros H E Hy. apply andb_true_iff in H as [Hk Hv].
  assert (L : List.length (wire_prop (key, val)) = (1 + (List.length key + (1 + (List.length (esc val) + 2))))%nat)
    by (unfold wire_prop; cbn [fst snd]; rewrite !app_length; reflexivity).
  destruct x as [|q x].
  { eexists. split; [apply feeds_nil|]. exists PSpace, k, v, A, S. split; [reflexivity|]. left. split; [now left|]. split; [reflexivity|]. split; [reflexivity|].
    cbn [part_wire]. rewrite L. cbn [List.length]. lia. }
  unfold wire_prop in E. cbn [app fst snd] in E. injection E as <- E.
  assert (F0 : feeds (mkReader (Some t) false PSpace k v A S) [34] (mkReader (Some t) false PQuotedKey [] [] A S)) by (apply feeds_one_eq; reflexivity).
  assert (Kc : forallb is_key_char key = true) by (apply valid_key_chars; now rewrite <- key_ok_valid).
  assert (Kt := key_ok_text key Hk). assert (Kn := key_no_hit key [] Kc). assert (Ke := esc_key key Kc).
  destruct (split_prefix _ _ _ _ E) as [(x' & -> & E')|(y' & E' & Hy' & _)].
  2:{ rewrite <- Ke in E'. destruct (cut_key (Some t) [] A S key [] x y' Kt Kn E') as (k' & ps & F & Hp).
      assert (Lx : (List.length x <= List.length key)%nat) by (rewrite Ke in E'; rewrite E', app_length; lia).
      eexists. split; [exact (feeds_app _ [34] _ x _ F0 F)|]. exists ps, k', [], A, S. split; [reflexivity|].
      destruct Hp as [->|[-> [s ->]]].
      - left. split; [right; now left|]. split; [reflexivity|]. split; [reflexivity|]. cbn [part_wire]. rewrite L. cbn [List.length]. lia.
      - right. left. split; [now left|]. exists (34 :: s). reflexivity. }
  assert (F1 := quoted_key (Some t) [] A S key [] Kt Kn). cbn [app] in F1. rewrite Ke in F1.
  assert (F2 := feeds_app _ _ _ _ _ F0 F1). cbn [app] in F2.
  destruct x' as [|q x'].
  { rewrite app_nil_r. eexists. split; [exact F2|]. exists PQuotedKey, key, [], A, S. split; [reflexivity|]. left. split; [right; now left|].
    split; [reflexivity|]. split; [reflexivity|]. cbn [part_wire]. rewrite L. cbn [List.length]. lia. }
  cbn [app] in E'. injection E' as <- E'.
  assert (F3 : feeds (mkReader (Some t) false PSpace k v A S) ((34 :: key) ++ [61]) (mkReader (Some t) false PQuotedValue key [] A S)).
  { eapply feeds_app; [exact F2|]. apply feeds_one_eq; [reflexivity|reflexivity|]. unfold step. cbn [rd_state rd_key].
    change (61 =? c_bsl) with false. change (61 =? c_quote) with false. change (61 =? c_eq) with true. cbv iota.
    rewrite <- key_ok_valid, Hk. reflexivity. }
  replace (34 :: key ++ 61 :: x') with (((34 :: key) ++ [61]) ++ x') by (rewrite <- app_assoc; reflexivity).
  assert (L3 : List.length (((34 :: key) ++ [61]) ++ x') = (List.length key + 2 + List.length x')%nat)
    by (rewrite !app_length; cbn [List.length]; lia).
  destruct (split_prefix _ _ _ _ E') as [(x2 & -> & E2)|(y2 & E2 & Hy2 & _)].
  - assert (F4 := quoted_value (Some t) key A S val [] Hv). cbn [app] in F4.
    assert (F5 := feeds_app _ _ _ _ _ F3 F4).
    destruct (last_two _ _ _ _ E2 Hy) as [->| ->].
    + rewrite app_nil_r in *. eexists. split; [exact F5|]. exists PQuotedValue, key, val, A, S. split; [reflexivity|]. left. split; [right; now right|].
      split; [reflexivity|]. split; [reflexivity|]. cbn [part_wire]. rewrite L. rewrite !app_length. cbn [List.length]. lia.
    + eexists. split.
      * rewrite app_assoc. eapply feeds_app; [exact F5|]. apply feeds_one_eq; reflexivity.
      * exists PSpaceExpect, [], [], A, (S ++ [(key, val)]). split.
        -- transitivity (mkReader (Some t) false PSpaceExpect [] [] A (S ++ [(c_string key, c_string val)])); [reflexivity|].
           rewrite (text_ok_c_string val Hv), (text_ok_c_string key Kt). reflexivity.
        -- right. right. split; [reflexivity|]. cbn [part_args part_sets part_wire]. rewrite app_nil_r. split; [reflexivity|]. split; [reflexivity|].
           rewrite L, !app_length. cbn [List.length]. lia.
  - destruct (cut_value (Some t) key A S val [] x' y2 Hv E2) as (v' & ps & F & Hp).
    assert (Lx : (List.length x' <= List.length (esc val))%nat) by (rewrite E2, app_length; lia).
    eexists. split; [exact (feeds_app _ _ _ x' _ F3 F)|]. exists ps, key, v', A, S. split; [reflexivity|].
    destruct Hp as [->|[-> [s ->]]].
    + left. split; [right; now right|]. split; [reflexivity|]. split; [reflexivity|]. cbn [part_wire]. rewrite L, L3. lia.
    + right. left. split; [now right|]. exists (((34 :: key) ++ [61]) ++ s). now rewrite app_assoc.
Qed.

Lemma cut_part t k v A S p x y : part_ok p = true -> part_wire p = x ++ y -> y <> [] ->
  exists s, feeds (mkReader (Some t) false PSpace k v A S) x s /\ cut_state t A S p x s.
Proof. destruct p; [apply cut_arg|apply cut_prop]. Qed.

(** The end of the stream in such a state *)
Lemma end_quiet t ps k v A S : quiet ps -> exists s, run [] (mkReader (Some t) false ps k v A S) = (s, [], [c_nl]) /\ rd_type s = Some t /\ rd_args s = A /\ rd_sets s = S.
Proof. intros [->|[->| ->]]; eexists; (split; [reflexivity|]); repeat split. Qed.
Lemma end_expect t k v A S : exists s, run [] (mkReader (Some t) false PSpaceExpect k v A S) = (s, [], [c_nl]) /\ rd_type s = Some t /\ rd_args s = A /\ rd_sets s = S.
Proof. eexists. split; [reflexivity|]. repeat split. Qed.
Lemma end_escaping t ps k v A S : escaping ps -> exists s, run [] (mkReader (Some t) false ps k v A S) = (s, [], [c_nl]) /\ rd_type s = None.
Proof. intros [->| ->]; eexists; (split; [reflexivity|]); reflexivity. Qed.

(** The result of a read that ends in the parts of a message *)
Definition cut_result (t : mtype) (A : list (list N)) (S : list (list N * list N)) (ps : list part) (x : list N) (s : reader) : Prop :=
  (rd_type s = None /\ exists x', x = x' ++ [92]) \/
  (rd_type s = Some t /\ exists n, (n <= List.length ps)%nat /\
    rd_args s = A ++ flat_map part_args (firstn n ps) /\ rd_sets s = S ++ flat_map part_sets (firstn n ps) /\
    (List.length (flat_map part_wire (firstn n ps)) <= Datatypes.S (List.length x))%nat /\
    ((n < List.length ps)%nat -> (Datatypes.S (List.length x) < List.length (flat_map part_wire (firstn (Datatypes.S n) ps)))%nat)).

Lemma part_wire_some p : (1 <= List.length (part_wire p))%nat.
Proof. destruct p; cbn [part_wire]; unfold wire_arg, wire_prop; cbn [app List.length]; lia. Qed.

Lemma cut_parts t ps : forall k v A S x y, forallb part_ok ps = true -> flat_map part_wire ps ++ [10] = x ++ y -> y <> [] ->
  exists s lg, run x (mkReader (Some t) false PSpace k v A S) = (s, [], lg) /\ cut_result t A S ps x s.
Proof.
  induction ps as [|p ps IH]; intros k v A S x y Hp E Hy.
  - cbn [flat_map app] in E. destruct x as [|c x]; [|exfalso; cbn [app] in E; injection E as _ E; destruct x; [|discriminate E]; cbn [app] in E; congruence].
    destruct (end_quiet t PSpace k v A S (or_introl eq_refl)) as (s & Er & H1 & H2 & H3). exists s, [c_nl]. split; [exact Er|].
    right. split; [exact H1|]. exists O. cbn. rewrite !app_nil_r. split; [lia|]. split; [exact H2|]. split; [exact H3|]. split; lia.
  - cbn [forallb] in Hp. apply andb_true_iff in Hp as [Hp Hps]. cbn [flat_map] in E. rewrite <- app_assoc in E.
    destruct (split_prefix _ _ _ _ E) as [(x' & -> & E')|(y' & E' & Hy' & _)].
    + destruct (feeds_part t k v A S p Hp) as (k' & v' & F).
      destruct (IH k' v' (A ++ part_args p) (S ++ part_sets p) x' y Hps E' Hy) as (s & lg & Er & H).
      rewrite (F x'), Er. exists s, (part_wire p ++ lg). split; [reflexivity|].
      destruct H as [[H1 [x2 ->]]|(H1 & n & Hn & H2 & H3 & H4 & H5)].
      * left. split; [exact H1|]. exists (part_wire p ++ x2). now rewrite app_assoc.
      * right. split; [exact H1|]. exists (Datatypes.S n). rewrite !firstn_cons. cbn [flat_map List.length].
        rewrite H2, H3, <- !app_assoc. split; [lia|]. split; [reflexivity|]. split; [reflexivity|]. rewrite !app_length. split; [lia|].
        intros Hl. specialize (H5 ltac:(lia)). lia.
    + destruct (cut_part t k v A S p x y' Hp E' Hy') as (s1 & F & ps1 & k1 & v1 & A1 & S1 & -> & H).
      destruct (feeds_end _ _ _ F) as [lg Er]. rewrite Er.
      destruct H as [(Hq & -> & -> & Hl)|[(Hq & Hx)|(-> & -> & -> & Hl)]].
      * destruct (end_quiet t ps1 k1 v1 A S Hq) as (s & -> & H1 & H2 & H3). cbn [fst snd]. exists s, lg. split; [reflexivity|].
        right. split; [exact H1|]. exists O. rewrite firstn_cons. cbn [firstn flat_map]. rewrite !app_nil_r. split; [lia|]. split; [exact H2|]. split; [exact H3|].
        cbn [List.length]. split; lia.
      * destruct (end_escaping t ps1 k1 v1 A1 S1 Hq) as (s & -> & H1). cbn [fst snd]. exists s, lg. split; [reflexivity|]. left. split; [exact H1|exact Hx].
      * destruct (end_expect t k1 v1 (A ++ part_args p) (S ++ part_sets p)) as (s & -> & H1 & H2 & H3). cbn [fst snd]. exists s, lg. split; [reflexivity|].
        right. split; [exact H1|]. exists 1%nat. rewrite !firstn_cons. cbn [firstn flat_map]. rewrite !app_nil_r. cbn [List.length]. split; [lia|]. split; [exact H2|]. split; [exact H3|].
        split; [lia|]. intros Hn. destruct ps as [|p2 ps]; [cbn in Hn; lia|]. cbn [firstn flat_map]. rewrite app_nil_r, app_length. pose proof (part_wire_some p2). lia.
Qed.

(** ---- The header ---- *)
Definition header_result (t0 : option mtype) (t : mtype) (k : nat) (s : reader) : Prop :=
  ((k < 7)%nat /\ rd_type s = t0 /\ rd_args s = [] /\ rd_sets s = []) \/
  ((7 <= k)%nat /\ ((k < 7 + List.length (type_name t))%nat \/ (t0 = None /\ k = 7 + List.length (type_name t))%nat) /\ rd_type s = None) \/
  (k = 7 + List.length (type_name t))%nat /\ rd_type s = Some t /\ rd_args s = [] /\ rd_sets s = [].

(** The same, computed: the type is [None], [t] or the one before, and nothing else was read *)
Definition type_is (a b : option mtype) : bool :=
  match a, b with
  | None, None => true
  | Some MHello, Some MHello | Some MInitialize, Some MInitialize | Some MFrame, Some MFrame | Some MQuit, Some MQuit | Some MState, Some MState => true
  | _, _ => false
  end.
Definition nothing (s : reader) : bool := match rd_args s, rd_sets s with [], [] => true | _, _ => false end.
Definition header_check (t0 : option mtype) (t : mtype) (k : nat) : bool :=
  let '(s, r, _) := run (firstn k (header t)) (reader_start t0) in
  match r with
  | [] =>
      if Nat.ltb k 7 then type_is (rd_type s) t0 && nothing s
      else if Nat.ltb k (7 + List.length (type_name t)) then type_is (rd_type s) None
      else match t0 with None => type_is (rd_type s) None | Some _ => type_is (rd_type s) (Some t) && nothing s end
  | _ => false
  end.
Definition all_types : list (option mtype) := [None; Some MHello; Some MInitialize; Some MFrame; Some MQuit; Some MState].
Definition header_checks (t : mtype) : bool :=
  forallb (fun t0 => forallb (header_check t0 t) (seq 0 (List.length (header t)))) all_types.
Lemma headers_checked t : header_checks t = true.
Proof. destruct t; vm_compute; reflexivity. Qed.
Lemma type_is_eq a b : type_is a b = true -> a = b.
Proof. destruct a as [[]|], b as [[]|]; cbn; congruence. Qed.
Lemma nothing_eq s : nothing s = true -> rd_args s = [] /\ rd_sets s = [].
Proof. unfold nothing. destruct (rd_args s), (rd_sets s); intros H; try discriminate H. split; reflexivity. Qed.

Lemma header_cut t0 t k : (k < List.length (header t))%nat ->
  exists s lg, run (firstn k (header t)) (reader_start t0) = (s, [], lg) /\ header_result t0 t k s.
Proof.
  intros H. pose proof (headers_checked t) as C. unfold header_checks in C. rewrite forallb_forall in C.
  assert (T : In t0 all_types) by (destruct t0 as [[]|]; cbn; tauto).
  specialize (C t0 T). rewrite forallb_forall in C. specialize (C k ltac:(apply in_seq; lia)).
  unfold header_check in C. destruct (run (firstn k (header t)) (reader_start t0)) as [[s r] lg]. destruct r; [|discriminate C].
  exists s, lg. split; [reflexivity|]. unfold header_result.
  assert (L : List.length (header t) = (8 + List.length (type_name t))%nat) by (unfold header; rewrite !app_length; cbn; lia).
  destruct (Nat.ltb k 7) eqn:E1.
  - apply andb_true_iff in C as [C1 C2]. apply type_is_eq in C1. apply nothing_eq in C2. left. split; [now apply Nat.ltb_lt|]. split; assumption.
  - apply Nat.ltb_ge in E1. destruct (Nat.ltb k (7 + List.length (type_name t))) eqn:E2.
    + apply Nat.ltb_lt in E2. apply type_is_eq in C. right. left. split; [exact E1|]. split; [now left|exact C].
    + apply Nat.ltb_ge in E2. destruct t0 as [t0|].
      * apply andb_true_iff in C as [C1 C2]. apply type_is_eq in C1. apply nothing_eq in C2. right. right. split; [lia|]. split; assumption.
      * apply type_is_eq in C. right. left. split; [exact E1|]. split; [right; split; [reflexivity|lia]|exact C].
Qed.

(** ---- A message ---- *)
Definition parts (args : list (list N)) (kvs : list (list N * list N)) : list part := map inl args ++ map inr kvs.
Lemma parts_wire args kvs : flat_map part_wire (parts args kvs) = flat_map wire_arg args ++ flat_map wire_prop kvs.
Proof.
  unfold parts. rewrite flat_map_app. f_equal.
  - induction args as [|a l IH]; [reflexivity|]. cbn [map flat_map]. now rewrite IH.
  - induction kvs as [|a l IH]; [reflexivity|]. cbn [map flat_map]. now rewrite IH.
Qed.
Lemma parts_ok args kvs : forallb arg_ok args = true -> forallb kv_ok kvs = true -> forallb part_ok (parts args kvs) = true.
Proof.
  intros Ha Hk. unfold parts. rewrite forallb_app. apply andb_true_iff. split; apply forallb_forall; intros p Hp; apply in_map_iff in Hp as (a & <- & Hi); cbn [part_ok].
  - rewrite forallb_forall in Ha. now apply Ha.
  - rewrite forallb_forall in Hk. now apply Hk.
Qed.
Lemma parts_length args kvs : List.length (parts args kvs) = (List.length args + List.length kvs)%nat.
Proof. unfold parts. now rewrite app_length, !map_length. Qed.
Lemma parts_args args kvs n : flat_map part_args (firstn n (parts args kvs)) = firstn n args.
Proof.
  revert n. induction args as [|a l IH]; intros n.
  - unfold parts. cbn [map app]. rewrite firstn_nil. revert n. induction kvs as [|kv kvs IH]; intros [|n]; try reflexivity. cbn [map]. rewrite firstn_cons. cbn [flat_map part_args app]. apply IH.
  - destruct n as [|n]; [reflexivity|]. unfold parts in *. cbn [map app]. rewrite !firstn_cons. cbn [flat_map part_args app]. now rewrite IH.
Qed.
Lemma parts_sets args kvs n : flat_map part_sets (firstn n (parts args kvs)) = firstn (n - List.length args) kvs.
Proof.
  revert n. induction args as [|a l IH]; intros n.
  - unfold parts. cbn [map app List.length]. rewrite Nat.sub_0_r. revert n. induction kvs as [|kv kvs IH]; intros [|n]; try reflexivity. cbn [map]. rewrite !firstn_cons. cbn [flat_map part_sets app]. now rewrite IH.
  - destruct n as [|n]; [reflexivity|]. unfold parts in *. cbn [map app List.length Nat.sub]. rewrite firstn_cons. cbn [flat_map part_sets app]. apply IH.
Qed.
Lemma parts_texts args kvs n : flat_map part_wire (firstn n (parts args kvs)) = concat (firstn n (part_texts args kvs)).
Proof.
  rewrite flat_map_concat_map, <- firstn_map. f_equal. f_equal. unfold parts, part_texts. rewrite map_app, !map_map. reflexivity.
Qed.

Lemma nodup_firstn {A} n (l : list A) : NoDup l -> NoDup (firstn n l).
Proof. intros H. rewrite <- (firstn_skipn n l) in H. revert H. generalize (skipn n l) as b. generalize (firstn n l) as a. induction a as [|x a IH]; intros b H; [constructor|].
  cbn [app] in H. inversion_clear H as [|? ? Hn Hd]. constructor; [intros Hi; apply Hn, in_or_app; now left|now apply (IH b)]. Qed.

Lemma set_exactly l : NoDup (map fst l) -> exists d, enum_into props_set l props_create = Ok d /\ sm_ok d /\ has_exactly d l.
Proof.
  intros Hn. destruct (props_set_all l Hn props_create props_create_ok) as (d & Ed & Hd & Hl).
  exists d. split; [exact Ed|]. split; [exact Hd|]. intros k. exists (pm_assoc l k). split.
  - rewrite props_get_spec by exact Hd. rewrite Hl. unfold over. destruct (pm_assoc l k); [reflexivity|]. unfold props_create. now rewrite sm_new_lookup.
  - intros v. clear Ed Hl. induction l as [|[k' v'] l IH]; [cbn; split; [discriminate|contradiction]|].
    cbn [map] in Hn. inversion_clear Hn as [|? ? Hi Hn']. rewrite pm_assoc_cons. cbn [In]. destruct (bytes_eqb k' k) eqn:E.
    + apply bytes_eqb_eq in E. subst k'. split.
      * intros [= ->]. now left.
      * intros [[= ->]|Hk]; [reflexivity|]. exfalso. apply Hi. cbn [fst]. apply in_map_iff. exists (k, v). split; [reflexivity|exact Hk].
    + rewrite IH by exact Hn'. split; [now right|]. intros [[= -> ->]|Hk]; [|exact Hk]. rewrite (proj2 (bytes_eqb_eq k k) eq_refl) in E. discriminate E.
Qed.

Lemma read_props_ok t st r : read_message t st props_create = Ok r -> sm_ok (rr_props r).
Proof.
  unfold read_message. destruct (read_loop _ _ _ _) as [[[s st'] lg]| | |]; try discriminate. cbn [obind].
  destruct (props_set_any (rd_sets s) props_create props_create_ok) as (d & E & Hd). rewrite E. cbn [obind]. intros [= <-]. exact Hd.
Qed.

Lemma cut_message t0 m kvs x y st : forallb arg_ok (m_args m) = true -> forallb kv_ok kvs = true -> NoDup (map fst kvs) ->
  wire (m_type m) (m_args m) kvs = x ++ y -> y <> [] -> delivers st -> stream_bytes st = x ->
  exists r, read_message t0 st props_create = Ok r /\ cut_read t0 m kvs x r /\ delivers (rr_stream r) /\ stream_bytes (rr_stream r) = [].
Proof.
  intros Ha Hk Hn E Hy Hd Hb. destruct (read_message_run t0 st props_create Hd) as (st' & Hd' & Er & Hst').
  rewrite Hb in Er, Hst'. remember (m_type m) as t eqn:Et. remember (m_args m) as args eqn:Eargs.
  assert (W : wire t args kvs = header t ++ flat_map part_wire (parts args kvs) ++ [10]).
  { unfold wire, header. rewrite parts_wire, <- !app_assoc. reflexivity. }
  rewrite W in E. assert (Lh : List.length (header t) = (8 + List.length (type_name t))%nat) by (unfold header; rewrite !app_length; cbn; lia).
  destruct (split_prefix _ _ _ _ E) as [(x' & -> & E')|(y' & E' & Hy' & _)].
  - pose proof (feeds_header t0 t [] []) as F. specialize (F x').
    change (str "@@TRAX:" ++ type_name t ++ [32]) with (header t) in F. change (mkReader t0 false (PPrefix 0) [] [] [] []) with (reader_start t0) in F.
    destruct (cut_parts t (parts args kvs) [] [] [] [] x' y (parts_ok _ _ Ha Hk) E' Hy) as (s & lg & Ers & H).
    rewrite Ers in F. rewrite F in Er, Hst'. cbn [fst snd] in Er, Hst'. destruct H as [[H1 [x2 ->]]|(H1 & n & Hl & H2 & H3 & H4 & H5)].
    + destruct (props_set_any (rd_sets s) props_create props_create_ok) as (d & Ed & _). rewrite Ed in Er. cbn [obind] in Er.
      eexists. split; [exact Er|]. split; [|split; [exact Hd'|exact Hst']]. apply CutEscape; [|exact H1]. exists (header t ++ x2). now rewrite app_assoc.
    + rewrite parts_args in H2. rewrite parts_sets in H3. cbn [app] in H2, H3. rewrite !parts_texts in H4, H5. rewrite parts_length in Hl, H5.
      destruct (set_exactly (firstn (n - List.length args) kvs)) as (d & Ed & _ & Hx).
      { rewrite <- firstn_map. now apply nodup_firstn. }
      rewrite H3, Ed in Er. cbn [obind] in Er. eexists. split; [exact Er|]. split; [|split; [exact Hd'|exact Hst']].
      apply (CutParts _ _ _ _ _ n); rewrite <- ?Et, <- ?Eargs; cbn [rr_type rr_args rr_props]; [|exact H1|exact H2|exact Hx].
      unfold complete_parts, up_to. rewrite app_length. split; [exact Hl|]. split; [lia|]. intros Hlt. specialize (H5 Hlt). lia.
  - assert (Ex : x = firstn (List.length x) (header t)) by (rewrite E', firstn_app, Nat.sub_diag, firstn_all; cbn [firstn]; now rewrite app_nil_r).
    assert (Lx : (List.length x < List.length (header t))%nat) by (rewrite E', app_length; destruct y'; [congruence|]; cbn [List.length]; lia).
    destruct (header_cut t0 t _ Lx) as (s & lg & Ers & H). rewrite <- Ex in Ers. rewrite Ers in Er, Hst'. cbn [fst snd] in Er, Hst'.
    destruct H as [(H1 & H2 & H3 & H4)|[(H1 & H2 & H3)|(H1 & H2 & H3 & H4)]].
    + rewrite H4 in Er. cbn [enum_into obind] in Er. eexists. split; [exact Er|]. split; [|split; [exact Hd'|exact Hst']].
      apply CutPrefix; [exact H1|exact H2|exact H3|]. cbn [rr_props]. destruct (set_exactly [] ltac:(constructor)) as (d & Ed & _ & Hx). cbn in Ed. injection Ed as <-. exact Hx.
    + destruct (props_set_any (rd_sets s) props_create props_create_ok) as (d & Ed & _). rewrite Ed in Er. cbn [obind] in Er.
      eexists. split; [exact Er|]. split; [|split; [exact Hd'|exact Hst']]. apply CutName; rewrite <- ?Et; [exact H1|exact H2|exact H3].
    + rewrite H4 in Er. cbn [enum_into obind] in Er. eexists. split; [exact Er|]. split; [|split; [exact Hd'|exact Hst']].
      apply (CutParts _ _ _ _ _ O); rewrite <- ?Et, <- ?Eargs; cbn [rr_type rr_args rr_props firstn Nat.sub]; [|exact H2|exact H3|].
      * unfold complete_parts, up_to. cbn [firstn concat List.length]. split; [lia|]. split; [lia|]. intros Hlt.
        destruct (part_texts args kvs) as [|p l] eqn:Ep.
        { exfalso. apply (f_equal (@List.length _)) in Ep. unfold part_texts in Ep. rewrite app_length, !map_length in Ep. cbn in Ep. lia. }
        cbn [firstn concat]. rewrite app_length. assert (Hp : (1 <= List.length p)%nat).
        { assert (Hi : In p (part_texts args kvs)) by (rewrite Ep; now left). unfold part_texts in Hi. apply in_app_or in Hi as [Hi|Hi]; apply in_map_iff in Hi as (a & <- & _); [apply (part_wire_some (inl a))|apply (part_wire_some (inr a))]. }
        lia.
      * destruct (set_exactly [] ltac:(constructor)) as (d & Ed & _ & Hx). cbn in Ed. injection Ed as <-. exact Hx.
Qed.

(** ---- After a history ---- *)
Lemma read_many_snoc n : forall t st rs st', read_many n t st = Ok (rs, st') ->
  read_many (S n) t st = (r <- read_message (last (map rr_type rs) t) st' props_create ;; Ok (rs ++ [r], rr_stream r)).
Proof.
  induction n as [|n IH]; intros t st rs st' E.
  - inversion E; subst. cbn [read_many map last]. destruct (read_message t st' props_create); reflexivity.
  - cbn [read_many] in E. destruct (read_message t st props_create) as [r| | |] eqn:Er; try discriminate.
    cbn [obind] in E. destruct (read_many n (rr_type r) (rr_stream r)) as [[rs1 st1]| | |] eqn:En; try discriminate.
    inversion E; subst. cbn [fst snd].
    change (read_many (S (S n)) t st) with
      (r <- read_message t st props_create ;; rest <- read_many (S n) (rr_type r) (rr_stream r) ;;
       Ok (r :: fst rest, snd rest)).
    rewrite Er. cbn [obind]. rewrite (IH _ _ _ _ En).
    replace (last (map rr_type (r :: rs1)) t) with (last (map rr_type rs1) (rr_type r)).
    + destruct (read_message (last (map rr_type rs1) (rr_type r)) st' props_create); reflexivity.
    + clear. destruct rs1 as [|r1 rs1]; [reflexivity|]. cbn [map]. revert r1 r t.
      induction rs1 as [|r2 rs1 IH]; intros r1 r t; [reflexivity|].
      cbn [map] in *. cbn [last] in *. apply (IH r2 r t).
Qed.
Lemma types_received rs ms : Forall2 receives rs ms -> map rr_type rs = map (fun m => Some (m_type m)) ms.
Proof. induction 1 as [|r m rs ms (H & _) _ IH]; [reflexivity|]. cbn [map]. now rewrite H, IH. Qed.

Lemma cut_history ms m sched : Forall msg_ok ms -> msg_ok m -> no_error sched ->
  exists before after kvs, send_all (mkO sched [] []) ms = Ok before /\ send before m = Ok after /\
    enumerates kvs (pm_run (m_hist m)) /\
    forall t st seen lost, o_bytes after = o_bytes before ++ seen ++ lost -> lost <> [] -> delivers st -> stream_bytes st = o_bytes before ++ seen ->
    exists rs r st', read_many (S (List.length ms)) t st = Ok (rs ++ [r], st') /\ Forall2 receives rs ms /\ cut_read (last_type t ms) m kvs seen r.
Proof.
  intros Hms Hm Hs. destruct (sequence_round_trip ms sched Hms Hs) as (o & Eo & H).
  destruct (send_all_bytes ms) as (bytes & _ & Hb). destruct (Hb (mkO sched [] []) Hs) as (o1 & Eo1 & Hno & _). rewrite Eo in Eo1. injection Eo1 as <-.
  destruct (send_wire o m Hno) as (p & o' & Ep & En & Es & _ & Hbytes & _).
  exists o, o', (props_enum p). split; [exact Eo|]. split; [exact Es|]. split; [exact En|].
  intros t st seen lost Ec Hl Hd Hst. rewrite Hbytes in Ec. apply app_inv_head in Ec.
  destruct (H t st seen Hd Hst) as (rs & st' & Er & HF & Hb' & Hd').
  destruct (cut_message (last_type t ms) m (props_enum p) seen lost st' (proj1 Hm) (msg_kvs m p Ep Hm) (proj1 En) Ec Hl Hd' Hb') as (r & Em & Hc & _).
  exists rs, r, (rr_stream r). split; [|split; [exact HF|exact Hc]].
  rewrite (read_many_snoc _ _ _ _ _ Er), (types_received _ _ HF). unfold last_type in Em. rewrite Em. reflexivity.
Qed.

(** Cut after the header, a message with arguments is taken for the same message without any. *)
Lemma cut_accepted m sched t : msg_ok m -> no_error sched -> m_args m <> [] ->
  exists o seen lost, send (mkO sched [] []) m = Ok o /\ o_bytes o = seen ++ lost /\ lost <> [] /\
    forall st, delivers st -> stream_bytes st = seen -> exists r, read_message t st props_create = Ok r /\ rr_type r = Some (m_type m) /\ rr_args r = [] /\
      stream_bytes (rr_stream r) = [] /\ delivers (rr_stream r).
Proof.
  intros Hm Hs Ha. destruct (send_wire (mkO sched [] []) m Hs) as (p & o & Ep & En & Es & _ & Hb & _). cbn [o_bytes app] in Hb.
  assert (W : wire (m_type m) (m_args m) (props_enum p) = header (m_type m) ++ flat_map part_wire (parts (m_args m) (props_enum p)) ++ [10]).
  { unfold wire, header. rewrite parts_wire, <- !app_assoc. reflexivity. }
  assert (Hl : flat_map part_wire (parts (m_args m) (props_enum p)) ++ [10] <> []) by (intros X; apply app_eq_nil in X as [_ X]; discriminate X).
  exists o, (header (m_type m)), (flat_map part_wire (parts (m_args m) (props_enum p)) ++ [10]). split; [exact Es|]. split; [now rewrite Hb, W|].
  split; [exact Hl|].
  intros st Hd Hst. destruct (cut_message t m (props_enum p) _ _ st (proj1 Hm) (msg_kvs m p Ep Hm) (proj1 En) W Hl Hd Hst) as (r & Er & C & Dr & Sr).
  exists r. split; [exact Er|].
  assert (Lh : List.length (header (m_type m)) = (8 + List.length (type_name (m_type m)))%nat) by (unfold header; rewrite !app_length; cbn; lia).
  destruct C as [C1 _ _ _|C1 C2 _|[s C1] _|n (_ & C1 & _) C2 C3 _].
  - exfalso. lia.
  - exfalso. lia.
  - exfalso. unfold header in C1. rewrite app_assoc in C1. apply app_inj_tail in C1 as [_ C1]. discriminate C1.
  - split; [exact C2|]. split; [|split; [exact Sr|exact Dr]]. rewrite C3. destruct n as [|n]; [reflexivity|]. exfalso. unfold up_to in C1. destruct (m_args m) as [|a args]; [congruence|].
    unfold part_texts in C1. cbn [map app] in C1. rewrite firstn_cons in C1. cbn [concat] in C1. rewrite app_length in C1.
    assert (3 <= List.length (wire_arg a))%nat by (unfold wire_arg; rewrite !app_length; cbn [List.length]; lia). lia.
Qed.
