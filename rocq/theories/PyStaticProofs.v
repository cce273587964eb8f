(** Proofs for C126: the stationary tracker written in Python *)
From Verif Require Import CBase StrMap StrMapProofs Props PropsSpec PropsProofs Message MessageSpec MessageProofs MessageApi Num NumSpec Region RegionSpec RegionProofs Image ImageSpec Formats
  Handle SessionSpec ListsSpec HandleProofs SessionProofs HistorySpec HistoryProofs HandshakeProofs SendableProofs NoisySpec NoisyProofs StaticSpec StaticProofs
  PyText PyTextSpec PyTextProofs PySession PySessionSpec PySessionProofs PyStatic PyStaticSpec.
Local Open Scope Z_scope.

(** ---- numbers ---- *)

Lemma digit_dec c : digit c = dec c. Proof. reflexivity. Qed.
Lemma lstrip_plain t : (forall c, In c t -> blank c = false) -> lstrip t = t.
Proof. destruct t as [|c t]; [reflexivity|]. intros H. cbn [lstrip]. now rewrite (H c (or_introl eq_refl)). Qed.
Lemma strip_plain t : (forall c, In c t -> blank c = false) -> strip t = t.
Proof. intros H. unfold strip. rewrite (lstrip_plain t H), lstrip_plain; [apply rev_involutive|]. intros c Hc. apply H. now apply in_rev. Qed.
Lemma underscores_plain t : (forall c, In c t -> (c =? 95)%N = false) -> forall b, underscores b t = Some t.
Proof.
  induction t as [|c t IH]; intros H b; [reflexivity|]. cbn [underscores]. rewrite (H c (or_introl eq_refl)), IH; [reflexivity|]. intros d Hd. apply H. now right.
Qed.
Lemma skip_digits_app d t : all dec d -> begins_digit t = false -> skip_digits (d ++ t) = t.
Proof.
  induction d as [|c d IH]; intros Hd Ht; cbn [app].
  - destruct t as [|c t]; [reflexivity|]. cbn [begins_digit skip_digits] in *. now rewrite Ht.
  - cbn [skip_digits]. rewrite (Hd c (or_introl eq_refl) : digit c = true). apply IH; [|exact Ht]. intros x Hx. apply Hd. now right.
Qed.
Lemma begins_app d t : all dec d -> d <> [] -> begins_digit (d ++ t) = true.
Proof. destruct d as [|c d]; [congruence|]. intros H _. exact (H c (or_introl eq_refl)). Qed.
Lemma skip_sign_app s t : sign_text s -> (match t with c :: _ => ((c =? 43) || (c =? 45))%N | [] => false end = false) -> skip_sign (s ++ t) = t.
Proof.
  intros [->|[->| ->]] H; try reflexivity. cbn [app]. destruct t as [|c t]; [reflexivity|]. cbn [skip_sign]. now rewrite H.
Qed.
Lemma dec_not_sign c : dec c = true -> ((c =? 43) || (c =? 45))%N = false.
Proof. unfold dec. lia. Qed.
Lemma exponent_ok e : exponent_text 101 69 e -> exponent e = true /\ begins_digit e = false /\ (match e with c :: _ => (c =? 46)%N | [] => false end = false).
Proof.
  intros [->|(m & s & d & Hm & Hs & Hd & Nd & ->)]; [split; [reflexivity|split; reflexivity]|].
  assert (E : skip_sign (s ++ d) = d).
  { apply skip_sign_app; [exact Hs|]. destruct d as [|c d]; [reflexivity|]. apply dec_not_sign. apply Hd. now left. }
  cbn [app exponent begins_digit]. rewrite E. rewrite <- (app_nil_r d), (begins_app d [] Hd Nd), (skip_digits_app d [] Hd eq_refl).
  destruct Hm as [->| ->]; split; [reflexivity|split; reflexivity|reflexivity|split; reflexivity].
Qed.
Lemma decimal_ok b : decimal_text b -> decimal b = true.
Proof.
  intros (m & e & (i & f & Hi & Hf & Ne & Hm) & He & ->). destruct (exponent_ok e He) as (E1 & E2 & E3). unfold decimal.
  destruct Hm as [->|(-> & ->)].
  - rewrite <- !app_assoc. cbn [app]. rewrite (skip_digits_app i _ Hi) by reflexivity. change (46 =? 46)%N with true. cbv iota.
    rewrite (skip_digits_app f _ Hf E2), E1, andb_true_r. destruct i as [|c i].
    + cbn [app] in *. now rewrite (begins_app f e Hf Ne), orb_true_r.
    + now rewrite (begins_app (c :: i) _ Hi) by discriminate.
  - rewrite app_nil_r in Ne. rewrite (skip_digits_app i e Hi E2), (begins_app i e Hi Ne). destruct e as [|c e]; [reflexivity|]. rewrite E3. exact E1.
Qed.

(** The characters of numbers *)
Definition num_chars : list N := (str "+-._0123456789eEiInNfFtTyYaA" ++ [32; 9; 10; 11; 12; 13])%N.
Definition common (c : N) : Prop := In c num_chars.
Definition commonb (c : N) : bool := existsb (N.eqb c) num_chars.
Lemma commonb_ok c : commonb c = true <-> common c.
Proof. unfold commonb, common. rewrite existsb_exists. split; [intros (x & H & E)|intros H; exists c; split; [exact H|apply N.eqb_refl]]. apply N.eqb_eq in E. now subst. Qed.
Lemma dec_common c : dec c = true -> common c.
Proof.
  intros H. apply commonb_ok. unfold dec in H. assert (X : In c [48;49;50;51;52;53;54;55;56;57]%N). { cbn [In]. lia. }
  cbn [In] in X. repeat (destruct X as [X|X]; [subst c; reflexivity|]). destruct X.
Qed.
Lemma blank_common c : blank c = true -> common c.
Proof.
  intros H. apply commonb_ok. unfold blank in H. assert (X : In c [32;9;10;11;12;13]%N). { cbn [In]. lia. }
  cbn [In] in X. repeat (destruct X as [X|X]; [subst c; reflexivity|]). destruct X.
Qed.
Lemma lstrip_common t : Forall common (lstrip t) -> Forall common t.
Proof. induction t as [|c t IH]; cbn [lstrip]; [auto|]. destruct (blank c) eqn:B; [|auto]. intros H. constructor; [now apply blank_common|auto]. Qed.
Lemma rev_common t : Forall common (rev t) -> Forall common t.
Proof. rewrite !Forall_forall. intros H c Hc. apply H. now apply in_rev in Hc. Qed.
Lemma strip_common t : Forall common (strip t) -> Forall common t.
Proof. unfold strip. intros H. apply lstrip_common, rev_common, lstrip_common, rev_common. exact H. Qed.
Lemma underscores_common t : forall b t', underscores b t = Some t' -> Forall common t' -> Forall common t.
Proof.
  induction t as [|c t IH]; intros b t'; cbn [underscores]; [intros; constructor|]. destruct (c =? 95)%N eqn:E.
  - destruct (_ && _); [|discriminate]. intros H F. constructor; [|exact (IH _ _ H F)]. apply N.eqb_eq in E. subst c. apply commonb_ok. reflexivity.
  - destruct (underscores (digit c) t) as [x|] eqn:U; [|discriminate]. cbn [option_map]. intros H F. injection H as <-. inversion F; subst. constructor; [assumption|].
    exact (IH _ _ U ltac:(assumption)).
Qed.
Lemma skip_digits_common t : Forall common (skip_digits t) -> Forall common t.
Proof. induction t as [|c t IH]; cbn [skip_digits]; [auto|]. destruct (digit c) eqn:B; [|auto]. intros H. constructor; [now apply dec_common|auto]. Qed.
Lemma skip_sign_common t : Forall common (skip_sign t) -> Forall common t.
Proof.
  destruct t as [|c t]; cbn [skip_sign]; [auto|]. destruct ((c =? 43) || (c =? 45))%N eqn:B; [|auto]. intros H. constructor; [|exact H].
  apply commonb_ok. apply orb_true_iff in B as [B|B]; apply N.eqb_eq in B; subst c; reflexivity.
Qed.
Lemma exponent_common t : exponent t = true -> Forall common t.
Proof.
  destruct t as [|c e]; [constructor|]. cbn [exponent]. intros H. apply andb_true_iff in H as [H H3]. apply andb_true_iff in H as [H1 H2].
  constructor; [apply commonb_ok; apply orb_true_iff in H1 as [H1|H1]; apply N.eqb_eq in H1; subst c; reflexivity|].
  apply skip_sign_common, skip_digits_common. destruct (skip_digits (skip_sign e)); [constructor|discriminate].
Qed.
Lemma decimal_common t : decimal t = true -> Forall common t.
Proof.
  unfold decimal. intros H. apply skip_digits_common. destruct (skip_digits t) as [|c f]; [constructor|]. destruct (c =? 46)%N eqn:E.
  - apply andb_true_iff in H as [_ H]. apply N.eqb_eq in E. subst c. constructor; [apply commonb_ok; reflexivity|]. apply skip_digits_common. now apply exponent_common.
  - apply andb_true_iff in H as [_ H]. now apply exponent_common.
Qed.
Lemma lower_common c x : to_lower c = x -> In x (str "infinity") \/ In x (str "nan") -> common c.
Proof.
  intros E H. apply commonb_ok. assert (X : c = x \/ (65 <= c <= 90)%N /\ (c = x - 32)%N).
  { unfold to_lower in E. destruct (is_upper c) eqn:B; [right|left; exact E]. unfold is_upper in B. lia. }
  assert (Y : In x (str "infinity" ++ str "nan")) by (apply in_or_app; exact H).
  clear E H. vm_compute in Y. repeat (destruct Y as [Y|Y]; [subst x; destruct X as [->|[_ ->]]; reflexivity|]). destruct Y.
Qed.
Lemma word_common t : word t = true -> Forall common t.
Proof.
  unfold word. intros H. assert (X : forall x, In x (map to_lower t) -> In x (str "infinity") \/ In x (str "nan")).
  { apply orb_true_iff in H as [H|H]; [apply orb_true_iff in H as [H|H]|]; apply bytes_eqb_eq in H; rewrite H; intros x Hx; [left|left; exact Hx|right; exact Hx].
    cbn in Hx |- *. tauto. }
  apply Forall_forall. intros c Hc. apply (lower_common c (to_lower c) eq_refl). apply X. now apply in_map.
Qed.
Lemma number_common t : is_number t = true -> Forall common t.
Proof.
  unfold is_number. intros H. apply strip_common. destruct (underscores false (strip t)) as [t'|] eqn:U; [|discriminate].
  apply (underscores_common _ _ _ U). apply skip_sign_common. apply orb_true_iff in H as [H|H]; [now apply decimal_common|now apply word_common].
Qed.
Lemma foreign_number t : foreign_text t -> is_number t = false.
Proof.
  intros (c & Hc & F). destruct (is_number t) eqn:E; [|reflexivity]. exfalso. apply F. apply number_common in E. rewrite Forall_forall in E. exact (E c Hc).
Qed.

Lemma sign_all (P : N -> Prop) s : sign_text s -> P 43%N -> P 45%N -> forall c, In c s -> P c.
Proof. intros [->|[->| ->]] A B c; cbn [In]; intros H; [destruct H|destruct H as [<-|[]]; exact A|destruct H as [<-|[]]; exact B]. Qed.
Lemma decimal_all (P : N -> Prop) b : decimal_text b -> (forall c, dec c = true -> P c) -> P 43%N -> P 45%N -> P 46%N -> P 101%N -> P 69%N -> forall c, In c b -> P c.
Proof.
  intros (m & e & (i & f & Hi & Hf & _ & Hm) & He & ->) D A B C E F c Hc. apply in_app_or in Hc as [Hc|Hc].
  - destruct Hm as [->|(-> & ->)]; [|apply D; now apply Hi]. apply in_app_or in Hc as [Hc|Hc]; [apply D; now apply Hi|]. destruct Hc as [<-|Hc]; [exact C|]. apply D. now apply Hf.
  - destruct He as [->|(x & s & d & Hx & Hs & Hd & _ & ->)]; [destruct Hc|]. destruct Hc as [<-|Hc]; [destruct Hx as [->| ->]; assumption|]. cbn [app] in Hc.
    apply in_app_or in Hc as [Hc|Hc]; [exact (sign_all P s Hs A B c Hc)|]. apply D. now apply Hd.
Qed.
Lemma decimal_head b : decimal_text b -> match b with c :: _ => ((c =? 43) || (c =? 45))%N | [] => false end = false.
Proof.
  intros (m & e & (i & f & Hi & Hf & Ne & Hm) & He & ->). destruct i as [|c i].
  - cbn [app] in *. destruct Hm as [->|(-> & ->)]; [reflexivity|congruence].
  - assert (X : dec c = true) by (apply Hi; now left). destruct Hm as [->|(-> & ->)]; cbn [app]; now apply dec_not_sign.
Qed.
Lemma written_is_number t : written_number t -> is_number t = true.
Proof.
  intros (s & b & Hs & Hb & ->). unfold is_number.
  assert (X : forall P : N -> Prop, (forall c, dec c = true -> P c) -> P 43%N -> P 45%N -> P 46%N -> P 101%N -> P 69%N -> forall c, In c (s ++ b) -> P c).
  { intros P D A B C E F c Hc. apply in_app_or in Hc as [Hc|Hc]; [exact (sign_all P s Hs A B c Hc)|exact (decimal_all P b Hb D A B C E F c Hc)]. }
  rewrite strip_plain by (apply X; try reflexivity; intros c; unfold dec, blank; lia).
  rewrite underscores_plain by (apply X; try reflexivity; intros c; unfold dec; lia).
  rewrite (skip_sign_app s b Hs (decimal_head b Hb)), (decimal_ok b Hb). reflexivity.
Qed.

(** ---- the text of the error ---- *)
Lemma hex_char n : (n < 16)%N -> text_char (hex_digit n) = true.
Proof. intros H. unfold hex_digit, text_char. destruct (n <? 10)%N eqn:B; lia. Qed.
Lemma repr_char_ok quote c : text_char c = true -> text_ok (repr_char quote c) = true.
Proof.
  intros H. unfold repr_char. destruct ((c =? quote) || (c =? 92))%N; [cbn [text_ok forallb]; now rewrite H|].
  destruct (c =? 9)%N; [reflexivity|]. destruct (c =? 10)%N; [reflexivity|]. destruct (c =? 13)%N; [reflexivity|].
  destruct ((c <? 32) || (c =? 127))%N; [|cbn [text_ok forallb]; now rewrite H].
  assert (A : text_char (hex_digit (c / 16)) = true). { apply hex_char. unfold text_char in H. apply N.div_lt_upper_bound; lia. }
  assert (B : text_char (hex_digit (c mod 16)) = true). { apply hex_char. apply N.mod_lt. lia. }
  unfold text_ok. rewrite forallb_app. cbn [forallb]. rewrite A, B. reflexivity.
Qed.
Lemma repr_ok t : text_ok t = true -> text_ok (not_a_number t) = true.
Proof.
  intros H. unfold not_a_number, repr. set (quote := if existsb (N.eqb 39) t && negb (existsb (N.eqb 34) t) then 34%N else 39%N).
  assert (Q : text_char quote = true) by (unfold quote; destruct (existsb (N.eqb 39) t && negb (existsb (N.eqb 34) t)); reflexivity). clearbody quote.
  unfold text_ok in *. rewrite forallb_app. change (forallb text_char (str "could not convert string to float: ")) with true. cbn [andb forallb]. rewrite Q. cbn [andb].
  rewrite forallb_app. cbn [forallb]. rewrite Q, !andb_true_r. induction t as [|c t IH]; [reflexivity|]. cbn [flat_map forallb] in *. apply andb_true_iff in H as [H1 H2].
  rewrite forallb_app, IH by exact H2. rewrite andb_true_r. exact (repr_char_ok quote c H1).
Qed.

(** ---- rounds ---- *)
Lemma arrives_whole r r' : region_arrives r r' -> whole r'.
Proof.
  intros (t & _ & Ep & Hs). pose proof (parsed_mask_full t r' Ep) as Hf. destruct r' as [code|x y w h|pts|x y w h data]; try exact Logic.I.
  cbn [solid mask_full whole] in *. destruct Hs as (Hw & Hh), Hf as (Hi & Hl). split; [exact Hw|]. split; [exact Hh|]. split; [exact Hi|]. lia.
Qed.
Lemma steady_whole r : steady r -> whole r.
Proof. destruct 1; cbn [whole]; auto. split; [assumption|]. split; [assumption|]. split; [assumption|]. lia. Qed.
Lemma same_dict_sendable d d' : sendable_dict d -> same_dict d d' -> sendable_dict d'.
Proof. intros [N0 H] [N1 S0]. split; [exact N1|]. intros k v I0. apply H. now apply S0. Qed.
Lemma same_dict_trans a b c : same_dict a b -> same_dict b c -> same_dict a c.
Proof. intros [_ A] [N1 B]. split; [exact N1|]. intros k v. now rewrite B, A. Qed.

(** What the program keeps of the object *)
Definition kept (x y : region * dict) : Prop := steady (fst x) /\ sendable_dict (snd x) /\ object_reaches x y.
Lemma kept_given x y : kept x y -> state_given y.
Proof.
  intros (S0 & D & (A & Sd)). destruct (steady_twice _ S0) as (r1 & r2 & A1 & A2 & _). rewrite <- (arrives_once _ _ _ A A1) in A2.
  split; [exact (arrives_whole _ _ A)|]. split; [now exists r2|]. exact (same_dict_sendable _ _ D Sd).
Qed.
Lemma kept_stays x y z : kept x y -> object_reaches y z -> dict_object_stays x z.
Proof.
  intros (S0 & D & (A & Sd)) (A' & Sd'). destruct (steady_twice _ S0) as (r1 & r2 & A1 & A2 & St). rewrite <- (arrives_once _ _ _ A A1) in A2.
  rewrite <- (arrives_once _ _ _ A' A2) in St. split; [exact St|]. exact (same_dict_trans _ _ _ Sd Sd').
Qed.
Definition remembers (o : option (region * dict)) (t : pystatic) : Prop :=
  match o with None => True | Some x => exists y, py_objects t = Some [y] /\ kept x y end.
Definition count (o : option (region * dict)) : nat := match o with None => 0%nat | Some _ => 1%nat end.

Definition as_pround (q : pyask) (reply : list (region * dict)) : pround :=
  mkPround (pa_init q) (pa_images q) (asked_objects q) (pa_props q) reply (pa_cut1 q) (pa_cut2 q).
Lemma ask_pround slack cfg o q reply : pyask_given slack cfg o q -> Forall state_given reply -> List.length reply = 1%nat ->
  pround_ok slack cfg (count o) (as_pround q reply) /\ ptracked (count o) (as_pround q reply) = 1%nat /\ count (tracked_object o q) = 1%nat.
Proof.
  intros (C1 & C2 & Ta & Nd & Im & Ob & Pr) F L. unfold pround_ok, tracked_object. cbn [as_pround pr_init pr_images pr_objects pr_props pr_reply pr_cut1 pr_cut2].
  assert (T : ptracked (count o) (as_pround q reply) = 1%nat).
  { unfold ptracked, count. cbn [as_pround pr_init pr_objects]. unfold asked_objects. destruct (pa_object q) as [[r d]|]; cbn [List.length].
    - destruct Ob as (_ & _ & _ & [->| ->]); [reflexivity|]. destruct (pa_init q); reflexivity.
    - destruct Ob as (-> & Ho). destruct o; [reflexivity|congruence]. }
  rewrite T. split; [|split; [reflexivity|]].
  - refine (conj C1 (conj C2 (conj Nd (conj Im (conj _ (conj Pr (conj _ (conj (le_n 1) (conj (fun _ => le_n 1) (conj L F)))))))))).
    + unfold asked_objects. destruct (pa_object q) as [[r d]|]; [|constructor]. destruct Ob as (S0 & K & D & _). constructor; [|constructor].
      destruct (steady_twice r S0) as (r1 & r2 & A1 & _). split; [split; [exact (steady_whole r S0)|split; [exists r1; exact A1|exact D]]|].
      split; [|exact K]. destruct S0; cbn [fst region_kind]; discriminate.
    + intros Hi. unfold asked_objects. destruct (pa_object q) as [[r d]|]; [discriminate|]. destruct Ob as (Hf & _). congruence.
  - destruct (pa_object q) as [[r d]|]; [reflexivity|]. destruct Ob as (_ & Ho). destruct o; [reflexivity|congruence].
Qed.
Lemma pplay_parts legacy slack c s r c' s' sn : play_pround legacy slack c s r = Ok (Some (c', s', sn)) ->
  exists c1 s1, client_send legacy (pr_init r) c (pr_images r) (Some (given_objects (pr_objects r))) (DDict (pr_props r)) = Ok (inl tt, c1) /\
    server_wait (3 + List.length (pr_objects r)) slack (arrive (pr_cut1 r) (written c c1) s) = Ok (inl (ps_request sn), s1) /\
    server_status s1 (given_objects (pr_reply r)) DNone = Ok (inl tt, s') /\
    client_receive (arrive (pr_cut2 r) (written s1 s') c1) = Ok (Objects (ps_answer sn), c').
Proof.
  unfold play_pround. intros E.
  destruct (client_send _ _ _ _ _ _) as [[[[]|e] c1]| | |]; try discriminate. cbn [obind] in E.
  destruct (server_wait _ _ _) as [[[rq|e] s1]| | |] eqn:W; try discriminate. cbn [obind] in E.
  destruct (server_status _ _ _) as [[[[]|e] s2]| | |] eqn:R; try discriminate. cbn [obind] in E.
  destruct (client_receive _) as [[[l|re|e] c2]| | |] eqn:X; try discriminate. cbn [obind] in E. injection E as <- <- <-.
  exists c1, s1. cbn [ps_request ps_answer]. auto.
Qed.

(** The quiet client and the one that hears the lines of the tracker *)
Lemma send_alike legacy init c c' images objects d : alike c c' ->
  same_result (client_send legacy init c images objects d) (client_send legacy init c' images objects d).
Proof.
  intros H. unfold client_send. destruct (send_arguments objects d) as [[[ol p]|e]| | |]; cbn [obind]; try exact Logic.I; [|split; [reflexivity|exact H]].
  assert (X : same_result (if init then client_initialize legacy c (wrap_images images) ol (Some p) else client_frame legacy c (wrap_images images) (Some ol) (Some p))
                          (if init then client_initialize legacy c' (wrap_images images) ol (Some p) else client_frame legacy c' (wrap_images images) (Some ol) (Some p))).
  { destruct init.
    - exact (sends_alike (fun h => client_initialize legacy h (wrap_images images) ol (Some p)) (fun t st k => initialize_moved legacy t st k _ _ _) c c' H).
    - exact (sends_alike (fun h => client_frame legacy h (wrap_images images) (Some ol) (Some p)) (fun t st k => frame_moved legacy t st k _ _ _) c c' H). }
  destruct (if init then client_initialize legacy c _ _ _ else _) as [[code c1]| | |], (if init then client_initialize legacy c' _ _ _ else _) as [[code' c1']| | |];
    cbn [same_result] in X; try (now destruct X); cbn [obind]; try exact Logic.I. destruct X as (-> & X). cbn [fst snd same_result]. now split.
Qed.
Lemma receive_alike c c' : alike c c' -> same_result (client_receive c) (client_receive c').
Proof.
  intros H. pose proof (wait_alike c c' (Some props_create) H) as X. unfold client_receive.
  destruct (client_wait c (Some props_create)) as [[[[st c2] res] q]| | |], (client_wait c' (Some props_create)) as [[[[st' c2'] res'] q']| | |];
    cbn in X; try (now destruct X); cbn [obind]; try exact Logic.I. destruct X as (Y & H3). injection Y as -> -> ->.
  destruct (st =? TRAX_ERROR); [split; [reflexivity|exact H3]|]. destruct (st =? TRAX_QUIT).
  - destruct q as [p|]; [|exact Logic.I]. destruct (properties_get p (str "trax.reason") None) as [[r|e]| | |]; cbn [obind]; try exact Logic.I; split; [reflexivity|exact H3|reflexivity|exact H3].
  - destruct res as [ol|]; [|exact Logic.I]. destruct (wrap_object_list ol); cbn [obind]; try exact Logic.I. split; [reflexivity|exact H3].
Qed.
Lemma alike_written c c' k k' : alike c c' -> alike k k' -> written c' k' = written c k.
Proof. intros (? & ? & -> & _) (? & ? & -> & _). reflexivity. Qed.
Lemma status_sends h l h' : no_error (o_sched (h_out h)) -> Forall state_given l -> server_status h (given_objects l) DNone = Ok (inl tt, h') ->
  exists ms, Forall message_ok ms /\ written h h' = flat_map message_bytes ms.
Proof.
  intros Ho F E. destruct (wrap_objects_ok l F) as (ol & Eo & W). unfold server_status, status_arguments in E.
  unfold properties_init, ret, pbind, properties_reference in E. cbn [obind] in E. rewrite Eo in E. unfold ret in E. cbn [obind] in E.
  destruct (server_reply_mot h ol) as [[code h1]| | |] eqn:R; try discriminate. cbn [obind fst snd] in E.
  destruct (code =? TRAX_ERROR); [discriminate|]. injection E as <-.
  destruct (reply_messages h ol code h1 Ho (wrapped_sendable l ol F W) R) as (ms & A & B & _). exists ms. auto.
Qed.
Definition time_of (d : dict) : text := match latest d (str "time_wait") with Some t => t | None => str "0" end.
Lemma get_time p d : sendable_dict d -> carries p d -> properties_get p (str "time_wait") (Some (str "0")) = ret (Some (time_of d)).
Proof.
  intros D [_ Hh]. unfold time_of. rewrite (holds_get p d (sendable_plain d D) Hh) by (apply plain_7bit; reflexivity). now destruct (latest d (str "time_wait")).
Qed.
Lemma seen_request slack cfg o q reply sn : pseen_ok slack cfg (count o) (as_pround q reply) sn -> pyask_given slack cfg o q ->
  match pa_object q with
  | Some x => has_type (ps_request sn) (str "initialize") = true /\ exists y, rq_objects (ps_request sn) = Some [y] /\ kept x y
  | None => has_type (ps_request sn) (str "initialize") = false
  end /\ has_type (ps_request sn) (str "quit") || has_type (ps_request sn) (str "error") = false.
Proof.
  intros (Ty & _ & Ob & _) (_ & _ & _ & _ & _ & Og & _). cbn [as_pround pr_init pr_objects] in Ty, Ob. unfold has_type, asked_objects in *. rewrite Ty.
  destruct (pa_object q) as [[r d]|].
  - destruct Og as (S0 & _ & D & Hi). assert (E : pa_init q || Nat.eqb (count o) 0 = true) by (destruct Hi as [->| ->]; [reflexivity|apply orb_true_r]).
    rewrite E. split; [split; [reflexivity|]|reflexivity]. destruct Ob as (l & El & F). inversion F as [|a b la lb Ra Rb]; subst. inversion Rb; subst.
    exists b. split; [exact El|]. split; [exact S0|]. split; [exact D|exact Ra].
  - destruct Og as (-> & Ho). destruct o; [|congruence]. cbn [orb count Nat.eqb]. split; reflexivity.
Qed.
Lemma update_ok told slack cfg o q t reply sn : pseen_ok slack cfg (count o) (as_pround q reply) sn -> carries (rq_properties (ps_request sn)) (pa_props q) ->
  pyask_ok slack cfg o q -> remembers o t ->
  exists x y, tracked_object o q = Some x /\ kept x y /\ pystatic_update told (ps_request sn) (py_objects t) = Ok (inl (Some [y])).
Proof.
  intros Sn Ca (Gi & Ti) Re. destruct (seen_request _ _ _ _ _ _ Sn Gi) as (Ty & _). destruct Gi as (_ & _ & _ & _ & _ & Og & Pr).
  unfold pystatic_update, tracked_object. destruct (pa_object q) as [x|].
  - destruct Ty as (-> & y & Ey & Ky). exists x, y. split; [reflexivity|]. split; [exact Ky|]. rewrite (get_time _ _ Pr Ca). unfold ret. cbn [obind].
    assert (N1 : is_number (time_of (pa_props q)) = true).
    { unfold time_of. destruct (latest (pa_props q) (str "time_wait")) as [v|] eqn:L; [|reflexivity]. apply written_is_number. apply Ti; [discriminate|]. now apply latest_in. }
    rewrite N1, Ey. reflexivity.
  - rewrite Ty. destruct Og as (_ & Ho). destruct o as [x|]; [|congruence]. cbn [remembers] in Re. destruct Re as (y & Ey & Ky). exists x, y. rewrite Ey. auto.
Qed.

Lemma py_wait_out fuel slack h rq h' : server_wait fuel slack h = Ok (inl rq, h') -> h_out h' = h_out h.
Proof.
  unfold server_wait. intros Ew. destruct (server_wait_mot _ _ _ _ _) as [[[[[code h1] ims] obs] p]| | |] eqn:E; try discriminate. cbn [obind] in Ew.
  apply wait_mot_out in E. rewrite <- E.
  destruct p as [p|]; [|discriminate]. destruct (code =? TRAX_QUIT); [injection Ew as _ <-; reflexivity|].
  destruct (code =? TRAX_INITIALIZE); [destruct ims, obs; try discriminate; destruct (wrap_object_list _); try discriminate; cbn [obind] in Ew; injection Ew as _ <-; reflexivity|].
  destruct (code =? TRAX_FRAME); [|discriminate].
  destruct ims; [|discriminate]. destruct obs; [destruct (wrap_object_list _); try discriminate; cbn [obind] in Ew|]; injection Ew as _ <-; reflexivity.
Qed.
Lemma pyround legacy slack cfg m told o k c t q : config_ok cfg -> announces cfg m -> tc_multiobject cfg = false ->
  client_side m false (count o) k -> alike k c -> server_side m false (count o) (py_handle t) -> remembers o t -> pyask_ok slack cfg o q ->
  exists k' c' t' x y, pystatic_round legacy slack told c t q = Ok (c', Answered t', Objects [y]) /\ tracked_object o q = Some x /\ dict_object_stays x y /\
    client_side m false (count (tracked_object o q)) k' /\ alike k' c' /\ server_side m false (count (tracked_object o q)) (py_handle t') /\ remembers (tracked_object o q) t'.
Proof.
  intros K A Mu Hk Al Hs Re Hq. pose proof (proj1 Hq) as Gi. rewrite <- Mu in Hk, Hs.
  assert (F0 : Forall state_given [(RSpecial 2, @nil (list N * list N))]) by (constructor; [apply given_special, sendable_nil|constructor]).
  destruct (ask_pround slack cfg o q _ Gi F0 eq_refl) as (P0 & T0 & Ct).
  destruct (pround_carries legacy slack cfg m _ k (py_handle t) _ K A Hk Hs P0) as (k0 & s0 & sn & E0 & _ & _ & Sn & Ca). cbn [as_pround pr_props] in Ca.
  destruct (update_ok told slack cfg o q t _ sn Sn Ca Hq Re) as (x & y & Ex & Ky & Up). destruct (seen_request _ _ _ _ _ _ Sn Gi) as (_ & Nq).
  destruct (pplay_parts _ _ _ _ _ _ _ _ E0) as (k1 & s1 & Es & Ew & _ & _). cbn [as_pround pr_init pr_images pr_objects pr_props pr_cut1] in Es, Ew.
  pose proof (kept_given x y Ky) as Gy. assert (F1 : Forall state_given [y]) by (constructor; [exact Gy|constructor]).
  destruct (ask_pround slack cfg o q [y] Gi F1 eq_refl) as (P1 & T1 & _).
  destruct (pround_delivers legacy slack cfg m _ k (py_handle t) _ K A Hk Hs P1) as (k' & s' & sn' & E1 & Hk' & Hs' & Sn').
  destruct (pplay_parts _ _ _ _ _ _ _ _ E1) as (k1' & s1' & Es' & Ew' & Er & Ec). cbn [as_pround pr_init pr_images pr_objects pr_props pr_cut1 pr_cut2 pr_reply] in Es', Ew', Er, Ec.
  rewrite Es in Es'. injection Es' as <-. rewrite Ew in Ew'. apply (f_equal (fun z => match z with Ok (_, h) => h | _ => s1 end)) in Ew'. cbv beta iota in Ew'. subst s1'.
  rewrite T1 in Hk', Hs'. rewrite Mu in Hk', Hs'.
  assert (Ho1 : no_error (o_sched (h_out s1))).
  { destruct (request_read legacy slack cfg m _ k (py_handle t) _ K A Hk Hs P1) as (c2 & rq2 & s2 & X1 & _ & _ & X2 & X3).
    cbn [as_pround pr_init pr_images pr_objects pr_props pr_cut1] in X1, X2. rewrite Es in X1. injection X1 as <-. rewrite Ew in X2. injection X2 as _ <-. apply X3. }
  destruct (status_sends s1 [y] s' Ho1 F1 Er) as (ms & Hms & Em).
  pose proof (send_alike legacy (pa_init q) k c (pa_images q) (Some (given_objects (asked_objects q))) (DDict (pa_props q)) Al) as X. rewrite Es in X.
  destruct (client_send legacy (pa_init q) c _ _ _) as [[r c1]| | |] eqn:Ecs; cbn [same_result] in X; try (now destruct X). destruct X as (-> & Al1).
  destruct Sn' as (_ & _ & _ & _ & An). cbn [as_pround pr_reply] in An. inversion An as [|a z la lb Az An']; subst. inversion An'; subst.
  match goal with Q : _ = ps_answer sn' |- _ => rewrite <- Q in Ec end.
  destruct Gi as (_ & C2 & Ta & _).
  pose proof (receive_alike _ _ (sent_talk (pa_talk q) (pa_cut2 q) ms k1 c1 _ Ta C2 Hms Em Al1)) as Y. rewrite Ec in Y.
  destruct (client_receive (arrive (pa_cut2 q) (pa_talk q (written s1 s')) c1)) as [[ans c2]| | |] eqn:Ecr; cbn [same_result] in Y; try (now destruct Y). destruct Y as (-> & Al2).
  assert (Ou : h_out s1 = h_out (py_handle t)) by (apply py_wait_out in Ew; exact Ew).
  exists k', c2, (mkPystatic s' (Some [y])), x, z. rewrite Ct.
  split; [|split; [exact Ex|split; [exact (kept_stays x y z Ky Az)|split; [exact Hk'|split; [exact Al2|split; [exact Hs'|]]]]]].
  - unfold pystatic_round, pystatic_ask. rewrite Ecs. cbn [obind snd]. rewrite (alike_written _ _ _ _ Al Al1).
    unfold pystatic_pass. cbn [py_handle py_objects]. rewrite Ew. cbn [obind]. rewrite Nq, Up. cbn [obind pystatic_reply].
    change (map (fun o0 => (fst o0, DDict (snd o0))) [y]) with (given_objects [y]). rewrite Er. cbn [obind pass_handle py_handle].
    replace (written (py_handle t) s') with (written s1 s') by (unfold written; now rewrite Ou). rewrite Ecr. reflexivity.
  - rewrite Ex. cbn [remembers py_objects]. exists y. auto.
Qed.

Lemma pyrounds legacy slack cfg m told : config_ok cfg -> announces cfg m -> tc_multiobject cfg = false -> forall qs o k c t,
  client_side m false (count o) k -> alike k c -> server_side m false (count o) (py_handle t) -> remembers o t -> pyasks_ok slack cfg o qs ->
  exists k' c' t' l, pystatic_rounds legacy slack told c t qs = Ok (Some (c', t', l)) /\ pyreports o qs l /\
    client_side m false (count (tracked_objects o qs)) k' /\ alike k' c' /\ server_side m false (count (tracked_objects o qs)) (py_handle t') /\ remembers (tracked_objects o qs) t'.
Proof.
  intros K A Mu. induction qs as [|q qs IH]; intros o k c t Hk Al Hs Re Hq; cbn [pystatic_rounds pyasks_ok tracked_objects] in *.
  - exists k, c, t, []. split; [reflexivity|]. split; [exact Logic.I|]. auto.
  - destruct Hq as (Hq & Hqs). destruct (pyround legacy slack cfg m told o k c t q K A Mu Hk Al Hs Re Hq) as (k1 & c1 & t1 & x & y & E & Ex & St & Hk1 & Al1 & Hs1 & Re1).
    rewrite E. cbn [obind]. destruct (IH _ _ _ _ Hk1 Al1 Hs1 Re1 Hqs) as (k2 & c2 & t2 & l & E2 & Rp & Hk2 & Al2 & Hs2 & Re2). rewrite E2. cbn [obind].
    exists k2, c2, t2, (Objects [y] :: l). split; [reflexivity|]. split; [|auto]. cbn [pyreports]. split; [exists x, y; auto|exact Rp].
Qed.
Lemma alike_self h : ready (h_in h) [] -> alike h h.
Proof.
  intros R. exists [], (h_in h). split; [symmetry; apply with_in_self|]. destruct R as [B D]. split; [constructor|]. split; [exact D|]. split; [exact D|]. rewrite B. split; [reflexivity|constructor].
Qed.
Lemma pyconfig_ok : config_ok pystatic_config.
Proof.
  unfold config_ok, pystatic_config. cbn [tc_regions tc_images tc_channels tc_name tc_description tc_family custom_items tc_custom].
  assert (S0 : forall (l : list (list N)) x, In x l -> incl [x] l) by (intros l x Hx y [<-|[]]; exact Hx).
  split; [apply S0; cbn [all_regions In]; auto|]. split; [apply S0; cbn [all_images In]; auto|]. split; [apply S0; cbn [all_channels In]; auto|].
  split; [discriminate|]. split; [reflexivity|]. split; [reflexivity|]. split; [reflexivity|]. split; [exact sendable_nil|]. intros k v [].
Qed.
Lemma session_quit_written m multi n s reason : server_core m multi n s -> reason_ok reason -> h_terminated s = false ->
  exists p s', session_quit false s reason = Ok (inl tt, true, s') /\ clean p /\ written s s' = wire MQuit [] (props_enum p) /\ is_alive s' = false /\
    forall k, sm_lookup p k = match reason with Some t => if bytes_eqb (str "trax.reason") k then Some t else None | None => None end.
Proof.
  intros (G1 & G2 & _ & _ & _ & _ & G3) Hr _. destruct (quit_ok s reason G2 G3 Hr) as (p & s' & E & Cl & Se & L). rewrite G1 in E. exists p, s'.
  split; [exact E|]. split; [exact Cl|]. split; [exact (sent_written s s' _ Se)|]. split; [|exact L].
  clear - E G2. unfold session_quit in E. destruct (quit_reason reason) as [[b|]| | |]; try discriminate. cbn [obind] in E.
  unfold terminate, alive in E. cbn [clear_error h_terminated] in E. rewrite G2 in E. cbn [negb] in E.
  destruct (set_optional _ _ b) as [q| | |]; try discriminate. cbn [obind fst snd] in E.
  destruct (_ && _); try discriminate. apply (f_equal (fun x => match x with Ok (_, y) => is_alive y | _ => true end)) in E. rewrite <- E. reflexivity.
Qed.

(** ---- ends ---- *)
Lemma quit_alike k c reason k' : reason_ok reason -> alike k c -> session_quit false k reason = Ok (inl tt, false, k') -> h_server k = false ->
  exists c', session_quit false c reason = Ok (inl tt, false, c') /\ alike k' c'.
Proof.
  intros Hr Al E Sv. pose proof (sends_alike (fun h => terminate h reason) (fun t st h => terminate_moved t st h reason) k c Al) as X. cbv beta in X.
  assert (Sc : h_server c = false) by (destruct Al as (? & ? & -> & _); exact Sv).
  unfold session_quit in *. rewrite reason_encodes in * by exact Hr. unfold ret in *. cbn [obind] in *. rewrite Sc. rewrite Sv in E. cbn [andb] in *.
  destruct (terminate k reason) as [[a b]| | |], (terminate c reason) as [[a' b']| | |]; cbn [same_result obind] in *; try (now destruct X); try discriminate.
  destruct X as (-> & X). cbn [snd] in *. injection E as <-. exists b'. auto.
Qed.
Lemma leave_dead h : is_alive h = false -> exists h', leave h None None = Ok (Left None (inl tt) h') /\ h_out h' = h_out h /\ is_alive h' = false.
Proof.
  intros D. unfold leave, session_quit, quit_reason, ret. cbn [obind]. unfold terminate. assert (Dc : alive (clear_error h) = false) by exact D. rewrite Dc. cbn [negb obind fst snd].
  change (TRAX_OK =? TRAX_ERROR) with false. rewrite andb_false_r. cbn [obind]. eexists. split; [reflexivity|]. split; [reflexivity|exact D].
Qed.
Lemma pyending slack cfg m told n k c t reason cut : config_ok cfg -> announces cfg m ->
  client_side m false n k -> alike k c -> server_side m false n (py_handle t) -> reason_ok reason -> cutter cut ->
  exists h, pystatic_ending slack told c t reason cut = Ok (Left None (inl tt) h, []) /\ is_alive h = false.
Proof.
  intros K A Hk Al Hs Hr Hcut. pose proof Hk as (G1 & G2 & _ & _ & _ & _ & _ & G3 & _).
  destruct (quit_ok k reason G2 G3 Hr) as (p & k' & E & Cl & Se & L). rewrite G1 in E.
  destruct (quit_alike k c reason k' Hr Al E G1) as (c' & E' & Al'). destruct Hs as (B1 & B2 & B3 & B4 & B5 & B6 & B7 & B8).
  destruct (server_sees_quit m false n (arrive cut (wire MQuit [] (props_enum p)) (py_handle t)) p reason 0 slack)
    as (rq & s2 & E3 & Ty & _ & _ & _ & D).
  - unfold server_core. repeat match goal with |- _ /\ _ => split end; assumption.
  - exact (proj1 (proj2 (proj2 (proj2 (proj2 (proj2 A)))))).
  - now apply arrive_ready.
  - exact Cl.
  - exact L.
  - destruct (leave_dead s2 D) as (h & El & Eo & D'). exists h. split; [|exact D'].
    unfold pystatic_ending. rewrite E'. cbn [obind]. rewrite (alike_written _ _ _ _ Al Al'), (sent_written k k' _ Se).
    unfold pystatic_pass. cbn [py_handle py_objects]. rewrite E3. cbn [obind]. unfold has_type. rewrite Ty.
    change (bytes_eqb (str "quit") (str "quit")) with true. cbn [orb]. rewrite El. cbn [obind pass_handle].
    replace (written (py_handle t) h) with (@nil N); [reflexivity|]. unfold written. rewrite Eo, (py_wait_out _ _ _ _ _ E3). symmetry. apply skipn_all.
Qed.

(** A time that is not a number *)
Lemma pyword legacy slack cfg m told o k c t q v : config_ok cfg -> announces cfg m -> tc_multiobject cfg = false ->
  client_side m false (count o) k -> alike k c -> server_side m false (count o) (py_handle t) -> pyask_given slack cfg o q -> pa_object q <> None ->
  In (str "time_wait", v) (pa_props q) -> foreign_text v ->
  exists c' h, pystatic_round legacy slack told c t q = Ok (c', Left (Some ValueError) (inl tt) h, Ended (Some (not_a_number v))) /\ is_alive c' = false /\ is_alive h = false.
Proof.
  intros K A Mu Hk Al Hs Gi Ob Iv Fv. rewrite <- Mu in Hk, Hs.
  assert (F0 : Forall state_given [(RSpecial 2, @nil (list N * list N))]) by (constructor; [apply given_special, sendable_nil|constructor]).
  destruct (ask_pround slack cfg o q _ Gi F0 eq_refl) as (P0 & T0 & Ct).
  destruct (pround_carries legacy slack cfg m _ k (py_handle t) _ K A Hk Hs P0) as (k0 & s0 & sn & E0 & _ & _ & Sn & Ca). cbn [as_pround pr_props] in Ca.
  destruct (seen_request _ _ _ _ _ _ Sn Gi) as (Ty & Nq). destruct (pa_object q) as [x|]; [|congruence]. destruct Ty as (Ty & _).
  destruct (pplay_parts _ _ _ _ _ _ _ _ E0) as (k1 & s1 & Es & Ew & _ & _).
  destruct (request_read legacy slack cfg m _ k (py_handle t) _ K A Hk Hs P0) as (c2 & rq2 & s2 & X1 & Cc & Ci & X2 & Cs).
  cbn [as_pround pr_init pr_images pr_objects pr_props pr_cut1] in X1, X2, Es, Ew. rewrite Es in X1. injection X1 as <-. rewrite Ew in X2. injection X2 as _ <-.
  rewrite T0 in Cc, Cs. pose proof Gi as (_ & C2 & Ta & _ & _ & _ & Pr).
  assert (Vt : text_ok v = true). { pose proof (proj2 Pr _ _ Iv) as V. unfold kv_ok in V. now apply andb_true_iff in V as [_ V]. }
  assert (Up : pystatic_update told (ps_request sn) (py_objects t) = Ok (inr (ValueError, not_a_number v))).
  { unfold pystatic_update. rewrite Ty, (get_time _ _ Pr Ca). unfold ret. cbn [obind].
    assert (Et : time_of (pa_props q) = v) by (unfold time_of; now rewrite (proj1 (latest_nodup _ (proj1 Pr) _ _) Iv)). rewrite Et, (foreign_number v Fv). reflexivity. }
  pose proof (repr_ok v Vt : reason_ok (Some (not_a_number v))) as Hr.
  destruct (session_quit_written m _ 1 s1 (Some (not_a_number v)) Cs Hr (proj1 (proj2 Cs))) as (p & s' & Eq & Cl & Wr & D & L).
  pose proof (send_alike legacy (pa_init q) k c (pa_images q) (Some (given_objects (asked_objects q))) (DDict (pa_props q)) Al) as X. rewrite Es in X.
  destruct (client_send legacy (pa_init q) c _ _ _) as [[r c1]| | |] eqn:Ecs; cbn [same_result] in X; try (now destruct X). destruct X as (-> & Al1).
  assert (Hms : Forall message_ok [(MQuit, @nil (list N), props_enum p)]) by (constructor; [|constructor]; split; cbn [fst snd]; [reflexivity|now apply clean_kvs]).
  assert (Em : written s1 s' = flat_map message_bytes [(MQuit, [], props_enum p)]).
  { rewrite Wr. cbn [flat_map]. rewrite app_nil_r. reflexivity. }
  destruct (client_sees_quit m (tc_multiobject cfg) 0 (arrive (pa_cut2 q) (wire MQuit [] (props_enum p)) k1) p (Some (not_a_number v)))
    as (k2 & E3 & Dk); [exact Cc| |exact Cl|exact Hr|exact L|].
  { apply arrive_ready; [exact C2|]. rewrite Ci. apply Hk. }
  rewrite <- Wr in E3.
  pose proof (receive_alike _ _ (sent_talk (pa_talk q) (pa_cut2 q) _ k1 c1 _ Ta C2 Hms Em Al1)) as Y. rewrite E3 in Y.
  destruct (client_receive (arrive (pa_cut2 q) (pa_talk q (written s1 s')) c1)) as [[ans c2]| | |] eqn:Ecr; cbn [same_result] in Y; try (now destruct Y). destruct Y as (-> & Al2).
  exists c2, s'. split; [|split; [|exact D]].
  - unfold pystatic_round, pystatic_ask. rewrite Ecs. cbn [obind snd]. rewrite (alike_written _ _ _ _ Al Al1).
    unfold pystatic_pass. cbn [py_handle py_objects]. rewrite Ew. cbn [obind]. rewrite Nq, Up. cbn [obind]. unfold leave. rewrite Eq. cbn [obind pass_handle].
    replace (written (py_handle t) s') with (written s1 s') by (unfold written; now rewrite (py_wait_out _ _ _ _ _ Ew)). rewrite Ecr. reflexivity.
  - destruct Al2 as (? & ? & -> & _). exact Dk.
Qed.

Lemma one_name (l : list text) n : NoDup l -> (forall x, In x l <-> x = n) -> l = [n].
Proof.
  intros Hd H. destruct l as [|a l]; [destruct (proj2 (H n) eq_refl)|]. assert (a = n) by (apply H; now left). subst a. f_equal.
  destruct l as [|b l]; [reflexivity|]. assert (b = n) by (apply H; right; now left). subst b. inversion_clear Hd as [|? ? Hn _]. exfalso. apply Hn. now left.
Qed.
Lemma rectangles_told i : describes pystatic_config i -> told_rectangles i.
Proof.
  intros ((Hd & Hr) & Him & Hch & _ & _ & _ & _ & Hm). unfold told_rectangles. cbn [pystatic_config tc_regions tc_images tc_channels tc_multiobject] in *.
  split; [|split; [|split; [|exact Hm]]].
  - apply one_name; [exact Hd|]. intros x. rewrite Hr. cbn [In]. split; [intros [[H|[]] _]; now symmetry|]. intros ->. split; [now left|]. discriminate.
  - intros n. destruct Him as [_ Him]. rewrite Him. cbn [In]. split; [intros [H|[]]; now symmetry|]. intros ->. now left.
  - intros n. destruct Hch as [_ Hch]. rewrite Hch. cbn [In]. split; [intros [H|[]]; now symmetry|]. intros ->. now left.
Qed.
Lemma pystatic_sides cut sched_s sched_c : cutter cut -> no_error sched_s -> no_error sched_c ->
  exists m c s i, announces pystatic_config m /\ python_connect pystatic_config cut sched_s sched_c = ret (c, s, i) /\ client_side m false 0 c /\ server_side m false 0 s /\ told_rectangles i.
Proof.
  intros Hcut Hs Hc. pose proof pyconfig_ok as K. destruct (metadata_made _ K) as (m & Em & A).
  destruct (python_connects _ m cut sched_s sched_c K Em A Hcut Hs Hc) as (c & s & i & E1 & E & Di).
  destruct (metadata_fine _ m K A) as [Hm Mu]. destruct (connect_sides m _ cut sched_s sched_c c s Hm Mu Hcut Hs Hc E1) as [Sc Ss].
  exists m, c, s, i. split; [exact A|]. split; [exact E|]. split; [exact Sc|]. split; [exact Ss|]. now apply rectangles_told.
Qed.
Lemma pystatic_session legacy slack told cut sched_s sched_c qs reason cut' : cutter cut -> no_error sched_s -> no_error sched_c ->
  pyasks_ok slack pystatic_config None qs -> reason_ok reason -> cutter cut' ->
  exists c s i c' t' l h, python_connect pystatic_config cut sched_s sched_c = ret (c, s, i) /\ told_rectangles i /\
    pystatic_rounds legacy slack told c (pystatic_start s) qs = Ok (Some (c', t', l)) /\ pyreports None qs l /\
    pystatic_ending slack told c' t' reason cut' = Ok (Left None (inl tt) h, []) /\ is_alive h = false.
Proof.
  intros Hcut Hs Hc Hq Hr Hcut'. destruct (pystatic_sides cut sched_s sched_c Hcut Hs Hc) as (m & c & s & i & A & E & Sc & Ss & Ti).
  destruct (pyrounds legacy slack pystatic_config m told pyconfig_ok A eq_refl qs None c c (pystatic_start s) Sc (alike_self c (proj2 (proj2 (proj2 (proj2 (proj2 (proj2 (proj2 (proj2 Sc))))))))) Ss Logic.I Hq)
    as (k' & c' & t' & l & E1 & Rp & Hk & Al & Hs' & _).
  destruct (pyending slack pystatic_config m told _ k' c' t' reason cut' pyconfig_ok A Hk Al Hs' Hr Hcut') as (h & E2 & D).
  exists c, s, i, c', t', l, h. auto 10.
Qed.
Lemma pystatic_word legacy slack told cut sched_s sched_c qs q v : cutter cut -> no_error sched_s -> no_error sched_c ->
  pyasks_ok slack pystatic_config None qs -> pyask_given slack pystatic_config (tracked_objects None qs) q -> pa_object q <> None ->
  In (str "time_wait", v) (pa_props q) -> foreign_text v ->
  exists c s i c' t' l, python_connect pystatic_config cut sched_s sched_c = ret (c, s, i) /\
    pystatic_rounds legacy slack told c (pystatic_start s) qs = Ok (Some (c', t', l)) /\
  exists c2 h reason, pystatic_round legacy slack told c' t' q = Ok (c2, Left (Some ValueError) (inl tt) h, Ended (Some reason)) /\
    is_alive c2 = false /\ is_alive h = false.
Proof.
  intros Hcut Hs Hc Hq Gi Ob Iv Fv. destruct (pystatic_sides cut sched_s sched_c Hcut Hs Hc) as (m & c & s & i & A & E & Sc & Ss & Ti).
  destruct (pyrounds legacy slack pystatic_config m told pyconfig_ok A eq_refl qs None c c (pystatic_start s) Sc (alike_self c (proj2 (proj2 (proj2 (proj2 (proj2 (proj2 (proj2 (proj2 Sc))))))))) Ss Logic.I Hq)
    as (k' & c' & t' & l & E1 & Rp & Hk & Al & Hs' & _).
  destruct (pyword legacy slack pystatic_config m told _ k' c' t' q v pyconfig_ok A eq_refl Hk Al Hs' Gi Ob Iv Fv) as (c2 & h & E2 & D1 & D2).
  exists c, s, i, c', t', l. split; [exact E|]. split; [exact E1|]. exists c2, h, (not_a_number v). auto.
Qed.

(** ---- samples ---- *)
Lemma sample_color_reach : NoDup (map fst sample_color) /\ exists shown, images_reach 0 pystatic_config sample_color shown.
Proof.
  split; [apply nodup_check; reflexivity|]. destruct (path_arrives 0 (str "/a b.jpg") _ eq_refl eq_refl) as (a & Ha & Ta & _).
  exists [(str "color", a)]. split; [|split].
  - intros name Hn. cbn [pystatic_config tc_channels In] in Hn. destruct Hn as [<-|[]].
    exists (match sample_path (str "/a b.jpg") with Some i => i | None => mkImage 0 0 0 0 [] end), a, (str "path").
    split; [left; reflexivity|]. split; [left; reflexivity|]. split; [exact Ha|]. split; [left; auto|]. left; reflexivity.
  - apply nodup_check. reflexivity.
  - intros name i [E|[]]. injection E as <- _. left; reflexivity.
Qed.
Lemma sample_square_steady z : z = 1 \/ z = 5 -> steady (sample_square z).
Proof. unfold sample_square. intros [->| ->]; apply steady_rect; apply fl_finite; vm_compute; exact Logic.I || reflexivity. Qed.
Lemma sample_given_ok o q z d : o = None \/ pa_init q = true -> cutter (pa_cut1 q) -> cutter (pa_cut2 q) -> talker (pa_talk q) -> pa_images q = sample_color ->
  pa_object q = Some (sample_square z, d) -> z = 1 \/ z = 5 -> sendable_dict d -> sendable_dict (pa_props q) -> pyask_given 0 pystatic_config o q.
Proof.
  intros H A B C E F Hz D G. destruct sample_color_reach as (Nd & Sh). unfold pyask_given. rewrite E, F.
  refine (conj A (conj B (conj C (conj Nd (conj Sh (conj _ G)))))). split; [now apply sample_square_steady|]. split; [left; reflexivity|]. split; [exact D|tauto].
Qed.
Lemma sample_frame_ok o q : o <> None -> pa_init q = false -> cutter (pa_cut1 q) -> cutter (pa_cut2 q) -> talker (pa_talk q) -> pa_images q = sample_color ->
  pa_object q = None -> sendable_dict (pa_props q) -> pyask_ok 0 pystatic_config o q.
Proof.
  intros Ho Hi A B C E F G. destruct sample_color_reach as (Nd & Sh). split; [|congruence]. unfold pyask_given. rewrite E, F.
  exact (conj A (conj B (conj C (conj Nd (conj Sh (conj (conj Hi Ho) G)))))).
Qed.
Lemma sample_pyasks_ok : pyasks_ok 0 pystatic_config None sample_pyasks.
Proof.
  unfold sample_pyasks. cbn [pyasks_ok]. split; [split|split; [|split; [split|split; [|exact Logic.I]]]].
  - apply (sample_given_ok None _ 1 [(str "id", str "1")]); cbn [pa_init pa_cut1 pa_cut2 pa_talk pa_images pa_object pa_props]; auto using byte_cutter, whole_cutter, sample_talker; apply small_dict; reflexivity.
  - intros _ t [E|[E|[]]]; [injection E as <-|discriminate E]. exists [], (str "1.5e-3"). split; [now left|]. split; [|reflexivity].
    exists (str "1.5"), (str "e-3"). split; [|split; [|reflexivity]].
    + exists (str "1"), (str "5"). split; [intros c [<-|[]]; reflexivity|]. split; [intros c [<-|[]]; reflexivity|]. split; [discriminate|left; reflexivity].
    + right. exists 101%N, (str "-"), (str "3"). split; [now left|]. split; [right; right; reflexivity|]. split; [intros c [<-|[]]; reflexivity|]. split; [discriminate|reflexivity].
  - apply sample_frame_ok; cbn [pa_init pa_cut1 pa_cut2 pa_talk pa_images pa_object pa_props tracked_object]; auto using byte_cutter, whole_cutter, silent_talker, sendable_nil; discriminate.
  - apply (sample_given_ok _ _ 5 []); cbn [pa_init pa_cut1 pa_cut2 pa_talk pa_images pa_object pa_props]; auto using byte_cutter, whole_cutter, sample_talker, sendable_nil.
  - intros _ t [].
  - apply sample_frame_ok; cbn [pa_init pa_cut1 pa_cut2 pa_talk pa_images pa_object pa_props tracked_object]; auto using byte_cutter, whole_cutter, silent_talker; [discriminate|apply small_dict; reflexivity].
Qed.
Lemma sample_pyword_ok : pyask_given 0 pystatic_config (tracked_objects None sample_pyasks) sample_pyword /\ pa_object sample_pyword <> None /\
  In (str "time_wait", str "a 'short' while") (pa_props sample_pyword) /\ foreign_text (str "a 'short' while").
Proof.
  split; [|split; [discriminate|split; [left; reflexivity|]]].
  - apply (sample_given_ok _ _ 1 []); cbn [sample_pyword pa_init pa_cut1 pa_cut2 pa_talk pa_images pa_object pa_props]; auto using byte_cutter, whole_cutter, silent_talker, sendable_nil.
    apply small_dict; reflexivity.
  - exists 39%N. split; [right; right; left; reflexivity|]. intros H. vm_compute in H. repeat (destruct H as [H|H]; [discriminate H|]). destruct H.
Qed.
