(** Proofs for C123. *)
From Verif Require Import CBase Props PropsSpec Message MessageSpec Num NumSpec NumProofs Region RegionSpec FloatOps RegionGeom GeomSpec GeomProofs Image ImageSize Formats Handle SessionSpec Static StaticSpec Cli CliSpec Evaluate EvaluateSpec EvaluateProofs
  PyArraysProofs NegotiateSpec NegotiateProofs Criterion CriterionSpec CriterionProofs StationaryRunSpec.
Local Open Scope Z_scope.

Lemma int_sixteenths x z : is_int x z -> sixteenths x.
Proof. intros [_ V]. exists (16 * z). rewrite <- Z.mul_assoc. now f_equal. Qed.
(** A region with pixels that stays is the same region *)
Lemma stays_same g r S : covers g S -> stays g r -> same_region g r.
Proof.
  intros C H. destruct H as [x y w h x' y' w' h' C1 C2 C3 C4|a b H|x y w h a b H]; cbn [covers] in C; [|contradiction|].
  - destruct C as (X & Y & W & H & F1 & F2 & F3 & F4 & I1 & I2 & I3 & I4 & _). cbn [same_region].
    rewrite (proj2 (C1 F1) (or_intror (int_sixteenths _ _ I1))), (proj2 (C2 F2) (or_intror (int_sixteenths _ _ I2))),
      (proj2 (C3 F3) (or_intror (int_sixteenths _ _ I3))), (proj2 (C4 F4) (or_intror (int_sixteenths _ _ I4))). reflexivity.
  - cbn [same_region]. refine (conj eq_refl (conj eq_refl (conj eq_refl (conj eq_refl H)))).
Qed.
Lemma same_covers g r S : same_region g r -> covers g S -> covers r S.
Proof.
  destruct g as [c|x y w h|pts|x y w h d], r as [c'|x' y' w' h'|pts'|x' y' w' h' d']; cbn [same_region]; intros H C; try discriminate H; try (rewrite H; exact C).
  destruct H as (-> & -> & -> & -> & H). cbn [covers] in *. destruct C as (M & E1 & E2 & V).
  assert (L : List.length d' = List.length d) by (rewrite <- (map_length (fun d => negb (d =? 0)%N) d'), <- (map_length (fun d => negb (d =? 0)%N) d); now f_equal).
  split; [|split; [exact E1|split; [exact E2|]]].
  - unfold mask_ok in *. now rewrite L.
  - intros A B. rewrite V. apply value_foreground. now symmetry.
Qed.
Lemma same_comparable v ref g r S1 S2 : same_region g r -> comparable v ref g S1 S2 -> comparable v ref r S1 S2.
Proof. intros H (C1 & C2 & C). split; [exact C1|]. split; [exact (same_covers g r S2 H C2)|exact C]. Qed.
Lemma visible_only s image v v' : s_bounded s = false -> visible (s_bounded s) image v -> visible (s_bounded s) image v' -> v = v'.
Proof. intros B. rewrite B. cbn [visible]. congruence. Qed.

Section Runs.
  Variables (s : settings) (truth : list (option region)) (n : nat) (fails : nat -> option region -> bool).
  Hypotheses (Lg : s_legacy s = false) (T : proper (s_threshold s)) (Hf : criterion_of s truth n fails) (Hc : comparable_truth s truth n).

  Lemma start_covers start g : (start < n)%nat -> init_of truth start = Some g -> exists S, covers g S.
  Proof.
    intros L E. pose proof (Hc start start g ltac:(lia) E) as A. rewrite E in A. destruct A as (v & S1 & S2 & _ & (C & _)). now exists S1.
  Qed.
  (** what the criterion says about the state of the tracker *)
  Lemma judged_value start i g r : (start <= i < n)%nat -> init_of truth start = Some g -> same_region g r ->
    exists failed, judge s PUrl (init_of truth i) r = Ok failed /\ if failed : bool then lost s PUrl (init_of truth i) g else kept s PUrl (init_of truth i) g.
  Proof.
    intros L E Sm. pose proof (Hc start i g L E) as A. destruct (init_of truth i) as [ref|] eqn:Ei.
    - cbn [assessable lost kept] in *. destruct A as (v & S1 & S2 & V & C).
      destruct (judge_regions s PUrl v ref r S1 S2 Lg T V (same_comparable _ _ _ _ _ _ Sm C)) as (failed & a & k & J & Q & P & H1 & H2). exists failed. split; [exact J|].
      destruct failed; exists v, S1, S2, a, k; (split; [exact V|]); (split; [exact C|]); (split; [exact Q|]); [now apply H2|]. intros X. now specialize (H1 X).
    - exact (judge_ok s PUrl None r Lg T A).
  Qed.
  Lemma judged_state start i g r : (start <= i < n)%nat -> init_of truth start = Some g -> same_region g r ->
    if fails i (Some r) then left_start s truth start i else near_start s truth start i.
  Proof.
    intros L E Sm. destruct (judged_value start i g r L E Sm) as (failed & J & V). rewrite (Hf i r failed ltac:(lia) J). destruct failed; exists g; now split.
  Qed.
  Definition stage_mode (f : nat) (st : stage) (m : mode) : Prop :=
    match st, m with
    | Launch, Fresh => True
    | Follow r' r'', Tracking start => (start < f)%nat /\ exists g, init_of truth start = Some g /\ same_region g r' /\ same_region g r''
    | Pause k, Resting k' => k' = k
    | Done, Ended => True
    | _, _ => False
    end.
  Lemma next_mode k f : stage_mode f (next_stage k) (after_loss k).
  Proof. destruct k as [|[|k]]; cbn; exact Logic.I || reflexivity. Qed.
  Lemma run_stationary initial k c : (forall i, (i < n)%nat -> initial i = init_of truth i) -> forall f st m out, (f + c <= n)%nat -> stage_mode f st m -> stationary initial fails k c f st out ->
    judged_run (init_of truth) (fun start _ r => start_region truth start r) (left_start s truth) (near_start s truth) k c f m out.
  Proof.
    intros Hi f st m out L Sm H. revert m L Sm. induction H as [f st|c f l E H IH|c f g r' r'' l E S1 S2 Fl H IH|c f g r' l E S1 Fl H IH|c f r' r'' l Fl H IH|c f r' r'' l Fl H IH|c f j l H IH|c f l H IH];
      intros m L Sm; try (rewrite Hi in E by lia).
    - apply run_end.
    - destruct m; cbn [stage_mode] in Sm; try contradiction. apply run_absent; [exact E|]. apply IH; [lia|exact Logic.I].
    - destruct m; cbn [stage_mode] in Sm; try contradiction. destruct (start_covers f g ltac:(lia) E) as (P & C).
      pose proof (stays_same g r' P C S1) as Q1. pose proof (stays_same g r'' P C S2) as Q2.
      pose proof (judged_state f f g r' ltac:(lia) E Q1) as J. rewrite Fl in J.
      apply run_start; [rewrite E; discriminate|exact J|]. apply IH; [lia|]. cbn [stage_mode]. split; [lia|]. exists g. now split.
    - destruct m; cbn [stage_mode] in Sm; try contradiction. destruct (start_covers f g ltac:(lia) E) as (P & C).
      pose proof (judged_state f f g r' ltac:(lia) E (stays_same g r' P C S1)) as J. rewrite Fl in J.
      apply run_start_lost; [rewrite E; discriminate|exact J|]. apply IH; [lia|]. apply next_mode.
    - destruct m as [|start| |]; cbn [stage_mode] in Sm; try contradiction. destruct Sm as (Ls & g & E & Q1 & Q2).
      pose proof (judged_state start f g r' ltac:(lia) E Q1) as J. rewrite Fl in J.
      apply run_kept; [exact J|now exists g|]. apply IH; [lia|]. cbn [stage_mode]. split; [lia|]. exists g. now split.
    - destruct m as [|start| |]; cbn [stage_mode] in Sm; try contradiction. destruct Sm as (Ls & g & E & Q1 & Q2).
      pose proof (judged_state start f g r' ltac:(lia) E Q1) as J. rewrite Fl in J. apply run_lost; [exact J|]. apply IH; [lia|]. apply next_mode.
    - destruct m as [| |j'|]; cbn [stage_mode] in Sm; try contradiction. subst j'. apply run_rest. apply IH; [lia|]. destruct j as [|[|j]]; cbn; exact Logic.I || reflexivity.
    - destruct m; cbn [stage_mode] in Sm; try contradiction. apply run_over. apply IH; [lia|exact Logic.I].
  Qed.
End Runs.
Lemma stationary_judged legacy slack depth ir net f_option k properties lines texts rs fails : let s := read_settings f_option None None in let n := Nat.min (List.length lines) (List.length rs) in
  (forall f, network_ok (net f)) -> Forall (line_ok depth ir) lines ->
  Forall2 (fun l r => line_reads (fst l) r) texts rs -> lines <> [] -> rs <> [] -> Forall (fun r => match r with Some r => steady r | None => True end) rs ->
  clean properties -> props_get properties (str "time_wait") <> Ok (Some []) -> criterion_of s rs n fails -> comparable_truth s rs n ->
  exists file out, traxclient legacy slack depth ir net fails k properties (concat (map (fun l => join_paths l ++ [10%N]) lines)) (concat (map (fun l => fst l ++ line_end (snd l)) texts)) = Ok (Some file) /\
    load_trajectory file = Ok out /\ List.length out = n /\
    (forall start i g r, (start <= i < n)%nat -> init_of rs start = Some g -> same_region g r -> exists b, judge s PUrl (init_of rs i) r = Ok b) /\
    judged_run (init_of rs) (fun start _ r => start_region rs start r) (left_start s rs) (near_start s rs) k n 0 Fresh out.
Proof.
  intros s n Hn Hl Ht N1 N2 Hs Hp Hw Hf Hc.
  destruct (whole_run legacy slack depth ir net fails k properties lines texts rs Hn Hl Ht N1 N2 Hs Hp Hw) as (file & out & E & Lo & Ln & St). exists file, out.
  split; [exact E|]. split; [exact Lo|]. split; [exact Ln|].
  split; [intros start i g r Hi Eg Sm; destruct (judged_value s rs n eq_refl (settings_proper f_option None None) Hc start i g r Hi Eg Sm) as (b & J & _); now exists b|].
  apply (run_stationary s rs n fails eq_refl (settings_proper f_option None None) Hf Hc (init_of (firstn n rs)) k n) with (st := Launch); [|lia|exact Logic.I|exact St].
  intros i Hi. unfold init_of. now rewrite nth_error_firstn by exact Hi.
Qed.

(** ---- examples ---- *)
Lemma real_criterion_ok s truth n : criterion_of s truth n (real_criterion s truth).
Proof. intros i r b _ E. cbn [real_criterion]. now rewrite E. Qed.
Lemma block_line t x y w h : one_line t -> region_parse (c_string t) = Ok (true, Some (block_at x y w h)) -> line_reads t (Some (block_at x y w h)).
Proof. intros O E. split; [exact O|]. exists true, (Some (block_at x y w h)). now split. Qed.
Lemma moving_reads : Forall2 (fun l r => line_reads (fst l) r) moving_texts moving_truth.
Proof.
  repeat (apply Forall2_cons; [apply block_line; [split; cbn; intros X; repeat (destruct X as [X|X]; [discriminate X|]); exact X|vm_compute; reflexivity]|]). apply Forall2_nil.
Qed.
Lemma moving_comparable : comparable_truth (with_threshold (str "0.5")) moving_truth 4.
Proof.
  intros start i g L E.
  assert (C : (start = 0 \/ start = 1 \/ start = 2 \/ start = 3)%nat) by lia. assert (D : (i = 0 \/ i = 1 \/ i = 2 \/ i = 3)%nat) by lia.
  destruct C as [->|[->|[->| ->]]]; cbn [init_of moving_truth nth_error] in E; injection E as <-;
  (destruct D as [->|[->|[->| ->]]]; [| | |]); try (exfalso; clear - L; lia); cbn [init_of moving_truth nth_error assessable];
    eexists _, (block_pixels _ _ _ _), (block_pixels _ _ _ _); (split; [reflexivity|]); comparable_blocks.
  all: exists 6, 0; lia.
Qed.
Lemma moving_steady : Forall (fun r => match r with Some r => steady r | None => True end) moving_truth.
Proof. repeat (apply Forall_cons; [apply steady_rect; apply float_of_int_finite_float; vm_compute; discriminate|]). apply Forall_nil. Qed.
