(** Proofs about trajectory files, image lists and the images of a frame. *)
From Verif Require Import CBase Num Region Image Formats Handle SessionSpec FormatsProofs HandleProofs Cli CliSpec.
Local Open Scope nat_scope.

Lemma read_line_end crlf s : forall t, one_line s -> read_line (s ++ line_end crlf ++ t) = (s, t, false).
Proof.
  induction s as [|c s IH]; intros t (A & B); cbn [app].
  - destruct crlf; reflexivity.
  - cbn [read_line]. destruct (N.eqb_spec c 10) as [->|N1]; [contradiction A; now left|]. destruct (N.eqb_spec c 13) as [->|N2]; [contradiction B; now left|].
    rewrite IH; [reflexivity|]. split; intros K; [apply A|apply B]; now right.
Qed.
Lemma read_line_last s : one_line s -> read_line s = (s, [], true).
Proof.
  induction s as [|c s IH]; intros (A & B); [reflexivity|].
  cbn [read_line]. destruct (N.eqb_spec c 10) as [->|N1]; [contradiction A; now left|]. destruct (N.eqb_spec c 13) as [->|N2]; [contradiction B; now left|].
  rewrite IH; [reflexivity|]. split; intros K; [apply A|apply B]; now right.
Qed.
(** what a line is read as *)
Lemma load_lines ls : forall fuel rs last, Forall2 (fun l r => line_reads (fst l) r) ls rs -> one_line last -> List.length ls + List.length last < fuel ->
  (last <> [] -> exists r, line_reads last r) ->
  exists tail, load_loop fuel (concat (map (fun l => fst l ++ line_end (snd l)) ls) ++ last) = Ok (rs ++ tail) /\
    match last with [] => tail = [] | _ => exists r, tail = [r] /\ line_reads last r end.
Proof.
  induction ls as [|(s & e) ls IH]; intros fuel rs last F L Fu H; inversion F; subst; clear F; cbn [map concat app].
  - destruct fuel as [|fuel]; [lia|]. destruct last as [|c last].
    + exists []. split; reflexivity.
    + destruct fuel as [|fuel]; [cbn [List.length] in Fu; lia|]. destruct (H ltac:(discriminate)) as (r & R). exists [r]. split; [|exists r; auto]. destruct R as (O & ok & v & P & ->).
      cbn [load_loop]. unfold read_region at 1. rewrite (read_line_last _ O), P. reflexivity.
  - destruct fuel as [|fuel]; [lia|]. cbn [List.length] in Fu. destruct (IH fuel l' last H4 L ltac:(lia) H) as (tail & E & T). exists tail. split; [|exact T].
    destruct H2 as (O & ok & v & P & ->). cbn [fst snd] in *. rewrite <- app_assoc. cbn [load_loop]. unfold read_region at 1.
    rewrite <- app_assoc. rewrite (read_line_end e s _ O), P. cbn [obind fst snd andb negb]. rewrite E. reflexivity.
Qed.
Lemma file_long ls (last : list N) : List.length ls + List.length last <= List.length (concat (map (fun l => fst l ++ line_end (snd l)) ls) ++ last).
Proof.
  induction ls as [|(s & e) ls IH]; cbn [map concat List.length]; [reflexivity|]. rewrite <- app_assoc, app_length, app_length. cbn [fst snd].
  assert (1 <= List.length (line_end e)) by (destruct e; cbn; lia). lia.
Qed.
Theorem load_file ls rs last : Forall2 (fun l r => line_reads (fst l) r) ls rs -> one_line last -> (last <> [] -> exists r, line_reads last r) ->
  exists tail, load_trajectory (concat (map (fun l => fst l ++ line_end (snd l)) ls) ++ last) = Ok (rs ++ tail) /\
    match last with [] => tail = [] | _ => exists r, tail = [r] /\ line_reads last r end.
Proof. intros F O H. unfold load_trajectory. apply load_lines; auto. pose proof (file_long ls last). lia. Qed.

Lemma plain_one_line t : plain t -> one_line t /\ c_string t = t.
Proof.
  intros H. split.
  - unfold plain in H. rewrite forallb_forall in H. split; intros K; apply H in K; discriminate.
  - induction t as [|c t IH]; [reflexivity|]. unfold plain in H. cbn [forallb] in H. apply andb_true_iff in H as (A & B). cbn [c_string].
    destruct (N.eqb_spec c 0) as [->|N]; [discriminate|]. now rewrite IH.
Qed.
Definition entry_text (r : option region) (t : list N) : Prop :=
  match r with None => t = [] | Some r => region_string r = Ok (Some t) end.
Lemma saved_text rs : forall ts, Forall2 entry_text rs ts -> save_trajectory rs = Ok (concat (map (fun t => t ++ [10%N]) ts)).
Proof.
  induction rs as [|r rs IH]; intros ts F; inversion F; subst; [reflexivity|]. cbn [save_trajectory map concat]. rewrite (IH _ H3).
  destruct r as [r|]; cbn [entry_text write_region] in *; [rewrite H1|subst]; reflexivity.
Qed.
Theorem trajectory_round_trip rs : Forall (fun r => match r with Some r => exists r', region_arrives r r' | None => True end) rs ->
  exists file rs', save_trajectory rs = Ok file /\ load_trajectory file = Ok rs' /\ Forall2 entry_arrives rs rs'.
Proof.
  intros H.
  assert (A : exists ts rs', Forall2 entry_text rs ts /\ Forall2 line_reads ts rs' /\ Forall2 entry_arrives rs rs').
  { induction H as [|r rs Hr H IH]; [exists [], []; repeat split; constructor|]. destruct IH as (ts & rs' & T & L & E). destruct r as [r|].
    - destruct Hr as (r' & t & S & P & O). exists (t :: ts), (Some r' :: rs'). pose proof (plain_one_line t (region_text_plain _ _ S)) as (Q & C).
      split; [constructor; [exact S|exact T]|]. split; constructor; [|exact L|exists t; auto|exact E]. split; [exact Q|]. exists true, (Some r'). rewrite C. auto.
    - exists ([] :: ts), (None :: rs'). split; [constructor; [reflexivity|exact T]|]. split; constructor; [|exact L|exact I|exact E]. split; [split; intros []|]. exists true, None. split; reflexivity. }
  destruct A as (ts & rs' & T & L & E). exists (concat (map (fun t => t ++ [10%N]) ts)), rs'. split; [now apply saved_text|]. split; [|exact E].
  destruct (load_file (map (fun t => (t, false)) ts) rs' []) as (tail & Q & ->).
  - clear - L. induction L; cbn [map]; constructor; auto.
  - split; intros [].
  - intros K. now contradiction K.
  - rewrite app_nil_r, map_map in Q. cbn [fst snd line_end] in Q. rewrite Q. now rewrite app_nil_r.
Qed.
Theorem saved_again rs rs' file : Forall2 (fun a b => entry_arrives a b /\ match a, b with Some r, Some r' => region_string r' = region_string r | _, _ => True end) rs rs' ->
  save_trajectory rs = Ok file -> save_trajectory rs' = Ok file.
Proof.
  intros F. revert file. induction F as [|a b rs rs' (A & B) F IH]; intros file E; [exact E|]. cbn [save_trajectory] in *.
  assert (write_region b = write_region a) as ->. { destruct a, b; cbn [entry_arrives write_region] in *; try contradiction; [now rewrite B|reflexivity]. }
  destruct (write_region a); try discriminate. cbn [obind] in *. destruct (save_trajectory rs) as [x| | |]; try discriminate. now rewrite (IH x eq_refl).
Qed.

(** image lists *)
Lemma images_loop_line line : forall s t, ~ In 10%N s -> images_loop line (s ++ 10%N :: t) = pad_line (split_line (line ++ s)) :: images_loop [] t.
Proof.
  intros s. revert line. induction s as [|c s IH]; intros line t H; cbn [app images_loop].
  - now rewrite app_nil_r.
  - destruct (N.eqb_spec c 10) as [->|N]; [contradiction H; now left|]. rewrite IH by (intros K; apply H; now right). now rewrite <- app_assoc.
Qed.
Lemma split_path p : ~ In 59%N p -> split_line p = [p].
Proof. induction p as [|c p IH]; intros H; [reflexivity|]. cbn [split_line]. destruct (N.eqb_spec c 59) as [->|N]; [contradiction H; now left|]. rewrite IH; [reflexivity|]. intros K. apply H. now right. Qed.
Lemma split_more p t : ~ In 59%N p -> split_line (p ++ 59%N :: t) = p :: split_line t.
Proof. induction p as [|c p IH]; intros H; [reflexivity|]. cbn [app split_line]. destruct (N.eqb_spec c 59) as [->|N]; [contradiction H; now left|]. rewrite IH; [reflexivity|]. intros K. apply H. now right. Qed.
Lemma split_join l : l <> [] -> Forall path_ok l -> split_line (join_paths l) = l.
Proof.
  induction l as [|p l IH]; intros H F; [now contradiction H|]. inversion F; subst. destruct l as [|q l].
  - apply split_path. apply H2.
  - change (join_paths (p :: q :: l)) with (p ++ 59%N :: join_paths (q :: l)). rewrite split_more by apply H2. f_equal. apply IH; [discriminate|assumption].
Qed.
Lemma join_no_nl l : Forall path_ok l -> ~ In 10%N (join_paths l).
Proof.
  induction l as [|p l IH]; intros F; [intros []|]. inversion F; subst. destruct l as [|q l]; [apply H1|].
  change (join_paths (p :: q :: l)) with (p ++ 59%N :: join_paths (q :: l)). intros K. apply in_app_or in K. destruct K as [K|[K|K]]; [exact (proj1 H1 K)|discriminate|exact (IH H2 K)].
Qed.
Theorem images_read ls rest : Forall (fun l => l <> [] /\ Forall path_ok l) ls -> ~ In 10%N rest ->
  read_images (concat (map (fun l => join_paths l ++ [10%N]) ls) ++ rest) = map channels_of ls.
Proof.
  intros F R. unfold read_images. induction F as [|l ls (A & B) F IH]; cbn [map concat app].
  - generalize (@nil N) as line. induction rest as [|c rest IH]; intros line; [reflexivity|]. cbn [images_loop]. destruct (N.eqb_spec c 10) as [->|N]; [contradiction R; now left|]. apply IH. intros K. apply R. now right.
  - rewrite <- !app_assoc. cbn [app]. rewrite images_loop_line by now apply join_no_nl. rewrite IH. cbn [app]. rewrite split_join by assumption. reflexivity.
Qed.

(** images of a frame *)
Definition loads (channels formats : Z) (paths : list (list N)) (k : nat) : list loaded :=
  if Z.testbit channels (Z.of_nat k) then match load_format formats, nth_error paths k with Some f, Some p => [mkLoaded (2 ^ Z.of_nat k) f p] | _, _ => [] end else [].
Lemma load_images_list paths channels formats f : 3 <= List.length paths -> load_format formats = Some f ->
  load_images paths channels formats = Ok (Some (loads channels formats paths 0 ++ loads channels formats paths 1 ++ loads channels formats paths 2)).
Proof.
  intros L F. destruct paths as [|a [|b [|c paths]]]; cbn [List.length] in L; try lia. unfold load_images, when_channel, load_channel, loads.
  change TRAX_CHANNEL_COLOR with (2 ^ 0)%Z. change TRAX_CHANNEL_DEPTH with (2 ^ 1)%Z. change TRAX_CHANNEL_IR with (2 ^ 2)%Z. rewrite !supports_bit by lia. rewrite F. cbn [nth_error].
  change (Z.of_nat 0) with 0%Z. change (Z.of_nat 1) with 1%Z. change (Z.of_nat 2) with 2%Z.
  destruct (Z.testbit channels 0), (Z.testbit channels 1), (Z.testbit channels 2); reflexivity.
Qed.
Lemma load_format_supported formats f : load_format formats = Some f -> supports formats f = true.
Proof. unfold load_format. destruct (supports formats TRAX_IMAGE_PATH) eqn:A; [intros H; now injection H as <-|]. destruct (supports formats TRAX_IMAGE_BUFFER) eqn:B; [intros H; now injection H as <-|discriminate]. Qed.
Theorem load_images_right paths channels formats f : 3 <= List.length paths -> load_format formats = Some f ->
  exists l, load_images paths channels formats = Ok (Some l) /\ right_images paths channels formats l.
Proof.
  intros L F. eexists. split; [eapply load_images_list; eassumption|]. pose proof (load_format_supported _ _ F) as Sf.
  destruct paths as [|a [|b [|c paths]]]; cbn [List.length] in L; try lia. unfold loads. rewrite F. cbn [nth_error].
  assert (K3 : forall k, k < 3 -> k = 0 \/ k = 1 \/ k = 2) by lia.
  change (Z.of_nat 0) with 0%Z. change (Z.of_nat 1) with 1%Z. change (Z.of_nat 2) with 2%Z. unfold right_images.
  split; [|split].
  - intros k Hk. destruct (Z.testbit channels 0) eqn:T0, (Z.testbit channels 1) eqn:T1, (Z.testbit channels 2) eqn:T2;
      (destruct (K3 k Hk) as [->|[->| ->]]; cbn [Z.of_nat Pos.of_succ_nat Pos.succ app]; rewrite ?T0, ?T1, ?T2;
       (split; [intros Q; try discriminate; first [exists (mkLoaded (2 ^ 0) f a); split; [cbn [In]; tauto|reflexivity]|exists (mkLoaded (2 ^ 1) f b); split; [cbn [In]; tauto|reflexivity]|exists (mkLoaded (2 ^ 2) f c); split; [cbn [In]; tauto|reflexivity]]|intros (x & Q & Z); try reflexivity; cbn [In] in Q; intuition subst; discriminate])).
  - destruct (Z.testbit channels 0), (Z.testbit channels 1), (Z.testbit channels 2); cbn [app map l_channel];
      repeat (constructor; [cbn [In]; intuition discriminate|]); constructor.
  - intros x Q.
    assert (X : x = mkLoaded (2 ^ 0) f a \/ x = mkLoaded (2 ^ 1) f b \/ x = mkLoaded (2 ^ 2) f c).
    { destruct (Z.testbit channels 0), (Z.testbit channels 1), (Z.testbit channels 2); cbn [app In] in Q; intuition. }
    destruct X as [->|[->| ->]]; cbn [l_channel l_format l_path]; (split; [exact Sf|]); [exists 0|exists 1|exists 2]; (split; [lia|split; reflexivity]).
Qed.
Theorem frame_images_right paths channels formats : 3 <= List.length paths -> Z.land formats 7 = channels -> Z.odd channels = true ->
  exists l, frame_images paths channels formats = Ok (Some l) /\ right_images paths channels formats l.
Proof.
  intros L E O. unfold frame_images.
  assert (O' : supports channels 1 = true). { change 1%Z with (2 ^ 0)%Z. rewrite supports_bit by lia. exact O. }
  assert (F : load_format channels = Some 1%Z) by (unfold load_format; change TRAX_IMAGE_PATH with 1%Z; now rewrite O').
  assert (B : forall k, k < 3 -> Z.testbit formats (Z.of_nat k) = Z.testbit channels (Z.of_nat k)).
  { intros k H. rewrite <- E, Z.land_spec. replace (Z.testbit 7 (Z.of_nat k)) with true; [now rewrite andb_true_r|]. assert (k = 0 \/ k = 1 \/ k = 2) as [->|[->| ->]] by lia; reflexivity. }
  destruct (load_images_right paths formats channels 1 L F) as (l & A & R1 & R2 & R3). exists l. split; [exact A|]. split; [|split; [exact R2|]].
  - intros k H. rewrite <- B by exact H. now apply R1.
  - intros x X. destruct (R3 x X) as (_ & R). split; [|exact R].
    assert (W : l = loads formats channels paths 0 ++ loads formats channels paths 1 ++ loads formats channels paths 2) by (rewrite (load_images_list paths formats channels 1 L F) in A; now injection A as <-).
    assert (l_format x = 1%Z) as ->.
    { rewrite W in X. unfold loads in X. rewrite F in X. rewrite !in_app_iff in X. destruct X as [X|[X|X]]; destruct (Z.testbit formats _); try contradiction; destruct (nth_error paths _); try contradiction; destruct X as [<-|[]]; reflexivity. }
    change 1%Z with (2 ^ 0)%Z. rewrite supports_bit by lia. change 0%Z with (Z.of_nat 0). rewrite B by lia. exact O.
Qed.
