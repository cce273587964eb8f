(** Specification of object lists and image lists: arrays of regions and dictionaries. *)
From Verif Require Import CBase Props PropsSpec Num Region Image Formats Handle SessionSpec Lists.
Local Open Scope Z_scope.

(** What an application does with lists; lists are named by the order of their creation. *)
Inductive lop :=
| LCreate (count : Z)
| LRelease (l : nat)
| LSet (l : nat) (index : Z) (r : region_ref)
| LProperty (l : nat) (index : Z) (key value : list N)
| LAppend (dst src : nat).
Definition run_lop (s : lists) (op : lop) : outcome lists :=
  match op with
  | LCreate count => o <- object_list_create count ;; Ok (s ++ [Some o])
  | LRelease l => object_list_release s l
  | LSet l index r => object_list_set s l index r
  | LProperty l index key value => object_property_set s l index key value
  | LAppend dst src => r <- object_list_append s dst src ;; Ok (snd r)
  end.
Fixpoint run_lops (s : lists) (ops : list lop) : outcome lists :=
  match ops with [] => Ok s | op :: ops' => s' <- run_lop s op ;; run_lops s' ops' end.

(** Arrays *)
Definition array := list (region * pmap).
Definition arrays := list (option array).
Fixpoint update {A} (l : list A) (n : nat) (x : A) : list A :=
  match l, n with
  | [], _ => []
  | _ :: l', O => x :: l'
  | y :: l', S n' => y :: update l' n' x
  end.
Definition arr (s : arrays) (l : nat) : array := match nth l s None with Some a => a | None => [] end.
Definition exists_arr (s : arrays) (l : nat) : Prop := exists a, nth l s None = Some a.
Definition inside (s : arrays) (l : nat) (i : Z) : Prop := 0 <= i < Z.of_nat (List.length (arr s l)).
Definition entry (s : arrays) (l : nat) (i : Z) : region * pmap := nth (Z.to_nat i) (arr s l) (RSpecial 0, pm_empty).
Definition value (s : arrays) (r : region_ref) : region := match r with RefOwn r => r | RefEntry l i => fst (entry s l i) end.
Definition step_arrays (s : arrays) (op : lop) : arrays :=
  match op with
  | LCreate count => s ++ [Some (repeat (RSpecial 0, pm_empty) (Z.to_nat count))]
  | LRelease l => update s l None
  | LSet l i r =>
      if (0 <=? i) && (i <? Z.of_nat (List.length (arr s l)))
      then update s l (Some (update (arr s l) (Z.to_nat i) (value s r, snd (entry s l i)))) else s
  | LProperty l i key v => update s l (Some (update (arr s l) (Z.to_nat i) (fst (entry s l i), pm_set (snd (entry s l i)) key v)))
  | LAppend dst src => update s dst (Some (arr s dst ++ arr s src))
  end.
Definition run_arrays (s : arrays) (ops : list lop) : arrays := fold_left step_arrays ops s.

(** Regions made with the API: masks have positive sides, as many bytes as pixels, and at most 2^31 - 1 of them. *)
Definition whole (r : region) : Prop :=
  match r with RMask _ _ w h data => 0 < w /\ 0 < h /\ in_int (w * h) = true /\ List.length data = Z.to_nat (w * h) | _ => True end.
(** Proper use: lists exist, sizes fit an int; a list is not appended to itself, an entry is not set to itself (see the refutations). *)
Definition proper (s : arrays) (op : lop) : Prop :=
  match op with
  | LCreate count => 0 <= count <= INT_MAX
  | LRelease l => exists_arr s l
  | LSet l i r => exists_arr s l /\ match r with RefOwn r => whole r | RefEntry l' i' => exists_arr s l' /\ inside s l' i' /\ (l', i') <> (l, i) end
  | LProperty l i _ _ => exists_arr s l /\ inside s l i
  | LAppend dst src => exists_arr s dst /\ exists_arr s src /\ dst <> src /\ Z.of_nat (List.length (arr s dst) + List.length (arr s src)) <= INT_MAX
  end.
Fixpoint all_proper (s : arrays) (ops : list lop) : Prop :=
  match ops with [] => True | op :: ops' => proper s op /\ all_proper (step_arrays s op) ops' end.

(** What the application observes: sizes, regions, and property values *)
Definition observes (m : lists) (s : arrays) : Prop :=
  forall l a, nth l s None = Some a ->
    object_list_count m l = Ok (Z.of_nat (List.length a)) /\
    (forall i, 0 <= i < Z.of_nat (List.length a) ->
      object_list_get m l i = Ok (Some (fst (entry s l i))) /\
      exists p, object_list_properties m l i = Ok (Some p) /\ forall k, props_get p k = Ok (snd (entry s l i) k)) /\
    (forall i, i < 0 \/ Z.of_nat (List.length a) <= i -> object_list_get m l i = Ok None /\ object_list_properties m l i = Ok None).

(** Image lists: the pointer last stored for each of the three channels *)
Inductive iop := ISet (image : option nat) (channel : Z) | IClear.
Definition channel_state := Z -> option nat.
Definition known_channel (c : Z) : bool := (c =? 1) || (c =? 2) || (c =? 4).
Definition step_channels (s : channel_state) (op : iop) : channel_state :=
  match op with
  | ISet image c => fun c' => if (c =? c') && known_channel c then image else s c'
  | IClear => fun _ => None
  end.
Definition run_iop (x : list nat * pointers) (op : iop) : outcome (list nat * pointers) :=
  match op with
  | ISet image c => l <- image_list_set (snd x) image c ;; Ok (fst x, l)
  | IClear => image_list_clear (fst x) (snd x)
  end.
Fixpoint run_iops (x : list nat * pointers) (ops : list iop) : outcome (list nat * pointers) :=
  match ops with [] => Ok x | op :: ops' => y <- run_iop x op ;; run_iops y ops' end.
(** When a list is cleared its images are alive and no image is in it twice; they are released. *)
Definition clearable (live : list nat) (s : channel_state) : Prop :=
  (forall c i, s c = Some i -> In i live) /\ (forall c d i, s c = Some i -> s d = Some i -> c = d).
Definition held (s : channel_state) (i : nat) : bool :=
  existsb (fun c => match s c with Some j => Nat.eqb j i | None => false end) channel_ids.
Definition step_live (live : list nat) (s : channel_state) (op : iop) : list nat :=
  match op with ISet _ _ => live | IClear => filter (fun i => negb (held s i)) live end.
Fixpoint iops_proper (live : list nat) (s : channel_state) (ops : list iop) : Prop :=
  match ops with
  | [] => True
  | op :: ops' => (op = IClear -> clearable live s) /\ iops_proper (step_live live s op) (step_channels s op) ops'
  end.
Definition run_channels (s : channel_state) (ops : list iop) : channel_state := fold_left step_channels ops s.

Definition sample_lops : list lop :=
  [LCreate 2; LSet 0 1 (RefOwn sample_mask); LProperty 0 1 (str "id") (str "7"); LCreate 1; LSet 1 0 (RefEntry 0 1); LAppend 0 1; LSet 0 9 (RefOwn sample_poly);
   LAppend 1 0; LRelease 0; LProperty 1 3 (str "id") (str "8")].
