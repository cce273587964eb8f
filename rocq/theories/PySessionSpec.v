(** Specification of sessions between a tracker and a client written in Python *)
From Verif Require Import CBase Props Message MessageSpec Region Image Handle SessionSpec ListsSpec PyText PyTextSpec PySession.
Local Open Scope Z_scope.

(** The names of the documentation *)
Definition all_regions : list (list N) := [str "special"; str "rectangle"; str "polygon"; str "mask"].
Definition all_images : list (list N) := [str "path"; str "url"; str "memory"; str "buffer"].
Definition all_channels : list (list N) := [str "color"; str "depth"; str "ir"].
Definition region_kind (r : region) : list N :=
  match r with RSpecial _ => str "special" | RRect _ _ _ _ => str "rectangle" | RPoly _ => str "polygon" | RMask _ _ _ _ _ => str "mask" end.
Definition image_kind (i : image) (name : list N) : Prop :=
  (i_type i = TRAX_IMAGE_PATH /\ name = str "path") \/ (i_type i = TRAX_IMAGE_URL /\ name = str "url") \/
  (i_type i = TRAX_IMAGE_MEMORY /\ name = str "memory") \/ (i_type i = TRAX_IMAGE_BUFFER /\ name = str "buffer").

(** Texts and dictionaries within the character guard of C01: 7-bit characters, their own UTF-8 forms *)
Definition sendable_text (s : list N) : Prop := text_ok s = true.
Definition sendable_dict (d : dict) : Prop := NoDup (map fst d) /\ forall k v, In (k, v) d -> kv_ok (k, v) = true.
(** Two dictionaries with the same pairs *)
Definition same_dict (d d' : dict) : Prop := NoDup (map fst d') /\ forall k v, In (k, v) d' <-> In (k, v) d.

(** A tracker: known names, at least one channel, and no custom property with a reserved name *)
Definition custom_items (cfg : tracker_config) : dict := match tc_custom cfg with Some d => d | None => [] end.
Definition config_ok (cfg : tracker_config) : Prop :=
  incl (tc_regions cfg) all_regions /\ incl (tc_images cfg) all_images /\ incl (tc_channels cfg) all_channels /\ tc_channels cfg <> [] /\
  sendable_text (tc_name cfg) /\ sendable_text (tc_description cfg) /\ sendable_text (tc_family cfg) /\
  sendable_dict (custom_items cfg) /\
  forall k v, In (k, v) (custom_items cfg) -> starts_with (str "trax.") k = false.

(** Two lists of names with the same elements, the second without repetitions *)
Definition same_names (a b : list (list N)) : Prop := NoDup b /\ forall n, In n b <-> In n a.
(** What a client says about a tracker: all of its formats but special, its channels, texts and custom properties (but for one
    called multiobject), and whether it tracks several objects *)
Definition describes (cfg : tracker_config) (i : client_info) : Prop :=
  (NoDup (ci_regions i) /\ forall n, In n (ci_regions i) <-> In n (tc_regions cfg) /\ n <> str "special") /\
  same_names (tc_images cfg) (ci_images i) /\ same_names (tc_channels cfg) (ci_channels i) /\
  ci_name i = tc_name cfg /\ ci_description i = tc_description cfg /\ ci_family i = tc_family cfg /\
  (forall k, k <> str "multiobject" -> forall v, client_get i k = Some v <-> exists t, v = inl t /\ In (k, t) (custom_items cfg)) /\
  client_get i (str "multiobject") = Some (inr (tc_multiobject cfg)).

(** Both sides start; the client's input is the hello message of the tracker, cut into pieces in any way *)
Definition python_connect (cfg : tracker_config) (cut : list N -> list (list N)) (sched_s sched_c : list wres)
  : py (handle * handle * client_info) :=
  s <~ server_init cfg (mkStream [] []) (mkO sched_s [] []) ;;
  ci <~ client_init true (mkStream [] (cut (o_bytes (h_out s)))) (mkO sched_c [] []) ;;
  ret (fst ci, s, snd ci).

(** One round: client.initialize or client.frame, server.wait, server.status *)
Record pround := mkPround {
  pr_init : bool;
  pr_images : images_dict;
  pr_objects : list (region * dict);
  pr_props : dict;
  pr_reply : list (region * dict);
  pr_cut1 : list N -> list (list N);
  pr_cut2 : list N -> list (list N)
}.
Record pseen := mkPseen { ps_request : request; ps_answer : list (region * dict) }.
Definition given_objects (l : list (region * dict)) : list (region * pydata) := map (fun rd => (fst rd, DDict (snd rd))) l.
Definition play_pround (legacy : bool) (slack : nat) (c s : handle) (r : pround) : outcome (option (handle * handle * pseen)) :=
  a <- client_send legacy (pr_init r) c (pr_images r) (Some (given_objects (pr_objects r))) (DDict (pr_props r)) ;;
  match a with
  | (inr _, _) => Ok None
  | (inl _, c1) =>
      w <- server_wait (3 + List.length (pr_objects r)) slack (arrive (pr_cut1 r) (written c c1) s) ;;
      match w with
      | (inr _, _) => Ok None
      | (inl rq, s1) =>
          b <- server_status s1 (given_objects (pr_reply r)) DNone ;;
          match b with
          | (inr _, _) => Ok None
          | (inl _, s2) =>
              x <- client_receive (arrive (pr_cut2 r) (written s1 s2) c1) ;;
              match x with
              | (Objects l, c2) => Ok (Some (c2, s2, mkPseen rq l))
              | _ => Ok None
              end
          end
      end
  end.
Fixpoint pplay (legacy : bool) (slack : nat) (c s : handle) (rs : list pround) : outcome (option (handle * handle * list pseen)) :=
  match rs with
  | [] => Ok (Some (c, s, []))
  | r :: rs' =>
      x <- play_pround legacy slack c s r ;;
      match x with
      | None => Ok None
      | Some (c1, s1, sn) =>
          y <- pplay legacy slack c1 s1 rs' ;;
          Ok (match y with Some (c2, s2, sns) => Some (c2, s2, sn :: sns) | None => None end)
      end
  end.

(** The images given for the announced channels reach the tracker, in announced formats; nothing else does *)
Definition images_reach (slack : nat) (cfg : tracker_config) (given shown : images_dict) : Prop :=
  (forall name, In name (tc_channels cfg) -> exists i i' kind, In (name, i) given /\ In (name, i') shown /\
     image_arrives slack i i' /\ image_kind i' kind /\ In kind (tc_images cfg)) /\
  NoDup (map fst shown) /\ forall name i', In (name, i') shown -> In name (tc_channels cfg).
Definition object_reaches (a b : region * dict) : Prop := region_arrives (fst a) (fst b) /\ same_dict (snd a) (snd b).
(** What may be sent as a state of an object, and as an object *)
Definition state_given (o : region * dict) : Prop := whole (fst o) /\ (exists r', region_arrives (fst o) r') /\ sendable_dict (snd o).
Definition object_given (cfg : tracker_config) (o : region * dict) : Prop :=
  state_given o /\ region_kind (fst o) <> str "special" /\ In (region_kind (fst o)) (tc_regions cfg).

Definition ptracked (n : nat) (r : pround) : nat :=
  if pr_init r then List.length (pr_objects r) else (n + List.length (pr_objects r))%nat.
Definition pround_ok (slack : nat) (cfg : tracker_config) (n : nat) (r : pround) : Prop :=
  cutter (pr_cut1 r) /\ cutter (pr_cut2 r) /\
  NoDup (map fst (pr_images r)) /\ (exists shown, images_reach slack cfg (pr_images r) shown) /\
  Forall (object_given cfg) (pr_objects r) /\ sendable_dict (pr_props r) /\
  (pr_init r = true -> pr_objects r <> []) /\
  (1 <= ptracked n r)%nat /\ (tc_multiobject cfg = false -> (ptracked n r <= 1)%nat) /\
  List.length (pr_reply r) = ptracked n r /\ Forall state_given (pr_reply r).
Definition pseen_ok (slack : nat) (cfg : tracker_config) (n : nat) (r : pround) (sn : pseen) : Prop :=
  rq_type (ps_request sn) = Some (if pr_init r || Nat.eqb n 0 then str "initialize" else str "frame") /\
  (exists shown, rq_images (ps_request sn) = Some shown /\ images_reach slack cfg (pr_images r) shown) /\
  match pr_objects r with
  | [] => rq_objects (ps_request sn) = None
  | l => exists l', rq_objects (ps_request sn) = Some l' /\ Forall2 object_reaches l l'
  end /\
  same_dict (pr_props r) (properties_dict (rq_properties (ps_request sn))) /\
  Forall2 object_reaches (pr_reply r) (ps_answer sn).
Fixpoint prounds_ok (slack : nat) (cfg : tracker_config) (n : nat) (rs : list pround) : Prop :=
  match rs with
  | [] => True
  | r :: rs' => pround_ok slack cfg n r /\ prounds_ok slack cfg (ptracked n r) rs'
  end.
Fixpoint all_pseen (slack : nat) (cfg : tracker_config) (n : nat) (rs : list pround) (sns : list pseen) : Prop :=
  match rs, sns with
  | [], [] => True
  | r :: rs', sn :: sns' => pseen_ok slack cfg n r sn /\ all_pseen slack cfg (ptracked n r) rs' sns'
  | _, _ => False
  end.

Fixpoint ptracked_all (n : nat) (rs : list pround) : nat :=
  match rs with [] => n | r :: rs' => ptracked_all (ptracked n r) rs' end.
Definition reason_ok (reason : option (list N)) : Prop := match reason with Some t => sendable_text t | None => True end.

(** Sample data: the tracker and the session of C36 *)
Definition sample_config : tracker_config :=
  mkConfig [str "polygon"; str "mask"; str "polygon"] [str "url"; str "path"] [str "depth"; str "color"]
    (str "Tracker") (str "a ""shift""") [] (Some [(str "vot", str "2014 a=b"); (str "multi", [])]) true.
Definition sample_given : images_dict :=
  match sample_path (str "/a b.jpg"), sample_path (str "/d=1.png") with
  | Some a, Some b => [(str "depth", b); (str "color", a); (str "thermal", a)]
  | _, _ => []
  end.
Definition sample_prounds : list pround :=
  [mkPround true sample_given [(sample_poly, [(str "id", str "1"); (str "name", str "x y")]); (sample_mask, [])]
     [(str "k", str "v w")] [(sample_mask, []); (RSpecial 2, [(str "conf", str "0.5")])] byte_cut whole_cut;
   mkPround false sample_given [] [] [(sample_mask, []); (sample_poly, [])] whole_cut byte_cut;
   mkPround false sample_given [(sample_mask, [])] [] [(sample_mask, []); (sample_poly, []); (RRect (fl 1) (fl 2) (fl 3) (fl 4), [])]
     whole_cut byte_cut].
(** Trackers that announce the special format or no channel, or use the name multiobject *)
Definition config_special : tracker_config :=
  mkConfig [str "special"; str "rectangle"] [str "path"] [str "color"] [] [] [] None false.
Definition config_multiobject : tracker_config :=
  mkConfig [str "rectangle"] [str "path"] [str "color"] [] [] [] (Some [(str "multiobject", str "yes")]) false.
(** A tracker called S, e with grave accent, m *)
Definition config_accent : tracker_config :=
  mkConfig [str "rectangle"] [str "path"] [str "color"] [83; 232; 109]%N [] [] None false.
Definition config_no_channel : tracker_config := mkConfig [str "rectangle"] [str "path"] [] [] [] [] None false.
