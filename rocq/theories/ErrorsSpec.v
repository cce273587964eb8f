(** Specification of error texts *)
From Verif Require Import CBase Num Region Image Formats Props Message MessageSpec Handle SessionSpec HistorySpec Errors.
Local Open Scope Z_scope.

(** The text that should be there for each reason *)
Inductive complaint := Dead (client : bool) | NoObject | TooMany | WrongMode | NoNewObjects | WrongCount | NoImage (channel : Z) | WrongArguments (found wanted : Z).
Definition complaint_text (c : complaint) : list N :=
  match c with
  | Dead true => str "Client not alive" | Dead false => str "Server not alive"
  | NoObject => str "At least one object required" | TooMany => str "Too many objects given"
  | WrongMode => str "Invalid mode" | NoNewObjects => str "Unable to add new objects" | WrongCount => str "Invalid object count"
  | NoImage id => str "Required image channel not provided (ID: " ++ print_Z id ++ str ")"
  | WrongArguments a b => str "Protocol error, illegal argument number " ++ print_Z a ++ str " != " ++ print_Z b
  end.
(** Channels 1, 2 and 4, in this order: the first that is announced and has no image *)
Definition lacks (channels : Z) (images : image_list) (k : nat) : Prop := Z.testbit channels (Z.of_nat k) = true /\ nth_error images k = Some None.
Definition no_image (channels : Z) (images : image_list) (id : Z) : Prop :=
  exists k, (k < 3)%nat /\ id = 2 ^ Z.of_nat k /\ lacks channels images k /\ forall j, (j < k)%nat -> ~ lacks channels images j.
Definition many (h : handle) : Prop := exists f, md_flags (h_meta h) = Some f /\ Z.testbit f 0 = true.
Definition count (objects : option object_list) : Z := match objects with Some l => Z.of_nat (List.length l) | None => 0 end.
(** Why a call that sends something must fail *)
Inductive must_fail (h : handle) : call -> complaint -> Prop :=
| f_dead c : communicates c = true -> h_terminated h = true -> must_fail h c (Dead (for_client c))
| f_no_object images p : h_terminated h = false -> must_fail h (CInitialize images [] p) NoObject
| f_too_many images objects p : h_terminated h = false -> ~ many h -> (1 < List.length objects)%nat -> must_fail h (CInitialize images objects p) TooMany
| f_add images objects p : h_terminated h = false -> 4 <= h_version h -> ~ many h -> 1 < h_objects h + count objects -> must_fail h (CFrame images objects p) WrongMode
| f_add_old images objects p : h_terminated h = false -> h_version h < 4 -> 0 < count objects -> must_fail h (CFrame images objects p) NoNewObjects
| f_image images objects p id : h_terminated h = false -> (if h_version h <? 4 then count objects = 0 else many h \/ h_objects h + count objects <= 1) ->
    no_image (md_channels (h_meta h)) images id -> must_fail h (CFrame images objects p) (NoImage id)
| f_image_first images objects p id : h_terminated h = false -> objects <> [] -> many h \/ (List.length objects <= 1)%nat ->
    no_image (md_channels (h_meta h)) images id -> must_fail h (CInitialize images objects p) (NoImage id)
| f_single r p : h_terminated h = false -> 4 <= h_version h -> must_fail h (CReplySot r p) WrongMode
| f_single_many objects : h_terminated h = false -> ~ many h -> List.length objects <> 1%nat -> must_fail h (CReplyMot objects) WrongMode
| f_count objects : h_terminated h = false -> many h \/ List.length objects = 1%nat -> Z.of_nat (List.length objects) <> h_objects h -> must_fail h (CReplyMot objects) WrongCount.
(** Calls that send *)
Definition sends (c : call) : bool := match c with CFrame _ _ _ | CInitialize _ _ _ | CReplySot _ _ | CReplyMot _ => true | _ => false end.
(** Polygons have points *)
Definition drawn (c : call) : Prop :=
  match c with CReplySot r _ => r <> RPoly [] | CReplyMot l => Forall (fun o : region * props => fst o <> RPoly []) l | _ => True end.
(** The text that trax_get_error gives, for a call that sends *)
Definition call_report (h : handle) (c : call) : option report :=
  match c with
  | CFrame images objects _ => frame_report h images (count objects)
  | CInitialize images objects _ => initialize_report h images (Z.of_nat (List.length objects))
  | CReplySot _ _ => reply_sot_report h
  | CReplyMot objects => reply_mot_report h (Z.of_nat (List.length objects))
  | _ => None
  end.
Definition image_problem (c : complaint) : Prop := match c with NoImage _ | WrongArguments _ _ => True | _ => False end.
(** Calls of a server that wait, and the end of a session *)
Definition waits_or_ends (c : call) : bool := match c with CWaitSot _ _ _ | CWaitMot _ _ _ | CTerminate _ => true | _ => false end.
(** A frame without depth, and then a state of the tracker *)
Definition sample_stale : list call := [CInitialize sample_images [sample_object] None; CFrame sample_missing None None; CBytes [wire MState [str "1,2,3,4"] []]; CClientWait None].
(** One state of the tracker, and then the end of its messages *)
Definition sample_end : list call := [CInitialize sample_images [sample_object] None; CBytes [wire MState [str "1,2,3,4"] []]; CClientWait None; CClientWait None].
