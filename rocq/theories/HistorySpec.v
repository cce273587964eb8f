(** Specification of call histories on one handle: which messages are sent, and when the connection ends. *)
From Verif Require Import CBase Props PropsSpec Message MessageSpec Num Region Image Formats Handle SessionSpec.
Local Open Scope Z_scope.

(** Calls of the API with any arguments, and bytes arriving from the other side. *)
Inductive call :=
| CClientWait (p : option props)
| CFrame (images : image_list) (objects : option object_list) (p : option props)
| CInitialize (images : image_list) (objects : object_list) (p : option props)
| CWaitSot (images : option image_list) (reg : option region) (p : option props)
| CWaitMot (fuel : nat) (images : option image_list) (p : option props)
| CReplySot (r : region) (p : option props)
| CReplyMot (objects : object_list)
| CTerminate (reason : option (list N))
| CBytes (chunks : list (list N)).

(** The return code and the handle after a call *)
Definition run_call (legacy : bool) (slack : nat) (h : handle) (c : call) : outcome (Z * handle) :=
  match c with
  | CClientWait p => r <- client_wait h p ;; let '(code, h', _, _) := r in Ok (code, h')
  | CFrame images objects p => client_frame legacy h images objects p
  | CInitialize images objects p => client_initialize legacy h images objects p
  | CWaitSot images reg p => r <- server_wait_sot slack h images reg p ;; let '(code, h', _, _, _) := r in Ok (code, h')
  | CWaitMot fuel images p => r <- server_wait_mot fuel slack h images p ;; let '(code, h', _, _, _) := r in Ok (code, h')
  | CReplySot r p => server_reply_sot h r p
  | CReplyMot objects => server_reply_mot h objects
  | CTerminate reason => terminate h reason
  | CBytes chunks => Ok (TRAX_OK, with_in h (h_type h) (mkStream (st_buf (h_in h)) (st_script (h_in h) ++ chunks)))
  end.
Fixpoint run_calls (legacy : bool) (slack : nat) (h : handle) (cs : list call) : outcome (list Z * handle) :=
  match cs with
  | [] => Ok ([], h)
  | c :: cs' =>
      r <- run_call legacy slack h c ;;
      rs <- run_calls legacy slack (snd r) cs' ;;
      Ok (fst r :: fst rs, snd rs)
  end.
Definition communicates (c : call) : bool := match c with CTerminate _ | CBytes _ => false | _ => true end.

(** The messages a handle has written: type, arguments and properties of each *)
Definition message := (mtype * list (list N) * list (list N * list N))%type.
Definition message_bytes (m : message) : list N := wire (fst (fst m)) (snd (fst m)) (snd m).
Definition spoke (h h' : handle) (ms : list message) : Prop :=
  o_bytes (h_out h') = o_bytes (h_out h) ++ flat_map message_bytes ms.
Definition is_quit (m : message) : bool := match fst (fst m) with MQuit => true | _ => false end.

(** Which calls are for a client and which for a server *)
Definition for_client (c : call) : bool := match c with CClientWait _ | CFrame _ _ _ | CInitialize _ _ _ => true | _ => false end.
Definition for_server (c : call) : bool :=
  match c with CWaitSot _ _ _ | CWaitMot _ _ _ | CReplySot _ _ | CReplyMot _ => true | _ => false end.
Definition right_role (h : handle) (c : call) : bool := if h_server h then negb (for_client c) else negb (for_server c).

(** Calls that send the data of a client *)
Definition client_send (legacy : bool) (h : handle) (init : bool) (images : image_list) (objects : object_list) (p : option props)
  : outcome (Z * handle) :=
  if init then client_initialize legacy h images objects p else client_frame legacy h images (Some objects) p.
(** There is an image for each channel of the set [ch]. *)
Definition images_complete (ch : Z) (images : image_list) : Prop :=
  forall k, (k < 3)%nat -> Z.testbit ch (Z.of_nat k) = true -> nth k images None <> None.

(** A connection of the sample tracker in version 4, as seen by the client and the server *)
Definition sample_pair : option (handle * handle) :=
  match connect sample_metadata 4 whole_cut [] [] with Ok x => x | _ => None end.
Definition sample_client : handle :=
  match sample_pair with Some (c, _) => c | None => mkHandle false false 4 sample_metadata 0 false None (mkStream [] []) (mkO [] [] []) end.
Definition sample_server : handle :=
  match sample_pair with Some (_, s) => s | None => mkHandle true false 4 sample_metadata 0 false None (mkStream [] []) (mkO [] [] []) end.
Definition sample_object : region * props := (sample_mask, props_create).
(** The color image is there, the depth image is not. *)
Definition sample_missing : image_list := [sample_path (str "/a.jpg"); None; None].
Definition sample_history : list call :=
  [CInitialize sample_images [sample_object] None; CFrame sample_images None None; CTerminate (Some (str "enough")); CFrame sample_images None None;
   CTerminate None; CClientWait None].
