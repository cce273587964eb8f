(** Specification of trackers that print lines of their own between the messages of the protocol (docs/protocol.rst:20: the
    prefix distinguishes messages from arbitrary program output). *)
From Verif Require Import CBase Props PropsSpec Message MessageSpec Num Region Image Formats Handle SessionSpec HistorySpec.
Local Open Scope Z_scope.

(** [printed out out']: the lines [out] of the library and, before, between and after them, complete plain lines of the
    tracker itself (as in C05: no prefix, 7-bit characters) make up the output [out']. *)
Inductive printed : list N -> list N -> Prop :=
| printed_end : printed [] []
| printed_message line out out' : ~ In 10%N line -> printed out out' -> printed (line ++ 10%N :: out) (line ++ 10%N :: out')
| printed_own line out out' : plain_line line -> printed out out' -> printed out (line ++ 10%N :: out').

(** A tracker's habit of printing: what becomes of any lines it writes through the library *)
Definition talker (talk : list N -> list N) : Prop := forall ls, Forall (fun l => ~ In 10%N l) ls -> printed (lines ls) (talk (lines ls)).

(** Messages within the guard of C01 *)
Definition message_ok (m : message) : Prop := forallb arg_ok (snd (fst m)) = true /\ forallb kv_ok (snd m) = true.

(** ---- one client, whatever the other side sends ---- *)
(** What an application does with a client handle *)
Inductive deed :=
| DWait (p : option props)
| DFrame (images : image_list) (objects : option object_list) (p : option props)
| DInitialize (images : image_list) (objects : object_list) (p : option props)
| DTerminate (reason : option (list N)).
(** What it gets: the return code and, from waiting, the objects and the properties *)
Definition result := (Z * option object_list * option props)%type.
Definition act (legacy : bool) (h : handle) (d : deed) : outcome (result * handle) :=
  match d with
  | DWait p => r <- client_wait h p ;; let '(code, h', objects, q) := r in Ok ((code, objects, q), h')
  | DFrame images objects p => r <- client_frame legacy h images objects p ;; Ok ((fst r, None, None), snd r)
  | DInitialize images objects p => r <- client_initialize legacy h images objects p ;; Ok ((fst r, None, None), snd r)
  | DTerminate reason => r <- terminate h reason ;; Ok ((fst r, None, None), snd r)
  end.
(** One step: output of the other side arrives in pieces, then the application makes a call. *)
Fixpoint live (legacy : bool) (h : handle) (steps : list (list (list N) * deed)) : outcome (list result * handle) :=
  match steps with
  | [] => Ok ([], h)
  | (chunks, d) :: steps' =>
      r <- act legacy (with_in h (h_type h) (mkStream (st_buf (h_in h)) (st_script (h_in h) ++ chunks))) d ;;
      rs <- live legacy (snd r) steps' ;;
      Ok (fst r :: fst rs, snd rs)
  end.
(** A whole life from the setup on: whether the setup worked, the version and metadata, all results and all bytes the client
    wrote itself *)
Definition life (legacy : bool) (first : list (list N)) (sched : list wres) (steps : list (list (list N) * deed))
  : outcome (option (Z * metadata * list result * list N)) :=
  c <- client_setup (mkStream [] first) (mkO sched [] []) ;;
  match c with
  | None => Ok None
  | Some h => r <- live legacy h steps ;; Ok (Some (h_version h, h_meta h, fst r, o_bytes (h_out (snd r))))
  end.

(** [noisy ms quiet loud]: both are ways to cut output into pieces; [quiet] is the messages [ms] alone, in [loud] the
    tracker prints lines of its own. *)
Definition noisy (ms : list message) (quiet loud : list (list N)) : Prop :=
  Forall message_ok ms /\ Forall (fun ch => ch <> []) quiet /\ Forall (fun ch => ch <> []) loud /\
  concat quiet = flat_map message_bytes ms /\ printed (concat quiet) (concat loud).
Definition noisy_step (quiet loud : list (list N) * deed) : Prop := snd loud = snd quiet /\ exists ms, noisy ms (fst quiet) (fst loud).

(** ---- sessions with a tracker ---- *)
Definition loud_round (legacy : bool) (slack : nat) (talk : list N -> list N) (c s : handle) (r : round) : outcome (handle * handle * seen) :=
  a <- (if rd_init r then client_initialize legacy c (rd_images r) (rd_objects r) (rd_props r)
        else client_frame legacy c (rd_images r) (Some (rd_objects r)) (rd_props r)) ;;
  let '(sent, c1) := a in
  w <- server_wait_mot (3 + List.length (rd_objects r)) slack (arrive (rd_cut1 r) (written c c1) s) None (Some props_create) ;;
  let '(event, s1, images, objects, p) := w in
  b <- server_reply_mot s1 (rd_reply r) ;;
  let '(replied, s2) := b in
  x <- client_wait (arrive (rd_cut2 r) (talk (written s1 s2)) c1) (Some props_create) ;;
  let '(state, c2, result, _) := x in
  Ok (c2, s2, mkSeen sent event images objects p replied state result).
(** The tracker may print differently in every round. *)
Fixpoint loud_play (legacy : bool) (slack : nat) (c s : handle) (rs : list ((list N -> list N) * round)) : outcome (handle * handle * list seen) :=
  match rs with
  | [] => Ok (c, s, [])
  | (talk, r) :: rs' =>
      x <- loud_round legacy slack talk c s r ;;
      let '(c1, s1, sn) := x in
      y <- loud_play legacy slack c1 s1 rs' ;;
      let '(c2, s2, sns) := y in
      Ok (c2, s2, sn :: sns)
  end.
Definition loud_sround (legacy : bool) (slack : nat) (talk : list N -> list N) (c s : handle) (r : sround) : outcome (handle * handle * sseen) :=
  a <- match sr_object r with
       | Some reg => client_initialize legacy c (sr_images r) [(reg, props_create)] (sr_props r)
       | None => client_frame legacy c (sr_images r) None (sr_props r)
       end ;;
  let '(sent, c1) := a in
  w <- server_wait_sot slack (arrive (sr_cut1 r) (written c c1) s) None None (Some props_create) ;;
  let '(event, s1, images, reg, p) := w in
  b <- server_reply_sot s1 (fst (sr_reply r)) (Some (snd (sr_reply r))) ;;
  let '(replied, s2) := b in
  x <- client_wait (arrive (sr_cut2 r) (talk (written s1 s2)) c1) (Some props_create) ;;
  let '(state, c2, result, _) := x in
  Ok (c2, s2, mkSseen sent event images reg p replied state result).
Fixpoint loud_splay (legacy : bool) (slack : nat) (c s : handle) (rs : list ((list N -> list N) * sround)) : outcome (handle * handle * list sseen) :=
  match rs with
  | [] => Ok (c, s, [])
  | (talk, r) :: rs' =>
      x <- loud_sround legacy slack talk c s r ;;
      let '(c1, s1, sn) := x in
      y <- loud_splay legacy slack c1 s1 rs' ;;
      let '(c2, s2, sns) := y in
      Ok (c2, s2, sn :: sns)
  end.
(** The tracker prints before and after its hello message, too. *)
Definition loud_connect (m : metadata) (version : Z) (talk : list N -> list N) (cut : list N -> list (list N)) (sched_s sched_c : list wres)
  : outcome (option (handle * handle)) :=
  s <- server_setup m (mkStream [] []) (mkO sched_s [] []) version ;;
  c <- client_setup (mkStream [] (cut (talk (o_bytes (h_out s))))) (mkO sched_c [] []) ;;
  Ok (match c with Some c => Some (c, s) | None => None end).

(** Sample habits: a line before and one after everything; text without an end of line; a line with the letter e acute. *)
Definition sample_talk (out : list N) : list N := lines [str "loading model"; []; str "@@TRAX"] ++ out ++ lines [str "done: @@TRAX:quit"].
Definition unfinished_talk (out : list N) : list N := str "working... " ++ out.
Definition foreign_talk (out : list N) : list N := [195; 169; 10]%N ++ out.
Definition silent (out : list N) : list N := out.
(** A sample life: hello, initialization, a state, a quit *)
Definition sample_hello : message := (MHello, [], [(str "trax.version", str "4"); (str "trax.region", str "rectangle"); (str "trax.image", str "path"); (str "trax.channels", str "color")]).
Definition sample_state : message := (MState, [str "1,2,3,4"], [(str "confidence", str "0.5")]).
Definition sample_quit : message := (MQuit, [], [(str "trax.reason", str "tired")]).
Definition sample_begin : deed :=
  DInitialize [sample_path (str "/a.jpg"); None; None] [(RRect (fl 1) (fl 2) (fl 3) (fl 4), props_create)] None.
Definition sample_life (talk : list N -> list N) : list (list (list N) * deed) :=
  [([], sample_begin); (whole_cut (talk (message_bytes sample_state)), DWait (Some props_create)); (byte_cut (talk (message_bytes sample_quit)), DWait (Some props_create))].
