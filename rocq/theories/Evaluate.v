(** Model of the command-line client (support/client/cli.cpp:582-763) evaluating the stationary tracker (Static.v): both programs run, and the bytes each
    writes reach the other in any pieces.
    Simplifications: the watchdog and its timeout are left out (Tracker.v), as are the values of the timings; the failure criterion is any function of
    frame and region (cli.cpp:680-690); a process that is reset is gone. *)
From Verif Require Import CBase Props Num Region Image Formats Message Handle SessionSpec Static CppSession Cli.
Local Open Scope Z_scope.

(** The network while a frame is handled: how the handshake (if the tracker is launched before this frame), the request and the answer are cut into
    pieces, and what the writes of a new connection do *)
Record network := mkNet { n_hello : list N -> list (list N); n_server : list wres; n_client : list wres; n_request : list N -> list (list N); n_answer : list N -> list (list N) }.
(** A connection: the client's handle and the tracker at the other end *)
Record live := mkLive { lv_client : handle; lv_tracker : static }.

Section Evaluation.
  Variables (legacy : bool) (slack : nat) (depth ir : bool) (net : nat -> network).
  (** number of frames, their paths, initialization regions, failure criterion, reinitialization offset, properties of the command line *)
  Variables (frames : nat) (images : list (list (list N))) (initialization : list (option region)) (fails : nat -> option region -> bool)
    (reinitialize : nat) (properties : props).

  (** cli.cpp:617-621, 742-745 (query after the constructor or a reset): the tracker is started and sets up its server, the client connects *)
  Definition launch (f : nat) : outcome (option live) :=
    m <- static_metadata depth ir ;;
    x <- connect m 0 (n_hello (net f)) (n_server (net f)) (n_client (net f)) ;;
    Ok (match x with Some (c, s) => Some (mkLive c (static_start s)) | None => None end).

  (** cli.cpp:368-374: an empty path gives an empty image, the others images that hold the path.  Images read from files are not modelled: the
      arguments of load_images are swapped (Cli.v, frame_images), so the format comes from the tracker's channels, and these contain color. *)
  Definition picture (l : list loaded) (channel : Z) : outcome (option image) :=
    match find (fun x => l_channel x =? channel) l with
    | None => Ok None
    | Some x => match l_path x with
                | [] => Ok None
                | path => if l_format x =? TRAX_IMAGE_PATH then i <- image_create_path path ;; Ok (Some i) else NoFuel
                end
    end.
  (** cli.cpp:643, 713: None is the exception of load_image *)
  Definition pictures (md : metadata) (f : nat) : outcome (option image_list) :=
    match nth_error images f with
    | None => UB
    | Some paths =>
        l <- frame_images paths (md_channels md) (md_image md) ;;
        match l with
        | None => Ok None
        | Some l =>
            a <- picture l TRAX_CHANNEL_COLOR ;; b <- picture l TRAX_CHANNEL_DEPTH ;; c <- picture l TRAX_CHANNEL_IR ;;
            Ok (Some [a; b; c])
        end
    end.

  (** The tracker handles the request, then the client waits: client.cpp:778-797.  None when no state came. *)
  Definition wait_state (f : nat) (fuel : nat) (c c1 : handle) (t : static) : outcome (option (option region) * live) :=
    g <- static_wait fuel slack (mkStatic (arrive (n_request (net f)) (written c c1) (sc_handle t)) (sc_mem t) (sc_wait t) (sc_live t)) ;;
    r <- static_answer (fst g) (snd g) ;;
    x <- cpp_client_wait (arrive (n_answer (net f)) (written (sc_handle (snd g)) (sc_handle (snd r))) c1) None props_create ;;
    let '(result, c2, status, _) := x in
    Ok (if result =? TRAX_STATE then Some status else None, mkLive c2 (snd r)).

  (** cli.cpp:643-661: the tracker is initialized with the region of the frame *)
  Definition begin_at (f : nat) (md : metadata) (v : live) (r : region) : outcome (option (option region) * live) :=
    ims <- pictures md f ;;
    match ims with
    | None => Ok (None, v)
    | Some ims =>
        a <- cpp_initialize legacy (lv_client v) ims r properties ;;
        if negb (fst a =? TRAX_OK) then Ok (None, mkLive (snd a) (lv_tracker v))
        else wait_state f 4 (lv_client v) (snd a) (lv_tracker v)
    end.
  (** cli.cpp:713-723, 661: the next frame is sent *)
  Definition continue_at (f : nat) (md : metadata) (v : live) : outcome (option (option region) * live) :=
    ims <- pictures md f ;;
    match ims with
    | None => Ok (None, v)
    | Some ims =>
        a <- cpp_frame legacy (lv_client v) ims props_create ;;
        if negb (fst a =? TRAX_OK) then Ok (None, mkLive (snd a) (lv_tracker v))
        else wait_state f 3 (lv_client v) (snd a) (lv_tracker v)
    end.

  (** cli.cpp:655-725: tracking, after the frame's answer *)
  Fixpoint follow (fuel : nat) (md : metadata) (e : evaluation) (first : bool) (answer : option (option region)) (v : live) : outcome (evaluation * ending) :=
    match fuel with
    | O => NoFuel
    | S fuel' =>
        match answer with
        | None => Ok (e, Exception)
        | Some status =>
            if fails (ev_frame e) status then Ok (e, Failure)
            else
              let e1 := next (timed (push e (if first then special 1 else status))) in
              if (frames <=? ev_frame e1)%nat then Ok (e1, Sequence_end)
              else
                x <- continue_at (ev_frame e1) md v ;;
                follow fuel' md e1 false (fst x) (snd x)
        end
    end.

  (** cli.cpp:632-649: a tracker that is not ready is an exception *)
  Definition track_from (e : evaluation) (v : option live) : outcome (evaluation * ending) :=
    match v, nth_error initialization (ev_frame e) with
    | Some v, Some (Some r) =>
        let md := h_meta (lv_client v) in
        x <- begin_at (ev_frame e) md v r ;;
        follow (S frames) md e true (fst x) (snd x)
    | None, _ => Ok (e, Exception)
    | _, _ => UB
    end.
  (** cli.cpp:623-757 *)
  Fixpoint evaluation_loop (fuel : nat) (e : evaluation) (v : option live) : outcome verdict :=
    if (ev_frame e <? frames)%nat then
      match fuel with
      | O => NoFuel
      | S fuel' =>
          e1 <- skip_frames frames initialization (S frames) e ;;
          if (ev_frame e1 =? frames)%nat then Ok (Saved (ev_output e1) (ev_timings e1))
          else
            x <- track_from e1 v ;;
            let '(e2, how) := x in
            match how with
            | Exception => Ok Threw
            | _ =>
                if (ev_frame e2 <? frames)%nat then
                  let e3 := timed (push e2 (special 2)) in
                  if (0 <? reinitialize)%nat then
                    let j := Nat.max (S (ev_frame e2)) (Nat.min (ev_frame e2 + reinitialize) frames) in
                    let e4 := fill (j - S (ev_frame e2)) e3 in
                    v' <- (if (j <? frames)%nat then launch j else Ok None) ;;
                    evaluation_loop fuel' (mkEval j (ev_output e4) (ev_timings e4)) v'
                  else
                    let e4 := fill (frames - S (ev_frame e2)) e3 in
                    Ok (Saved (ev_output e4) (ev_timings e4))
                else evaluation_loop fuel' e2 None
            end
      end
    else Ok (Saved (ev_output e) (ev_timings e)).
  (** cli.cpp:621-757 *)
  Definition evaluate_tracker : outcome verdict := v <- launch 0 ;; evaluation_loop (S frames) (mkEval 0 [] 0) v.
End Evaluation.

(** cli.cpp:582-763: what the run leaves: the trajectory file, or nothing *)
Definition traxclient (legacy : bool) (slack : nat) (depth ir : bool) (net : nat -> network) (fails : nat -> option region -> bool) (reinitialize : nat)
  (properties : props) (images_file groundtruth_file : list N) : outcome (option (list N)) :=
  let images := read_images images_file in
  groundtruth <- load_trajectory groundtruth_file ;;
  let frames := Nat.min (List.length images) (List.length groundtruth) in
  x <- evaluate_tracker legacy slack depth ir net frames (firstn frames images) (firstn frames groundtruth) fails reinitialize properties ;;
  match x with
  | Threw | Saved [] _ => Ok None
  | Saved out _ => t <- save_trajectory out ;; Ok (Some t)
  end.
