(** Model of the command-line client, support/client/cli.cpp, and of the trajectory files, support/client/client.cpp:943-990.
    A C++ Region is [option region]; None is the empty Region.  Files are byte lists. *)
From Verif Require Import CBase Num Region Image Formats.
Local Open Scope Z_scope.

(** ---- trajectory files ---- *)

(** src/traxpp.cpp:994-1021, the loop of operator>>: the line, what follows it, and whether the end of the file was met *)
Fixpoint read_line (l : list N) : list N * list N * bool :=
  match l with
  | [] => ([], [], true)
  | c :: l' =>
      if (c =? 10)%N then ([], l', false)
      else if (c =? 13)%N then match l' with d :: l'' => if (d =? 10)%N then ([], l'', false) else ([], l', false) | [] => ([], [], false) end
      else let '(s, rest, eof) := read_line l' in (c :: s, rest, eof)
  end.
(** src/traxpp.cpp:984-1027 operator>> into an empty Region: the region, what follows, and good().  A Region keeps what it was when
    decoding fails (Region::wrap, 943-948). *)
Definition read_region (l : list N) : outcome (option region * list N * bool) :=
  let '(s, rest, eof) := read_line l in
  r <- region_parse (c_string s) ;;  (* c_str() ends at a NUL *)
  Ok ((if fst r then snd r else None), rest, negb (eof && match s with [] => true | _ => false end)).
(** support/client/client.cpp:943-970 load_trajectory of a file that exists *)
Fixpoint load_loop (fuel : nat) (l : list N) : outcome (list (option region)) :=
  match fuel with
  | O => NoFuel
  | S fuel' =>
      x <- read_region l ;;
      let '(r, rest, good) := x in
      if good then rs <- load_loop fuel' rest ;; Ok (r :: rs) else Ok []
  end.
Definition load_trajectory (file : list N) : outcome (list (option region)) := load_loop (S (List.length file)) file.
(** src/traxpp.cpp:967-982 operator<< *)
Definition write_region (r : option region) : outcome (list N) :=
  match r with
  | None => Ok [10%N]
  | Some r => t <- region_string r ;; Ok (match t with Some t => t | None => [] end ++ [10%N])
  end.
(** support/client/client.cpp:972-986 save_trajectory: the file that is written *)
Fixpoint save_trajectory (rs : list (option region)) : outcome (list N) :=
  match rs with
  | [] => Ok []
  | r :: rs' => t <- write_region r ;; rest <- save_trajectory rs' ;; Ok (t ++ rest)
  end.

(** ---- image list files ---- *)

(** support/client/cli.cpp:316-323: splitting a line at the delimiter *)
Fixpoint split_line (line : list N) : list (list N) :=
  match line with
  | [] => [[]]
  | c :: line' => if (c =? 59)%N then [] :: split_line line' else match split_line line' with x :: xs => (c :: x) :: xs | [] => [[c]] end
  end.
(** 325-327: resize to TRAX_CHANNELS entries when there are fewer *)
Definition TRAX_CHANNELS : nat := 3.
Definition pad_line (l : list (list N)) : list (list N) := l ++ repeat [] (TRAX_CHANNELS - List.length l).
(** support/client/cli.cpp:298-333 read_images of a file that exists: getline sets the end-of-file bit when no line end follows, and
    the loop stops without using the line *)
Fixpoint images_loop (line : list N) (l : list N) : list (list (list N)) :=
  match l with
  | [] => []
  | c :: l' => if (c =? 10)%N then pad_line (split_line line) :: images_loop [] l' else images_loop (line ++ [c]) l'
  end.
Definition read_images (file : list N) : list (list (list N)) := images_loop [] file.

(** ---- loading the images of a frame ---- *)

(** An image that is loaded: its channel, its format and the path it comes from (an empty path gives an empty Image) *)
Record loaded := mkLoaded { l_channel : Z; l_format : Z; l_path : list N }.
(** support/client/cli.cpp:353-401 load_image, built without OpenCV: the format that is used; None is the exception *)
Definition load_format (formats : Z) : option Z :=
  if supports formats TRAX_IMAGE_PATH then Some TRAX_IMAGE_PATH
  else if supports formats TRAX_IMAGE_BUFFER then Some TRAX_IMAGE_BUFFER
  else None.
Definition load_channel (paths : list (list N)) (formats channel : Z) (index : nat) (l : list loaded) : outcome (option (list loaded)) :=
  match nth_error paths index with
  | None => UB
  | Some p => Ok (match load_format formats with Some f => Some (l ++ [mkLoaded channel f p]) | None => None end)
  end.
Definition when_channel (channels channel : Z) (m : list loaded -> outcome (option (list loaded))) (x : option (list loaded)) : outcome (option (list loaded)) :=
  match x with
  | None => Ok None
  | Some l => if supports channels channel then m l else Ok (Some l)
  end.
(** support/client/cli.cpp:403-421 load_images *)
Definition load_images (paths : list (list N)) (channels formats : Z) : outcome (option (list loaded)) :=
  a <- when_channel channels TRAX_CHANNEL_COLOR (load_channel paths formats TRAX_CHANNEL_COLOR 0) (Some []) ;;
  b <- when_channel channels TRAX_CHANNEL_DEPTH (load_channel paths formats TRAX_CHANNEL_DEPTH 1) a ;;
  when_channel channels TRAX_CHANNEL_IR (load_channel paths formats TRAX_CHANNEL_IR 2) b.
(** support/client/cli.cpp:643 and 713: the call, with its arguments in the order in which they are written there *)
Definition frame_images (paths : list (list N)) (channels image_formats : Z) : outcome (option (list loaded)) := load_images paths image_formats channels.

(** ---- the evaluation loop ---- *)

(** How the tracker answers for a frame: a state, a request to end the connection, or anything else that fails (the process dies, a
    message cannot be sent or read, the time is over).  Every frame is sent at most once, so answers are given by frame. *)
Inductive answer := State (r : region) | Quits | Fails.
(** What main does: the files are written, or an exception ends the run before anything is written *)
Inductive verdict := Saved (output : list (option region)) (timings : nat) | Threw.
(** The state of the loop: frame, output and the number of timings (their values are not modelled) *)
Record evaluation := mkEval { ev_frame : nat; ev_output : list (option region); ev_timings : nat }.
Definition special (code : Z) : option region := Some (RSpecial code).
Definition push (e : evaluation) (r : option region) : evaluation := mkEval (ev_frame e) (ev_output e ++ [r]) (ev_timings e).
Definition timed (e : evaluation) : evaluation := mkEval (ev_frame e) (ev_output e) (S (ev_timings e)).
Definition next (e : evaluation) : evaluation := mkEval (S (ev_frame e)) (ev_output e) (ev_timings e).

(** How a run of the inner loop ends *)
Inductive ending := Sequence_end | Failure | Exception.
Section Loop.
  (** number of frames, initialization regions, the failure criterion of frame and region (680-690: threshold >= 0 && overlap <= threshold),
      the answers, the reinitialization offset *)
  Variables (frames : nat) (initialization : list (option region)) (fails : nat -> region -> bool) (tracker : nat -> answer) (reinitialize : nat).

  (** support/client/cli.cpp:626-630: frames without initialization *)
  Fixpoint skip_frames (fuel : nat) (e : evaluation) : outcome evaluation :=
    if (ev_frame e <? frames)%nat then
      match fuel with
      | O => NoFuel
      | S fuel' =>
          match nth_error initialization (ev_frame e) with
          | None => UB
          | Some (Some _) => Ok e
          | Some None => skip_frames fuel' (next (push e (special 0)))
          end
      end
    else Ok e.
  (** support/client/cli.cpp:655-725: tracking.  When wait() gives false the connection has ended: after a quit message the client
      handle is not alive (HistoryProofs, quit_received_ends) and after an error the process is stopped (client.cpp:785-788), so ready()
      is false and the exception of line 707 is thrown *)
  Fixpoint track (fuel : nat) (e : evaluation) (initialized : bool) : outcome (evaluation * ending) :=
    match fuel with
    | O => NoFuel
    | S fuel' =>
        match tracker (ev_frame e) with
        | Quits | Fails => Ok (e, Exception)
        | State r =>
            if fails (ev_frame e) r then Ok (e, Failure)
            else
              let e1 := next (timed (push e (if initialized then special 1 else Some r))) in
              if (frames <=? ev_frame e1)%nat then Ok (e1, Sequence_end) else track fuel' e1 false
        end
    end.
  (** support/client/cli.cpp:735-738 and 750-753: frames [j] to [last] - 1 are filled *)
  Fixpoint fill (n : nat) (e : evaluation) : evaluation := match n with O => e | S n' => fill n' (timed (push e (special 0))) end.
  (** support/client/cli.cpp:623-757 *)
  Fixpoint evaluate (fuel : nat) (e : evaluation) : outcome verdict :=
    if (ev_frame e <? frames)%nat then
      match fuel with
      | O => NoFuel
      | S fuel' =>
          e1 <- skip_frames (S frames) e ;;
          if (ev_frame e1 =? frames)%nat then Ok (Saved (ev_output e1) (ev_timings e1))
          else
            x <- track (S frames) e1 true ;;
            let '(e2, how) := x in
            match how with
            | Exception => Ok Threw
            | _ =>
                if (ev_frame e2 <? frames)%nat then
                  let e3 := timed (push e2 (special 2)) in
                  if (0 <? reinitialize)%nat then
                    let j := Nat.max (S (ev_frame e2)) (Nat.min (ev_frame e2 + reinitialize) frames) in
                    let e4 := fill (j - S (ev_frame e2)) e3 in
                    evaluate fuel' (mkEval j (ev_output e4) (ev_timings e4))
                  else
                    let e4 := fill (frames - S (ev_frame e2)) e3 in
                    Ok (Saved (ev_output e4) (ev_timings e4))
                else evaluate fuel' e2
            end
      end
    else Ok (Saved (ev_output e) (ev_timings e)).
  (** Simplification: restarting the tracker for a reinitialization (742-745) does not fail, and an exception there counts as the
      answer [Fails] for the next frame *)
  Definition run_client : outcome verdict := evaluate (S frames) (mkEval 0 [] 0).
End Loop.
(** support/client/cli.cpp:592-613: the sequence has as many frames as the shorter of the two files; the initialization is the
    ground truth unless a file is given *)
Definition client_main (images : list (list (list N))) (groundtruth : list (option region)) (init_file : option (list (option region)))
  (fails : nat -> region -> bool) (tracker : nat -> answer) (reinitialize : nat) : outcome verdict :=
  let frames := Nat.min (List.length images) (List.length groundtruth) in
  let initialization := match init_file with Some i => i | None => firstn frames groundtruth end in
  run_client frames initialization fails tracker reinitialize.
