(** Model of the programs traxclient, traxtest and traxplayer (support/client/cli.cpp, tester.cpp, player.cpp) before and around the protocol:
    their command lines, the run of the test utility, and what the player does with the tracker.
    Command lines are read by getopt.c of the repository; GCC builds use the function of the C library instead, which treats command lines in the
    documented form alike (it also accepts options after the tracker command) *)
From Verif Require Import CBase Image Num FloatOps Sockets.
Local Open Scope Z_scope.

Definition text := list N.
Definition letter (a : Ascii.ascii) : N := Ascii.N_of_ascii a.
(** A byte of a text of C, with its terminating null *)
Definition char_at (s : text) (i : nat) : outcome N :=
  match nth_error s i with Some c => Ok c | None => if Nat.eqb i (List.length s) then Ok 0%N else UB end.
Definition word_at (argv : list text) (i : nat) : outcome text := match nth_error argv i with Some w => Ok w | None => UB end.

(** ---- Options ---- *)

(** support/client/getopt.c:28-39: the variable optind and the static variable sp *)
Record scan := mkScan { n_ind : nat; n_sp : nat }.
(** What getopt returns: -1, '?' or an option with optarg (None: NULL) *)
Inductive found := NoMore | Wrong | Found (c : N) (arg : option text).
(** strchr: what follows the character *)
Fixpoint after (c : N) (l : text) : option text := match l with [] => None | x :: l => if (x =? c)%N then Some l else after c l end.
Definition takes_argument (l : text) : bool := match l with c :: _ => (c =? letter ":")%N | [] => false end.
(** support/client/getopt.c:69-75 and 103-109 *)
Definition forward (argv : list text) (n : scan) : outcome scan :=
  w <- word_at argv (n_ind n) ;; c <- char_at w (S (n_sp n)) ;;
  Ok (if (c =? 0)%N then mkScan (S (n_ind n)) 1 else mkScan (n_ind n) (S (n_sp n))).
(** support/client/getopt.c:81-99: the argument of an option *)
Definition argument (argv : list text) (n : scan) (c : N) : outcome (found * scan) :=
  w <- word_at argv (n_ind n) ;; x <- char_at w (S (n_sp n)) ;;
  if negb (x =? 0)%N then Ok (Found c (Some (skipn (S (n_sp n)) w)), mkScan (S (n_ind n)) 1)
  else if (List.length argv <=? S (n_ind n))%nat then Ok (Wrong, mkScan (S (n_ind n)) 1)
  else a <- word_at argv (S (n_ind n)) ;; Ok (Found c (Some a), mkScan (S (S (n_ind n))) 1).
(** support/client/getopt.c:47-61: is there a word with options? *)
Definition starts (argv : list text) (n : scan) : outcome (bool * scan) :=
  if (List.length argv <=? n_ind n)%nat then Ok (false, n)
  else
    w <- word_at argv (n_ind n) ;; a <- char_at w 0 ;;
    if negb (a =? letter "-")%N then Ok (false, n)
    else
      b <- char_at w 1 ;;
      if (b =? 0)%N then Ok (false, n)
      else if match w with [x; y] => ((x =? letter "-") && (y =? letter "-"))%N | _ => false end then Ok (false, mkScan (S (n_ind n)) (n_sp n))
      else Ok (true, n).
(** support/client/getopt.c:36-117 getopt *)
Definition getopt (argv : list text) (opts : text) (n : scan) : outcome (found * scan) :=
  r <- (if Nat.eqb (n_sp n) 1 then starts argv n else Ok (true, n)) ;;
  let '(go, n) := r in
  if negb go then Ok (NoMore, n)
  else
    w <- word_at argv (n_ind n) ;; c <- char_at w (n_sp n) ;;
    if (c =? 0)%N then UB
    else
      match (if (c =? letter ":")%N then None else after c opts) with
      | None => n <- forward argv n ;; Ok (Wrong, n)
      | Some rest => if takes_argument rest then argument argv n c else n <- forward argv n ;; Ok (Found c None, n)
      end.

(** ---- Settings ---- *)

Inductive verbosity := Silent | Normal | Debugging.
Record settings := mkSettings {
  t_verbosity : verbosity; t_connection : connection; t_query : bool; t_timeout : Z; t_threshold : spec_float; t_reinitialize : Z; t_rounds : Z;
  t_images : text; t_groundtruth : text; t_output : text; t_initialization : text; t_timing : text; t_video : text;
  t_environment : list (text * text); t_properties : list (text * text) }.
(** support/client/cli.cpp:437-457, tester.cpp:173-185, player.cpp:224-235: the initial values *)
Definition initial : settings :=
  mkSettings Normal DefaultStreams false 30 (S754_finite true 8388608 (-23)) 0 1 (str "images.txt") (str "groundtruth.txt") (str "output.txt") [] [] (str "input.avi") [] [].
Definition with_verbosity (s : settings) v := mkSettings v (t_connection s) (t_query s) (t_timeout s) (t_threshold s) (t_reinitialize s) (t_rounds s) (t_images s) (t_groundtruth s) (t_output s) (t_initialization s) (t_timing s) (t_video s) (t_environment s) (t_properties s).
Definition with_connection (s : settings) v := mkSettings (t_verbosity s) v (t_query s) (t_timeout s) (t_threshold s) (t_reinitialize s) (t_rounds s) (t_images s) (t_groundtruth s) (t_output s) (t_initialization s) (t_timing s) (t_video s) (t_environment s) (t_properties s).
Definition with_query (s : settings) v := mkSettings (t_verbosity s) (t_connection s) v (t_timeout s) (t_threshold s) (t_reinitialize s) (t_rounds s) (t_images s) (t_groundtruth s) (t_output s) (t_initialization s) (t_timing s) (t_video s) (t_environment s) (t_properties s).
Definition with_timeout (s : settings) v := mkSettings (t_verbosity s) (t_connection s) (t_query s) v (t_threshold s) (t_reinitialize s) (t_rounds s) (t_images s) (t_groundtruth s) (t_output s) (t_initialization s) (t_timing s) (t_video s) (t_environment s) (t_properties s).
Definition with_threshold (s : settings) v := mkSettings (t_verbosity s) (t_connection s) (t_query s) (t_timeout s) v (t_reinitialize s) (t_rounds s) (t_images s) (t_groundtruth s) (t_output s) (t_initialization s) (t_timing s) (t_video s) (t_environment s) (t_properties s).
Definition with_reinitialize (s : settings) v := mkSettings (t_verbosity s) (t_connection s) (t_query s) (t_timeout s) (t_threshold s) v (t_rounds s) (t_images s) (t_groundtruth s) (t_output s) (t_initialization s) (t_timing s) (t_video s) (t_environment s) (t_properties s).
Definition with_rounds (s : settings) v := mkSettings (t_verbosity s) (t_connection s) (t_query s) (t_timeout s) (t_threshold s) (t_reinitialize s) v (t_images s) (t_groundtruth s) (t_output s) (t_initialization s) (t_timing s) (t_video s) (t_environment s) (t_properties s).
Definition with_images (s : settings) v := mkSettings (t_verbosity s) (t_connection s) (t_query s) (t_timeout s) (t_threshold s) (t_reinitialize s) (t_rounds s) v (t_groundtruth s) (t_output s) (t_initialization s) (t_timing s) (t_video s) (t_environment s) (t_properties s).
Definition with_groundtruth (s : settings) v := mkSettings (t_verbosity s) (t_connection s) (t_query s) (t_timeout s) (t_threshold s) (t_reinitialize s) (t_rounds s) (t_images s) v (t_output s) (t_initialization s) (t_timing s) (t_video s) (t_environment s) (t_properties s).
Definition with_output (s : settings) v := mkSettings (t_verbosity s) (t_connection s) (t_query s) (t_timeout s) (t_threshold s) (t_reinitialize s) (t_rounds s) (t_images s) (t_groundtruth s) v (t_initialization s) (t_timing s) (t_video s) (t_environment s) (t_properties s).
Definition with_initialization (s : settings) v := mkSettings (t_verbosity s) (t_connection s) (t_query s) (t_timeout s) (t_threshold s) (t_reinitialize s) (t_rounds s) (t_images s) (t_groundtruth s) (t_output s) v (t_timing s) (t_video s) (t_environment s) (t_properties s).
Definition with_timing (s : settings) v := mkSettings (t_verbosity s) (t_connection s) (t_query s) (t_timeout s) (t_threshold s) (t_reinitialize s) (t_rounds s) (t_images s) (t_groundtruth s) (t_output s) (t_initialization s) v (t_video s) (t_environment s) (t_properties s).
Definition with_video (s : settings) v := mkSettings (t_verbosity s) (t_connection s) (t_query s) (t_timeout s) (t_threshold s) (t_reinitialize s) (t_rounds s) (t_images s) (t_groundtruth s) (t_output s) (t_initialization s) (t_timing s) v (t_environment s) (t_properties s).
Definition with_environment (s : settings) v := mkSettings (t_verbosity s) (t_connection s) (t_query s) (t_timeout s) (t_threshold s) (t_reinitialize s) (t_rounds s) (t_images s) (t_groundtruth s) (t_output s) (t_initialization s) (t_timing s) (t_video s) v (t_properties s).
Definition with_properties (s : settings) v := mkSettings (t_verbosity s) (t_connection s) (t_query s) (t_timeout s) (t_threshold s) (t_reinitialize s) (t_rounds s) (t_images s) (t_groundtruth s) (t_output s) (t_initialization s) (t_timing s) (t_video s) (t_environment s) v.

(** A program ends (exit status) or goes on *)
Inductive course (A : Type) := Exit (status : Z) | Go (a : A).
Arguments Exit {A} _. Arguments Go {A} _.
(** string(optarg), atoi(optarg), strchr(optarg, ..): not for NULL *)
Definition given {A} (arg : option text) (f : text -> A) : outcome A := match arg with Some a => Ok (f a) | None => UB end.
(** std::map: the variables, each once *)
Fixpoint put (k v : text) (l : list (text * text)) : list (text * text) :=
  match l with
  | [] => [(k, v)]
  | (k', v') :: l => if list_eq_dec N.eq_dec k' k then (k, v) :: l else (k', v') :: put k v l
  end.
(** The text before and after the first '=' *)
Fixpoint assignment (l : text) : option (text * text) :=
  match l with
  | [] => None
  | c :: l => if (c =? letter "=")%N then Some ([], l) else match assignment l with Some (k, v) => Some (c :: k, v) | None => None end
  end.
Definition set_env (s : settings) (a : text) : settings := match assignment a with Some (k, v) => with_environment s (put k v (t_environment s)) | None => s end.
(** Properties are kept as the calls of set; what these do is C12 *)
Definition set_prop (s : settings) (a : text) : settings := match assignment a with Some (k, v) => with_properties s (t_properties s ++ [(k, v)]) | None => s end.
(** cli.cpp:493: MIN(1, MAX(0, (float) atof(optarg))) *)
Definition threshold (a : text) : spec_float := fMIN float_one (fMAX (S754_zero false) (float_of_double (atof a))).

(** support/client/cli.cpp:461-523: the switch; [help] and the exception are ends of the program *)
Definition client_option (c : N) (arg : option text) (s : settings) : outcome (course settings) :=
  if (c =? letter "h")%N then Ok (Exit 0)
  else if (c =? letter "d")%N then Ok (Go (with_verbosity s Debugging))
  else if (c =? letter "s")%N then Ok (Go (with_verbosity s Silent))
  else if (c =? letter "x")%N then Ok (Go (with_connection s ExplicitStreams))
  else if (c =? letter "X")%N then Ok (Go (with_connection s Sockets.Sockets))
  else if (c =? letter "Q")%N then Ok (Go (with_query s true))
  else if (c =? letter "I")%N then s <- given arg (with_images s) ;; Ok (Go s)
  else if (c =? letter "G")%N then s <- given arg (with_groundtruth s) ;; Ok (Go s)
  else if (c =? letter "O")%N then s <- given arg (with_output s) ;; Ok (Go s)
  else if (c =? letter "S")%N then s <- given arg (with_initialization s) ;; Ok (Go s)
  else if (c =? letter "f")%N then s <- given arg (fun a => with_threshold s (threshold a)) ;; Ok (Go s)
  else if (c =? letter "r")%N then s <- given arg (fun a => with_reinitialize s (Z.max 1 (atoi a))) ;; Ok (Go s)
  else if (c =? letter "t")%N then s <- given arg (fun a => with_timeout s (Z.max 0 (atoi a))) ;; Ok (Go s)
  else if (c =? letter "T")%N then s <- given arg (with_timing s) ;; Ok (Go s)
  else if (c =? letter "e")%N then s <- given arg (set_env s) ;; Ok (Go s)
  else if (c =? letter "p")%N then s <- given arg (set_prop s) ;; Ok (Go s)
  else Ok (Exit (-1)).
(** support/client/tester.cpp:191-229 *)
Definition test_option (c : N) (arg : option text) (s : settings) : outcome (course settings) :=
  if (c =? letter "h")%N then Ok (Exit 0)
  else if (c =? letter "d")%N then Ok (Go (with_verbosity s Debugging))
  else if (c =? letter "x")%N then Ok (Go (with_connection s ExplicitStreams))
  else if (c =? letter "X")%N then Ok (Go (with_connection s Sockets.Sockets))
  else if (c =? letter "t")%N then s <- given arg (fun a => with_timeout s (Z.max 0 (atoi a))) ;; Ok (Go s)
  else if (c =? letter "I")%N then s <- given arg (fun a => with_rounds s (Z.max 1 (atoi a))) ;; Ok (Go s)
  else if (c =? letter "e")%N then s <- given arg (set_env s) ;; Ok (Go s)
  else if (c =? letter "p")%N then s <- given arg (set_prop s) ;; Ok (Go s)
  else Ok (Exit 1).
(** support/client/player.cpp:242-280 *)
Definition player_option (c : N) (arg : option text) (s : settings) : outcome (course settings) :=
  if (c =? letter "h")%N then Ok (Exit 0)
  else if (c =? letter "d")%N then Ok (Go (with_verbosity s Debugging))
  else if (c =? letter "x")%N then Ok (Go (with_connection s ExplicitStreams))
  else if (c =? letter "X")%N then Ok (Go (with_connection s Sockets.Sockets))
  else if (c =? letter "V")%N then s <- given arg (with_video s) ;; Ok (Go s)
  else if (c =? letter "t")%N then s <- given arg (fun a => with_timeout s (Z.max 0 (atoi a))) ;; Ok (Go s)
  else if (c =? letter "e")%N then s <- given arg (set_env s) ;; Ok (Go s)
  else if (c =? letter "p")%N then s <- given arg (set_prop s) ;; Ok (Go s)
  else Ok (Exit (-1)).
(** cli.cpp:91, tester.cpp:169, player.cpp:190 *)
Definition client_options : text := str "hsdI:G:f:O:S:r:t:T:p:e:xXQ".
Definition test_options : text := str "hdt:p:e:xXI".
Definition player_options : text := str "hdV:G:t:p:e:xXg".

(** cli.cpp:460-539, tester.cpp:190-245, player.cpp:241-296: the loop over the options; [failure] is the status after the exception
    "Unknown switch".  Then the words of the tracker command: without any the program ends *)
Fixpoint options (fuel : nat) (opts : text) (handle : N -> option text -> settings -> outcome (course settings)) (failure : Z) (argv : list text) (n : scan) (s : settings)
  : outcome (course (settings * list text)) :=
  match fuel with
  | O => NoFuel
  | S fuel =>
      r <- getopt argv opts n ;;
      match r with
      | (NoMore, n) => Ok (match skipn (n_ind n) argv with [] => Exit (-1) | words => Go (s, words) end)
      | (Wrong, _) => Ok (Exit failure)
      | (Found c arg, n) => x <- handle c arg s ;; match x with Exit z => Ok (Exit z) | Go s => options fuel opts handle failure argv n s end
      end
  end.
Definition enough (argv : list text) : nat := S (List.length (concat argv) + List.length argv).
Definition traxclient (argv : list text) : outcome (course (settings * list text)) :=
  options (enough argv) client_options client_option (-1) argv (mkScan 1 1) initial.
Definition traxtest (argv : list text) : outcome (course (settings * list text)) :=
  options (enough argv) test_options test_option 1 argv (mkScan 1 1) initial.
Definition traxplayer (argv : list text) : outcome (course (settings * list text)) :=
  options (enough argv) player_options player_option (-1) argv (mkScan 1 1) initial.

(** ---- The run of traxtest ---- *)

(** A tracker as the program sees it.  [k_initialize] round: initialize gives true (false, and an exception of the call, lead to the same end);
    [k_answer] round frame: wait gives true; [k_ready] round frame: ready() after wait gave false; [k_frame]: frame gives true *)
Record tracker := mkTracker { k_starts : bool; k_formats : Z; k_multi : bool; k_alive : nat -> bool; k_initialize : nat -> bool;
  k_answer : nat -> nat -> bool; k_ready : nat -> nat -> bool; k_frame : nat -> nat -> bool }.
(** What it is sent, with the number of objects *)
Inductive event := Initialized (objects : nat) | Framed (objects : nat).
(** support/client/tester.cpp:251-283: the image by the formats of the tracker *)
Inductive test_image := JpegBuffer | RawMemory | JpegFile.
Definition choose_image (formats : Z) : option test_image :=
  if negb (Z.land formats TRAX_IMAGE_BUFFER =? 0) then Some JpegBuffer
  else if negb (Z.land formats TRAX_IMAGE_MEMORY =? 0) then Some RawMemory
  else if negb (Z.land formats TRAX_IMAGE_PATH =? 0) then Some JpegFile
  else None.
(** support/client/tester.cpp:262-269: the bytes of the image in memory, 320 by 240 with three channels; None: not set.  [resource] is
    static.bin with 230400 bytes (tester_resources.c:7673) *)
Definition raw_byte (resource : Z -> N) (i : Z) : option N := if (0 <=? i) && (i <? 320 * 240) then Some (resource i) else None.
(** How a round goes on *)
Inductive step := RoundDone | Stopped | Thrown.
(** support/client/tester.cpp:318-366 *)
Fixpoint test_frames (n : nat) (k : tracker) (round frame : nat) : list event * step :=
  match n with
  | O => ([], RoundDone)
  | S n =>
      if k_answer k round frame then
        let e := Framed (if k_multi k && Nat.eqb (Nat.modulo frame 5) 3 then 1 else 0) in
        if k_frame k round frame then let '(l, s) := test_frames n k round (S frame) in (e :: l, s) else ([e], Thrown)
      else ([], if k_ready k round frame then Stopped else Thrown)
  end.
(** support/client/tester.cpp:290-367: [todo] rounds are left *)
Fixpoint test_rounds (todo : nat) (k : tracker) (round : nat) : list event * Z :=
  match todo with
  | O => ([], 0)
  | S todo =>
      if negb (k_alive k round) then ([], 1)
      else
        let e := Initialized (if k_multi k then 3 else 1) in
        if negb (k_initialize k round) then ([e], 1)
        else
          let '(l, s) := test_frames 20 k round 0 in
          match s with
          | Thrown => (e :: l, 1)
          | _ => let '(l', z) := test_rounds todo k (S round) in (e :: l ++ l', z)
          end
  end.
(** support/client/tester.cpp:247-368: what is sent, and the exit status *)
Definition run_test (rounds : nat) (k : tracker) : list event * Z :=
  if negb (k_starts k) then ([], 1) else match choose_image (k_formats k) with None => ([], 1) | Some _ => test_rounds rounds k 0 end.

(** ---- The player ---- *)

(** What the user does in the window *)
Inductive user := Press (x y : Z) | Release (x y : Z) | KeyQ | KeySpace.
(** support/client/player.cpp:74-79 RegionCapture, without the point that is only drawn *)
Record capture := mkCapture { y_dragging : bool; y_start : Z * Z; y_region : option (Z * Z * Z * Z) }.
(** support/client/player.cpp:81-99 on_mouse, 131-141 the keys: the capture, and whether the loop goes on *)
Definition user_does (u : user) (c : capture) : capture * bool :=
  match u with
  | Press x y => (mkCapture true (x, y) (y_region c), true)
  | Release x y => (mkCapture false (y_start c) (Some (fst (y_start c), snd (y_start c), x - fst (y_start c), y - snd (y_start c))), true)
  | KeyQ => (mkCapture (y_dragging c) (y_start c) None, true)
  | KeySpace => (c, false)
  end.
(** support/client/player.cpp:101-149 get_region_interactive; None: the user never presses space *)
Fixpoint interactive (us : list user) (c : capture) : option (option (Z * Z * Z * Z) * list user) :=
  match us with
  | [] => None
  | u :: us => let '(c, run) := user_does u c in if run then interactive us c else Some (y_region c, us)
  end.
(** The player until its first message to the tracker.  [frames]: the number of frames of the video; [process] whether the tracker runs: the
    constructor of TrackerProcess starts nothing (client.cpp:226-268) *)
Inductive play := Closed | Complains | Plays (region : Z * Z * Z * Z) | Forever.
Definition play_first (frames : nat) (process : bool) (us : list user) : play :=
  match frames with
  | O => Closed
  | _ =>
      match interactive us (mkCapture false (0, 0) None) with
      | None => Forever
      | Some (None, _) => Closed
      | Some (Some r, _) => if process then Plays r else Complains
      end
  end.
(** support/client/player.cpp:298-340: the tracker object is made, query is not called, the first region is read and ready() is asked.
    ready() is false without a process (client.cpp:886-892) *)
Definition run_player (frames : nat) (us : list user) : play := let process := false in play_first frames process us.
