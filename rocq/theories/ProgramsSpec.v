(** Specification of the command line programs: options as the help texts describe them *)
From Verif Require Import CBase Image Num FloatOps Sockets Programs.
Local Open Scope Z_scope.

(** The options of the help texts with their arguments *)
Inductive opt :=
| OHelp | ODebug | OSilent | OExplicit | OSockets | OQuery | OWindow
| OImages (f : text) | OGroundtruth (f : text) | OOutput (f : text) | OInit (f : text) | OTiming (f : text) | OVideo (f : text)
| OThreshold (t : text) | OOffset (n : Z) | OTimeout (n : Z) | ORounds (n : Z)
| OEnv (k v : text) | OParam (k v : text).
Definition opt_letter (o : opt) : N :=
  match o with
  | OHelp => letter "h" | ODebug => letter "d" | OSilent => letter "s" | OExplicit => letter "x" | OSockets => letter "X" | OQuery => letter "Q" | OWindow => letter "g"
  | OImages _ => letter "I" | OGroundtruth _ => letter "G" | OOutput _ => letter "O" | OInit _ => letter "S" | OTiming _ => letter "T" | OVideo _ => letter "V"
  | OThreshold _ => letter "f" | OOffset _ => letter "r" | OTimeout _ => letter "t" | ORounds _ => letter "I"
  | OEnv _ _ => letter "e" | OParam _ _ => letter "p"
  end.
Definition opt_arg (o : opt) : option text :=
  match o with
  | OHelp | ODebug | OSilent | OExplicit | OSockets | OQuery | OWindow => None
  | OImages f | OGroundtruth f | OOutput f | OInit f | OTiming f | OVideo f | OThreshold f => Some f
  | OOffset n | OTimeout n | ORounds n => Some (print_Z n)
  | OEnv k v | OParam k v => Some (k ++ str "=" ++ v)
  end.
(** Texts of a command line: no null bytes *)
Definition plain (t : text) : Prop := Forall (fun c => c <> 0%N) t.
Definition opt_ok (o : opt) : Prop :=
  (forall a, opt_arg o = Some a -> plain a) /\
  match o with OOffset n | ORounds n => 1 <= n <= 2147483647 | OTimeout n => 0 <= n <= 2147483647 | OEnv k _ | OParam k _ => ~ In (letter "=") k | _ => True end.
(** A number between 0 and 1 *)
Definition clipped (x : spec_float) : spec_float := if flt x (S754_zero false) then S754_zero false else if flt float_one x then float_one else x.
(** What the options are for *)
Definition effect (o : opt) (s : settings) : settings :=
  match o with
  | OHelp | OWindow => s
  | ODebug => with_verbosity s Debugging | OSilent => with_verbosity s Silent
  | OExplicit => with_connection s ExplicitStreams | OSockets => with_connection s Sockets.Sockets
  | OQuery => with_query s true
  | OImages f => with_images s f | OGroundtruth f => with_groundtruth s f | OOutput f => with_output s f | OInit f => with_initialization s f
  | OTiming f => with_timing s f | OVideo f => with_video s f
  | OThreshold t => with_threshold s (clipped (float_of_double (atof t)))
  | OOffset n => with_reinitialize s n | OTimeout n => with_timeout s n | ORounds n => with_rounds s n
  | OEnv k v => with_environment s (put k v (t_environment s))
  | OParam k v => with_properties s (t_properties s ++ [(k, v)])
  end.
(** Which program has which option *)
Definition client_has (o : opt) : bool := match o with OVideo _ | ORounds _ | OWindow => false | _ => true end.
Definition test_has (o : opt) : bool :=
  match o with OHelp | ODebug | OExplicit | OSockets | OTimeout _ | ORounds _ | OEnv _ _ | OParam _ _ => true | _ => false end.
Definition player_has (o : opt) : bool :=
  match o with OHelp | ODebug | OExplicit | OSockets | OTimeout _ | OVideo _ | OWindow | OEnv _ _ | OParam _ _ => true | _ => false end.
Definition is_rounds (o : opt) : bool := match o with ORounds _ => true | _ => false end.
Definition is_window (o : opt) : bool := match o with OWindow => true | _ => false end.

(** Ways to write options: several letters in a word, the argument in the same word or in the next *)
Inductive piece := Letters (o : opt) (more : list opt) | Valued (before : list opt) (o : opt) (attached : bool).
Definition piece_opts (p : piece) : list opt := match p with Letters o more => o :: more | Valued before o _ => before ++ [o] end.
Definition flag (o : opt) : Prop := opt_arg o = None.
Definition piece_ok (p : piece) : Prop :=
  match p with
  | Letters o more => Forall flag (o :: more)
  | Valued before o attached => Forall flag before /\ opt_arg o <> None /\ (attached = true -> opt_arg o <> Some [])
  end.
Definition arg_text (o : opt) : text := match opt_arg o with Some a => a | None => [] end.
Definition piece_words (p : piece) : list text :=
  match p with
  | Letters o more => [str "-" ++ map opt_letter (o :: more)]
  | Valued before o true => [str "-" ++ map opt_letter before ++ [opt_letter o] ++ arg_text o]
  | Valued before o false => [str "-" ++ map opt_letter before ++ [opt_letter o]; arg_text o]
  end.
(** The tracker command follows, after two dashes or beginning with a word that is no option *)
Definition command_follows (tail words : list text) : Prop :=
  words <> [] /\ (tail = str "--" :: words \/ (tail = words /\ match words with (c :: d :: _) :: _ => c <> letter "-" | _ => True end)).
Definition is_help (o : opt) : bool := match o with OHelp => true | _ => false end.
Definition expected (opts : list opt) (words : list text) : course (settings * list text) :=
  if existsb is_help opts then Exit 0 else Go (fold_left (fun s o => effect o s) opts initial, words).
Definition all_opts (ps : list piece) : list opt := concat (map piece_opts ps).

(** The value of a variable *)
Fixpoint lookup (k : text) (l : list (text * text)) : option text :=
  match l with [] => None | (k', v) :: l => if list_eq_dec N.eq_dec k' k then Some v else lookup k l end.

Definition sample_pieces : list piece :=
  [Letters ODebug [OSockets]; Valued [] (OTimeout 5) true; Valued [OExplicit] (OImages (str "list of images.txt")) false;
   Valued [] (OEnv (str "PATH") (str "/bin=1")) false; Valued [] (OThreshold (str "0.5")) true; Valued [] (OOutput []) false].
Definition sample_test_pieces : list piece := [Letters ODebug [OSockets]; Valued [] (OTimeout 5) true; Valued [OExplicit] (OParam (str "a") []) false].

(** ---- The test utility ---- *)

(** A tracker that works for [rounds] rounds: it can be started, takes images of one of the three kinds, and answers everything it is sent *)
Definition works (rounds : nat) (k : tracker) : Prop :=
  k_starts k = true /\ (exists f, In f [TRAX_IMAGE_PATH; TRAX_IMAGE_MEMORY; TRAX_IMAGE_BUFFER] /\ Z.land (k_formats k) f <> 0) /\
  forall round, (round < rounds)%nat -> k_alive k round = true /\ k_initialize k round = true /\
    forall frame, (frame < 20)%nat -> k_answer k round frame = true /\ k_frame k round frame = true.
(** A connection on which wait has failed is not used again (C57, C77) *)
Definition connected (k : tracker) : Prop := forall round frame, k_answer k round frame = false -> k_ready k round frame = false.
(** What is sent in a round: an initialization with one object, or three; then twenty frames, with a further object in every fifth *)
Definition round_script (multi : bool) : list event :=
  if multi then Initialized 3 :: concat (repeat [Framed 0; Framed 0; Framed 0; Framed 1; Framed 0] 4) else Initialized 1 :: repeat (Framed 0) 20.
Definition script (rounds : nat) (multi : bool) : list event := concat (repeat (round_script multi) rounds).
Definition sample_tracker (multi : bool) : tracker :=
  mkTracker true TRAX_IMAGE_MEMORY multi (fun _ => true) (fun _ => true) (fun _ _ => true) (fun _ _ => true) (fun _ _ => true).
(** A tracker that does not answer the seventh frame *)
Definition silent_tracker : tracker :=
  mkTracker true TRAX_IMAGE_PATH true (fun _ => true) (fun _ => true) (fun _ i => (i <? 7)%nat) (fun _ _ => false) (fun _ _ => true).

(** ---- The player ---- *)

(** The user has not confirmed *)
Definition undecided (us : list user) : Prop := ~ In KeySpace us.
