(** Specification of the Matlab client: what the arguments mean, and how a session goes *)
From Coq Require Import Floats.SpecFloat.
From Verif Require Import CBase StrMap Props PropsSpec Num Region RegionGeom Image Formats Matlab MatlabSpec MatlabClient.
Local Open Scope Z_scope.

(** ---- Arguments ---- *)
Inductive wish :=
| WDebug (x : spec_float) | WTimeout (seconds : Z) (x : spec_float) | WConnection (c : connection) (name : list N) | WEnvironment (vars : list (list N * list N))
| WData (d : mx) | WDirectory (s : list N) | WLog (s : list N).
(** Its name, in any letter case *)
Definition wish_name (w : wish) : list N :=
  match w with
  | WDebug _ => str "debug" | WTimeout _ _ => str "timeout" | WConnection _ _ => str "connection" | WEnvironment _ => str "environment"
  | WData _ => str "data" | WDirectory _ => str "directory" | WLog _ => str "log"
  end.
Definition wish_value (w : wish) : mx :=
  match w with
  | WDebug x | WTimeout _ x => MDouble 1 1 [x]
  | WConnection _ s | WDirectory s | WLog s => text_array s
  | WEnvironment vars => MStruct (map (fun kv => (fst kv, text_array (snd kv))) vars)
  | WData d => d
  end.
(** Whole seconds, given as a number *)
Definition whole (x : spec_float) (n : Z) : Prop :=
  match x with
  | S754_zero _ => n = 0
  | S754_finite s m e => n = (if s then -1 else 1) * (Z.pos m * 2 ^ Z.max 0 e / 2 ^ Z.max 0 (- e))
  | _ => False
  end.
Definition connection_name (c : connection) : list N := match c with Standard => str "standard" | Explicit => str "explicit" | Socket => str "socket" end.
Definition proper_wish (w : wish) : Prop :=
  match w with
  | WTimeout n x => whole x n /\ in_int n = true
  | WConnection c s => strcasecmp_eq s (connection_name c) = true
  | WEnvironment vars => Forall (fun kv => ~ In 0%N (fst kv) /\ ~ In 0%N (snd kv)) vars
  | WDirectory s | WLog s => ~ In 0%N s
  | _ => True
  end.
Definition written (kw : list N * wish) : list mx := [text_array (fst kw); wish_value (snd kw)].
Definition proper_option (kw : list N * wish) : Prop := strcasecmp_eq (fst kw) (wish_name (snd kw)) = true /\ proper_wish (snd kw).
(** The last value of each kind; variables of several environments come together *)
Fixpoint last_some {A} (f : wish -> option A) (ws : list wish) (default : A) : A :=
  match ws with [] => default | w :: ws => last_some f ws (match f w with Some a => a | None => default end) end.
Definition debugging (w : wish) : option verbosity := match w with WDebug (S754_zero _) => Some Normal | WDebug _ => Some Debug | _ => None end.
Definition seconds_of (w : wish) : option Z := match w with WTimeout n _ => Some n | _ => None end.
Definition connected (w : wish) : option connection := match w with WConnection c _ => Some c | _ => None end.
Definition data_of (w : wish) : option (option mx) := match w with WData d => Some (Some d) | _ => None end.
Definition directory_of (w : wish) : option (list N) := match w with WDirectory s => Some s | _ => None end.
Definition log_of (w : wish) : option (list N) := match w with WLog s => Some s | _ => None end.
Definition variables (ws : list wish) : list (list N * list N) := flat_map (fun w => match w with WEnvironment v => v | _ => [] end) ws.

(** Not the name of an option *)
Definition other_name (k : list N) : Prop := forall w, strcasecmp_eq k (wish_name w) = false.

(** ---- Sessions ---- *)
Definition nothing (a : mx) : Prop :=
  match a with
  | MChar r c _ | MDouble r c _ | MCell r c _ => r * c = 0
  | MU8 d _ | MU16 d _ => fold_right Z.mul 1 d = 0
  | MStruct _ => False
  end.
(** The name of the field for a property *)
Definition field_text (k : list N) : list N :=
  match k with
  | [] => []
  | c :: k => c :: map (fun c => if ((48 <=? c) && (c <=? 57) || (65 <=? c) && (c <=? 90) || (97 <=? c) && (c <=? 122) || (c =? 95))%N then c else 95%N) k
  end.
(** The names of the flags that are set, in a row *)
Definition lists_flags (table : list (list N * Z)) (flags : Z) (a : mx) : Prop :=
  exists names, a = row_of_texts names /\ NoDup names /\ forall n, In n names <-> exists code, In (n, code) table /\ Z.land flags code <> 0.
(** What is known of the tracker: its last answer, and the time it took *)
Definition knowledge := (option region * spec_float * pmap)%type.
(** The structure that a callback gets *)
Definition shows (m : meta) (k : knowledge) (v : mx) : Prop :=
  let '(answer, time, properties) := k in
  exists r fields tr ti tc,
    v = MStruct [(str "region", r); (str "time", MDouble 1 1 [time]); (str "properties", MStruct fields);
      (str "tracker", MStruct [(str "name", text_array (m_name m)); (str "description", text_array (m_description m)); (str "family", text_array (m_family m))]);
      (str "formats", MStruct [(str "region", tr); (str "image", ti)]); (str "channels", tc)] /\
    match answer with Some x => region_to_array x = done r | None => nothing r end /\
    (forall n a, In (n, a) fields <-> exists key value, properties key = Some value /\ n = field_text key /\ a = text_array value) /\
    lists_flags region_table (m_regions m) tr /\ lists_flags image_table (m_images m) ti /\ lists_flags channel_table (m_channels m) tc.
(** What a callback asks for: images for the channels, a region, parameters; something empty is left out *)
Definition asks (m : meta) (i r p : mx) (images : image_list) (reg : option region) (parameters : props) : Prop :=
  ((nothing i /\ images = no_images) \/ (~ nothing i /\ array_to_images i (m_channels m) = done images)) /\
  ((nothing r /\ reg = None) \/ (~ nothing r /\ exists x, reg = Some x /\ array_to_region r = done x)) /\
  match p with
  | MStruct _ => struct_to_parameters p = done parameters
  | MCell _ _ _ => (nothing p /\ parameters = props_create) \/ (~ nothing p /\ cell_to_parameters p = done parameters)
  | _ => parameters = props_create
  end.
Definition no_image (l : image_list) : Prop := Forall (fun im => im = None) l.
(** A new region starts the tracker, again if it runs; otherwise there is a frame *)
Inductive sends : bool -> image_list -> option region -> props -> list event -> Prop :=
| s_start images r p : sends false images (Some r) p [Started images r p]
| s_again images r p : sends true images (Some r) p [Restarted; Started images r p]
| s_frame images p : sends true images None p [Framed images p].
Definition got (p : props) (m : pmap) : Prop := forall key, props_get p key = Ok (m key).
Definition seconds (micros : Z) (x : spec_float) : Prop := (micros = 0 /\ x = S754_zero false) \/ (0 < micros /\ x = to_double false micros 1000000).
(** A session: whether the tracker is running, what is known, the callback's data, what happens, what others see, the result (None is an error) *)
Inductive conversation (m : meta) : bool -> knowledge -> mx -> list turn -> list event -> option mx -> Prop :=
| c_over running k d t ts : t_interrupted t = true \/ t_ready t = false -> conversation m running k d (t :: ts) [] None
| c_hidden running r time pm d t ts : region_to_array r = mex_error -> conversation m running (Some r, time, pm) d (t :: ts) [] None
| c_error running k d t ts v : shows m k v -> t_callback t v d = None -> conversation m running k d (t :: ts) [Called v d] None
| c_unclear running k d t ts v i r p d' : shows m k v -> t_callback t v d = Some (i, r, p, d') ->
    (forall images reg parameters, ~ asks m i r p images reg parameters) -> conversation m running k d (t :: ts) [Called v d] None
| c_end running k d t ts v i r p d' images reg parameters : shows m k v -> t_callback t v d = Some (i, r, p, d') ->
    asks m i r p images reg parameters -> no_image images \/ (running = false /\ reg = None) -> conversation m running k d (t :: ts) [Called v d] (Some d')
| c_lost running k d t ts v i r p d' images reg parameters out : shows m k v -> t_callback t v d = Some (i, r, p, d') ->
    asks m i r p images reg parameters -> ~ no_image images -> sends running images reg parameters out ->
    t_accepted t = false \/ t_answer t = None -> conversation m running k d (t :: ts) (Called v d :: out) None
| c_next running k d t ts v i r p d' images reg parameters out a q time pm events result : shows m k v -> t_callback t v d = Some (i, r, p, d') ->
    asks m i r p images reg parameters -> ~ no_image images -> sends running images reg parameters out ->
    t_accepted t = true -> t_answer t = Some (a, q) -> seconds (t_micros t) time -> got q pm ->
    conversation m true (Some a, time, pm) d' ts events result -> conversation m running k d (t :: ts) (Called v d :: out ++ events) result.
(** Answers as they come from a tracker *)
Definition sane_answer (t : turn) : Prop :=
  0 <= t_micros t /\ match t_answer t with Some (_, p) => exists ops, props_run ops = Ok p /\ c_strings (pm_run ops) | None => True end.
Definition sane_meta (m : meta) : Prop := ~ In 0%N (m_name m) /\ ~ In 0%N (m_description m) /\ ~ In 0%N (m_family m).
(** No property is missing in a later answer *)
Definition has (p : props) (key : list N) : Prop := exists v, props_get p key = Ok (Some v).
Fixpoint lasting (seen : list N -> Prop) (ts : list turn) : Prop :=
  match ts with
  | [] => True
  | t :: ts => match t_answer t with None => lasting seen ts | Some (_, p) => (forall key, seen key -> has p key) /\ lasting (has p) ts end
  end.
(** How the calls of the callback and the requests to the tracker follow each other *)
Inductive regular : bool -> list event -> Prop :=
| r_none running : regular running []
| r_call running v d : regular running [Called v d]
| r_start v d images r p events : regular true events -> regular false (Called v d :: Started images r p :: events)
| r_again v d images r p events : regular true events -> regular true (Called v d :: Restarted :: Started images r p :: events)
| r_frame v d images p events : regular true events -> regular true (Called v d :: Framed images p :: events).
Definition calls (events : list event) : nat := List.length (filter (fun e => match e with Called _ _ => true | _ => false end) events).
Definition sent (events : list event) : nat := List.length (filter (fun e => match e with Started _ _ _ | Framed _ _ => true | _ => false end) events).
(** A callback is told that the tracker's answer has a property *)
Definition showing (v : mx) (name : list N) (value : mx) : Prop :=
  exists fields ps, v = MStruct fields /\ In (str "properties", MStruct ps) fields /\ In (name, value) ps.
