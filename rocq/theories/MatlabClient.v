(** Model of support/matlab/traxclient.cpp: a Matlab function that runs a tracker and asks a callback what to send.
    Simplifications: arrays and errors as in Matlab.v; the second argument is taken for a function handle (such arrays are not
    modelled); output of the log is left out; the tracker process is given by what its calls give, turn by turn (a restart that
    fails counts as a request that is not accepted). *)
From Coq Require Import Floats.SpecFloat.
From Verif Require Import CBase StrMap Props Num Region RegionGeom Image Formats Matlab.
Local Open Scope Z_scope.

(** ---- Arguments ---- *)

Inductive verbosity := Silent | Normal | Debug.
Inductive connection := Standard | Explicit | Socket.
(** traxclient.cpp:326-334, 349-350: the variables that the arguments change; the environment is a std::map *)
Record options := mkOptions { p_verbosity : verbosity; p_timeout : Z; p_connection : connection; p_environment : list (list N * list N);
  p_data : option mx; p_directory : list N; p_log : list N }.
Definition no_options : options := mkOptions Silent 30 Standard [] None [] [].
(** traxclient.cpp:205-225 *)
Definition get_connection_mode (s : list N) : result connection :=
  let s := map to_lower s in
  if bytes_eqb s (str "standard") then done Standard
  else if bytes_eqb s (str "explicit") then done Explicit
  else if bytes_eqb s (str "socket") then done Socket
  else mex_error.
(** traxclient.cpp:227-244 *)
Fixpoint env_loop (fields : list (list N * mx)) (env : list (list N * list N)) : result (list (list N * list N)) :=
  match fields with
  | [] => done env
  | (name, value) :: fields' =>
      match value with
      | MChar _ _ _ => s <~ get_string value ;; env_loop fields' (set_custom env (c_string name) s)
      | _ => mex_error
      end
  end.
Definition struct_to_env (a : mx) (env : list (list N * list N)) : result (list (list N * list N)) :=
  match a with MStruct fields => env_loop fields env | _ => mex_error end.
(** x != 0, also for a NaN *)
Definition nonzero (x : spec_float) : bool := match x with S754_zero _ => false | _ => true end.
(** traxclient.cpp:354-368: one pair *)
Definition client_argument (prhs : list mx) (i : Z) (o : options) : result options :=
  a <- fetch prhs i ;;
  key <~ get_string a ;;
  code <~ get_argument_code key ;;
  v <- fetch prhs (i + 1) ;;
  match code with
  | ArgDebug =>
      x <- get_scalar v ;;
      done (mkOptions (if nonzero x then Debug else Normal) (p_timeout o) (p_connection o) (p_environment o) (p_data o) (p_directory o) (p_log o))
  | ArgTimeout =>
      x <- get_scalar v ;; t <- int_of_float x ;;
      done (mkOptions (p_verbosity o) t (p_connection o) (p_environment o) (p_data o) (p_directory o) (p_log o))
  | ArgConnection =>
      s <~ get_string v ;; c <~ get_connection_mode s ;;
      done (mkOptions (p_verbosity o) (p_timeout o) c (p_environment o) (p_data o) (p_directory o) (p_log o))
  | ArgEnvironment =>
      e <~ struct_to_env v (p_environment o) ;;
      done (mkOptions (p_verbosity o) (p_timeout o) (p_connection o) e (p_data o) (p_directory o) (p_log o))
  | ArgData => done (mkOptions (p_verbosity o) (p_timeout o) (p_connection o) (p_environment o) (Some v) (p_directory o) (p_log o))
  | ArgDirectory =>
      s <~ get_string v ;; done (mkOptions (p_verbosity o) (p_timeout o) (p_connection o) (p_environment o) (p_data o) s (p_log o))
  | ArgLog =>
      s <~ get_string v ;; done (mkOptions (p_verbosity o) (p_timeout o) (p_connection o) (p_environment o) (p_data o) (p_directory o) s)
  | _ => mex_error
  end.
(** traxclient.cpp:338-372, 383: the options and the command *)
Definition client_arguments (prhs : list mx) : result (options * list N) :=
  let nrhs := Z.of_nat (List.length prhs) in
  if nrhs <? 2 then mex_error
  else
    a <- fetch prhs 0 ;;
    match a with
    | MChar _ _ _ =>
        o <~ pairs 2 nrhs (client_argument prhs) no_options ;;
        s <~ get_string a ;; done (o, s)
    | _ => mex_error
    end.

(** ---- The callback ---- *)

(** What the session knows of the tracker: name, description, family, formats of regions and images, channels *)
Record meta := mkMeta { m_name : list N; m_description : list N; m_family : list N; m_regions : Z; m_images : Z; m_channels : Z }.
(** traxclient.cpp:88-93; no region before the first answer *)
Record status := mkStatus { st_region : option region; st_time : spec_float; st_properties : props }.
Definition empty_array : mx := MDouble 0 0 [].
(** helpers.cpp:258-312 for a Region without a value: a NULL pointer, and a field that is set to NULL reads as [] *)
Definition region_field (r : option region) : result mx := match r with Some r => region_to_array r | None => done empty_array end.
(** traxclient.cpp:248-282 *)
Definition status_struct (m : meta) (s : status) : result mx :=
  r <~ region_field (st_region s) ;;
  done (MStruct
    [(str "region", r); (str "time", MDouble 1 1 [st_time s]); (str "properties", parameters_to_struct (st_properties s));
     (str "tracker", MStruct [(str "name", set_string (m_name m)); (str "description", set_string (m_description m)); (str "family", set_string (m_family m))]);
     (str "formats", MStruct [(str "region", decode_region (m_regions m)); (str "image", decode_image (m_images m))]);
     (str "channels", decode_channels (m_channels m))]).
(** mxIsEmpty *)
Definition is_empty (a : mx) : bool :=
  match a with
  | MChar r c _ | MDouble r c _ | MCell r c _ => (r =? 0) || (c =? 0)
  | MU8 d _ | MU16 d _ => existsb (fun n => n =? 0) d
  | MStruct _ => false
  end.
(** traxclient.cpp:95-100 *)
Record command := mkCommand { k_images : image_list; k_region : option region; k_parameters : props }.
(** traxclient.cpp:293-311: the three results that make a command *)
Definition wanted_images (channels : Z) (i : mx) : result image_list := if is_empty i then done no_images else array_to_images i channels.
Definition wanted_region (r : mx) : result (option region) := if is_empty r then done None else x <~ array_to_region r ;; done (Some x).
Definition wanted_parameters (p : mx) : result props :=
  if is_empty p then done props_create
  else match p with MStruct _ => struct_to_parameters p | MCell _ _ _ => cell_to_parameters p | _ => done props_create end.
(** traxclient.cpp:293-311 *)
Definition get_command (channels : Z) (i r p : mx) : result command :=
  images <~ wanted_images channels i ;;
  region <~ wanted_region r ;;
  parameters <~ wanted_parameters p ;;
  done (mkCommand images region parameters).

(** ---- The session ---- *)

(** What happens in one turn of the loop: an interruption, the end of the tracker, what the callback returns (None is an error), whether the
    tracker takes the request, its answer (None: TrackerProcess::wait fails or throws), and the microseconds until then *)
Record turn := mkTurn { t_interrupted : bool; t_ready : bool; t_callback : mx -> mx -> option (mx * mx * mx * mx); t_accepted : bool;
  t_answer : option (region * props); t_micros : Z }.
(** What others see *)
Inductive event :=
| Called (status data : mx)
| Restarted
| Started (images : image_list) (r : region) (parameters : props)
| Framed (images : image_list) (parameters : props).
Definition run := (list event * result mx)%type.
Definition stop (events : list event) (r : result mx) : run := (events, r).
Definition before (events : list event) (r : run) : run := (events ++ fst r, snd r).
(** traxclient.cpp: the rest of the function after a result that may be an error *)
Definition proceed {A} (m : result A) (f : A -> run) : run :=
  match m with
  | Ok (Some a) => f a
  | Ok None => stop [] mex_error
  | UB => stop [] UB
  | Abort => stop [] Abort
  | NoFuel => stop [] NoFuel
  end.
(** support/client/timer.cpp:68-74 with freq 1000000 (set by timer_init, which each TrackerProcess calls).  Numbers below 2^53 are doubles, and a quotient is rounded once. *)
Definition elapsed (micros : Z) : spec_float := if micros =? 0 then S754_zero false else to_double false micros 1000000.
(** src/traxpp.cpp:300-326 Client::wait, for an answer with one object: the region is replaced, the properties are added *)
Definition answered (s : status) (r : region) (p : props) (micros : Z) : result status :=
  q <- props_append p (st_properties s) false ;; done (mkStatus (Some r) (elapsed micros) q).
(** traxclient.cpp:424-446: what is sent for a command *)
Definition requests (initialized : bool) (c : command) : list event :=
  match k_region c with
  | Some r => (if initialized then [Restarted] else []) ++ [Started (k_images c) r (k_parameters c)]
  | None => [Framed (k_images c) (k_parameters c)]
  end.
(** traxclient.cpp:421, 441 *)
Definition finished (initialized : bool) (c : command) : bool :=
  (list_size (k_images c) =? 0) || match k_region c with Some _ => false | None => negb initialized end.
(** traxclient.cpp:406-467: the loop *)
Fixpoint session (m : meta) (ts : list turn) (initialized : bool) (s : status) (data : mx) : run :=
  match ts with
  | [] => stop [] NoFuel
  | t :: ts' =>
      if t_interrupted t || negb (t_ready t) then stop [] mex_error
      else proceed (status_struct m s) (fun v =>
        before [Called v data]
          match t_callback t v data with
          | None => stop [] mex_error
          | Some (i, r, p, data') =>
              proceed (get_command (m_channels m) i r p) (fun c =>
                if finished initialized c then stop [] (done data')
                else before (requests initialized c)
                  (if negb (t_accepted t) then stop [] mex_error
                   else match t_answer t with
                        | None => stop [] mex_error
                        | Some (r, p) => proceed (answered s r p (t_micros t)) (fun s' => session m ts' true s' data')
                        end))
          end)
  end.
(** traxclient.cpp:380, 398-404 *)
Definition client (m : meta) (ts : list turn) (data : option mx) : run :=
  session m ts false (mkStatus None (S754_zero false) props_create) (match data with Some d => d | None => empty_array end).
