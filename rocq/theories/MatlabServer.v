(** Model of the function mexFunction of support/matlab/traxserver.cpp: the calls traxserver('setup', ...), traxserver('wait', ...),
    traxserver('status', ...) and traxserver('quit', ...).  The conversions are in Matlab.v, the C++ class Server in CppSession.v.
    Simplifications: 'new' succeeds; the first argument has two dimensions; arguments are as in Matlab.v. *)
From Verif Require Import CBase StrMap Props Buffer Region Image Formats Message Handle Matlab CppSession.
Local Open Scope Z_scope.

(** traxserver.cpp:23: the global pointer.  A Server has a handle unless the connection could not be made.
    [ms_lost]: objects that nothing points to any more; [ms_closed]: what was written to the connections of deleted objects. *)
Record mserver := mkMserver { ms_server : option (option handle); ms_lost : list (option handle); ms_closed : list ostate }.
Definition mserver0 : mserver := mkMserver None [] [].
(** A call: the number of outputs asked for, the arguments, and the streams that a new connection gets; [None] if connecting fails *)
Record mcall := mkMcall { mc_nlhs : Z; mc_prhs : list mx; mc_net : option (istream * ostate) }.
(** What a call leaves: the state and the outputs, or [None] after mexErrMsgTxt.  An output that was not set is [None]. *)
Definition mreturn := outcome (mserver * option (list (option mx))).
Definition failed (s : mserver) : mreturn := Ok (s, None).
Definition returned (s : mserver) (outputs : list (option mx)) : mreturn := Ok (s, Some outputs).
(** A helper leaves with mexErrMsgTxt *)
Definition helped {A} (s : mserver) (m : result A) (f : A -> mreturn) : mreturn :=
  r <- m ;; match r with Some a => f a | None => failed s end.
Definition wanted {A} (n : Z) (l : list A) : list A := firstn (Z.to_nat n) l.
Definition set_server (s : mserver) (h : option (option handle)) : mserver := mkMserver h (ms_lost s) (ms_closed s).

(** traxpp.cpp:120-130: an empty text is no text *)
Definition text_or_null (t : list N) : option (list N) := match t with [] => None | _ => Some t end.
(** traxserver.cpp:83-89, traxpp.cpp:208-212: the order of the custom properties is left open (that of the list) *)
Fixpoint set_customs (custom : list (list N * list N)) (p : props) : outcome props :=
  match custom with
  | [] => Ok p
  | (k, v) :: custom' => p' <- props_set p (c_string k) (c_string v) ;; set_customs custom' p'
  end.
Definition setup_metadata (a : setup * Z * Z) : outcome metadata :=
  let '(s, regions, images) := a in
  m <- metadata_create regions images (s_channels s) (text_or_null (s_name s)) (text_or_null (s_description s)) (text_or_null (s_family s)) (Some 0) ;;
  p <- set_customs (s_custom s) (md_custom m) ;;
  Ok (mkMeta (md_region m) (md_image m) (md_channels m) (md_name m) (md_description m) (md_family m) p (md_flags m)).
(** traxpp.cpp:424-428, src/trax.c:645-710: the new connection *)
Definition new_server (m : metadata) (net : option (istream * ostate)) : outcome (option handle) :=
  match net with
  | Some (i, o) => h <- Handle.server_setup m i o 0 ;; Ok (Some h)
  | None => Ok None
  end.
(** What the pointer pointed to before is lost *)
Definition replaced (s : mserver) (h : option handle) : mserver :=
  mkMserver (Some h) (match ms_server s with Some o => o :: ms_lost s | None => ms_lost s end) (ms_closed s).
(** mxCreateLogicalScalar *)
Definition logical (b : bool) : mx := MU8 [1; 1] [if b then 1 else 0]%N.
(** traxserver.cpp:43-111 *)
Definition mex_setup (s : mserver) (c : mcall) : mreturn :=
  if Z.of_nat (List.length (mc_prhs c)) <? 3 then failed s
  else if 1 <? mc_nlhs c then failed s
  else helped s (Matlab.server_setup (mc_prhs c)) (fun a =>
    m <- setup_metadata a ;;
    h <- new_server m (mc_net c) ;;
    let s' := replaced s h in
    match h with
    | None => failed s'
    | Some h' => if is_alive h' then returned s' (wanted (mc_nlhs c) [Some (logical true)]) else failed s'
    end).
(** delete handle: traxpp.cpp:97-108, 237-243 *)
Definition deleted (s : mserver) (h : option handle) : outcome mserver :=
  match h with
  | None => Ok (mkMserver None (ms_lost s) (ms_closed s))
  | Some h => o <- cleanup h ;; Ok (mkMserver None (ms_lost s) (o :: ms_closed s))
  end.
Definition shown_properties (propstruct : bool) (p : props) : outcome mx := if propstruct then Ok (parameters_to_struct p) else parameters_to_cell p.
(** helpers.cpp:257-312: an empty region gives NULL *)
Definition shown_region (r : option region) : result (option mx) := match r with Some r => a <~ region_to_array r ;; done (Some a) | None => done None end.
Definition images_or_none (l : option Handle.image_list) : Matlab.image_list := match l with Some l => l | None => no_images end.
Definition empty_array : mx := MDouble 0 0 [].
(** The outputs of a request, as far as they are asked for *)
Definition request_outputs (s : mserver) (nlhs : Z) (propstruct : bool) (images : option Handle.image_list) (region : result (option mx)) (p : props) : mreturn :=
  if 0 <? nlhs then
    a <- images_to_array (images_or_none images) ;;
    if 1 <? nlhs then
      helped s region (fun b =>
        if 2 <? nlhs then c <- shown_properties propstruct p ;; returned s [Some a; b; Some c]
        else returned s [Some a; b])
    else returned s [Some a]
  else returned s [].
(** traxserver.cpp:113-165 *)
Definition mex_wait (fuel slack : nat) (s : mserver) (c : mcall) : mreturn :=
  match ms_server s with
  | None => failed s
  | Some o =>
      helped s (Matlab.server_wait (mc_prhs c)) (fun propstruct =>
        if 3 <? mc_nlhs c then failed s
        else match o with
             | None => failed s
             | Some h =>
                 w <- cpp_server_wait fuel slack h None props_create ;;
                 let '(event, h', images, region, p) := w in
                 let s' := set_server s (Some (Some h')) in
                 if event =? TRAX_INITIALIZE then request_outputs s' (mc_nlhs c) propstruct images (shown_region region) p
                 else if event =? TRAX_FRAME then request_outputs s' (mc_nlhs c) propstruct images (done (Some empty_array)) p
                 else if event =? TRAX_ERROR then failed s'
                 else s'' <- deleted s' (Some h') ;; returned s'' (wanted (mc_nlhs c) [Some empty_array; Some empty_array; Some empty_array])
             end)
  end.
(** traxserver.cpp:181 *)
Definition state_properties (prhs : list mx) : result props :=
  match prhs with
  | [_; _; MStruct fields] => struct_to_parameters (MStruct fields)
  | [_; _; a] => cell_to_parameters a
  | _ => done props_create
  end.
(** traxserver.cpp:167-189.  [handle->reply] on a Server without a handle is an error. *)
Definition mex_status (s : mserver) (c : mcall) : mreturn :=
  match ms_server s with
  | None => failed s
  | Some o =>
      let nrhs := Z.of_nat (List.length (mc_prhs c)) in
      if 3 <? nrhs then failed s
      else if nrhs <? 2 then failed s
      else if 1 <? mc_nlhs c then failed s
      else
        a <- fetch (mc_prhs c) 1 ;;
        helped s (array_to_region a) (fun r =>
          helped s (state_properties (mc_prhs c)) (fun p =>
            match o with
            | None => failed s
            | Some h =>
                x <- cpp_reply h r p ;;
                let '(code, h', _) := x in
                let s' := set_server s (Some (Some h')) in
                if code =? TRAX_ERROR then failed s' else returned s' (wanted (mc_nlhs c) [Some (logical true)])
            end))
  end.
(** traxserver.cpp:191-209.  The result of terminate is a bool, which is never TRAX_ERROR. *)
Definition mex_quit (s : mserver) (c : mcall) : mreturn :=
  match ms_server s with
  | None => returned s (wanted (mc_nlhs c) [None])
  | Some o =>
      helped s (Matlab.server_quit (mc_prhs c)) (fun reason =>
        h <- match o with
             | Some h => x <- cpp_terminate h reason ;; Ok (Some (snd x))
             | None => Ok None
             end ;;
        s' <- deleted s h ;;
        returned s' (wanted (mc_nlhs c) [None]))
  end.
(** traxserver.cpp:33-41, 211-213 *)
Definition mex_server (fuel slack : nat) (s : mserver) (c : mcall) : mreturn :=
  match mc_prhs c with
  | MChar r n t :: _ =>
      helped s (get_string (MChar r n t)) (fun operation =>
        let op := map to_lower operation in
        if bytes_eqb op (str "setup") then mex_setup s c
        else if bytes_eqb op (str "wait") then mex_wait fuel slack s c
        else if bytes_eqb op (str "status") then mex_status s c
        else if bytes_eqb op (str "quit") then mex_quit s c
        else failed s)
  | _ => failed s
  end.
