(** Model of the connection API of src/trax.c: handles, the handshake, the client and the server functions.
    Assertions are compiled in.  Simplifications: allocations succeed; the text of an error is not represented, only whether
    one is set (set_error, src/trax.c:539-558, formats it wrongly); log callbacks are in Message.v; a handle exists only
    between setup and cleanup, so its VALID flag is always set. *)
From Verif Require Import CBase StrMap Props Message Num PropsNum Region RegionGeom Image Formats.
Local Open Scope Z_scope.

(** include/trax.h:44-50: return codes *)
Definition TRAX_ERROR : Z := -1.
Definition TRAX_OK : Z := 0.
Definition type_code (t : option mtype) : Z :=
  match t with
  | None => TRAX_ERROR
  | Some MHello => 1
  | Some MInitialize => 2
  | Some MFrame => 3
  | Some MQuit => 4
  | Some MState => 5
  end.
Definition TRAX_INITIALIZE : Z := 2.
Definition TRAX_FRAME : Z := 3.
Definition TRAX_QUIT : Z := 4.
Definition TRAX_STATE : Z := 5.
Definition TRAX_VERSION : Z := 4.                  (* include/trax.h:42 *)
Definition TRAX_METADATA_MULTI_OBJECT : Z := 1.    (* include/trax.h:106 *)

(** include/trax.h:184-193 trax_metadata.  [md_flags] is None while indeterminate. *)
Record metadata := mkMeta {
  md_region : Z;
  md_image : Z;
  md_channels : Z;
  md_name : option (list N);
  md_description : option (list N);
  md_family : option (list N);
  md_custom : props;
  md_flags : option Z
}.

(** src/trax.c:712-735 trax_metadata_create *)
Definition metadata_create (region image channels : Z) (name description family : option (list N)) (flags : option Z)
  : outcome metadata :=
  if channels =? 0 then Abort else Ok (mkMeta region image channels name description family props_create flags).

(** include/trax.h:200-208 trax_handle with its message stream (src/message.h:42-53).  [h_type] is the
    input.message_type of the stream. *)
Record handle := mkHandle {
  h_server : bool;              (* TRAX_FLAG_SERVER *)
  h_terminated : bool;          (* TRAX_FLAG_TERMINATED *)
  h_version : Z;
  h_meta : metadata;
  h_objects : Z;
  h_error : bool;
  h_type : option mtype;
  h_in : istream;
  h_out : ostate
}.
Definition set_error (h : handle) : handle :=
  mkHandle (h_server h) (h_terminated h) (h_version h) (h_meta h) (h_objects h) true (h_type h) (h_in h) (h_out h).
Definition clear_error (h : handle) : handle :=
  mkHandle (h_server h) (h_terminated h) (h_version h) (h_meta h) (h_objects h) false (h_type h) (h_in h) (h_out h).
Definition terminated (h : handle) : handle :=
  mkHandle (h_server h) true (h_version h) (h_meta h) (h_objects h) (h_error h) (h_type h) (h_in h) (h_out h).
Definition set_objects (h : handle) (n : Z) : handle :=
  mkHandle (h_server h) (h_terminated h) (h_version h) (h_meta h) n (h_error h) (h_type h) (h_in h) (h_out h).
Definition with_out (h : handle) (o : ostate) : handle :=
  mkHandle (h_server h) (h_terminated h) (h_version h) (h_meta h) (h_objects h) (h_error h) (h_type h) (h_in h) o.
Definition with_in (h : handle) (t : option mtype) (st : istream) : handle :=
  mkHandle (h_server h) (h_terminated h) (h_version h) (h_meta h) (h_objects h) (h_error h) t st (h_out h).

(** src/trax.c:29 HANDLE_ALIVE, 22 IS_MULTI_OBJECT, 26 IS_VERSION_4 *)
Definition alive (h : handle) : bool := negb (h_terminated h).
Definition is_multi_object (h : handle) : outcome bool :=
  match md_flags (h_meta h) with
  | Some f => Ok (supports f TRAX_METADATA_MULTI_OBJECT)
  | None => UB
  end.
Definition is_version_4 (h : handle) : bool := 4 <=? h_version h.

(** A call of read_message with new arguments and properties, on the stream of the handle *)
Definition handle_read (h : handle) : outcome (read_result * handle) :=
  r <- read_message (h_type h) (h_in h) props_create ;; Ok (r, with_in h (rr_type r) (rr_stream r)).
(** A call of write_message.  NULL arguments and properties are empty ones (src/message.c:757, 764). *)
Definition handle_write (h : handle) (t : mtype) (args : list (list N)) (p : option props) : handle :=
  with_out h (write_message (h_out h) t args (match p with Some p => p | None => props_create end)).

(** ---- Setup ---- *)

Definition set_optional (p : props) (key : list N) (value : option (list N)) : outcome props :=
  match value with Some v => props_set p key v | None => Ok p end.

(** src/trax.c:652-705 the properties of the hello message and the flags *)
Definition hello_properties (metadata : metadata) (version : Z) : outcome (props * option Z) :=
  p0 <- props_copy (md_custom metadata) ;;
  p1 <- props_set_int p0 (str "trax.version") version ;;
  regions <- region_formats_encode (md_region metadata) ;;
  p2 <- props_set p1 (str "trax.region") regions ;;
  images <- image_formats_encode (md_image metadata) ;;
  p3 <- props_set p2 (str "trax.image") images ;;
  channels <- channels_encode (md_channels metadata) ;;
  p4 <- props_set p3 (str "trax.channels") channels ;;
  p5 <- set_optional p4 (str "trax.name") (md_name metadata) ;;
  p6 <- set_optional p5 (str "trax.description") (md_description metadata) ;;
  p7 <- set_optional p6 (str "trax.family") (md_family metadata) ;;
  if 4 <=? version then
    match md_flags metadata with
    | None => UB
    | Some f =>
        if supports f TRAX_METADATA_MULTI_OBJECT
        then p8 <- props_set_int p7 (str "trax.multiobject") 1 ;; Ok (p8, Some TRAX_METADATA_MULTI_OBJECT)
        else Ok (p7, Some 0)
    end
  else Ok (p7, None).                              (* [flags] is not initialised *)

(** src/trax.c:645-710 server_setup on a stream *)
Definition server_setup (metadata : metadata) (st : istream) (o : ostate) (version : Z) : outcome handle :=
  if version <=? TRAX_VERSION then
    let version := if version <? 1 then TRAX_VERSION else version in
    pf <- hello_properties metadata version ;;
    m <- metadata_create (md_region metadata) (md_image metadata) (md_channels metadata) (md_name metadata)
           (md_description metadata) (md_family metadata) (snd pf) ;;
    Ok (handle_write (mkHandle true false version m 0 false None st o) MHello [] (Some (fst pf)))
  else Abort.

(** src/trax.c:583-628: the metadata and version read from the properties of a hello message *)
Definition hello_metadata (p : props) : outcome (metadata * Z) :=
  version <- props_get_int p (str "trax.version") 1 ;;
  region <- props_get p (str "trax.region") ;;
  region_formats <- region_formats_decode region ;;
  image <- props_get p (str "trax.image") ;;
  image_formats <- image_formats_decode image ;;
  channels <- (if version <? 2 then Ok TRAX_CHANNEL_COLOR
               else c <- props_get p (str "trax.channels") ;;
                    n <- channels_decode c ;;
                    Ok (if n =? 0 then TRAX_CHANNEL_COLOR else n)) ;;
  name <- props_get p (str "trax.name") ;;
  description <- props_get p (str "trax.description") ;;
  family <- props_get p (str "trax.family") ;;
  flags <- (if 3 <? version
            then m <- props_get_int p (str "trax.multiobject") 0 ;; Ok (if truth m then TRAX_METADATA_MULTI_OBJECT else 0)
            else Ok 0) ;;
  m <- metadata_create region_formats image_formats channels name description family (Some flags) ;;
  custom <- copy_properties p (md_custom m) (Z.lor COPY_EXTERNAL COPY_OVERWRITE) ;;
  Ok (mkMeta (md_region m) (md_image m) (md_channels m) (md_name m) (md_description m) (md_family m) custom (md_flags m), version).

(** src/trax.c:561-643 client_setup on a stream: None is NULL *)
Definition client_setup (st : istream) (o : ostate) : outcome (option handle) :=
  r <- read_message None st props_create ;;
  match rr_type r, rr_args r with
  | Some MHello, [] =>
      mv <- hello_metadata (rr_props r) ;;
      Ok (Some (mkHandle false false (snd mv) (fst mv) 0 false (rr_type r) (rr_stream r) o))
  | _, _ => Ok None
  end.

(** ---- Regions, images and objects ---- *)

(** src/trax.c:41-46 REGION_TYPE, and the type itself *)
Definition type_of (r : region) : region_type :=
  match r with RSpecial _ => SPECIAL | RRect _ _ _ _ => RECTANGLE | RPoly _ => POLYGON | RMask _ _ _ _ _ => MASK end.
Definition region_bit (r : region) : Z :=
  match r with
  | RSpecial _ => TRAX_REGION_SPECIAL
  | RRect _ _ _ _ => TRAX_REGION_RECTANGLE
  | RPoly _ => TRAX_REGION_POLYGON
  | RMask _ _ _ _ _ => TRAX_REGION_MASK
  end.
(** src/trax.c:1737-1743 trax_region_clone: conversion to its own type (the legacy flag plays no role then) *)
Definition region_clone (r : region) : outcome region :=
  c <- convert false r (type_of r) ;; match c with Some c => Ok c | None => UB end.

(** src/trax.c:462-475 region_autoconvert *)
Definition region_autoconvert (legacy : bool) (r : region) (supported : Z) : outcome (option region) :=
  if supports supported TRAX_REGION_MASK then convert legacy r MASK
  else if supports supported TRAX_REGION_POLYGON then convert legacy r POLYGON
  else if supports supported TRAX_REGION_RECTANGLE then convert legacy r RECTANGLE
  else Ok None.
(** src/trax.c:911-926 and 976-989: the argument for a region; a NULL text is left out *)
Definition region_argument (legacy : bool) (formats : Z) (r : region) : outcome (list (list N)) :=
  data <- (if negb (supports formats (region_bit r))
           then c <- region_autoconvert legacy r formats ;;
                match c with None => Abort | Some c => region_string c end
           else region_string r) ;;
  Ok (match data with Some t => [t] | None => [] end).

(** src/trax.c:2049-2067: a list of objects: region and properties of each *)
Definition object_list := list (region * props).
(** src/trax.c:2134-2144: images of the channels color, depth and ir; None is NULL *)
Definition image_list := list (option image).
(** include/trax.h:98-101 TRAX_CHANNEL_ID(0..2) *)
Definition channel_ids : list Z := [TRAX_CHANNEL_COLOR; TRAX_CHANNEL_DEPTH; TRAX_CHANNEL_IR].

(** src/trax.c:899-909 and 1014-1024: the image arguments; None: a required channel is missing.  A NULL text from
    image_encode is appended and makes write_message crash later. *)
Fixpoint image_arguments (channels : Z) (ids : list Z) (images : image_list) : outcome (option (list (option (list N)))) :=
  match ids with
  | [] => Ok (Some [])
  | id :: ids' =>
      match images with
      | [] => UB
      | im :: images' =>
          if supports channels id then
            match im with
            | None => Ok None
            | Some im =>
                t <- image_encode im ;;
                rest <- image_arguments channels ids' images' ;;
                Ok (option_map (cons t) rest)
            end
          else image_arguments channels ids' images'
      end
  end.
Fixpoint all_texts (l : list (option (list N))) : outcome (list (list N)) :=
  match l with
  | [] => Ok []
  | None :: _ => UB
  | Some t :: l' => ts <- all_texts l' ;; Ok (t :: ts)
  end.

(** src/trax.c:1108-1120, 1153-1165, 1256-1268: decoding the images; None: failure *)
Fixpoint decode_images (slack : nat) (channels formats : Z) (ids : list Z) (args : list (list N)) : outcome (option image_list) :=
  match ids with
  | [] => Ok (Some [])
  | id :: ids' =>
      if supports channels id then
        match args with
        | [] => UB
        | a :: args' =>
            im <- image_decode slack a ;;
            match im with
            | None => Ok None
            | Some im =>
                if supports formats (i_type im)
                then rest <- decode_images slack channels formats ids' args' ;; Ok (option_map (cons (Some im)) rest)
                else Ok None
            end
        end
      else rest <- decode_images slack channels formats ids' args ;; Ok (option_map (cons None) rest)
  end.

(** Copying the properties of a message to the dictionary of the caller, which may be NULL *)
Definition copy_out (source : props) (dest : option props) (flags : Z) : outcome (option props) :=
  match dest with
  | None => Ok None
  | Some d => d' <- copy_properties source d flags ;; Ok (Some d')
  end.
Definition ALL_OVERWRITE : Z := Z.lor COPY_ALL COPY_OVERWRITE.
Definition EXTERNAL_OVERWRITE : Z := Z.lor COPY_EXTERNAL COPY_OVERWRITE.

(** ---- Client ---- *)

Definition client_result := (Z * handle * option object_list * option props)%type.

(** src/trax.c:785-846: the loop of trax_client_wait, [n] iterations left; [acc] are the objects filled in so far *)
Fixpoint client_wait_loop (n : nat) (h : handle) (acc : object_list) (p : option props) (result : Z) : outcome client_result :=
  match n with
  | O => Ok (result, h, Some acc, p)
  | S n' =>
      rh <- handle_read h ;;
      let '(r, h') := rh in
      match rr_type r with
      | Some MState =>
          match rr_args r with
          | [a] =>
              pr <- region_parse a ;;
              match pr with
              | (false, _) => Ok (TRAX_ERROR, h', None, p)
              | (true, None) => UB                  (* region_release(NULL) *)
              | (true, Some reg) =>
                  c <- region_clone reg ;;
                  d <- copy_properties (rr_props r) props_create ALL_OVERWRITE ;;
                  client_wait_loop n' h' (acc ++ [(c, d)]) p TRAX_STATE
              end
          | _ => Ok (TRAX_ERROR, h', None, p)
          end
      | Some MQuit =>
          match rr_args r with
          | [] => p' <- copy_out (rr_props r) p ALL_OVERWRITE ;; Ok (TRAX_QUIT, terminated h', None, p')
          | _ => Ok (TRAX_ERROR, h', None, p)
          end
      | None => Ok (TRAX_ERROR, h', None, p)
      | Some t => client_wait_loop n' h' (acc ++ [(RSpecial 0, props_create)]) p (type_code (Some t))
      end
  end.
(** src/trax.c:770-850 trax_client_wait: code, handle, objects (None is NULL), properties *)
Definition client_wait (h : handle) (p : option props) : outcome client_result :=
  if h_server h then Abort
  else if negb (alive h) then Ok (TRAX_ERROR, set_error h, None, p)
  else client_wait_loop (Z.to_nat (h_objects h)) h [] p TRAX_ERROR.

(** src/trax.c:968-997: the initialize messages of trax_client_frame *)
Fixpoint send_objects (legacy : bool) (h : handle) (objects : object_list) : outcome handle :=
  match objects with
  | [] => Ok h
  | (r, p) :: objects' =>
      args <- region_argument legacy (md_region (h_meta h)) r ;;
      send_objects legacy (handle_write h MInitialize args (Some p)) objects'
  end.
(** src/trax.c:1010-1028: the frame message *)
Definition send_frame (h : handle) (images : image_list) (p : option props) : outcome (Z * handle) :=
  a <- image_arguments (md_channels (h_meta h)) channel_ids images ;;
  match a with
  | None => Ok (TRAX_ERROR, set_error h)
  | Some a => args <- all_texts a ;; Ok (TRAX_OK, handle_write h MFrame args p)
  end.
(** src/trax.c:947-1030 trax_client_frame; [images] is not NULL, [objects] may be *)
Definition client_frame (legacy : bool) (h : handle) (images : image_list) (objects : option object_list) (p : option props)
  : outcome (Z * handle) :=
  if h_server h then Abort
  else
    let h := clear_error h in
    if negb (alive h) then Ok (TRAX_ERROR, set_error h)
    else
      let objs := match objects with Some l => l | None => [] end in
      let n := Z.of_nat (List.length objs) in
      if is_version_4 h then
        many <- (if 1 <? h_objects h + n then m <- is_multi_object h ;; Ok (negb m) else Ok false) ;;
        if many : bool then Ok (TRAX_ERROR, set_error h)
        else
          h1 <- send_objects legacy h objs ;;
          send_frame (set_objects h1 (h_objects h1 + n)) images p
      else if 0 <? n then Ok (TRAX_ERROR, set_error h)
      else send_frame h images p.

(** src/trax.c:852-945 trax_client_initialize; neither list is NULL *)
Definition client_initialize (legacy : bool) (h : handle) (images : image_list) (objects : object_list) (p : option props)
  : outcome (Z * handle) :=
  if h_server h then Abort
  else
    let h := clear_error h in
    if negb (alive h) then Ok (TRAX_ERROR, set_error h)
    else
      let n := Z.of_nat (List.length objects) in
      if n <? 1 then Ok (TRAX_ERROR, set_error h)
      else
        m <- is_multi_object h ;;
        if negb m && (1 <? n) then Ok (TRAX_ERROR, set_error h)
        else if is_version_4 h then
          let h1 := if 0 <? h_objects h then set_objects (handle_write h MInitialize [] None) 0 else h in
          client_frame legacy h1 images (Some objects) p
        else
          match objects with
          | [] => UB
          | (r, _) :: _ =>
              if region_bit r =? 1 then Abort       (* assert(REGION_TYPE(region) != SPECIAL), SPECIAL = 1 *)
              else
                a <- image_arguments (md_channels (h_meta h)) channel_ids images ;;
                match a with
                | None => Ok (TRAX_ERROR, set_error h)
                | Some a =>
                    ra <- region_argument legacy (md_region (h_meta h)) r ;;
                    args <- all_texts a ;;
                    Ok (TRAX_OK, set_objects (handle_write h MInitialize (args ++ ra) p) 1)
                end
          end.

(** ---- Server ---- *)

(** code, handle, images, region, properties *)
Definition sot_result := (Z * handle * option image_list * option region * option props)%type.

(** src/trax.c:1073-1195 trax_server_wait_sot.  [images] and [region] are the values of the caller's variables, which are
    released on failure. *)
Definition server_wait_sot (slack : nat) (h : handle) (images : option image_list) (reg : option region) (p : option props)
  : outcome sot_result :=
  if negb (h_server h) then Abort
  else
    let h := clear_error h in
    if negb (alive h) then Ok (TRAX_ERROR, set_error h, images, reg, p)
    else if is_version_4 h then Ok (TRAX_ERROR, set_error h, images, reg, p)
    else
      argument_count <- image_list_count (md_channels (h_meta h)) ;;
      rh <- handle_read h ;;
      let '(r, h') := rh in
      let args := rr_args r in
      let n := Z.of_nat (List.length args) in
      match rr_type r with
      | Some MFrame =>
          if negb (n =? argument_count) then Ok (TRAX_ERROR, set_error h', None, None, p)
          else
            ims <- decode_images slack (md_channels (h_meta h')) (md_image (h_meta h')) channel_ids args ;;
            match ims with
            | None => Ok (TRAX_ERROR, h', None, None, p)
            | Some ims => p' <- copy_out (rr_props r) p ALL_OVERWRITE ;; Ok (TRAX_FRAME, h', Some ims, reg, p')
            end
      | Some MQuit =>
          if negb (n =? 0) then Ok (TRAX_ERROR, set_error h', None, None, p)
          else p' <- copy_out (rr_props r) p ALL_OVERWRITE ;; Ok (TRAX_QUIT, terminated h', images, reg, p')
      | Some MInitialize =>
          if negb (n =? argument_count + 1) then Ok (TRAX_ERROR, set_error h', None, None, p)
          else
            ims <- decode_images slack (md_channels (h_meta h')) (md_image (h_meta h')) channel_ids args ;;
            match ims with
            | None => Ok (TRAX_ERROR, h', None, None, p)
            | Some ims =>
                (* arguments->buffer[j]: j counts the images of the three known channels *)
                match nth_error args (List.length (filter (supports (md_channels (h_meta h'))) channel_ids)) with
                | None => UB
                | Some t =>
                    pr <- region_parse t ;;
                    match pr with
                    | (false, _) => Ok (TRAX_ERROR, h', None, None, p)
                    | (true, reg') =>
                        p' <- copy_out (rr_props r) p ALL_OVERWRITE ;; Ok (TRAX_INITIALIZE, set_objects h' 1, Some ims, reg', p')
                    end
                end
            end
      | _ => Ok (TRAX_ERROR, h', None, None, p)
      end.

(** code, handle, images, objects (None is NULL), properties *)
Definition mot_result := (Z * handle * option image_list * option object_list * option props)%type.

(** src/trax.c:1309-1326: the failure exit releases the regions collected so far; releasing NULL crashes *)
Definition mot_failure (h : handle) (objs : list (option region * props)) (p : option props) : outcome mot_result :=
  if existsb (fun rp => match fst rp with None => true | Some _ => false end) objs then UB
  else Ok (TRAX_ERROR, h, None, None, p).
(** src/trax.c:1328-1340: the list given to the caller *)
Fixpoint mot_objects (objs : list (option region * props)) : outcome object_list :=
  match objs with
  | [] => Ok []
  | (None, _) :: _ => UB
  | (Some r, p) :: objs' =>
      c <- region_clone r ;; d <- copy_properties p props_create ALL_OVERWRITE ;;
      rest <- mot_objects objs' ;; Ok ((c, d) :: rest)
  end.
Definition mot_end (result : Z) (h : handle) (images : option image_list) (objs : list (option region * props)) (p : option props)
  : outcome mot_result :=
  match objs with
  | [] => Ok (result, h, images, None, p)
  | _ =>
      l <- mot_objects objs ;;
      Ok (result, set_objects h (h_objects h + Z.of_nat (List.length objs)), images, Some l, p)
  end.

(** src/trax.c:1224-1307: the loop of trax_server_wait_mot; [fuel] bounds the number of messages read *)
Fixpoint wait_mot_loop (fuel : nat) (slack : nat) (argument_count : Z) (h : handle) (images : option image_list)
    (result : Z) (objs : list (option region * props)) (p : option props) : outcome mot_result :=
  match fuel with
  | O => NoFuel
  | S fuel' =>
      rh <- handle_read h ;;
      let '(r, h') := rh in
      let args := rr_args r in
      let n := Z.of_nat (List.length args) in
      match rr_type r with
      | None => mot_failure h' objs p
      | Some MQuit =>
          if negb (n =? 0) then mot_failure (set_error h') objs p
          else p' <- copy_out (rr_props r) p EXTERNAL_OVERWRITE ;; mot_end TRAX_QUIT (terminated h') images objs p'
      | Some MFrame =>
          if (result =? TRAX_INITIALIZE) && (Nat.eqb (List.length objs) 0) then mot_failure (set_error h') objs p
          else
            let result' := if negb (result =? TRAX_INITIALIZE) || (0 <? h_objects h') then TRAX_FRAME else result in
            if negb (n =? argument_count) then mot_failure (set_error h') objs p
            else
              ims <- decode_images slack (md_channels (h_meta h')) (md_image (h_meta h')) channel_ids args ;;
              match ims with
              | None => mot_failure h' objs p
              | Some ims => p' <- copy_out (rr_props r) p ALL_OVERWRITE ;; mot_end result' h' (Some ims) objs p'
              end
      | Some MInitialize =>
          match args with
          | [] => wait_mot_loop fuel' slack argument_count (set_objects h' 0) images TRAX_INITIALIZE objs p
          | [a] =>
              pr <- region_parse a ;;
              match pr with
              | (false, _) => mot_failure h' objs p
              | (true, reg) =>
                  d <- copy_properties (rr_props r) props_create ALL_OVERWRITE ;;
                  wait_mot_loop fuel' slack argument_count h' images TRAX_INITIALIZE (objs ++ [(reg, d)]) p
              end
          | _ => mot_failure (set_error h') objs p
          end
      | Some _ => wait_mot_loop fuel' slack argument_count h' images result objs p
      end
  end.
(** src/trax.c:1197-1354 trax_server_wait_mot *)
Definition server_wait_mot (fuel slack : nat) (h : handle) (images : option image_list) (p : option props) : outcome mot_result :=
  if negb (h_server h) then Abort
  else
    let h := clear_error h in
    if negb (alive h) then Ok (TRAX_ERROR, set_error h, images, None, p)
    else
      argument_count <- image_list_count (md_channels (h_meta h)) ;;
      wait_mot_loop fuel slack argument_count h images TRAX_ERROR [] p.

(** src/trax.c:1356-1389 trax_server_reply_sot *)
Definition server_reply_sot (h : handle) (r : region) (p : option props) : outcome (Z * handle) :=
  if negb (h_server h) then Abort
  else
    let h := clear_error h in
    if negb (alive h) then Ok (TRAX_ERROR, set_error h)
    else if is_version_4 h then Ok (TRAX_ERROR, set_error h)
    else
      data <- region_string r ;;
      match data with
      | None => Ok (TRAX_ERROR, h)
      | Some t => Ok (TRAX_OK, handle_write h MState [t] p)
      end.

(** src/trax.c:1418-1425: the state messages *)
Fixpoint send_states (h : handle) (objects : object_list) : outcome (Z * handle) :=
  match objects with
  | [] => Ok (TRAX_OK, h)
  | (r, p) :: objects' =>
      data <- region_string r ;;
      match data with
      | None => Ok (TRAX_ERROR, h)
      | Some t => send_states (handle_write h MState [t] (Some p)) objects'
      end
  end.
(** src/trax.c:1391-1430 trax_server_reply_mot; the list is not NULL *)
Definition server_reply_mot (h : handle) (objects : object_list) : outcome (Z * handle) :=
  if negb (h_server h) then Abort
  else
    let h := clear_error h in
    if negb (alive h) then Ok (TRAX_ERROR, set_error h)
    else
      let n := Z.of_nat (List.length objects) in
      m <- is_multi_object h ;;
      if negb m && negb (n =? 1) then Ok (TRAX_ERROR, set_error h)
      else if negb (n =? h_objects h) then Ok (TRAX_ERROR, set_error h)
      else send_states h objects.

(** ---- Both sides ---- *)

(** src/trax.c:1441-1447 trax_is_alive *)
Definition is_alive (h : handle) : bool := alive h.

(** src/trax.c:1449-1476 trax_terminate *)
Definition terminate (h : handle) (reason : option (list N)) : outcome (Z * handle) :=
  let h := clear_error h in
  if negb (alive h) then Ok (TRAX_OK, h)
  else
    p <- set_optional props_create (str "trax.reason") reason ;;
    Ok (TRAX_OK, handle_write (terminated h) MQuit [] (Some p)).

(** src/trax.c:1478-1496 trax_cleanup: the output of the released stream *)
Definition cleanup (h : handle) : outcome ostate := r <- terminate h None ;; Ok (h_out (snd r)).

(** src/trax.c:1498-1506 trax_set_parameter *)
Definition set_parameter (h : handle) (id value : Z) : Z := if alive h then 0 else TRAX_ERROR.

(** src/trax.c:1508-1530 trax_get_parameter: return value and *value if written; [socket] is the stream's kind *)
Definition get_parameter (socket : bool) (h : handle) (id : Z) : outcome (Z * option Z) :=
  if negb (alive h) then Ok (TRAX_ERROR, None)
  else if id =? 0 then Ok (1, Some (h_version h))
  else if id =? 1 then Ok (1, Some (if h_server h then 0 else 1))
  else if id =? 2 then Ok (1, Some (if socket then 1 else 0))
  else if id =? 5 then m <- is_multi_object h ;; Ok (1, Some (if m : bool then 1 else 0))
  else Ok (0, None).
