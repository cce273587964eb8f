(** Model of the Python bindings: trackers (server.py), clients (client.py) and the lists they exchange, over the handles of
    src/trax.c (Handle.v).  Python lists and tuples are lists and pairs, dicts are lists of pairs with distinct keys.  The
    wrappers of regions and images are the regions and images they refer to: Region.wrap (region.py:43-58) and Image.wrap
    (image.py:127-141) only choose a class by the type.  Loggers never interrupt (KeyboardInterrupt, client.py:71, 184, 203, 242, 261, 288). *)
From Verif Require Import CBase Props Message Region Image Formats Handle PyText.
Local Open Scope Z_scope.

(** ---- Names of formats and channels ---- *)

(** support/python/trax/region.py:23-26 and 60-98, image.py:89-92 and 108-154, image.py:23-25 and 28-67: names and codes *)
Definition region_codes : list (text * Z) := [(str "special", 1); (str "rectangle", 2); (str "polygon", 4); (str "mask", 8)].
Definition image_codes : list (text * Z) := [(str "path", 1); (str "url", 2); (str "memory", 4); (str "buffer", 8)].
Definition channel_codes : list (text * Z) := [(str "color", 1); (str "depth", 2); (str "ir", 4)].
(** region.py:82-97, image.py:144-154, 59-67: Region.encode, Image.encode, ImageChannel.encode *)
Definition encode_name (codes : list (text * Z)) (s : text) : py Z :=
  match find (fun nc => bytes_eqb (fst nc) s) codes with Some nc => ret (snd nc) | None => raise IndexError end.
(** region.py:100-113, image.py:157-172, 70-84: encode_list; [encoded] is the variable of the loop *)
Fixpoint encode_names (codes : list (text * Z)) (l : list text) (encoded : Z) : py Z :=
  match l with
  | [] => ret encoded
  | s :: l' => c <~ encode_name codes s ;; encode_names codes l' (Z.lor encoded c)
  end.
(** region.py:61-79, image.py:109-124, 43-56: decode_list *)
Definition decode_names (codes : list (text * Z)) (z : Z) : list text :=
  map fst (filter (fun nc => negb (Z.land z (snd nc) =? 0)) codes).
(** __init__.py:43-66 TraxStatus.decode; None for any other code *)
Definition status_name (code : Z) : option text :=
  if code =? -1 then Some (str "error") else if code =? 0 then Some (str "ok") else if code =? 1 then Some (str "hello")
  else if code =? 2 then Some (str "initialize") else if code =? 3 then Some (str "frame") else if code =? 4 then Some (str "quit")
  else if code =? 5 then Some (str "state") else None.

(** ---- Lists of images and objects ---- *)

Definition images_dict := list (text * image).
Definition lookup {A} (d : list (text * A)) (k : text) : option A :=
  match find (fun kv => bytes_eqb (fst kv) k) d with Some kv => Some (snd kv) | None => None end.
(** __init__.py:356 and 314: the channels, in the order of the C list *)
Definition channels : list text := map fst channel_codes.
(** __init__.py:347-364 wrap_images: entry i of the C list belongs to channel i (src/trax.c:2150-2174) *)
Definition wrap_images (images : images_dict) : image_list := map (lookup images) channels.
(** __init__.py:308-325 wrap_image_list *)
Definition wrap_image_list (l : image_list) : images_dict :=
  flat_map (fun ci => match snd ci with Some i => [(fst ci, i)] | None => [] end) (combine channels l).
(** __init__.py:366-381 wrap_objects: trax_object_list_set clones the region (src/trax.c:2085-2093), the properties go to the
    new dictionary of the entry *)
Fixpoint wrap_objects (l : list (region * pydata)) : py object_list :=
  match l with
  | [] => ret []
  | (r, d) :: l' =>
      self <~ properties_init d ;;
      c <~ lift (region_clone r) ;;
      p <~ properties_reference self ;;
      q <~ lift (props_append p props_create false) ;;
      rest <~ wrap_objects l' ;;
      ret ((c, q) :: rest)
  end.
(** __init__.py:327-344 wrap_object_list *)
Fixpoint wrap_object_list (l : object_list) : outcome (list (region * dict)) :=
  match l with
  | [] => Ok []
  | (r, p) :: l' => c <- region_clone r ;; rest <- wrap_object_list l' ;; Ok ((c, properties_dict p) :: rest)
  end.

(** ---- Server ---- *)

(** A call on a handle: the result or the exception, and the handle afterwards *)
Definition call A := outcome ((A + exn) * handle).

(** The arguments of Server (server.py:46); [tc_custom]: the argument metadata, None unless it is a dict *)
Record tracker_config := mkConfig {
  tc_regions : list text;
  tc_images : list text;
  tc_channels : list text;
  tc_name : text;
  tc_description : text;
  tc_family : text;
  tc_custom : option dict;
  tc_multiobject : bool
}.
Definition with_custom (m : metadata) (p : props) : metadata :=
  mkMeta (md_region m) (md_image m) (md_channels m) (md_name m) (md_description m) (md_family m) p (md_flags m).
(** server.py:58-70: the metadata; the texts are passed as C strings *)
Definition server_metadata (cfg : tracker_config) : py metadata :=
  regions <~ encode_names region_codes (tc_regions cfg) 0 ;;
  images <~ encode_names image_codes (tc_images cfg) 0 ;;
  chans <~ encode_names channel_codes (tc_channels cfg) 0 ;;
  name <~ encode (tc_name cfg) ;;
  description <~ encode (tc_description cfg) ;;
  family <~ encode (tc_family cfg) ;;
  m <~ lift (metadata_create regions images chans (Some (c_string name)) (Some (c_string description)) (Some (c_string family))
               (Some (if tc_multiobject cfg then Z.lor 0 TRAX_METADATA_MULTI_OBJECT else 0))) ;;
  match tc_custom cfg with
  | Some items => p <~ set_items items (md_custom m) ;; ret (with_custom m p)
  | None => ret m
  end.
(** server.py:46-86 Server.__init__ on the streams of the process (lines 81-84 are for a handle that is not alive: the pointer has
    no attribute reference) *)
Definition server_init (cfg : tracker_config) (st : istream) (o : ostate) : py handle :=
  m <~ server_metadata cfg ;;
  h <~ lift (server_setup m st o 0) ;;
  if is_alive h then ret h else raise AttributeError.

(** server.py:26-34 Request *)
Record request := mkRequest {
  rq_type : option text;
  rq_images : option images_dict;
  rq_objects : option (list (region * dict));
  rq_properties : props
}.
(** server.py:88-125 Server.wait.  The lists exist after initialize; NULL would be dereferenced. *)
Definition server_wait (fuel slack : nat) (h : handle) : call request :=
  w <- server_wait_mot fuel slack h None (Some props_create) ;;
  let '(code, h1, images, objects, p) := w in
  match p with
  | None => UB
  | Some p =>
      let status := status_name code in
      if code =? TRAX_QUIT then Ok (inl (mkRequest status None None p), h1)
      else if code =? TRAX_INITIALIZE then
        match images, objects with
        | Some images, Some objects =>
            l <- wrap_object_list objects ;; Ok (inl (mkRequest status (Some (wrap_image_list images)) (Some l) p), h1)
        | _, _ => UB
        end
      else if code =? TRAX_FRAME then
        match images, objects with
        | Some images, Some objects =>
            l <- wrap_object_list objects ;; Ok (inl (mkRequest status (Some (wrap_image_list images)) (Some l) p), h1)
        | Some images, None => Ok (inl (mkRequest status (Some (wrap_image_list images)) None p), h1)
        | None, _ => UB
        end
      else Ok (inr TraxException, h1)
  end.
(** server.py:136-139: the arguments.  trax_server_reply is trax_server_reply_mot (_ctypes.py:790 and 1475), which has no parameter for the
    properties: the pointer is passed and ignored. *)
Definition status_arguments (objects : list (region * pydata)) (properties : pydata) : py object_list :=
  tproperties <~ properties_init properties ;;
  tobjects <~ wrap_objects objects ;;
  _ <~ properties_reference tproperties ;;
  ret tobjects.
(** server.py:127-146 Server.status; [objects] is a list (line 136) *)
Definition server_status (h : handle) (objects : list (region * pydata)) (properties : pydata) : call unit :=
  a <- status_arguments objects properties ;;
  match a with
  | inr e => Ok (inr e, h)
  | inl tobjects =>
      r <- server_reply_mot h tobjects ;;
      Ok (if fst r =? TRAX_ERROR then inr TraxException else inl tt, snd r)
  end.
(** server.py:164-167, client.py: the reason as a C string *)
Definition quit_reason (reason : option text) : py (option (list N)) :=
  match reason with None => ret None | Some s => b <~ encode s ;; ret (Some (c_string b)) end.
(** server.py:160-174 Server.quit and client.py:276-288 Client.quit.  [gone]: self._handle is None, which quit leaves behind in a
    server (line 174); the client keeps its handle and does not look at the code. *)
Definition session_quit (gone : bool) (h : handle) (reason : option text) : outcome ((unit + exn) * bool * handle) :=
  if gone then Ok (inr AttributeError, true, h)
  else
    b <- quit_reason reason ;;
    match b with
    | inr e => Ok (inr e, false, h)
    | inl b =>
        r <- terminate h b ;;
        if h_server h && (fst r =? TRAX_ERROR) then Ok (inr TraxException, false, snd r)
        else Ok (inl tt, h_server h, snd r)
    end.

(** ---- Client ---- *)

(** What a client offers (client.py:106-166): [ci_custom] is _custom, whose values are str or bool *)
Record client_info := mkInfo {
  ci_regions : list text;
  ci_images : list text;
  ci_channels : list text;
  ci_name : text;
  ci_description : text;
  ci_family : text;
  ci_custom : list (text * (text + bool))
}.
(** d[k] = v: the pair is replaced or added at the end *)
Fixpoint assign {A} (d : list (text * A)) (k : text) (v : A) : list (text * A) :=
  match d with
  | [] => [(k, v)]
  | kv :: d' => if bytes_eqb (fst kv) k then (k, v) :: d' else kv :: assign d' k v
  end.
(** client.py:90-95: a text of the metadata *)
Definition shown_text (t : option (list N)) : py text := match t with Some b => decode b | None => ret [] end.
(** client.py:84-104; [id] 5 is TRAX_PARAMETER_MULTIOBJECT (include/trax.h:86), the connection is a socket *)
Definition client_describe (h : handle) : py client_info :=
  let m := h_meta h in
  name <~ shown_text (md_name m) ;;
  family <~ shown_text (md_family m) ;;
  description <~ shown_text (md_description m) ;;
  v <~ lift (get_parameter true h 5) ;;
  let multi := match snd v with Some v => negb (v =? 0) | None => false end in
  ret (mkInfo (decode_names region_codes (md_region m)) (decode_names image_codes (md_image m)) (decode_names channel_codes (md_channels m))
         name description family (assign (map (fun kv => (fst kv, inl (snd kv))) (properties_dict (md_custom m))) (str "multiobject") (inr multi))).
(** client.py:30-104 Client.__init__; [log]: a logger was asked for.  Without one, None is passed for a function pointer, which
    ctypes rejects. *)
Definition client_init (log : bool) (st : istream) (o : ostate) : py (handle * client_info) :=
  if negb log then raise ArgumentError
  else
    h <~ lift (client_setup st o) ;;
    match h with
    | None => raise TraxException
    | Some h =>
        if negb (is_alive h) then raise AttributeError
        else info <~ client_describe h ;; ret (h, info)
    end.
(** client.py:155-166 Client.get *)
Definition client_get (i : client_info) (key : text) : option (text + bool) := lookup (ci_custom i) key.

(** client.py:178-179 and 236-237: the arguments; len(None) fails *)
Definition send_arguments (objects : option (list (region * pydata))) (properties : pydata) : py (object_list * props) :=
  match objects with
  | None => raise TypeError
  | Some objects =>
      tobjects <~ wrap_objects objects ;;
      tproperties <~ properties_init properties ;;
      p <~ properties_reference tproperties ;;
      ret (tobjects, p)
  end.
(** client.py:168-189 (initialize) and 221-247 (frame), up to the wait *)
Definition client_send (legacy init : bool) (h : handle) (images : images_dict) (objects : option (list (region * pydata)))
    (properties : pydata) : call unit :=
  a <- send_arguments objects properties ;;
  match a with
  | inr e => Ok (inr e, h)
  | inl (tobjects, p) =>
      r <- (if init then client_initialize legacy h (wrap_images images) tobjects (Some p)
            else client_frame legacy h (wrap_images images) (Some tobjects) (Some p)) ;;
      Ok (if fst r =? TRAX_ERROR then inr TraxException else inl tt, snd r)
  end.
(** How the calls end: the objects, TraxException with a reason, or another exception *)
Inductive answer := Objects (l : list (region * dict)) | Ended (reason : option text) | Failed (e : exn).
(** client.py:191-219 and 249-274: the wait (the time is left out) *)
Definition client_receive (h : handle) : outcome (answer * handle) :=
  x <- client_wait h (Some props_create) ;;
  let '(code, h1, objects, p) := x in
  if code =? TRAX_ERROR then Ok (Failed TraxException, h1)
  else if code =? TRAX_QUIT then
    match p with
    | None => UB
    | Some p =>
        reason <- properties_get p (str "trax.reason") None ;;
        Ok (match reason with inl reason => Ended reason | inr e => Failed e end, h1)
    end
  else
    match objects with
    | None => UB
    | Some objects => l <- wrap_object_list objects ;; Ok (Objects l, h1)
    end.
