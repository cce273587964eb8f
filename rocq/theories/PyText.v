(** Model of the texts of the Python bindings (support/python/trax): strings passed to and taken from the C library, the class
    Properties, and the loggers.
    The parts of Python that these functions use are modelled: a str is the list of its code points, encode('utf8') and decode('utf8')
    are the strict codecs, a bytes object passed as c_char_p is seen by C up to its first NUL, and a char pointer that C passes to a
    callback as c_char_p is read up to the first NUL behind it; an exception inside such a callback is printed and dropped.
    Simplifications: values of properties are strings (the code applies str to them), KeyboardInterrupt does not occur. *)
From Verif Require Import CBase StrMap Props Message.

(** A Python str: its code points *)
Definition text := list N.

(** Python exceptions that the calls may end with *)
Inductive exn :=
| UnicodeEncodeError | UnicodeDecodeError | ArgumentError | AttributeError | TypeError | ValueError | IndexError | AssertionError | TraxException.
(** A Python call: a result, an exception, or an accident inside C *)
Definition py A := outcome (A + exn).
Definition ret {A} (a : A) : py A := Ok (inl a).
Definition raise {A} (e : exn) : py A := Ok (inr e).
Definition pbind {A B} (m : py A) (f : A -> py B) : py B :=
  r <- m ;; match r with inl a => f a | inr e => Ok (inr e) end.
Notation "x <~ m ;; k" := (pbind m (fun x => k)) (at level 61, m at next level, right associativity).
Definition lift {A} (m : outcome A) : py A := a <- m ;; Ok (inl a).

(** ---- UTF-8 (Python's codec) ---- *)

Definition is_surrogate (c : N) : bool := (55296 <=? c) && (c <=? 57343).
(** The bytes of a code point; None: it cannot be encoded *)
Definition encode_char (c : N) : option (list N) :=
  if c <? 128 then Some [c]
  else if c <? 2048 then Some [192 + c / 64; 128 + c mod 64]
  else if c <? 65536 then
    if is_surrogate c then None else Some [224 + c / 4096; 128 + (c / 64) mod 64; 128 + c mod 64]
  else if c <? 1114112 then Some [240 + c / 262144; 128 + (c / 4096) mod 64; 128 + (c / 64) mod 64; 128 + c mod 64]
  else None.
Fixpoint utf8_encode (s : text) : option (list N) :=
  match s with
  | [] => Some []
  | c :: s' =>
      match encode_char c, utf8_encode s' with Some b, Some r => Some (b ++ r) | _, _ => None end
  end.

Definition trail (b : N) : bool := (128 <=? b) && (b <=? 191).
Definition push (c : N) (r : option text) : option text := match r with Some t => Some (c :: t) | None => None end.
(** The strict decoder: no overlong forms, no surrogates, nothing above 0x10FFFF *)
Fixpoint utf8_decode (l : list N) : option text :=
  match l with
  | [] => Some []
  | a :: l1 =>
      if a <? 128 then push a (utf8_decode l1)
      else match l1 with
      | [] => None
      | b :: l2 =>
          if (194 <=? a) && (a <=? 223) then
            if trail b then push ((a - 192) * 64 + (b - 128)) (utf8_decode l2) else None
          else match l2 with
          | [] => None
          | c :: l3 =>
              if (224 <=? a) && (a <=? 239) then
                let v := (a - 224) * 4096 + (b - 128) * 64 + (c - 128) in
                if trail b && trail c && (2048 <=? v) && negb (is_surrogate v) then push v (utf8_decode l3) else None
              else match l3 with
              | [] => None
              | d :: l4 =>
                  if (240 <=? a) && (a <=? 244) then
                    let v := (a - 240) * 262144 + (b - 128) * 4096 + (c - 128) * 64 + (d - 128) in
                    if trail b && trail c && trail d && (65536 <=? v) && (v <? 1114112) then push v (utf8_decode l4) else None
                  else None
              end
          end
      end
  end.
Definition encode (s : text) : py (list N) := match utf8_encode s with Some b => ret b | None => raise UnicodeEncodeError end.
Definition decode (b : list N) : py text := match utf8_decode b with Some s => ret s | None => raise UnicodeDecodeError end.

(** ---- The class Properties ---- *)

(** __init__.py:428-435 and 452-459, __setitem__ and set *)
Definition properties_set (p : props) (key value : text) : py props :=
  k <~ encode key ;; v <~ encode value ;; lift (props_set p (c_string k) (c_string v)).
(** __init__.py:437-450, get *)
Definition properties_get (p : props) (key : text) (default : option text) : py (option text) :=
  k <~ encode key ;;
  v <~ lift (props_get p (c_string k)) ;;
  match v with
  | None => ret default
  | Some v => s <~ decode v ;; ret (Some s)
  end.
(** What a caller may use as a key *)
Inductive pykey := KeyStr (s : text) | KeyBytes (b : list N).
(** __init__.py:420-426, __getitem__: the key goes to C as it is; _ctypes.py declares it as c_char_p, for which ctypes takes bytes
    and refuses a str.  The result is a bytes object. *)
Definition properties_getitem (p : props) (key : pykey) : py (option (list N)) :=
  match key with
  | KeyStr _ => raise ArgumentError
  | KeyBytes b => lift (props_get p (c_string b))
  end.
(** __init__.py:461-468, dict: the callback of the enumeration, setdefault on the new dictionary; an entry that cannot be decoded ends the
    callback with an exception *)
Definition dict := list (text * text).
Definition dict_get (d : dict) (k : text) : option text :=
  match find (fun e => bytes_eqb (fst e) k) d with Some e => Some (snd e) | None => None end.
Definition setdefault (d : dict) (k v : text) : dict := match dict_get d k with Some _ => d | None => d ++ [(k, v)] end.
Definition dict_callback (d : dict) (kv : list N * list N) : dict :=
  match utf8_decode (c_string (fst kv)) with
  | None => d
  | Some k => match utf8_decode (c_string (snd kv)) with None => d | Some v => setdefault d k v end
  end.
Definition properties_dict (p : props) : dict := fold_left dict_callback (props_enum p) [].
(** A loop of assignments p[k] = v *)
Fixpoint set_items (items : dict) (p : props) : py props :=
  match items with
  | [] => ret p
  | (k, v) :: items' => p' <~ properties_set p k v ;; set_items items' p'
  end.
(** __init__.py:402-409, copy *)
Definition properties_copy (p source : props) : py props := set_items (properties_dict source) p.

(** What the constructor may be given: nothing, a dict, a pointer to a C structure, another Properties object *)
Inductive pydata := DNone | DDict (d : dict) | DPointer (p : option props) | DProperties (p : props).
(** __init__.py:386-400: None is an object without the attribute _ref *)
Definition properties_init (data : pydata) : py (option props) :=
  match data with
  | DNone | DDict [] | DPointer None => ret (Some props_create)
  | DPointer (Some p) => ret (Some p)
  | DDict d => p <~ set_items d props_create ;; ret (Some p)
  | DProperties _ => ret None
  end.
(** __init__.py:411-418, and every other use of self._ref *)
Definition properties_reference (self : option props) : py props :=
  match self with Some p => ret p | None => raise AttributeError end.

(** ---- Loggers ---- *)

(** A call of the log callback: NULL and 0 (src/message.c:614, 776), or a pointer and a length.  [memory] is what lies behind the pointer
    up to the end of the object it points into. *)
Inductive log_call := LogFlush | LogPiece (memory : list N) (length : nat).
(** __init__.py:74-89 and the subclasses' handle: the text logged so far *)
Definition logger_call (log : text) (c : log_call) : outcome text :=
  match c with
  | LogFlush => Ok log
  | LogPiece memory length =>
      if existsb (N.eqb 0) memory then
        match c_string memory with
        | [] => Ok log
        | buffer => match utf8_decode (firstn length buffer) with Some m => Ok (log ++ m) | None => Ok log end
        end
      else UB
  end.
Fixpoint logger_calls (cs : list log_call) (log : text) : outcome text :=
  match cs with
  | [] => Ok log
  | c :: cs' => log' <- logger_call log c ;; logger_calls cs' log'
  end.

(** src/message.c:625-662: write_buffer of a part of a C string, all of it written; an empty part is not logged *)
Definition piece_call (piece rest : list N) : list log_call :=
  match piece with [] => [] | _ => [LogPiece (piece ++ rest ++ [0%N]) (List.length piece)] end.
(** src/message.c:664-692: the calls for escaped_chunks *)
Fixpoint escaped_calls (l : list N) (pending : list N) : list log_call :=
  match l with
  | [] => piece_call pending []
  | c :: l' =>
      if (c =? c_quote) || (c =? c_bsl) || (c =? c_nl) then
        if c =? c_nl then piece_call pending l ++ piece_call [c_bsl] [] ++ piece_call [c_n] [] ++ escaped_calls l' []
        else piece_call pending l ++ piece_call [c_bsl] [] ++ escaped_calls l' [c]
      else escaped_calls l' (pending ++ [c])
  end.
Definition string_call (s : list N) : list log_call := piece_call s [].
(** src/message.c:707-778, write_message *)
Definition sent_calls (t : mtype) (args : list (list N)) (p : props) : list log_call :=
  string_call TRAX_PREFIX ++ string_call (type_name t) ++ string_call [c_sp] ++
  flat_map (fun a => string_call [c_quote] ++ escaped_calls a [] ++ string_call [c_quote; c_sp]) args ++
  flat_map (fun kv => string_call [c_quote] ++ string_call (fst kv) ++ string_call [c_eq] ++ escaped_calls (snd kv) [] ++
                      string_call [c_quote; c_sp]) (props_enum p) ++
  string_call [c_nl] ++ [LogFlush].
(** src/message.c:306-319, 614 and src/message.h:69: the calls for received characters.  The pointer is the address of the variable chr;
    [beyond] is what follows it in memory: nothing that belongs to the object. *)
Definition received_calls (beyond : list N) (chars : list N) : list log_call :=
  map (fun c => LogPiece (c :: beyond) 1) chars ++ [LogFlush].
