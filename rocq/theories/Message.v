(** Model of src/message.c: the wire format, the reader and the writer. *)
From Verif Require Import CBase StrMap Props.

(** include/trax.h:46-50, message types; TRAX_ERROR (-1) is represented by [None] in [option mtype]. *)
Inductive mtype := MHello | MInitialize | MFrame | MQuit | MState.

(** src/message.h:4, TRAX_PREFIX; src/message.c:69, prefix_length = 7 *)
Definition TRAX_PREFIX : list N := str "@@TRAX:".

(** src/message.c:71-81, __is_valid_key; MAX_KEY_LENGTH = 64 (line 67).  The bytes are never negative here
    (see [read_char]), so isalnum is defined. *)
Definition is_key_char (c : N) : bool := is_alnum c || (c =? 46) || (c =? 95).
Definition is_valid_key (k : list N) : bool :=
  if Nat.ltb 64 (List.length k) then false else forallb is_key_char k.

(** src/message.c:83-93, __parse_message_type (strcmpi = strcasecmp) *)
Definition parse_message_type (s : list N) : option mtype :=
  if strcasecmp_eq s (str "hello") then Some MHello
  else if strcasecmp_eq s (str "initialize") then Some MInitialize
  else if strcasecmp_eq s (str "state") then Some MState
  else if strcasecmp_eq s (str "status") then Some MState
  else if strcasecmp_eq s (str "frame") then Some MFrame
  else if strcasecmp_eq s (str "quit") then Some MQuit
  else None.

(** src/message.c:5-16, parser states.  A negative C state -7..-1 is [PPrefix n] with n = 7 + state, the number of
    prefix characters matched so far. *)
Inductive pstate :=
| PPrefix (n : nat)
| PType
| PSpaceExpect
| PSpace
| PUnquotedKey
| PUnquotedValue
| PUnquotedEscapeKey
| PUnquotedEscapeValue
| PQuotedKey
| PQuotedValue
| PQuotedEscapeKey
| PQuotedEscapeValue
| PPass.

(** src/message.h:28-33 struct input_cache, and the output parameters of read_message.  The two string buffers are
    represented by their contents (Buffer.v proves that the growing buffers of src/buffer.h behave like that).
    [rd_sets] are the calls trax_properties_set(properties, key, value) made so far, in order; they are applied to
    the caller's dictionary by [read_message]. *)
Record reader := mkReader {
  rd_type : option mtype;
  rd_complete : bool;
  rd_state : pstate;
  rd_key : list N;
  rd_val : list N;
  rd_args : list (list N);
  rd_sets : list (list N * list N)
}.

Definition set_state (s : reader) (p : pstate) : reader :=
  mkReader (rd_type s) (rd_complete s) p (rd_key s) (rd_val s) (rd_args s) (rd_sets s).
Definition set_complete (s : reader) : reader :=
  mkReader (rd_type s) true (rd_state s) (rd_key s) (rd_val s) (rd_args s) (rd_sets s).
Definition set_type (s : reader) (t : option mtype) : reader :=
  mkReader t (rd_complete s) (rd_state s) (rd_key s) (rd_val s) (rd_args s) (rd_sets s).
Definition reset_key (s : reader) : reader :=
  mkReader (rd_type s) (rd_complete s) (rd_state s) [] (rd_val s) (rd_args s) (rd_sets s).
Definition reset_val (s : reader) : reader :=
  mkReader (rd_type s) (rd_complete s) (rd_state s) (rd_key s) [] (rd_args s) (rd_sets s).
Definition push_key (s : reader) (c : N) : reader :=
  mkReader (rd_type s) (rd_complete s) (rd_state s) (rd_key s ++ [c]) (rd_val s) (rd_args s) (rd_sets s).
Definition push_val (s : reader) (c : N) : reader :=
  mkReader (rd_type s) (rd_complete s) (rd_state s) (rd_key s) (rd_val s ++ [c]) (rd_args s) (rd_sets s).

(** buffer_extract(key_buffer) followed by list_append: the copy ends at an embedded NUL (strlen in list_append) *)
Definition append_arg (s : reader) : reader :=
  mkReader (rd_type s) (rd_complete s) (rd_state s) (rd_key s) (rd_val s)
           (rd_args s ++ [c_string (rd_key s)]) (rd_sets s).
(** buffer_extract of both buffers followed by trax_properties_set: both C strings end at an embedded NUL *)
Definition append_prop (s : reader) : reader :=
  mkReader (rd_type s) (rd_complete s) (rd_state s) (rd_key s) (rd_val s)
           (rd_args s) (rd_sets s ++ [(c_string (rd_key s), c_string (rd_val s))]).

Definition to_pass (s : reader) : reader := reset_val (reset_key (set_type (set_state s PPass) None)).

(** src/message.c:321-610: the switch, one character. *)
Definition step (s : reader) (c : N) : reader :=
  match rd_state s with
  | PType =>                                                     (* 322-366 *)
      if is_alnum c then push_key s c
      else if c =? c_sp then
        let t := parse_message_type (c_string (rd_key s)) in
        let s1 := set_type s t in
        let s2 := match t with None => set_state s1 PPass | Some _ => set_state s1 PSpace end in
        reset_val (reset_key s2)
      else if c =? c_nl then
        let t := parse_message_type (c_string (rd_key s)) in
        let s1 := set_type s t in
        let s2 := match t with None => set_state s1 PPass | Some _ => set_complete s1 end in
        reset_val (reset_key s2)
      else reset_key (set_state s PPass)
  | PSpaceExpect =>                                              (* 367-383 *)
      if c =? c_sp then set_state s PSpace
      else if c =? c_nl then set_complete s
      else push_key (to_pass s) c
  | PSpace =>                                                    (* 384-403 *)
      if (c =? c_sp) || (c =? c_cr) then s
      else if c =? c_nl then set_complete s
      else if c =? c_quote then reset_val (reset_key (set_state s PQuotedKey))
      else push_key (reset_val (reset_key (set_state s PUnquotedKey))) c
  | PUnquotedKey =>                                              (* 404-436 *)
      if c =? c_bsl then set_state s PUnquotedEscapeKey
      else if c =? c_nl then set_complete (append_arg s)
      else if c =? c_sp then reset_key (set_state (append_arg s) PSpace)
      else if c =? c_eq then
        if is_valid_key (rd_key s) then set_state s PUnquotedValue else push_key s c
      else push_key s c
  | PUnquotedValue =>                                            (* 437-468 *)
      if c =? c_bsl then set_state s PUnquotedEscapeValue
      else if c =? c_sp then reset_val (reset_key (set_state (append_prop s) PSpace))
      else if c =? c_nl then reset_val (reset_key (set_complete (append_prop s)))
      else push_val s c
  | PUnquotedEscapeKey =>                                        (* 469-487 *)
      if c =? c_n then set_state (push_key s c_nl) PUnquotedKey
      else if negb (c =? c_nl) then set_state (push_key s c) PUnquotedKey
      else to_pass s
  | PUnquotedEscapeValue =>                                      (* 488-505 *)
      if c =? c_n then set_state (push_val s c_nl) PUnquotedValue
      else if negb (c =? c_nl) then set_state (push_val s c) PUnquotedValue
      else to_pass s
  | PQuotedKey =>                                                (* 507-530 *)
      if c =? c_bsl then set_state s PQuotedEscapeKey
      else if c =? c_quote then set_state (append_arg s) PSpaceExpect
      else if c =? c_eq then
        if is_valid_key (rd_key s) then set_state s PQuotedValue else push_key s c
      else push_key s c
  | PQuotedValue =>                                              (* 531-551 *)
      if c =? c_bsl then set_state s PQuotedEscapeValue
      else if c =? c_quote then reset_val (reset_key (set_state (append_prop s) PSpaceExpect))
      else push_val s c
  | PQuotedEscapeKey =>                                          (* 552-570 *)
      if c =? c_n then set_state (push_key s c_nl) PQuotedKey
      else if negb (c =? c_nl) then set_state (push_key s c) PQuotedKey
      else to_pass s
  | PQuotedEscapeValue =>                                        (* 571-588 *)
      if c =? c_n then set_state (push_val s c_nl) PQuotedValue
      else if negb (c =? c_nl) then set_state (push_val s c) PQuotedValue
      else to_pass s
  | PPass =>                                                     (* 590-596 *)
      if c =? c_nl then set_state s (PPrefix 0) else s
  | PPrefix n =>                                                 (* 597-609 *)
      if c =? nth n TRAX_PREFIX 0 then
        set_state s (if Nat.eqb n 6 then PType else PPrefix (S n))
      else set_state s (if c =? c_nl then PPrefix 0 else PPass)
  end.

(** The input side of a stream: bytes buffered but not yet consumed, and the results the future read()/recv() calls
    will give: each element is the non-empty list of bytes one call delivers, an empty element is a call that
    returns 0 or -1.  After the last element every call returns 0. *)
Record istream := mkStream { st_buf : list N; st_script : list (list N) }.

(** src/message.c:294-298: [char chr; ... return chr;]: a byte above 127 becomes a negative int, which the caller
    cannot tell from an error. *)
Definition char_val (c : N) : option N := if c <? 128 then Some c else None.

(** src/message.c:266-300, read_character; None is a negative return value *)
Definition read_char (st : istream) : option N * istream :=
  match st_buf st with
  | c :: b => (char_val c, mkStream b (st_script st))
  | [] =>
      match st_script st with
      | [] => (None, st)
      | [] :: sc => (None, mkStream [] sc)
      | (c :: b) :: sc => (char_val c, mkStream b sc)
      end
  end.

(** src/message.c:308-612: the loop.  The result holds the reader state, the stream and the bytes logged with
    LOG_CHAR (line 319). *)
Fixpoint read_loop (fuel : nat) (st : istream) (s : reader) (log : list N)
  : outcome (reader * istream * list N) :=
  if rd_complete s then Ok (s, st, log)
  else
    match fuel with
    | O => NoFuel
    | S fuel' =>
        match read_char st with
        | (None, st') =>
            match rd_type s with
            | None => Ok (s, st', log)                           (* line 314: break *)
            | Some _ => read_loop fuel' st' (step (set_complete s) c_nl) (log ++ [c_nl])
            end
        | (Some c, st') => read_loop fuel' st' (step s c) (log ++ [c])
        end
    end.

(** Enough fuel: the number of bytes and of read results left, plus two. *)
Definition script_size (sc : list (list N)) : nat :=
  fold_right (fun ch n => S (List.length ch) + n)%nat O sc.
Definition stream_size (st : istream) : nat := (List.length (st_buf st) + script_size (st_script st))%nat.

(** State of the reader at the beginning of read_message: all of input_cache except message_type is re-initialised at
    the end of each call (lines 616-619) and by initialize_cache (lines 95-104); message_type is kept. *)
Definition reader_start (t : option mtype) : reader := mkReader t false (PPrefix 0) [] [] [] [].

Record read_result := mkRead {
  rr_type : option mtype;          (* return value; also the new input.message_type *)
  rr_args : list (list N);
  rr_props : props;
  rr_stream : istream;
  rr_log : list N
}.

(** src/message.c:302-623, read_message: [t] is input.message_type on entry (-1 on a new stream). *)
Definition read_message (t : option mtype) (st : istream) (p : props) : outcome read_result :=
  r <- read_loop (S (S (stream_size st))) st (reader_start t) [] ;;
  let '(s, st', log) := r in
  p' <- enum_into props_set (rd_sets s) p ;;
  Ok (mkRead (rd_type s) (rd_args s) p' st' log).

(** ---- Writer ---- *)

(** src/message.c:664-692, write_buffer_escaped: the buffers handed to write_buffer, in order.  [pending] is
    buf[j..i).  (An empty buffer is not written at all, line 626.) *)
Fixpoint escaped_chunks (l : list N) (pending : list N) : list (list N) :=
  match l with
  | [] => [pending]
  | c :: l' =>
      if (c =? c_quote) || (c =? c_bsl) || (c =? c_nl) then
        if c =? c_nl then pending :: [c_bsl] :: [c_n] :: escaped_chunks l' []
        else pending :: [c_bsl] :: escaped_chunks l' [c]
      else escaped_chunks l' (pending ++ [c])
  end.
Definition write_escaped (s : list N) : list (list N) :=
  match s with [] => [] | _ => escaped_chunks s [] end.

(** An OUTPUT_STRING / OUTPUT_ESCAPED macro (lines 699-700): a list of write_buffer calls; a failing call ends this
    macro's calls, its result is dropped and the next macro goes on. *)
Notation output := (list (list N)) (only parsing).

(** src/message.c:728-752 *)
Definition type_name (t : mtype) : list N :=
  match t with
  | MHello => str "hello"
  | MInitialize => str "initialize"
  | MFrame => str "frame"
  | MState => str "state"
  | MQuit => str "quit"
  end.

(** src/message.c:707-718, __output_properties *)
Definition property_outputs (kv : list N * list N) : list output :=
  [ [[c_quote]]; [fst kv]; [[c_eq]]; write_escaped (snd kv); [[c_quote; c_sp]] ].

(** src/message.c:757-762 *)
Definition argument_outputs (a : list N) : list output :=
  [ [[c_quote]]; write_escaped a; [[c_quote; c_sp]] ].

(** src/message.c:720-778, write_message (for the five types of the protocol; other types write nothing) *)
Definition message_outputs (t : mtype) (args : list (list N)) (p : props) : list output :=
  [ [TRAX_PREFIX]; [type_name t]; [[c_sp]] ] ++
  flat_map argument_outputs args ++
  flat_map property_outputs (props_enum p) ++
  [ [[c_nl]] ].

(** The output side: results of the future write()/send() calls.  [WAccept n]: the call takes n bytes (all that is
    left, if fewer); [WError]: it returns -1.  After the last element every call takes everything. *)
Inductive wres := WAccept (n : nat) | WError.

Record ostate := mkO { o_sched : list wres; o_bytes : list N; o_log : list N }.

(** src/message.c:632-655: the write loop of one buffer.  Result: remaining schedule, bytes delivered, success. *)
Fixpoint write_all (sched : list wres) (buf : list N) : list wres * list N * bool :=
  match buf with
  | [] => (sched, [], true)
  | _ =>
      match sched with
      | [] => ([], buf, true)
      | WError :: sched' => (sched', [], false)
      | WAccept n :: sched' =>
          let '(r, d, ok) := write_all sched' (skipn n buf) in
          (r, firstn n buf ++ d, ok)
      end
  end.

(** src/message.c:625-662, write_buffer.  The buffer is logged (line 659) only when it was written completely. *)
Definition write_buffer (o : ostate) (buf : list N) : ostate * bool :=
  match buf with
  | [] => (o, true)
  | _ =>
      let '(r, d, ok) := write_all (o_sched o) buf in
      (mkO r (o_bytes o ++ d) (o_log o ++ (if ok then buf else [])), ok)
  end.

(** One OUTPUT macro *)
Fixpoint run_output (o : ostate) (chunks : output) : ostate :=
  match chunks with
  | [] => o
  | b :: chunks' => let (o', ok) := write_buffer o b in if ok : bool then run_output o' chunks' else o'
  end.

Definition write_message (o : ostate) (t : mtype) (args : list (list N)) (p : props) : ostate :=
  fold_left run_output (message_outputs t args p) o.
