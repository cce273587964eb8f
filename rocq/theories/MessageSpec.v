(** The wire format, written down independently of the reader and the writer, and the guards of C01. *)
From Verif Require Import CBase Props PropsSpec Message.

(** Escaping: a quote (34) and a backslash (92) get a backslash in front, a newline (10) becomes backslash n. *)
Definition esc_char (c : N) : list N :=
  if c =? 34 then [92; 34] else if c =? 92 then [92; 92] else if c =? 10 then [92; 110] else [c].
Definition esc (s : list N) : list N := flat_map esc_char s.

Definition wire_arg (a : list N) : list N := [34] ++ esc a ++ [34; 32].
Definition wire_prop (kv : list N * list N) : list N := [34] ++ fst kv ++ [61] ++ esc (snd kv) ++ [34; 32].

(** The bytes of one message with arguments [args] and properties [kvs] (in this order). *)
Definition wire (t : mtype) (args : list (list N)) (kvs : list (list N * list N)) : list N :=
  str "@@TRAX:" ++ type_name t ++ [32] ++ flat_map wire_arg args ++ flat_map wire_prop kvs ++ [10].

(** 7-bit text without NUL. *)
Definition text_char (c : N) : bool := (0 <? c) && (c <? 128).
Definition text_ok (s : list N) : bool := forallb text_char s.

(** Keys allowed by the protocol. *)
Definition key_ok (k : list N) : bool :=
  Nat.leb (List.length k) 64 &&
  forallb (fun c => is_digit c || is_upper c || is_lower c || (c =? 46) || (c =? 95)) k.

(** The part of [s] before the first '=', if there is one. *)
Fixpoint before_eq (s : list N) : option (list N) :=
  match s with
  | [] => None
  | c :: s' => if c =? 61 then Some [] else option_map (cons c) (before_eq s')
  end.

(** A positional argument that does not look like key=value. *)
Definition arg_ok (a : list N) : bool :=
  text_ok a && match before_eq a with Some k => negb (key_ok k) | None => true end.

Definition kv_ok (kv : list N * list N) : bool := key_ok (fst kv) && text_ok (snd kv).

(** A message as an application produces it: its dictionary is the result of a history of operations. *)
Record msg := mkMsg { m_type : mtype; m_args : list (list N); m_hist : list pop }.

Definition msg_ok (m : msg) : Prop :=
  forallb arg_ok (m_args m) = true /\ forall k v, pm_run (m_hist m) k = Some v -> kv_ok (k, v) = true.

(** Sending one message, and a sequence of messages, on an output stream. *)
Definition send (o : ostate) (m : msg) : outcome ostate :=
  p <- props_run (m_hist m) ;; Ok (write_message o (m_type m) (m_args m) p).
Fixpoint send_all (o : ostate) (ms : list msg) : outcome ostate :=
  match ms with
  | [] => Ok o
  | m :: ms' => o' <- send o m ;; send_all o' ms'
  end.

(** No write call of the schedule fails (it may accept any number of bytes). *)
Definition no_error (sched : list wres) : Prop := Forall (fun w => w <> WError) sched.

(** All bytes still to come on an input stream. *)
Definition stream_bytes (st : istream) : list N := st_buf st ++ concat (st_script st).
(** Every read()/recv() call before the end of the stream delivers at least one byte. *)
Definition delivers (st : istream) : Prop := Forall (fun ch => ch <> []) (st_script st).

(** Reading [n] messages one after the other, each with a new property dictionary. *)
Fixpoint read_many (n : nat) (t : option mtype) (st : istream) : outcome (list read_result * istream) :=
  match n with
  | O => Ok ([], st)
  | S n' =>
      r <- read_message t st props_create ;;
      rest <- read_many n' (rr_type r) (rr_stream r) ;;
      Ok (r :: fst rest, snd rest)
  end.

(** The result of a read is this message. *)
Definition receives (r : read_result) (m : msg) : Prop :=
  rr_type r = Some (m_type m) /\ rr_args r = m_args m /\
  forall k, props_get (rr_props r) k = Ok (pm_run (m_hist m) k).

(** 7-bit bytes, and a line (without its newline) that is not a protocol line. *)
Definition ascii (l : list N) : bool := forallb (fun c => c <? 128) l.
Definition plain_line (l : list N) : Prop :=
  ascii l = true /\ ~ In 10 l /\ starts_with (str "@@TRAX:") l = false.
Definition lines (ls : list (list N)) : list N := flat_map (fun l => l ++ [10]) ls.

(** The bytes of a conversation: before each message some plain lines. *)
Fixpoint transcript (items : list (list (list N) * msg)) : outcome (list N) :=
  match items with
  | [] => Ok []
  | (ls, m) :: items' =>
      o <- send (mkO [] [] []) m ;; rest <- transcript items' ;; Ok (lines ls ++ o_bytes o ++ rest)
  end.


(** Two reads with the same observable results. *)
Definition same_read (a b : read_result) : Prop :=
  rr_type a = rr_type b /\ rr_args a = rr_args b /\ rr_props a = rr_props b /\ rr_log a = rr_log b.

(** ---- The message syntax of docs/protocol.rst (section "Message format"), independent of this library's writer ----
    One character of an argument as written: itself, or a backslash and a character (backslash n is a newline). *)
Inductive item := Raw (c : N) | Esc (c : N).
Definition item_char (i : item) : N := match i with Raw c | Esc c => c end.
Definition item_text (i : item) : list N :=
  match i with Raw c => [c] | Esc c => [92; if c =? 10 then 110 else c] end.

(** An argument as written: quoted or not, positional ([None]) or named. *)
Record token := mkTok { tk_quoted : bool; tk_key : option (list N); tk_items : list item }.
Definition token_text (t : token) : list N :=
  let body := match tk_key t with Some k => k ++ [61] | None => [] end ++ flat_map item_text (tk_items t) in
  if tk_quoted t then [34] ++ body ++ [34] else body.
Definition token_value (t : token) : list N := map item_char (tk_items t).

(** Inside quotes everything but quotes, backslashes and newlines may stand for itself; outside quotes everything but
    spaces, backslashes and newlines.  Any character but 'n' may be escaped. *)
Definition item_ok (quoted : bool) (i : item) : bool :=
  match i with
  | Raw c => text_char c && negb (c =? 92) && negb (c =? 10) && negb (if quoted then c =? 34 else c =? 32)
  | Esc c => text_char c && negb (c =? 110)
  end.
(** No unescaped '=' after a valid key. *)
Fixpoint no_named (k : list N) (l : list item) : bool :=
  match l with
  | [] => true
  | Raw c :: l' => (if c =? 61 then negb (key_ok k) else true) && no_named (k ++ [c]) l'
  | Esc c :: l' => no_named (k ++ [c]) l'
  end.
(** The first character of an unquoted argument: not escaped, and not a quote or carriage return. *)
Definition first_ok (l : list item) : bool :=
  match l with Raw c :: _ => negb (c =? 34) && negb (c =? 13) | _ => false end.
Definition token_ok (t : token) : bool :=
  forallb (item_ok (tk_quoted t)) (tk_items t) &&
  match tk_key t with
  | Some k => key_ok k && (tk_quoted t || negb (Nat.eqb (List.length k) 0))
  | None => no_named [] (tk_items t) && (tk_quoted t || first_ok (tk_items t))
  end.

Definition spaces (n : nat) : list N := repeat 32 n.
(** A line: header word, arguments each followed by at least one space, perhaps a last argument not followed by one. *)
Definition line_text (w : list N) (sp : nat) (toks : list (token * nat)) (final : option token) : list N :=
  str "@@TRAX:" ++ w ++ spaces (S sp) ++
  flat_map (fun tn => token_text (fst tn) ++ spaces (S (snd tn))) toks ++
  match final with Some t => token_text t | None => [] end ++ [10].
(** A line with the header only. *)
Definition bare_line (w : list N) : list N := str "@@TRAX:" ++ w ++ [10].

Definition line_tokens (toks : list (token * nat)) (final : option token) : list token :=
  map fst toks ++ match final with Some t => [t] | None => [] end.
Definition positional (ts : list token) : list (list N) :=
  flat_map (fun t => match tk_key t with None => [token_value t] | Some _ => [] end) ts.
Definition named (ts : list token) : list pop :=
  flat_map (fun t => match tk_key t with Some k => [PSet k (token_value t)] | None => [] end) ts.
