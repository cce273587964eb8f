(** Model of the example tracker written in Python, support/tests/static/python_static.py.
    Simplifications: the time the program sleeps (and the error of time.sleep for more than 292 years) is left out, and so is its
    own text on the output (line 21), which is a part of the specification; signals do not occur.  The text of an exception that
    is not the program's own (an argument of the passes below) may be anything. *)
From Verif Require Import CBase StrMap Props Message Region Image Formats Handle PyText PySession.
Local Open Scope Z_scope.

(** python_static.py:13, with the default arguments of Server (support/python/trax/server.py:46) *)
Definition pystatic_config : tracker_config :=
  mkConfig [str "rectangle"] [str "path"] [str "color"] [] [] [] None false.

(** ---- float of a text, CPython's Objects/floatobject.c:PyFloat_FromString, for 7-bit texts: whether it is a number ---- *)
Definition blank (c : N) : bool := ((c =? 32) || (9 <=? c) && (c <=? 13))%N.
Definition digit (c : N) : bool := ((48 <=? c) && (c <=? 57))%N.
Fixpoint lstrip (t : text) : text := match t with c :: t' => if blank c then lstrip t' else t | [] => [] end.
Definition strip (t : text) : text := rev (lstrip (rev (lstrip t))).
(** Python/pystrtod.c:_Py_string_to_number_with_underscores: each underscore stands between two digits; they are left out *)
Fixpoint underscores (after : bool) (t : text) : option text :=
  match t with
  | [] => Some []
  | c :: t' =>
      if (c =? 95)%N then
        if after && match t' with d :: _ => digit d | [] => false end then underscores false t' else None
      else option_map (cons c) (underscores (digit c) t')
  end.
Fixpoint skip_digits (t : text) : text := match t with c :: t' => if digit c then skip_digits t' else t | [] => [] end.
Definition begins_digit (t : text) : bool := match t with c :: _ => digit c | [] => false end.
Definition skip_sign (t : text) : text := match t with c :: t' => if ((c =? 43) || (c =? 45))%N then t' else t | [] => [] end.
(** Python/dtoa.c:_Py_dg_strtod: digits with a point and an exponent, to the end of the text *)
Definition exponent (t : text) : bool :=
  match t with
  | [] => true
  | c :: e => ((c =? 101) || (c =? 69))%N && begins_digit (skip_sign e) && match skip_digits (skip_sign e) with [] => true | _ => false end
  end.
Definition decimal (t : text) : bool :=
  match skip_digits t with
  | c :: f => if (c =? 46)%N then (begins_digit t || begins_digit f) && exponent (skip_digits f) else begins_digit t && exponent (c :: f)
  | [] => begins_digit t
  end.
(** Python/pystrtod.c:_Py_parse_inf_or_nan *)
Definition word (t : text) : bool := let w := map to_lower t in bytes_eqb w (str "inf") || bytes_eqb w (str "infinity") || bytes_eqb w (str "nan").
Definition is_number (t : text) : bool :=
  match underscores false (strip t) with Some t' => decimal (skip_sign t') || word (skip_sign t') | None => false end.

(** repr of a 7-bit text (Objects/unicodeobject.c:unicode_repr) *)
Definition hex_digit (n : N) : N := (if n <? 10 then 48 + n else 87 + n)%N.
Definition repr_char (quote c : N) : text :=
  if ((c =? quote) || (c =? 92))%N then [92; c]%N
  else if (c =? 9)%N then str "\t" else if (c =? 10)%N then str "\n" else if (c =? 13)%N then str "\r"
  else if ((c <? 32) || (c =? 127))%N then str "\x" ++ [hex_digit (c / 16); hex_digit (c mod 16)]
  else [c].
Definition repr (t : text) : text :=
  let quote := if existsb (N.eqb 39) t && negb (existsb (N.eqb 34) t) then 34%N else 39%N in
  quote :: flat_map (repr_char quote) t ++ [quote].
Definition not_a_number (t : text) : text := str "could not convert string to float: " ++ repr t.

(** ---- The program ---- *)

(** The variables: the server's handle and objects (line 11; None or the objects of a request) *)
Record pystatic := mkPystatic { py_handle : handle; py_objects : option (list (region * dict)) }.
Definition pystatic_start (h : handle) : pystatic := mkPystatic h None.
(** One pass of the loop: an answer, or the end of the with statement: the exception, what quit did and the handle *)
Inductive pypass := Answered (t : pystatic) | Left (e : option exn) (quit : unit + exn) (h : handle).

(** server.py:152-158 Server.__exit__ *)
Definition leave (h : handle) (e : option exn) (reason : option text) : outcome pypass :=
  q <- session_quit false h reason ;; let '(r, _, h') := q in Ok (Left e r h').
Definition has_type (rq : request) (name : text) : bool := match rq_type rq with Some n => bytes_eqb n name | None => false end.
(** python_static.py:18-21: the objects, or an exception with its text *)
Definition pystatic_update (told : exn -> text) (rq : request) (objects : option (list (region * dict)))
  : outcome (option (list (region * dict)) + exn * text) :=
  if has_type rq (str "initialize") then
    t <- properties_get (rq_properties rq) (str "time_wait") (Some (str "0")) ;;
    match t with
    | inl (Some t) => Ok (if is_number t then inl (rq_objects rq) else inr (ValueError, not_a_number t))
    | inl None => Ok (inr (TypeError, told TypeError))
    | inr e => Ok (inr (e, told e))
    end
  else Ok (inl objects).
(** server.py:136: objects must be a list *)
Definition pystatic_reply (told : exn -> text) (h : handle) (objects : option (list (region * dict))) : outcome pypass :=
  match objects with
  | None => leave h (Some AssertionError) (Some [])
  | Some l =>
      b <- server_status h (map (fun o => (fst o, DDict (snd o))) l) DNone ;;
      match b with
      | (inl _, h') => Ok (Answered (mkPystatic h' objects))
      | (inr e, h') => leave h' (Some e) (Some (told e))
      end
  end.
(** python_static.py:14-24 *)
Definition pystatic_pass (told : exn -> text) (fuel slack : nat) (t : pystatic) : outcome pypass :=
  w <- server_wait fuel slack (py_handle t) ;;
  match w with
  | (inr e, h) => leave h (Some e) (Some (told e))
  | (inl rq, h) =>
      if has_type rq (str "quit") || has_type rq (str "error") then leave h None None
      else
        u <- pystatic_update told rq (py_objects t) ;;
        match u with
        | inr (e, reason) => leave h (Some e) (Some reason)
        | inl objects => pystatic_reply told h objects
        end
  end.
