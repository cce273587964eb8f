(** C128: what is left of a message whose sender died while writing it.  Nothing here uses the reader. *)
From Verif Require Import CBase Props PropsSpec Message MessageSpec Handle.

(** The first bytes of a message: the prefix (7 bytes), the type and a space. *)
Definition header (t : mtype) : list N := str "@@TRAX:" ++ type_name t ++ [32].
(** The arguments and then the properties, each with its quotes and the space after it. *)
Definition part_texts (args : list (list N)) (kvs : list (list N * list N)) : list (list N) :=
  map wire_arg args ++ map wire_prop kvs.
(** The number of bytes up to the end of the [n]-th part. *)
Definition up_to (t : mtype) (args : list (list N)) (kvs : list (list N * list N)) (n : nat) : nat :=
  (List.length (header t) + List.length (concat (firstn n (part_texts args kvs))))%nat.
(** Exactly [n] parts are complete in the bytes [seen]; the space after a part is not needed for that. *)
Definition complete_parts (seen : list N) (t : mtype) (args : list (list N)) (kvs : list (list N * list N)) (n : nat) : Prop :=
  (n <= List.length args + List.length kvs)%nat /\ (up_to t args kvs n <= S (List.length seen))%nat /\
  ((n < List.length args + List.length kvs)%nat -> (S (List.length seen) < up_to t args kvs (S n))%nat).

(** A dictionary has exactly these entries. *)
Definition has_exactly (p : props) (kvs : list (list N * list N)) : Prop :=
  forall k, exists o, props_get p k = Ok o /\ forall v, o = Some v <-> In (k, v) kvs.

(** What a read returns when the stream ends after the first bytes [seen] of the message [m] (written with its
    properties in the order [kvs]); [before] is the type of the message before, if there was one. *)
Inductive cut_read (before : option mtype) (m : msg) (kvs : list (list N * list N)) (seen : list N) (r : read_result) : Prop :=
| CutPrefix : (List.length seen < 7)%nat -> rr_type r = before -> rr_args r = [] -> has_exactly (rr_props r) [] ->
    cut_read before m kvs seen r
| CutName : (7 <= List.length seen)%nat ->
    (List.length seen < 7 + List.length (type_name (m_type m)))%nat \/
      (before = None /\ List.length seen = 7 + List.length (type_name (m_type m)))%nat ->
    rr_type r = None -> cut_read before m kvs seen r
| CutEscape : (exists s, seen = s ++ [92]) -> rr_type r = None -> cut_read before m kvs seen r
| CutParts n : complete_parts seen (m_type m) (m_args m) kvs n -> rr_type r = Some (m_type m) ->
    rr_args r = firstn n (m_args m) -> has_exactly (rr_props r) (firstn (n - List.length (m_args m)) kvs) ->
    cut_read before m kvs seen r.

(** The type of the last of these messages. *)
Definition last_type (t : option mtype) (ms : list msg) : option mtype := last (map (fun m => Some (m_type m)) ms) t.

(** Every entry of [a] is one of [b]. *)
Definition entries_of (a b : props) : Prop := forall k v, props_get a k = Ok (Some v) -> props_get b k = Ok (Some v).
(** The same for the dictionary of the caller, if there is one. *)
Definition given_entries (a b : option props) : Prop :=
  match a, b with Some a, Some b => entries_of a b | None, None => True | _, _ => False end.
(** The objects a client gets from an answer that was cut off, against those of the whole answer: the same regions, and for
    each some of the properties. *)
Definition objects_of {A} (got whole : list (A * props)) : Prop :=
  Forall2 (fun a b => fst a = fst b /\ entries_of (snd a) (snd b)) got whole.

(** A side of the connection with these bytes to read. *)
Definition reading (h : handle) (st : istream) : handle := with_in h (h_type h) st.

(** Two answers of a tracker: a rectangle, and a rectangle with a property. *)
Definition first_answer : list N := str "@@TRAX:state ""1,2,3,4"" " ++ [10].
Definition second_answer : msg := mkMsg MState [str "1,2,3,4"] [PSet (str "confidence") (str "1")].
(** A request of a client: two images, a rectangle and a property. *)
Definition sample_request : msg :=
  mkMsg MInitialize [str "file:///a.jpg"; str "file:///b.jpg"; str "1,2,3,4"] [PSet (str "k") (str "v")].
