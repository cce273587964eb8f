(** Specification for the texts of the Python bindings *)
From Verif Require Import CBase PropsSpec Message.

(** Unicode scalar values, and their UTF-8 form: the shortest one (the Unicode Standard, table 3-6) *)
Definition scalar (c : N) : Prop := c < 55296 \/ 57344 <= c < 1114112.
Inductive utf8_form : N -> list N -> Prop :=
| form1 c : c < 128 -> utf8_form c [c]
| form2 c y x : 128 <= c < 2048 -> c = 64 * y + x -> x < 64 -> utf8_form c [192 + y; 128 + x]
| form3 c z y x : 2048 <= c < 65536 -> scalar c -> c = 4096 * z + 64 * y + x -> y < 64 -> x < 64 ->
    utf8_form c [224 + z; 128 + y; 128 + x]
| form4 c w z y x : 65536 <= c < 1114112 -> c = 262144 * w + 4096 * z + 64 * y + x -> z < 64 -> y < 64 -> x < 64 ->
    utf8_form c [240 + w; 128 + z; 128 + y; 128 + x].
(** The bytes of a text: the forms of its characters, one after the other *)
Definition utf8_text (s bytes : list N) : Prop := exists forms, Forall2 utf8_form s forms /\ bytes = concat forms.

(** Texts that can be passed to C unchanged *)
Definition plain (s : list N) : Prop := Forall (fun c => scalar c /\ c <> 0) s.
(** The value given last for a key *)
Definition latest (sets : list (list N * list N)) (k : list N) : option (list N) :=
  fold_left (fun acc kv => if bytes_eqb (fst kv) k then Some (snd kv) else acc) sets None.
(** A Python dict shows a map: no key twice, and exactly the pairs of the map *)
Definition shows (d : list (list N * list N)) (m : list N -> list N -> Prop) : Prop :=
  NoDup (map fst d) /\ forall k v, In (k, v) d <-> m k v.
(** Dictionaries of the C library hold C strings *)
Definition no_nul (s : list N) : Prop := ~ In 0 s.
Definition c_strings_set (ops : list pop) : Prop :=
  Forall (fun o => match o with PSet k v => no_nul k /\ no_nul v | PClear => True end) ops.
