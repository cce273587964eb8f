(** Specification for C113 and C114: what C++ metadata and C++ dictionaries show. *)
From Coq Require Import Sorted.
From Verif Require Import CBase Props PropsSpec Message MessageSpec Num NumSpec Formats Handle SessionSpec CppValues.
Local Open Scope Z_scope.

(** ---- C113: what a program says about its tracker, custom properties in the order they are set ---- *)
Record announce := mkAnnounce {
  an_region : Z; an_image : Z; an_channels : Z;
  an_name : list N; an_description : list N; an_family : list N;
  an_multi : bool;
  an_custom : list (list N * list N)
}.
(** The last value given for a name *)
Definition last_value (l : list (list N * list N)) (k : list N) : option (list N) :=
  fold_left (fun r kv => if bytes_eqb (fst kv) k then Some (snd kv) else r) l None.
Definition text_without_nul (t : list N) : Prop := ~ In 0%N t.
(** Texts and names as the protocol carries them (C01); the names beginning with trax. are reserved *)
Definition announce_ok (a : announce) : Prop :=
  1 <= an_channels a <= 7 /\ Forall (fun t => text_ok t = true) [an_name a; an_description a; an_family a] /\
  Forall (fun kv => kv_ok kv = true /\ starts_with (str "trax.") (fst kv) = false) (an_custom a).
(** The metadata object of the program *)
Definition announced_by (a : announce) : outcome metadata :=
  m <- cm_make (an_region a) (an_image a) (an_channels a) (an_name a) (an_description a) (an_family a)
         (if an_multi a then TRAX_METADATA_MULTI_OBJECT else 0) ;;
  cm_set_customs m (an_custom a).
(** Such an object shows the formats, channels and texts *)
Definition shows (m : metadata) (region image channels : Z) (a : announce) : Prop :=
  md_region m = region /\ md_image m = image /\ md_channels m = channels /\
  cm_name m = an_name a /\ cm_description m = an_description a /\ cm_family m = an_family a.
(** ... and the custom properties *)
Definition shows_custom (m : metadata) (a : announce) : Prop :=
  forall k, text_without_nul k -> cm_get_custom m k = Ok (match last_value (an_custom a) k with Some v => v | None => [] end).

Definition sample_announce : announce :=
  mkAnnounce 14 3 3 (str "Tracker") [] (str "mean ""shift""") true [(str "vot", str "2013"); (str "vot", str "2014 a=b")].

(** ---- C114: the calls a program makes on a dictionary ---- *)
Inductive cop :=
| CText (k v : list N)
| CInt (k : list N) (n : Z)
| CFloat (k : list N) (x : spec_float)
| CClear
| CMap (m : list (list N * list N)).
Inductive cval := VText (t : list N) | VInt (n : Z) | VFloat (x : spec_float).
(** What a name was last set to *)
Definition cput (f : list N -> option cval) (k : list N) (v : cval) : list N -> option cval :=
  fun k' => if bytes_eqb k k' then Some v else f k'.
Definition cmeaning (f : list N -> option cval) (o : cop) : list N -> option cval :=
  match o with
  | CText k v => cput f k (VText v)
  | CInt k n => cput f k (VInt n)
  | CFloat k x => cput f k (VFloat x)
  | CClear => fun _ => None
  | CMap m => fun k => match last_value m k with Some v => Some (VText v) | None => f k end
  end.
Definition cmeans (ops : list cop) : list N -> option cval := fold_left cmeaning ops (fun _ => None).
(** The calls themselves *)
Definition cstep (p : outcome cprops) (o : cop) : outcome cprops :=
  p' <- p ;;
  match o with
  | CText k v => cp_set p' k v
  | CInt k n => cp_set_int p' k n
  | CFloat k x => cp_set_float p' k x
  | CClear => Ok (cp_clear p')
  | CMap m => cp_from_map p' m
  end.
Definition crun (ops : list cop) : outcome cprops := fold_left cstep ops (Ok cp_new).
Definition cop_ok (o : cop) : Prop :=
  match o with
  | CText k v => text_without_nul k /\ text_without_nul v
  | CInt k n => text_without_nul k /\ in_int n = true
  | CFloat k x => text_without_nul k /\ finite_float x
  | CClear => True
  | CMap m => Forall (fun kv => text_without_nul (fst kv) /\ text_without_nul (snd kv)) m
  end.

(** A float that comes back: closer than one millionth, exactly the same from 16 on *)
Definition float_back (x y : spec_float) : Prop := closer_than 1000000 y x /\ (at_least 16 x -> units y = units x).

(** A std::map: the keys in strictly increasing order *)
Inductive text_less : list N -> list N -> Prop :=
| less_end y b : text_less [] (y :: b)
| less_head x y a b : (x < y)%N -> text_less (x :: a) (y :: b)
| less_tail x a b : text_less a b -> text_less (x :: a) (x :: b).
Definition is_map (m : list (list N * list N)) : Prop := StronglySorted (fun a b => text_less (fst a) (fst b)) m.
(** What the getters of a dictionary return for a name that was last set to [v], or never *)
Definition gets (p : cprops) (k : list N) (v : option cval) : Prop :=
  match v with
  | None =>
      (forall d, cp_get p k d = Ok d) /\ (forall d, text_without_nul d -> cp_get_chars p k (Some d) = Ok d) /\ cp_get_chars p k None = Ok [] /\
      (forall d, cp_get_int p k d = Ok d) /\ (forall d, cp_get_float p k d = Ok d) /\ (forall d, cp_get_bool p k d = Ok d)
  | Some (VText t) => (forall d, cp_get p k d = Ok t) /\ (forall d, cp_get_chars p k d = Ok t)
  | Some (VInt n) =>
      (exists t, int_text t n /\ (forall d, cp_get p k d = Ok t) /\ (forall d, cp_get_chars p k d = Ok t)) /\
      (forall d, cp_get_int p k d = Ok n) /\ (forall d, cp_get_bool p k d = Ok (negb (n =? 0)))
  | Some (VFloat x) => exists y, float_back x y /\ (forall d, cp_get_float p k d = Ok y) /\
      (forall d, exists z, cp_get_double p k d = Ok z /\ units z = units y)
  end.

Definition sample_cops : list cop :=
  [CText (str "a") (str "x y"); CInt (str "n") (-5); CClear; CFloat (str "f") (fl 3); CMap [(str "a", str "1"); (str "b", str "")]; CInt (str "m") 7; CText (str "b") (str "z")].
