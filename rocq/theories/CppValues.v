(** Model of the values of the C++ classes Properties and Metadata (src/traxpp.cpp).  A std::string is a list of bytes that may
    contain NUL.  Sharing and lifetimes of these objects are in Wrap.v: here an object has one owner (claims() is 1). *)
From Verif Require Import CBase StrMap Props Num PropsNum Formats Handle Matlab.
Local Open Scope Z_scope.

(** traxpp.cpp:1030-1032: the wrapped pointer, at first NULL *)
Definition cprops := option props.
Definition cp_new : cprops := None.

(** traxpp.cpp:1154-1164 ensure_unique, for one owner *)
Definition cp_unique (p : cprops) : props := match p with Some q => q | None => props_create end.

(** traxpp.cpp:1064-1067 set(key, string): both texts end at their first NUL *)
Definition cp_set (p : cprops) (key value : list N) : outcome cprops :=
  q <- props_set (cp_unique p) (c_string key) (c_string value) ;; Ok (Some q).
(** traxpp.cpp:1069-1072 set(key, int) *)
Definition cp_set_int (p : cprops) (key : list N) (value : Z) : outcome cprops :=
  q <- props_set_int (cp_unique p) (c_string key) value ;; Ok (Some q).
(** traxpp.cpp:1074-1077 set(key, float) *)
Definition cp_set_float (p : cprops) (key : list N) (value : spec_float) : outcome cprops :=
  q <- props_set_float (cp_unique p) (c_string key) value ;; Ok (Some q).
(** traxpp.cpp:1056-1062 clear, for one owner *)
Definition cp_clear (p : cprops) : cprops := option_map props_clear p.

(** traxpp.cpp:1051-1054 size *)
Definition cp_size (p : cprops) : nat := match p with Some q => props_count q | None => 0%nat end.

(** traxpp.cpp:1083-1093 get(key, string) *)
Definition cp_get (p : cprops) (key def : list N) : outcome (list N) :=
  match p with
  | None => Ok def
  | Some q => v <- props_get q (c_string key) ;; match v with Some t => Ok t | None => Ok def end
  end.
(** traxpp.cpp:1079-1081 get(key, const char* ): a NULL default is the empty text *)
Definition cp_get_chars (p : cprops) (key : list N) (def : option (list N)) : outcome (list N) :=
  cp_get p key (match def with Some t => c_string t | None => [] end).
(** traxpp.cpp:1095-1098 get(key, int) *)
Definition cp_get_int (p : cprops) (key : list N) (def : Z) : outcome Z :=
  match p with None => Ok def | Some q => props_get_int q (c_string key) def end.
(** traxpp.cpp:1100-1103 get(key, float) *)
Definition cp_get_float (p : cprops) (key : list N) (def : spec_float) : outcome spec_float :=
  match p with None => Ok def | Some q => props_get_float q (c_string key) def end.
(** traxpp.cpp:1105-1107 get(key, double): through the float *)
Definition cp_get_double (p : cprops) (key : list N) (def : spec_float) : outcome spec_float :=
  x <- cp_get_float p key (float_of_double def) ;; Ok (double_of_float x).
(** traxpp.cpp:1109-1112 get(key, bool): the default is passed as an int *)
Definition cp_get_bool (p : cprops) (key : list N) (def : bool) : outcome bool :=
  match p with
  | None => Ok def
  | Some q => n <- props_get_int q (c_string key) (if def then 1 else 0) ;; Ok (negb (n =? 0))
  end.

(** traxpp.cpp:1114-1117 enumerate: the pairs given to the callback, in the order of the calls *)
Definition cp_pairs (p : cprops) : list (list N * list N) := match p with Some q => props_enum q | None => [] end.

(** Comparison of std::string: lexicographic by unsigned bytes *)
Fixpoint text_compare (a b : list N) : comparison :=
  match a, b with
  | [], [] => Eq
  | [], _ :: _ => Lt
  | _ :: _, [] => Gt
  | x :: a', y :: b' => match (x ?= y)%N with Eq => text_compare a' b' | c => c end
  end.
(** m[key] = value of a std::map, which keeps its pairs in the order of the keys *)
Fixpoint map_put (m : list (list N * list N)) (k v : list N) : list (list N * list N) :=
  match m with
  | [] => [(k, v)]
  | (k', v') :: r =>
      match text_compare k k' with
      | Lt => (k, v) :: m
      | Eq => (k, v) :: r
      | Gt => (k', v') :: map_put r k v
      end
  end.

(** traxpp.cpp:1142-1146 map_enumerator, 1182-1188 to_map *)
Definition cp_to_map (p : cprops) (m : list (list N * list N)) : list (list N * list N) :=
  fold_left (fun m kv => map_put m (fst kv) (snd kv)) (cp_pairs p) m.

(** traxpp.cpp:1175-1180 from_map: each pair of the map is set, in the order of the keys *)
Fixpoint cp_from_map (p : cprops) (m : list (list N * list N)) : outcome cprops :=
  match m with
  | [] => Ok p
  | (k, v) :: r => q <- cp_set p k v ;; cp_from_map q r
  end.

(** traxpp.cpp:1148-1152 vector_enumerator, 1190-1196 to_vector: the keys are added at the end *)
Definition cp_to_vector (p : cprops) (l : list (list N)) : list (list N) := l ++ map fst (cp_pairs p).

(** traxpp.cpp:1136-1140 print_enumerator, 1166-1173 operator<< *)
Definition print_line (kv : list N * list N) : list N := fst kv ++ [61%N] ++ snd kv ++ [10%N].
Definition cp_print (p : cprops) : list N := flat_map print_line (cp_pairs p).

(** traxpp.cpp:111-113 Metadata(): no flags *)
Definition cm_new : outcome metadata := metadata_create 0 0 TRAX_CHANNEL_COLOR None None None (Some 0).

(** traxpp.cpp:127, 128, 129: an empty text is passed as NULL *)
Definition text_or_null (t : list N) : option (list N) := match t with [] => None | _ => Some (c_string t) end.

(** traxpp.cpp:123-132 Metadata(region_formats, image_formats, channels, name, description, family, flags) *)
Definition cm_make (region image channels : Z) (name description family : list N) (flags : Z) : outcome metadata :=
  metadata_create region image channels (text_or_null name) (text_or_null description) (text_or_null family) (Some flags).

(** traxpp.cpp:134-139 Metadata(trax_metadata* ): the formats, texts and flags, not the custom properties *)
Definition cm_copy (m : metadata) : outcome metadata :=
  match md_flags m with
  | Some f => metadata_create (md_region m) (md_image m) (md_channels m) (md_name m) (md_description m) (md_family m) (Some f)
  | None => UB
  end.

(** traxpp.cpp:166-180 tracker_name, tracker_description, tracker_family *)
Definition text_of_null (t : option (list N)) : list N := match t with Some s => s | None => [] end.
Definition cm_name (m : metadata) : list N := text_of_null (md_name m).
Definition cm_description (m : metadata) : list N := text_of_null (md_description m).
Definition cm_family (m : metadata) : list N := text_of_null (md_family m).

(** traxpp.cpp:207-217 get_custom *)
Definition cm_get_custom (m : metadata) (key : list N) : outcome (list N) :=
  v <- props_get (md_custom m) (c_string key) ;; match v with Some t => Ok t | None => Ok [] end.
(** traxpp.cpp:219-223 set_custom *)
Definition cm_set_custom (m : metadata) (key value : list N) : outcome metadata :=
  q <- props_set (md_custom m) (c_string key) (c_string value) ;;
  Ok (mkMeta (md_region m) (md_image m) (md_channels m) (md_name m) (md_description m) (md_family m) q (md_flags m)).
Fixpoint cm_set_customs (m : metadata) (l : list (list N * list N)) : outcome metadata :=
  match l with
  | [] => Ok m
  | (k, v) :: r => m' <- cm_set_custom m k v ;; cm_set_customs m' r
  end.

(** traxpp.cpp:260-266 Handle::metadata; None: an object without a handle *)
Definition handle_metadata (h : option handle) : outcome metadata :=
  match h with
  | None => cm_new
  | Some h => cm_copy (h_meta h)
  end.
