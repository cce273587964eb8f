(** Model of the property dictionary API of src/trax.c (string part). *)
From Verif Require Import CBase StrMap.

(** src/trax.c:110-112: struct trax_properties wraps one map. *)
Definition props := smap.

(** src/trax.c:1928-1936 trax_properties_create, 1919-1926 trax_properties_clear: a map with 32 buckets *)
Definition props_create : props := sm_new 32.
Definition props_clear (_ : props) : props := sm_new 32.

(** src/trax.c:1957-1961 trax_properties_set *)
Definition props_set (p : props) (key value : list N) : outcome props := sm_put p key value.

(** src/trax.c:1979-1991 trax_properties_get.  The buffer allocated has sizeof(trax_properties) * size = 8 * size
    bytes.  If the second sm_get copied nothing the returned memory would be uninitialised (UB). *)
Definition props_get (p : props) (key : list N) : outcome (option (list N)) :=
  size <- sm_get_size p key ;;
  if Nat.ltb size 1 then Ok None
  else r <- sm_get_copy p key size (8 * size)%nat ;;
       match r with
       | Some v => Ok (Some v)
       | None => UB
       end.

(** src/trax.c:1993-1996 trax_properties_has *)
Definition props_has (p : props) (key : list N) : outcome bool :=
  size <- sm_get_size p key ;; Ok (negb (Nat.ltb size 1)).

(** src/trax.c:2035-2039 trax_properties_count *)
Definition props_count (p : props) : nat := sm_get_count p.

(** src/trax.c:2041-2046 trax_properties_enumerate *)
Definition props_enum (p : props) : list (list N * list N) := sm_enum p.

(** A callback run over an enumeration, with a destination dictionary as its object. *)
Fixpoint enum_into (f : props -> list N -> list N -> outcome props) (kvs : list (list N * list N)) (dest : props)
  : outcome props :=
  match kvs with
  | [] => Ok dest
  | (k, v) :: kvs' => d <- f dest k v ;; enum_into f kvs' d
  end.

(** src/trax.c:220-223 *)
Definition copy_property_overwrite (dest : props) (key value : list N) : outcome props := props_set dest key value.

(** src/trax.c:225-229 *)
Definition copy_property_safe (dest : props) (key value : list N) : outcome props :=
  h <- props_has dest key ;; if h : bool then Ok dest else props_set dest key value.

(** src/trax.c:231-235: strncmp(key, "trax.", 5) == 0 *)
Definition copy_property_external_overwrite (dest : props) (key value : list N) : outcome props :=
  if starts_with (str "trax.") key then Ok dest else props_set dest key value.

(** src/trax.c:237-241 *)
Definition copy_property_external_safe (dest : props) (key value : list N) : outcome props :=
  h <- props_has dest key ;;
  if (h : bool) || starts_with (str "trax.") key then Ok dest else props_set dest key value.

(** src/trax.c:35-37: the flag values *)
Definition COPY_ALL : Z := 1.
Definition COPY_EXTERNAL : Z := 0.
Definition COPY_OVERWRITE : Z := 2.

(** C truth value, bitwise and, logical and *)
Definition truth (z : Z) : bool := negb (z =? 0)%Z.

(** src/trax.c:520-528, copy_properties.  The second test is the logical [flags && COPY_OVERWRITE], as written. *)
Definition copy_callback (flags : Z) : props -> list N -> list N -> outcome props :=
  if truth (Z.land flags COPY_ALL)
  then (if truth flags && truth COPY_OVERWRITE then copy_property_overwrite else copy_property_safe)
  else (if truth flags && truth COPY_OVERWRITE then copy_property_external_overwrite
        else copy_property_external_safe).
Definition copy_properties (source dest : props) (flags : Z) : outcome props :=
  enum_into (copy_callback flags) (props_enum source) dest.

(** src/trax.c:1938-1946, trax_properties_copy *)
Definition props_copy (original : props) : outcome props := copy_properties original props_create COPY_ALL.

(** src/trax.c:1948-1955, trax_properties_append (source and drain distinct objects) *)
Definition props_append (source drain : props) (overwrite : bool) : outcome props :=
  copy_properties source drain (if overwrite then Z.lor COPY_ALL COPY_OVERWRITE else COPY_ALL).
