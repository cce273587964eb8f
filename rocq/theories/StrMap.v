(** Model of src/strmap.c (string map with chained buckets). *)
From Verif Require Import CBase.

(** src/strmap.c:44-47, struct Pair.  [pv_cap] is the number of bytes allocated for the value string.
    Keys and values are C strings (lists of non-NUL bytes).  Null pointers inside a stored pair never occur
    (allocation failure is not modelled). *)
Record pair := mkPair { pk : list N; pv : list N; pv_cap : nat }.

(** src/strmap.c:49-57, struct Bucket and struct StrMap: [map->count] is the length of the outer list. *)
Definition smap := list (list pair).

(** src/strmap.c:62-78, sm_new *)
Definition sm_new (capacity : nat) : smap := repeat [] capacity.

(** A [char] read as int: signed on the modelled platforms. *)
Definition schar (c : N) : Z := if c <? 128 then Z.of_N c else (Z.of_N c - 256)%Z.

(** src/strmap.c:337-346, hash: unsigned long arithmetic modulo 2^64. *)
Definition hash (s : list N) : Z :=
  fold_left (fun h c => ((h * 32 + h + schar c) mod 18446744073709551616)%Z) s 5381%Z.

(** src/strmap.c:122, 153, 179: bucket index *)
Definition bucket_index (m : smap) (key : list N) : nat :=
  Z.to_nat (hash key mod Z.of_nat (List.length m))%Z.

(** src/strmap.c:311-332, get_pair: first pair of the bucket with an equal key *)
Fixpoint get_pair (b : list pair) (key : list N) : option pair :=
  match b with
  | [] => None
  | p :: b' => if bytes_eqb (pk p) key then Some p else get_pair b' key
  end.

(** src/strmap.c:184-201: replacement of the value in the first matching pair.  strcpy past the allocation is UB. *)
Fixpoint replace_value (b : list pair) (key value : list N) : outcome (list pair) :=
  match b with
  | [] => Ok []
  | p :: b' =>
      if bytes_eqb (pk p) key then
        let cap := if Nat.ltb (List.length (pv p)) (List.length value)
                   then S (List.length value)      (* realloc, line 192 *)
                   else pv_cap p in
        if Nat.leb (S (List.length value)) cap     (* strcpy, line 199 *)
        then Ok (mkPair (pk p) value cap :: b')
        else UB
      else r <- replace_value b' key value ;; Ok (p :: r)
  end.

(** src/strmap.c:202-245: a new pair at the end of the bucket *)
Definition insert_pair (b : list pair) (key value : list N) : list pair :=
  b ++ [mkPair key value (S (List.length value))].

(** Update of one element of a list; an index outside the list is an out-of-bounds access. *)
Fixpoint set_nth {A} (l : list A) (i : nat) (x : A) : list A :=
  match l, i with
  | [], _ => []
  | _ :: l', O => x :: l'
  | y :: l', S i' => y :: set_nth l' i' x
  end.

(** src/strmap.c:162-246, sm_put.  [% map->count] with count 0 is UB. *)
Definition sm_put (m : smap) (key value : list N) : outcome smap :=
  if Nat.eqb (List.length m) 0 then UB
  else
    let i := bucket_index m key in
    let b := nth i m [] in
    match get_pair b key with
    | Some _ => b' <- replace_value b key value ;; Ok (set_nth m i b')
    | None => Ok (set_nth m i (insert_pair b key value))
    end.

(** src/strmap.c:110-139, sm_get with out_buf = NULL and n_out_buf = 0: the size needed, 0 if absent *)
Definition sm_get_size (m : smap) (key : list N) : outcome nat :=
  if Nat.eqb (List.length m) 0 then UB
  else match get_pair (nth (bucket_index m key) m []) key with
       | None => Ok O
       | Some p => Ok (S (List.length (pv p)))
       end.

(** src/strmap.c:110-139, sm_get with a buffer of [n] bytes ([cap] of them really allocated): the string copied,
    or None when 0 is returned and the buffer is untouched. *)
Definition sm_get_copy (m : smap) (key : list N) (n cap : nat) : outcome (option (list N)) :=
  if Nat.eqb (List.length m) 0 then UB
  else match get_pair (nth (bucket_index m key) m []) key with
       | None => Ok None
       | Some p =>
           if Nat.leb n (List.length (pv p)) then Ok None
           else if Nat.leb (S (List.length (pv p))) cap then Ok (Some (pv p)) else UB
       end.

(** src/strmap.c:248-275, sm_get_count *)
Definition sm_get_count (m : smap) : nat := fold_left (fun n b => (n + List.length b)%nat) m O.

(** src/strmap.c:277-305, sm_enum: the pairs in the order in which the callback sees them (buckets in order,
    pairs of a bucket in order).  Callbacks that modify the enumerated map are not modelled. *)
Definition sm_enum (m : smap) : list (list N * list N) :=
  flat_map (fun b => map (fun p => (pk p, pv p)) b) m.
