(** Memory of property dictionaries (src/strmap.c and src/trax.c): every block they allocate, with allocations that may fail. *)
From Verif Require Import CBase StrMap Props Blocks.

(** The blocks in use (Blocks.v), how the coming allocations go (false: NULL; all succeed behind the end of the list), and how many failed *)
Record world := mkWorld { w_mem : mem; w_plan : list bool; w_failed : nat }.
Definition am A := world -> outcome (A * world).
Definition aret {A} (a : A) : am A := fun w => Ok (a, w).
Definition ab {A B} (f : am A) (k : A -> am B) : am B := fun w => r <- f w ;; k (fst r) (snd r).
Definition acrash {A} : am A := fun _ => UB.
Notation "x <== f ;; k" := (ab f (fun x => k)) (at level 61, f at next level, right associativity).
Notation "f ;=; k" := (ab f (fun _ => k)) (at level 61, right associativity).
(** A command that allocates nothing *)
Definition plainly {A} (f : mm A) : am A := fun w => r <- f (w_mem w) ;; Ok (fst r, mkWorld (snd r) (w_plan w) (w_failed w)).
Definition malloc : am (option nat) :=
  fun w =>
    match w_plan w with
    | false :: l => Ok (None, mkWorld (w_mem w) l (S (w_failed w)))
    | l => r <- new (w_mem w) ;; Ok (Some (fst r), mkWorld (snd r) (tl l) (w_failed w))
    end.
(** realloc: the block moves, or NULL and the old block stays *)
Definition reallocate (x : nat) : am (option nat) :=
  plainly (touch x) ;=;
  y <== malloc ;;
  match y with
  | None => aret None
  | Some y => plainly (free x) ;=; aret (Some y)
  end.
Definition afree (x : nat) : am unit := plainly (free x).
Definition use (x : nat) : am unit := plainly (touch x).

(** src/strmap.c:44-47 struct Pair: texts and capacity as in StrMap.v, and the two blocks *)
Record dpair := mkDpair { d_pair : pair; d_key : nat; d_value : nat }.
(** src/strmap.c:49-52 struct Bucket; None: pairs is NULL.  The count is the length of the list. *)
Record dbucket := mkDbucket { b_array : option nat; b_pairs : list dpair }.
(** src/strmap.c:54-57 struct StrMap *)
Record dmap := mkDmap { dm_struct : nat; dm_array : nat; dm_buckets : list dbucket }.

(** src/strmap.c:62-78 sm_new; None is NULL *)
Definition dm_new (capacity : nat) : am (option dmap) :=
  s <== malloc ;;
  match s with
  | None => aret None
  | Some s =>
      a <== malloc ;;
      match a with
      | None => afree s ;=; aret None
      | Some a => use a ;=; aret (Some (mkDmap s a (repeat (mkDbucket None []) capacity)))
      end
  end.

(** src/strmap.c:96-101, the pairs of a bucket *)
Fixpoint free_pairs (l : list dpair) : am unit :=
  match l with
  | [] => aret tt
  | p :: l' => afree (d_key p) ;=; afree (d_value p) ;=; free_pairs l'
  end.
(** free(bucket->pairs), nothing for NULL *)
Definition free_array (x : option nat) : am unit := match x with Some x => afree x | None => aret tt end.
(** Reading bucket->pairs of a bucket that is not empty *)
Definition use_array (b : dbucket) : am unit := match b_array b with Some x => use x | None => acrash end.
Definition free_bucket (b : dbucket) : am unit :=
  (match b_pairs b with [] => aret tt | _ => use_array b end) ;=; free_pairs (b_pairs b) ;=; free_array (b_array b).
Fixpoint free_buckets (l : list dbucket) : am unit :=
  match l with [] => aret tt | b :: l' => free_bucket b ;=; free_buckets l' end.
(** src/strmap.c:80-108 sm_delete *)
Definition dm_delete (m : dmap) : am unit :=
  use (dm_struct m) ;=; use (dm_array m) ;=; free_buckets (dm_buckets m) ;=; afree (dm_array m) ;=; afree (dm_struct m).

(** src/strmap.c:311-332 get_pair *)
Fixpoint find_pair (l : list dpair) (key : list N) : am (option dpair) :=
  match l with
  | [] => aret None
  | p :: l' => use (d_key p) ;=; if bytes_eqb (pk (d_pair p)) key then aret (Some p) else find_pair l' key
  end.
Definition dm_pair (b : dbucket) (key : list N) : am (option dpair) :=
  match b_pairs b with [] => aret None | l => use_array b ;=; find_pair l key end.
(** src/strmap.c:122, 153, 179: the bucket of a key *)
Definition dm_index (m : dmap) (key : list N) : nat := Z.to_nat (hash key mod Z.of_nat (List.length (dm_buckets m)))%Z.
Definition dm_bucket (m : dmap) (key : list N) : dbucket := nth (dm_index m key) (dm_buckets m) (mkDbucket None []).
(** src/strmap.c:153-155 and the like: the struct and the buckets are read; count 0 is a division by zero *)
Definition dm_find (m : dmap) (key : list N) : am (option dpair) :=
  use (dm_struct m) ;=;
  if Nat.eqb (List.length (dm_buckets m)) 0 then acrash
  else use (dm_array m) ;=; dm_pair (dm_bucket m key) key.
Definition set_bucket (m : dmap) (key : list N) (b : dbucket) : dmap :=
  mkDmap (dm_struct m) (dm_array m) (set_nth (dm_buckets m) (dm_index m key) b).
(** The first pair with the key, replaced *)
Fixpoint put_back (l : list dpair) (key : list N) (p : dpair) : list dpair :=
  match l with
  | [] => []
  | q :: l' => if bytes_eqb (pk (d_pair q)) key then p :: l' else q :: put_back l' key p
  end.
(** src/strmap.c:199, strcpy into a block of [cap] bytes *)
Definition store_value (m : dmap) (p : dpair) (x cap : nat) (key value : list N) : am (bool * dmap) :=
  use x ;=;
  if Nat.leb (S (List.length value)) cap
  then aret (true, set_bucket m key (mkDbucket (b_array (dm_bucket m key))
                    (put_back (b_pairs (dm_bucket m key)) key (mkDpair (mkPair (pk (d_pair p)) value cap) (d_key p) x))))
  else acrash.
(** src/strmap.c:184-201: the value of an existing pair *)
Definition dm_replace (m : dmap) (p : dpair) (key value : list N) : am (bool * dmap) :=
  use (d_value p) ;=;
  if Nat.ltb (List.length (pv (d_pair p))) (List.length value)
  then x <== reallocate (d_value p) ;;
       match x with
       | None => aret (false, m)
       | Some x => store_value m p x (S (List.length value)) key value
       end
  else store_value m p (d_value p) (pv_cap (d_pair p)) key value.
(** src/strmap.c:213-236: the array with space for one more pair *)
Definition grow (b : dbucket) : am (option nat) :=
  match b_pairs b, b_array b with
  | [], _ => malloc
  | _, Some a => reallocate a
  | _, None => malloc
  end.
(** src/strmap.c:202-245: a new pair *)
Definition dm_insert (m : dmap) (key value : list N) : am (bool * dmap) :=
  k <== malloc ;;
  match k with
  | None => aret (false, m)
  | Some k =>
      v <== malloc ;;
      match v with
      | None => afree k ;=; aret (false, m)
      | Some v =>
          a <== grow (dm_bucket m key) ;;
          match a with
          | None => afree k ;=; afree v ;=; aret (false, m)
          | Some a =>
              use a ;=; use k ;=; use v ;=;
              aret (true, set_bucket m key (mkDbucket (Some a) (b_pairs (dm_bucket m key) ++ [mkDpair (mkPair key value (S (List.length value))) k v])))
          end
      end
  end.
(** src/strmap.c:162-246 sm_put: what it returns and the map *)
Definition dm_put (m : dmap) (key value : list N) : am (bool * dmap) :=
  p <== dm_find m key ;;
  match p with
  | Some p => dm_replace m p key value
  | None => dm_insert m key value
  end.
(** src/strmap.c:110-139 sm_get with NULL and 0: the size, 0 if absent *)
Definition dm_get_size (m : dmap) (key : list N) : am nat :=
  p <== dm_find m key ;;
  match p with
  | None => aret O
  | Some p => use (d_value p) ;=; aret (S (List.length (pv (d_pair p))))
  end.
(** src/strmap.c:110-139 sm_get with a buffer of [n] bytes (None: NULL): the text copied, None when 0 is returned *)
Definition dm_get_copy (m : dmap) (key : list N) (out : option nat) (n : nat) : am (option (list N)) :=
  p <== dm_find m key ;;
  match p, out with
  | None, _ | _, None => aret None
  | Some p, Some x =>
      use (d_value p) ;=;
      if Nat.leb n (List.length (pv (d_pair p))) then aret None else use x ;=; aret (Some (pv (d_pair p)))
  end.
(** src/strmap.c:248-275, 277-305 sm_get_count, sm_enum: what is read on the way *)
Fixpoint read_pairs (l : list dpair) : am unit :=
  match l with [] => aret tt | p :: l' => use (d_key p) ;=; use (d_value p) ;=; read_pairs l' end.
Fixpoint read_buckets (l : list dbucket) : am unit :=
  match l with
  | [] => aret tt
  | b :: l' => (match b_pairs b with [] => aret tt | _ => use_array b end) ;=; read_pairs (b_pairs b) ;=; read_buckets l'
  end.
Definition dm_pairs (m : dmap) : list (list N * list N) :=
  flat_map (fun b => map (fun p => (pk (d_pair p), pv (d_pair p))) (b_pairs b)) (dm_buckets m).
Definition dm_enum (m : dmap) : am (list (list N * list N)) :=
  use (dm_struct m) ;=; use (dm_array m) ;=; read_buckets (dm_buckets m) ;=; aret (dm_pairs m).
Definition dm_count (m : dmap) : am nat :=
  use (dm_struct m) ;=; use (dm_array m) ;=; aret (List.length (dm_pairs m)).

(** ---- Dictionaries ---- *)
(** src/trax.c:110-112 struct trax_properties *)
Record dict := mkDict { p_block : nat; p_map : option dmap }.
Definition buckets : nat := 32.
(** src/trax.c:1928-1936 trax_properties_create: the result of malloc is not checked *)
Definition dict_create : am dict :=
  b <== malloc ;;
  match b with
  | None => acrash
  | Some b => m <== dm_new buckets ;; use b ;=; aret (mkDict b m)
  end.
Definition delete_map (m : option dmap) : am unit := match m with Some m => dm_delete m | None => aret tt end.
(** src/trax.c:1919-1926 trax_properties_clear *)
Definition dict_clear (d : dict) : am dict :=
  use (p_block d) ;=; delete_map (p_map d) ;=; m <== dm_new buckets ;; use (p_block d) ;=; aret (mkDict (p_block d) m).
(** src/trax.c:1908-1916 trax_properties_release *)
Definition dict_release (d : dict) : am unit := use (p_block d) ;=; delete_map (p_map d) ;=; afree (p_block d).
(** src/trax.c:1957-1961 trax_properties_set: what sm_put returns is ignored; nothing happens without a map *)
Definition dict_set (d : dict) (key value : list N) : am dict :=
  use (p_block d) ;=;
  match p_map d with
  | None => aret d
  | Some m => r <== dm_put m key value ;; aret (mkDict (p_block d) (Some (snd r)))
  end.
Definition dict_size (d : dict) (key : list N) : am nat :=
  use (p_block d) ;=; match p_map d with None => aret O | Some m => dm_get_size m key end.
(** src/trax.c:1979-1991 trax_properties_get: the block and the text; NULL if there is no memory for it.  The block has
    sizeof(trax_properties) * size bytes, more than size.  Without a text in the block its contents are indeterminate. *)
Definition dict_get (d : dict) (key : list N) : am (option (nat * list N)) :=
  size <== dict_size d key ;;
  if Nat.ltb size 1 then aret None
  else x <== malloc ;;
       match p_map d with
       | None => acrash
       | Some m => t <== dm_get_copy m key x size ;;
                   match x, t with
                   | None, _ => aret None
                   | Some x, Some t => aret (Some (x, t))
                   | Some _, None => acrash
                   end
       end.
(** src/trax.c:1993-1996 trax_properties_has *)
Definition dict_has (d : dict) (key : list N) : am bool := size <== dict_size d key ;; aret (negb (Nat.ltb size 1)).
(** src/trax.c:2035-2039 trax_properties_count *)
Definition dict_count (d : dict) : am nat := use (p_block d) ;=; match p_map d with None => aret O | Some m => dm_count m end.
(** src/trax.c:2041-2046 trax_properties_enumerate *)
Definition dict_enum (d : dict) : am (list (list N * list N)) :=
  use (p_block d) ;=; match p_map d with None => aret [] | Some m => dm_enum m end.
(** src/trax.c:220-229 copy_property_overwrite, copy_property_safe *)
Definition dict_copy_one (overwrite : bool) (d : dict) (key value : list N) : am dict :=
  if overwrite then dict_set d key value
  else h <== dict_has d key ;; if (h : bool) then aret d else dict_set d key value.
(** src/trax.c:1948-1955 trax_properties_append by way of copy_properties: once for each pair of the source, which is another
    dictionary (Props.v models the choice of the function) *)
Fixpoint dict_append (overwrite : bool) (d : dict) (l : list (list N * list N)) : am dict :=
  match l with
  | [] => aret d
  | (k, v) :: l' => d' <== dict_copy_one overwrite d k v ;; dict_append overwrite d' l'
  end.
