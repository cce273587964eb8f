(** Model of src/buffer.h: growing string buffers and string lists with explicit allocations.
    Simplification: positions and sizes are natural numbers; a buffer of 2^31 bytes or more is outside the model. *)
From Verif Require Import CBase StrMap.

(** A char block; [None] is an indeterminate byte. Writing or copying outside of the block is UB. *)
Definition block (A : Type) := list (option A).
Definition blk_new {A} (n : nat) : block A := repeat None n.
Definition blk_write {A} (b : block A) (i : nat) (v : A) : outcome (block A) :=
  if Nat.ltb i (List.length b) then Ok (set_nth b i (Some v)) else UB.
Fixpoint blk_write_list {A} (b : block A) (i : nat) (l : list A) : outcome (block A) :=
  match l with
  | [] => Ok b
  | x :: l' => b' <- blk_write b i x ;; blk_write_list b' (S i) l'
  end.
(** realloc: keeps the old contents up to the new size *)
Definition blk_realloc {A} (b : block A) (n : nat) : block A := firstn n b ++ repeat None (n - List.length b).
(** Reading [n] bytes from the start; indeterminate bytes or an overrun are UB. *)
Fixpoint blk_read {A} (b : block A) (n : nat) {struct n} : outcome (list A) :=
  match n with
  | O => Ok []
  | S n' =>
      match b with
      | Some x :: b' => r <- blk_read b' n' ;; Ok (x :: r)
      | _ => UB
      end
  end.

(** src/buffer.h:18-22 *)
Record string_buffer := mkBuf { b_mem : block N; b_pos : nat; b_size : nat }.

(** src/buffer.h:30 *)
Definition BUFFER_INCREMENT_STEP : nat := 4096.

(** src/buffer.h:32-38 *)
Definition buffer_create (L : nat) : string_buffer := mkBuf (blk_new L) 0 L.

(** src/buffer.h:40-42 *)
Definition buffer_reset (B : string_buffer) : string_buffer := mkBuf (b_mem B) 0 (b_size B).

(** src/buffer.h:54-59: a new block of position + 1 bytes, the last one NUL *)
Definition buffer_extract (B : string_buffer) : outcome (block N) :=
  l <- blk_read (b_mem B) (b_pos B) ;;
  s <- blk_write_list (blk_new (b_pos B + 1)) 0 l ;;
  blk_write s (b_pos B) 0.

(** src/buffer.h:65-73 *)
Definition buffer_push (B : string_buffer) (c : N) : outcome string_buffer :=
  let B1 := if Nat.ltb (b_size B - b_pos B) 1
            then mkBuf (blk_realloc (b_mem B) (b_pos B + BUFFER_INCREMENT_STEP)) (b_pos B) (b_pos B + BUFFER_INCREMENT_STEP)
            else B in
  m <- blk_write (b_mem B1) (b_pos B1) c ;;
  Ok (mkBuf m (b_pos B1 + 1) (b_size B1)).

(** vsnprintf(p, n, ...) for a conversion whose text is [s]: writes at most n - 1 characters and a NUL, nothing if
    n = 0; returns the length of [s]. *)
Definition vsnprintf (m : block N) (at_ n : nat) (s : list N) : outcome (block N) :=
  match n with
  | O => Ok m
  | S n' => blk_write_list m at_ (firstn n' s ++ [0])
  end.

(** src/buffer.h:75-108 (non-Windows branch): [s] is the formatted text *)
Definition buffer_append (B : string_buffer) (s : list N) : outcome string_buffer :=
  m1 <- vsnprintf (b_mem B) (b_pos B) (b_size B - b_pos B) s ;;
  let required := List.length s in
  if Nat.leb (b_size B - b_pos B) required then
    let size := (b_pos B + required + 1)%nat in
    m2 <- vsnprintf (blk_realloc m1 size) (b_pos B) (size - b_pos B) s ;;
    Ok (mkBuf m2 (b_pos B + required) size)
  else Ok (mkBuf m1 (b_pos B + required) (b_size B)).

(** strlen / reading a C string from a block: UB when there is no NUL before the end or an indeterminate byte. *)
Fixpoint blk_string (b : block N) : outcome (list N) :=
  match b with
  | Some c :: b' => if c =? 0 then Ok [] else r <- blk_string b' ;; Ok (c :: r)
  | _ => UB
  end.

(** src/buffer.h:24-28; a slot holds a pointer: NULL (None) or a block with a C string.
    [None] as a block cell is an indeterminate pointer. *)
Record string_list := mkList { l_mem : block (option (block N)); l_pos : nat; l_size : nat }.

(** src/buffer.h:110-117 (memset: all pointers NULL) *)
Definition list_create (L : nat) : string_list := mkList (repeat (Some None) L) 0 L.

(** src/buffer.h:119-126 *)
Fixpoint list_reset_loop (m : block (option (block N))) (i n : nat) : outcome (block (option (block N))) :=
  match n with
  | O => Ok m
  | S n' =>
      match nth_error m i with
      | Some (Some _) => m' <- blk_write m i None ;; list_reset_loop m' (S i) n'
      | _ => UB                                          (* out of bounds, or an indeterminate pointer is freed *)
      end
  end.
Definition list_reset (B : string_list) : outcome string_list :=
  m <- list_reset_loop (l_mem B) 0 (l_pos B) ;; Ok (mkList m 0 (l_size B)).

(** src/buffer.h:165-175; [S0] is the block the string is copied from *)
Definition list_append (B : string_list) (S0 : block N) : outcome string_list :=
  s <- blk_string S0 ;;
  let B1 := if Nat.ltb (l_size B - l_pos B) 1
            then mkList (blk_realloc (l_mem B) (l_pos B + 16)) (l_pos B) (l_pos B + 16)
            else B in
  c <- blk_write_list (blk_new (List.length s + 1)) 0 (s ++ [0]) ;;
  m <- blk_write (l_mem B1) (l_pos B1) (Some c) ;;
  Ok (mkList m (l_pos B1 + 1) (l_size B1)).

(** src/buffer.h:177-187, list_append_direct: stores the pointer itself *)
Definition list_append_direct (B : string_list) (S0 : block N) : outcome string_list :=
  _ <- blk_string S0 ;;
  let B1 := if Nat.ltb (l_size B - l_pos B) 1
            then mkList (blk_realloc (l_mem B) (l_pos B + 16)) (l_pos B) (l_pos B + 16)
            else B in
  m <- blk_write (l_mem B1) (l_pos B1) (Some S0) ;;
  Ok (mkList m (l_pos B1 + 1) (l_size B1)).

(** src/buffer.h:145-159; the index is an int; the result is NULL or the string in a fresh copy *)
Definition list_get (B : string_list) (i : Z) : outcome (option (list N)) :=
  if ((i <? 0) || (Z.of_nat (l_pos B) <=? i))%Z then Ok None
  else
    match nth_error (l_mem B) (Z.to_nat i) with
    | Some (Some None) => Ok None
    | Some (Some (Some b)) =>
        s <- blk_string b ;;
        c <- blk_write_list (blk_new (List.length s + 1)) 0 (s ++ [0]) ;;
        r <- blk_string c ;; Ok (Some r)
    | _ => UB
    end.

(** src/buffer.h:161-163 *)
Definition list_size (B : string_list) : nat := l_pos B.
