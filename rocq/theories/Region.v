(** Model of the text form of regions, src/region.c. *)
From Verif Require Import CBase Num Buffer.
Local Open Scope Z_scope.

(** src/region.h:46 region_type *)
Inductive region_type := EMPTY | SPECIAL | RECTANGLE | POLYGON | MASK.

(** src/region.h:57-95: a region.  The two coordinate arrays of a polygon are one list of points; mask pixels are chars
    in row order.  Simplification: array lengths agree with [count], and mask data read outside of the list is UB. *)
Inductive region :=
| RSpecial (code : Z)
| RRect (x y w h : spec_float)
| RPoly (points : list (spec_float * spec_float))
| RMask (x y w h : Z) (data : list N).

Definition TRAX_DEFAULT_CODE : Z := 0.   (* src/region.h:38 *)
Definition MAX_URI_SCHEME : nat := 16.   (* src/region.c:237 *)

(** strncmp(a, b, n) == 0 for C strings *)
Definition strncmp_eq (a b : list N) (n : nat) : bool := bytes_eqb (firstn n a) (firstn n b).

(** src/region.c:239-265 __parse_uri_prefix.  [i - 1] is converted to size_t: for i = 0 the whole strings are compared. *)
Definition prefix_type (buffer : list N) (i : nat) : region_type :=
  let n := match i with O => (List.length buffer + 8)%nat | S i' => i' end in
  if strncmp_eq buffer (str "rect") n then RECTANGLE
  else if strncmp_eq buffer (str "poly") n then POLYGON
  else if strncmp_eq buffer (str "mask") n then MASK
  else if strncmp_eq buffer (str "special") n then SPECIAL
  else EMPTY.
Definition scheme_char (c : N) : bool := (((97 <=? c) && (c <=? 122)) || (c =? 43) || (c =? 46) || (c =? 45))%N.
(** The scan from position [i]; [l] is the text from there on, [fuel] the positions left before MAX_URI_SCHEME. *)
Fixpoint scan_prefix (buffer l : list N) (i fuel : nat) : region_type * list N :=
  match fuel with
  | O => (EMPTY, buffer)
  | S f =>
      match l with
      | [] => (EMPTY, buffer)
      | c :: l' =>
          if scheme_char c then scan_prefix buffer l' (S i) f
          else if (c =? 58)%N then (prefix_type buffer i, l')
          else (EMPTY, buffer)
      end
  end.
Definition parse_uri_prefix (buffer : list N) : region_type * list N := scan_prefix buffer buffer 0 MAX_URI_SCHEME.

(** src/region.c:277-286 _str_find, iterated: the texts behind each comma *)
Fixpoint after_commas (l : list N) : list (list N) :=
  match l with
  | [] => []
  | c :: l' => if (c =? 44)%N then l' :: after_commas l' else after_commas l'
  end.

(** src/region.c:288-324 _parse_sequence (not the Visual Studio branch): one number per field; the scratch array has
    strlen(buffer) floats, writing more is UB.  Simplification: allocations succeed. *)
Definition parse_sequence (buffer : list N) : outcome (list spec_float) :=
  let fields := buffer :: after_commas buffer in
  if Nat.leb (List.length fields) (List.length buffer)
  then Ok (map (fun pch => float_of_double (atof pch)) fields)
  else UB.

(** src/region.c:54-62 __is_valid_sequence *)
Definition is_valid_sequence (l : list spec_float) : bool := forallb (fun x => negb (is_nan x)) l.

(** C integer arithmetic: a result outside of int is UB *)
Definition int_result (z : Z) : outcome Z := if in_int z then Ok z else UB.

(** src/region.c:438-442, the inner loop: [room] is length - position.  Gives the pixels written and the room left. *)
Fixpoint rle_fill (room : nat) (count : Z) (value : N) : outcome (list N * nat) :=
  match room with
  | O => Ok ([], O)
  | S r =>
      if count =? 0 then Ok ([], room)
      else
        c <- int_result (count - 1) ;;
        p <- rle_fill r c value ;;
        Ok (value :: fst p, snd p)
  end.
(** src/region.c:432-450: the runs, then zeros up to the end *)
Fixpoint rle_decode (room : nat) (counts : list spec_float) (value : N) : outcome (list N) :=
  match counts with
  | [] => Ok (repeat 0%N room)
  | x :: counts' =>
      count <- int_of_float x ;;
      p <- rle_fill room count value ;;
      rest <- rle_decode (snd p) counts' (if (value =? 0)%N then 1%N else 0%N) ;;
      Ok (fst p ++ rest)
  end.

(** src/region.c:405-408: the coordinates in pairs *)
Fixpoint pair_points (l : list spec_float) : list (spec_float * spec_float) :=
  match l with
  | x :: y :: l' => (x, y) :: pair_points l'
  | _ => []
  end.

(** src/region.c:326-460 region_parse: the returned flag and the region (None is NULL).  assert is compiled in.
    Simplification: a negative mask length is an allocation that fails and is never written. *)
Definition region_parse (buffer : list N) : outcome (bool * option region) :=
  match buffer with
  | [] => Ok (true, None)
  | _ =>
      let '(ptype, strdata) := parse_uri_prefix buffer in
      data <- parse_sequence strdata ;;
      let num := List.length data in
      if negb (is_valid_sequence data) || Nat.eqb num 0 then
        match data with
        | [_; _; _; d3] =>
            if is_nan d3 then Ok (true, Some (RSpecial TRAX_DEFAULT_CODE))
            else c <- int_of_float d3 ;; r <- int_result (- c) ;; Ok (true, Some (RSpecial r))
        | _ => Ok (true, Some (RSpecial TRAX_DEFAULT_CODE))
        end
      else
        let t :=
          match ptype with
          | EMPTY => if Nat.eqb num 1 then SPECIAL
                     else if Nat.eqb num 4 then RECTANGLE
                     else if Nat.leb 6 num && Nat.eqb (num mod 2) 0 then POLYGON
                     else EMPTY
          | t => t
          end in
        match t with
        | SPECIAL =>
            match data with
            | [d0] => c <- int_of_float d0 ;; Ok (true, Some (RSpecial c))
            | _ => Abort
            end
        | RECTANGLE =>
            match data with
            | [d0; d1; d2; d3] => Ok (true, Some (RRect d0 d1 d2 d3))
            | _ => Abort
            end
        | POLYGON =>
            if Nat.leb 6 num && Nat.eqb (num mod 2) 0
            then Ok (true, Some (RPoly (pair_points data)))
            else Abort
        | MASK =>
            match data with
            | d0 :: d1 :: d2 :: d3 :: _ :: _ =>
                x <- int_of_float d0 ;; y <- int_of_float d1 ;; w <- int_of_float d2 ;; h <- int_of_float d3 ;;
                length <- int_result (w * h) ;;
                pixels <- rle_decode (Z.to_nat length) (skipn 4 data) 0%N ;;
                Ok (true, Some (RMask x y w h pixels))
            | _ => Abort
            end
        | EMPTY => Ok (false, None)
        end
  end.

(** src/region.c:505-513, the run-length loop over pixels i, i+1, ... (n of them); a pixel outside of the data is UB *)
Fixpoint rle_loop (B : string_buffer) (data : list N) (n : nat) (count : Z) (value : bool) : outcome (string_buffer * Z * bool) :=
  match n with
  | O => Ok (B, count, value)
  | S n' =>
      match data with
      | [] => UB
      | d :: data' =>
          if Bool.eqb (negb (d =? 0)%N) value
          then c <- int_result (count + 1) ;; rle_loop B data' n' c value
          else B' <- buffer_append B (44%N :: print_Z count) ;; rle_loop B' data' n' 1 (negb value)
      end
  end.

Definition c_comma : list N := [44%N].
(** The texts of the printf formats used *)
Definition format_point (x y : spec_float) : list N := print_float 4 x ++ c_comma ++ print_float 4 y.

(** src/region.c:484-486 *)
Fixpoint append_points (B : string_buffer) (first : bool) (l : list (spec_float * spec_float)) : outcome string_buffer :=
  match l with
  | [] => Ok B
  | (x, y) :: l' =>
      B' <- buffer_append B ((if first then [] else c_comma) ++ format_point x y) ;; append_points B' false l'
  end.

(** src/region.c:498-518: the pixels of a mask *)
Definition append_pixels (B1 : string_buffer) (data : list N) (n : nat) : outcome string_buffer :=
  match data with
  | [] => UB
  | d0 :: _ =>
      let start := negb (d0 =? 0)%N in
      B2 <- (if start then buffer_append B1 (str ",0") else Ok B1) ;;
      p <- rle_loop B2 data n 0 start ;;
      let '(B3, count, value) := p in
      if negb (count =? 0) && value then buffer_append B3 (44%N :: print_Z count) else Ok B3
  end.

(** src/region.c:462-526 region_string: None is NULL *)
Definition region_string (r : region) : outcome (option (list N)) :=
  let B0 := buffer_create 32 in
  B <- match r with
       | RSpecial code => buffer_append B0 (print_Z code)
       | RRect x y w h => buffer_append B0 (format_point x y ++ c_comma ++ format_point w h)
       | RPoly points => append_points B0 true points
       | RMask x y w h data =>
           length <- int_result (w * h) ;;
           B1 <- buffer_append B0 (str "mask:" ++ print_Z x ++ c_comma ++ print_Z y ++ c_comma ++ print_Z w ++ c_comma ++ print_Z h) ;;
           append_pixels B1 data (Z.to_nat length)
       end ;;
  if Nat.ltb 0 (b_pos B)
  then s <- buffer_extract B ;; t <- blk_string s ;; Ok (Some t)
  else Ok None.
