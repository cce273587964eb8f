(** Model of src/base64.c. *)
From Verif Require Import CBase.

(** src/base64.c:68-86, table pr2six. *)
Definition pr2six_table : list N :=
  [ 64; 64; 64; 64; 64; 64; 64; 64; 64; 64; 64; 64; 64; 64; 64; 64;
    64; 64; 64; 64; 64; 64; 64; 64; 64; 64; 64; 64; 64; 64; 64; 64;
    64; 64; 64; 64; 64; 64; 64; 64; 64; 64; 64; 62; 64; 64; 64; 63;
    52; 53; 54; 55; 56; 57; 58; 59; 60; 61; 64; 64; 64; 64; 64; 64;
    64;  0;  1;  2;  3;  4;  5;  6;  7;  8;  9; 10; 11; 12; 13; 14;
    15; 16; 17; 18; 19; 20; 21; 22; 23; 24; 25; 64; 64; 64; 64; 64;
    64; 26; 27; 28; 29; 30; 31; 32; 33; 34; 35; 36; 37; 38; 39; 40;
    41; 42; 43; 44; 45; 46; 47; 48; 49; 50; 51; 64; 64; 64; 64; 64;
    64; 64; 64; 64; 64; 64; 64; 64; 64; 64; 64; 64; 64; 64; 64; 64;
    64; 64; 64; 64; 64; 64; 64; 64; 64; 64; 64; 64; 64; 64; 64; 64;
    64; 64; 64; 64; 64; 64; 64; 64; 64; 64; 64; 64; 64; 64; 64; 64;
    64; 64; 64; 64; 64; 64; 64; 64; 64; 64; 64; 64; 64; 64; 64; 64;
    64; 64; 64; 64; 64; 64; 64; 64; 64; 64; 64; 64; 64; 64; 64; 64;
    64; 64; 64; 64; 64; 64; 64; 64; 64; 64; 64; 64; 64; 64; 64; 64;
    64; 64; 64; 64; 64; 64; 64; 64; 64; 64; 64; 64; 64; 64; 64; 64;
    64; 64; 64; 64; 64; 64; 64; 64; 64; 64; 64; 64; 64; 64; 64; 64 ].

(** Indexing of pr2six by an unsigned char (always below 256). *)
Definition pr2six (c : N) : N := nth (N.to_nat c) pr2six_table 64.

(** src/base64.c:145-146, basis_64 (64 characters; the index is always masked below 64). *)
Definition basis_64_table : list N :=
  str "ABCDEFGHIJKLMNOPQRSTUVWXYZabcdefghijklmnopqrstuvwxyz0123456789+/".
Definition basis_64 (i : N) : N := nth (N.to_nat i) basis_64_table 0.

(** src/base64.c:88-99, base64decodelen.  The argument is the C string (without its NUL).  bufcoded[len-1]
    (and bufcoded[len-2], evaluated only when bufcoded[len-1] is '=') below index 0 is an out-of-bounds read.
    The result is computed in size_t arithmetic modulo 2^64 and converted to int; with lengths below 2^31 the
    only possible wrap is a subtraction below zero, which the conversion to int undoes, hence Z here. *)
Definition base64decodelen (s : list N) : outcome Z :=
  match rev s with
  | [] => UB
  | l1 :: r =>
      if l1 =? c_eq then
        match r with
        | [] => UB
        | l2 :: _ =>
            let padding := if l2 =? c_eq then 2%Z else 1%Z in
            Ok (Z.of_nat (List.length s) * 3 / 4 - padding + 1)%Z
        end
      else Ok (Z.of_nat (List.length s) * 3 / 4 - 0 + 1)%Z
  end.

(** src/base64.c:107-109: number of leading characters in the alphabet.  The scan stops at the latest at the
    terminating NUL, because pr2six[0] = 64. *)
Fixpoint nprbytes (s : list N) : nat :=
  match s with
  | [] => O
  | c :: s' => if pr2six c <=? 63 then S (nprbytes s') else O
  end.

(** (unsigned char) conversion of an int expression *)
Definition to_uchar (x : N) : N := N.land x 255.

(** src/base64.c:117, 119, 121 (and 129, 133, 137): the three output expressions *)
Definition dec1 (a b : N) : N := to_uchar (N.lor (N.shiftl (pr2six a) 2) (N.shiftr (pr2six b) 4)).
Definition dec2 (b c : N) : N := to_uchar (N.lor (N.shiftl (pr2six b) 4) (N.shiftr (pr2six c) 2)).
Definition dec3 (c d : N) : N := to_uchar (N.lor (N.shiftl (pr2six c) 6) (pr2six d)).

(** src/base64.c:126-138: the last group; [n] is nprbytes, at most 4 here.  The characters read are below index
    n, hence present; the default 0 is never used when n <= length s. *)
Definition decode_tail (n : nat) (s : list N) : list N :=
  let a := nth 0 s 0 in let b := nth 1 s 0 in let c := nth 2 s 0 in let d := nth 3 s 0 in
  (if Nat.ltb 1 n then [dec1 a b] else []) ++
  (if Nat.ltb 2 n then [dec2 b c] else []) ++
  (if Nat.ltb 3 n then [dec3 c d] else []).

(** src/base64.c:115-138: the main loop followed by the tail: bytes stored to bufplain, in order, and the final
    value of nprbytes. *)
Fixpoint decode_loop (n : nat) (s : list N) : list N * nat :=
  if Nat.ltb 4 n then
    match s with
    | a :: b :: c :: d :: s' =>
        let (out, m) := decode_loop (n - 4) s' in
        (dec1 a b :: dec2 b c :: dec3 c d :: out, m)
    | _ => ([], n)        (* impossible when n <= length s *)
    end
  else (decode_tail n s, n).

(** src/base64.c:101-143, base64decode: all bytes stored to bufplain from its beginning (the last one is the
    terminating NUL of line 140), and the return value. *)
Definition base64decode (s : list N) : list N * Z :=
  let n := nprbytes s in
  let (out, m) := decode_loop n s in
  (out ++ [0],
   ((Z.of_nat n + 3) / 4 * 3 - Z.land (4 - Z.of_nat m) 3)%Z).

(** src/base64.c:148-150, base64encodelen *)
Definition base64encodelen (len : nat) : nat := ((len + 2) / 3 * 4 + 1)%nat.

(** src/base64.c:158-163 and 166-176: the index expressions *)
Definition enc1 (a : N) : N := basis_64 (N.land (N.shiftr a 2) 63).
Definition enc2 (a b : N) : N := basis_64 (N.lor (N.shiftl (N.land a 3) 4) (N.shiftr (N.land b 240) 4)).
Definition enc3 (b c : N) : N := basis_64 (N.lor (N.shiftl (N.land b 15) 2) (N.shiftr (N.land c 192) 6)).
Definition enc4 (c : N) : N := basis_64 (N.land c 63).
Definition enc2_last (a : N) : N := basis_64 (N.shiftl (N.land a 3) 4).
Definition enc3_last (b : N) : N := basis_64 (N.shiftl (N.land b 15) 2).

(** src/base64.c:152-181, base64encode: the characters stored to [encoded] before the terminating NUL (which is
    stored after them, line 179).  The loop over i in steps of 3 is recursion on the remaining input. *)
Fixpoint base64encode (l : list N) : list N :=
  match l with
  | a :: b :: c :: l' => enc1 a :: enc2 a b :: enc3 b c :: enc4 c :: base64encode l'
  | [a; b] => [enc1 a; enc2 a b; enc3_last b; c_eq]
  | [a] => [enc1 a; enc2_last a; c_eq; c_eq]
  | [] => []
  end.

(** src/base64.c:179-180: number of bytes stored, including the NUL; also the return value p - encoded. *)
Definition base64encode_stored (l : list N) : nat := (List.length (base64encode l) + 1)%nat.
