(** Numbers as text and as IEEE 754 values: the C library functions the code relies on (printf "%d" and "%.4f",
    strtod, conversions between double, float and int).  These model the C standard (C11 7.22.1.3, 7.21.6.1, 6.3.1.4,
    6.3.1.5) with correctly rounded conversions (as in glibc), round to nearest even, and the C locale. *)
From Verif Require Import CBase.
From Coq Require Export Floats.SpecFloat.
Local Open Scope Z_scope.

(** ---- Text of integers ---- *)

(** Decimal digits, least significant last; the fuel is a bound on the number of digits. *)
Fixpoint dec_digits (fuel : nat) (n : N) (acc : list N) : list N :=
  match fuel with
  | O => acc
  | S f => let acc' := (48 + n mod 10)%N :: acc in
           if (n / 10 =? 0)%N then acc' else dec_digits f (n / 10)%N acc'
  end.
Definition print_N (n : N) : list N := dec_digits (S (N.size_nat n)) n [].
(** printf "%d" *)
Definition print_Z (z : Z) : list N := if z <? 0 then 45%N :: print_N (Z.abs_N z) else print_N (Z.abs_N z).

(** Value of a string of digits. *)
Definition digits_val (l : list N) : N := fold_left (fun a c => 10 * a + (c - 48))%N l 0%N.

(** ---- Rounding to a binary format ---- *)

(** Nearest integer to a/b (a >= 0, b > 0), ties to even. *)
Definition rne (a b : Z) : Z :=
  let q := a / b in
  match 2 * (a mod b) ?= b with
  | Lt => q
  | Gt => q + 1
  | Eq => if Z.even q then q else q + 1
  end.

(** The smallest exponent of a format (as in Coq.Floats.SpecFloat). *)
Definition fmin (p emax : Z) : Z := 3 - emax - p.

(** Numerator and denominator of (num/den) / 2^e. *)
Definition scale_num (num e : Z) : Z := num * 2 ^ Z.max 0 (- e).
Definition scale_den (den e : Z) : Z := den * 2 ^ Z.max 0 e.

(** The exponent of the result: the smallest e >= fmin with num/den < 2^(p+e). *)
Definition ratio_exp (p emax num den : Z) : Z :=
  let e0 := Z.max (fmin p emax) (Z.log2 num - Z.log2 den - p) in
  if 2 ^ p * scale_den den e0 <=? scale_num num e0 then e0 + 1 else e0.

(** The value of the format with p bits of precision nearest to (-1)^s num/den (num, den > 0). *)
Definition round_ratio (p emax : Z) (s : bool) (num den : Z) : spec_float :=
  let e := ratio_exp p emax num den in
  let m := rne (scale_num num e) (scale_den den e) in
  let '(m, e) := if m =? 2 ^ p then (m / 2, e + 1) else (m, e) in
  if m =? 0 then S754_zero s
  else if emax - p <? e then S754_infinity s
  else S754_finite s (Z.to_pos m) e.

Definition to_double (s : bool) (num den : Z) : spec_float := round_ratio 53 1024 s num den.

(** (float) d *)
Definition float_of_double (d : spec_float) : spec_float :=
  match d with
  | S754_finite s m e => round_ratio 24 128 s (Z.pos m * 2 ^ Z.max 0 e) (2 ^ Z.max 0 (- e))
  | _ => d
  end.

(** (int) x for a float or double; undefined when the truncated value does not fit (C11 6.3.1.4) *)
Definition trunc_pos (m e : Z) : Z := if 0 <=? e then m * 2 ^ e else m / 2 ^ (- e).
Definition int_of_float (x : spec_float) : outcome Z :=
  match x with
  | S754_zero _ => Ok 0
  | S754_finite s m e =>
      let t := trunc_pos (Z.pos m) e in
      let v := if s then - t else t in
      if in_int v then Ok v else UB
  | _ => UB
  end.

(** (float) of an int *)
Definition float_of_int (z : Z) : spec_float :=
  if z =? 0 then S754_zero false else round_ratio 24 128 (z <? 0) (Z.abs z) 1.

Definition is_nan (x : spec_float) : bool := match x with S754_nan => true | _ => false end.

(** ---- strtod ---- *)

(** isspace in the C locale *)
Definition is_space (c : N) : bool := ((c =? 32) || ((9 <=? c) && (c <=? 13)))%N.

(** The longest prefix whose characters satisfy p, and the rest. *)
Fixpoint span (p : N -> bool) (l : list N) : list N * list N :=
  match l with
  | [] => ([], [])
  | c :: l' => if p c then let '(a, b) := span p l' in (c :: a, b) else ([], l)
  end.

Definition read_sign (l : list N) : bool * list N :=
  match l with
  | c :: l' => if (c =? 45)%N then (true, l') else if (c =? 43)%N then (false, l') else (false, l)
  | [] => (false, l)
  end.

(** Optional fraction: a point and digits. *)
Definition read_fraction (dig : N -> bool) (l : list N) : list N * list N :=
  match l with
  | c :: l' => if (c =? 46)%N then span dig l' else ([], l)
  | [] => ([], l)
  end.

(** Optional exponent, introduced by the character mark (either case). *)
Definition read_exponent (mark : N) (l : list N) : Z * list N :=
  match l with
  | c :: l' =>
      if (to_lower c =? mark)%N then
        let '(neg, l1) := read_sign l' in
        let '(ds, l2) := span is_digit l1 in
        match ds with
        | [] => (0, l)
        | _ => ((if neg then - Z.of_N (digits_val ds) else Z.of_N (digits_val ds)), l2)
        end
      else (0, l)
  | [] => (0, l)
  end.

(** m * b^ex *)
Definition scaled_double (s : bool) (b : Z) (m ex : Z) : spec_float :=
  if m =? 0 then S754_zero s
  else if 0 <=? ex then to_double s (m * b ^ ex) 1 else to_double s m (b ^ (- ex)).

(** Decimal floating constant.  A number with no digits at all is no number. *)
Definition strtod_decimal (s : bool) (l : list N) : option (spec_float * list N) :=
  let '(ip, r1) := span is_digit l in
  let '(fp, r2) := read_fraction is_digit r1 in
  match ip ++ fp with
  | [] => None
  | ds => let '(ex, r3) := read_exponent 101 r2 in
          Some (scaled_double s 10 (Z.of_N (digits_val ds)) (ex - Z.of_nat (List.length fp)), r3)
  end.

(** Hexadecimal digits *)
Definition is_hex (c : N) : bool := is_digit c || ((97 <=? to_lower c) && (to_lower c <=? 102))%N.
Definition hex_val (l : list N) : N :=
  fold_left (fun a c => 16 * a + (if is_digit c then c - 48 else to_lower c - 87))%N l 0%N.

(** Hexadecimal floating constant after 0x *)
Definition strtod_hex (s : bool) (l : list N) : option (spec_float * list N) :=
  let '(ip, r1) := span is_hex l in
  let '(fp, r2) := read_fraction is_hex r1 in
  match ip ++ fp with
  | [] => None
  | ds => let '(ex, r3) := read_exponent 112 r2 in
          Some (scaled_double s 2 (Z.of_N (hex_val ds)) (ex - 4 * Z.of_nat (List.length fp)), r3)
  end.

(** Case-insensitive literal prefix: the rest after it. *)
Definition drop_word (w l : list N) : option (list N) :=
  if bytes_eqb w (map to_lower (firstn (List.length w) l)) then Some (skipn (List.length w) l) else None.

(** nan, nan(chars), inf, infinity *)
Definition strtod_word (s : bool) (l : list N) : option (spec_float * list N) :=
  match drop_word (str "infinity") l with
  | Some r => Some (S754_infinity s, r)
  | None =>
  match drop_word (str "inf") l with
  | Some r => Some (S754_infinity s, r)
  | None =>
  match drop_word (str "nan") l with
  | Some r =>
      match r with
      | c :: r' =>
          if (c =? 40)%N then
            match snd (span (fun c => is_alnum c || (c =? 95))%N r') with
            | d :: r'' => if (d =? 41)%N then Some (S754_nan, r'') else Some (S754_nan, r)
            | [] => Some (S754_nan, r)
            end
          else Some (S754_nan, r)
      | [] => Some (S754_nan, r)
      end
  | None => None
  end end end.

(** strtod: None when no conversion could be performed, otherwise the value and the unread rest. *)
Definition strtod (l : list N) : option (spec_float * list N) :=
  let l0 := snd (span is_space l) in
  let '(s, l1) := read_sign l0 in
  match strtod_word s l1 with
  | Some r => Some r
  | None =>
      match drop_word (str "0x") l1 with
      | Some r => match strtod_hex s r with Some x => Some x | None => strtod_decimal s l1 end
      | None => strtod_decimal s l1
      end
  end.

(** atof: zero when no conversion could be performed *)
Definition atof (l : list N) : spec_float := match strtod l with Some (v, _) => v | None => S754_zero false end.

(** ---- printf "%.4f" ---- *)

(** Nearest integer to |x| * 10^k (ties to even), for finite x: the exact value of x is printed correctly rounded. *)
Definition decimal_round (k : Z) (m e : Z) : Z := rne (m * 10 ^ k * 2 ^ Z.max 0 e) (2 ^ Z.max 0 (- e)).
Fixpoint pad_digits (k : nat) (n : N) (acc : list N) : list N :=
  match k with O => acc | S k' => pad_digits k' (n / 10)%N ((48 + n mod 10)%N :: acc) end.
Definition print_fixed (k : nat) (s : bool) (d : Z) : list N :=
  (if s then [45%N] else []) ++ print_N (Z.to_N d / 10 ^ N.of_nat k)%N ++ [46%N] ++
  pad_digits k (Z.to_N d mod 10 ^ N.of_nat k)%N [].
(** printf "%.<k>f".  Simplification: a NaN is printed without a sign. *)
Definition print_float (k : nat) (x : spec_float) : list N :=
  match x with
  | S754_zero s => print_fixed k s 0
  | S754_finite s m e => print_fixed k s (decimal_round (Z.of_nat k) (Z.pos m) e)
  | S754_infinity s => (if s then [45%N] else []) ++ str "inf"
  | S754_nan => str "nan"
  end.
