(** RFC 4648, section 4, written independently of the C code: 24-bit groups split into four 6-bit numbers,
    each printed with the base64 alphabet; a final group of 8 or 16 bits is padded with zero bits and '='. *)
From Verif Require Import CBase.

Definition rfc_char (v : N) : N :=
  if v <? 26 then 65 + v                (* A-Z *)
  else if v <? 52 then 97 + (v - 26)    (* a-z *)
  else if v <? 62 then 48 + (v - 52)    (* 0-9 *)
  else if v =? 62 then 43               (* +   *)
  else 47.                              (* /   *)

Definition sextets (v : N) : list N := [v / 262144 mod 64; v / 4096 mod 64; v / 64 mod 64; v mod 64].

Fixpoint rfc_encode (l : list N) : list N :=
  match l with
  | a :: b :: c :: l' => map rfc_char (sextets (a * 65536 + b * 256 + c)) ++ rfc_encode l'
  | [a; b] => map rfc_char (firstn 3 (sextets (a * 65536 + b * 256))) ++ [61]
  | [a] => map rfc_char (firstn 2 (sextets (a * 65536))) ++ [61; 61]
  | [] => []
  end.
