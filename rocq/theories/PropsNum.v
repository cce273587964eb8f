(** Model of the numeric property accessors of src/trax.c. *)
From Verif Require Import CBase StrMap Props Num.
Local Open Scope Z_scope.

(** A stack buffer [char tmp[128]] filled by sprintf: the text and its NUL must fit. *)
Definition sprintf_tmp (text : list N) : outcome (list N) :=
  if Nat.leb (S (List.length text)) 128 then Ok text else UB.

(** src/trax.c:1963-1969 trax_properties_set_int: sprintf "%d" *)
Definition props_set_int (p : props) (key : list N) (value : Z) : outcome props :=
  t <- sprintf_tmp (print_Z value) ;; props_set p key t.

(** src/trax.c:1971-1977 trax_properties_set_float: sprintf "%f" (six decimals) *)
Definition props_set_float (p : props) (key : list N) (value : spec_float) : outcome props :=
  t <- sprintf_tmp (print_float 6 value) ;; props_set p key t.

(** src/trax.c:1998-2014 trax_properties_get_int.  An empty value leaves [ret] uninitialised: reading it is undefined. *)
Definition props_get_int (p : props) (key : list N) (def : Z) : outcome Z :=
  v <- props_get p key ;;
  match v with
  | None => Ok def
  | Some [] => UB
  | Some text =>
      match strtod text with
      | Some (d, rest) => i <- int_of_float d ;; match rest with [] => Ok i | _ => Ok def end
      | None => Ok def
      end
  end.

(** src/trax.c:2017-2033 trax_properties_get_float *)
Definition props_get_float (p : props) (key : list N) (def : spec_float) : outcome spec_float :=
  v <- props_get p key ;;
  match v with
  | None => Ok def
  | Some [] => UB
  | Some text =>
      match strtod text with
      | Some (d, rest) => match rest with [] => Ok (float_of_double d) | _ => Ok def end
      | None => Ok def
      end
  end.
