(** Model of the format and channel lists of src/trax.c: the bit sets announced in the hello message. *)
From Verif Require Import CBase Props Image.
Local Open Scope Z_scope.

(** include/trax.h:120, TRAX_SUPPORTS(F, M): ((F & M) != 0) *)
Definition supports (formats bit : Z) : bool := truth (Z.land formats bit).

(** include/trax.h:70-73 and 89-91: TRAX_REGION_* and TRAX_CHANNEL_* bits (TRAX_IMAGE_* are in Image.v) *)
Definition TRAX_REGION_SPECIAL : Z := 1.
Definition TRAX_REGION_RECTANGLE : Z := 2.
Definition TRAX_REGION_POLYGON : Z := 4.
Definition TRAX_REGION_MASK : Z := 8.
Definition TRAX_CHANNEL_COLOR : Z := 1.
Definition TRAX_CHANNEL_DEPTH : Z := 2.
Definition TRAX_CHANNEL_IR : Z := 4.

(** The names compared with strcmp, in the order of the comparisons and of the sprintf calls: src/trax.c:381-388 and
    404-415 (images), 428-433 and 450-458 (regions), 485-490 and 508-516 (channels). *)
Definition image_names : list (list N * Z) :=
  [(str "path", TRAX_IMAGE_PATH); (str "url", TRAX_IMAGE_URL); (str "memory", TRAX_IMAGE_MEMORY); (str "buffer", TRAX_IMAGE_BUFFER)].
Definition region_names : list (list N * Z) :=
  [(str "rectangle", TRAX_REGION_RECTANGLE); (str "polygon", TRAX_REGION_POLYGON); (str "mask", TRAX_REGION_MASK)].
Definition channel_names : list (list N * Z) :=
  [(str "color", TRAX_CHANNEL_COLOR); (str "depth", TRAX_CHANNEL_DEPTH); (str "ir", TRAX_CHANNEL_IR)].

(** strtok of the C library on the text not yet consumed: the next token and the text after its delimiter. *)
Fixpoint skip_delims (delims l : list N) : list N :=
  match l with
  | [] => []
  | c :: l' => if existsb (N.eqb c) delims then skip_delims delims l' else l
  end.
Fixpoint take_token (delims l : list N) : list N * list N :=
  match l with
  | [] => ([], [])
  | c :: l' =>
      if existsb (N.eqb c) delims then ([], l')
      else let '(t, r) := take_token delims l' in (c :: t, r)
  end.
Definition strtok (delims l : list N) : option (list N * list N) :=
  match skip_delims delims l with
  | [] => None
  | l' => Some (take_token delims l')
  end.

(** The chain of strcmp calls *)
Fixpoint lookup_name (names : list (list N * Z)) (t : list N) : option Z :=
  match names with
  | [] => None
  | (n, b) :: names' => if bytes_eqb t n then Some b else lookup_name names' t
  end.

(** src/trax.c:379-393, 425-439, 482-496: the loop.  The branch for an empty token repeats the loop without reading a new
    token: it would never end (NoFuel). *)
Fixpoint decode_loop (fuel : nat) (names : list (list N * Z)) (tok : option (list N * list N)) (formats : Z) : outcome Z :=
  match tok with
  | None => Ok formats
  | Some (t, rest) =>
      match fuel with
      | O => NoFuel
      | S fuel' =>
          match lookup_name names t with
          | Some b => decode_loop fuel' names (strtok (str ";") rest) (Z.lor formats b)
          | None => match t with [] => NoFuel | _ => Ok (-1) end
          end
      end
  end.
(** A NULL argument makes strtok continue the previous text of the process, which is gone: undefined. *)
Definition names_decode (names : list (list N * Z)) (s : option (list N)) : outcome Z :=
  match s with
  | None => UB
  | Some s => decode_loop (S (List.length s)) names (strtok (str " ;") s) 0
  end.
(** src/trax.c:374-396 image_formats_decode, 420-442 region_formats_decode, 477-499 channels_decode *)
Definition image_formats_decode : option (list N) -> outcome Z := names_decode image_names.
Definition region_formats_decode : option (list N) -> outcome Z := names_decode region_names.
Definition channels_decode : option (list N) -> outcome Z := names_decode channel_names.

(** The sprintf calls of an encoder; the destination is char tmp[BUFFER_LENGTH], 64 bytes (src/trax.c:32, 651). *)
Definition names_encode (names : list (list N * Z)) (formats : Z) : outcome (list N) :=
  let text := flat_map (fun nb => if supports formats (snd nb) then fst nb ++ str ";" else []) names in
  if Nat.leb (S (List.length text)) 64 then Ok text else UB.
(** src/trax.c:398-418 image_formats_encode, 444-460 region_formats_encode, 501-518 channels_encode *)
Definition image_formats_encode : Z -> outcome (list N) := names_encode image_names.
Definition region_formats_encode : Z -> outcome (list N) := names_encode region_names.
Definition channels_encode : Z -> outcome (list N) := names_encode channel_names.

(** src/trax.c:2184-2194 trax_image_list_count: clears the lowest bit until nothing is left; channels - 1 must be an int. *)
Fixpoint count_bits (fuel : nat) (channels count : Z) : outcome Z :=
  if channels =? 0 then Ok count
  else match fuel with
       | O => NoFuel
       | S fuel' =>
           if in_int (channels - 1) then count_bits fuel' (Z.land channels (channels - 1)) (count + 1) else UB
       end.
Definition image_list_count (channels : Z) : outcome Z := count_bits 33 channels 0.
