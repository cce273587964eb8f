(** Specification for the Matlab conversions: what arrays hold, as a Matlab program sees it *)
From Coq Require Import Floats.SpecFloat.
From Verif Require Import CBase Buffer Num NumSpec Region Image Formats Matlab.
Local Open Scope Z_scope.

(** The element in row [r], column [c] and plane [k] (counted from zero) of the data of an array with [h] rows and [w] columns *)
Definition element (h w : Z) (data : list N) (r c k : Z) : N := nth (Z.to_nat (r + h * (c + w * k))) data 0%N.
(** Arrays that hold an image: 8 or 16 bits, one plane; or 8 bits and three planes *)
Inductive image_array : mx -> Prop :=
| gray8_array h w data : 0 < h -> 0 < w -> in_int (w * h) = true -> List.length data = Z.to_nat (w * h) -> image_array (MU8 [h; w] data)
| gray16_array h w data : 0 < h -> 0 < w -> in_int (2 * (w * h)) = true -> List.length data = Z.to_nat (w * h) ->
    (forall v, In v data -> v < 65536)%N -> image_array (MU16 [h; w] data)
| rgb_array h w data : 0 < h -> 0 < w -> in_int (3 * (w * h)) = true -> List.length data = Z.to_nat (3 * (w * h)) -> image_array (MU8 [h; w; 3] data).
(** Byte [k] of the pixel in column [x] and row [y] of an image of width [w] with [n] bytes per pixel *)
Definition image_byte (w n : Z) (data : block N) (x y k : Z) : option N := nth (Z.to_nat ((y * w + x) * n + k)) data None.
(** Images in memory, all pixels set *)
Definition pixel_bytes (format : Z) : Z := if format =? 1 then 1 else if format =? 2 then 2 else 3.
Definition memory_image (im : image) : Prop :=
  i_type im = 4 /\ (i_format im = 1 \/ i_format im = 2 \/ i_format im = 3) /\ 0 < i_width im /\ 0 < i_height im /\
  in_int (pixel_bytes (i_format im) * (i_width im * i_height im)) = true /\
  exists bytes, i_data im = map Some bytes /\ Z.of_nat (List.length bytes) = pixel_bytes (i_format im) * (i_width im * i_height im) /\
    (forall b, In b bytes -> b < 256)%N.
(** The array shows the same picture as the image: row is y, column is x, plane is the channel *)
Definition same_picture (im : image) (a : mx) : Prop :=
  let w := i_width im in let h := i_height im in
  match a with
  | MU8 [h'; w'] data => i_format im = 1 /\ h' = h /\ w' = w /\
      forall x y, 0 <= x < w -> 0 <= y < h -> image_byte w 1 (i_data im) x y 0 = Some (element h w data y x 0)
  | MU8 [h'; w'; 3] data => i_format im = 3 /\ h' = h /\ w' = w /\
      forall x y k, 0 <= x < w -> 0 <= y < h -> 0 <= k < 3 -> image_byte w 3 (i_data im) x y k = Some (element h w data y x k)
  | MU16 [h'; w'] data => i_format im = 2 /\ h' = h /\ w' = w /\
      forall x y, 0 <= x < w -> 0 <= y < h ->
        exists lo hi, image_byte w 2 (i_data im) x y 0 = Some lo /\ image_byte w 2 (i_data im) x y 1 = Some hi /\
          element h w data y x 0 = (lo + 256 * hi)%N
  | _ => False
  end.

(** Single precision numbers (also infinities and NaN) *)
Definition single (x : spec_float) : Prop := valid_binary 24 128 x = true.
(** Regions that can be given to Matlab and taken back *)
Inductive exchanged : region -> Prop :=
| ex_rect x y w h : single x -> single y -> single w -> single h -> exchanged (RRect x y w h)
| ex_poly points : (2 < List.length points)%nat -> in_int (2 * Z.of_nat (List.length points)) = true ->
    (forall x y, In (x, y) points -> single x /\ single y) -> exchanged (RPoly points)
| ex_mask w h data : 0 < w -> 0 < h -> in_int (w * h) = true -> List.length data = Z.to_nat (w * h) -> exchanged (RMask 0 0 w h data).

(** ---- Texts, properties, names and arguments ---- *)

(** The text in row [r] and column [c] of a cell array with [n] rows *)
Definition cell_text (cells : list (option mx)) (n r c : nat) : option (list N) :=
  match nth (r + n * c) cells None with Some (MChar 1 _ t) => Some t | _ => None end.
(** Names and values are C strings *)
Definition c_strings (m : list N -> option (list N)) : Prop := forall k v, m k = Some v -> ~ In 0%N k /\ ~ In 0%N v.
(** Characters of names in Matlab *)
Definition name_char (c : N) : Prop := (48 <= c <= 57 \/ 65 <= c <= 90 \/ 97 <= c <= 122 \/ c = 95)%N.
Definition field_safe (k : list N) : Prop := forall c, In c (List.tl k) -> name_char c.

(** The names of region types, image types and channels, with their codes (include/trax.h); upper and lower case do not matter *)
Definition region_table : list (list N * Z) := [(str "rectangle", 2); (str "polygon", 4); (str "mask", 8)].
Definition image_table : list (list N * Z) := [(str "path", 1); (str "url", 2); (str "memory", 4); (str "buffer", 8)].
Definition channel_table : list (list N * Z) := [(str "color", 1); (str "depth", 2); (str "ir", 4)].
Definition names_code (table : list (list N * Z)) (s : list N) (code : Z) : Prop :=
  exists name, In (name, code) table /\ strcasecmp_eq s name = true.
Definition row_of_texts (names : list (list N)) : mx :=
  MCell 1 (Z.of_nat (List.length names)) (map (fun s => Some (MChar 1 (Z.of_nat (List.length s)) s)) names).
Definition column_of_texts (names : list (list N)) : mx :=
  MCell (Z.of_nat (List.length names)) 1 (map (fun s => Some (MChar 1 (Z.of_nat (List.length s)) s)) names).

(** The channels of a list of images: colour 1, depth 2, infrared 4 *)
Definition channels_of (l : list (option image)) : Z :=
  match l with
  | [color; depth; ir] =>
      (if color then 1 else 0) + (if depth then 2 else 0) + (if ir then 4 else 0)
  | _ => 0
  end.
Definition path_image (im : image) : Prop := exists p, ~ In 0%N p /\ image_create_path p = Ok im.

(** Arguments after the first three: pairs of texts.  The value given last for a name counts. *)
Definition text_array (s : list N) : mx := MChar 1 (Z.of_nat (List.length s)) s.
Definition pair_arrays (kvs : list (list N * list N)) : list mx := flat_map (fun kv => [text_array (fst kv); text_array (snd kv)]) kvs.
Definition last_of (test : list N -> bool) (kvs : list (list N * list N)) (default : list N) : list N :=
  fold_left (fun acc kv => if test (fst kv) then snd kv else acc) kvs default.
Definition last_option (test : list N -> bool) (kvs : list (list N * list N)) : option (list N) :=
  fold_left (fun acc kv => if test (fst kv) then Some (snd kv) else acc) kvs None.
(** Keys that describe the tracker, and keys of custom properties: letters, digits, points, underscores, no name with another meaning *)
Definition other_names : list (list N) :=
  map str ["propstruct"; "debug"; "timeout"; "environment"; "data"; "connection"; "directory"; "log"; "channels"]%string.
Definition described : list (list N) := map str ["name"; "description"; "family"]%string.
Definition custom_key (k : list N) : Prop :=
  (forall c, In c k -> name_char c \/ c = 46%N) /\ starts_with (str "trax.") k = false /\
  forall n, In n (other_names ++ described) -> strcasecmp_eq k n = false.
Definition described_key (k : list N) : Prop := exists n, In n described /\ strcasecmp_eq k n = true.
