(** Model of support/matlab/helpers.cpp and of the argument handling of support/matlab/traxserver.cpp: conversions between Matlab arrays
    and TraX objects.
    The part of Matlab's interface that these functions use is modelled: arrays are stored column after column, new numeric arrays hold
    zeros, trailing dimensions of size one vanish, mexErrMsgTxt leaves the function (the result None).
    Simplifications: characters are bytes (mxGetString converts from UTF-16); 16 bit numbers are stored with the low byte first; character
    arrays, cell arrays and arrays of doubles have two dimensions, structures are 1 x 1; sizes fit into an int; allocations succeed, except
    that an array with a negative side cannot be created (the call fails with an error). *)
From Coq Require Import Floats.SpecFloat.
From Verif Require Import CBase StrMap Props Buffer Num PropsNum Region RegionGeom Image Formats Lists.
Local Open Scope Z_scope.

(** mxArray.  A cell that was never set is a NULL pointer. *)
Inductive mx :=
| MChar (rows cols : Z) (text : list N)
| MU8 (dims : list Z) (data : list N)
| MU16 (dims : list Z) (data : list N)
| MDouble (rows cols : Z) (data : list spec_float)
| MCell (rows cols : Z) (cells : list (option mx))
| MStruct (fields : list (list N * mx)).

(** mxGetM, and mxGetN: the product of all the other dimensions *)
Definition get_m (a : mx) : Z :=
  match a with
  | MChar r _ _ | MDouble r _ _ | MCell r _ _ => r
  | MU8 d _ | MU16 d _ => match d with r :: _ => r | [] => 0 end
  | MStruct _ => 1
  end.
Definition get_n (a : mx) : Z :=
  match a with
  | MChar _ c _ | MDouble _ c _ | MCell _ c _ => c
  | MU8 d _ | MU16 d _ => fold_right Z.mul 1 (List.tl d)
  | MStruct _ => 1
  end.
(** The dimensions of a new numeric array: trailing ones beyond the second are dropped *)
Fixpoint trim_ones (d : list Z) : list Z :=
  match d with
  | [] => []
  | x :: d' => match trim_ones d' with [] => if x =? 1 then [] else [x] | t => x :: t end
  end.
Definition trim (d : list Z) : list Z := match d with r :: c :: d' => r :: c :: trim_ones d' | _ => d end.

(** Results: None after mexErrMsgTxt *)
Definition result A := outcome (option A).
Definition done {A} (a : A) : result A := Ok (Some a).
Definition mex_error {A} : result A := Ok None.
Definition mbind {A B} (m : result A) (f : A -> result B) : result B :=
  r <- m ;; match r with Some a => f a | None => Ok None end.
Notation "x <~ m ;; k" := (mbind m (fun x => k)) (at level 61, m at next level, right associativity).
Definition lift {A} (m : outcome A) : result A := a <- m ;; Ok (Some a).

(** Elements of arrays; indices are ints *)
Definition fetch {A} (l : list A) (e : Z) : outcome A :=
  i <- int_result e ;; if 0 <=? i then match nth_error l (Z.to_nat i) with Some v => Ok v | None => UB end else UB.
Definition put {A} (l : list A) (e : Z) (v : A) : outcome (list A) := i <- int_result e ;; put_cell l i v.
(** Memory of pixels: bytes, and 16 bit numbers *)
Definition fetch8 (b : block N) (e : Z) : outcome N := v <- fetch b e ;; match v with Some v => Ok v | None => UB end.
Definition put8 (b : block N) (e : Z) (v : N) : outcome (block N) := put b e (Some v).
Definition fetch16 (b : block N) (e : Z) : outcome N :=
  lo <- fetch8 b (2 * e) ;; hi <- fetch8 b (2 * e + 1) ;; Ok (lo + 256 * hi)%N.
Definition put16 (b : block N) (e : Z) (v : N) : outcome (block N) :=
  b <- put8 b (2 * e) (v mod 256)%N ;; put8 b (2 * e + 1) (v / 256)%N.
(** Two nested counting loops *)
Definition for2 {A} (n m : Z) (body : Z -> Z -> A -> outcome A) (s : A) : outcome A :=
  for_range (Z.to_nat n) 0 (fun i s => for_range (Z.to_nat m) 0 (fun j s => body i j s) s) s.

(** ---- Strings ---- *)

(** helpers.cpp:17-35.  An array that is not of characters leaves the buffer as it is: it is then read without being initialised. *)
Definition get_string (a : mx) : result (list N) :=
  if negb (get_m a =? 1) then mex_error
  else match a with MChar _ _ text => done (c_string text) | _ => UB end.
(** helpers.cpp:37-41, and mxCreateCharMatrixFromStrings with one string *)
Definition set_string (s : list N) : mx := let t := c_string s in MChar 1 (Z.of_nat (List.length t)) t.

(** ---- Images ---- *)

(** helpers.cpp:346-350, 361-365, 375-381: element [data] of the new array *)
Definition gray8_to_array (width height : Z) (source : block N) (off i j : Z) (data : list N) : outcome (list N) :=
  v <- fetch8 source (off + (i + j * width)) ;; put data (j + height * i) v.
Definition gray16_to_array (width height : Z) (source : block N) (off i j : Z) (data : list N) : outcome (list N) :=
  v <- fetch16 source (off + (i + j * width)) ;; put data (j + height * i) v.
Definition rgb_to_array (width height : Z) (source : block N) (off i j : Z) (data : list N) : outcome (list N) :=
  for_range 3 0 (fun k data => v <- fetch8 source (off + (3 * (i + j * width) + k)) ;; put data (j + height * (i + k * width)) v) data.
(** mxCreateNumericArray: zeros *)
Definition zeros (dims : list Z) : list N := repeat 0%N (Z.to_nat (fold_right Z.mul 1 dims)).

(** helpers.cpp:331-389 *)
Definition memory_to_array (im : image) : outcome mx :=
  h <- image_get_memory_header im ;;
  let '(width, height, format) := h in
  if format =? TRAX_IMAGE_MEMORY_GRAY8 then
    off <- image_memory_row im 0 ;;
    d <- for2 width height (gray8_to_array width height (i_data im) off) (zeros [height; width; 1]) ;;
    Ok (MU8 (trim [height; width; 1]) d)
  else if format =? TRAX_IMAGE_MEMORY_GRAY16 then
    off <- image_memory_row im 0 ;;
    d <- for2 width height (gray16_to_array width height (i_data im) off) (zeros [height; width; 1]) ;;
    Ok (MU16 (trim [height; width; 1]) d)
  else
    off <- image_memory_row im 0 ;;
    d <- for2 width height (rgb_to_array width height (i_data im) off) (zeros [height; width; 3]) ;;
    Ok (MU8 (trim [height; width; 3]) d).
(** helpers.cpp:314-431; None is the NULL pointer that an empty image gives.  (trax_image_get_memory_header refuses other formats.) *)
Definition image_to_array (im : option image) : outcome (option mx) :=
  match im with
  | None => Ok None
  | Some im =>
      if i_type im =? TRAX_IMAGE_PATH then s <- image_get_path im ;; Ok (Some (set_string s))
      else if i_type im =? TRAX_IMAGE_URL then s <- image_get_path im ;; Ok (Some (set_string s))
      else if i_type im =? TRAX_IMAGE_MEMORY then a <- memory_to_array im ;; Ok (Some a)
      else if i_type im =? TRAX_IMAGE_BUFFER then
        r <- image_get_buffer im ;;
        let '(length, format, bytes) := r in
        let name := if format =? TRAX_IMAGE_BUFFER_PNG then str "png"
                    else if format =? TRAX_IMAGE_BUFFER_JPEG then str "jpeg" else str "unknown" in
        Ok (Some (MStruct [(str "format", set_string name); (str "data", MU8 [length; 1] bytes)]))
      else Ok None
  end.

(** helpers.cpp:484-490, 498-502, 519-523 *)
Definition array_to_rgb (width height : Z) (data : list N) (off i j : Z) (dest : block N) : outcome (block N) :=
  for_range 3 0 (fun k dest => v <- fetch data (j + height * (i + k * width)) ;; put8 dest (off + (3 * (i + j * width) + k)) v) dest.
Definition array_to_gray8 (width height : Z) (data : list N) (off i j : Z) (dest : block N) : outcome (block N) :=
  v <- fetch data (j + height * i) ;; put8 dest (off + (i + j * width)) v.
Definition array_to_gray16 (width height : Z) (data : list N) (off i j : Z) (dest : block N) : outcome (block N) :=
  v <- fetch data (j + height * i) ;; put16 dest (off + (i + j * width)) v.
Definition with_data (im : image) (d : block N) : image := mkImage (i_type im) (i_width im) (i_height im) (i_format im) d.
(** Image::create_memory, write_memory_row(0) and one of the loops above *)
Definition fill_image (width height format : Z) (step : Z -> Z -> Z -> block N -> outcome (block N)) : result image :=
  im <- image_create_memory width height format ;;
  off <- image_memory_row im 0 ;;
  d <- for2 width height (step off) (i_data im) ;;
  done (with_data im d).
(** helpers.cpp:451-530 *)
Definition array_to_image (a : mx) : result image :=
  match a with
  | MChar rows _ _ =>
      if negb (rows =? 1) then mex_error else s <~ get_string a ;; lift (image_create_path s)
  | MU8 dims data =>
      match dims with
      | [height; width] => fill_image width height TRAX_IMAGE_MEMORY_GRAY8 (array_to_gray8 width height data)
      | [height; width; channels] =>
          if negb ((channels =? 1) || (channels =? 3)) then mex_error
          else if channels =? 3 then fill_image width height TRAX_IMAGE_MEMORY_RGB (array_to_rgb width height data)
          else fill_image width height TRAX_IMAGE_MEMORY_GRAY8 (array_to_gray8 width height data)
      | _ => mex_error
      end
  | MU16 dims data =>
      match dims with
      | [height; width] => fill_image width height TRAX_IMAGE_MEMORY_GRAY16 (array_to_gray16 width height data)
      | _ => mex_error
      end
  | _ => mex_error
  end.

(** ---- Image lists ---- *)

(** include/trax.h:93-101 *)
Definition channel_id (i : Z) : Z :=
  if i =? 0 then TRAX_CHANNEL_COLOR else if i =? 1 then TRAX_CHANNEL_DEPTH else if i =? 2 then TRAX_CHANNEL_IR else -1.
Definition channel_index (c : Z) : Z :=
  if c =? TRAX_CHANNEL_COLOR then 0 else if c =? TRAX_CHANNEL_DEPTH then 1 else if c =? TRAX_CHANNEL_IR then 2 else -1.
(** src/traxpp.cpp:699-763: the images of the channels; None is the empty image *)
Definition image_list := list (option image).
Definition no_images : image_list := [None; None; None].
Definition list_get (l : image_list) (channel : Z) : outcome (option image) := fetch l (channel_index channel).
Definition list_set (l : image_list) (im : image) (channel : Z) : outcome image_list := put l (channel_index channel) (Some im).
Definition list_has (l : image_list) (channel : Z) : outcome bool :=
  im <- list_get l channel ;; Ok (match im with Some _ => true | None => false end).
Definition list_size (l : image_list) : Z :=
  Z.of_nat (List.length (filter (fun im => match im with Some _ => true | None => false end) l)).

(** helpers.cpp:433-448: the cells and their number [j] *)
Definition image_to_cell (l : image_list) (i : Z) (s : list (option mx) * Z) : outcome (list (option mx) * Z) :=
  let '(cells, j) := s in
  has <- list_has l (channel_id i) ;;
  if has : bool then
    im <- list_get l (channel_id i) ;; a <- image_to_array im ;;
    cells <- put cells j a ;; Ok (cells, j + 1)
  else Ok (cells, j).
Definition images_to_array (l : image_list) : outcome mx :=
  s <- for_range 3 0 (image_to_cell l) (repeat None (Z.to_nat (list_size l)), 0) ;;
  Ok (MCell 1 (list_size l) (fst s)).

(** A pointer to an array is used *)
Definition non_null {A} (p : option A) : outcome A := match p with Some a => Ok a | None => UB end.
(** for_range with a body that may fail with an error *)
Fixpoint for_result {A} (n : nat) (i : Z) (body : Z -> A -> result A) (s : A) : result A :=
  match n with
  | O => done s
  | S n' => s' <~ body i s ;; for_result n' (i + 1) body s'
  end.
(** mxGetCell: an index beyond the cells gives NULL *)
Definition get_cell_at (cells : list (option mx)) (i : Z) : option mx := if i <? 0 then None else nth (Z.to_nat i) cells None.
(** helpers.cpp:556-563 *)
Definition cell_to_image (cells : list (option mx)) (channels i : Z) (s : image_list * Z) : result (image_list * Z) :=
  let '(l, j) := s in
  if supports channels (channel_id i) then
    a <- non_null (get_cell_at cells j) ;;
    im <~ array_to_image a ;;
    l <- list_set l im (channel_id i) ;; done (l, j + 1)
  else done (l, j).
(** helpers.cpp:532-567 *)
Definition array_to_images (a : mx) (channels : Z) : result image_list :=
  cnum <- image_list_count channels ;;
  match a with
  | MCell rows cols cells =>
      if negb (Z.min rows cols =? 1) then mex_error
      else if negb (Z.max rows cols =? cnum) then mex_error
      else s <~ for_result 3 0 (cell_to_image cells channels) (no_images, 0) ;; done (fst s)
  | _ =>
      if negb (cnum =? 1) then mex_error
      else im <~ array_to_image a ;; lift (list_set no_images im channels)
  end.

(** ---- Regions ---- *)

(** The conversion of a float to a double: the value stays the same *)
Definition double_of_float (x : spec_float) : spec_float :=
  match x with
  | S754_finite s m e => to_double s (Z.pos m * 2 ^ Z.max 0 e) (2 ^ Z.max 0 (- e))
  | _ => x
  end.
(** The conversion of an int *)
Definition double_of_int (z : Z) : spec_float :=
  if z =? 0 then S754_zero false else to_double (z <? 0) (Z.abs z) 1.

(** helpers.cpp:225-230 *)
Definition array_to_mask (width height : Z) (data : list N) (i j : Z) (mask : block N) : outcome (block N) :=
  v <- fetch data (j * height + i) ;; put8 mask (i * width + j) v.
(** helpers.cpp:240-242, src/trax.c and src/region.c:764-779: a point of the new polygon *)
Definition array_to_point (r : list spec_float) (i : Z) (points : block (spec_float * spec_float)) : outcome (block (spec_float * spec_float)) :=
  x <- fetch r (i * 2) ;; y <- fetch r (i * 2 + 1) ;; put points i (Some (float_of_double x, float_of_double y)).
(** helpers.cpp:211-256 *)
Definition array_to_region (a : mx) : result region :=
  match a with
  | MU8 _ data =>
      let width := get_n a in let height := get_m a in
      b <- create_mask width height ;;
      b <- for2 height width (array_to_mask width height data) b ;;
      l <- blk_read b (List.length b) ;;
      done (RMask 0 0 width height l)
  | MDouble _ l r =>
      if (l mod 2 =? 0) && (6 <=? l) then
        b <- for_range (Z.to_nat (l / 2)) 0 (array_to_point r) (blk_new (Z.to_nat (l / 2))) ;;
        points <- blk_read b (List.length b) ;;
        done (RPoly points)
      else if l =? 4 then
        x <- fetch r 0 ;; y <- fetch r 1 ;; w <- fetch r 2 ;; h <- fetch r 3 ;;
        done (RRect (float_of_double x) (float_of_double y) (float_of_double w) (float_of_double h))
      else mex_error
  | _ => mex_error
  end.

(** helpers.cpp:300-305 *)
Definition mask_to_array (x y width height : Z) (mask : list N) (i j : Z) (data : list N) : outcome (list N) :=
  v <- fetch mask (i * width + j) ;; put data ((j + x) * (height + y) + y + i) v.
(** helpers.cpp:275-279 *)
Definition point_to_array (points : list (spec_float * spec_float)) (i : Z) (p : list spec_float) : outcome (list spec_float) :=
  v <- fetch points i ;;
  p <- put p (i * 2) (double_of_float (fst v)) ;; put p (i * 2 + 1) (double_of_float (snd v)).
(** helpers.cpp:258-312 *)
Definition region_to_array (r : region) : result mx :=
  match r with
  | RRect x y w h => done (MDouble 1 4 (map double_of_float [x; y; w; h]))
  | RPoly points =>
      let n := Z.of_nat (List.length points) in
      p <- for_range (List.length points) 0 (point_to_array points) (repeat (S754_zero false) (2 * List.length points)) ;;
      done (MDouble 1 (n * 2) p)
  | RSpecial code => done (MDouble 1 1 [double_of_int code])
  | RMask x y width height mask =>
      rows <- int_result (height + y) ;; cols <- int_result (width + x) ;;
      if (rows <? 0) || (cols <? 0) then mex_error
      else
        d <- for2 height width (mask_to_array x y width height mask) (zeros [rows; cols]) ;;
        done (MU8 [rows; cols] d)
  end.

(** ---- Properties ---- *)

(** mxGetScalar: the first element; other classes and empty arrays have none *)
Definition get_scalar (a : mx) : outcome spec_float :=
  match a with
  | MDouble _ _ (x :: _) => Ok x
  | MU8 _ (x :: _) | MU16 _ (x :: _) => Ok (double_of_int (Z.of_N x))
  | _ => UB
  end.
(** helpers.cpp:58-63 and 92-97; the name is a C string *)
Definition set_parameter (p : props) (name : list N) (value : mx) : result props :=
  match value with
  | MChar _ _ _ => s <~ get_string value ;; lift (props_set p (c_string name) s)
  | _ => v <- get_scalar value ;; lift (props_set_float p (c_string name) (float_of_double v))
  end.
(** helpers.cpp:43-67 *)
Fixpoint struct_loop (fields : list (list N * mx)) (p : props) : result props :=
  match fields with
  | [] => done p
  | (name, value) :: fields' => p' <~ set_parameter p name value ;; struct_loop fields' p'
  end.
Definition struct_to_parameters (a : mx) : result props :=
  match a with MStruct fields => struct_loop fields props_create | _ => mex_error end.
(** helpers.cpp:86-99 *)
Definition cell_to_parameter (cells : list (option mx)) (length i : Z) (p : props) : result props :=
  key <- non_null (get_cell_at cells i) ;;
  skey <~ get_string key ;;
  value <- non_null (get_cell_at cells (i + length)) ;;
  set_parameter p skey value.
(** helpers.cpp:69-102 *)
Definition cell_to_parameters (a : mx) : result props :=
  match a with
  | MCell length n cells =>
      if negb (Z.min length n =? 1) then mex_error
      else for_result (Z.to_nat length) 0 (cell_to_parameter cells length) props_create
  | _ => mex_error
  end.
(** helpers.cpp:119-134: cell [pos] and cell [pos + length] *)
Fixpoint cell_enumerate (kvs : list (list N * list N)) (length pos : Z) (cells : list (option mx)) : outcome (list (option mx)) :=
  match kvs with
  | [] => Ok cells
  | (key, value) :: kvs' =>
      cells <- put cells pos (Some (set_string key)) ;;
      cells <- put cells (pos + length) (Some (set_string value)) ;;
      cell_enumerate kvs' length (pos + 1) cells
  end.
(** helpers.cpp:136-151 *)
Definition parameters_to_cell (p : props) : outcome mx :=
  let length := Z.of_nat (List.length (props_enum p)) in
  cells <- cell_enumerate (props_enum p) length 0 (repeat None (2 * List.length (props_enum p))) ;;
  Ok (MCell length 2 cells).
(** helpers.cpp:153-169: from the second character on *)
Definition field_char (c : N) : N := if is_alnum c || (c =? 95)%N then c else 95%N.
Definition field_name (key : list N) : list N :=
  match key with [] => [] | c :: key' => c :: map field_char key' end.
(** helpers.cpp:171-209.  (What Matlab does with two fields of the same name is left open: the fields are given in their order.) *)
Definition parameters_to_struct (p : props) : mx :=
  MStruct (map (fun kv => (field_name (c_string (fst kv)), set_string (snd kv))) (props_enum p)).

(** ---- Names of formats ---- *)

(** A table of names in lower case, compared with the lower case of the text *)
Fixpoint code_of (names : list (list N * Z)) (s : list N) : option Z :=
  match names with
  | [] => None
  | (name, code) :: names' => if bytes_eqb s name then Some code else code_of names' s
  end.
(** helpers.cpp:633-651, 653-675, 677-695 *)
Definition get_region_code (s : list N) : result Z :=
  Ok (code_of [(str "rectangle", TRAX_REGION_RECTANGLE); (str "polygon", TRAX_REGION_POLYGON); (str "mask", TRAX_REGION_MASK)] (map to_lower s)).
Definition get_image_code (s : list N) : result Z :=
  Ok (code_of [(str "path", TRAX_IMAGE_PATH); (str "url", TRAX_IMAGE_URL); (str "buffer", TRAX_IMAGE_BUFFER); (str "memory", TRAX_IMAGE_MEMORY)]
        (map to_lower s)).
Definition get_channel_code (s : list N) : result Z :=
  Ok (code_of [(str "color", TRAX_CHANNEL_COLOR); (str "depth", TRAX_CHANNEL_DEPTH); (str "ir", TRAX_CHANNEL_IR)] (map to_lower s)).
(** helpers.cpp:711-716 *)
Definition add_flag (parser : list N -> result Z) (cells : list (option mx)) (i codes : Z) : result Z :=
  a <- non_null (get_cell_at cells i) ;;
  s <~ get_string a ;; c <~ parser s ;; done (Z.lor codes c).
(** helpers.cpp:698-719 *)
Definition get_flags (a : mx) (parser : list N -> result Z) : result Z :=
  match a with
  | MCell rows cols cells =>
      if negb (Z.min rows cols =? 1) then mex_error
      else for_result (Z.to_nat (Z.max rows cols)) 0 (add_flag parser cells) 0
  | _ => s <~ get_string a ;; parser s
  end.
(** helpers.cpp:721-796: the names of the flags that are set, in the order of the tests *)
Definition decode_names (names : list (list N * Z)) (formats : Z) : mx :=
  let tmp := map (fun n => Some (set_string (fst n))) (filter (fun n => supports formats (snd n)) names) in
  MCell 1 (Z.of_nat (List.length tmp)) tmp.
Definition decode_region : Z -> mx :=
  decode_names [(str "rectangle", TRAX_REGION_RECTANGLE); (str "polygon", TRAX_REGION_POLYGON); (str "mask", TRAX_REGION_MASK)].
Definition decode_image : Z -> mx :=
  decode_names [(str "path", TRAX_IMAGE_PATH); (str "url", TRAX_IMAGE_URL); (str "buffer", TRAX_IMAGE_BUFFER); (str "memory", TRAX_IMAGE_MEMORY)].
Definition decode_channels : Z -> mx :=
  decode_names [(str "color", TRAX_CHANNEL_COLOR); (str "depth", TRAX_CHANNEL_DEPTH); (str "ir", TRAX_CHANNEL_IR)].

(** ---- Arguments of traxserver ---- *)

(** helpers.h:26-37 *)
Inductive argument :=
| ArgCustom | ArgPropstruct | ArgName | ArgFamily | ArgDescription | ArgDebug | ArgTimeout | ArgEnvironment | ArgData | ArgConnection
| ArgDirectory | ArgLog | ArgChannels.
Definition argument_names : list (list N * argument) :=
  [(str "propstruct", ArgPropstruct); (str "name", ArgName); (str "description", ArgDescription); (str "family", ArgFamily);
   (str "debug", ArgDebug); (str "timeout", ArgTimeout); (str "environment", ArgEnvironment); (str "data", ArgData);
   (str "connection", ArgConnection); (str "directory", ArgDirectory); (str "log", ArgLog); (str "channels", ArgChannels)].
(** helpers.cpp:8-15 *)
Definition is_property_name (s : list N) : bool := forallb (fun c => is_alnum c || (c =? 46)%N || (c =? 95)%N) s.
(** helpers.cpp:569-631 *)
Fixpoint argument_of (names : list (list N * argument)) (s : list N) : option argument :=
  match names with
  | [] => if is_property_name s then Some ArgCustom else None
  | (name, a) :: names' => if bytes_eqb s name then Some a else argument_of names' s
  end.
Definition get_argument_code (s : list N) : result argument := Ok (argument_of argument_names (map to_lower s)).

(** traxserver.cpp:49-53: what the optional arguments of "setup" give; custom is a std::map *)
Record setup := mkSetup { s_name : list N; s_description : list N; s_family : list N; s_channels : Z; s_custom : list (list N * list N) }.
Definition no_setup : setup := mkSetup [] [] [] TRAX_CHANNEL_COLOR [].
Definition set_custom (custom : list (list N * list N)) (key value : list N) : list (list N * list N) :=
  (key, value) :: filter (fun kv => negb (bytes_eqb (fst kv) key)) custom.
(** traxserver.cpp:58-75: an argument that was not given is no array *)
Definition setup_argument (prhs : list mx) (i : Z) (s : setup) : result setup :=
  a <- fetch prhs i ;;
  key <~ get_string a ;;
  code <~ get_argument_code key ;;
  match code with
  | ArgName => v <- fetch prhs (i + 1) ;; t <~ get_string v ;; done (mkSetup t (s_description s) (s_family s) (s_channels s) (s_custom s))
  | ArgDescription => v <- fetch prhs (i + 1) ;; t <~ get_string v ;; done (mkSetup (s_name s) t (s_family s) (s_channels s) (s_custom s))
  | ArgFamily => v <- fetch prhs (i + 1) ;; t <~ get_string v ;; done (mkSetup (s_name s) (s_description s) t (s_channels s) (s_custom s))
  | ArgChannels =>
      v <- fetch prhs (i + 1) ;; c <~ get_flags v get_channel_code ;; done (mkSetup (s_name s) (s_description s) (s_family s) c (s_custom s))
  | ArgCustom =>
      if starts_with (str "trax.") key then mex_error
      else v <- fetch prhs (i + 1) ;; t <~ get_string v ;;
           done (mkSetup (s_name s) (s_description s) (s_family s) (s_channels s) (set_custom (s_custom s) key t))
  | _ => mex_error
  end.
(** for (i = first; i < floor(nrhs / 2) * 2; i += 2): [n] bounds the number of turns *)
Fixpoint pairs_loop {A} (n : nat) (i limit : Z) (body : Z -> A -> result A) (s : A) : result A :=
  match n with
  | O => done s
  | S n' => if i <? limit then s' <~ body i s ;; pairs_loop n' (i + 2) limit body s' else done s
  end.
Definition pairs {A} (first nrhs : Z) (body : Z -> A -> result A) (s : A) : result A :=
  pairs_loop (Z.to_nat nrhs) first (nrhs / 2 * 2) body s.
(** traxserver.cpp:43-89: the metadata that a call traxserver('setup', ...) leads to: optional arguments, region and image formats *)
Definition server_setup (prhs : list mx) : result (setup * Z * Z) :=
  let nrhs := Z.of_nat (List.length prhs) in
  if nrhs <? 3 then mex_error
  else
    s <~ pairs 3 nrhs (setup_argument prhs) no_setup ;;
    a <- fetch prhs 1 ;; regions <~ get_flags a get_region_code ;;
    b <- fetch prhs 2 ;; images <~ get_flags b get_image_code ;;
    done (s, regions, images).
(** traxserver.cpp:115-130: whether traxserver('wait', ...) gives properties as a structure *)
Definition scalar_positive (x : spec_float) : bool :=
  match x with S754_finite false _ _ | S754_infinity false => true | _ => false end.
Definition wait_argument (prhs : list mx) (i : Z) (propstruct : bool) : result bool :=
  a <- fetch prhs i ;;
  key <~ get_string a ;;
  code <~ get_argument_code key ;;
  match code with
  | ArgPropstruct => v <- fetch prhs (i + 1) ;; x <- get_scalar v ;; done (scalar_positive x)
  | _ => mex_error
  end.
Definition server_wait (prhs : list mx) : result bool :=
  pairs 1 (Z.of_nat (List.length prhs)) (wait_argument prhs) false.
(** traxserver.cpp:196-201: the reason given to traxserver('quit', ...) *)
Definition server_quit (prhs : list mx) : result (list N) :=
  if 2 <? Z.of_nat (List.length prhs) then mex_error else a <- fetch prhs 1 ;; get_string a.
