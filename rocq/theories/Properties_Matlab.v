(** Theorems about the Matlab functions (C89 to C93). *)
From Coq Require Import Floats.SpecFloat.
From Verif Require Import CBase StrMap Props PropsSpec Buffer Num Region Image ImageSpec Formats FormatsSpec Lists GeomSpec Matlab MatlabSpec MatlabProofs MatlabCallProofs.
Local Open Scope Z_scope.

(** ---- C89: images ---- *)
(** An array of 8 or 16 bits becomes an image that shows the same picture, and comes back the same. *)
Theorem matlab_image_array_partial : forall a, image_array a ->
  exists im, array_to_image a = done im /\ same_picture im a /\ image_to_array (Some im) = Ok (Some a).
Proof. exact array_round_trip. Qed.
Print Assumptions matlab_image_array_partial.
(** Two rows, three columns: the pixels of the first row are elements 0, 2 and 4 *)
Example matlab_image_array_case : image_array (MU8 [2; 3] [1; 2; 3; 4; 5; 6]%N) /\
  exists im, array_to_image (MU8 [2; 3] [1; 2; 3; 4; 5; 6]%N) = done im /\ i_width im = 3 /\ i_height im = 2 /\
    i_data im = map Some [1; 3; 5; 2; 4; 6]%N.
Proof. split; [now constructor|]. eexists. split; [vm_compute; reflexivity|]. vm_compute. auto. Qed.
(** An image in memory is shown as an array with the same picture, which is understood as the same image. *)
Theorem matlab_image_memory_partial : forall im, memory_image im ->
  exists a, image_to_array (Some im) = Ok (Some a) /\ same_picture im a /\ array_to_image a = done im.
Proof. exact memory_round_trip. Qed.
Print Assumptions matlab_image_memory_partial.
Example matlab_image_memory_case : memory_image (mkImage 4 1 2 3 (map Some [10; 20; 30; 40; 50; 60]%N)) /\
  image_to_array (Some (mkImage 4 1 2 3 (map Some [10; 20; 30; 40; 50; 60]%N))) = Ok (Some (MU8 [2; 1; 3] [10; 40; 20; 50; 30; 60]%N)).
Proof.
  split; [|vm_compute; reflexivity]. unfold memory_image. cbn [i_type i_format i_width i_height i_data].
  split; [reflexivity|]. split; [auto|]. split; [reflexivity|]. split; [reflexivity|]. split; [vm_compute; reflexivity|].
  exists [10; 20; 30; 40; 50; 60]%N. split; [reflexivity|]. split; [reflexivity|]. intros b H. cbn in H. intuition lia.
Qed.
Theorem matlab_image_path_partial : forall p, ~ In 0%N p -> exists im, image_create_path p = Ok im /\
  image_to_array (Some im) = Ok (Some (text_array p)) /\ array_to_image (text_array p) = done im.
Proof. exact path_exchanged. Qed.
Print Assumptions matlab_image_path_partial.
Example matlab_image_path_case : ~ In 0%N (str "/a.jpg").
Proof. vm_compute. intuition discriminate. Qed.
(** An image given by its URL ends the process (an assertion on the type of the image) instead of being shown. *)
Theorem matlab_image_url_refuted : forall u im, image_create_url u = Ok im -> image_to_array (Some im) = Abort.
Proof. exact url_aborts. Qed.
Print Assumptions matlab_image_url_refuted.
Example matlab_image_url_case : exists im, image_create_url (str "http://a/b.jpg") = Ok im.
Proof. eexists. vm_compute. reflexivity. Qed.
(** An empty array ends the process. *)
Theorem matlab_image_empty_refuted : forall w, 0 <= w -> array_to_image (MU8 [0; w] []) = Abort.
Proof. exact empty_aborts. Qed.
Print Assumptions matlab_image_empty_refuted.
(** What an image in a buffer is shown as is not accepted. *)
Theorem matlab_image_buffer_refuted : forall im a, i_type im = 8 -> image_to_array (Some im) = Ok (Some a) -> array_to_image a = mex_error.
Proof. exact buffer_refused. Qed.
Print Assumptions matlab_image_buffer_refuted.
Example matlab_image_buffer_case : exists im a, image_create_buffer 5 [255; 216; 255; 224; 7]%N = Ok im /\ i_type im = 8 /\ image_to_array (Some im) = Ok (Some a).
Proof. eexists _, _. split; [vm_compute; reflexivity|]. split; vm_compute; reflexivity. Qed.

(** ---- C90: regions ---- *)
(** Rectangles, polygons, and masks at the origin come back the same. *)
Theorem matlab_region_partial : forall r, exchanged r -> exists a, region_to_array r = done a /\ array_to_region a = done r.
Proof. exact regions_exchanged. Qed.
Print Assumptions matlab_region_partial.
Example matlab_region_case :
  exchanged (RPoly [(float_of_int 0, float_of_int 0); (float_of_int 5, float_of_int 0); (float_of_int 0, float_of_int (-3))]) /\
  exchanged (RMask 0 0 2 1 [1; 0]%N) /\
  region_to_array (RPoly [(float_of_int 0, float_of_int 0); (float_of_int 5, float_of_int 0); (float_of_int 0, float_of_int (-3))]) =
    done (MDouble 1 6 (map double_of_int [0; 0; 5; 0; 0; -3])).
Proof.
  split; [|split; [now constructor|vm_compute; reflexivity]]. constructor; [cbn; lia|vm_compute; reflexivity|].
  intros x y [H|[H|[H|[]]]]; injection H as <- <-; split; vm_compute; reflexivity.
Qed.
(** A mask given as an array has its values at the positions of the elements, and comes back the same. *)
Theorem matlab_mask_partial : forall h w data, 0 < h -> 0 < w -> in_int (w * h) = true -> List.length data = Z.to_nat (w * h) ->
  exists mask, array_to_region (MU8 [h; w] data) = done (RMask 0 0 w h mask) /\
    (forall X Y, 0 <= X < w -> 0 <= Y < h -> value_at 0 0 w h mask X Y = element h w data Y X 0) /\
    region_to_array (RMask 0 0 w h mask) = done (MU8 [h; w] data).
Proof. exact mask_array_and_back. Qed.
Print Assumptions matlab_mask_partial.
Example matlab_mask_case : array_to_region (MU8 [1; 3] [1; 0; 1]%N) = done (RMask 0 0 3 1 [1; 0; 1]%N).
Proof. vm_compute. reflexivity. Qed.
(** A mask with an offset that is not negative is shown with its values at their positions. *)
Theorem matlab_mask_shown_partial : forall x y w h mask, 0 <= x -> 0 <= y -> 0 < w -> 0 < h -> in_int ((w + x) * (h + y)) = true ->
  List.length mask = Z.to_nat (w * h) ->
  exists data, region_to_array (RMask x y w h mask) = done (MU8 [h + y; w + x] data) /\ List.length data = Z.to_nat ((w + x) * (h + y)) /\
    forall X Y, 0 <= X < w + x -> 0 <= Y < h + y -> element (h + y) (w + x) data Y X 0 = value_at x y w h mask X Y.
Proof. exact mask_shown_ok. Qed.
Print Assumptions matlab_mask_shown_partial.
Example matlab_mask_shown_case : region_to_array (RMask 1 2 1 1 [1]%N) = done (MU8 [3; 2] [0; 0; 0; 0; 0; 1]%N).
Proof. vm_compute. reflexivity. Qed.
(** A mask that begins left of the image makes the conversion write before the array. *)
Theorem matlab_mask_left_refuted : forall x y w h mask, x < 0 -> 0 <= y -> 0 < w -> 0 < h -> 0 <= w + x -> in_int (h + y) = true -> in_int (w + x) = true ->
  List.length mask = Z.to_nat (w * h) -> in_int (w * h) = true -> region_to_array (RMask x y w h mask) = UB.
Proof. exact mask_left. Qed.
Print Assumptions matlab_mask_left_refuted.
Example matlab_mask_left_case : region_to_array (RMask (-1) 0 2 1 [1; 1]%N) = UB.
Proof. vm_compute. reflexivity. Qed.
(** A mask that begins above the image is shown wrongly: of this column of three, 1 is at y = -1, 2 at y = 0 and 3 at y = 1. *)
Theorem matlab_mask_above_refuted : exists data, region_to_array (RMask 1 (-1) 1 3 [1; 2; 3]%N) = done (MU8 [2; 2] data) /\
  value_at 1 (-1) 1 3 [1; 2; 3]%N 0 1 = 0%N /\ element 2 2 data 1 0 0 = 1%N.
Proof. eexists. split; [vm_compute; reflexivity|]. split; vm_compute; reflexivity. Qed.
Print Assumptions matlab_mask_above_refuted.
(** A special region is shown as a number that is not accepted. *)
Theorem matlab_special_refuted : forall code, exists a, region_to_array (RSpecial code) = done a /\ array_to_region a = mex_error.
Proof. exact special_refused. Qed.
Print Assumptions matlab_special_refuted.
(** A matrix with two rows and four columns passes for a rectangle: elements of different rows are mixed up. *)
Theorem matlab_rows_refuted : forall x y w h x' y' w' h', array_to_region (MDouble 2 4 [x; x'; y; y'; w; w'; h; h']) =
  done (RRect (float_of_double x) (float_of_double x') (float_of_double y) (float_of_double y')).
Proof. exact two_rows. Qed.
Print Assumptions matlab_rows_refuted.
(** A matrix without rows makes the conversion read beyond the array. *)
Theorem matlab_no_rows_refuted : array_to_region (MDouble 0 4 []) = UB /\ forall n, 3 <= n -> array_to_region (MDouble 0 (n * 2) []) = UB.
Proof. exact no_rows. Qed.
Print Assumptions matlab_no_rows_refuted.

(** ---- C91: properties ---- *)
(** Properties are shown as a cell array with a row for each: the name and the value. *)
Theorem matlab_cell_partial : forall ops p, props_run ops = Ok p -> c_strings (pm_run ops) -> in_int (2 * Z.of_nat (props_count p)) = true ->
  exists rows cells, parameters_to_cell p = Ok (MCell (Z.of_nat (List.length rows)) 2 cells) /\ PropsSpec.enumerates rows (pm_run ops) /\
    forall i k v, nth_error rows i = Some (k, v) ->
      cell_text cells (List.length rows) i 0 = Some k /\ cell_text cells (List.length rows) i 1 = Some v.
Proof. exact cell_shows. Qed.
Print Assumptions matlab_cell_partial.
Definition two_properties : list pop := [PSet (str "a") (str "1"); PSet (str "b.c") (str "x")].
Example matlab_cell_case : exists p cells, props_run two_properties = Ok p /\ parameters_to_cell p = Ok (MCell 2 2 cells) /\
  cell_text cells 2 0 1 <> cell_text cells 2 1 1 /\
  exists i, cell_text cells 2 i 0 = Some (str "b.c") /\ cell_text cells 2 i 1 = Some (str "x").
Proof.
  eexists _, _. split; [vm_compute; reflexivity|]. split; [vm_compute; reflexivity|]. split; [vm_compute; discriminate|].
  first [exists 0%nat; vm_compute; split; reflexivity|exists 1%nat; vm_compute; split; reflexivity].
Qed.
(** What is shown is understood if there is just one property ... *)
Theorem matlab_cell_back_partial : forall ops p, props_run ops = Ok p -> c_strings (pm_run ops) -> props_count p = 1%nat ->
  exists a q, parameters_to_cell p = Ok a /\ cell_to_parameters a = done q /\ forall k, props_get q k = Ok (pm_run ops k).
Proof. exact cell_one. Qed.
Print Assumptions matlab_cell_back_partial.
Example matlab_cell_back_case : exists p, props_run [PSet (str "a") (str "1")] = Ok p /\ props_count p = 1%nat.
Proof. eexists. split; vm_compute; reflexivity. Qed.
(** ... and refused for any other number of properties. *)
Theorem matlab_cell_back_refuted : forall ops p, props_run ops = Ok p -> in_int (2 * Z.of_nat (props_count p)) = true -> props_count p <> 1%nat ->
  exists a, parameters_to_cell p = Ok a /\ cell_to_parameters a = mex_error.
Proof. exact cell_refused. Qed.
Print Assumptions matlab_cell_back_refuted.
Example matlab_cell_back_refuted_case : exists p, props_run two_properties = Ok p /\ props_count p = 2%nat.
Proof. eexists. split; vm_compute; reflexivity. Qed.
(** A cell array with one column is accepted, and values are read that it does not have. *)
Theorem matlab_cell_column_refuted : forall k n, ~ In 0%N k -> 0 < n ->
  cell_to_parameters (MCell n 1 (repeat (Some (text_array k)) (Z.to_nat n))) = UB.
Proof. exact cell_column. Qed.
Print Assumptions matlab_cell_column_refuted.
(** A structure comes back the same if the names (but for their first characters) are made of letters, digits and underscores. *)
Theorem matlab_struct_partial : forall ops p, props_run ops = Ok p -> c_strings (pm_run ops) -> (forall k v, pm_run ops k = Some v -> field_safe k) ->
  exists q, struct_to_parameters (parameters_to_struct p) = done q /\ forall k, props_get q k = Ok (pm_run ops k).
Proof. exact struct_exchanged. Qed.
Print Assumptions matlab_struct_partial.
Example matlab_struct_case : exists p, props_run [PSet (str "a_b") (str "1"); PSet (str "c") (str "")] = Ok p /\
  field_safe (str "a_b") /\ parameters_to_struct p <> MStruct [].
Proof.
  eexists. split; [vm_compute; reflexivity|]. split; [|vm_compute; discriminate]. intros c H. vm_compute in H. unfold name_char. intuition lia.
Qed.
(** Each property has a field, whose name differs from that of the property only in characters that fields cannot have. *)
Theorem matlab_struct_field_partial : forall ops p k v, props_run ops = Ok p -> c_strings (pm_run ops) -> pm_run ops k = Some v ->
  exists fields, parameters_to_struct p = MStruct fields /\
    exists name, In (name, text_array v) fields /\ List.length name = List.length k /\ List.hd_error name = List.hd_error k /\
      (forall c, In c (List.tl name) -> name_char c) /\
      forall i c, nth_error k (S i) = Some c -> name_char c -> nth_error name (S i) = Some c.
Proof. exact struct_fields. Qed.
Print Assumptions matlab_struct_field_partial.
(** Other names are changed, and two properties can get the same field. *)
Theorem matlab_struct_refuted : exists p fields q, props_run [PSet (str "a.b") (str "1"); PSet (str "a_b") (str "2")] = Ok p /\
  parameters_to_struct p = MStruct fields /\ map fst fields = [str "a_b"; str "a_b"] /\
  struct_to_parameters (MStruct fields) = done q /\ props_get q (str "a.b") = Ok None.
Proof.
  eexists _, _, _. split; [vm_compute; reflexivity|]. split; [vm_compute; reflexivity|]. split; [vm_compute; reflexivity|].
  split; vm_compute; reflexivity.
Qed.
Print Assumptions matlab_struct_refuted.

(** ---- C92: names of formats, lists of images ---- *)
(** A row or column of names, in whatever order and letter case, gives the union of their codes; *)
Theorem matlab_names : forall names codes, names <> [] ->
  (Forall2 (names_code region_table) names codes ->
     get_flags (row_of_texts names) get_region_code = done (fold_right Z.lor 0 codes) /\
     get_flags (column_of_texts names) get_region_code = done (fold_right Z.lor 0 codes)) /\
  (Forall2 (names_code image_table) names codes ->
     get_flags (row_of_texts names) get_image_code = done (fold_right Z.lor 0 codes) /\
     get_flags (column_of_texts names) get_image_code = done (fold_right Z.lor 0 codes)) /\
  (Forall2 (names_code channel_table) names codes ->
     get_flags (row_of_texts names) get_channel_code = done (fold_right Z.lor 0 codes) /\
     get_flags (column_of_texts names) get_channel_code = done (fold_right Z.lor 0 codes)).
Proof. exact names_union. Qed.
Print Assumptions matlab_names.
Example matlab_names_case : Forall2 (names_code region_table) [str "Mask"; str "rectangle"] [8; 2] /\
  get_flags (row_of_texts [str "Mask"; str "rectangle"]) get_region_code = done 10.
Proof.
  split; [|vm_compute; reflexivity]. constructor; [exists (str "mask"); vm_compute; auto|]. constructor; [exists (str "rectangle"); vm_compute; auto|constructor].
Qed.
(** a single name its code; *)
Theorem matlab_name : forall s code,
  (names_code region_table s code -> get_flags (text_array s) get_region_code = done code) /\
  (names_code image_table s code -> get_flags (text_array s) get_image_code = done code) /\
  (names_code channel_table s code -> get_flags (text_array s) get_channel_code = done code).
Proof. exact name_single. Qed.
Print Assumptions matlab_name.
Example matlab_name_case : names_code channel_table (str "IR") 4.
Proof. exists (str "ir"). vm_compute. auto. Qed.
(** an unknown name is an error. *)
Theorem matlab_unknown_name : forall names, Forall (fun s => ~ In 0%N s) names ->
  (Exists (fun s => forall code, ~ names_code region_table s code) names ->
     get_flags (row_of_texts names) get_region_code = mex_error /\ get_flags (column_of_texts names) get_region_code = mex_error) /\
  (Exists (fun s => forall code, ~ names_code image_table s code) names ->
     get_flags (row_of_texts names) get_image_code = mex_error /\ get_flags (column_of_texts names) get_image_code = mex_error) /\
  (Exists (fun s => forall code, ~ names_code channel_table s code) names ->
     get_flags (row_of_texts names) get_channel_code = mex_error /\ get_flags (column_of_texts names) get_channel_code = mex_error).
Proof. exact names_unknown. Qed.
Print Assumptions matlab_unknown_name.
Example matlab_unknown_name_case : Exists (fun s => forall code, ~ names_code region_table s code) [str "mask"; str "circle"].
Proof.
  right. left. intros code (name & H & E). cbn in H. destruct H as [H|[H|[H|[]]]]; injection H as <- <-; vm_compute in E; discriminate.
Qed.
(** The lists that are shown are understood as the same set, but for the empty one. *)
Theorem matlab_formats_shown : forall f,
  get_flags (decode_region f) get_region_code = (if Z.land f 14 =? 0 then mex_error else done (Z.land f 14)) /\
  get_flags (decode_image f) get_image_code = (if Z.land f 15 =? 0 then mex_error else done (Z.land f 15)) /\
  get_flags (decode_channels f) get_channel_code = (if Z.land f 7 =? 0 then mex_error else done (Z.land f 7)).
Proof. exact formats_shown. Qed.
Print Assumptions matlab_formats_shown.
(** A list of images becomes a row with one cell for each image, in the order colour, depth, infrared, and comes back the same. *)
Theorem matlab_image_list : forall l, List.length l = 3%nat -> (forall im, In (Some im) l -> memory_image im \/ path_image im) ->
  channels_of l <> 0 ->
  exists cells, images_to_array l = Ok (MCell 1 (Z.of_nat (List.length cells)) (map Some cells)) /\
    map (fun im => image_to_array (Some im)) (flat_map (fun im => match im with Some im => [im] | None => [] end) l) = map (fun a => Ok (Some a)) cells /\
    array_to_images (MCell 1 (Z.of_nat (List.length cells)) (map Some cells)) (channels_of l) = done l.
Proof. exact list_exchanged. Qed.
Print Assumptions matlab_image_list.
Example matlab_image_list_case : exists a b, image_create_path (str "a") = Ok a /\ image_create_path (str "b") = Ok b /\
  images_to_array [Some a; None; Some b] = Ok (MCell 1 2 [Some (text_array (str "a")); Some (text_array (str "b"))]) /\ channels_of [Some a; None; Some b] = 5.
Proof. eexists _, _. split; [vm_compute; reflexivity|]. split; [vm_compute; reflexivity|]. split; vm_compute; reflexivity. Qed.
(** One image can be given without a cell array if there is one channel. *)
Theorem matlab_single_image : forall a im, array_to_image a = done im ->
  array_to_images a 1 = done [Some im; None; None] /\ array_to_images a 2 = done [None; Some im; None] /\
  array_to_images a 4 = done [None; None; Some im].
Proof. exact single_image. Qed.
Print Assumptions matlab_single_image.
(** As many cells as channels are needed. *)
Theorem matlab_wrong_count : forall rows cols cells channels, 0 <= channels <= INT_MAX -> Z.max rows cols <> Z.of_nat (popcount32 channels) ->
  array_to_images (MCell rows cols cells) channels = mex_error.
Proof. exact wrong_count. Qed.
Print Assumptions matlab_wrong_count.
Example matlab_wrong_count_case : Z.max 1 2 <> Z.of_nat (popcount32 7).
Proof. vm_compute. discriminate. Qed.
(** An array alone is refused if there are several channels, or none. *)
Theorem matlab_single_wrong_count : forall a channels, 0 <= channels <= INT_MAX -> popcount32 channels <> 1%nat -> (forall r c l, a <> MCell r c l) ->
  array_to_images a channels = mex_error.
Proof. exact single_wrong_count. Qed.
Print Assumptions matlab_single_wrong_count.
Example matlab_single_wrong_count_case : popcount32 5 <> 1%nat /\ forall r c l, text_array (str "a") <> MCell r c l.
Proof. split; [vm_compute; discriminate|intros r c l; discriminate]. Qed.

(** ---- C93: arguments ---- *)
(** The pairs of names and values after the formats describe the tracker; the last value for a name counts. *)
Theorem matlab_setup_partial : forall op r i kvs regions images,
  Forall (fun kv => (custom_key (fst kv) \/ described_key (fst kv)) /\ ~ In 0%N (snd kv)) kvs -> in_int (4 + 2 * Z.of_nat (List.length kvs)) = true ->
  get_flags r get_region_code = done regions -> get_flags i get_image_code = done images ->
  exists s, server_setup (op :: r :: i :: pair_arrays kvs) = done (s, regions, images) /\
    s_name s = last_of (fun k => strcasecmp_eq k (str "name")) kvs [] /\
    s_description s = last_of (fun k => strcasecmp_eq k (str "description")) kvs [] /\
    s_family s = last_of (fun k => strcasecmp_eq k (str "family")) kvs [] /\ s_channels s = 1 /\
    forall k v, In (k, v) (s_custom s) <-> custom_key k /\ last_option (bytes_eqb k) kvs = Some v.
Proof. exact setup_described. Qed.
Print Assumptions matlab_setup_partial.
Example matlab_setup_case : exists s, server_setup ([text_array (str "setup"); text_array (str "mask"); text_array (str "path")] ++
    pair_arrays [(str "Name", str "t"); (str "x.y", str "1"); (str "x.y", str "2")]) = done (s, 8, 1) /\
  s_name s = str "t" /\ s_custom s = [(str "x.y", str "2")] /\ custom_key (str "x.y").
Proof.
  eexists. split; [vm_compute; reflexivity|]. split; [vm_compute; reflexivity|]. split; [vm_compute; reflexivity|]. split; [|split; [vm_compute; reflexivity|]].
  - intros c H. vm_compute in H. unfold name_char. intuition lia.
  - intros n H. vm_compute in H. repeat (destruct H as [<-|H]; [vm_compute; reflexivity|]). destruct H.
Qed.
(** Names that the protocol reserves are refused. *)
Theorem matlab_reserved_partial : forall op r i kvs k v rest,
  Forall (fun kv => (custom_key (fst kv) \/ described_key (fst kv)) /\ ~ In 0%N (snd kv)) kvs -> in_int (4 + 2 * Z.of_nat (List.length kvs)) = true ->
  (forall c, In c k -> name_char c \/ c = 46%N) -> starts_with (str "trax.") k = true ->
  server_setup (op :: r :: i :: pair_arrays (kvs ++ (k, v) :: rest)) = mex_error.
Proof. exact setup_trax. Qed.
Print Assumptions matlab_reserved_partial.
Example matlab_reserved_case : starts_with (str "trax.") (str "trax.name") = true.
Proof. vm_compute. reflexivity. Qed.
(** A name without a value makes the function read beyond its arguments. *)
Theorem matlab_unpaired_refuted : forall op r i kvs k,
  Forall (fun kv => (custom_key (fst kv) \/ described_key (fst kv)) /\ ~ In 0%N (snd kv)) kvs -> in_int (4 + 2 * Z.of_nat (List.length kvs)) = true ->
  custom_key k \/ described_key k -> server_setup (op :: r :: i :: pair_arrays kvs ++ [text_array k]) = UB.
Proof. exact setup_odd. Qed.
Print Assumptions matlab_unpaired_refuted.
Example matlab_unpaired_case : described_key (str "name").
Proof. exists (str "name"). vm_compute. auto. Qed.
(** The same for the option of "wait"; given in full it works. *)
Theorem matlab_wait_partial : forall op x, server_wait [op; text_array (str "propstruct"); MDouble 1 1 [x]] = done (scalar_positive x) /\
  server_wait [op] = done false.
Proof. exact wait_argument_ok. Qed.
Print Assumptions matlab_wait_partial.
Theorem matlab_wait_refuted : forall op, server_wait [op; text_array (str "propstruct")] = UB.
Proof. intros op. vm_compute. reflexivity. Qed.
Print Assumptions matlab_wait_refuted.
(** The reason given to "quit" is optional according to the error message, but without it the function reads beyond its arguments. *)
Theorem matlab_quit_partial : forall op s, ~ In 0%N s -> server_quit [op; text_array s] = done s.
Proof. exact quit_reason. Qed.
Print Assumptions matlab_quit_partial.
Example matlab_quit_case : ~ In 0%N (str "bye").
Proof. vm_compute. intuition discriminate. Qed.
Theorem matlab_quit_refuted : forall op, server_quit [op] = UB.
Proof. intros op. vm_compute. reflexivity. Qed.
Print Assumptions matlab_quit_refuted.
