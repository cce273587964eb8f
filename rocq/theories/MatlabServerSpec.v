(** Specification of the calls and sessions of a Matlab tracker *)
From Coq Require Import Floats.SpecFloat.
From Verif Require Import CBase StrMap Props PropsSpec Message MessageSpec Num Region Image Formats GeomSpec Handle SessionSpec ListsSpec Matlab MatlabSpec CppSession MatlabServer.
Local Open Scope Z_scope.

(** ---- Calls (C111) ---- *)

(** The call's first argument is a row of characters, up to a zero the name of an operation, in upper or lower case *)
Definition asks (c : mcall) (op : list N) : Prop :=
  exists n t rest, mc_prhs c = MChar 1 n t :: rest /\ strcasecmp_eq (c_string t) op = true.
Definition is_open (s : mserver) : Prop := ms_server s <> None.
(** An error that changes nothing *)
Definition refused (fuel slack : nat) (s : mserver) (c : mcall) : Prop := mex_server fuel slack s c = Ok (s, None).
(** A list of calls, with what they return *)
Fixpoint mex_run (fuel slack : nat) (s : mserver) (cs : list mcall) : outcome (mserver * list (option (list (option mx)))) :=
  match cs with
  | [] => Ok (s, [])
  | c :: cs' =>
      x <- mex_server fuel slack s c ;;
      let '(s1, r) := x in
      y <- mex_run fuel slack s1 cs' ;;
      let '(s2, rs) := y in
      Ok (s2, r :: rs)
  end.
(** No setup while a connection is open *)
Fixpoint apart (fuel slack : nat) (s : mserver) (cs : list mcall) : Prop :=
  match cs with
  | [] => True
  | c :: cs' => (asks c (str "setup") -> ~ is_open s) /\ forall s' r, mex_server fuel slack s c = Ok (s', r) -> apart fuel slack s' cs'
  end.

(** ---- Sessions (C112) ---- *)

(** How images, regions and properties look in Matlab (C89 to C91) *)
(** An image file that arrived: its kind and its bytes *)
Definition file_image (im : image) (kind : list N) (bytes : list N) : Prop :=
  i_type im = TRAX_IMAGE_BUFFER /\ (i_format im = TRAX_IMAGE_BUFFER_PNG /\ kind = str "png" \/ i_format im = TRAX_IMAGE_BUFFER_JPEG /\ kind = str "jpeg") /\
  i_width im = Z.of_nat (List.length bytes) /\ firstn (List.length bytes) (i_data im) = map Some bytes.
Definition image_shown (im : image) (a : mx) : Prop :=
  (exists p, ~ In 0%N p /\ image_create_path p = Ok im /\ a = text_array p) \/ (memory_image im /\ same_picture im a) \/
  (exists kind bytes, file_image im kind bytes /\ a = MStruct [(str "format", text_array kind); (str "data", MU8 [Z.of_nat (List.length bytes); 1] bytes)]).
Definition images_shown (l : list (option image)) (a : mx) : Prop :=
  exists cells, a = MCell 1 (Z.of_nat (List.length cells)) (map Some cells) /\
    Forall2 image_shown (flat_map (fun im => match im with Some im => [im] | None => [] end) l) cells.
Definition region_shown (r : region) (a : mx) : Prop :=
  match r with
  | RMask x y w h mask => exists data, a = MU8 [h + y; w + x] data /\
      forall X Y, 0 <= X < w + x -> 0 <= Y < h + y -> element (h + y) (w + x) data Y X 0 = value_at x y w h mask X Y
  | _ => (exists columns data, a = MDouble 1 columns data) /\ array_to_region a = done r
  end.
Definition value_of (p : props) (k : list N) : option (list N) := match props_get p k with Ok v => v | _ => None end.
Definition props_shown (propstruct : bool) (p : props) (a : mx) : Prop :=
  if propstruct
  then exists fields, a = MStruct fields /\ forall k v, value_of p k = Some v ->
         exists name, In (name, text_array v) fields /\ List.length name = List.length k /\ List.hd_error name = List.hd_error k /\
           forall i c, nth_error k (S i) = Some c -> name_char c -> nth_error name (S i) = Some c
  else exists rows cells, a = MCell (Z.of_nat (List.length rows)) 2 cells /\ PropsSpec.enumerates rows (value_of p) /\
         forall i k v, nth_error rows i = Some (k, v) -> cell_text cells (List.length rows) i 0 = Some k /\ cell_text cells (List.length rows) i 1 = Some v.
(** What can be shown *)
Definition viewable_region (r : region) : Prop :=
  match r with
  | RMask x y w h mask => 0 <= x /\ 0 <= y /\ 0 < w /\ 0 < h /\ in_int ((w + x) * (h + y)) = true /\ List.length mask = Z.to_nat (w * h)
  | _ => exchanged r
  end.
Definition viewable_images (l : list (option image)) : Prop := forall im, In (Some im) l -> memory_image im \/ path_image im \/ exists kind bytes, file_image im kind bytes.

(** The tracker's calls *)
Definition setup_call (regions images : mx) (kvs : list (list N * list N)) (o : ostate) : mcall :=
  mkMcall 1 (text_array (str "setup") :: regions :: images :: pair_arrays kvs) (Some (mkStream [] [], o)).
Definition wait_call (propstruct : bool) : mcall :=
  mkMcall 3 (if propstruct then [text_array (str "wait"); text_array (str "propstruct"); MDouble 1 1 [S754_finite false 1 0]] else [text_array (str "wait")]) None.
Definition status_call (a : mx) (p : option mx) : mcall :=
  mkMcall 1 (text_array (str "status") :: a :: match p with Some p => [p] | None => [] end) None.
(** The handle behind the function, what was written to it, and bytes arriving *)
Definition handle_of (s : mserver) : option handle := match ms_server s with Some h => h | None => None end.
Definition wrote (s s' : mserver) : list N := match handle_of s, handle_of s' with Some h, Some h' => written h h' | _, _ => [] end.
Definition fed (cut : list N -> list (list N)) (bytes : list N) (s : mserver) : mserver :=
  match handle_of s with Some h => set_server s (Some (Some (arrive cut bytes h))) | None => s end.
(** A round: a C++ client starts or sends a frame, the tracker calls wait and status, the client waits *)
Record mround := mkMround { mr_start : option region; mr_images : Handle.image_list; mr_props : props; mr_struct : bool; mr_state : mx; mr_state_props : option mx;
  mr_cut1 : list N -> list (list N); mr_cut2 : list N -> list (list N) }.
Record mseen := mkMseen { mn_sent : Z; mn_request : option (list (option mx)); mn_replied : option (list (option mx)); mn_state : Z; mn_answer : option region; mn_answer_props : props }.
Definition mex_round (legacy : bool) (slack : nat) (c : handle) (s : mserver) (r : mround) : outcome (handle * mserver * mseen) :=
  a <- match mr_start r with
       | Some reg => cpp_initialize legacy c (mr_images r) reg (mr_props r)
       | None => cpp_frame legacy c (mr_images r) (mr_props r)
       end ;;
  let '(sent, c1) := a in
  let fuel := match mr_start r with Some _ => 4%nat | None => 3%nat end in
  w <- mex_server fuel slack (fed (mr_cut1 r) (written c c1) s) (wait_call (mr_struct r)) ;;
  let '(s1, request) := w in
  b <- mex_server fuel slack s1 (status_call (mr_state r) (mr_state_props r)) ;;
  let '(s2, replied) := b in
  x <- cpp_client_wait (arrive (mr_cut2 r) (wrote s1 s2) c1) None props_create ;;
  let '(state, c2, answer, q) := x in
  Ok (c2, s2, mkMseen sent request replied state answer q).
Fixpoint mex_play (legacy : bool) (slack : nat) (c : handle) (s : mserver) (rs : list mround) : outcome (handle * mserver * list mseen) :=
  match rs with
  | [] => Ok (c, s, [])
  | r :: rs' =>
      x <- mex_round legacy slack c s r ;;
      let '(c1, s1, sn) := x in
      y <- mex_play legacy slack c1 s1 rs' ;;
      let '(c2, s2, sns) := y in
      Ok (c2, s2, sn :: sns)
  end.
(** Rounds within the protocol, for a tracker that announced region formats [rf] and image formats [imf] and takes colour images *)
Definition mround_ok (slack : nat) (rf imf : Z) (r : mround) : Prop :=
  cutter (mr_cut1 r) /\ cutter (mr_cut2 r) /\
  (exists ims, images_arrive slack TRAX_CHANNEL_COLOR imf (mr_images r) ims /\ viewable_images ims) /\
  match mr_start r with
  | Some reg => (forall c, reg <> RSpecial c) /\ supports rf (region_bit reg) = true /\ whole reg /\ exists reg', region_arrives reg reg' /\ viewable_region reg'
  | None => True
  end /\
  clean (mr_props r) /\ in_int (2 * Z.of_nat (props_count (mr_props r))) = true /\
  (exists reg reg', array_to_region (mr_state r) = done reg /\ whole reg /\ region_arrives reg reg') /\
  match mr_state_props r with
  | None => True
  | Some a => exists p, match a with MStruct _ => struct_to_parameters a | _ => cell_to_parameters a end = done p
  end.
Definition mrounds_ok (slack : nat) (rf imf : Z) (rs : list mround) : Prop :=
  Forall (mround_ok slack rf imf) rs /\ match rs with [] => True | r :: _ => mr_start r <> None end.
(** The tracker sees the images, the region (nothing for a frame) and the properties; the client sees the region *)
Definition mseen_ok (slack : nat) (imf : Z) (r : mround) (sn : mseen) : Prop :=
  mn_sent sn = TRAX_OK /\
  (exists a b c, mn_request sn = Some [Some a; Some b; Some c] /\
     (exists ims, images_arrive slack TRAX_CHANNEL_COLOR imf (mr_images r) ims /\ images_shown ims a) /\
     match mr_start r with Some reg => exists reg', region_arrives reg reg' /\ region_shown reg' b | None => b = MDouble 0 0 [] end /\
     props_shown (mr_struct r) (mr_props r) c) /\
  mn_replied sn = Some [Some (MU8 [1; 1] [1%N])] /\ mn_state sn = TRAX_STATE /\
  exists reg reg', array_to_region (mr_state r) = done reg /\ mn_answer sn = Some reg' /\ region_arrives reg reg'.
(** Options of setup that can be announced *)
Definition described_ok (kvs : list (list N * list N)) : Prop :=
  Forall (fun kv => (custom_key (fst kv) /\ (List.length (fst kv) <= 64)%nat \/ described_key (fst kv)) /\ text_ok (snd kv) = true) kvs /\
  in_int (4 + 2 * Z.of_nat (List.length kvs)) = true.
(** What setup announces: of several values of one name the last *)
Definition called (kvs : list (list N * list N)) (name : list N) : option (list N) :=
  match last_of (fun k => strcasecmp_eq k name) kvs [] with [] => None | t => Some t end.
Definition announced (regions images : Z) (kvs : list (list N * list N)) (m : metadata) : Prop :=
  md_region m = regions /\ md_image m = images /\ md_channels m = TRAX_CHANNEL_COLOR /\ md_name m = called kvs (str "name") /\
  md_description m = called kvs (str "description") /\ md_family m = called kvs (str "family") /\ md_flags m = Some 0 /\
  forall k v, value_of (md_custom m) k = Some v <-> custom_key k /\ last_option (bytes_eqb k) kvs = Some v.
(** The formats given to setup: one name, or a row or column of names *)
Inductive lists_codes (table : list (list N * Z)) : mx -> Z -> Prop :=
| lists_one s code : names_code table s code -> lists_codes table (text_array s) code
| lists_row names codes : names <> [] -> Forall2 (names_code table) names codes -> lists_codes table (row_of_texts names) (fold_right Z.lor 0 codes)
| lists_column names codes : names <> [] -> Forall2 (names_code table) names codes -> lists_codes table (column_of_texts names) (fold_right Z.lor 0 codes).
(** The properties given to status have arrived at the client *)
Definition state_props_seen (r : mround) (sn : mseen) : Prop :=
  match mr_state_props r with
  | None => True
  | Some a => exists p, match a with MStruct _ => struct_to_parameters a | _ => cell_to_parameters a end = done p /\ same_props (mn_answer_props sn) p
  end.

(** ---- Examples ---- *)
Definition sample_kvs : list (list N * list N) := [(str "name", str "A"); (str "Family", str "mean ""shift"""); (str "vot", str "2014 a=b"); (str "name", str "B")].
Definition sample_colour : Handle.image_list := [sample_path (str "/a b.jpg"); None; None].
Definition sample_mrounds : list mround :=
  [mkMround (Some sample_mask) sample_colour (sample_props (str "k") (str "v w")) false (MU8 [2; 3] [1; 0; 0; 1; 1; 1]%N) None byte_cut whole_cut;
   mkMround None sample_colour (sample_props (str "a.b") (str "c")) true (MDouble 1 4 [fl 1; fl 2; fl 3; fl 4]) (Some (MStruct [(str "conf", text_array (str "0.5"))])) whole_cut byte_cut;
   mkMround (Some sample_mask) sample_colour props_create true (MDouble 1 6 [fl 1; fl 2; fl 3; fl 4; fl 0; fl 7]) None byte_cut byte_cut].
Definition sample_setup : mcall := setup_call (row_of_texts [str "Mask"; str "polygon"]) (text_array (str "path")) sample_kvs (mkO [] [] []).
Definition quit_call (reason : list N) : mcall := mkMcall 0 [text_array (str "quit"); text_array reason] None.
