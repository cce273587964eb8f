(** Memory of the functions of src/trax.c: which blocks are allocated, used and freed by the calls of a session.  Contents are left
    out: a message is its type and what its arguments decode to, in any combination.  One block each for a list of strings, a
    set of properties, a region and a stream together with what belongs to them (Message.v, Buffer.v, Props.v and RegionApi.v
    model their insides); write_message and read_message keep nothing.  malloc never fails. *)
From Verif Require Import CBase Message Handle.
Local Open Scope Z_scope.

(** The blocks in use, and a number that was never used *)
Record mem := mkMem { m_next : nat; m_live : list nat }.
Definition mm A := mem -> outcome (A * mem).
Definition mret {A} (a : A) : mm A := fun m => Ok (a, m).
Definition mb {A B} (f : mm A) (k : A -> mm B) : mm B := fun m => r <- f m ;; k (fst r) (snd r).
Definition mfail {A} (o : outcome (A * mem)) : mm A := fun _ => o.
Notation "x <-- f ;; k" := (mb f (fun x => k)) (at level 61, f at next level, right associativity).
Notation "f ;;; k" := (mb f (fun _ => k)) (at level 61, right associativity).

Definition new : mm nat := fun m => Ok (m_next m, mkMem (S (m_next m)) (m_next m :: m_live m)).
Fixpoint take (x : nat) (l : list nat) : option (list nat) :=
  match l with
  | [] => None
  | y :: l' => if Nat.eqb x y then Some l' else match take x l' with Some r => Some (y :: r) | None => None end
  end.
Definition free (x : nat) : mm unit :=
  fun m => match take x (m_live m) with Some l => Ok (tt, mkMem (m_next m) l) | None => UB end.
(** free, or nothing for NULL *)
Definition free_opt (x : option nat) : mm unit := match x with Some x => free x | None => mret tt end.
(** A use of a block *)
Definition touch (x : nat) : mm unit := fun m => if existsb (Nat.eqb x) (m_live m) then Ok (tt, m) else UB.
Definition realloc (x : nat) : mm nat := free x ;;; new.
(** strdup or trax_properties_get of a string that may be missing *)
Definition new_if (b : bool) : mm (option nat) := if b then (x <-- new ;; mret (Some x)) else mret None.
(** A command for each element of a list *)
Fixpoint each {A} (f : A -> mm unit) (l : list A) : mm unit :=
  match l with [] => mret tt | a :: l' => f a ;;; each f l' end.

(** ---- Regions, images and lists ---- *)

Inductive rkind := KSpecial | KRect | KPoly | KMask.
Record rgn := mkRgn { g_kind : rkind; g_block : nat }.
(** src/trax.c:1693-1701, src/region.c region_release: NULL is dereferenced *)
Definition release_region (r : option rgn) : mm unit := match r with Some r => free (g_block r) | None => mfail UB end.
(** src/region.c:501-706 region_convert to one's own type, src/trax.c:1737-1743 trax_region_clone *)
Definition clone_region (r : option rgn) : mm (option rgn) :=
  match r with None => mret None | Some r => touch (g_block r) ;;; x <-- new ;; mret (Some (mkRgn (g_kind r) x)) end.
(** region.c region_convert: from special to anything else there is no result; from a polygon to a mask (lines 667-676) the
    container of line 668 is replaced by the one of line 673 *)
Definition convert_region (r : rgn) (k : rkind) : mm (option rgn) :=
  touch (g_block r) ;;;
  match g_kind r, k with
  | KSpecial, KSpecial => x <-- new ;; mret (Some (mkRgn k x))
  | KSpecial, KMask => mret None
  | KSpecial, _ => x <-- new ;; free x ;;; mret None
  | KPoly, KMask => _ <-- new ;; x <-- new ;; mret (Some (mkRgn k x))
  | _, _ => x <-- new ;; mret (Some (mkRgn k x))
  end.
Record img := mkImg { j_block : nat; j_data : nat }.
(** src/trax.c:1531-1542 trax_image_release *)
Definition release_image (i : img) : mm unit := free (j_data i) ;;; free (j_block i).
(** src/trax.c:1544-1615 (trax_image_create_...) and 300-371 (image_decode) *)
Definition new_image : mm img := b <-- new ;; d <-- new ;; mret (mkImg b d).
Record ilist := mkIlist { il_block : nat; il_images : list (option img) }.
(** src/trax.c:2134-2144 trax_image_list_create *)
Definition new_ilist (channels : nat) : mm ilist := b <-- new ;; mret (mkIlist b (repeat None channels)).
(** src/trax.c:2159-2169 trax_image_list_release: the images stay *)
Definition release_ilist (l : ilist) : mm unit := touch (il_block l) ;;; free (il_block l).
(** src/trax.c:2146-2157 trax_image_list_clear; 1178-1180 and 1318-1320 are the same loop *)
Definition clear_ilist (l : ilist) : mm unit :=
  touch (il_block l) ;;; each (fun i => match i with Some i => release_image i | None => mret tt end) (il_images l).
Record olist := mkOlist { ol_block : nat; ol_regions : nat; ol_properties : nat; ol_objects : list (option rgn * nat) }.
(** src/trax.c:2060-2063 *)
Fixpoint new_objects (n : nat) : mm (list (option rgn * nat)) :=
  match n with
  | O => mret []
  | S n => r <-- new ;; p <-- new ;; l <-- new_objects n ;; mret ((Some (mkRgn KSpecial r), p) :: l)
  end.
(** src/trax.c:2049-2067 trax_object_list_create *)
Definition new_olist (n : nat) : mm olist :=
  b <-- new ;; r <-- new ;; p <-- new ;; l <-- new_objects n ;; mret (mkOlist b r p l).
Definition release_object (o : option rgn * nat) : mm unit := release_region (fst o) ;;; free (snd o).
(** src/trax.c:2069-2082 trax_object_list_release *)
Definition release_olist (l : olist) : mm unit :=
  each release_object (ol_objects l) ;;; free (ol_regions l) ;;; free (ol_properties l) ;;; free (ol_block l).
(** src/trax.c:2085-2093 trax_object_list_set *)
Fixpoint set_object (l : list (option rgn * nat)) (i : nat) (r : option rgn) : mm (list (option rgn * nat)) :=
  match l, i with
  | [], _ => mret []
  | o :: l', O => release_region (fst o) ;;; c <-- clone_region r ;; mret ((c, snd o) :: l')
  | o :: l', S i => k <-- set_object l' i r ;; mret (o :: k)
  end.
Definition set_olist (l : olist) (i : nat) (r : option rgn) : mm olist :=
  k <-- set_object (ol_objects l) i r ;; mret (mkOlist (ol_block l) (ol_regions l) (ol_properties l) k).

(** ---- Metadata and handles ---- *)

Record mdata := mkMdata { d_block : nat; d_strings : list (option nat); d_custom : nat }.
(** src/trax.c:712-733 trax_metadata_create; [strings]: which of name, description and family are given *)
Fixpoint new_strings (l : list bool) : mm (list (option nat)) :=
  match l with [] => mret [] | b :: l' => s <-- new_if b ;; r <-- new_strings l' ;; mret (s :: r) end.
Definition new_mdata (strings : list bool) : mm mdata :=
  b <-- new ;; s <-- new_strings strings ;; c <-- new ;; mret (mkMdata b s c).
(** src/trax.c:735-749 trax_metadata_release *)
Definition release_mdata (d : mdata) : mm unit := each free_opt (d_strings d) ;;; free (d_custom d) ;;; free (d_block d).
(** trax_handle; [c_channels]: which channels the tracker uses; [c_regions]: the announced types of regions *)
Record conn := mkConn {
  c_block : nat;
  c_server : bool;
  c_dead : bool;
  c_v4 : bool;
  c_multi : bool;
  c_channels : list bool;
  c_regions : list rkind;
  c_objects : nat;
  c_error : option nat;
  c_stream : nat;
  c_meta : mdata
}.
Definition with_error (h : conn) (e : option nat) : conn :=
  mkConn (c_block h) (c_server h) (c_dead h) (c_v4 h) (c_multi h) (c_channels h) (c_regions h) (c_objects h) e (c_stream h) (c_meta h).
Definition with_objects (h : conn) (n : nat) : conn :=
  mkConn (c_block h) (c_server h) (c_dead h) (c_v4 h) (c_multi h) (c_channels h) (c_regions h) n (c_error h) (c_stream h) (c_meta h).
Definition killed (h : conn) : conn :=
  mkConn (c_block h) (c_server h) true (c_v4 h) (c_multi h) (c_channels h) (c_regions h) (c_objects h) (c_error h) (c_stream h) (c_meta h).
(** src/trax.c:530-537 clear_error *)
Definition drop_error (h : conn) : mm conn := touch (c_block h) ;;; free_opt (c_error h) ;;; mret (with_error h None).
(** src/trax.c:539-559 set_error, with a buffer for the text *)
Definition put_error (h : conn) : mm conn :=
  b <-- new ;; touch (c_block h) ;;; free_opt (c_error h) ;;; e <-- new ;; free b ;;; mret (with_error h (Some e)).
(** set_error and return TRAX_ERROR *)
Definition refuse (h : conn) : mm (Z * conn) := h <-- put_error h ;; mret (TRAX_ERROR, h).
(** src/trax.c:18-20 VALIDATE_SERVER_HANDLE and VALIDATE_CLIENT_HANDLE *)
Definition validate (h : conn) (server : bool) : mm unit :=
  touch (c_block h) ;;; if Bool.eqb (c_server h) server then mret tt else mfail Abort.
(** write_message on the stream of a handle *)
Definition write (h : conn) : mm unit := touch (c_block h) ;;; touch (c_stream h).

(** ---- Messages that arrive ---- *)

(** What region_parse makes of an argument: a failure, NULL (the empty string) or a region; what image_decode makes of it: NULL, or an
    image and whether its type was announced *)
Inductive parsed := PFail | PNull | PRegion (k : rkind).
Record arg := mkArg { a_image : option bool; a_region : parsed }.
Record amsg := mkMsg { g_code : Z; g_args : list arg }.
(** read_message; after the last message the stream has ended *)
Definition next_message (l : list amsg) : amsg * list amsg :=
  match l with [] => (mkMsg TRAX_ERROR [], []) | a :: l' => (a, l') end.
(** region_parse (src/region.c:326-499), with its array of numbers *)
Definition parse_region (p : parsed) : mm (bool * option rgn) :=
  match p with
  | PNull => mret (true, None)
  | PFail => d <-- new ;; free d ;;; mret (false, None)
  | PRegion k => d <-- new ;; x <-- new ;; free d ;;; mret (true, Some (mkRgn k x))
  end.

(** ---- Setting up and ending ---- *)

(** What client_setup finds: not a hello message, arguments, or a hello with these properties *)
Inductive hello := NoHello | HelloArgs | Hello (v2 region image channels : bool) (strings : list bool).
(** trax_properties_get of a text, strtok of it and free; strtok of NULL *)
Definition read_text (present : bool) : mm unit := if present then (x <-- new ;; free x) else mfail UB.
(** src/trax.c:561-643 client_setup *)
Definition setup_client (stream : nat) (v4 multi : bool) (channels : list bool) (regions : list rkind) (g : hello) : mm (option conn) :=
  b <-- new ;; p <-- new ;; a <-- new ;; touch stream ;;;
  match g with
  | Hello v2 region image chans strings =>
      read_text region ;;; read_text image ;;; (if v2 then read_text chans else mret tt) ;;;
      s <-- new_strings strings ;; d <-- new_mdata strings ;; each free_opt s ;;; free p ;;; free a ;;;
      mret (Some (mkConn b false false v4 multi channels regions 0 None stream d))
  | _ => free a ;;; free p ;;; free b ;;; mret None
  end.
(** src/trax.c:645-710 server_setup of a metadata structure with these texts *)
Definition setup_server (meta : mdata) (stream : nat) (v4 multi : bool) (channels : list bool) (regions : list rkind) : mm conn :=
  b <-- new ;; touch (d_custom meta) ;;; p <-- new ;; touch (d_block meta) ;;;
  d <-- new_mdata (map (fun s => match s with Some _ => true | None => false end) (d_strings meta)) ;;
  a <-- new ;; touch stream ;;; free p ;;; free a ;;;
  mret (mkConn b true false v4 multi channels regions 0 None stream d).
(** src/trax.c:1449-1476 trax_terminate *)
Definition end_session (h : conn) : mm conn :=
  h <-- drop_error h ;;
  if c_dead h then mret h
  else a <-- new ;; p <-- new ;; write h ;;; free a ;;; free p ;;; mret (killed h).
(** src/trax.c:1478-1496 trax_cleanup *)
Definition cleanup (h : conn) : mm unit :=
  h <-- end_session h ;; release_mdata (c_meta h) ;;; free (c_stream h) ;;; h <-- drop_error h ;; free (c_block h).

(** ---- The client's calls ---- *)

(** src/trax.c:788-846: the messages of one wait; [n] to go, [i] the position *)
Fixpoint wait_states (n i : nat) (h : conn) (code : Z) (ol : olist) (l : list amsg) : mm (Z * conn * option olist * list amsg) :=
  match n with
  | O => mret (code, h, Some ol, l)
  | S n =>
      p <-- new ;; a <-- new ;; touch (c_stream h) ;;;
      let '(g, l') := next_message l in
      if g_code g =? TRAX_STATE then
        match g_args g with
        | [x] =>
            r <-- parse_region (a_region x) ;;
            if fst r then
              ol <-- set_olist ol i (snd r) ;; release_region (snd r) ;;; free a ;;; free p ;;; wait_states n (S i) h TRAX_STATE ol l'
            else free a ;;; free p ;;; release_olist ol ;;; mret (TRAX_ERROR, h, None, l')
        | _ => free a ;;; free p ;;; release_olist ol ;;; mret (TRAX_ERROR, h, None, l')
        end
      else if g_code g =? TRAX_QUIT then
        match g_args g with
        | [] => free a ;;; free p ;;; release_olist ol ;;; mret (TRAX_QUIT, killed h, None, l')
        | _ => free a ;;; free p ;;; release_olist ol ;;; mret (TRAX_ERROR, h, None, l')
        end
      else if g_code g =? TRAX_ERROR then free a ;;; free p ;;; release_olist ol ;;; mret (TRAX_ERROR, h, None, l')
      else free a ;;; free p ;;; wait_states n (S i) h (g_code g) ol l'
  end.
(** src/trax.c:770-850 trax_client_wait *)
Definition await_states (h : conn) (l : list amsg) : mm (Z * conn * option olist * list amsg) :=
  validate h false ;;;
  if c_dead h then h <-- put_error h ;; mret (TRAX_ERROR, h, None, l)
  else ol <-- new_olist (c_objects h) ;; wait_states (c_objects h) 0 h TRAX_ERROR ol l.

Definition has_kind (k : rkind) (l : list rkind) : bool :=
  existsb (fun x => match k, x with KSpecial, KSpecial | KRect, KRect | KPoly, KPoly | KMask, KMask => true | _, _ => false end) l.
(** src/trax.c:447-460 region_autoconvert *)
Definition autoconvert (r : rgn) (supported : list rkind) : mm (option rgn) :=
  if has_kind KMask supported then convert_region r KMask
  else if has_kind KPoly supported then convert_region r KPoly
  else if has_kind KRect supported then convert_region r KRect
  else mret None.
(** src/trax.c:972-988 and 905-920: the text of a region into a list; list_append copies *)
Definition region_argument (h : conn) (r : option rgn) : mm unit :=
  match r with
  | None => mfail UB
  | Some r =>
      touch (g_block r) ;;;
      (if has_kind (g_kind r) (c_regions h) then s <-- new ;; free s
       else
         c <-- autoconvert r (c_regions h) ;;
         match c with
         | None => mfail Abort
         | Some c => s <-- new ;; release_region (Some c) ;;; free s
         end)
  end.
(** src/trax.c:968-992: one initialize message per object *)
Definition send_object (h : conn) (o : option rgn * nat) : mm unit :=
  a <-- new ;; region_argument h (fst o) ;;; touch (snd o) ;;; write h ;;; free a.
(** src/trax.c:1012-1022 and 889-899: the images; image_encode's text goes into the list.  false: one is missing *)
Fixpoint encode_images (chans : list bool) (images : list (option img)) : mm bool :=
  match chans, images with
  | true :: cs, Some i :: l => touch (j_block i) ;;; touch (j_data i) ;;; encode_images cs l
  | true :: _, _ => mret false
  | false :: cs, _ :: l => encode_images cs l
  | _, _ => mret true
  end.
(** src/trax.c:1008-1028 *)
Definition send_frame (h : conn) (images : ilist) : mm (Z * conn) :=
  a <-- new ;; touch (il_block images) ;;; ok <-- encode_images (c_channels h) (il_images images) ;;
  if ok : bool then write h ;;; free a ;;; mret (TRAX_OK, h)
  else h <-- put_error h ;; free a ;;; mret (TRAX_ERROR, h).
(** src/trax.c:947-1030 trax_client_frame *)
Definition frame (h : conn) (images : ilist) (objects : option olist) : mm (Z * conn) :=
  validate h false ;;;
  h <-- drop_error h ;;
  if c_dead h then refuse h
  else
    let l := match objects with Some o => ol_objects o | None => [] end in
    let n := List.length l in
    if c_v4 h then
      if Nat.ltb 1 (c_objects h + n) && negb (c_multi h) then refuse h
      else each (send_object h) l ;;; send_frame (with_objects h (c_objects h + n)) images
    else if Nat.ltb 0 n then refuse h
    else send_frame h images.
(** src/trax.c:852-945 trax_client_initialize *)
Definition initialize (h : conn) (images : ilist) (objects : olist) : mm (Z * conn) :=
  validate h false ;;;
  h <-- drop_error h ;;
  if c_dead h then refuse h
  else
    touch (ol_block objects) ;;;
    let n := List.length (ol_objects objects) in
    if Nat.ltb n 1 then refuse h
    else if negb (c_multi h) && Nat.ltb 1 n then refuse h
    else if c_v4 h then
      (if Nat.ltb 0 (c_objects h) then write h else mret tt) ;;; frame (with_objects h 0) images (Some objects)
    else
      match ol_objects objects with
      | [] => mfail UB
      | o :: _ =>
          if match fst o with Some r => match g_kind r with KSpecial => true | _ => false end | None => false end then mfail Abort
          else
            a <-- new ;; touch (il_block images) ;;; ok <-- encode_images (c_channels h) (il_images images) ;;
            if ok : bool then region_argument h (fst o) ;;; write h ;;; free a ;;; mret (TRAX_OK, with_objects h 1)
            else h <-- put_error h ;; free a ;;; mret (TRAX_ERROR, h)
      end.

(** ---- The server's calls ---- *)

(** src/trax.c:1264-1275 (and 1105-1116, 1146-1157): the images of a message; [false]: one was no image of an announced type *)
Fixpoint decode_list (chans : list bool) (args : list arg) : mm (bool * list (option img)) :=
  match chans with
  | [] => mret (true, [])
  | false :: cs => r <-- decode_list cs args ;; mret (fst r, None :: snd r)
  | true :: cs =>
      match args with
      | [] => mfail UB
      | x :: args' =>
          match a_image x with
          | None => mret (false, repeat None (List.length chans))
          | Some ok =>
              i <-- new_image ;;
              if ok : bool then r <-- decode_list cs args' ;; mret (fst r, Some i :: snd r)
              else mret (false, Some i :: repeat None (List.length cs))
          end
      end
  end.
Definition count_channels (l : list bool) : nat := List.length (filter (fun b => b) l).
(** src/trax.c:1174-1182 and 1314-1323: what a failure does to the images *)
Definition drop_images (l : option ilist) : mm unit := match l with Some l => clear_ilist l ;;; release_ilist l | None => mret tt end.
(** src/trax.c:1325-1328 *)
Definition drop_objects (l : list (option rgn * nat)) : mm unit := each release_object l.
(** src/trax.c:1334-1340: an object list with copies of the objects *)
Fixpoint move_objects (i : nat) (l : list (option rgn * nat)) (ol : olist) : mm olist :=
  match l with
  | [] => mret ol
  | o :: l' => ol <-- set_olist ol i (fst o) ;; touch (snd o) ;;; release_region (fst o) ;;; free (snd o) ;;; move_objects (S i) l' ol
  end.
Definition finish_objects (l : list (option rgn * nat)) : mm (option olist) :=
  match l with [] => mret None | _ => ol <-- new_olist (List.length l) ;; ol <-- move_objects 0 l ol ;; mret (Some ol) end.
(** src/trax.c:1310-1352 of trax_server_wait_mot: the label failure, and end.  [a], [p]: arguments and tmp_properties; [ra], [pa]:
    the two arrays *)
Definition mot_end (h : conn) (code : Z) (images : option ilist) (objs : list (option rgn * nat)) (a p ra pa : nat) (l : list amsg)
  : mm (Z * conn * option ilist * option olist * list amsg) :=
  ol <-- finish_objects objs ;; free a ;;; free p ;;; free ra ;;; free pa ;;;
  mret (code, with_objects h (c_objects h + List.length objs), images, ol, l).
Definition mot_failure (h : conn) (images : option ilist) (objs : list (option rgn * nat)) (a p ra pa : nat) (l : list amsg) :=
  drop_images images ;;; drop_objects objs ;;; mot_end h TRAX_ERROR None [] a p ra pa l.
(** src/trax.c:1221-1308: the loop of trax_server_wait_mot.  [objs]: the objects so far, [cap] the size of the arrays.  The empty
    initialize message goes on (line 1289) with the list and the properties in use *)
Fixpoint mot_loop (l : list amsg) (h : conn) (images : option ilist) (result : Z) (objs : list (option rgn * nat)) (cap ra pa : nat)
  : mm (Z * conn * option ilist * option olist * list amsg) :=
  p <-- new ;; a <-- new ;; touch (c_stream h) ;;;
  match l with
  | [] => mot_failure h images objs a p ra pa []
  | g :: l' =>
      if g_code g =? TRAX_ERROR then mot_failure h images objs a p ra pa l'
      else if g_code g =? TRAX_QUIT then
        match g_args g with
        | [] => mot_end (killed h) TRAX_QUIT images objs a p ra pa l'
        | _ => h <-- put_error h ;; mot_failure h images objs a p ra pa l'
        end
      else if g_code g =? TRAX_FRAME then
        if (result =? TRAX_INITIALIZE) && Nat.eqb (List.length objs) 0 then h <-- put_error h ;; mot_failure h images objs a p ra pa l'
        else
          let result' := if negb (result =? TRAX_INITIALIZE) || Nat.ltb 0 (c_objects h) then TRAX_FRAME else result in
          if negb (Nat.eqb (List.length (g_args g)) (count_channels (c_channels h))) then
            h <-- put_error h ;; mot_failure h images objs a p ra pa l'
          else
            il <-- new_ilist (List.length (c_channels h)) ;; r <-- decode_list (c_channels h) (g_args g) ;;
            let il := mkIlist (il_block il) (snd r) in
            if fst r then mot_end h result' (Some il) objs a p ra pa l'
            else mot_failure h (Some il) objs a p ra pa l'
      else if g_code g =? TRAX_INITIALIZE then
        match g_args g with
        | [] => mot_loop l' (with_objects h 0) images TRAX_INITIALIZE objs cap ra pa
        | [x] =>
            let grow := Nat.ltb cap (S (List.length objs)) in
            ra <-- (if grow then realloc ra else mret ra) ;; pa <-- (if grow then realloc pa else mret pa) ;;
            r <-- parse_region (a_region x) ;;
            if fst r then
              q <-- new ;; free a ;;; free p ;;;
              mot_loop l' h images TRAX_INITIALIZE (objs ++ [(snd r, q)]) (if grow then cap + 10 else cap)%nat ra pa
            else mot_failure h images objs a p ra pa l'
        | _ => h <-- put_error h ;; mot_failure h images objs a p ra pa l'
        end
      else free a ;;; free p ;;; mot_loop l' h images result objs cap ra pa
  end.
(** src/trax.c:1197-1353 trax_server_wait_mot; [images] is what the caller's variable holds *)
Definition wait_mot (h : conn) (images : option ilist) (l : list amsg) : mm (Z * conn * option ilist * option olist * list amsg) :=
  ra <-- new ;; pa <-- new ;; validate h true ;;; h <-- drop_error h ;;
  if c_dead h then h <-- put_error h ;; mret (TRAX_ERROR, h, images, None, l)
  else mot_loop l h images TRAX_ERROR [] 1 ra pa.

(** src/trax.c:1172-1194 of trax_server_wait_sot *)
Definition sot_end (h : conn) (code : Z) (images : option ilist) (region : option rgn) (a p : nat) (l : list amsg)
  : mm (Z * conn * option ilist * option rgn * list amsg) :=
  free a ;;; free p ;;; mret (code, h, images, region, l).
Definition sot_failure (h : conn) (images : option ilist) (region : option rgn) (a p : nat) (l : list amsg) :=
  drop_images images ;;; (match region with Some r => free (g_block r) | None => mret tt end) ;;; sot_end h TRAX_ERROR None None a p l.
(** src/trax.c:1073-1195 trax_server_wait_sot *)
Definition wait_sot (h : conn) (images : option ilist) (region : option rgn) (l : list amsg)
  : mm (Z * conn * option ilist * option rgn * list amsg) :=
  validate h true ;;;
  h <-- drop_error h ;;
  if c_dead h then h <-- put_error h ;; mret (TRAX_ERROR, h, images, region, l)
  else if c_v4 h then h <-- put_error h ;; mret (TRAX_ERROR, h, images, region, l)
  else
    p <-- new ;; a <-- new ;; touch (c_stream h) ;;;
    let '(g, l') := next_message l in
    let n := count_channels (c_channels h) in
    if g_code g =? TRAX_FRAME then
      if negb (Nat.eqb (List.length (g_args g)) n) then h <-- put_error h ;; sot_failure h images region a p l'
      else
        il <-- new_ilist (List.length (c_channels h)) ;; r <-- decode_list (c_channels h) (g_args g) ;;
        let il := mkIlist (il_block il) (snd r) in
        if fst r then sot_end h TRAX_FRAME (Some il) region a p l' else sot_failure h (Some il) region a p l'
    else if g_code g =? TRAX_QUIT then
      match g_args g with
      | [] => sot_end (killed h) TRAX_QUIT images region a p l'
      | _ => h <-- put_error h ;; sot_failure h images region a p l'
      end
    else if g_code g =? TRAX_INITIALIZE then
      if negb (Nat.eqb (List.length (g_args g)) (n + 1)) then h <-- put_error h ;; sot_failure h images region a p l'
      else
        il <-- new_ilist (List.length (c_channels h)) ;; r <-- decode_list (c_channels h) (g_args g) ;;
        let il := mkIlist (il_block il) (snd r) in
        if fst r then
          match nth_error (g_args g) n with
          | None => mfail UB
          | Some x =>
              q <-- parse_region (a_region x) ;;
              if fst q then sot_end (with_objects h 1) TRAX_INITIALIZE (Some il) (snd q) a p l'
              else sot_failure h (Some il) None a p l'
          end
        else sot_failure h (Some il) region a p l'
    else sot_failure h images region a p l'.

(** src/trax.c:1422-1429: one state message *)
Definition send_state (h : conn) (o : option rgn * nat) : mm unit :=
  match fst o with
  | None => mfail UB
  | Some r => touch (g_block r) ;;; s <-- new ;; a <-- new ;; touch (snd o) ;;; write h ;;; free s ;;; free a
  end.
(** src/trax.c:1391-1432 trax_server_reply_mot *)
Definition reply_mot (h : conn) (objects : olist) : mm (Z * conn) :=
  validate h true ;;;
  h <-- drop_error h ;;
  if c_dead h then refuse h
  else
    touch (ol_block objects) ;;;
    let n := List.length (ol_objects objects) in
    if negb (c_multi h) && negb (Nat.eqb n 1) then refuse h
    else if negb (Nat.eqb n (c_objects h)) then refuse h
    else each (send_state h) (ol_objects objects) ;;; mret (TRAX_OK, h).
(** src/trax.c:1356-1389 trax_server_reply_sot; [properties]: NULL or a set *)
Definition reply_sot (h : conn) (region : rgn) (properties : option nat) : mm (Z * conn) :=
  validate h true ;;;
  h <-- drop_error h ;;
  if c_dead h then refuse h
  else if c_v4 h then refuse h
  else
    touch (g_block region) ;;; s <-- new ;; a <-- new ;; (match properties with Some p => touch p | None => mret tt end) ;;;
    write h ;;; free s ;;; free a ;;; mret (TRAX_OK, h).
