(** Specification for C122: when the evaluation client counts a frame as a failure. *)
From Verif Require Import CBase Num NumSpec Region RegionSpec RegionGeom GeomSpec ImageSize ImageSizeSpec Cli CliSpec Criterion.
Local Open Scope Z_scope.

(** ---- sizes of images ---- *)
Inductive sized : picture -> Z -> Z -> Prop :=
| sized_memory w h : sized (PMemory w h) w h
| sized_png w h rest : sized (PPath (Some (png_file w h rest))) w h
| sized_png_data w h rest : sized (PBuffer (png_file w h rest)) w h
| sized_gif version w h rest : List.length version = 3%nat -> w < 65536 -> h < 65536 -> (14 <= List.length rest)%nat -> sized (PPath (Some (gif_file version w h rest))) w h
| sized_jpeg jfif segments marker len precision w h rest : (2 <= List.length jfif)%nat -> Z.of_nat (List.length jfif) < 65530 -> Forall segment_ok segments ->
    In marker frame_markers -> (3 <= List.length rest)%nat -> w < 65536 -> h < 65536 -> sized (PPath (Some (jpeg_file jfif segments marker len precision w h rest))) w h.

(** ---- the pixels that count ---- *)
(** Boxes of pixels, both ends included *)
Record box := mkBox { b_left : Z; b_top : Z; b_right : Z; b_bottom : Z }.
Definition in_box (b : box) (X Y : Z) : Prop := b_left b <= X <= b_right b /\ b_top b <= Y <= b_bottom b.
(** With bounds: from 0 up to width and height of the image, both included.  Without: everything (regions are within 2^21) *)
Definition visible (bounded : bool) (image : picture) (v : box) : Prop :=
  if bounded then exists w h, sized image w h /\ 0 <= w <= 2 ^ 21 /\ 0 <= h <= 2 ^ 21 /\ v = mkBox 0 0 w h
  else v = mkBox (- 2 ^ 21) (- 2 ^ 21) (2 ^ 21) (2 ^ 21).
Definition common_box (p q : box) : box := mkBox (Z.max (b_left p) (b_left q)) (Z.max (b_top p) (b_top q)) (Z.min (b_right p) (b_right q)) (Z.min (b_bottom p) (b_bottom q)).
(** At least two pixels wide and high *)
Definition wide (b : box) : Prop := b_left b < b_right b /\ b_top b < b_bottom b.
Definition apart_boxes (p q : box) : Prop := let c := common_box p q in b_right c < b_left c \/ b_bottom c < b_top c.
Definition small_hull (p q : box) : Prop :=
  (Z.max (b_right p) (b_right q) - Z.min (b_left p) (b_left q) + 1) * (Z.max (b_bottom p) (b_bottom q) - Z.min (b_top p) (b_top q) + 1) <= 2 ^ 23.
Definition boxed (S : Z -> Z -> Prop) (b : box) : Prop := tight_box S (b_left b) (b_top b) (b_right b) (b_bottom b) /\
  - 2 ^ 21 <= b_left b /\ b_right b <= 2 ^ 21 /\ - 2 ^ 21 <= b_top b /\ b_bottom b <= 2 ^ 21.
(** Two regions with pixels S1 and S2 (masks, or rectangles with integer sides) whose visible boxes are at least two pixels wide and high,
    not too large, and either share an area as large as that or nothing *)
Definition comparable (v : box) (g1 g2 : region) (S1 S2 : Z -> Z -> Prop) : Prop :=
  covers g1 S1 /\ covers g2 S2 /\ exists p q, boxed S1 p /\ boxed S2 q /\
    let p' := common_box p v in let q' := common_box q v in
    wide p' /\ wide q' /\ small_hull p' q' /\ (wide (common_box p' q') \/ apart_boxes p' q') /\ exists X Y, (S1 X Y \/ S2 X Y) /\ in_box v X Y.
(** [a] visible pixels are common to both, [n] are in one of them *)
Definition jaccard (v : box) (S1 S2 : Z -> Z -> Prop) (a n : Z) : Prop :=
  exists both either, enumerates both (fun X Y => S1 X Y /\ S2 X Y /\ in_box v X Y) /\ enumerates either (fun X Y => (S1 X Y \/ S2 X Y) /\ in_box v X Y) /\
    a = Z.of_nat (List.length both) /\ n = Z.of_nat (List.length either).

(** ---- the criterion ---- *)
(** There is a threshold t, and a / n is at most t; at most t and 2^-25 *)
Definition at_most (t : spec_float) (a n : Z) : Prop := finite_float t /\ 0 <= units t /\ a * 2 ^ 1074 <= units t * n.
Definition near_most (t : spec_float) (a n : Z) : Prop := finite_float t /\ 0 <= units t /\ a * 2 ^ 1074 * 2 ^ 25 <= (units t * 2 ^ 25 + 2 ^ 1074) * n.
(** What the option -f means: nothing, a number that is none, or a number between 0 and 1 *)
Definition proper (t : spec_float) : Prop := t = S754_nan \/ finite_float t /\ units t <= 2 ^ 1074.
(** The number t as a fraction p / 2^k *)
Definition is_fraction (t : spec_float) (p k : Z) : Prop := finite_float t /\ 0 <= k <= 24 /\ units t * 2 ^ k = p * 2 ^ 1074.

(** Reference and state of a frame can be compared; the frame is lost, or it is not *)
Definition assessable (s : settings) (image : picture) (reference : option region) (r : region) : Prop :=
  match reference with
  | Some g => exists v S1 S2, visible (s_bounded s) image v /\ comparable v g r S1 S2
  | None => s_bounded s = true -> exists w h, sized image w h /\ 0 <= w <= 2 ^ 21 /\ 0 <= h <= 2 ^ 21
  end.
Definition lost (s : settings) (image : picture) (reference : option region) (r : region) : Prop :=
  match reference with
  | Some g => exists v S1 S2 a n, visible (s_bounded s) image v /\ comparable v g r S1 S2 /\ jaccard v S1 S2 a n /\ near_most (s_threshold s) a n
  | None => at_most (s_threshold s) 0 1
  end.
Definition kept (s : settings) (image : picture) (reference : option region) (r : region) : Prop :=
  match reference with
  | Some g => exists v S1 S2 a n, visible (s_bounded s) image v /\ comparable v g r S1 S2 /\ jaccard v S1 S2 a n /\ ~ at_most (s_threshold s) a n
  | None => ~ at_most (s_threshold s) 0 1
  end.

(** ---- evaluation ---- *)
(** The tracker has to be started; it runs since frame [start]; it rests; it is not started again *)
Inductive mode := Fresh | Tracking (start : nat) | Resting (frames_left : nat) | Ended.
Definition after_loss (reinitialize : nat) : mode := match reinitialize with O => Ended | S O => Fresh | S n => Resting n end.
(** The entries for [n] frames beginning with frame [f].  0: no tracking, 1: the tracker was started, 2: failure.  [state start f r]: the tracker
    started at [start] reports r at [f] *)
Inductive judged_run (initial : nat -> option region) (state : nat -> nat -> region -> Prop) (loses keeps : nat -> nat -> Prop) (reinitialize : nat) :
  nat -> nat -> mode -> list (option region) -> Prop :=
| run_end f m : judged_run initial state loses keeps reinitialize O f m []
| run_absent n f l : initial f = None -> judged_run initial state loses keeps reinitialize n (S f) Fresh l ->
    judged_run initial state loses keeps reinitialize (S n) f Fresh (special 0 :: l)
| run_start n f l : initial f <> None -> keeps f f -> judged_run initial state loses keeps reinitialize n (S f) (Tracking f) l ->
    judged_run initial state loses keeps reinitialize (S n) f Fresh (special 1 :: l)
| run_start_lost n f l : initial f <> None -> loses f f -> judged_run initial state loses keeps reinitialize n (S f) (after_loss reinitialize) l ->
    judged_run initial state loses keeps reinitialize (S n) f Fresh (special 2 :: l)
| run_kept n f start r l : keeps start f -> state start f r -> judged_run initial state loses keeps reinitialize n (S f) (Tracking start) l ->
    judged_run initial state loses keeps reinitialize (S n) f (Tracking start) (Some r :: l)
| run_lost n f start l : loses start f -> judged_run initial state loses keeps reinitialize n (S f) (after_loss reinitialize) l ->
    judged_run initial state loses keeps reinitialize (S n) f (Tracking start) (special 2 :: l)
| run_rest n f k l : judged_run initial state loses keeps reinitialize n (S f) (match k with S (S k') => Resting (S k') | _ => Fresh end) l ->
    judged_run initial state loses keeps reinitialize (S n) f (Resting k) (special 0 :: l)
| run_over n f l : judged_run initial state loses keeps reinitialize n (S f) Ended l ->
    judged_run initial state loses keeps reinitialize (S n) f Ended (special 0 :: l).

(** Rectangles and settings for examples *)
Definition block_at (x y w h : Z) : region := RRect (float_of_int x) (float_of_int y) (float_of_int w) (float_of_int h).
Definition with_threshold (t : list N) : settings := read_settings (Some t) None None.
Definition with_bounds (t : list N) : settings := read_settings (Some t) (Some (str "TRUE")) None.
Definition block_pixels (x y w h X Y : Z) : Prop := x <= X < x + w /\ y <= Y < y + h.
(** Three frames: the tracker drifts away and has lost the object in the third *)
Definition drift_truth : list (option region) := [Some (block_at 0 0 8 8); Some (block_at 0 0 8 8); Some (block_at 0 0 8 8); None; Some (block_at 4 4 8 8)].
Definition drift_tracker (f : nat) : answer := State (nth f [block_at 0 0 8 8; block_at 2 0 8 8; block_at 6 0 8 8; block_at 0 0 2 2; block_at 4 4 8 8] (RSpecial 0)).
