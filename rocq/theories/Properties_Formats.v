(** Properties C33, C34 and the counting part of C41: sets of formats and channels. *)
From Verif Require Import CBase Image Formats FormatsSpec FormatsProofs.
Local Open Scope Z_scope.

(** C33.  Any set of image formats: the announcement stands for the same set of announceable formats (bits 0 to 3:
    path, url, memory, buffer). *)
Theorem image_formats_announced : forall z, exists t z', image_formats_encode z = Ok t /\ image_formats_decode (Some t) = Ok z' /\
  forall b, 0 <= b -> Z.testbit z' b = (b <? 4) && Z.testbit z b.
Proof. exact image_formats_bits. Qed.
Print Assumptions image_formats_announced.

(** C33, region formats (bits 1 to 3: rectangle, polygon, mask) *)
Theorem region_formats_announced : forall z, exists t z', region_formats_encode z = Ok t /\ region_formats_decode (Some t) = Ok z' /\
  forall b, 0 <= b -> Z.testbit z' b = (1 <=? b) && (b <? 4) && Z.testbit z b.
Proof. exact region_formats_bits. Qed.
Print Assumptions region_formats_announced.

(** C33, channels (bits 0 to 2: color, depth, ir) *)
Theorem channels_announced : forall z, exists t z', channels_encode z = Ok t /\ channels_decode (Some t) = Ok z' /\
  forall b, 0 <= b -> Z.testbit z' b = (b <? 3) && Z.testbit z b.
Proof. exact channels_bits. Qed.
Print Assumptions channels_announced.

Example formats_announced_nonvacuous :
  image_formats_encode 13 = Ok (str "path;memory;buffer;") /\ image_formats_decode (Some (str "path;memory;buffer;")) = Ok 13 /\
  region_formats_encode 15 = Ok (str "rectangle;polygon;mask;") /\ region_formats_decode (Some (str "rectangle;polygon;mask;")) = Ok 14 /\
  channels_encode 5 = Ok (str "color;ir;") /\ channels_decode (Some (str "color;ir;")) = Ok 5.
Proof. repeat match goal with |- _ /\ _ => split end; reflexivity. Qed.

(** C34, partial: a list of known names separated by semicolons, in any order and with any repetitions, stands for exactly
    the formats it names.  Missing: lists with an unknown name (false, below); lists with spaces. *)
Theorem known_names_partial : forall names text, names = image_names \/ names = region_names \/ names = channel_names -> ~ In 32%N text ->
  (forall n, In n (names_of text) -> exists b, In (n, b) names) ->
  exists z, names_decode names (Some text) = Ok z /\ denotes names text z.
Proof. exact known_list_decoded. Qed.
Print Assumptions known_names_partial.

Example known_names_nonvacuous : names_of (str ";mask;rectangle;;mask") = [str "mask"; str "rectangle"; str "mask"] /\
  region_formats_decode (Some (str ";mask;rectangle;;mask")) = Ok 10.
Proof. split; reflexivity. Qed.

(** C34 is violated by every list with an unknown name: all formats are then taken to be supported. *)
Theorem unknown_name_refuted : forall names text n, names = image_names \/ names = region_names \/ names = channel_names -> ~ In 32%N text ->
  In n (names_of text) -> (forall b, ~ In (n, b) names) ->
  names_decode names (Some text) = Ok (-1) /\ forall b, 0 <= b -> supports (-1) (2 ^ b) = true.
Proof. exact unknown_name_everything. Qed.
Print Assumptions unknown_name_refuted.

(** Among these lists are the format name data and the comma-separated channel lists of docs/protocol.rst. *)
Example unknown_name_nonvacuous : image_formats_decode (Some (str "path;data;")) = Ok (-1) /\
  channels_decode (Some (str "color,depth")) = Ok (-1) /\ region_formats_decode (Some (str "rectangle;ellipse;")) = Ok (-1).
Proof. repeat match goal with |- _ /\ _ => split end; reflexivity. Qed.

(** C41, counting: the number of bits set. *)
Theorem channel_count : forall z, 0 <= z <= INT_MAX -> image_list_count z = Ok (Z.of_nat (popcount32 z)).
Proof. exact image_list_count_ok. Qed.
Print Assumptions channel_count.

Example channel_count_nonvacuous : image_list_count 5 = Ok 2 /\ popcount32 5 = 2%nat /\ image_list_count INT_MAX = Ok 31.
Proof. repeat match goal with |- _ /\ _ => split end; vm_compute; reflexivity. Qed.
