(** The sizes in the headers of three kinds of image files. *)
From Verif Require Import CBase Num ImageSize.
Local Open Scope Z_scope.

Definition octet (z : Z) : N := Z.to_N z.
Definition be16 (z : Z) : list N := [octet (z / 256); octet (z mod 256)].
Definition le16 (z : Z) : list N := [octet (z mod 256); octet (z / 256)].
Definition be32 (z : Z) : list N := [octet (z / 16777216); octet (z / 65536 mod 256); octet (z / 256 mod 256); octet (z mod 256)].
(** PNG: signature, a chunk IHDR that begins with width and height (PNG allows 1 to 2^31-1) *)
Definition png_file (w h : Z) (rest : list N) : list N := [137; 80; 78; 71; 13; 10; 26; 10; 0; 0; 0; 13; 73; 72; 68; 82]%N ++ be32 w ++ be32 h ++ rest.
(** GIF: name and version, width and height *)
Definition gif_file (version : list N) (w h : Z) (rest : list N) : list N := [71; 73; 70]%N ++ version ++ le16 w ++ le16 h ++ rest.
(** JPEG: a start marker, segments (marker and contents) and among them the frame header with height and width *)
Definition segment (m : Z) (contents : list N) : list N := [255%N; octet m] ++ be16 (Z.of_nat (List.length contents) + 2) ++ contents.
(** markers of frame headers: baseline, extended, progressive and lossless, with Huffman and with arithmetic coding *)
Definition frame_markers : list Z := [192; 193; 194; 195; 201; 202; 203].
Definition segment_ok (s : Z * list N) : Prop := 0 <= fst s < 256 /\ ~ In (fst s) frame_markers /\ Z.of_nat (List.length (snd s)) < 65534.
Definition jpeg_file (jfif : list N) (segments : list (Z * list N)) (marker len : Z) (precision : N) (w h : Z) (rest : list N) : list N :=
  [255; 216]%N ++ segment 224 ([74; 70; 73; 70]%N ++ jfif) ++ concat (map (fun s => segment (fst s) (snd s)) segments) ++
  [255%N; octet marker] ++ be16 len ++ [precision] ++ be16 h ++ be16 w ++ rest.
