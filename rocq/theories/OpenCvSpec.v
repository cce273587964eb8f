(** Specification for the conversions to and from OpenCV: what a matrix holds *)
From Coq Require Import Floats.SpecFloat.
From Verif Require Import CBase Buffer Num NumSpec OpenCv.
Local Open Scope Z_scope.

Definition channels (k : kind) : Z := match k with U8C3 => 3 | U8C1 => 1 | U16C1 => 2 | OtherKind => 4 end.
(** Byte [k] of the element in row [r] and column [c]; None if it was never set *)
Definition byte_at (m : mat) (r c k : Z) : option N :=
  nth (Z.to_nat (m_start m + r * m_step m + c * channels (m_kind m) + k)) (m_block m) None.
Definition inside (m : mat) (r c : Z) : Prop := 0 <= r < m_rows m /\ 0 <= c < m_cols m.
(** All elements lie in the memory of the matrix *)
Definition mat_ok (m : mat) : Prop :=
  0 < m_rows m /\ 0 < m_cols m /\
  forall r c, inside m r c ->
    0 <= m_start m + r * m_step m + c * channels (m_kind m) /\
    m_start m + r * m_step m + c * channels (m_kind m) + channels (m_kind m) <= Z.of_nat (List.length (m_block m)).
(** Rows follow each other without gaps *)
Definition continuous (m : mat) : Prop := m_rows m = 1 \/ m_step m = m_cols m * channels (m_kind m).
Definition same_size (a b : mat) : Prop := m_rows a = m_rows b /\ m_cols a = m_cols b /\ m_kind a = m_kind b.
(** Channel [k] of the pixel in row [r] and column [c] of the pixels of an image with three channels and the given width *)
Definition image_channel (data : block N) (width r c k : Z) : option N := nth (Z.to_nat ((r * width + c) * 3 + k)) data None.
(** The nearest integer *)
Definition nearest (z : Z) (x : spec_float) : Prop := 2 * Z.abs (z * 2 ^ 1074 - units x) <= 2 ^ 1074.
