(** Specification vocabulary for fax image coding: rows of pixels and their changing elements. *)
From Verif Require Import Base Bits T4_tables.

(** The positions at which the colour changes, scanning from position [p] with current colour [c] (true = black). *)
Fixpoint changes (c : bool) (p : Z) (l : list bool) : list Z :=
  match l with
  | [] => []
  | b :: t => if Bool.eqb b c then changes c (p + 1) t else p :: changes b (p + 1) t
  end.
(** The pixels of a row held in octets, leftmost pixel in the most significant bit. *)
Definition pixels (w : Z) (row : list Z) : list bool := firstn (Z.to_nat w) (unpack_msb row).
(** The changing elements of a row, starting from an imaginary white element, closed by the row's width. *)
Definition transitions (w : Z) (row : list Z) : list Z := changes false 0 (pixels w row) ++ [w].
(** A row of a [w] pixel wide image. *)
Definition row_ok (w : Z) (row : list Z) : Prop := bytes row /\ Z.of_nat (length row) = (w + 7) / 8.
