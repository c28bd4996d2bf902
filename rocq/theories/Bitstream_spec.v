(** Specification of a packed bit stream: the fields' bits one after the other, in the chosen bit order, cut into
    octets, the last one padded with zero bits. *)
From Verif Require Import Base Bits.
Definition field_bits (lsb : bool) (f : Z * Z) : list bool :=
  if lsb then bits_lsb (Z.to_nat (snd f)) (fst f) else bits_msb (Z.to_nat (snd f)) (fst f).
Definition fields_bits lsb fs := flat_map (field_bits lsb) fs.
Definition pack_ord (lsb : bool) (l : list bool) := if lsb then pack_lsb l else pack_msb l.
