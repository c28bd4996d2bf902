(** Specification of a CRC by its defining bit-serial shift register
    (least significant bit transmitted first, reflected generator polynomial). *)
From Verif Require Import Base.

(** One bit time: shift right; if the bit shifted out differs from the data bit, xor the
    generator in. *)
Definition lfsr (poly c : Z) (b : bool) : Z :=
  if xorb (Z.odd c) b then Z.lxor (Z.div2 c) poly else Z.div2 c.
Definition lfsr_run (poly c : Z) (l : list bool) : Z := fold_left (lfsr poly) l c.

(** Bits of a buffer in transmission order (each octet LSB first). *)
Definition wire (buf : list Z) : list bool := flat_map (bits_lsb 8) buf.

Definition crc16_poly := 0x8408.
Definition crc32_poly := 0xEDB88320.
Definition crc16 (buf : list Z) (c : Z) := lfsr_run crc16_poly c (wire buf).
Definition crc32 (buf : list Z) (c : Z) := lfsr_run crc32_poly c (wire buf).

(** Transmitted check octets: complement of the register, low octet first. *)
Definition fcs16 (buf : list Z) : list Z :=
  let c := 0xFFFF - crc16 buf 0xFFFF in [c mod 256; c / 256].
Definition fcs32 (buf : list Z) : list Z :=
  let c := 0xFFFFFFFF - crc32 buf 0xFFFFFFFF in
  [c mod 256; c / 256 mod 256; c / 65536 mod 256; c / 16777216].

(** Number of positions at which two bit strings differ. *)
Fixpoint ham (a b : list bool) : nat :=
  match a, b with
  | x :: a', y :: b' => (if Bool.eqb x y then 0 else 1) + ham a' b'
  | _, _ => 0
  end.

(** [burst w a b]: [a] and [b] have the same length, differ, and only within a window of [w] bits. *)
Definition burst (w : nat) (a b : list bool) : Prop :=
  exists p x y s, a = p ++ x ++ s /\ b = p ++ y ++ s /\ length x = length y
                  /\ (length x <= w)%nat /\ x <> y.
