(** Properties C06, C07: src/bit_operations.c, src/spandsp/bit_operations.h *)
From Verif Require Import Base BitOps_model BitOps_spec BitOps_proofs.

(** C06 *)
Theorem bit_reverse8_mirrors : forall x, 0 <= x < 256 -> bit_reverse8 x = mirror 8 x /\ bit_reverse8_slow x = mirror 8 x.
Proof. exact rev_octet_ok. Qed.
Print Assumptions bit_reverse8_mirrors.
Theorem bit_reverse16_mirrors : forall x, 0 <= x < 65536 -> bit_reverse16 x = mirror 16 x.
Proof. exact rev16_ok. Qed.
Print Assumptions bit_reverse16_mirrors.
Theorem bit_reverse32_mirrors : forall x, 0 <= x < 4294967296 -> bit_reverse32 x = mirror 32 x.
Proof. exact rev32_ok. Qed.
Print Assumptions bit_reverse32_mirrors.
Theorem bit_reverse_4bytes_mirrors : forall x, 0 <= x < 2 ^ 32 -> bit_reverse_4bytes x = mirror_octets 4 x.
Proof. exact rev4_ok. Qed.
Print Assumptions bit_reverse_4bytes_mirrors.
Theorem bit_reverse_8bytes_mirrors : forall x, 0 <= x < 2 ^ 64 -> bit_reverse_8bytes x = mirror_octets 8 x.
Proof. exact rev8_ok. Qed.
Print Assumptions bit_reverse_8bytes_mirrors.
Theorem bit_reverse_buffer : forall to from n,
  bytes from -> (n <= length from)%nat -> (n <= length to)%nat -> Z.of_nat n < 2 ^ 31 ->
  bit_reverse to from (Z.of_nat n) = Ok (map (mirror 8) (firstn n from) ++ skipn n to).
Proof. exact bit_reverse_ok. Qed.
Print Assumptions bit_reverse_buffer.
(** A negative length is converted to an unsigned 64 bit value and overruns the buffers. *)
Theorem bit_reverse_negative_len_refuted : exists to from, bit_reverse to from (-1) = UB.
Proof. exact c06_neg. Qed.
Print Assumptions bit_reverse_negative_len_refuted.
Example bit_reverse_case :
  bit_reverse [9;9;9;9;9;9;9;9;9;9;9;9;9;9;7] [1;2;3;4;5;6;7;8;9;10;11;12;13;14] 14
  = Ok [128;64;192;32;160;96;224;16;144;80;208;48;176;112;7] /\ mirror 8 1 = 128 /\ mirror_octets 4 0x01020380 = 0x8040C001.
Proof. vm_compute. auto. Qed.

(** C07 *)
Theorem top_bit_is_highest : forall x t, 0 <= t < 32 -> 2 ^ t <= x < 2 ^ (t + 1) -> top_bit x = t.
Proof. exact top_bit_ok. Qed.
Print Assumptions top_bit_is_highest.
Theorem top_bit_zero : top_bit 0 = -1.
Proof. exact top_bit_0. Qed.
Print Assumptions top_bit_zero.
Theorem bottom_bit_is_lowest : forall x t y, 0 <= t < 32 -> x = 2 ^ t * (2 * y + 1) -> 0 < x < 2 ^ 32 -> bottom_bit x = t.
Proof. exact bottom_bit_ok. Qed.
Print Assumptions bottom_bit_is_lowest.
Theorem bottom_bit_zero : bottom_bit 0 = -1.
Proof. exact bottom_bit_0. Qed.
Print Assumptions bottom_bit_zero.
(** Every non-zero 32 bit word is covered by the two theorems above. *)
Theorem top_bit_total : forall x, 0 < x < 2 ^ 32 -> exists t, 0 <= t < 32 /\ 2 ^ t <= x < 2 ^ (t + 1).
Proof. exact exists_top. Qed.
Print Assumptions top_bit_total.
Theorem bottom_bit_total : forall x, 0 < x < 2 ^ 32 -> exists t y, 0 <= t < 32 /\ x = 2 ^ t * (2 * y + 1).
Proof. exact exists_bottom. Qed.
Print Assumptions bottom_bit_total.
Theorem one_bits32_counts : forall x, 0 <= x < 4294967296 -> one_bits32 x = ones_count (bits_lsb 32 x).
Proof. exact one_bits32_ok. Qed.
Print Assumptions one_bits32_counts.
Theorem parity8_is_parity : forall x, 0 <= x < 256 -> parity8 x = ones_count (bits_lsb 8 x) mod 2.
Proof. exact parity8_ok. Qed.
Print Assumptions parity8_is_parity.
Theorem parity16_is_parity : forall x, parity16 x = ones_count (bits_lsb 16 x) mod 2.
Proof. exact parity16_ok. Qed.
Print Assumptions parity16_is_parity.
Theorem parity32_is_parity : forall x, parity32 x = ones_count (bits_lsb 32 x) mod 2.
Proof. exact parity32_ok. Qed.
Print Assumptions parity32_is_parity.
Theorem make_mask32_fills : forall x t, 0 <= t < 32 -> 2 ^ t <= x < 2 ^ (t + 1) -> make_mask32 x = 2 ^ (t + 1) - 1.
Proof. exact mask32_ok. Qed.
Print Assumptions make_mask32_fills.
Theorem make_mask16_fills : forall x t, 0 <= t < 16 -> 2 ^ t <= x < 2 ^ (t + 1) -> make_mask16 x = 2 ^ (t + 1) - 1.
Proof. exact mask16_ok. Qed.
Print Assumptions make_mask16_fills.
Theorem make_mask_zero : make_mask32 0 = 0 /\ make_mask16 0 = 0.
Proof. exact mask_0. Qed.
Print Assumptions make_mask_zero.
Theorem most_significant_one32_isolates_partial : forall x t, 0 <= t < 31 -> 2 ^ t <= x < 2 ^ (t + 1) ->
  most_significant_one32 x = Ok (2 ^ t).
Proof. exact msone_ok. Qed.
Print Assumptions most_significant_one32_isolates_partial.
Theorem most_significant_one32_slow_isolates : forall x t, 0 <= t < 32 -> 2 ^ t <= x < 2 ^ (t + 1) ->
  most_significant_one32_slow x = 2 ^ t.
Proof. exact msone_slow_ok. Qed.
Print Assumptions most_significant_one32_slow_isolates.
Theorem least_significant_one32_isolates_partial : forall x t y, 0 <= t < 32 -> x = 2 ^ t * (2 * y + 1) -> 0 < x < 2 ^ 32 -> x <> 2 ^ 31 ->
  least_significant_one32 x = Ok (2 ^ t).
Proof. exact c07_lsone. Qed.
Print Assumptions least_significant_one32_isolates_partial.
(** The excluded arguments really are undefined in C: shift by -1, shift into the sign bit, negation of INT_MIN. *)
Theorem significant_one32_refuted :
  most_significant_one32 0 = UB /\ most_significant_one32 0x80000000 = UB /\ least_significant_one32 0x80000000 = UB.
Proof. exact c07_msone_bad. Qed.
Print Assumptions significant_one32_refuted.
Example bitops_case : top_bit 0x12340 = 16 /\ bottom_bit 0x12340 = 6 /\ one_bits32 0xF0F00001 = 9 /\ parity32 0xF0F00001 = 1
  /\ make_mask32 0x12340 = 0x1FFFF /\ 2 ^ 16 <= 0x12340 < 2 ^ (16 + 1) /\ 0x12340 = 2 ^ 6 * (2 * 582 + 1) /\ least_significant_one32 0x12340 = Ok 64.
Proof. vm_compute. repeat split; congruence. Qed.
