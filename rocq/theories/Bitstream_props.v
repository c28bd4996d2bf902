(** Property C11: src/bitstream.c *)
From Verif Require Import Base Bits Bitstream_model Bitstream_spec Bitstream_proofs.

(** What is written is exactly the packed concatenation of the fields' low bits, zero padded to an octet. *)
Theorem bitstream_write_is_packed_bits :
  forall lsb fs, Forall (fun f => 0 <= snd f <= 25) fs ->
    write_fields lsb fs = Ok (pack_ord lsb (fields_bits lsb fs)).
Proof. exact write_ok. Qed.
Print Assumptions bitstream_write_is_packed_bits.
(** Exactly ceil(bits/8) octets. *)
Theorem bitstream_write_length :
  forall lsb fs l, Forall (fun f => 0 <= snd f <= 25) fs -> write_fields lsb fs = Ok l ->
    length l = ((length (fields_bits lsb fs) + 7) / 8)%nat.
Proof. exact write_length. Qed.
Print Assumptions bitstream_write_length.
(** Reading the same widths back returns every value (truncated to its width) and consumes all the octets. *)
Theorem bitstream_read_back :
  forall lsb fs, Forall (fun f => 0 <= snd f <= 25) fs ->
    exists l, write_fields lsb fs = Ok l /\
      read_fields lsb l (map snd fs) = Ok (map (fun f => fst f mod 2 ^ snd f) fs, []).
Proof. exact read_write. Qed.
Print Assumptions bitstream_read_back.
Example bitstream_case_lsb : write_fields true [(5, 3); (0x1FF, 9); (0, 0); (0x1ABCDEF, 25)] = Ok [253; 255; 222; 188; 26]
  /\ read_fields true [253; 255; 222; 188; 26] [3; 9; 0; 25] = Ok ([5; 0x1FF; 0; 0x1ABCDEF], []).
Proof. vm_compute. auto. Qed.
Example bitstream_case_msb : exists l, write_fields false [(5, 3); (0x1FF, 9); (0, 0); (0x1ABCDEF, 25)] = Ok l
  /\ read_fields false l [3; 9; 0; 25] = Ok ([5; 0x1FF; 0; 0x1ABCDEF], []).
Proof. exists [191; 253; 94; 111; 120]. vm_compute. auto. Qed.

(** The function's own argument check is residue + bits <= 32, and it takes widths up to 32: a field of 26..30 bits
    written after 7 pending bits is silently lost, so the round trip does not extend beyond 25 bits. *)
Theorem bitstream_wide_field_refuted :
  exists lsb v w, 0 <= w <= 30 /\
    exists l, write_fields lsb [(0x55, 7); (v, w); (1, 1)] = Ok l /\ length l = 1%nat.
Proof. exact wide_field. Qed.
Print Assumptions bitstream_wide_field_refuted.
(** A width of 31 or 32, allowed by the 32 bit accumulator, is an undefined shift. *)
Theorem bitstream_width_32_refuted :
  forall lsb v, write_fields lsb [(v, 32)] = UB.
Proof. exact width_32. Qed.
Print Assumptions bitstream_width_32_refuted.
