(** Properties of the T.4 and T.6 fax image coders. *)
From Verif Require Import Base Bits T4_tables T4_enc_model T4_dec_model T4_drive T4_spec T4_runs_proofs T4_trip_proofs.
Local Open Scope Z_scope.

(** C33: whatever the rows, the compressed page is a fixed octet string [P]; reading it in pieces of any size
    yields consecutive parts of it; and a decompressor given [P] in any pieces, then told that the page has ended,
    hands on exactly the rows that were compressed.  Every piece but the last leaves the decompressor asking for
    more. *)
Theorem fax_lossless :
  forall en w min_bits max_2d j1 j2 rows,
    en = T4_1D \/ en = T4_2D \/ en = T6 -> 0 < w -> w mod 8 = 0 -> 0 <= min_bits <= 7 * w - 4 ->
    Z.of_nat (length j1) = w + 4 -> Z.of_nat (length j2) = w + 4 -> Forall (row_ok w) rows ->
    exists s0 P, start_page en w min_bits max_2d j1 j2 = Ok s0 /\ bytes P /\
      (forall sizes, exists s rows', get_pieces s0 rows sizes =
         Ok (s, rows', firstn (Z.to_nat (fold_right (fun n t => Z.max 0 n + t) 0 sizes)) P)) /\
      (forall pieces, concat pieces = P -> Forall (fun p => p <> []) pieces ->
         exists s last s', feed_pieces (dec_init en w) pieces = Ok (s, repeat 0 (length pieces - 1) ++ [last]) /\
           (last = 0 \/ last = -1) /\
           dec_put s [] = Ok (s', -1) /\ written s' = map Some rows ++ [None] /\
           i_bad (d_img s') = 0 /\ i_length (d_img s') = Z.of_nat (length rows)).
Proof. exact fax_trip_page. Qed.
Print Assumptions fax_lossless.
(** C33, one bit at a time: the compressor's bits, up to and including its end of data status, given to the
    decompressor. *)
Theorem fax_lossless_bits :
  forall en w min_bits max_2d j1 j2 rows,
    en = T4_1D \/ en = T4_2D \/ en = T6 -> 0 < w -> w mod 8 = 0 -> 0 <= min_bits <= 7 * w - 4 ->
    Z.of_nat (length j1) = w + 4 -> Z.of_nat (length j2) = w + 4 -> Forall (row_ok w) rows ->
    exists s0 n s rows' bits d, start_page en w min_bits max_2d j1 j2 = Ok s0 /\
      get_bits (S n) s0 rows = Ok (s, rows', bits ++ [-7]) /\ Forall (fun b => b = 0 \/ b = 1) bits /\
      feed_bits (dec_init en w) (bits ++ [-7]) = Ok d /\ written d = map Some rows ++ [None] /\
      i_bad (d_img d) = 0 /\ i_length (d_img d) = Z.of_nat (length rows).
Proof. exact fax_bit_trip. Qed.
Print Assumptions fax_lossless_bits.
(** A page of 32 pixel rows, in each of the three encodings. *)
Definition sample_rows : list (list Z) :=
  [[0;0;0;0]; [255;255;0;3]; [1;2;3;4]; [0xaa;0x55;0xaa;0x55]; [0xaa;0x54;0xea;0x55]; [0;0;0x80;0]; [255;255;255;255]].
Definition sample (en w min_bits max_2d : Z) (rows : list (list Z)) : res (list Z * list (option (list Z))) :=
  do s <- start_page en w min_bits max_2d (repeat 777 (Z.to_nat (w + 4))) (repeat 777 (Z.to_nat (w + 4)));
  do (s, rest, out) <- get_pieces s rows [3; 0; 50; 1000];
  do (d, l) <- feed_pieces (dec_init en w) [firstn 7 out; skipn 7 out; []];
  Ok (firstn 6 out, written d).
Example fax_lossless_1d :
  sample T4_1D 32 0 2 sample_rows = Ok ([0; 136; 13; 128; 172; 160], map Some sample_rows ++ [None]) /\
  sample T4_2D 32 60 4 sample_rows = Ok ([0; 24; 27; 0; 0; 0], map Some sample_rows ++ [None]) /\
  sample T6 32 0 4 sample_rows = Ok ([201; 10; 58; 148; 47; 158], map Some sample_rows ++ [None]).
Proof. vm_compute. auto. Qed.
(** The bit by bit hypotheses are met by the same page. *)
Example fax_lossless_bits_sample : Forall (row_ok 32) sample_rows /\ 0 <= 60 <= 7 * 32 - 4 /\ 32 mod 8 = 0.
Proof. split; [|split; [split; discriminate|reflexivity]]. repeat constructor; try reflexivity; discriminate. Qed.

(** C51: the run list the compressor makes of a row is the row's colour changes, closed by the width; for any
    width, and whatever the bits beyond the width. *)
Theorem fax_runs_exact :
  forall list0 row w, 0 < w -> row_ok w row -> w < Z.of_nat (length list0) ->
    exists t, row_to_run_lengths list0 row w = Ok (transitions w row ++ t, Z.of_nat (length (transitions w row))) /\
              length (transitions w row ++ t) = length list0.
Proof. exact row_to_run_lengths_ok. Qed.
Print Assumptions fax_runs_exact.
Example fax_runs_exact_sample :
  row_to_run_lengths (repeat 9 16%nat) [0xF0; 0x0F] 12 = Ok ([0; 4; 12; 9; 9; 9; 9; 9; 9; 9; 9; 9; 9; 9; 9; 9], 3) /\
  transitions 12 [0xF0; 0x0F] = [0; 4; 12].
Proof. vm_compute. auto. Qed.

(** C52: the compressor stays inside its buffers, and its output does not depend on how it is read; any width. *)
Theorem fax_encode_safe_partial :
  forall en w min_bits max_2d j1 j2 rows, en = T4_1D \/ en = T4_2D \/ en = T6 -> 8 <= w -> 0 <= min_bits <= 7 * w - 4 ->
    Z.of_nat (length j1) = w + 4 -> Z.of_nat (length j2) = w + 4 -> Forall (row_ok w) rows ->
    exists s0 P, start_page en w min_bits max_2d j1 j2 = Ok s0 /\ bytes P /\
      (forall sizes, exists s rows', get_pieces s0 rows sizes =
         Ok (s, rows', firstn (Z.to_nat (fold_right (fun n t => Z.max 0 n + t) 0 sizes)) P)) /\
      (forall n, exists s rows', get_bits n s0 rows = Ok (s, rows', firstn n (map Z.b2z (unpack_lsb P) ++ repeat (-7) n))).
Proof. exact fax_encode_total. Qed.
Print Assumptions fax_encode_safe_partial.
(** C52 fails when the minimum row length asked for is long for the width: the fill bits overrun the buffer. *)
Theorem fax_encode_safe_refuted :
  match start_page T4_1D 8 100 2 (repeat 0 12%nat) (repeat 0 12%nat) with
  | Ok s0 => enc_get s0 [[255]] 100 = UB
  | UB => False
  end.
Proof. vm_compute. reflexivity. Qed.
Print Assumptions fax_encode_safe_refuted.

(** C54: the rows of an image whose width is not a whole number of octets come out shifted. *)
Theorem fax_odd_width_refuted :
  sample T6 12 0 4 [[255; 240]; [1; 16]; [170; 160]] =
    Ok ([100; 133; 243; 165; 100; 21], [Some [255; 0]; Some [240; 17]; Some [170; 17]; None]).
Proof. vm_compute. reflexivity. Qed.
Print Assumptions fax_odd_width_refuted.

(** C53 is false.  Zero length runs are counted without bound, and the run list is overrun. *)
Fixpoint times (n : nat) (l : list Z) : list Z := match n with O => [] | S k => l ++ times k l end.
Theorem fax_decode_safe_zero_runs_refuted :
  feed_bits (dec_init T4_1D 8) ([0;0;0;0;0;0;0;0;0;0;0;1] ++ times 7 ([0;0;1;1;0;1;0;1] ++ [0;0;0;0;1;1;0;1;1;1])) = UB.
Proof. vm_compute. reflexivity. Qed.
Print Assumptions fax_decode_safe_zero_runs_refuted.
(** Repeated pass codes run off the reference row. *)
Theorem fax_decode_safe_pass_refuted : feed_bits (dec_init T6 8) (times 40 [0;0;0;1]) = UB.
Proof. vm_compute. reflexivity. Qed.
Print Assumptions fax_decode_safe_pass_refuted.
(** Bits that go on after the end of the page make the bit accumulator's shift count reach 32. *)
Theorem fax_decode_safe_after_end_refuted : feed_bits (dec_init T6 8) (times 10 [0;0;0;0;0;0;0;0;0;0;0;1]) = UB.
Proof. vm_compute. reflexivity. Qed.
Print Assumptions fax_decode_safe_after_end_refuted.
