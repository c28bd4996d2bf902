(** Ways of using the fax compressor and decompressor that the theorems speak about: reading a page in pieces
    or bit by bit, and feeding it in pieces or bit by bit. *)
From Verif Require Import Base T4_enc_model T4_dec_model.

(** t4_t6_encode_init, _set_min_bits_per_row, _set_max_2d_rows_per_1d_row *)
Definition start_page (en w min_bits max_2d : Z) (j1 j2 : list Z) : res enc :=
  do s <- enc_init en w j1 j2; Ok (enc_set_max_2d (enc_set_min_bits s min_bits) max_2d).
(** successive t4_t6_encode_get calls; the octets they return, concatenated *)
Fixpoint get_pieces (s : enc) (rows : list (list Z)) (sizes : list Z) : res (enc * list (list Z) * list Z) :=
  match sizes with
  | [] => Ok (s, rows, [])
  | n :: t => do (s, rows, a) <- enc_get s rows n; do (s, rows, b) <- get_pieces s rows t; Ok (s, rows, a ++ b)
  end.
(** [n] calls of t4_t6_encode_get_bit; what they return *)
Fixpoint get_bits (n : nat) (s : enc) (rows : list (list Z)) : res (enc * list (list Z) * list Z) :=
  match n with
  | O => Ok (s, rows, [])
  | S k => do (s, rows, b) <- enc_get_bit s rows; do (s, rows, l) <- get_bits k s rows; Ok (s, rows, b :: l)
  end.
(** successive t4_t6_decode_put calls; the states they return *)
Fixpoint feed_pieces (s : dec) (pieces : list (list Z)) : res (dec * list Z) :=
  match pieces with
  | [] => Ok (s, [])
  | p :: t => do (s, r) <- dec_put s p; do (s, l) <- feed_pieces s t; Ok (s, r :: l)
  end.
(** successive t4_t6_decode_put_bit calls *)
Fixpoint feed_bits (s : dec) (bits : list Z) : res dec :=
  match bits with [] => Ok s | b :: t => do (s, _) <- dec_put_bit s b; feed_bits s t end.
(** the rows given to the row write handler, in order; [None] is the call that ends the image *)
Definition written (s : dec) : list (option (list Z)) := i_log (d_img s).
