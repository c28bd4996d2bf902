(** Properties of the non-ECM fax image buffer. *)
From Coq Require Import Lia.
From Verif Require Import Base Bits NonEcm_model NonEcm_spec NonEcm_proofs NonEcm_bad_proofs.
Local Open Scope Z_scope.

(** C36: however data and bit requests are interleaved, as long as the buffer is not overfilled, each block comes
    out whole and in order: an image as ones, a first end of line, then its rows, changed only by whole octets of
    zeros in front of the one that ends a row; training data as ones and then the data with octets of zeros added.
    The buffer can then be used for another block. *)
Theorem nonecm_intact :
  forall image min blocks,
    session (fun image min inp out => if image then image_intact (unpack_msb inp) out else tcf_forwarded inp out)
            (init image min) blocks.
Proof. exact session_intact. Qed.
Print Assumptions nonecm_intact.
Example nonecm_intact_image :
  let ops := [Get; Inject [0x12; 0; 0x1A]; Get; Inject [0xBC; 0; 0x1F]; Inject [0x55]] in
  fits (init true 40) ops /\
  match run (init true 40) (ops ++ Push :: repeat Get 87) with
  | Ok (_, l) => l = map Z.b2z (unpack_msb [0xFF; 0; 0; 0x1A; 0xBC; 0; 0; 0; 0; 0x1F; 0x55]) ++ [-7]
  | UB => False
  end.
Proof. split; vm_compute; repeat split. Qed.
Example nonecm_intact_tcf :
  let ops := [Get; Inject [0xFF]; Get; Inject [0xFF; 3; 4]; Get; Get; Get; Get; Get; Get] ++ repeat Get 24 ++ [Inject [5]] in
  fits (init false 0) ops /\
  match run (init false 0) (ops ++ Push :: repeat Get 17) with
  | Ok (_, l) => l = map Z.b2z (unpack_msb [0xFF; 3; 0; 0; 4; 5]) ++ [-7]
  | UB => False
  end.
Proof. split; vm_compute; repeat split. Qed.

(** C55: in each image block, every row after the first comes out at least as long as the minimum, unless it is only
    an end of line, which is not stretched.  The first row is measured 8 bits too short. *)
Theorem nonecm_row_length_partial :
  forall image min blocks,
    session (fun image min inp out => image = true -> image_forwarded 8 min (unpack_msb inp) out) (init image min) blocks.
Proof. exact session_lengths. Qed.
Print Assumptions nonecm_row_length_partial.
(** C55 does not hold of the first row: one of 20 bits is sent as it is, though the minimum is 96. *)
Theorem nonecm_row_length_refuted :
  exists inp, bytes inp /\ fits (init true 96) [Inject inp] /\
    forall n s bits, run (init true 96) (Inject inp :: Push :: repeat Get n) = Ok (s, map Z.b2z bits ++ [END_OF_DATA]) ->
      exists row tail, rows_of 0 [] bits = ([repeat false 23 ++ [true]; row], tail) /\ length row = 20%nat.
Proof. exact short_first_row. Qed.
Print Assumptions nonecm_row_length_refuted.
(** Nor is an end of line left alone when it is the first row: its 12 bits become 108. *)
Theorem nonecm_eol_stretched_refuted :
  exists inp row tail, bytes inp /\ fits (init true 96) [Inject inp] /\
    rows_of 0 [] (unpack_msb inp) = ([repeat false 23 ++ [true]; row], tail) /\ length row = 12%nat /\
    forall n s bits, run (init true 96) (Inject inp :: Push :: repeat Get n) = Ok (s, map Z.b2z bits ++ [END_OF_DATA]) ->
      exists row' tail', rows_of 0 [] bits = ([repeat false 23 ++ [true]; row'], tail') /\ length row' = 108%nat.
Proof. exact stretched_eol. Qed.
Print Assumptions nonecm_eol_stretched_refuted.

(** C56 is not met: 16384 octets put in before any are taken leave the buffer looking empty, and every one of them
    is lost. *)
Theorem nonecm_overfill_refuted :
  forall min x t, x <> 255 -> Z.of_nat (length (x :: t)) = BUF_LEN ->
    exists s, run (init false min) [Inject (x :: t); Push; Get] = Ok (s, [END_OF_DATA]).
Proof. exact brim. Qed.
Print Assumptions nonecm_overfill_refuted.

(** C57: no use of the buffer, overfilled or not, reads or writes outside it. *)
Theorem nonecm_safe :
  forall image min ops,
    exists s l, run (init image min) ops = Ok (s, l) /\ Forall (fun b => b = 0 \/ b = 1 \/ b = END_OF_DATA) l.
Proof. exact run_sane_init. Qed.
Print Assumptions nonecm_safe.
