(** Properties of the T.85 bi-level image coder. *)
From Verif Require Import Base Bits Arith_model T85_enc_model T85_dec_model T85_spec T85_hdr_model T85_final_proofs T85_hdr_proofs.
Local Open Scope Z_scope.

(** C58: whatever the page, the width, and the coding options asked for, the compressed image is a fixed octet string
    [P]; reading it in pieces of any size yields consecutive parts of it; and a decoder with no tighter limits than the
    image, given [P] in any pieces and then told that the data has ended, hands on exactly the rows of the page (the
    bits beyond the width white), and finds the image complete. *)
Theorem t85_lossless :
  forall w h l m opts max_xd max_yd rows, 1 <= w <= 4294967288 -> 1 <= h < 4294967296 -> (max_xd = 0 \/ w <= max_xd) ->
    Forall (fun r => Z.of_nat (length r) = (w + 7) / 8 /\ bytes r) rows ->
    let variable_length := (opts <? 0) || Z.testbit opts 5 in
    let image := picture w h variable_length rows in
    (max_yd = 0 \/ Z.of_nat (length image) <= max_yd) ->
    exists P, bytes P /\
      (forall sizes, Forall (fun n => 0 <= n) sizes ->
         exists s' rows', gets (t85_encode_set_options (t85_encode_init w h) l m opts) rows sizes = Ok (s', rows', cut sizes P)) /\
      (forall junk pieces, concat pieces = P -> Forall (fun d => d <> []) pieces ->
         exists rs s', feed junk (t85_decode_set_image_size_constraints t85_decode_init max_xd max_yd) (pieces ++ [[]]) = Ok (rs, s') /\
           (rs = repeat MORE_DATA (length pieces - 1) ++ [OK; OK] \/ variable_length = true /\ rs = repeat MORE_DATA (length pieces) ++ [OK]) /\
           events s' = map Row image).
Proof. exact lossless_final. Qed.
Print Assumptions t85_lossless.
(** A page which ends early: with a variable length, in stripes of two rows; and without, filled up with white. *)
Definition page : list (list Z) := [[0xAA; 0x5F]; [0xAA; 0x40]; [0; 1]; [0xFF; 0xFF]; [0xFF; 0xC0]].
Definition trip (l m opts : Z) : res (list code * list event) :=
  do (_, _, out) <- gets (t85_encode_set_options (t85_encode_init 10 7) l m opts) page [3; 0; 1000];
  let P := concat out in
  do (rs, s) <- feed (fun _ => 0) t85_decode_init [firstn 25 P; skipn 25 P; []];
  Ok (rs, events s).
Example t85_lossless_page :
  trip 2 5 0x28 = Ok ([MORE_DATA; OK; OK], map Row [[0xAA; 0x40]; [0xAA; 0x40]; [0; 0]; [0xFF; 0xC0]; [0xFF; 0xC0]]) /\
  trip 3 0 0x48 = Ok ([MORE_DATA; OK; OK], map Row [[0xAA; 0x40]; [0xAA; 0x40]; [0; 0]; [0xFF; 0xC0]; [0xFF; 0xC0]; [0; 0]; [0; 0]]) /\
  picture 10 7 true page = [[0xAA; 0x40]; [0xAA; 0x40]; [0; 0]; [0xFF; 0xC0]; [0xFF; 0xC0]].
Proof. vm_compute. auto. Qed.

(** C59: with a limit on the width, the decoder stays inside its buffers whatever it is given, in whatever pieces,
    with or without a comment handler. *)
Theorem t85_decode_safe_partial :
  forall junk max_xd max_yd comments pieces, 0 < max_xd <= 4294967288 -> Forall bytes pieces ->
    exists rs s', feed junk (handled (t85_decode_set_image_size_constraints t85_decode_init max_xd max_yd) comments) pieces = Ok (rs, s').
Proof. exact safe_final. Qed.
Print Assumptions t85_decode_safe_partial.
Definition hostile (comments : option Z) : res (list code * list event) :=
  do (rs, s) <- feed (fun _ => 7) (handled (t85_decode_set_image_size_constraints t85_decode_init 100 100) comments)
    [[0; 0; 1; 0; 0; 0; 0; 9]; [0; 0; 0; 2] ++ [0; 0; 0; 1; 0; 0; 0; 0]; [255; 7; 0; 0; 0; 2; 65; 66; 1; 2; 3; 255; 2; 255]; [6; 0; 0; 0; 0; 4; 0; 9]];
  Ok (rs, events s).
Example t85_decode_safe_sample :
  hostile (Some 4) = Ok ([MORE_DATA; MORE_DATA; MORE_DATA; INVALID_DATA], [Comment (Some [65; 66]) 2; Row [109; 128]]) /\
  hostile (Some 1) = Ok ([MORE_DATA; MORE_DATA; MORE_DATA; INVALID_DATA], [Comment None 2; Row [109; 128]]) /\
  hostile None = Ok ([MORE_DATA; MORE_DATA; MORE_DATA; INVALID_DATA], [Row [109; 128]]).
Proof. vm_compute. auto. Qed.
(** C59, the rest: without a limit, a header with a width of 2^32-7 makes the row size wrap to 0; no row buffer is
    allocated, and the first pixels are stored through it. *)
Theorem t85_decode_safe_refuted :
  exists pieces, Forall bytes pieces /\ feed (fun _ => 0) t85_decode_init pieces = UB.
Proof. exact wide_final. Qed.
Print Assumptions t85_decode_safe_refuted.

(** C60: a decoder which has turned down a header is not safe to go on with: the row buffer is not there. *)
Theorem t85_decode_rejected_refuted :
  exists header more s', bytes header /\ bytes more /\
    t85_decode_put (fun _ => 0) (t85_decode_set_image_size_constraints t85_decode_init 2000 0) header = Ok (INVALID_DATA, s') /\
    t85_decode_put (fun _ => 0) s' more = UB.
Proof. exact rejected_final. Qed.
Print Assumptions t85_decode_rejected_refuted.

(** C61: t85_analyse_header() looks for the size of the image in the wrong place: for every image the encoder makes
    (of a usual size), the width that it reports is 65536 times what it should be. *)
Theorem t85_analyse_width_refuted :
  forall w h l m opts rows, 1 <= w < 65536 -> 1 <= h < 65536 -> Forall (fun r => Z.of_nat (length r) = (w + 7) / 8 /\ bytes r) rows ->
    exists P, (forall sizes, Forall (fun n => 0 <= n) sizes ->
         exists s' rows', gets (t85_encode_set_options (t85_encode_init w h) l m opts) rows sizes = Ok (s', rows', cut sizes P)) /\
      forall turns valid width len, t85_analyse_header turns P = Some (Ok (valid, width, len)) -> width = 65536 * w.
Proof. exact width_final. Qed.
Print Assumptions t85_analyse_width_refuted.
Example t85_analyse_width_sample :
  (do (_, _, out) <- gets (t85_encode_set_options (t85_encode_init 10 7) 2 5 0x28) page [1000];
   match t85_analyse_header 1000 (concat out) with Some r => r | None => UB end) = Ok (true, 655360, 5).
Proof. vm_compute. reflexivity. Qed.

(** C62: t85_analyse_header() comes to an end, within the data, as long as octets 2-5 are not a number near 2^32 ... *)
Theorem t85_analyse_ends_partial :
  forall data, bytes data -> Z.of_nat (length data) < 4294967294 -> get32 (firstn 4 (skipn 2 data)) + 6 < 4294967296 ->
    exists turns r, t85_analyse_header turns data = Some (Ok r).
Proof. exact analyse_ends. Qed.
Print Assumptions t85_analyse_ends_partial.
Example t85_analyse_ends_sample : t85_analyse_header 30 (repeat 0 19 ++ [32; 255; 6] ++ repeat 0 6 ++ [255; 5; 0; 0; 1; 2; 9; 9; 9]) = Some (Ok (true, 0, 258)).
Proof. vm_compute. reflexivity. Qed.
(** ... and never, however many turns it takes, for some data. *)
Theorem t85_analyse_ends_refuted :
  exists data, bytes data /\ forall turns, t85_analyse_header turns data = None.
Proof. exact endless_final. Qed.
Print Assumptions t85_analyse_ends_refuted.
