(** Properties of V.42bis sessions: a compressor at one end, a decompressor at the other. *)
From Verif Require Import Base V42bis_model V42bis_spec V42bis_sess_proofs V42bis_safe_proofs.
Local Open Scope Z_scope.

(** C22: whatever the calls on the compressor are (data in any pieces, changes of mode,
    flushes not closer than N7 octets), it never fails, and a decompressor fed any part of
    its output from the start, in any pieces, accepts it and delivers nothing but a prefix
    of the data. *)
Theorem v42bis_lossless :
  forall p0 q0 n2 n7 me md me' md' enc ed de dec ops,
    v42bis_init p0 n2 n7 me md = Some (enc, ed) -> v42bis_init q0 n2 n7 me' md' = Some (de, dec) ->
    Z.land p0 2 <> 0 -> Z.land q0 1 <> 0 -> n2 <= 4096 -> 1 <= me -> 1 <= md' ->
    Forall (fun o => match o with Give d => bytes d | _ => True end) ops -> spaced n7 n7 ops ->
    exists enc', compressor enc ops = Ok enc' /\
      forall dops rest, handed enc' ++ held enc' = fed dops ++ rest -> dspaced (2 * n7) (2 * n7) dops ->
        exists dec', decompressor dec dops = Ok (dec', 0) /\ exists later, accepted ops = handed dec' ++ later.
Proof. exact session_prefix. Qed.
Print Assumptions v42bis_lossless.
(** C22, C43: after a flush the output holds all the data. *)
Theorem v42bis_lossless_exact :
  forall p0 q0 n2 n7 me md me' md' enc ed de dec ops,
    v42bis_init p0 n2 n7 me md = Some (enc, ed) -> v42bis_init q0 n2 n7 me' md' = Some (de, dec) ->
    Z.land p0 2 <> 0 -> Z.land q0 1 <> 0 -> n2 <= 4096 -> 1 <= me -> 1 <= md' ->
    Forall (fun o => match o with Give d => bytes d | _ => True end) ops -> spaced n7 n7 ops ->
    forall ops1, ops = ops1 ++ [Flush] ->
    exists enc', compressor enc ops = Ok enc' /\
      forall dops, fed dops = handed enc' ++ held enc' -> dspaced (2 * n7) (2 * n7) dops ->
        exists dec', decompressor dec (dops ++ [Deliver]) = Ok (dec', 0) /\ handed dec' = accepted ops /\ held dec' = [].
Proof. exact session_exact. Qed.
Print Assumptions v42bis_lossless_exact.
(** C43 *)
Theorem v42bis_flush_complete :
  forall p0 q0 n2 n7 me md me' md' enc ed de dec ops,
    v42bis_init p0 n2 n7 me md = Some (enc, ed) -> v42bis_init q0 n2 n7 me' md' = Some (de, dec) ->
    Z.land p0 2 <> 0 -> Z.land q0 1 <> 0 -> n2 <= 4096 -> 1 <= me -> 1 <= md' ->
    Forall (fun o => match o with Give d => bytes d | _ => True end) ops -> spaced n7 n7 (ops ++ [Flush]) ->
    exists s1 enc', compressor enc ops = Ok s1 /\ v42bis_compress_flush s1 = Ok enc' /\ (k_upd_at s1 = 0 -> held enc' = []) /\
      exists dec', decompressor dec [Feed (handed enc' ++ held enc'); Deliver] = Ok (dec', 0) /\ handed dec' = accepted ops.
Proof. exact flush_complete. Qed.
Print Assumptions v42bis_flush_complete.
(** C23: and unless a dictionary update is pending the flush hands all of it to the handler. *)
Theorem v42bis_flush_emits_partial :
  forall p0 n2 n7 me md enc ed ops,
    v42bis_init p0 n2 n7 me md = Some (enc, ed) ->
    Z.land p0 2 <> 0 -> n2 <= 4096 -> 1 <= me ->
    Forall (fun o => match o with Give d => bytes d | _ => True end) ops -> spaced n7 n7 ops ->
    forall ops1 s1 enc', ops = ops1 ++ [Flush] -> compressor enc ops1 = Ok s1 -> k_upd_at s1 = 0 ->
    compressor enc ops = Ok enc' -> held enc' = [].
Proof. exact session_flushed. Qed.
Print Assumptions v42bis_flush_emits_partial.
(** C23 as stated does not hold: with an update pending v42bis_compress_flush returns at once. *)
Theorem v42bis_flush_refuted :
  exists enc', compressor (comp_init 2 512 6 64) [Mode MODE_ALWAYS; Give [97]; Flush] = Ok enc' /\ handed enc' = [] /\ held enc' = [97; 0; 0].
Proof. exact flush_skipped. Qed.
Print Assumptions v42bis_flush_refuted.
(** Why the flushes of C22 are spaced: flushing twice within one match loses the first part
    of its length, and the data is corrupted without any error. *)
Theorem v42bis_close_flushes_refuted :
  exists enc' dec', compressor (comp_init 2 512 6 64) twice_flushed = Ok enc' /\
    decompressor (comp_init 1 512 6 64) [Feed (handed enc'); Deliver] = Ok (dec', 0) /\ held enc' = [] /\
    handed dec' <> accepted twice_flushed /\ length (handed dec') <> length (accepted twice_flushed).
Proof. exact flushed_twice. Qed.
Print Assumptions v42bis_close_flushes_refuted.
(** C22: without compression the octets pass unchanged. *)
Theorem v42bis_plain :
  forall p0 q0 n2 n7 me md me' md' enc ed de dec ops,
    v42bis_init p0 n2 n7 me md = Some (enc, ed) -> v42bis_init q0 n2 n7 me' md' = Some (de, dec) ->
    Z.land p0 2 = 0 -> Z.land q0 1 = 0 -> 1 <= me -> 1 <= md' ->
    exists enc', compressor enc ops = Ok enc' /\ handed enc' ++ held enc' = accepted ops /\ (forall ops1, ops = ops1 ++ [Flush] -> held enc' = []) /\
      forall dops, exists dec', decompressor dec dops = Ok (dec', 0) /\ handed dec' ++ held dec' = fed dops /\
        (forall dops1, dops = dops1 ++ [Deliver] -> held dec' = []).
Proof. exact plain_session. Qed.
Print Assumptions v42bis_plain.
(** C45: the messages given to the handlers *)
Theorem v42bis_compress_messages :
  forall p0 n2 n7 me md enc ed ops,
    v42bis_init p0 n2 n7 me md = Some (enc, ed) ->
    Z.land p0 2 <> 0 -> n2 <= 4096 -> 1 <= me ->
    Forall (fun o => match o with Give d => bytes d | _ => True end) ops -> spaced n7 n7 ops ->
    forall enc', compressor enc ops = Ok enc' ->
    Forall (fun m => bytes m /\ 1 <= Z.of_nat (length m) <= Z.min me 1024) (o_log (k_out enc')).
Proof. exact session_messages. Qed.
Print Assumptions v42bis_compress_messages.
Theorem v42bis_decompress_messages :
  forall p0 n2 n7 me md e dec ops dec', v42bis_init p0 n2 n7 me md = Some (e, dec) -> Z.land p0 1 <> 0 -> n2 <= 4096 -> 1 <= md ->
    bytes (fed ops) -> dspaced (2 * n7) (2 * n7) ops ->
    (forall ops1 pre post ops2 s1, ops = ops1 ++ Feed (pre ++ post) :: ops2 -> decompressor dec (ops1 ++ [Feed pre]) = Ok (s1, 0) -> k_c2 s1 <= 12) ->
    decompressor dec ops = Ok (dec', 0) -> Forall (fun m => 1 <= Z.of_nat (length m) <= Z.min md 1024) (o_log (k_out dec')).
Proof. exact decompress_messages. Qed.
Print Assumptions v42bis_decompress_messages.
(** C24, C44: any octets at all fed to the decompressor do no harm (no access out of bounds, no
    endless walk, no undefined shift) unless some of them have raised the codeword size beyond
    12 bits. *)
Theorem v42bis_decompress_safe_partial :
  forall p0 n2 n7 me md e dec ops, v42bis_init p0 n2 n7 me md = Some (e, dec) -> n2 <= 4096 -> 1 <= md ->
    bytes (fed ops) -> dspaced (2 * n7) (2 * n7) ops ->
    (exists dec' r, decompressor dec ops = Ok (dec', r)) \/
    (exists ops1 pre post ops2 s1, ops = ops1 ++ Feed (pre ++ post) :: ops2 /\ decompressor dec (ops1 ++ [Feed pre]) = Ok (s1, 0) /\ 12 < k_c2 s1).
Proof. exact decompress_safe. Qed.
Print Assumptions v42bis_decompress_safe_partial.
(** C44 *)
Theorem v42bis_decompress_safe_12bit :
  forall p0 n2 n7 me md e dec ops, v42bis_init p0 n2 n7 me md = Some (e, dec) -> n2 <= 4096 -> 1 <= md ->
    bytes (fed ops) -> dspaced (2 * n7) (2 * n7) ops ->
    (forall ops1 pre post ops2 s1, ops = ops1 ++ Feed (pre ++ post) :: ops2 -> decompressor dec (ops1 ++ [Feed pre]) = Ok (s1, 0) -> k_c2 s1 <= 12) ->
    exists dec' r, decompressor dec ops = Ok (dec', r).
Proof. exact decompress_safe12. Qed.
Print Assumptions v42bis_decompress_safe_12bit.
(** C24 as stated does not hold: the check on STEPUP lets the codeword size grow, and a codeword
    of 4096 or more is looked up beyond the dictionary. *)
Theorem v42bis_decompress_safe_refuted :
  v42bis_decompress (comp_init 1 512 6 64) stepped_up = UB.
Proof. exact stepped_up_ub. Qed.
Print Assumptions v42bis_decompress_safe_refuted.

(** Concrete cases. *)
Definition ex_ops : list eop := [Give [97; 98; 97; 98; 97; 98; 97]; Mode MODE_ALWAYS; Give [98; 97; 98; 0; 0; 255]; Mode MODE_NEVER; Give [0; 51; 97]; Flush].
Example ex_lossless :
  (do e <- compressor (comp_init 2 512 6 4) ex_ops;
   do (d, r) <- decompressor (comp_init 1 512 6 64) [Feed (firstn 5 (handed e)); Feed (skipn 5 (handed e) ++ held e); Deliver];
   Ok (o_log (k_out e), held e, handed d, r)) =
  Ok ([[97; 98; 97; 98]; [97; 98; 97; 98]; [97; 0; 0; 101]; [6; 12; 16; 8]; [0; 0; 51; 1]; [97]], [],
      [97; 98; 97; 98; 97; 98; 97; 98; 97; 98; 0; 0; 255; 0; 51; 97], 0).
Proof. vm_compute. reflexivity. Qed.
Example ex_spaced : spaced 6 6 ex_ops.
Proof. cbn. lia. Qed.
Example ex_init : v42bis_init 3 512 6 4 64 = Some (comp_init 2 512 6 4, comp_init 1 512 6 64) /\ v42bis_init 3 65535 6 4 64 <> None /\ v42bis_init 3 511 6 4 64 = None.
Proof. split; [reflexivity|]. split; [discriminate|reflexivity]. Qed.
