(** Properties C01-C05, C37: the ITU CRC-16 / CRC-32 of src/crc.c. *)
From Verif Require Import Base Crc_model Crc_spec Crc_proofs.

(** C01: append writes exactly two octets after the message, changes nothing else, and the result passes. *)
Theorem crc16_append_then_check : forall m x y s, bytes m ->
  exists f, length f = 2%nat /\ bytes f /\
    crc_itu16_append (m ++ x :: y :: s) (Z.of_nat (length m)) = Ok (m ++ f ++ s, Z.of_nat (length m) + 2) /\
    crc_itu16_check (m ++ f ++ s) (Z.of_nat (length m) + 2) = Ok true.
Proof. exact c01_round. Qed.
Print Assumptions crc16_append_then_check.

(** C01 converse: the only two octets that pass are the ones append (re)writes. *)
Theorem crc16_check_only_if_appended : forall m f s, bytes m -> bytes f -> length f = 2%nat ->
  crc_itu16_check (m ++ f) (Z.of_nat (length m) + 2) = Ok true ->
  crc_itu16_append (m ++ f ++ s) (Z.of_nat (length m)) = Ok (m ++ f ++ s, Z.of_nat (length m) + 2).
Proof. exact c01_only. Qed.
Print Assumptions crc16_check_only_if_appended.

Example crc16_case : bytes [0x31; 0x32; 0x33] /\
  crc_itu16_append [0x31; 0x32; 0x33; 0; 0; 77] 3 = Ok ([0x31; 0x32; 0x33; 180; 156; 77], 5) /\
  crc_itu16_check [0x31; 0x32; 0x33; 180; 156] 5 = Ok true /\
  crc_itu16_check [0x31; 0x32; 0x33; 180; 157] 5 = Ok false.
Proof. split; [bytes_lit|]. vm_compute. auto. Qed.

(** C02 *)
Theorem crc32_append_then_check : forall m x y z w s, bytes m ->
  exists f, length f = 4%nat /\ bytes f /\
    crc_itu32_append (m ++ x :: y :: z :: w :: s) (Z.of_nat (length m)) = Ok (m ++ f ++ s, Z.of_nat (length m) + 4) /\
    crc_itu32_check (m ++ f ++ s) (Z.of_nat (length m) + 4) = Ok true.
Proof. exact c02_round. Qed.
Print Assumptions crc32_append_then_check.

Theorem crc32_check_only_if_appended : forall m f s, bytes m -> bytes f -> length f = 4%nat ->
  crc_itu32_check (m ++ f) (Z.of_nat (length m) + 4) = Ok true ->
  crc_itu32_append (m ++ f ++ s) (Z.of_nat (length m)) = Ok (m ++ f ++ s, Z.of_nat (length m) + 4).
Proof. exact c02_only. Qed.
Print Assumptions crc32_check_only_if_appended.

Example crc32_case : bytes [0x31; 0x32; 0x33] /\
  crc_itu32_append [0x31; 0x32; 0x33; 0; 0; 0; 0] 3 = Ok ([0x31; 0x32; 0x33; 210; 99; 72; 136], 7) /\
  crc_itu32_check [0x31; 0x32; 0x33; 210; 99; 72; 136] 7 = Ok true.
Proof. split; [bytes_lit|]. vm_compute. auto. Qed.

(** C03: bursts of at most 16 bits, and any odd number of bit errors. *)
Theorem crc16_detects_bursts : forall a b, bytes a -> bytes b -> burst 16 (wire a) (wire b) ->
  crc_itu16_check a (Z.of_nat (length a)) = Ok true ->
  crc_itu16_check b (Z.of_nat (length b)) = Ok false.
Proof. exact burst16. Qed.
Print Assumptions crc16_detects_bursts.

Theorem crc16_detects_odd_errors : forall a b, bytes a -> bytes b -> length a = length b ->
  Nat.odd (ham (wire a) (wire b)) = true ->
  crc_itu16_check a (Z.of_nat (length a)) = Ok true ->
  crc_itu16_check b (Z.of_nat (length b)) = Ok false.
Proof. exact odd16. Qed.
Print Assumptions crc16_detects_odd_errors.

(** C37: any two bit errors in a buffer of up to 4095 octets (so, with the above, any 1, 2 or 3). *)
Theorem crc16_detects_two_errors : forall a b, bytes a -> bytes b -> length a = length b ->
  Z.of_nat (length a) <= 4095 -> ham (wire a) (wire b) = 2%nat ->
  crc_itu16_check a (Z.of_nat (length a)) = Ok true ->
  crc_itu16_check b (Z.of_nat (length b)) = Ok false.
Proof. exact double16. Qed.
Print Assumptions crc16_detects_two_errors.

Example crc16_errors_case :
  let a := [0x31; 0x32; 0x33; 180; 156] in
  crc_itu16_check a 5 = Ok true /\
  burst 16 (wire a) (wire [0x31; 0x32; 0x34; 180; 156]) /\
  Nat.odd (ham (wire a) (wire [0x31; 0x32; 0x34; 180; 156])) = true /\
  ham (wire a) (wire [0x30; 0x32; 0x33; 180; 157]) = 2%nat.
Proof.
  cbv zeta. split; [vm_compute; reflexivity|]. split; [|split; vm_compute; reflexivity].
  exists (wire [0x31; 0x32]), (wire [0x33]), (wire [0x34]), (wire [180; 156]).
  repeat split; try reflexivity; try (cbn; lia); try discriminate.
Qed.

(** C04 *)
Theorem crc32_detects_bursts : forall a b, bytes a -> bytes b -> burst 32 (wire a) (wire b) ->
  crc_itu32_check a (Z.of_nat (length a)) = Ok true ->
  crc_itu32_check b (Z.of_nat (length b)) = Ok false.
Proof. exact burst32. Qed.
Print Assumptions crc32_detects_bursts.

Example crc32_burst_case :
  let a := [0x31; 0x32; 0x33; 210; 99; 72; 136] in
  crc_itu32_check a 7 = Ok true /\ burst 32 (wire a) (wire [0x31; 1; 2; 3; 4; 72; 136]).
Proof.
  cbv zeta. split; [vm_compute; reflexivity|].
  exists (wire [0x31]), (wire [0x32; 0x33; 210; 99]), (wire [1; 2; 3; 4]), (wire [72; 136]).
  repeat split; try reflexivity; try (cbn; lia); try discriminate.
Qed.

(** C05 *)
Theorem crc16_is_bit_serial : forall buf c, bytes buf -> 0 <= c < 65536 ->
  crc_itu16_calc buf c = lfsr_run 0x8408 c (wire buf).
Proof. exact c05_calc16. Qed.
Print Assumptions crc16_is_bit_serial.
Theorem crc32_is_bit_serial : forall buf c, bytes buf -> 0 <= c < 4294967296 ->
  crc_itu32_calc buf c = lfsr_run 0xEDB88320 c (wire buf).
Proof. exact c05_calc32. Qed.
Print Assumptions crc32_is_bit_serial.
Theorem crc16_chains : forall a b c, crc_itu16_calc (a ++ b) c = crc_itu16_calc b (crc_itu16_calc a c).
Proof. exact c05_chain16. Qed.
Print Assumptions crc16_chains.
Theorem crc32_chains : forall a b c, crc_itu32_calc (a ++ b) c = crc_itu32_calc b (crc_itu32_calc a c).
Proof. exact c05_chain32. Qed.
Print Assumptions crc32_chains.
Theorem crc16_bits_is_octet : forall b c, byte b -> crc_itu16_bits b 8 c = crc_itu16_calc [b] c.
Proof. exact c05_bits. Qed.
Print Assumptions crc16_bits_is_octet.
(* the published check value of CRC-16/X-25 over "123456789" *)
Example crc16_check_value :
  Z.lxor (crc_itu16_calc [0x31;0x32;0x33;0x34;0x35;0x36;0x37;0x38;0x39] 0xFFFF) 0xFFFF = 0x906E /\
  Z.lxor (crc_itu32_calc [0x31;0x32;0x33;0x34;0x35;0x36;0x37;0x38;0x39] 0xFFFFFFFF) 0xFFFFFFFF = 0xCBF43926.
Proof. vm_compute. auto. Qed.
