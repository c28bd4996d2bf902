(** Model of the G.726 ADPCM codec, src/g726.c 84-1239 and src/spandsp/private/g726.h.

    int16_t variables are wrapped by [s16] at each assignment, int and int32_t ones are
    left as integers (the range theorems show that none overflows).  A shift by a count
    outside 0..31, or an access outside a table, is UB.  A left shift of a negative
    number is multiplication, as the compilers spandsp is built with define it.

    g726_init's bit rate is the type [rate]; any other bit rate makes g726_init return
    NULL and there is nothing to model.  The four pairs of encoder and decoder functions
    (16, 24, 32 and 40 kbps) are written out four times in C, differing only in the
    tables, the sign bit, the code mask, the number of quantiser states and the
    magnitude mask; they are [encode1] and [decode1] here, with those as parameters.
    The buffers g726_data and amp that are written are returned as lists. *)
From Verif Require Import Base BitOps_model G711_model.
Local Open Scope Z_scope.

Inductive rate := R16 | R24 | R32 | R40.
Inductive coding := LINEAR | ULAW | ALAW.
Inductive packing := PNONE | PLEFT | PRIGHT.

(** src/g726.c:84-215: the tables *)
Definition dqlntab (r : rate) : list Z :=
  match r with
  | R16 => [116; 365; 365; 116]
  | R24 => [-2048; 135; 273; 373; 373; 273; 135; -2048]
  | R32 => [-2048; 4; 135; 213; 273; 323; 373; 425; 425; 373; 323; 273; 213; 135; 4; -2048]
  | R40 => [-2048; -66; 28; 104; 169; 224; 274; 318; 358; 395; 429; 459; 488; 514; 539; 566;
            566; 539; 514; 488; 459; 429; 395; 358; 318; 274; 224; 169; 104; 28; -66; -2048]
  end.
Definition witab (r : rate) : list Z :=
  match r with
  | R16 => [-704; 14048; 14048; -704]
  | R24 => [-128; 960; 4384; 18624; 18624; 4384; 960; -128]
  | R32 => [-384; 576; 1312; 2048; 3584; 6336; 11360; 35904; 35904; 11360; 6336; 3584; 2048; 1312; 576; -384]
  | R40 => [448; 448; 768; 1248; 1280; 1312; 1856; 3200; 4512; 5728; 7008; 8960; 11456; 14080; 16928; 22272;
            22272; 16928; 14080; 11456; 8960; 7008; 5728; 4512; 3200; 1856; 1312; 1280; 1248; 768; 448; 448]
  end.
Definition fitab (r : rate) : list Z :=
  match r with
  | R16 => [0x000; 0xE00; 0xE00; 0x000]
  | R24 => [0x000; 0x200; 0x400; 0xE00; 0xE00; 0x400; 0x200; 0x000]
  | R32 => [0x000; 0x000; 0x000; 0x200; 0x200; 0x200; 0x600; 0xE00; 0xE00; 0x600; 0x200; 0x200; 0x200; 0x000; 0x000; 0x000]
  | R40 => [0x000; 0x000; 0x000; 0x000; 0x000; 0x200; 0x200; 0x200; 0x200; 0x200; 0x400; 0x600; 0x800; 0xA00; 0xC00; 0xC00;
            0xC00; 0xC00; 0xA00; 0x800; 0x600; 0x400; 0x200; 0x200; 0x200; 0x200; 0x200; 0x000; 0x000; 0x000; 0x000; 0x000]
  end.
Definition qtab (r : rate) : list Z :=
  match r with
  | R16 => [261]
  | R24 => [8; 218; 331]
  | R32 => [-124; 80; 178; 246; 300; 349; 400]
  | R40 => [-122; -16; 68; 139; 198; 250; 298; 339; 378; 413; 445; 475; 502; 528; 553]
  end.
Definition states (r : rate) : Z := match r with R16 => 4 | R24 => 7 | R32 => 15 | R40 => 31 end.
Definition sign_bit (r : rate) : Z := match r with R16 => 2 | R24 => 4 | R32 => 8 | R40 => 0x10 end.
Definition code_mask (r : rate) : Z := match r with R16 => 0x03 | R24 => 0x07 | R32 => 0x0F | R40 => 0x1F end.
Definition mag_mask (r : rate) : Z := match r with R16 => 0x3FFF | R24 => 0x3FFF | R32 => 0x3FFF | R40 => 0x7FFF end.
(** src/g726.c:1211-1235 *)
Definition bits_per_sample (r : rate) : Z := match r with R16 => 2 | R24 => 3 | R32 => 4 | R40 => 5 end.

(** src/spandsp/private/g726.h:38-82, the adaptive part *)
Record g726 := { yl : Z; yu : Z; dms : Z; dml : Z; ap : Z; a0 : Z; a1 : Z; b : list Z;
                 pk0 : Z; pk1 : Z; dq : list Z; sr0 : Z; sr1 : Z; td : bool }.
(** src/g726.c:1189-1210 *)
Definition init : g726 :=
  {| yl := 34816; yu := 544; dms := 0; dml := 0; ap := 0; a0 := 0; a1 := 0; b := [0; 0; 0; 0; 0; 0];
     pk0 := 0; pk1 := 0; dq := [32; 32; 32; 32; 32; 32]; sr0 := 32; sr1 := 32; td := false |}.

Definition shl (x n : Z) : res Z := if (0 <=? n) && (n <=? 31) then Ok (Z.shiftl x n) else UB.
Definition shr (x n : Z) : res Z := if (0 <=? n) && (n <=? 31) then Ok (Z.shiftr x n) else UB.

(** src/g726.c:221-239 fmult *)
Definition fmult (an srn : Z) : res Z :=
  let anmag := s16 (if 0 <? an then an else Z.land (- an) 0x1FFF) in
  let anexp := s16 (top_bit (u32 anmag) - 5) in
  do m <- (if anmag =? 0 then Ok 32 else if 0 <=? anexp then shr anmag anexp else shl anmag (- anexp));
  let anmant := s16 m in
  let wanexp := s16 (anexp + Z.land (Z.shiftr srn 6) 0xF - 13) in
  let wanmant := s16 (Z.shiftr (anmant * Z.land srn 0x3F + 0x30) 4) in
  do r <- (if 0 <=? wanexp then do t <- shl wanmant wanexp; Ok (Z.land t 0x7FFF) else shr wanmant (- wanexp));
  let retval := s16 r in
  Ok (s16 (if Z.lxor an srn <? 0 then - retval else retval)).

(** src/g726.c:245-256 predictor_zero *)
Fixpoint zero_sum (bs dqs : list Z) : res Z :=
  match bs, dqs with
  | x :: bs, q :: dqs => do f <- fmult (Z.shiftr x 2) q; do t <- zero_sum bs dqs; Ok (f + t)
  | [], [] => Ok 0
  | _, _ => UB
  end.
Definition predictor_zero (s : g726) : res Z := do t <- zero_sum (b s) (dq s); Ok (s16 t).
(** src/g726.c:262-265 predictor_pole *)
Definition predictor_pole (s : g726) : res Z :=
  do f <- fmult (Z.shiftr (a1 s) 2) (sr1 s); do g <- fmult (Z.shiftr (a0 s) 2) (sr0 s); Ok (s16 (f + g)).

(** src/g726.c:271-288 step_size *)
Definition step_size (s : g726) : Z :=
  if 256 <=? ap s then yu s
  else
    let y := Z.shiftr (yl s) 6 in
    let dif := yu s - y in
    let al := Z.shiftr (ap s) 2 in
    if 0 <? dif then y + Z.shiftr (dif * al) 6
    else if dif <? 0 then y + Z.shiftr (dif * al + 0x3F) 6
    else y.

(** src/g726.c:335-341: the search of the quantiser table; [size] iterations at most *)
Fixpoint search (table : list Z) (size : nat) (i dln : Z) : res Z :=
  match size with
  | O => Ok i
  | S k => do t <- aget table i; if dln <? t then Ok i else search table k (i + 1) dln
  end.
(** src/g726.c:298-356 quantize *)
Definition quantize (d y : Z) (table : list Z) (quantizer_states : Z) : res Z :=
  let dqm := s16 (Z.abs d) in
  let exp := s16 (top_bit (u32 (Z.shiftr dqm 1)) + 1) in
  do m <- shr (Z.shiftl dqm 7) exp;
  let mant := s16 (Z.land m 0x7F) in
  let dl := s16 (Z.shiftl exp 7 + mant) in
  let dln := s16 (dl - s16 (Z.shiftr y 2)) in
  let size := Z.shiftr (quantizer_states - 1) 1 in
  do i <- search table (Z.to_nat size) 0 dln;
  if d <? 0 then Ok (s16 (Z.shiftl size 1 + 1 - i))
  else if (i =? 0) && negb (Z.land quantizer_states 1 =? 0) then Ok (s16 quantizer_states)
  else Ok (s16 i).

(** src/g726.c:364-383 reconstruct *)
Definition reconstruct (sign dqln y : Z) : res Z :=
  let dql := s16 (dqln + Z.shiftr y 2) in
  if dql <? 0 then Ok (s16 (if negb (sign =? 0) then - 0x8000 else 0))
  else
    let dex := s16 (Z.land (Z.shiftr dql 7) 15) in
    let dqt := s16 (128 + Z.land dql 127) in
    do t <- shr (Z.shiftl dqt 7) (14 - dex);
    let q := s16 t in
    Ok (s16 (if negb (sign =? 0) then q - 0x8000 else q)).

(** src/g726.c:562-565 and 576-583: conversion to the internal floating point form *)
Definition to_float (mag : Z) : res Z :=
  let exp := s16 (top_bit (u32 mag) + 1) in
  do m <- shr (Z.shiftl mag 6) exp; Ok (Z.shiftl exp 6 + m).

(** src/g726.c:533-549 UPB, one coefficient *)
Definition update_b (r : rate) (q : Z) (x dqi : Z) : Z :=
  let x := s16 (x - Z.shiftr x (if bits_per_sample r =? 5 then 9 else 8)) in
  if negb (Z.land q 0x7FFF =? 0) then
    if 0 <=? Z.lxor q dqi then s16 (x + 128) else s16 (x - 128)
  else x.
Fixpoint update_bs (r : rate) (q : Z) (bs dqs : list Z) : res (list Z) :=
  match bs, dqs with
  | x :: bs, d :: dqs => do t <- update_bs r q bs dqs; Ok (update_b r q x d :: t)
  | [], [] => Ok []
  | _, _ => UB
  end.

(** src/g726.c:468-511 UPA2 and LIMC: the new a[1] *)
Definition update_a1 (s : g726) (pk dqsez : Z) : Z :=
  let pks1 := s16 (Z.lxor pk (pk0 s)) in
  let a2p := s16 (a1 s - Z.shiftr (a1 s) 7) in
  if negb (dqsez =? 0) then
    let fa1 := s16 (if negb (pks1 =? 0) then a0 s else - a0 s) in
    let a2p := if fa1 <? -8191 then s16 (a2p - 0x100)
               else if 8191 <? fa1 then s16 (a2p + 0xFF)
               else s16 (a2p + Z.shiftr fa1 5) in
    if negb (Z.lxor pk (pk1 s) =? 0) then
      if a2p <=? -12160 then -12288 else if 12416 <=? a2p then 12288 else s16 (a2p - 0x80)
    else
      if a2p <=? -12416 then -12288 else if 12160 <=? a2p then 12288 else s16 (a2p + 0x80)
  else a2p.
(** src/g726.c:513-531 UPA1 and LIMD: the new a[0] *)
Definition update_a0 (s : g726) (pk dqsez a2p : Z) : Z :=
  let pks1 := s16 (Z.lxor pk (pk0 s)) in
  let x := s16 (a0 s - Z.shiftr (a0 s) 8) in
  let x := if negb (dqsez =? 0) then (if pks1 =? 0 then s16 (x + 192) else s16 (x - 192)) else x in
  let a1ul := s16 (15360 - a2p) in
  if x <? - a1ul then s16 (- a1ul) else if a1ul <? x then a1ul else x.

(** src/g726.c:389-621 update *)
Definition update (r : rate) (s : g726) (y wi fi q sr dqsez : Z) : res g726 :=
  let pk := if dqsez <? 0 then 1 else 0 in
  let mag := s16 (Z.land q 0x7FFF) in
  let ylint := s16 (Z.shiftr (yl s) 15) in
  let ylfrac := s16 (Z.land (Z.shiftr (yl s) 10) 0x1F) in
  do t <- (if 9 <? ylint then Ok (Z.shiftl 31 10) else shl (32 + ylfrac) ylint);
  let thr := s16 t in
  let dqthr := s16 (Z.shiftr (thr + Z.shiftr thr 1) 1) in
  let tr := if negb (td s) then false else if mag <=? dqthr then false else true in
  let yu' := s16 (y + Z.shiftr (wi - y) 5) in
  let yu' := if yu' <? 544 then 544 else if 5120 <? yu' then 5120 else yu' in
  let yl' := yl s + (yu' + Z.shiftr (- yl s) 6) in
  let a2p := if tr then 0 else update_a1 s pk dqsez in
  let a1' := if tr then 0 else a2p in
  let a0' := if tr then 0 else update_a0 s pk dqsez a2p in
  do b' <- (if tr then Ok [0; 0; 0; 0; 0; 0] else update_bs r q (b s) (dq s));
  do dq' <- (if mag =? 0 then Ok (s16 (if 0 <=? q then 0x20 else 0xFC20))
             else do f <- to_float mag; Ok (s16 (if 0 <=? q then f else f - 0x400)));
  do sr' <- (if sr =? 0 then Ok 0x20
             else if 0 <? sr then do f <- to_float sr; Ok (s16 f)
             else if -32768 <? sr then do f <- to_float (s16 (- sr)); Ok (s16 (f - 0x400))
             else Ok (s16 0xFC20));
  let td' := if tr then false else if a2p <? -11776 then true else false in
  let dms' := s16 (dms s + Z.shiftr (s16 fi - dms s) 5) in
  let dml' := s16 (dml s + Z.shiftr (s16 (Z.shiftl fi 2) - dml s) 7) in
  let fast := s16 (ap s + Z.shiftr (0x200 - ap s) 4) in
  let ap' := if tr then 256
             else if y <? 1536 then fast
             else if td' then fast
             else if Z.shiftr dml' 3 <=? Z.abs (Z.shiftl dms' 2 - dml') then fast
             else s16 (ap s + Z.shiftr (- ap s) 4) in
  Ok {| yl := yl'; yu := yu'; dms := dms'; dml := dml'; ap := ap'; a0 := a0'; a1 := a1'; b := b';
        pk0 := pk; pk1 := pk0 s; dq := dq' :: removelast (dq s); sr0 := sr'; sr1 := sr0 s; td := td' |}.

(** src/g726.c:624-673 tandem_adjust_alaw *)
Definition tandem_adjust_alaw (sr se y i sign : Z) (table : list Z) (quantizer_states : Z) : res Z :=
  let sr := if sr <=? -32768 then -1 else sr in
  let sp := linear_to_alaw (Z.shiftl (Z.shiftr sr 1) 3) in
  let dx := s16 (Z.shiftr (alaw_to_linear sp) 2 - se) in
  do id <- quantize dx y table quantizer_states;
  if id =? i then Ok (s16 sp)
  else
    Ok (s16 (if Z.lxor i sign <? Z.lxor id sign then
               if negb (Z.land sp 0x80 =? 0) then
                 if sp =? 0xD5 then 0x55 else Z.lxor (Z.lxor sp 0x55 - 1) 0x55
               else if sp =? 0x2A then 0x2A else Z.lxor (Z.lxor sp 0x55 + 1) 0x55
             else
               if negb (Z.land sp 0x80 =? 0) then
                 if sp =? 0xAA then 0xAA else Z.lxor (Z.lxor sp 0x55 + 1) 0x55
               else if sp =? 0x55 then 0xD5 else Z.lxor (Z.lxor sp 0x55 - 1) 0x55)).
(** src/g726.c:676-724 tandem_adjust_ulaw *)
Definition tandem_adjust_ulaw (sr se y i sign : Z) (table : list Z) (quantizer_states : Z) : res Z :=
  let sr := if sr <=? -32768 then 0 else sr in
  let sp := linear_to_ulaw (Z.shiftl sr 2) in
  let dx := s16 (Z.shiftr (ulaw_to_linear sp) 2 - se) in
  do id <- quantize dx y table quantizer_states;
  if id =? i then Ok (s16 sp)
  else
    Ok (s16 (if Z.lxor i sign <? Z.lxor id sign then
               if negb (Z.land sp 0x80 =? 0) then (if sp =? 0xFF then 0x7E else sp + 1)
               else (if sp =? 0x00 then 0x00 else sp - 1)
             else
               if negb (Z.land sp 0x80 =? 0) then (if sp =? 0x80 then 0x80 else sp - 1)
               else (if sp =? 0x7F then 0xFE else sp + 1))).

(** src/g726.c:730-760, 809-839, 888-918, 968-998: the encoders *)
Definition encode1 (r : rate) (s : g726) (amp : Z) : res (Z * g726) :=
  do sezi <- predictor_zero s;
  do p <- predictor_pole s;
  let sei := s16 (sezi + p) in
  let se := s16 (Z.shiftr sei 1) in
  let d := s16 (amp - se) in
  let y := step_size s in
  do i <- quantize d y (qtab r) (states r);
  do dqln <- aget (dqlntab r) i;
  do q <- reconstruct (Z.land i (sign_bit r)) dqln y;
  let sr := s16 (if q <? 0 then se - Z.land q (mag_mask r) else se + q) in
  let dqsez := s16 (sr + Z.shiftr sezi 1 - se) in
  do wi <- aget (witab r) i;
  do fi <- aget (fitab r) i;
  do s' <- update r s y wi fi q sr dqsez;
  Ok (u8 i, s').

(** src/g726.c:767-803, 846-882, 925-961, 1005-1041: the decoders *)
Definition decode1 (r : rate) (c : coding) (s : g726) (code : Z) : res (Z * g726) :=
  let code := Z.land code (code_mask r) in
  do sezi <- predictor_zero s;
  do p <- predictor_pole s;
  let sei := s16 (sezi + p) in
  let y := step_size s in
  do dqln <- aget (dqlntab r) code;
  do q <- reconstruct (Z.land code (sign_bit r)) dqln y;
  let se := s16 (Z.shiftr sei 1) in
  let sr := s16 (if q <? 0 then se - Z.land q (mag_mask r) else se + q) in
  let dqsez := s16 (sr + Z.shiftr sezi 1 - se) in
  do wi <- aget (witab r) code;
  do fi <- aget (fitab r) code;
  do s' <- update r s y wi fi q sr dqsez;
  match c with
  | ALAW => do v <- tandem_adjust_alaw sr se y code (sign_bit r) (qtab r) (states r); Ok (v, s')
  | ULAW => do v <- tandem_adjust_ulaw sr se y code (sign_bit r) (qtab r) (states r); Ok (v, s')
  | LINEAR => Ok (s16 (Z.shiftl sr 2), s')
  end.

(** A codec context: the adaptive state and the bit stream (an unsigned 32 bit word and
    the number of bits in it). *)
Record ctx := { st : g726; word : Z; residue : Z }.
Definition g726_init : ctx := {| st := init; word := 0; residue := 0 |}.

(** src/g726.c:1056-1096: the code fetched from the bit stream, and the octets left; None
    when there are no more *)
Definition fetch (r : rate) (p : packing) (w n : Z) (data : list Z) : res (option (Z * Z * Z * list Z)) :=
  let bps := bits_per_sample r in
  let m := Z.shiftl 1 bps - 1 in
  match p with
  | PNONE => match data with [] => Ok None | x :: t => Ok (Some (x, w, n, t)) end
  | PRIGHT =>
      if n <? bps then
        match data with
        | [] => Ok None
        | x :: t => do v <- shl x n; let w := Z.lor w (u32 v) in let n := n + 8 in
                    Ok (Some (u8 (Z.land w m), Z.shiftr w bps, n - bps, t))
        end
      else Ok (Some (u8 (Z.land w m), Z.shiftr w bps, n - bps, data))
  | PLEFT =>
      if n <? bps then
        match data with
        | [] => Ok None
        | x :: t => let w := Z.lor (u32 (Z.shiftl w 8)) x in let n := n + 8 in
                    do v <- shr w (n - bps); Ok (Some (u8 (Z.land v m), w, n - bps, t))
        end
      else do v <- shr w (n - bps); Ok (Some (u8 (Z.land v m), w, n - bps, data))
  end.
(** src/g726.c:1044-1106 g726_decode.  Each turn uses up at least 2 bits of the
    8 length data + residue there are. *)
Fixpoint decode_loop (r : rate) (c : coding) (p : packing) (fuel : nat) (s : g726) (w n : Z) (data : list Z)
  : res (list Z * ctx) :=
  match fuel with
  | O => UB
  | S k =>
      do f <- fetch r p w n data;
      match f with
      | None => Ok ([], {| st := s; word := w; residue := n |})
      | Some (code, w, n, data) =>
          do (sl, s) <- decode1 r c s code;
          do (out, x) <- decode_loop r c p k s w n data;
          Ok ((match c with LINEAR => s16 sl | _ => u8 sl end) :: out, x)
      end
  end.
Definition g726_decode (r : rate) (c : coding) (p : packing) (x : ctx) (data : list Z) : res (list Z * ctx) :=
  decode_loop r c p (8 * length data + Z.to_nat (residue x) + 1) (st x) (word x) (residue x) data.

(** src/g726.c:1121-1134: the input sample as 14 bit PCM *)
Definition linearize (c : coding) (x : Z) : Z :=
  match c with
  | ALAW => s16 (Z.shiftr (alaw_to_linear x) 2)
  | ULAW => s16 (Z.shiftr (ulaw_to_linear x) 2)
  | LINEAR => s16 (Z.shiftr x 2)
  end.
(** src/g726.c:1136-1168: packing one code; the octets put out *)
Definition store (r : rate) (p : packing) (w n code : Z) : res (Z * Z * list Z) :=
  let bps := bits_per_sample r in
  match p with
  | PNONE => Ok (w, n, [u8 code])
  | PRIGHT =>
      do v <- shl code n;
      let w := Z.lor w (u32 v) in
      let n := n + bps in
      if 8 <=? n then Ok (Z.shiftr w 8, n - 8, [u8 (Z.land w 0xFF)]) else Ok (w, n, [])
  | PLEFT =>
      let w := Z.lor (u32 (Z.shiftl w bps)) code in
      let n := n + bps in
      if 8 <=? n then do v <- shr w (n - 8); Ok (w, n - 8, [u8 (Z.land v 0xFF)]) else Ok (w, n, [])
  end.
(** src/g726.c:1109-1172 g726_encode *)
Fixpoint encode_loop (r : rate) (c : coding) (p : packing) (s : g726) (w n : Z) (amp : list Z) : res (list Z * ctx) :=
  match amp with
  | [] => Ok ([], {| st := s; word := w; residue := n |})
  | x :: amp =>
      do (code, s) <- encode1 r s (linearize c x);
      do (w, n, o) <- store r p w n code;
      do (out, x) <- encode_loop r c p s w n amp;
      Ok (o ++ out, x)
  end.
Definition g726_encode (r : rate) (c : coding) (p : packing) (x : ctx) (amp : list Z) : res (list Z * ctx) :=
  encode_loop r c p (st x) (word x) (residue x) amp.
