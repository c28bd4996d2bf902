(** Model of the IMA (IMA4, DVI4, VDVI) and Oki ADPCM codecs.

    src/ima_adpcm.c 118-509 and src/oki_adpcm.c 48-64, 153-257, 289-297, 338-347.
    saturate16 is src/spandsp/saturated.h 45-67.

    Not modelled: the 24 kbps mode of the Oki codec, which resamples in floating
    point around the same encode and decode functions. *)
From Verif Require Import Base.
Local Open Scope Z_scope.

Definition saturate16 (amp : Z) : Z :=
  let z := s16 amp in
  if amp =? z then z else if 32767 <? amp then 32767 else -32768.

Definition tst (x m : Z) : bool := negb (Z.land x m =? 0).

(** ---- IMA ---- *)
Definition STEP_MAX := 88.
Definition step_size : list Z :=
  [7; 8; 9; 10; 11; 12; 13; 14; 16; 17; 19; 21; 23; 25; 28; 31; 34; 37; 41; 45; 50; 55; 60; 66;
   73; 80; 88; 97; 107; 118; 130; 143; 157; 173; 190; 209; 230; 253; 279; 307;
   337; 371; 408; 449; 494; 544; 598; 658; 724; 796; 876; 963; 1060; 1166; 1282; 1411;
   1552; 1707; 1878; 2066; 2272; 2499; 2749; 3024; 3327; 3660; 4026; 4428; 4871; 5358; 5894; 6484;
   7132; 7845; 8630; 9493; 10442; 11487; 12635; 13899; 15289; 16818; 18500; 20350; 22385; 24623; 27086; 29794;
   32767].
Definition step_adjustment : list Z := [-1; -1; -1; -1; 2; 4; 6; 8].

(** struct ima_adpcm_state_s; variant and chunk_size are given as arguments. *)
Record ima := { last : Z; step_index : Z; ima_byte : Z; nbits : Z }.
Definition ima_init : ima := {| last := 0; step_index := 0; ima_byte := 0; nbits := 0 |}.

Definition clamp_step (mx i : Z) : Z := if i <? 0 then 0 else if mx <? i then mx else i.

(** decode(), 174-206: the sample, and the new last and step_index. *)
Definition decode1 (s : ima) (adpcm : Z) : res (Z * ima) :=
  do ss <- aget step_size (step_index s) ;
  let e := Z.shiftr ss 3 in
  let e := if tst adpcm 1 then e + Z.shiftr ss 2 else e in
  let e := if tst adpcm 2 then e + Z.shiftr ss 1 else e in
  let e := if tst adpcm 4 then e + ss else e in
  let e := if tst adpcm 8 then - e else e in
  let linear := saturate16 (last s + e) in
  do adj <- aget step_adjustment (Z.land adpcm 7) ;
  Ok (linear, {| last := linear; step_index := clamp_step STEP_MAX (step_index s + adj);
                 ima_byte := ima_byte s; nbits := nbits s |}).

(** encode(), 209-264 *)
Definition encode1 (s : ima) (linear : Z) : res (Z * ima) :=
  do ss <- aget step_size (step_index s) ;
  let initial_e := linear - last s in
  let e := initial_e in
  let diff := Z.shiftr ss 3 in
  let adpcm := 0 in
  let '(adpcm, e) := if e <? 0 then (8, - e) else (adpcm, e) in
  let '(adpcm, e) := if ss <=? e then (Z.lor adpcm 4, e - ss) else (adpcm, e) in
  let ss := Z.shiftr ss 1 in
  let '(adpcm, e) := if ss <=? e then (Z.lor adpcm 2, e - ss) else (adpcm, e) in
  let ss := Z.shiftr ss 1 in
  let '(adpcm, e) := if ss <=? e then (Z.lor adpcm 1, e - ss) else (adpcm, e) in
  let diff := if initial_e <? 0 then - (diff - initial_e - e) else diff + initial_e - e in
  do adj <- aget step_adjustment (Z.land adpcm 7) ;
  Ok (u8 adpcm, {| last := saturate16 (diff + last s); step_index := clamp_step STEP_MAX (step_index s + adj);
                   ima_byte := ima_byte s; nbits := nbits s |}).

Inductive variant := IMA4 | DVI4 | VDVI.

Definition vdvi_encode : list (Z * Z) :=
  [(0x00, 2); (0x02, 3); (0x0C, 4); (0x1C, 5); (0x3C, 6); (0x7C, 7); (0xFC, 8); (0xFE, 8);
   (0x02, 2); (0x03, 3); (0x0D, 4); (0x1D, 5); (0x3D, 6); (0x7D, 7); (0xFD, 8); (0xFF, 8)].
Definition vdvi_decode : list (Z * Z * Z) :=
  [(0x0000, 0xC000, 2); (0x4000, 0xE000, 3); (0xC000, 0xF000, 4); (0xE000, 0xF800, 5);
   (0xF000, 0xFC00, 6); (0xF800, 0xFE00, 7); (0xFC00, 0xFF00, 8); (0xFE00, 0xFF00, 8);
   (0x8000, 0xC000, 2); (0x6000, 0xE000, 3); (0xD000, 0xF000, 4); (0xE800, 0xF800, 5);
   (0xF400, 0xFC00, 6); (0xFA00, 0xFE00, 7); (0xFD00, 0xFF00, 8); (0xFF00, 0xFF00, 8)].
(** Table accesses; outside the table is UB. *)
Definition getp {A} (l : list A) (i : Z) : res A :=
  if (0 <=? i) && (i <? Z.of_nat (length l)) then match nth_error l (Z.to_nat i) with Some x => Ok x | None => UB end else UB.

Definition with_byte (s : ima) (b : Z) := {| last := last s; step_index := step_index s; ima_byte := b; nbits := nbits s |}.
Definition with_bits (s : ima) (n : Z) := {| last := last s; step_index := step_index s; ima_byte := ima_byte s; nbits := n |}.

(** The 4 bit variants' loop in ima_adpcm_encode, 447-454 and 469-475. *)
Fixpoint enc4 (v : variant) (s : ima) (amp : list Z) : res (list Z * ima) :=
  match amp with
  | [] => Ok ([], s)
  | a :: t =>
      do (c, s1) <- encode1 s a ;
      let b := match v with
               | IMA4 => u8 (Z.lor (Z.shiftr (ima_byte s1) 4) (Z.shiftl c 4))
               | _ => u8 (Z.lor (Z.shiftl (ima_byte s1) 4) c)
               end in
      let s2 := with_bits (with_byte s1 b) (nbits s1 + 1) in
      do (out, s3) <- enc4 v s2 t ;
      Ok (if tst (nbits s1) 1 then u8 b :: out else out, s3)
  end.
(** The VDVI loop, 489-500, and the last octet, 502-503. *)
Fixpoint encv (s : ima) (amp : list Z) : res (list Z * ima) :=
  match amp with
  | [] => Ok (if negb (nbits s =? 0) then [u8 (Z.shiftr (Z.lor (Z.shiftl (ima_byte s) 8) 255) (nbits s))] else [], s)
  | a :: t =>
      do (c, s1) <- encode1 s a ;
      do (code, n) <- getp vdvi_encode c ;
      let s2 := with_bits (with_byte s1 (u16 (Z.lor (Z.shiftl (ima_byte s1) n) code))) (nbits s1 + n) in
      if 8 <=? nbits s2 then
        let s3 := with_bits s2 (nbits s2 - 8) in
        do (out, s4) <- encv s3 t ;
        Ok (u8 (Z.shiftr (ima_byte s3) (nbits s3)) :: out, s4)
      else encv s2 t
  end.

(** ima_adpcm_encode, 424-509; [chunked] is chunk_size != 0. *)
Definition header (s : ima) : list Z := [u8 (Z.shiftr (last s) 8); u8 (last s); u8 (step_index s); 0].
Definition ima_adpcm_encode (v : variant) (chunked : bool) (s : ima) (amp : list Z) : res (list Z * ima) :=
  match v with
  | IMA4 =>
      if chunked then enc4 v s amp
      else
        do a0 <- aget amp 0 ;
        let hd := [u8 a0; u8 (Z.shiftr a0 8); u8 (step_index s); 0] in
        let s1 := {| last := a0; step_index := step_index s; ima_byte := ima_byte s; nbits := 0 |} in
        do (out, s2) <- enc4 v s1 (skipn 1 amp) ;
        Ok (hd ++ out, s2)
  | DVI4 =>
      do (out, s1) <- enc4 v s amp ;
      Ok (if chunked then out else header s ++ out, s1)
  | VDVI =>
      do (out, s1) <- encv (with_bits s 0) amp ;
      Ok (if chunked then out else header s ++ out, s1)
  end.

(** The 4 bit variants' loop in ima_adpcm_decode. *)
Fixpoint dec4 (v : variant) (s : ima) (data : list Z) : res (list Z * ima) :=
  match data with
  | [] => Ok ([], s)
  | b :: t =>
      let lo := Z.land b 15 in
      let hi := Z.land (Z.shiftr b 4) 15 in
      do (a1, s1) <- decode1 s (match v with IMA4 => lo | _ => hi end) ;
      do (a2, s2) <- decode1 s1 (match v with IMA4 => hi | _ => lo end) ;
      do (out, s3) <- dec4 v s2 t ;
      Ok (a1 :: a2 :: out, s3)
  end.

(** The search for the code, 355-366 and 375-386; [j] counts up to 8. *)
Fixpoint vdvi_find (n : nat) (j code : Z) : res Z :=
  match n with
  | O => Ok j
  | S n =>
      do (cm1, b1) <- getp vdvi_decode j ;
      if Z.land (snd cm1) code =? fst cm1 then Ok j
      else
        do (cm2, b2) <- getp vdvi_decode (j + 8) ;
        if Z.land (snd cm2) code =? fst cm2 then Ok (j + 8)
        else vdvi_find n (j + 1) code
  end.
(** Running out of fuel is an error, so a result shows that the loops end. *)
Fixpoint decv_tail (fuel : nat) (s : ima) (code : Z) : res (list Z * ima) :=
  match fuel with
  | O => UB
  | S fuel =>
      if 0 <? nbits s then
        do j <- vdvi_find 8 0 code ;
        do (cm, n) <- getp vdvi_decode j ;
        if nbits s <? n then Ok ([], s)
        else
          do (a, s1) <- decode1 s j ;
          do (out, s2) <- decv_tail fuel (with_bits s1 (nbits s1 - n)) (u16 (Z.shiftl code n)) ;
          Ok (a :: out, s2)
      else Ok ([], s)
  end.
Fixpoint decv (fuel : nat) (s : ima) (code : Z) (data : list Z) : res (list Z * ima) :=
  match fuel with
  | O => UB
  | S fuel =>
      let go s code data :=
        do j <- vdvi_find 8 0 code ;
        do (a, s1) <- decode1 s j ;
        do (cm, n) <- getp vdvi_decode j ;
        do (out, s2) <- decv fuel (with_bits s1 (nbits s1 - n)) (u16 (Z.shiftl code n)) data ;
        Ok (a :: out, s2) in
      if nbits s <=? 8 then
        match data with
        | [] => decv_tail (Z.to_nat (nbits s) + 1) s code
        | b :: t => go (with_bits s (nbits s + 8)) (u16 (Z.lor code (Z.shiftl b (8 - nbits s)))) t
        end
      else go s code data
  end.

(** ima_adpcm_decode, 302-421. *)
Definition ima_adpcm_decode (v : variant) (chunked : bool) (s : ima) (data : list Z) : res (list Z * ima) :=
  let body s data :=
    match v with
    | VDVI => decv (8 * length data + 1) (with_bits s 0) 0 data
    | _ => dec4 v s data
    end in
  if chunked then body s data
  else
    do b0 <- aget data 0 ;
    do b1 <- aget data 1 ;
    do b2 <- aget data 2 ;
    let l := match v with IMA4 => s16 (Z.lor (Z.shiftl b1 8) b0) | _ => s16 (Z.lor (Z.shiftl b0 8) b1) end in
    let s1 := {| last := l; step_index := b2; ima_byte := ima_byte s; nbits := nbits s |} in
    do (out, s2) <- body s1 (skipn 4 data) ;
    Ok (match v with IMA4 => l :: out | _ => out end, s2).

(** ---- Oki, at 32 kbps ---- *)
Definition oki_step_size : list Z :=
  [16; 17; 19; 21; 23; 25; 28; 31; 34; 37; 41; 45; 50; 55; 60; 66; 73; 80; 88; 97; 107; 118; 130; 143;
   157; 173; 190; 209; 230; 253; 279; 307; 337; 371; 408; 449; 494; 544; 598; 658;
   724; 796; 876; 963; 1060; 1166; 1282; 1411; 1552].
(** last and step_index are int16_t; oki_byte uint8_t; mark int. *)
Record oki := { olast : Z; ostep : Z; obyte : Z; omark : Z }.
Definition oki_init : oki := {| olast := 0; ostep := 0; obyte := 0; omark := 0 |}.
Definition oki_decode1 (s : oki) (adpcm : Z) : res (Z * oki) :=
  do ss <- aget oki_step_size (ostep s) ;
  let d := Z.shiftr ss 3 in
  let d := if tst adpcm 1 then s16 (d + Z.shiftr ss 2) else d in
  let d := if tst adpcm 2 then s16 (d + Z.shiftr ss 1) else d in
  let d := if tst adpcm 4 then s16 (d + ss) else d in
  let d := if tst adpcm 8 then s16 (- d) else d in
  let linear := s16 (olast s + d) in
  let linear := if 2047 <? linear then 2047 else if linear <? -2048 then -2048 else linear in
  do adj <- aget step_adjustment (Z.land adpcm 7) ;
  Ok (linear, {| olast := linear; ostep := clamp_step 48 (s16 (ostep s + adj)); obyte := obyte s; omark := omark s |}).
Definition oki_encode1 (s : oki) (linear : Z) : res (Z * oki) :=
  do ss <- aget oki_step_size (ostep s) ;
  let d := s16 (Z.shiftr linear 4 - olast s) in
  let adpcm := 0 in
  let '(adpcm, d) := if d <? 0 then (8, s16 (- d)) else (adpcm, d) in
  let '(adpcm, d) := if ss <=? d then (Z.lor adpcm 4, s16 (d - ss)) else (adpcm, d) in
  let '(adpcm, d) := if Z.shiftr ss 1 <=? d then (Z.lor adpcm 2, s16 (d - Z.shiftr ss 1)) else (adpcm, d) in
  let adpcm := if Z.shiftr ss 2 <=? d then Z.lor adpcm 1 else adpcm in
  do (l, s1) <- oki_decode1 s adpcm ;
  Ok (adpcm, {| olast := l; ostep := ostep s1; obyte := obyte s1; omark := omark s1 |}).
Fixpoint oki_adpcm_encode (s : oki) (amp : list Z) : res (list Z * oki) :=
  match amp with
  | [] => Ok ([], s)
  | a :: t =>
      do (c, s1) <- oki_encode1 s a ;
      let b := u8 (Z.lor (Z.shiftl (obyte s1) 4) c) in
      let s2 := {| olast := olast s1; ostep := ostep s1; obyte := b; omark := omark s1 + 1 |} in
      do (out, s3) <- oki_adpcm_encode s2 t ;
      Ok (if tst (omark s1) 1 then b :: out else out, s3)
  end.
(** decode(...) << 4 *)
Fixpoint oki_adpcm_decode (s : oki) (data : list Z) : res (list Z * oki) :=
  match data with
  | [] => Ok ([], s)
  | b :: t =>
      do (a1, s1) <- oki_decode1 s (Z.land (Z.shiftr b 4) 15) ;
      do (a2, s2) <- oki_decode1 s1 (Z.land b 15) ;
      do (out, s3) <- oki_adpcm_decode s2 t ;
      Ok (s16 (a1 * 16) :: s16 (a2 * 16) :: out, s3)
  end.

(** The prediction and step index, as the specification sees them. *)
Definition st (s : ima) : Z * Z := (last s, step_index s).
Definition ost (s : oki) : Z * Z := (olast s, ostep s).
