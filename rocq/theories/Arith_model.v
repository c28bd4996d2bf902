(** Model of src/t81_t82_arith_coding.c and private/t81_t82_arith_coding.h: the
    QM arithmetic coder of T.81 and T.82.

    The output callback is a list of the octets it is given.  The decoder's
    pscd_ptr/pscd_end pair is the list of the octets between them.  The registers a
    and c wrap as uint32_t.  [sc], an int32_t counting held back 0xFF octets, is
    unbounded (it would take 2^31 of them in a row).  Allocation, release and free are
    not modelled. *)
From Verif Require Import Base.

(* t81_t82_arith_coding.c:62-182, field lsz *)
Definition lsz_tab : list Z :=
  [23069; 9606; 4372; 2059; 984; 474; 229; 111; 54; 26; 13; 6; 3; 1;
   23167; 16165; 11506; 8316; 6073; 4482; 3311; 2465; 1839; 1372; 1030; 771; 576; 433;
   324; 245; 183; 138; 104; 78; 59; 44; 23265; 18508; 14861; 12017; 9759; 7987;
   6568; 5400; 4471; 3700; 3067; 2552; 2145; 1798; 1485; 1246; 1039; 867; 724; 604;
   504; 420; 352; 293; 246; 203; 171; 143; 23314; 19716; 16684; 14296; 12264; 10556;
   9081; 7903; 6825; 5966; 5156; 4508; 3947; 3409; 2998; 2624; 22578; 19740; 17294; 15325;
   13550; 11950; 10650; 9494; 21872; 19625; 17625; 15906; 14372; 12980; 11799; 22184; 20294; 18405;
   16847; 15421; 14174; 21041; 19471; 17977; 16734; 22055; 20711; 19333; 21911; 20559; 23056; 21794;
   23019].

(* field nlps, with the SWITCH bit on top *)
Definition nlps_tab : list Z :=
  [129; 14; 16; 18; 20; 23; 25; 28; 30; 33; 35; 9; 10; 12;
   143; 36; 38; 39; 40; 42; 43; 45; 46; 48; 49; 51; 52; 54;
   56; 57; 59; 60; 62; 63; 32; 33; 165; 64; 65; 67; 68; 69;
   70; 72; 73; 74; 75; 77; 78; 79; 48; 50; 50; 51; 52; 53;
   54; 55; 56; 57; 58; 59; 61; 61; 193; 80; 81; 82; 83; 84;
   86; 87; 87; 72; 72; 74; 74; 75; 77; 77; 208; 88; 89; 90;
   91; 92; 93; 86; 216; 95; 96; 97; 99; 99; 93; 223; 101; 102;
   103; 104; 99; 105; 106; 107; 103; 233; 108; 109; 110; 111; 238; 112;
   240].

(* field nmps *)
Definition nmps_tab : list Z :=
  [1; 2; 3; 4; 5; 6; 7; 8; 9; 10; 11; 12; 13; 13;
   15; 16; 17; 18; 19; 20; 21; 22; 23; 24; 25; 26; 27; 28;
   29; 30; 31; 32; 33; 34; 35; 9; 37; 38; 39; 40; 41; 42;
   43; 44; 45; 46; 47; 48; 49; 50; 51; 52; 53; 54; 55; 56;
   57; 58; 59; 60; 61; 62; 63; 32; 65; 66; 67; 68; 69; 70;
   71; 72; 73; 74; 75; 76; 77; 78; 79; 48; 81; 82; 83; 84;
   85; 86; 87; 71; 89; 90; 91; 92; 93; 94; 86; 96; 97; 98;
   99; 100; 93; 102; 103; 104; 99; 106; 107; 103; 109; 107; 111; 109;
   111].

(* t81_t82_arith_coding.c:55-59 *)
Definition STUFF : Z := 0.
Definition ESC : Z := 255.

(* private/t81_t82_arith_coding.h:33-51 *)
Record enc := mkEnc { ea : Z; ec : Z; est : list Z; esc : Z; ect : Z; ebuf : Z }.

(* t81_t82_arith_coding.c:184-190 *)
Definition output_stuffed_byte (b : Z) : list Z := if b =? ESC then [b; STUFF] else [b].

(* [while (sc) ...]: the held back octets *)
Definition held (sc : Z) (out : list Z) : list Z := concat (repeat out (Z.to_nat sc)).

(* t81_t82_arith_coding.c:193-232 *)
Definition byteout (s : enc) : enc * list Z :=
  let temp := Z.shiftr (ec s) 19 in
  let c' := Z.land (ec s) 0x7FFFF in
  if 0xFF <? temp then
    (mkEnc (ea s) c' (est s) 0 8 (Z.land temp 0xFF),
     (if 0 <=? ebuf s then output_stuffed_byte (ebuf s + 1) else []) ++ held (esc s) [0])
  else if temp =? 0xFF then
    (mkEnc (ea s) c' (est s) (esc s + 1) 8 (ebuf s), [])
  else
    (mkEnc (ea s) c' (est s) 0 8 temp,
     (if 0 <=? ebuf s then output_stuffed_byte (ebuf s) else []) ++ held (esc s) (output_stuffed_byte ESC)).

(* t81_t82_arith_coding.c:235-248; the do-while loop *)
Fixpoint renorme (fuel : nat) (s : enc) : res (enc * list Z) :=
  match fuel with
  | O => UB
  | S f =>
      let s1 := mkEnc (u32 (Z.shiftl (ea s) 1)) (u32 (Z.shiftl (ec s) 1)) (est s) (esc s) (ect s - 1) (ebuf s) in
      let (s2, o) := if ect s1 =? 0 then byteout s1 else (s1, []) in
      if ea s2 <? 0x8000 then
        do (s3, o') <- renorme f s2; Ok (s3, o ++ o')
      else Ok (s2, o)
  end.
(** Enough for any a that is not 0; with a = 0 the C code would not terminate. *)
Definition renorm_fuel : nat := 40%nat.

(* t81_t82_arith_coding.c:251-288 *)
Definition t81_t82_arith_encode (s : enc) (cx pix : Z) : res (enc * list Z) :=
  do st <- aget (est s) cx;
  let ss := Z.land st 0x7F in
  do lsz <- aget lsz_tab ss;
  do nlps <- aget nlps_tab ss;
  do nmps <- aget nmps_tab ss;
  let a1 := u32 (ea s - lsz) in
  if negb (Z.land (Z.lxor (Z.shiftl pix 7) st) 0x80 =? 0) then
    (* CODELPS *)
    let (a2, c2) := if lsz <=? a1 then (lsz, u32 (ec s + a1)) else (a1, ec s) in
    do st' <- aset (est s) cx (u8 (Z.lxor (Z.land st 0x80) nlps));
    renorme renorm_fuel (mkEnc a2 c2 st' (esc s) (ect s) (ebuf s))
  else
    (* CODEMPS *)
    if a1 <? 0x8000 then
      let (a2, c2) := if a1 <? lsz then (lsz, u32 (ec s + a1)) else (a1, ec s) in
      do st' <- aset (est s) cx (u8 (Z.lor (Z.land st 0x80) nmps));
      renorme renorm_fuel (mkEnc a2 c2 st' (esc s) (ect s) (ebuf s))
    else Ok (mkEnc a1 (ec s) (est s) (esc s) (ect s) (ebuf s), []).

(* t81_t82_arith_coding.c:291-343; the state is left for a restart, so only the
   fields that survive one matter *)
Definition t81_t82_arith_encode_flush (s : enc) : enc * list Z :=
  let temp := Z.land (u32 (ec s + ea s - 1)) 0xFFFF0000 in
  let c1 := if temp <? ec s then u32 (temp + 0x8000) else temp in
  let c2 := u32 (Z.shiftl c1 (ect s)) in
  let tail :=
    if negb (Z.land c2 0x7FFF800 =? 0) then
      output_stuffed_byte (Z.land (Z.shiftr c2 19) 0xFF) ++
      (if negb (Z.land c2 0x7F800 =? 0) then output_stuffed_byte (Z.land (Z.shiftr c2 11) 0xFF) else [])
    else [] in
  if 0x7FFFFFF <? c2 then
    (mkEnc (ea s) c2 (est s) (if negb (Z.land c2 0x7FFF800 =? 0) then 0 else esc s) (ect s) (ebuf s),
     (if 0 <=? ebuf s then output_stuffed_byte (ebuf s + 1) else []) ++
     (if negb (Z.land c2 0x7FFF800 =? 0) then held (esc s) (output_stuffed_byte 0) else []) ++ tail)
  else
    (mkEnc (ea s) c2 (est s) 0 (ect s) (ebuf s),
     (if 0 <=? ebuf s then output_stuffed_byte (ebuf s) else []) ++ held (esc s) (output_stuffed_byte 0xFF) ++ tail).

Definition st_zero : list Z := repeat 0 (Z.to_nat 4096).

(* t81_t82_arith_coding.c:346-358 *)
Definition t81_t82_arith_encode_restart (s : enc) (reuse_st : bool) : enc :=
  mkEnc 0x10000 0 (if reuse_st then est s else st_zero) 0 11 (-1).
(* t81_t82_arith_coding.c:361-378 *)
Definition t81_t82_arith_encode_init : enc :=
  t81_t82_arith_encode_restart (mkEnc 0 0 st_zero 0 0 0) false.

(* private/t81_t82_arith_coding.h:54-77 *)
Record dec := mkDec { da : Z; dc : Z; dst : list Z; dct : Z; dstartup : bool; dnopadding : bool }.

(** Outcome of the inner refill loop: carry on with the outer loop, or leave
    t81_t82_arith_decode with a code. *)
Inductive refilled := Filled (c ct : Z) (nopad : bool) (inp : list Z) | Leave (r c ct : Z) (nopad : bool) (inp : list Z).

(* t81_t82_arith_coding.c:405-438; at most two octets are moved in *)
Fixpoint refill (fuel : nat) (c ct : Z) (nopad : bool) (inp : list Z) : res refilled :=
  match fuel with
  | O => UB
  | S f =>
      if (ct <=? 8) && (0 <=? ct) then
        match inp with
        | [] => Ok (Leave (-1) c ct nopad inp)
        | b :: t =>
            if b =? ESC then
              match t with
              | [] => Ok (Leave (-1) c ct nopad inp)
              | m :: t' =>
                  if m =? STUFF then refill f (Z.lor c (Z.shiftl 0xFF (8 - ct))) (ct + 8) nopad t'
                  else if nopad then Ok (Leave (-2) c (-1) false inp)
                  else refill f c (-1) nopad inp
              end
            else refill f (Z.lor c (Z.shiftl b (8 - ct))) (ct + 8) nopad t
        end
      else Ok (Filled c ct nopad inp)
  end.

(* t81_t82_arith_coding.c:403-448; [inl]: return the code, [inr]: go on to decode *)
Fixpoint renormd (fuel : nat) (s : dec) (inp : list Z) : res ((Z + unit) * dec * list Z) :=
  match fuel with
  | O => UB
  | S f =>
      if (da s <? 0x8000) || dstartup s then
        do r <- refill 4 (dc s) (dct s) (dnopadding s) inp;
        match r with
        | Leave code c ct np inp' => Ok (inl code, mkDec (da s) c (dst s) ct (dstartup s) np, inp')
        | Filled c ct np inp' =>
            let a' := u32 (Z.shiftl (da s) 1) in
            renormd f (mkDec a' (u32 (Z.shiftl c 1)) (dst s) (if 0 <=? ct then ct - 1 else ct)
                             (if a' =? 0x10000 then false else dstartup s) np) inp'
        end
      else Ok (inr tt, s, inp)
  end.

(* t81_t82_arith_coding.c:452-495 *)
Definition decode_pixel (s : dec) (cx : Z) : res (Z * dec) :=
  do st <- aget (dst s) cx;
  let ss := Z.land st 0x7F in
  do lsz <- aget lsz_tab ss;
  do nlps <- aget nlps_tab ss;
  do nmps <- aget nmps_tab ss;
  let a1 := u32 (da s - lsz) in
  let mps := Z.shiftr st 7 in
  let to_m := u8 (Z.lor (Z.land st 0x80) nmps) in
  let to_l := u8 (Z.lxor (Z.land st 0x80) nlps) in
  if a1 <=? Z.shiftr (dc s) 16 then
    let c1 := u32 (dc s - u32 (Z.shiftl a1 16)) in
    if a1 <? lsz then
      do st' <- aset (dst s) cx to_m;
      Ok (mps, mkDec lsz c1 st' (dct s) (dstartup s) (dnopadding s))
    else
      do st' <- aset (dst s) cx to_l;
      Ok (1 - mps, mkDec lsz c1 st' (dct s) (dstartup s) (dnopadding s))
  else
    if a1 <? 0x8000 then
      if a1 <? lsz then
        do st' <- aset (dst s) cx to_l;
        Ok (1 - mps, mkDec a1 (dc s) st' (dct s) (dstartup s) (dnopadding s))
      else
        do st' <- aset (dst s) cx to_m;
        Ok (mps, mkDec a1 (dc s) st' (dct s) (dstartup s) (dnopadding s))
    else Ok (mps, mkDec a1 (dc s) (dst s) (dct s) (dstartup s) (dnopadding s)).

(* t81_t82_arith_coding.c:397-498: the return value, the state and the octets not
   yet used *)
Definition t81_t82_arith_decode (s : dec) (cx : Z) (inp : list Z) : res (Z * dec * list Z) :=
  do (r, s1, inp1) <- renormd renorm_fuel s inp;
  match r with
  | inl code => Ok (code, s1, inp1)
  | inr _ => do (pix, s2) <- decode_pixel s1 cx; Ok (pix, s2, inp1)
  end.

(* t81_t82_arith_coding.c:501-512 *)
Definition t81_t82_arith_decode_restart (s : dec) (reuse_st : bool) : dec :=
  mkDec 1 0 (if reuse_st then dst s else st_zero) 0 true false.
(* t81_t82_arith_coding.c:515-526 *)
Definition t81_t82_arith_decode_init : dec :=
  t81_t82_arith_decode_restart (mkDec 0 0 st_zero 0 false false) false.

(** Whole runs. *)
Fixpoint encode_all (s : enc) (ds : list (Z * Z)) : res (enc * list Z) :=
  match ds with
  | [] => Ok (s, [])
  | (cx, pix) :: t =>
      do (s1, o1) <- t81_t82_arith_encode s cx pix;
      do (s2, o2) <- encode_all s1 t;
      Ok (s2, o1 ++ o2)
  end.
Fixpoint decode_all (s : dec) (cxs : list Z) (inp : list Z) : res (list Z * dec * list Z) :=
  match cxs with
  | [] => Ok ([], s, inp)
  | cx :: t =>
      do (p, s1, inp1) <- t81_t82_arith_decode s cx inp;
      do (ps, s2, inp2) <- decode_all s1 t inp1;
      Ok (p :: ps, s2, inp2)
  end.
