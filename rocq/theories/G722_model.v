(** Model of the G.722 wideband codec, src/g722.c 57-660, src/spandsp/private/g722.h and the
    saturating arithmetic of src/spandsp/saturated.h.

    int16_t variables are wrapped by [s16] where they are assigned something that is not an
    int16_t already, int and int32_t ones are left as integers; sums of products, which
    might overflow an int32_t, are checked by [i32] (a product of two int16_t cannot).  An
    access outside a table or an array is UB, and so is reading the input past its end.  A
    left shift of a negative number is multiplication, as the compilers spandsp is built
    with define it.

    The bit rate given to g722_encode_init and g722_decode_init is the type [rate]; any rate
    other than 48000 and 56000 is taken as 64000.  The buffers g722_data and amp that are
    written are returned as lists.  itu_test_mode is a field the test suite sets itself. *)
From Verif Require Import Base.
Local Open Scope Z_scope.

(** ---- src/spandsp/saturated.h:45-90, 206-232, 268-292; the assembler of sat_add16 and
    sat_sub16 does the same as their C ---- *)
Definition saturate16 (x : Z) : Z := if x =? s16 x then s16 x else if 32767 <? x then 32767 else -32768.
Definition saturate15 (x : Z) : Z := if 16383 <? x then 16383 else if x <? -16384 then -16384 else s16 x.
Definition sat_add16 (x y : Z) : Z := saturate16 (x + y).
Definition sat_sub16 (x y : Z) : Z := saturate16 (x - y).
Definition i32 (x : Z) : res Z := if (-2147483648 <=? x) && (x <=? 2147483647) then Ok x else UB.

(** ---- src/g722.c:58-188: the tables ---- *)
Definition qmf_fwd : list Z := [3; -11; 12; 32; -210; 951; 3876; -805; 362; -156; 53; -11].
Definition qmf_rev : list Z := [-11; 53; -156; 362; -805; 3876; 951; -210; 32; 12; -11; 3].
Definition qm2 : list Z := [-7408; -1616; 7408; 1616].
Definition qm4 : list Z :=
  [0; -20456; -12896; -8968; -6288; -4240; -2584; -1200; 20456; 12896; 8968; 6288; 4240; 2584; 1200; 0].
Definition qm5 : list Z :=
  [-280; -280; -23352; -17560; -14120; -11664; -9752; -8184; -6864; -5712; -4696; -3784; -2960; -2208; -1520; -880;
   23352; 17560; 14120; 11664; 9752; 8184; 6864; 5712; 4696; 3784; 2960; 2208; 1520; 880; 280; -280].
Definition qm6 : list Z :=
  [-136; -136; -136; -136; -24808; -21904; -19008; -16704; -14984; -13512; -12280; -11192; -10232; -9360; -8576; -7856;
   -7192; -6576; -6000; -5456; -4944; -4464; -4008; -3576; -3168; -2776; -2400; -2032; -1688; -1360; -1040; -728;
   24808; 21904; 19008; 16704; 14984; 13512; 12280; 11192; 10232; 9360; 8576; 7856; 7192; 6576; 6000; 5456;
   4944; 4464; 4008; 3576; 3168; 2776; 2400; 2032; 1688; 1360; 1040; 728; 432; 136; -432; -136].
Definition q6 : list Z :=
  [0; 35; 72; 110; 150; 190; 233; 276; 323; 370; 422; 473; 530; 587; 650; 714; 786; 858; 940; 1023;
   1121; 1219; 1339; 1458; 1612; 1765; 1980; 2195; 2557; 2919; 0; 0].
Definition ilb : list Z :=
  [2048; 2093; 2139; 2186; 2233; 2282; 2332; 2383; 2435; 2489; 2543; 2599; 2656; 2714; 2774; 2834;
   2896; 2960; 3025; 3091; 3158; 3228; 3298; 3371; 3444; 3520; 3597; 3676; 3756; 3838; 3922; 4008].
Definition iln : list Z :=
  [0; 63; 62; 31; 30; 29; 28; 27; 26; 25; 24; 23; 22; 21; 20; 19; 18; 17; 16; 15; 14; 13; 12; 11; 10; 9; 8; 7; 6; 5; 4; 0].
Definition ilp : list Z :=
  [0; 61; 60; 59; 58; 57; 56; 55; 54; 53; 52; 51; 50; 49; 48; 47; 46; 45; 44; 43; 42; 41; 40; 39; 38; 37; 36; 35; 34; 33; 32; 0].
Definition ihn : list Z := [0; 1; 0].
Definition ihp : list Z := [0; 3; 2].
Definition wl : list Z := [-60; -30; 58; 172; 334; 538; 1198; 3042].
Definition rl42 : list Z := [0; 7; 6; 5; 4; 3; 2; 1; 7; 6; 5; 4; 3; 2; 1; 0].
Definition wh : list Z := [0; -214; 798].
Definition rh2 : list Z := [2; 1; 2; 1].

(** ---- src/spandsp/private/g722.h:38-49 ---- *)
Record band := { nb : Z; det : Z; sig : Z; sz : Z; rr : Z; p0 : Z; p1 : Z; a0 : Z; a1 : Z; bb : list Z; dd : list Z }.

(** src/g722.c:241-251: the zeros.  [k] is i + 1. *)
Definition differ (x y : Z) : bool := negb (Z.land (Z.lxor x y) 0x8000 =? 0).
Fixpoint zeros (k : nat) (dx wd1 z : Z) (b d : list Z) : res (Z * list Z * list Z) :=
  match k with
  | O => Ok (z, b, d)
  | S k =>
      let i := Z.of_nat k in
      do d1 <- aget d (i + 1);
      let wd2 := s16 (if differ d1 dx then - wd1 else wd1) in
      do bi <- aget b i;
      let wd3 := s16 (Z.shiftr (bi * 32640) 15) in
      let bi := sat_add16 wd2 wd3 in
      do b <- aset b i bi;
      do di <- aget d i;
      let wd3 := sat_add16 di di in
      do z <- i32 (z + Z.shiftr (bi * wd3) 15);
      do d <- aset d (i + 1) di;
      zeros k dx wd1 z b d
  end.
(** src/g722.c:190-257 block4 *)
Definition block4 (s : band) (dx : Z) : res band :=
  let r := sat_add16 (sig s) dx in
  let p := sat_add16 (sz s) dx in
  (* UPPOL2 *)
  let wd1 := saturate16 (Z.shiftl (a0 s) 2) in
  let wd32 := if differ p (p0 s) then wd1 else - wd1 in
  let wd32 := if 32767 <? wd32 then 32767 else wd32 in
  let wd3 := s16 ((if differ p (p1 s) then -128 else 128) + Z.shiftr wd32 7 + Z.shiftr (a1 s * 32512) 15) in
  let ap1 := if 12288 <? Z.abs wd3 then (if wd3 <? 0 then -12288 else 12288) else wd3 in
  (* UPPOL1 *)
  let wd1 := if differ p (p0 s) then -192 else 192 in
  let wd2 := s16 (Z.shiftr (a0 s * 32640) 15) in
  let ap0 := sat_add16 wd1 wd2 in
  let wd3 := sat_sub16 15360 ap1 in
  let ap0 := s16 (if wd3 <? Z.abs ap0 then (if ap0 <? 0 then - wd3 else wd3) else ap0) in
  (* FILTEP *)
  let wd1 := sat_add16 r r in
  let wd1 := s16 (Z.shiftr (ap0 * wd1) 15) in
  let wd2 := sat_add16 (rr s) (rr s) in
  let wd2 := s16 (Z.shiftr (ap1 * wd2) 15) in
  let sp := sat_add16 wd1 wd2 in
  (* UPZERO, DELAYA, FILTEZ *)
  do d <- aset (dd s) 0 dx;
  do (z, b, d) <- zeros 6 dx (if dx =? 0 then 0 else 128) 0 (bb s) d;
  let z := saturate16 z in
  (* PREDIC *)
  Ok {| nb := nb s; det := det s; sig := sat_add16 sp z; sz := z; rr := r; p0 := p; p1 := p0 s;
        a0 := ap0; a1 := ap1; bb := b; dd := d |}.

Definition set_scale (s : band) (n d : Z) : band :=
  {| nb := n; det := d; sig := sig s; sz := sz s; rr := rr s; p0 := p0 s; p1 := p1 s; a0 := a0 s; a1 := a1 s;
     bb := bb s; dd := dd s |}.
(** src/g722.c:344-347 (and 386-389, 543-546, 587-590, with 10 in place of 8) *)
Definition scale (k n : Z) : res Z :=
  do v <- aget ilb (Z.land (Z.shiftr n 6) 31);
  let wd2 := k - Z.shiftr n 11 in
  let wd3 := if wd2 <? 0 then Z.shiftl v (- wd2) else Z.shiftr v wd2 in
  Ok (s16 (Z.shiftl wd3 2)).

(** src/spandsp/private/g722.h:55-110.  The encoder and the decoder have the same fields,
    but for the names out_buffer, out_bits, in_buffer and in_bits. *)
Inductive rate := R48 | R56 | R64.
Definition bps (r : rate) : Z := match r with R48 => 6 | R56 => 7 | R64 => 8 end.
Record cfg := { bits : rate; itu : bool; packed : bool; eight_k : bool }.
Record ctx := { xs : list Z; ys : list Z; ptr : Z; low : band; high : band; buf : Z; nbits : Z }.
(** src/g722.c:427-458, 634-663: the options of the init functions *)
Definition options (r : rate) (eight pack : bool) : cfg :=
  {| bits := r; itu := false; packed := match r with R64 => false | _ => pack end; eight_k := eight |}.
Definition band_init (d : Z) : band :=
  {| nb := 0; det := d; sig := 0; sz := 0; rr := 0; p0 := 0; p1 := 0; a0 := 0; a1 := 0;
     bb := [0; 0; 0; 0; 0; 0]; dd := [0; 0; 0; 0; 0; 0; 0] |}.
Definition g722_init : ctx :=
  {| xs := repeat 0 12; ys := repeat 0 12; ptr := 0; low := band_init 32; high := band_init 8; buf := 0; nbits := 0 |}.

(** src/vector_int.c:50-270: the dot product of a circular buffer *)
Fixpoint dot (x y : list Z) : Z :=
  match x, y with a :: x, b :: y => a * b + dot x y | _, _ => 0 end.
Definition circular_dot (x y : list Z) (pos : Z) : res Z :=
  do a <- i32 (dot (skipn (Z.to_nat pos) x) y);
  do b <- i32 (dot (firstn (Z.to_nat pos) x) (skipn (Z.to_nat (12 - pos)) y));
  i32 (a + b).
Definition next_ptr (p : Z) : Z := if 12 <=? p + 1 then 0 else p + 1.

(** ---- the decoder ---- *)
(** src/g722.c:304-325: the high band code, the low band quantiser value, and the low band code less its lower bits *)
Definition split_code (r : rate) (code : Z) : res (Z * Z * Z) :=
  match r with
  | R64 => let wd1 := Z.land code 0x3F in do q <- aget qm6 wd1; Ok (Z.land (Z.shiftr code 6) 3, q, Z.shiftr wd1 2)
  | R56 => let wd1 := Z.land code 0x1F in do q <- aget qm5 wd1; Ok (Z.land (Z.shiftr code 5) 3, q, Z.shiftr wd1 1)
  | R48 => let wd1 := Z.land code 0x0F in do q <- aget qm4 wd1; Ok (Z.land (Z.shiftr code 4) 3, q, wd1)
  end.
(** src/g722.c:332-349 *)
Definition dec_low (s : band) (wd1 : Z) : res band :=
  do wd2 <- aget qm4 wd1;
  let dlow := s16 (Z.shiftr (det s * wd2) 15) in
  do wd2 <- aget rl42 wd1;
  do w <- aget wl wd2;
  let wd1 := Z.shiftr (nb s * 127) 7 + w in
  let wd1 := if wd1 <? 0 then 0 else if 18432 <? wd1 then 18432 else wd1 in
  let n := s16 wd1 in
  do d <- scale 8 n;
  block4 (set_scale s n d) dlow.
(** src/g722.c:353-391: rhigh and the band *)
Definition dec_high (s : band) (ihigh : Z) : res (Z * band) :=
  do wd2 <- aget qm2 ihigh;
  let dhigh := s16 (Z.shiftr (det s * wd2) 15) in
  let rhigh := saturate15 (dhigh + sig s) in
  do wd2 <- aget rh2 ihigh;
  do w <- aget wh wd2;
  let wd1 := Z.shiftr (nb s * 127) 7 + w in
  let wd1 := if wd1 <? 0 then 0 else if 22528 <? wd1 then 22528 else wd1 in
  let n := s16 wd1 in
  do d <- scale 10 n;
  do s <- block4 (set_scale s n d) dhigh;
  Ok (rhigh, s).
(** src/g722.c:304-422: the samples made from a code *)
Definition decode1 (c : cfg) (x : ctx) (code : Z) : res (list Z * ctx) :=
  do (ihigh, q, wd1) <- split_code (bits c) code;
  let wd2 := Z.shiftr (det (low x) * q) 15 in
  let rlow := saturate15 (sig (low x) + wd2) in
  do l <- dec_low (low x) wd1;
  do (rhigh, h) <- (if eight_k c then Ok (0, high x) else dec_high (high x) ihigh);
  if itu c then
    Ok ([s16 (Z.shiftl rlow 1); s16 (Z.shiftl rhigh 1)],
        {| xs := xs x; ys := ys x; ptr := ptr x; low := l; high := h; buf := buf x; nbits := nbits x |})
  else if eight_k c then
    Ok ([s16 (Z.shiftl rlow 1)],
        {| xs := xs x; ys := ys x; ptr := ptr x; low := l; high := h; buf := buf x; nbits := nbits x |})
  else
    do xl <- aset (xs x) (ptr x) (s16 (rlow + rhigh));
    do yl <- aset (ys x) (ptr x) (s16 (rlow - rhigh));
    let p := next_ptr (ptr x) in
    do u <- circular_dot yl qmf_rev p;
    do v <- circular_dot xl qmf_fwd p;
    Ok ([saturate16 (Z.shiftr u 11); saturate16 (Z.shiftr v 11)],
        {| xs := xl; ys := yl; ptr := p; low := l; high := h; buf := buf x; nbits := nbits x |}).
Definition set_buf (x : ctx) (w n : Z) : ctx :=
  {| xs := xs x; ys := ys x; ptr := ptr x; low := low x; high := high x; buf := w; nbits := n |}.
(** src/g722.c:261-426 g722_decode.  A turn of the loop need not take an octet, but two turns do. *)
Fixpoint decode_loop (c : cfg) (fuel : nat) (x : ctx) (data : list Z) : res (list Z * ctx) :=
  match data with
  | [] => Ok ([], x)
  | o :: t =>
      match fuel with
      | O => UB
      | S k =>
          let '(code, x, data) :=
            if packed c then
              let '(w, n, data) :=
                if nbits x <? bps (bits c) then (Z.lor (buf x) (u32 (Z.shiftl o (nbits x))), nbits x + 8, t)
                else (buf x, nbits x, data) in
              (Z.land w (Z.shiftl 1 (bps (bits c)) - 1), set_buf x (Z.shiftr w (bps (bits c))) (n - bps (bits c)), data)
            else (o, x, t) in
          do (out, x) <- decode1 c x code;
          do (rest, x) <- decode_loop c k x data;
          Ok (out ++ rest, x)
      end
  end.
Definition g722_decode (c : cfg) (x : ctx) (data : list Z) : res (list Z * ctx) :=
  decode_loop c (2 * length data) x data.

(** ---- the encoder ---- *)
(** src/g722.c:519-526: the search of the quantiser; [k] turns at most *)
Fixpoint quantl (k : nat) (i d wd : Z) : res Z :=
  match k with
  | O => Ok i
  | S k => do q <- aget q6 i; if wd <? Z.shiftr (q * d) 12 then Ok i else quantl k (i + 1) d wd
  end.
(** src/g722.c:512-548: ilow and the low band *)
Definition enc_low (s : band) (xlow : Z) : res (Z * band) :=
  let el := sat_sub16 xlow (sig s) in
  let wd := if 0 <=? el then el else Z.lnot el in
  do i <- quantl 29 1 (det s) wd;
  do ilow <- aget (if el <? 0 then iln else ilp) i;
  let ril := Z.shiftr ilow 2 in
  do wd2 <- aget qm4 ril;
  let dlow := s16 (Z.shiftr (det s * wd2) 15) in
  do il4 <- aget rl42 ril;
  let wd := Z.shiftr (nb s * 127) 7 in
  do w <- aget wl il4;
  let n := s16 (wd + w) in
  let n := if n <? 0 then 0 else if 18432 <? n then 18432 else n in
  do d <- scale 8 n;
  do s <- block4 (set_scale s n d) dlow;
  Ok (ilow, s).
(** src/g722.c:557-592: ihigh and the high band *)
Definition enc_high (s : band) (xhigh : Z) : res (Z * band) :=
  let eh := sat_sub16 xhigh (sig s) in
  let wd := if 0 <=? eh then eh else Z.lnot eh in
  let wd1 := Z.shiftr (564 * det s) 12 in
  let mih := if wd1 <=? wd then 2 else 1 in
  do ihigh <- aget (if eh <? 0 then ihn else ihp) mih;
  do wd2 <- aget qm2 ihigh;
  let dhigh := s16 (Z.shiftr (det s * wd2) 15) in
  do ih2 <- aget rh2 ihigh;
  let wd := Z.shiftr (nb s * 127) 7 in
  do w <- aget wh ih2;
  let n := s16 (wd + w) in
  let n := if n <? 0 then 0 else if 22528 <? n then 22528 else n in
  do d <- scale 10 n;
  do s <- block4 (set_scale s n d) dhigh;
  Ok (ihigh, s).
(** src/g722.c:482-511: the samples of the bands, and the input left over *)
Definition split_bands (c : cfg) (x : ctx) (amp : list Z) : res (Z * Z * ctx * list Z) :=
  match amp with
  | [] => UB
  | v :: t =>
      if itu c then Ok (Z.shiftr v 1, Z.shiftr v 1, x, t)
      else if eight_k c then Ok (Z.shiftr v 1, 0, x, t)
      else
        match t with
        | [] => UB
        | w :: t =>
            do xl <- aset (xs x) (ptr x) v;
            do yl <- aset (ys x) (ptr x) w;
            let p := next_ptr (ptr x) in
            do sumodd <- circular_dot xl qmf_fwd p;
            do sumeven <- circular_dot yl qmf_rev p;
            do a <- i32 (sumeven + sumodd);
            do b <- i32 (sumeven - sumodd);
            Ok (s16 (Z.shiftr a 14), s16 (Z.shiftr b 14),
                {| xs := xl; ys := yl; ptr := p; low := low x; high := high x; buf := buf x; nbits := nbits x |}, t)
        end
  end.
(** src/g722.c:482-611: one code, and the input left over *)
Definition encode1 (c : cfg) (x : ctx) (amp : list Z) : res (Z * ctx * list Z) :=
  do (xlow, xhigh, x, amp) <- split_bands c x amp;
  do (ilow, l) <- enc_low (low x) xlow;
  do (code, h) <-
    (if eight_k c then Ok (Z.shiftr (Z.lor 0xC0 ilow) (8 - bps (bits c)), high x)
     else
       do (ihigh, h) <- enc_high (high x) xhigh;
       Ok (Z.shiftr (Z.lor (Z.shiftl ihigh 6) ilow) (8 - bps (bits c)), h));
  Ok (code, {| xs := xs x; ys := ys x; ptr := ptr x; low := l; high := h; buf := buf x; nbits := nbits x |}, amp).
(** src/g722.c:613-630 *)
Definition store (c : cfg) (x : ctx) (code : Z) : list Z * ctx :=
  if packed c then
    let w := Z.lor (buf x) (u32 (Z.shiftl code (nbits x))) in
    let n := nbits x + bps (bits c) in
    if 8 <=? n then ([u8 (Z.land w 0xFF)], set_buf x (Z.shiftr w 8) (n - 8)) else ([], set_buf x w n)
  else ([u8 code], x).
(** src/g722.c:460-632 g722_encode.  Each turn of the loop takes a sample at least. *)
Fixpoint encode_loop (c : cfg) (fuel : nat) (x : ctx) (amp : list Z) : res (list Z * ctx) :=
  match amp with
  | [] => Ok ([], x)
  | _ =>
      match fuel with
      | O => UB
      | S k =>
          do (code, x, amp) <- encode1 c x amp;
          let '(o, x) := store c x code in
          do (rest, x) <- encode_loop c k x amp;
          Ok (o ++ rest, x)
      end
  end.
Definition g722_encode (c : cfg) (x : ctx) (amp : list Z) : res (list Z * ctx) :=
  encode_loop c (length amp) x amp.
