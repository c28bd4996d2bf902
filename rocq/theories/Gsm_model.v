(** Model of the GSM 06.10 full rate codec: src/gsm0610_*.c, src/gsm0610_local.h, and the functions of
    src/spandsp/saturated.h they use.

    The portable branches are modelled, not those for MMX.  A failing assert() is UB.  Values of type int16_t are kept
    within 16 bits by [s16] where C converts.  Sums that C keeps in 32 bits are checked after each addition by [c32];
    the product of two numbers of 16 bits, with 2^14 added, needs no check.  A left shift of a negative number is a
    multiplication.

    A frame is the list of its 76 parameters in the order LARc[0..7], then for each of the four sub-frames Nc, bc, Mc,
    xmaxc, xMc[0..12].  Of dp0 the part before the pointer dp is kept; what is behind it is written before it is
    read.  The two sets of LARpp are used in turn: only the one of the last frame is kept.  The zeros before and
    behind e are never written. *)
From Verif Require Import Base.
Local Open Scope Z_scope.

(** ---- arithmetic ---- *)
Definition c32 (x : Z) : res Z := if (-2147483648 <=? x) && (x <=? 2147483647) then Ok x else UB.
Definition check (b : bool) : res unit := if b then Ok tt else UB.
Fixpoint sum32 (a : Z) (l : list Z) : res Z :=
  match l with
  | [] => Ok a
  | x :: t => do a <- c32 (a + x); sum32 a t
  end.
Fixpoint map2 (f : Z -> Z -> Z) (a b : list Z) : list Z :=
  match a, b with
  | x :: a, y :: b => f x y :: map2 f a b
  | _, _ => []
  end.
(** src/spandsp/saturated.h:46-66 *)
Definition saturate16 (x : Z) : Z := if x =? s16 x then x else if 32767 <? x then 32767 else -32768.
(** src/spandsp/saturated.h:190-216 *)
Definition sat_add16 (x y : Z) : Z := saturate16 (x + y).
(** src/spandsp/saturated.h:219-253 *)
Definition sat_add32 (x y : Z) : Z := if x + y <? -2147483648 then -2147483648 else if 2147483647 <? x + y then 2147483647 else x + y.
(** src/spandsp/saturated.h:256-280 *)
Definition sat_sub16 (x y : Z) : Z := saturate16 (x - y).
(** src/spandsp/saturated.h:319-338 *)
Definition sat_mul16 (x y : Z) : Z := if x * y =? 0x40000000 then 32767 else s16 (Z.shiftr (x * y) 15).
(** src/spandsp/saturated.h:400-405 *)
Definition sat_abs16 (x : Z) : Z := if x =? -32768 then 32767 else Z.abs x.
(** src/gsm0610_local.h:120-130 *)
Definition gsm_mult_r (a b : Z) : Z := if (b =? -32768) && (a =? -32768) then 32767 else s16 (Z.shiftr (a * b + 16384) 15).
(** src/gsm0610_local.h:140-168 *)
Definition gsm_asr (a n : Z) : Z :=
  if 16 <=? n then (if a <? 0 then -1 else 0) else if n <=? -16 then 0 else if n <? 0 then s16 (a * 2 ^ - n) else s16 (Z.shiftr a n).
Definition gsm_asl (a n : Z) : Z :=
  if 16 <=? n then 0 else if n <=? -16 then (if a <? 0 then -1 else 0) else if n <? 0 then gsm_asr a (- n) else s16 (a * 2 ^ n).
(** src/gsm0610_lpc.c:75-89; top_bit() is the number of the highest bit set *)
Definition gsm0610_norm (x : Z) : res Z :=
  if x =? 0 then UB
  else if x <? 0 then (if x <=? -1073741824 then Ok 0 else Ok (30 - (if Z.lnot x =? 0 then -1 else Z.log2 (Z.lnot x))))
  else Ok (30 - Z.log2 x).
(** src/gsm0610_lpc.c:99-132 *)
Fixpoint div_loop (k : nat) (num denom div : Z) : Z :=
  match k with
  | O => div
  | S k => let div := div * 2 in let num := num * 2 in
      if denom <=? num then div_loop k (num - denom) denom (div + 1) else div_loop k num denom div
  end.
Definition gsm_div (num denom : Z) : res Z :=
  do _ <- check ((0 <=? num) && (num <=? denom));
  if num =? 0 then Ok 0 else Ok (div_loop 15 num denom 0).

(** the contexts, src/spandsp/private/gsm0610.h:33-61; gsm0610_init: src/gsm0610_encode.c:313-326 *)
Record gsm := { dp0 : list Z; z1 : Z; L_z2 : Z; mp : Z; us : list Z; larpp : list Z; nrp : Z; vs : list Z; msr : Z }.
Definition gsm_init : gsm := {| dp0 := repeat 0 120; z1 := 0; L_z2 := 0; mp := 0; us := repeat 0 8; larpp := repeat 0 8; nrp := 40; vs := repeat 0 9; msr := 0 |}.

(** ---- src/gsm0610_preprocess.c:71-148, with GNU C ---- *)
Definition preprocess_1 (z1 L_z2 mp amp : Z) : res (Z * Z * Z * Z) :=
  let so := Z.land (Z.shiftr amp 1) (-4) in
  do _ <- check ((-0x4000 <=? so) && (so <=? 0x3FFC));
  let s1 := s16 (so - z1) in
  do _ <- check (negb (s1 =? -32768));
  let L_s2 := s1 * 32768 in
  let L_z2 := s32 (Z.shiftr (L_z2 * 32735 + 0x4000) 15) in
  let L_z2 := sat_add32 L_z2 L_s2 in
  let L_temp := sat_add32 L_z2 16384 in
  let msp := gsm_mult_r mp (-28180) in
  let mp := s16 (Z.shiftr L_temp 15) in
  Ok (so, L_z2, mp, sat_add16 mp msp).
Fixpoint preprocess (z1 L_z2 mp : Z) (amp : list Z) : res (Z * Z * Z * list Z) :=
  match amp with
  | [] => Ok (z1, L_z2, mp, [])
  | x :: t =>
      do (z1, L_z2, mp, y) <- preprocess_1 z1 L_z2 mp x;
      do (z1, L_z2, mp, l) <- preprocess z1 L_z2 mp t;
      Ok (z1, L_z2, mp, y :: l)
  end.

(** ---- src/gsm0610_lpc.c ---- *)
Definition max_abs (l : list Z) : Z := fold_left (fun m x => let t := sat_abs16 x in if m <? t then t else m) l 0.
(** src/gsm0610_lpc.c:296-311 *)
Definition scaling (smax : Z) : res Z := if smax =? 0 then Ok 0 else do _ <- check (0 <? smax); do n <- gsm0610_norm (smax * 65536); Ok (4 - n).
(** src/gsm0610_lpc.c:320-326, 412-421 *)
Definition scale_down (scalauto x : Z) : Z := if 0 <? scalauto then gsm_mult_r x (Z.shiftr 16384 (scalauto - 1)) else x.
Definition scale_up (scalauto x : Z) : Z := if 0 <? scalauto then s16 (x * 2 ^ scalauto) else x.
(** src/gsm0610_lpc.c:276-423 autocorrelation: L_ACF, and what is left of the samples *)
Definition acf (amp : list Z) (k : nat) : res Z := do s <- sum32 0 (map2 Z.mul (skipn k amp) amp); c32 (s * 2).
Definition autocorrelation (amp : list Z) : res (list Z * list Z) :=
  do scalauto <- scaling (max_abs amp);
  let amp := map (scale_down scalauto) amp in
  do l <- res_map (acf amp) (seq 0 9);
  do _ <- check (scalauto <=? 4);
  Ok (l, map (scale_up scalauto) amp).
(** src/gsm0610_lpc.c:463-502: the n coefficients left.  [p0] is P[0], [ps] P[1..n + 1] and [ks] K[1..n]; the loop over m
    reads P[m + 1] before it is written. *)
Fixpoint schur (n : nat) (p0 : Z) (ps ks : list Z) : res (list Z) :=
  match n with
  | O => Ok []
  | S n' =>
      match ps with
      | [] => UB
      | p1 :: t =>
          let temp := sat_abs16 p1 in
          if p0 <? temp then Ok (repeat 0 n)
          else
            do d <- gsm_div temp p0;
            do _ <- check (0 <=? d);
            let r := if 0 <? p1 then s16 (- d) else d in
            do _ <- check (negb (r =? -32768));
            if Nat.eqb n' 0 then Ok [r]
            else
              do _ <- check ((n' <=? length t)%nat && (n' <=? length ks)%nat);
              do l <- schur n' (sat_add16 p0 (gsm_mult_r p1 r)) (map2 (fun p k => sat_add16 p (gsm_mult_r k r)) t ks)
                        (map2 (fun p k => sat_add16 k (gsm_mult_r p r)) t ks);
              Ok (r :: l)
      end
  end.
(** src/gsm0610_lpc.c:425-503 reflection_coefficients *)
Definition reflection_coefficients (L_ACF : list Z) : res (list Z) :=
  do l0 <- aget L_ACF 0;
  if l0 =? 0 then Ok (repeat 0 8)
  else
    do temp <- gsm0610_norm l0;
    do _ <- check ((0 <=? temp) && (temp <? 32));
    do acf <- res_map (fun x => do y <- c32 (x * 2 ^ temp); Ok (s16 (Z.shiftr y 16))) L_ACF;
    do p0 <- aget acf 0;
    schur 8 p0 (tl acf) (firstn 7 (tl acf)).
(** src/gsm0610_lpc.c:506-546 transform_to_log_area_ratios *)
Definition log_area_ratio (r : Z) : res Z :=
  let temp := sat_abs16 r in
  do _ <- check (0 <=? temp);
  do temp <- (if temp <? 22118 then Ok (Z.shiftr temp 1)
              else if temp <? 31130 then do _ <- check (11059 <=? temp); Ok (temp - 11059)
              else do _ <- check (26112 <=? temp); Ok (s16 ((temp - 26112) * 4)));
  let r := if r <? 0 then s16 (- temp) else temp in
  do _ <- check (negb (r =? -32768));
  Ok r.
(** src/gsm0610_lpc.c:549-583 quantization_and_coding *)
Definition lar_coding : list (Z * Z * Z * Z) :=
  [(20480, 0, 31, -32); (20480, 0, 31, -32); (20480, 2048, 15, -16); (20480, -2560, 15, -16);
   (13964, 94, 7, -8); (15360, -1792, 7, -8); (8534, -341, 3, -4); (9036, -1144, 3, -4)].
Definition code_lar (c : Z * Z * Z * Z) (lar : Z) : Z :=
  let '(a, b, mac, mic) := c in
  let temp := Z.shiftr (sat_add16 (sat_mul16 a lar) (b + 256)) 9 in
  if mac <? temp then mac - mic else if temp <? mic then 0 else temp - mic.
Fixpoint code_lars (c : list (Z * Z * Z * Z)) (l : list Z) : list Z :=
  match c, l with
  | x :: c, y :: l => code_lar x y :: code_lars c l
  | _, _ => []
  end.
(** src/gsm0610_lpc.c:586-596 *)
Definition lpc_analysis (amp : list Z) : res (list Z * list Z) :=
  do (L_ACF, amp) <- autocorrelation amp;
  do r <- reflection_coefficients L_ACF;
  do lar <- res_map log_area_ratio r;
  Ok (code_lars lar_coding lar, amp).

(** ---- src/gsm0610_short_term.c ---- *)
(** src/gsm0610_short_term.c:57-87 decode_log_area_ratios *)
Definition lar_decoding : list (Z * Z * Z) :=
  [(0, -32, 13107); (0, -32, 13107); (2048, -16, 13107); (-2560, -16, 13107);
   (94, -8, 19223); (-1792, -8, 17476); (-341, -4, 31454); (-1144, -4, 29708)].
Definition decode_lar (c : Z * Z * Z) (larc : Z) : Z :=
  let '(b, mic, inva) := c in
  let temp := s16 (sat_add16 larc mic * 1024) in
  let temp := sat_sub16 temp (b * 2) in
  let temp := gsm_mult_r inva temp in
  sat_add16 temp temp.
Fixpoint decode_lars (c : list (Z * Z * Z)) (l : list Z) : list Z :=
  match c, l with
  | x :: c, y :: l => decode_lar x y :: decode_lars c l
  | _, _ => []
  end.
(** src/gsm0610_short_term.c:104-154 *)
Definition coefficients_0_12 := map2 (fun a b => sat_add16 (sat_add16 (Z.shiftr a 2) (Z.shiftr b 2)) (Z.shiftr a 1)).
Definition coefficients_13_26 := map2 (fun a b => sat_add16 (Z.shiftr a 1) (Z.shiftr b 1)).
Definition coefficients_27_39 := map2 (fun a b => sat_add16 (sat_add16 (Z.shiftr a 2) (Z.shiftr b 2)) (Z.shiftr b 1)).
(** src/gsm0610_short_term.c:157-203 *)
Definition to_rp (temp : Z) : Z := if temp <? 11059 then temp * 2 else if temp <? 20070 then temp + 11059 else sat_add16 (Z.shiftr temp 2) 26112.
Definition larp_to_rp (x : Z) : Z := if x <? 0 then - to_rp (if x =? -32768 then 32767 else - x) else to_rp x.
(** src/gsm0610_short_term.c:232-249: one sample through the analysis filter *)
Fixpoint lattice (rp u : list Z) (di u_out : Z) : Z * list Z :=
  match rp, u with
  | rpi :: rp, ui :: u =>
      let u_out' := saturate16 (ui + Z.shiftr (rpi * di + 0x4000) 15) in
      let di' := saturate16 (di + Z.shiftr (rpi * ui + 0x4000) 15) in
      let '(d, l) := lattice rp u di' u_out' in (d, s16 u_out :: l)
  | _, _ => (di, [])
  end.
Fixpoint short_term_analysis_filtering (rp u amp : list Z) : list Z * list Z :=
  match amp with
  | [] => (u, [])
  | x :: t => let '(d, u) := lattice rp u x x in let '(u, l) := short_term_analysis_filtering rp u t in (u, s16 d :: l)
  end.
(** src/gsm0610_short_term.c:271-294: one sample through the synthesis filter, from the last coefficient to the first;
    the new v[1..8] *)
Fixpoint synthesis (rrp v : list Z) (sri : Z) : Z * list Z :=
  match rrp, v with
  | r :: rrp, vi :: v =>
      let '(sri, l) := synthesis rrp v sri in
      let sri := sat_sub16 sri (gsm_mult_r r vi) in
      (sri, sat_add16 vi (gsm_mult_r r sri) :: l)
  | _, _ => (sri, [])
  end.
Fixpoint short_term_synthesis_filtering (rrp v wt : list Z) : list Z * list Z :=
  match wt with
  | [] => (v, [])
  | x :: t => let '(sri, l) := synthesis rrp v x in let '(v, o) := short_term_synthesis_filtering rrp (sri :: l) t in (v, sri :: o)
  end.
(** src/gsm0610_short_term.c:299-359: both filters use the four sets of coefficients alike *)
Definition by_parts (filter : list Z -> list Z -> list Z -> list Z * list Z) (larpp_j_1 larpp_j st l : list Z) : list Z * list Z :=
  let '(st, l1) := filter (map larp_to_rp (coefficients_0_12 larpp_j_1 larpp_j)) st (firstn 13 l) in
  let '(st, l2) := filter (map larp_to_rp (coefficients_13_26 larpp_j_1 larpp_j)) st (firstn 14 (skipn 13 l)) in
  let '(st, l3) := filter (map larp_to_rp (coefficients_27_39 larpp_j_1 larpp_j)) st (firstn 13 (skipn 27 l)) in
  let '(st, l4) := filter (map larp_to_rp larpp_j) st (firstn 120 (skipn 40 l)) in
  (st, l1 ++ l2 ++ l3 ++ l4).

(** ---- src/gsm0610_long_term.c ---- *)
Definition DLB : list Z := [6554; 16384; 26214; 32767].
Definition QLB : list Z := [3277; 11469; 21299; 32767].
(** dp[0 - lag .. 39 - lag] *)
Definition past (h : list Z) (lag : Z) : res (list Z) :=
  do _ <- check ((40 <=? lag) && (lag <=? Z.of_nat (length h)));
  Ok (firstn 40 (skipn (length h - Z.to_nat lag) h)).
(** src/gsm0610_long_term.c:68-237 *)
Definition cross_corr (wt h : list Z) (i : Z) : res Z := do p <- past h i; sum32 0 (map2 Z.mul wt p).
Fixpoint max_cross_corr (n : nat) (wt h : list Z) (i max index : Z) : res (Z * Z) :=
  match n with
  | O => Ok (max, index)
  | S n => do r <- cross_corr wt h i; if max <? r then max_cross_corr n wt h (i + 1) r i else max_cross_corr n wt h (i + 1) max index
  end.
(** src/gsm0610_long_term.c:334-343 *)
Definition code_gain (R S : Z) : Z :=
  if R <=? sat_mul16 S (nth 0 DLB 0) then 0 else if R <=? sat_mul16 S (nth 1 DLB 0) then 1 else if R <=? sat_mul16 S (nth 2 DLB 0) then 2 else 3.
(** src/gsm0610_long_term.c:251-347: Nc and bc *)
Definition evaluate_ltp_parameters (d h : list Z) : res (Z * Z) :=
  let dmax := max_abs d in
  do temp <- (if dmax =? 0 then Ok 0 else do _ <- check (0 <? dmax); gsm0610_norm (dmax * 65536));
  let scale := if 6 <? temp then 0 else 6 - temp in
  do _ <- check (0 <=? scale);
  let wt := map (fun x => Z.shiftr x scale) d in
  do (L_max, Nc) <- max_cross_corr 81 wt h 40 0 40;
  do L_max <- c32 (L_max * 2);
  do _ <- check ((scale <=? 6) && (40 <=? Nc) && (Nc <=? 120));
  let L_max := Z.shiftr L_max (6 - scale) in
  do p <- past h Nc;
  do L_power <- sum32 0 (map (fun x => Z.shiftr x 3 * Z.shiftr x 3) p);
  do L_power <- c32 (L_power * 2);
  if L_max <=? 0 then Ok (Nc, 0)
  else if L_power <=? L_max then Ok (Nc, 3)
  else
    do temp <- gsm0610_norm L_power;
    do r <- c32 (L_max * 2 ^ temp);
    do s <- c32 (L_power * 2 ^ temp);
    Ok (Nc, code_gain (s16 (Z.shiftr r 16)) (s16 (Z.shiftr s 16))).
(** src/gsm0610_long_term.c:350-389 gsm0610_long_term_predictor: Nc, bc, dpp and e *)
Definition long_term_predictor (d h : list Z) : res (Z * Z * list Z * list Z) :=
  do (Nc, bc) <- evaluate_ltp_parameters d h;
  do q <- aget QLB bc;
  do p <- past h Nc;
  let dpp := map (gsm_mult_r q) p in
  Ok (Nc, bc, dpp, map2 sat_sub16 d dpp).
(** src/gsm0610_long_term.c:396-432: Nr, drp[0..39] and drp[-120..-1] *)
Definition long_term_synthesis_filtering (nrp Ncr bcr : Z) (erp h : list Z) : res (Z * list Z * list Z) :=
  let Nr := if (Ncr <? 40) || (120 <? Ncr) then nrp else Ncr in
  do _ <- check ((40 <=? Nr) && (Nr <=? 120));
  do brp <- aget QLB bcr;
  do _ <- check (negb (brp =? -32768));
  do p <- past h Nr;
  let drp := map2 (fun e x => sat_add16 e (gsm_mult_r brp x)) erp p in
  Ok (Nr, drp, skipn 40 (h ++ drp)).

(** ---- src/gsm0610_rpe.c ---- *)
(** src/gsm0610_rpe.c:166-229 weighting_filter *)
Definition gsm_H : list Z := [-134; -374; 0; 2054; 5741; 8192; 5741; 2054; 0; -374; -134].
Definition weighting_filter (e : list Z) : res (list Z) :=
  let wt := repeat 0 5 ++ e ++ repeat 0 5 in
  res_map (fun k => do r <- sum32 4096 (map2 Z.mul (skipn k wt) gsm_H); Ok (saturate16 (Z.shiftr r 13))) (seq 0 40).
(** src/gsm0610_rpe.c:234-338 rpe_grid_selection: Mc and xM *)
Definition energy (x : list Z) (is : list nat) (a : Z) : res Z := sum32 a (map (fun i => let t := Z.shiftr (nth i x 0) 2 in t * t) is).
Definition grid (m : nat) : list nat := map (fun i => (m + 3 * i)%nat) (seq 0 13).
Definition rpe_grid_selection (x : list Z) : res (Z * list Z) :=
  do common <- energy x (tl (grid 0)) 0;
  do e0 <- energy x [0%nat] common; do e0 <- c32 (e0 * 2);
  do e1 <- energy x (grid 1) 0; do e1 <- c32 (e1 * 2);
  let '(Mc, EM) := if e0 <? e1 then (1, e1) else (0, e0) in
  do e2 <- energy x (grid 2) 0; do e2 <- c32 (e2 * 2);
  let '(Mc, EM) := if EM <? e2 then (2, e2) else (Mc, EM) in
  do e3 <- energy x [39%nat] common; do e3 <- c32 (e3 * 2);
  let Mc := if EM <? e3 then 3 else Mc in
  Ok (Mc, map (fun i => nth i x 0) (grid (Z.to_nat Mc))).
(** src/gsm0610_rpe.c:341-377: exp and mant *)
Fixpoint normalise (fuel : nat) (exp mant : Z) : res (Z * Z) :=
  if mant <=? 7 then match fuel with O => UB | S k => normalise k (exp - 1) (s16 (Z.lor (mant * 2) 1)) end else Ok (exp, mant - 8).
Definition xmaxc_to_exp_mant (xmaxc : Z) : res (Z * Z) :=
  let exp := if 15 <? xmaxc then s16 (Z.shiftr xmaxc 3 - 1) else 0 in
  let mant := s16 (xmaxc - exp * 8) in
  do (exp, mant) <- (if mant =? 0 then Ok (-4, 7) else normalise 16 exp mant);
  do _ <- check ((-4 <=? exp) && (exp <=? 6) && (0 <=? mant) && (mant <=? 7));
  Ok (exp, mant).
(** src/gsm0610_rpe.c:380-472 apcm_quantization: xMc, mant, exp and xmaxc *)
Definition NRFAC : list Z := [29128; 26215; 23832; 21846; 20165; 18725; 17476; 16384].
Fixpoint exp_of (n : nat) (temp : Z) (itest : bool) (exp : Z) : res Z :=
  match n with
  | O => Ok exp
  | S n =>
      let itest := itest || (temp <=? 0) in
      do _ <- check (exp <=? 5);
      exp_of n (Z.shiftr temp 1) itest (if itest then exp else exp + 1)
  end.
Definition code_xmax (xmax : Z) : res Z :=
  do exp <- exp_of 6 (Z.shiftr xmax 9) false 0;
  do _ <- check ((0 <=? exp) && (exp <=? 6));
  Ok (sat_add16 (Z.shiftr xmax (exp + 5)) (exp * 8)).
Definition code_x (temp1 temp2 x : Z) : Z := Z.shiftr (sat_mul16 (s16 (x * 2 ^ temp1)) temp2) 12 + 4.
Definition apcm_quantization (xM : list Z) : res (list Z * Z * Z * Z) :=
  do xmaxc <- code_xmax (max_abs xM);
  do (exp, mant) <- xmaxc_to_exp_mant xmaxc;
  let temp1 := 6 - exp in
  do temp2 <- aget NRFAC mant;
  do _ <- check ((0 <=? temp1) && (temp1 <? 16));
  Ok (map (code_x temp1 temp2) xM, mant, exp, xmaxc).
(** src/gsm0610_rpe.c:475-517 apcm_inverse_quantization *)
Definition FAC : list Z := [18431; 20479; 22527; 24575; 26623; 28671; 30719; 32767].
Definition decode_x (temp1 temp2 temp3 xMc : Z) : res Z :=
  do _ <- check ((0 <=? xMc) && (xMc <=? 7));
  let temp := xMc * 2 - 7 in
  do _ <- check ((-7 <=? temp) && (temp <=? 7));
  Ok (gsm_asr (sat_add16 (gsm_mult_r temp1 (s16 (temp * 4096))) temp3) temp2).
Definition apcm_inverse_quantization (xMc : list Z) (mant exp : Z) : res (list Z) :=
  do temp1 <- aget FAC mant;
  let temp2 := sat_sub16 6 exp in
  let temp3 := gsm_asl 1 (sat_sub16 temp2 1) in
  res_map (decode_x temp1 temp2 temp3) xMc.
(** src/gsm0610_rpe.c:520-553 rpe_grid_positioning *)
Definition rpe_grid_positioning (Mc : Z) (xMp : list Z) : res (list Z) :=
  do _ <- check ((0 <=? Mc) && (Mc <=? 3));
  match xMp with
  | [] => UB
  | x :: t => Ok (repeat 0 (Z.to_nat Mc) ++ x :: flat_map (fun x => [0; 0; x]) t ++ repeat 0 (Z.to_nat (3 - Mc)))
  end.
(** src/gsm0610_rpe.c:556-578: xmaxc, Mc, xMc and e *)
Definition rpe_encoding (e : list Z) : res (Z * Z * list Z * list Z) :=
  do x <- weighting_filter e;
  do (Mc, xM) <- rpe_grid_selection x;
  do (xMc, mant, exp, xmaxc) <- apcm_quantization xM;
  do xMp <- apcm_inverse_quantization xMc mant exp;
  do e <- rpe_grid_positioning Mc xMp;
  Ok (xmaxc, Mc, xMc, e).
(** src/gsm0610_rpe.c:581-594 *)
Definition rpe_decoding (xmaxc Mcr : Z) (xMcr : list Z) : res (list Z) :=
  do (exp, mant) <- xmaxc_to_exp_mant xmaxc;
  do xMp <- apcm_inverse_quantization xMcr mant exp;
  rpe_grid_positioning Mcr xMp.

(** ---- the encoder: src/gsm0610_encode.c:70-105 ---- *)
Definition encode_sub (d h : list Z) : res (list Z * list Z) :=
  do (Nc, bc, dpp, e) <- long_term_predictor d h;
  do (xmaxc, Mc, xMc, e) <- rpe_encoding e;
  Ok ([Nc; bc; Mc; xmaxc] ++ xMc, h ++ map2 sat_add16 e dpp).
Fixpoint encode_subs (n : nat) (d h : list Z) : res (list Z * list Z) :=
  match n with
  | O => Ok ([], h)
  | S n => do (p, h) <- encode_sub (firstn 40 d) h; do (ps, h) <- encode_subs n (skipn 40 d) h; Ok (p ++ ps, h)
  end.
Definition encode_a_frame (s : gsm) (amp : list Z) : res (gsm * list Z) :=
  do (z1', L_z2', mp', so) <- preprocess (z1 s) (L_z2 s) (mp s) amp;
  do (LARc, so) <- lpc_analysis so;
  let pp := decode_lars lar_decoding LARc in
  let '(u, d) := by_parts short_term_analysis_filtering (larpp s) pp (us s) so in
  do (ps, h) <- encode_subs 4 d (dp0 s);
  Ok ({| dp0 := skipn 160 h; z1 := z1'; L_z2 := L_z2'; mp := mp'; us := u; larpp := pp; nrp := nrp s; vs := vs s; msr := msr s |}, LARc ++ ps).

(** ---- the decoder ---- *)
(** src/gsm0610_decode.c:57-74 *)
Fixpoint postprocessing (msr : Z) (amp : list Z) : Z * list Z :=
  match amp with
  | [] => (msr, [])
  | x :: t =>
      let msr := sat_add16 x (gsm_mult_r msr 28180) in
      let '(m, l) := postprocessing msr t in (m, s16 (Z.land (sat_add16 msr msr) 0xFFF8) :: l)
  end.
(** src/gsm0610_decode.c:77-100 *)
Definition decode_sub (nrp : Z) (h p : list Z) : res (Z * list Z * list Z) :=
  match p with
  | Nc :: bc :: Mc :: xmaxc :: xMc => do erp <- rpe_decoding xmaxc Mc xMc; long_term_synthesis_filtering nrp Nc bc erp h
  | _ => UB
  end.
Fixpoint decode_subs (n : nat) (nrp : Z) (h ps : list Z) : res (Z * list Z * list Z) :=
  match n with
  | O => Ok (nrp, [], h)
  | S n =>
      do (nrp, wt, h) <- decode_sub nrp h (firstn 17 ps);
      do (nrp, wts, h) <- decode_subs n nrp h (skipn 17 ps);
      Ok (nrp, wt ++ wts, h)
  end.
Definition decode_a_frame (s : gsm) (f : list Z) : res (gsm * list Z) :=
  do (nr, wt, h) <- decode_subs 4 (nrp s) (dp0 s) (skipn 8 f);
  let pp := decode_lars lar_decoding (firstn 8 f) in
  let '(v, sr) := by_parts short_term_synthesis_filtering (larpp s) pp (vs s) wt in
  let '(m, amp) := postprocessing (msr s) sr in
  Ok ({| dp0 := h; z1 := z1 s; L_z2 := L_z2 s; mp := mp s; us := us s; larpp := pp; nrp := nr; vs := v; msr := m |}, amp).

(** ---- packing ---- *)
(** src/gsm0610_encode.c:115-137, src/gsm0610_decode.c:103-125 *)
Definition pack_none (f : list Z) : list Z := map u8 (firstn 76 f).
Definition unpack_none (c : list Z) : res (list Z) := aslice c 0 76.
(** src/gsm0610_encode.c:140-232: [Sr r x l] is sr = (sr >> r) | (parameter x << l), [Out n] is *c++ = sr >> n *)
Inductive pins := Sr (r : Z) (x : nat) (l : Z) | Out (n : Z).
Definition wav49_1 : list pins :=
  [Sr 6 0 10; Sr 6 1 10; Out 4; Sr 5 2 11; Out 7; Sr 5 3 11; Sr 4 4 12; Out 6; Sr 4 5 12; Sr 3 6 13; Out 7; Sr 3 7 13].
Definition wav49_1_sub (b : nat) : list pins :=
  let x k := (b + 4 + k)%nat in
  [Sr 7 b 9; Out 5; Sr 2 (b + 1) 14; Sr 2 (b + 2) 14; Sr 6 (b + 3) 10; Out 3; Sr 3 (x 0%nat) 13; Out 8;
   Sr 3 (x 1%nat) 13; Sr 3 (x 2%nat) 13; Sr 3 (x 3%nat) 13; Out 7; Sr 3 (x 4%nat) 13; Sr 3 (x 5%nat) 13; Sr 3 (x 6%nat) 13; Out 6;
   Sr 3 (x 7%nat) 13; Sr 3 (x 8%nat) 13; Out 8; Sr 3 (x 9%nat) 13; Sr 3 (x 10%nat) 13; Sr 3 (x 11%nat) 13; Out 7; Sr 3 (x 12%nat) 13].
Definition wav49_2 : list pins :=
  [Sr 6 76 10; Out 6; Sr 6 77 10; Out 8; Sr 5 78 11; Sr 5 79 11; Out 6; Sr 4 80 12; Sr 4 81 12; Out 6; Sr 3 82 13; Sr 3 83 13; Out 8].
Definition wav49_2_sub (b : nat) : list pins :=
  let x k := (b + 4 + k)%nat in
  [Sr 7 b 9; Sr 2 (b + 1) 14; Out 7; Sr 2 (b + 2) 14; Sr 6 (b + 3) 10; Out 7;
   Sr 3 (x 0%nat) 13; Sr 3 (x 1%nat) 13; Sr 3 (x 2%nat) 13; Out 6; Sr 3 (x 3%nat) 13; Sr 3 (x 4%nat) 13; Out 8;
   Sr 3 (x 5%nat) 13; Sr 3 (x 6%nat) 13; Sr 3 (x 7%nat) 13; Out 7; Sr 3 (x 8%nat) 13; Sr 3 (x 9%nat) 13; Sr 3 (x 10%nat) 13; Out 6;
   Sr 3 (x 11%nat) 13; Sr 3 (x 12%nat) 13; Out 8].
Definition wav49_pack : list pins :=
  wav49_1 ++ flat_map wav49_1_sub [8; 25; 42; 59]%nat ++ wav49_2 ++ flat_map wav49_2_sub [84; 101; 118; 135]%nat.
Fixpoint run_pack (f : list Z) (p : list pins) (sr : Z) : list Z :=
  match p with
  | [] => []
  | Sr r x l :: p => run_pack f p (u16 (Z.lor (Z.shiftr sr r) (Z.shiftl (nth x f 0) l)))
  | Out n :: p => u8 (Z.shiftr sr n) :: run_pack f p sr
  end.
(** the two frames one after the other *)
Definition pack_wav49 (f : list Z) : list Z := run_pack f wav49_pack 0.
(** src/gsm0610_decode.c:128-263: [Ld] is sr = *c++, [Or n] is sr |= *c++ << n, [Get m] sets the next parameter to sr & m,
    [Shr n] is sr >>= n *)
Inductive uins := Ld | Or (n : Z) | Get (m : Z) | Shr (n : Z).
Definition wav49_u1 : list uins :=
  [Ld; Get 0x3F; Shr 6; Or 2; Get 0x3F; Shr 6; Or 4; Get 0x1F; Shr 5; Get 0x1F; Shr 5; Or 2; Get 0xF; Shr 4; Get 0xF; Shr 4; Or 2; Get 7; Shr 3; Get 7; Shr 3].
Definition wav49_u1_sub : list uins :=
  [Or 4; Get 0x7F; Shr 7; Get 3; Shr 2; Get 3; Shr 2; Or 1; Get 0x3F; Shr 6; Get 7; Ld; Get 7; Shr 3; Get 7; Shr 3; Or 2; Get 7; Shr 3; Get 7; Shr 3; Get 7; Shr 3;
   Or 1; Get 7; Shr 3; Get 7; Shr 3; Get 7; Ld; Get 7; Shr 3; Get 7; Shr 3; Or 2; Get 7; Shr 3; Get 7; Shr 3].
Definition wav49_u2 : list uins :=
  [Or 4; Get 0x3F; Shr 6; Get 0x3F; Ld; Get 0x1F; Shr 5; Or 3; Get 0x1F; Shr 5; Get 0xF; Shr 4; Or 2; Get 0xF; Shr 4; Get 7; Shr 3; Get 7].
Definition wav49_u2_sub : list uins :=
  [Ld; Get 0x7F; Shr 7; Or 1; Get 3; Shr 2; Get 3; Shr 2; Or 5; Get 0x3F; Shr 6; Get 7; Shr 3; Get 7; Shr 3; Or 1; Get 7; Shr 3; Get 7; Shr 3; Get 7;
   Ld; Get 7; Shr 3; Get 7; Shr 3; Or 2; Get 7; Shr 3; Get 7; Shr 3; Get 7; Shr 3; Or 1; Get 7; Shr 3; Get 7; Shr 3; Get 7].
Definition wav49_unpack : list uins :=
  wav49_u1 ++ concat (repeat wav49_u1_sub 4) ++ wav49_u2 ++ concat (repeat wav49_u2_sub 4).
Fixpoint run_unpack (c : list Z) (p : list uins) (sr : Z) : res (list Z) :=
  match p with
  | [] => Ok []
  | Ld :: p => match c with [] => UB | o :: c => run_unpack c p o end
  | Or n :: p => match c with [] => UB | o :: c => run_unpack c p (u16 (Z.lor sr (Z.shiftl o n))) end
  | Get m :: p => do l <- run_unpack c p sr; Ok (Z.land sr m :: l)
  | Shr n :: p => run_unpack c p (Z.shiftr sr n)
  end.
Definition unpack_wav49 (c : list Z) : res (list Z) := run_unpack c wav49_unpack 0.
(** src/gsm0610_encode.c:235-279 *)
Definition fld (x r m l : Z) : Z := Z.shiftl (Z.land (Z.shiftr x r) m) l.
Definition voip_head (f : list Z) : list Z :=
  let L k := nth k f 0 in
  [u8 (Z.lor (fld 0xD 0 0xF 4) (fld (L 0%nat) 2 0xF 0));
   u8 (Z.lor (fld (L 0%nat) 0 0x3 6) (fld (L 1%nat) 0 0x3F 0));
   u8 (Z.lor (fld (L 2%nat) 0 0x1F 3) (fld (L 3%nat) 2 0x7 0));
   u8 (Z.lor (Z.lor (fld (L 3%nat) 0 0x3 6) (fld (L 4%nat) 0 0xF 2)) (fld (L 5%nat) 2 0x3 0));
   u8 (Z.lor (Z.lor (fld (L 5%nat) 0 0x3 6) (fld (L 6%nat) 0 0x7 3)) (fld (L 7%nat) 0 0x7 0))].
Definition voip_sub (p : list Z) : list Z :=
  let Nc := nth 0 p 0 in let bc := nth 1 p 0 in let Mc := nth 2 p 0 in let xmaxc := nth 3 p 0 in let x k := nth (4 + k) p 0 in
  [u8 (Z.lor (fld Nc 0 0x7F 1) (fld bc 1 0x1 0));
   u8 (Z.lor (Z.lor (fld bc 0 0x1 7) (fld Mc 0 0x3 5)) (fld xmaxc 1 0x1F 0));
   u8 (Z.lor (Z.lor (Z.lor (fld xmaxc 0 0x1 7) (fld (x 0%nat) 0 0x7 4)) (fld (x 1%nat) 0 0x7 1)) (fld (x 2%nat) 2 0x1 0));
   u8 (Z.lor (Z.lor (fld (x 2%nat) 0 0x3 6) (fld (x 3%nat) 0 0x7 3)) (fld (x 4%nat) 0 0x7 0));
   u8 (Z.lor (Z.lor (fld (x 5%nat) 0 0x7 5) (fld (x 6%nat) 0 0x7 2)) (fld (x 7%nat) 1 0x3 0));
   u8 (Z.lor (Z.lor (Z.lor (fld (x 7%nat) 0 0x1 7) (fld (x 8%nat) 0 0x7 4)) (fld (x 9%nat) 0 0x7 1)) (fld (x 10%nat) 2 0x1 0));
   u8 (Z.lor (Z.lor (fld (x 10%nat) 0 0x3 6) (fld (x 11%nat) 0 0x7 3)) (fld (x 12%nat) 0 0x7 0))].
Definition pack_voip (f : list Z) : list Z :=
  voip_head f ++ flat_map (fun i => voip_sub (skipn (8 + 17 * i) f)) (seq 0 4).
(** src/gsm0610_decode.c:266-309 *)
Definition part (c r m l : Z) : Z := Z.shiftl (Z.land (Z.shiftr c r) m) l.
Definition unvoip_head (c : list Z) : list Z :=
  let C k := nth k c 0 in
  [Z.lor (part (C 0%nat) 0 0xF 2) (part (C 1%nat) 6 0x3 0); part (C 1%nat) 0 0x3F 0; part (C 2%nat) 3 0x1F 0;
   Z.lor (part (C 2%nat) 0 0x7 2) (part (C 3%nat) 6 0x3 0); part (C 3%nat) 2 0xF 0;
   Z.lor (part (C 3%nat) 0 0x3 2) (part (C 4%nat) 6 0x3 0); part (C 4%nat) 3 0x7 0; part (C 4%nat) 0 0x7 0].
Definition unvoip_sub (c : list Z) : list Z :=
  let C k := nth k c 0 in
  [part (C 0%nat) 1 0x7F 0; Z.lor (part (C 0%nat) 0 0x1 1) (part (C 1%nat) 7 0x1 0); part (C 1%nat) 5 0x3 0;
   Z.lor (part (C 1%nat) 0 0x1F 1) (part (C 2%nat) 7 0x1 0); part (C 2%nat) 4 0x7 0; part (C 2%nat) 1 0x7 0;
   Z.lor (part (C 2%nat) 0 0x1 2) (part (C 3%nat) 6 0x3 0); part (C 3%nat) 3 0x7 0; part (C 3%nat) 0 0x7 0;
   part (C 4%nat) 5 0x7 0; part (C 4%nat) 2 0x7 0; Z.lor (part (C 4%nat) 0 0x3 1) (part (C 5%nat) 7 0x1 0);
   part (C 5%nat) 4 0x7 0; part (C 5%nat) 1 0x7 0; Z.lor (part (C 5%nat) 0 0x1 2) (part (C 6%nat) 6 0x3 0);
   part (C 6%nat) 3 0x7 0; part (C 6%nat) 0 0x7 0].
Definition unpack_voip (c : list Z) : res (list Z) :=
  do c <- aslice c 0 33;
  Ok (unvoip_head c ++ flat_map (fun i => unvoip_sub (skipn (5 + 7 * i) c)) (seq 0 4)).

(** ---- src/gsm0610_encode.c:282-310, src/gsm0610_decode.c:312-352; len is the length of the list ---- *)
Inductive packing := NONE | WAV49 | VOIP.
Fixpoint encode_loop (fuel : nat) (p : packing) (s : gsm) (amp : list Z) (i : Z) : res (gsm * list Z) :=
  if Z.of_nat (length amp) <=? i then Ok (s, [])
  else match fuel with
  | O => UB
  | S k =>
      do a <- aslice amp i 160;
      do (s, f) <- encode_a_frame s a;
      do (s, c, i) <-
        match p with
        | WAV49 => do a <- aslice amp (i + 160) 160; do (s, f') <- encode_a_frame s a; Ok (s, pack_wav49 (f ++ f'), i + 160)
        | VOIP => Ok (s, pack_voip f, i)
        | NONE => Ok (s, pack_none f, i)
        end;
      do (s, cs) <- encode_loop k p s amp (i + 160);
      Ok (s, c ++ cs)
  end.
Definition gsm0610_encode (p : packing) (s : gsm) (amp : list Z) : res (gsm * list Z) := encode_loop (length amp) p s amp 0.
Fixpoint decode_loop (fuel : nat) (p : packing) (s : gsm) (code : list Z) : res (gsm * list Z) :=
  match code with
  | [] => Ok (s, [])
  | _ =>
      match fuel with
      | O => UB
      | S k =>
          do (s, a, n) <-
            match p with
            | NONE => do f <- unpack_none code; do (s, a) <- decode_a_frame s f; Ok (s, a, 76%nat)
            | WAV49 =>
                do f <- unpack_wav49 code; do (s, a) <- decode_a_frame s (firstn 76 f); do (s, b) <- decode_a_frame s (skipn 76 f); Ok (s, a ++ b, 65%nat)
            | VOIP => do f <- unpack_voip code; do (s, a) <- decode_a_frame s f; Ok (s, a, 33%nat)
            end;
          do (s, b) <- decode_loop k p s (skipn n code);
          Ok (s, a ++ b)
      end
  end.
Definition gsm0610_decode (p : packing) (s : gsm) (code : list Z) : res (gsm * list Z) := decode_loop (length code) p s code.
