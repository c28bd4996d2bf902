(** Model of src/bitstream.c.  The octets written through *c are returned as a list; reading past
    the end of the source octets is UB.  (1 << bits) - 1 is computed on int: bits outside 0..30 is UB. *)
From Verif Require Import Base.

(** src/spandsp/private/bitstream.h *)
Record bs := { bitstream : Z; residue : Z; lsb_first : bool }.
(** src/bitstream.c:148-161 bitstream_init *)
Definition bitstream_init (lsb : bool) : bs := {| bitstream := 0; residue := 0; lsb_first := lsb |}.

(** (1 << bits) - 1 *)
Definition mask (bits : Z) : res Z :=
  if (0 <=? bits) && (bits <=? 30) then Ok (Z.shiftl 1 bits - 1) else UB.

(** src/bitstream.c:59-65 and 75-80: the two output loops.  [fuel] bounds the recursion (residue/8 iterations). *)
Fixpoint put_loop (lsb : bool) (fuel : nat) (b r : Z) : res (Z * Z * list Z) :=
  if r <? 8 then Ok (b, r, [])
  else match fuel with
       | O => UB
       | S k =>
         let r := r - 8 in
         if lsb then
           do (b', r', l) <- put_loop lsb k (Z.shiftr b 8) r; Ok (b', r', Z.land b 0xFF :: l)
         else if 32 <=? r then UB else
           do (b', r', l) <- put_loop lsb k b r; Ok (b', r', Z.land (Z.shiftr b r) 0xFF :: l)
       end.

(** src/bitstream.c:48-83 bitstream_put *)
Definition bitstream_put (s : bs) (value bits : Z) : res (bs * list Z) :=
  do m <- mask bits;
  let value := Z.land value m in
  let '(b, r) :=
    if residue s + bits <=? 32 then
      (if lsb_first s then Z.lor (bitstream s) (u32 (Z.shiftl value (residue s)))
       else Z.lor (u32 (Z.shiftl (bitstream s) bits)) value, residue s + bits)
    else (bitstream s, residue s) in
  do (b, r, l) <- put_loop (lsb_first s) 8 b r;
  Ok ({| bitstream := b; residue := r; lsb_first := lsb_first s |}, l).

(** src/bitstream.c:86-100 bitstream_emit: the octet stored at *c, if any (the pointer does not move) *)
Definition bitstream_emit (s : bs) : res (list Z) :=
  if 0 <? residue s then
    do m <- mask (residue s);
    let b := Z.land (bitstream s) m in
    if lsb_first s then Ok [u8 b]
    else if residue s <=? 8 then Ok [u8 (u32 (Z.shiftl b (8 - residue s)))] else UB
  else Ok [].
(** src/bitstream.c:103-113 bitstream_flush *)
Definition bitstream_flush (s : bs) : res (bs * list Z) :=
  do l <- bitstream_emit s;
  Ok ({| bitstream := 0; residue := if 0 <? residue s then 0 else residue s; lsb_first := lsb_first s |}, l).

(** src/bitstream.c:122-127 and 134-139: the input loops *)
Fixpoint get_loop (lsb : bool) (fuel : nat) (bits b r : Z) (src : list Z) : res (Z * Z * list Z) :=
  if bits <=? r then Ok (b, r, src)
  else match fuel, src with
       | S k, x :: t =>
         if lsb then
           if (0 <=? r) && (r <? 32) then get_loop lsb k bits (Z.lor b (u32 (Z.shiftl x r))) (r + 8) t else UB
         else get_loop lsb k bits (Z.lor (u32 (Z.shiftl b 8)) x) (r + 8) t
       | _, _ => UB
       end.
(** src/bitstream.c:116-145 bitstream_get: new state, remaining source octets, value *)
Definition bitstream_get (s : bs) (src : list Z) (bits : Z) : res (bs * list Z * Z) :=
  do (b, r, src) <- get_loop (lsb_first s) 8 bits (bitstream s) (residue s) src;
  do m <- mask bits;
  let r := r - bits in
  if lsb_first s then
    Ok ({| bitstream := Z.shiftr b bits; residue := r; lsb_first := lsb_first s |}, src, Z.land b m)
  else if 32 <=? r then UB else
    Ok ({| bitstream := b; residue := r; lsb_first := lsb_first s |}, src, Z.land (Z.shiftr b r) m).

(** A caller writing a sequence of (value, width) fields and flushing, and one reading them back. *)
Fixpoint put_fields (s : bs) (fs : list (Z * Z)) : res (bs * list Z) :=
  match fs with
  | [] => Ok (s, [])
  | (v, w) :: fs => do (s, l) <- bitstream_put s v w; do (s, l') <- put_fields s fs; Ok (s, l ++ l')
  end.
Definition write_fields (lsb : bool) (fs : list (Z * Z)) : res (list Z) :=
  do (s, l) <- put_fields (bitstream_init lsb) fs;
  do (s, l') <- bitstream_flush s;
  Ok (l ++ l').
Fixpoint get_fields (s : bs) (src : list Z) (ws : list Z) : res (list Z * list Z) :=
  match ws with
  | [] => Ok ([], src)
  | w :: ws => do (s, src, v) <- bitstream_get s src w; do (vs, src) <- get_fields s src ws; Ok (v :: vs, src)
  end.
Definition read_fields (lsb : bool) (src : list Z) (ws : list Z) : res (list Z * list Z) :=
  get_fields (bitstream_init lsb) src ws.
