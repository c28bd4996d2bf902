(** Model of src/bit_operations.c and src/spandsp/bit_operations.h.
    The inline assembler variants (bsr/bsf/clz) are not modelled; the portable C branches are. *)
From Verif Require Import Base.

Definition shr := Z.shiftr.
(** left shift in a C type of [w] bits *)
Definition shl (w x k : Z) : Z := Z.land (Z.shiftl x k) (Z.ones w).

(** src/spandsp/bit_operations.h:203 bit_reverse8 (fast multiply branch, 32 bit unsigned arithmetic) *)
Definition bit_reverse8 (x : Z) : Z :=
  u8 (shr (u32 ((Z.lor (Z.land (u32 (x * 0x0802)) 0x22110) (Z.land (u32 (x * 0x8020)) 0x88440)) * 0x10101)) 16).
(** src/spandsp/bit_operations.h:206-208 bit_reverse8 (shifter branch; x is uint8_t so each assignment truncates) *)
Definition bit_reverse8_slow (x : Z) : Z :=
  let x := u8 (Z.lor (shr x 4) (Z.shiftl x 4)) in
  let x := Z.lor (shr (Z.land x 0xCC) 2) (shl 8 (Z.land x 0x33) 2) in
  Z.lor (shr (Z.land x 0xAA) 1) (shl 8 (Z.land x 0x55) 1).

(** src/bit_operations.c:42-48 *)
Definition bit_reverse16 (x : Z) : Z :=
  let x := Z.lor (shr x 8) (shl 16 x 8) in
  let x := Z.lor (shr (Z.land x 0xF0F0) 4) (shl 16 (Z.land x 0x0F0F) 4) in
  let x := Z.lor (shr (Z.land x 0xCCCC) 2) (shl 16 (Z.land x 0x3333) 2) in
  Z.lor (shr (Z.land x 0xAAAA) 1) (shl 16 (Z.land x 0x5555) 1).
(** src/bit_operations.c:51-58 *)
Definition bit_reverse32 (x : Z) : Z :=
  let x := Z.lor (shr x 16) (shl 32 x 16) in
  let x := Z.lor (shr (Z.land x 0xFF00FF00) 8) (shl 32 (Z.land x 0x00FF00FF) 8) in
  let x := Z.lor (shr (Z.land x 0xF0F0F0F0) 4) (shl 32 (Z.land x 0x0F0F0F0F) 4) in
  let x := Z.lor (shr (Z.land x 0xCCCCCCCC) 2) (shl 32 (Z.land x 0x33333333) 2) in
  Z.lor (shr (Z.land x 0xAAAAAAAA) 1) (shl 32 (Z.land x 0x55555555) 1).
(** src/bit_operations.c:61-66 *)
Definition bit_reverse_4bytes (x : Z) : Z :=
  let x := Z.lor (shr (Z.land x 0xF0F0F0F0) 4) (shl 32 (Z.land x 0x0F0F0F0F) 4) in
  let x := Z.lor (shr (Z.land x 0xCCCCCCCC) 2) (shl 32 (Z.land x 0x33333333) 2) in
  Z.lor (shr (Z.land x 0xAAAAAAAA) 1) (shl 32 (Z.land x 0x55555555) 1).
(** src/bit_operations.c:70-75 *)
Definition bit_reverse_8bytes (x : Z) : Z :=
  let x := Z.lor (shr (Z.land x 0xF0F0F0F0F0F0F0F0) 4) (shl 64 (Z.land x 0x0F0F0F0F0F0F0F0F) 4) in
  let x := Z.lor (shr (Z.land x 0xCCCCCCCCCCCCCCCC) 2) (shl 64 (Z.land x 0x3333333333333333) 2) in
  Z.lor (shr (Z.land x 0xAAAAAAAAAAAAAAAA) 1) (shl 64 (Z.land x 0x5555555555555555) 1).

(** Little endian word access (x86-64). *)
Fixpoint le_word (l : list Z) : Z :=
  match l with [] => 0 | b :: t => b + 256 * le_word t end.
Fixpoint le_bytes (n : nat) (x : Z) : list Z :=
  match n with O => [] | S k => u8 x :: le_bytes k (x / 256) end.

(** src/bit_operations.c:107-138 bit_reverse, x86-64 branch.  [len] is an int compared with size_t,
    i.e. after conversion to 64 bit unsigned.  [p] is the common offset of y8/z8, y4/z4, y1/z1.
    The two buffers do not overlap in the model. [fuel] only bounds the recursion; it is initialised
    above the number of octets in the source, and every iteration consumes at least one (else UB). *)
Fixpoint rev_words (w : Z) (f : Z -> Z) (fuel : nat) (to from : list Z) (p len : Z) : res (list Z * Z * Z) :=
  if u64 len <? w then Ok (to, p, len)
  else match fuel with
       | O => UB
       | S k => do l <- aslice from p w;
                do to <- ablit to p (le_bytes (Z.to_nat w) (f (le_word l)));
                rev_words w f k to from (p + w) (len - w)
       end.
Fixpoint rev_octets (fuel : nat) (to from : list Z) (p len : Z) : res (list Z) :=
  if len <=? 0 then Ok to
  else match fuel with
       | O => UB
       | S k => do b <- aget from p; do to <- aset to p (bit_reverse8 b);
                rev_octets k to from (p + 1) (len - 1)
       end.
Definition bit_reverse (to from : list Z) (len : Z) : res (list Z) :=
  let fuel := S (length from) in
  do (to, p, len) <- rev_words 8 bit_reverse_8bytes fuel to from 0 len;
  do (to, p, len) <- rev_words 4 bit_reverse_4bytes fuel to from p len;
  rev_octets fuel to from p len.

(** src/bit_operations.c:143-153 one_bits32 (multiply branch) *)
Definition one_bits32 (x : Z) : Z :=
  let x := u32 (x - Z.land (shr x 1) 0x55555555) in
  let x := u32 (Z.land x 0x33333333 + Z.land (shr x 2) 0x33333333) in
  let x := Z.land (u32 (x + shr x 4)) 0x0F0F0F0F in
  shr (u32 (x * 0x01010101)) 24.

(** src/bit_operations.c:163-181 *)
Definition make_mask32 (x : Z) : Z :=
  let x := Z.lor x (shr x 1) in
  let x := Z.lor x (shr x 2) in
  let x := Z.lor x (shr x 4) in
  let x := Z.lor x (shr x 8) in
  Z.lor x (shr x 16).
Definition make_mask16 (x : Z) : Z :=
  let x := Z.lor x (shr x 1) in
  let x := Z.lor x (shr x 2) in
  let x := Z.lor x (shr x 4) in
  Z.lor x (shr x 8).

(** One "if (bits & mask) { bits &= mask; res += inc; }" of top_bit/bottom_bit. *)
Definition narrow (s : Z * Z) (mask inc : Z) : Z * Z :=
  let '(bits, r) := s in
  if Z.land bits mask =? 0 then (bits, r) else (Z.land bits mask, r + inc).
(** src/spandsp/bit_operations.h:113-143 top_bit (portable branch) *)
Definition top_bit (bits : Z) : Z :=
  if bits =? 0 then -1
  else snd (narrow (narrow (narrow (narrow (narrow (bits, 0)
         0xFFFF0000 16) 0xFF00FF00 8) 0xF0F0F0F0 4) 0xCCCCCCCC 2) 0xAAAAAAAA 1).
(** src/spandsp/bit_operations.h:163-191 bottom_bit (portable branch) *)
Definition bottom_bit (bits : Z) : Z :=
  if bits =? 0 then -1
  else snd (narrow (narrow (narrow (narrow (narrow (bits, 31)
         0x0000FFFF (-16)) 0x00FF00FF (-8)) 0x0F0F0F0F (-4)) 0x33333333 (-2)) 0x55555555 (-1)).

(** src/spandsp/bit_operations.h:260-263: -(int32_t) x overflows for 0x80000000 *)
Definition least_significant_one32 (x : Z) : res Z :=
  if s32 x =? -2147483648 then UB else Ok (Z.land x (u32 (- s32 x))).
(** src/spandsp/bit_operations.h:273: 1 << top_bit(x) on an int; shifting by a negative
    count or into the sign bit is undefined *)
Definition most_significant_one32 (x : Z) : res Z :=
  let k := top_bit x in
  if (0 <=? k) && (k <? 31) then Ok (u32 (Z.shiftl 1 k)) else UB.
(** src/spandsp/bit_operations.h:275-276 (branch for other processors) *)
Definition most_significant_one32_slow (x : Z) : Z :=
  let x := make_mask32 x in Z.lxor x (shr x 1).

(** src/spandsp/bit_operations.h:284-311 *)
Definition parity8 (x : Z) : Z :=
  let x := Z.land (Z.lxor x (shr x 4)) 0x0F in Z.land (shr 0x6996 x) 1.
Definition parity16 (x : Z) : Z :=
  let x := Z.lxor x (shr x 8) in
  let x := Z.land (Z.lxor x (shr x 4)) 0x0F in Z.land (shr 0x6996 x) 1.
Definition parity32 (x : Z) : Z :=
  let x := Z.lxor x (shr x 16) in
  let x := Z.lxor x (shr x 8) in
  let x := Z.land (Z.lxor x (shr x 4)) 0x0F in Z.land (shr 0x6996 x) 1.
