(** Specification for the G.726 codec: codes in octets, the limits of the adaptive
    predictor, and working in tandem. *)
From Verif Require Import Base G726_model.
Local Open Scope Z_scope.

(** ---- codes and octets ---- *)
(** The width of a code, and the codes of a rate: 0 is not a code at 24, 32 and 40 kbps. *)
Definition width (r : rate) : nat := match r with R16 => 2 | R24 => 3 | R32 => 4 | R40 => 5 end.
Definition any_code (r : rate) (c : Z) : Prop := 0 <= c < 2 ^ Z.of_nat (width r).
Definition sent_code (r : rate) (c : Z) : Prop := any_code r c /\ (c = 0 -> r = R16).
(** The bits of a code in order of transmission: from the right (RFC 3551) or from the
    left (AAL2). *)
Definition code_bits (p : packing) (n : nat) (c : Z) : list bool :=
  match p with PLEFT => bits_msb n c | _ => bits_lsb n c end.
Definition of_code_bits (p : packing) (l : list bool) : Z :=
  match p with PLEFT => of_bits_msb l | _ => of_bits_lsb l end.
(** The whole fields of [n] bits in a bit string, and what is left over. *)
Fixpoint fields_ (fuel n : nat) (l : list bool) : list (list bool) :=
  match fuel with
  | O => []
  | S k => if (length l <? n)%nat then [] else firstn n l :: fields_ k n (skipn n l)
  end.
Definition fields (n : nat) (l : list bool) : list (list bool) := fields_ (length l) n l.
(** The octets that codes fill, and the codes that octets hold. *)
Definition packed (r : rate) (p : packing) (codes : list Z) : list Z :=
  match p with
  | PNONE => codes
  | _ => map (of_code_bits p) (fields 8 (flat_map (code_bits p (width r)) codes))
  end.
Definition unpacked (r : rate) (p : packing) (data : list Z) : list Z :=
  match p with
  | PNONE => data
  | _ => map (of_code_bits p) (fields (width r) (flat_map (code_bits p 8) data))
  end.

(** ---- audio ---- *)
Definition sample (c : coding) (x : Z) : Prop :=
  match c with LINEAR => -32768 <= x <= 32767 | _ => byte x end.
Definition audio (c : coding) (l : list Z) : Prop := Forall (sample c) l.

(** ---- the predictor ---- *)
(** The limits of the recommendation: |a2| <= 0.75 and |a1| <= 1 - 2^-4 - a2 (in units of
    2^-14), which keep the poles inside the unit circle; and 1.06 <= y <= 10 (in units of
    2^-9) for the scale factor, fast and slow (2^-15). *)
Definition stable (s : g726) : Prop :=
  Z.abs (a1 s) <= 12288 /\ Z.abs (a0 s) <= 15360 - a1 s /\
  544 <= yu s <= 5120 /\ 544 * 64 <= yl s <= 5120 * 64.

(** ---- tandems ---- *)
(** PCM through [n] encoder and decoder pairs. *)
Fixpoint tandem (r : rate) (c : coding) (n : nat) (xs : list Z) : res (list Z) :=
  match n with
  | O => Ok xs
  | S k =>
      do (codes, _) <- g726_encode r c PNONE g726_init xs;
      do (ys, _) <- g726_decode r c PNONE g726_init codes;
      tandem r c k ys
  end.

(** ---- several calls ---- *)
Fixpoint encode_calls (r : rate) (c : coding) (p : packing) (x : ctx) (ls : list (list Z)) : res (list Z * ctx) :=
  match ls with
  | [] => Ok ([], x)
  | l :: t => do (o, x) <- g726_encode r c p x l; do (o', x) <- encode_calls r c p x t; Ok (o ++ o', x)
  end.
Fixpoint decode_calls (r : rate) (c : coding) (p : packing) (x : ctx) (ls : list (list Z)) : res (list Z * ctx) :=
  match ls with
  | [] => Ok ([], x)
  | l :: t => do (o, x) <- g726_decode r c p x l; do (o', x) <- decode_calls r c p x t; Ok (o ++ o', x)
  end.
(** The number of whole codes in the whole octets that [n] codes fill. *)
Definition whole_codes (r : rate) (p : packing) (n : nat) : nat :=
  match p with PNONE => n | _ => (8 * (width r * n / 8) / width r)%nat end.
