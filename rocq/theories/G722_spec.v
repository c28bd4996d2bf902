(** Specification for the G.722 codec: codes in octets, the limits of the adaptive
    predictors, several calls. *)
From Verif Require Import Base G722_model.
From Verif Require G726_spec.
Local Open Scope Z_scope.

(** ---- audio ---- *)
Definition sample (x : Z) : Prop := -32768 <= x <= 32767.
Definition audio (l : list Z) : Prop := Forall sample l.
(** 16 kHz audio is coded two samples at a time, 8 kHz audio (and the test signals of the
    recommendation, which leave out the band splitting filter) one at a time. *)
Definition two_bands (c : cfg) : bool := negb (itu c) && negb (eight_k c).
Definition whole (c : cfg) (amp : list Z) : Prop := two_bands c = true -> Nat.Even (length amp).
Definition n_codes (c : cfg) (amp : list Z) : nat := if two_bands c then Nat.div2 (length amp) else length amp.
(** samples that one code stands for, at the encoder and at the decoder *)
Definition spc (c : cfg) : nat := if two_bands c then 2 else 1.
Definition per_code (c : cfg) : nat := if itu c then 2 else if eight_k c then 1 else 2.

(** ---- codes and octets ---- *)
Definition width (r : rate) : nat := match r with R48 => 6 | R56 => 7 | R64 => 8 end.
Definition code_ok (r : rate) (v : Z) : Prop := 0 <= v < 2 ^ Z.of_nat (width r).
Notation fields := G726_spec.fields.
(** The octets that codes fill, and the codes that octets hold, the first code in the lowest bits. *)
Definition octets_of (r : rate) (codes : list Z) : list Z :=
  map of_bits_lsb (fields 8 (flat_map (bits_lsb (width r)) codes)).
Definition codes_of (r : rate) (data : list Z) : list Z :=
  map of_bits_lsb (fields (width r) (flat_map (bits_lsb 8) data)).
(** The same settings without packing. *)
Definition plain (c : cfg) : cfg := {| bits := bits c; itu := itu c; packed := false; eight_k := eight_k c |}.

(** A decoder at 16 kHz, and one that gives the two bands as they are, without the filter that joins them. *)
Definition wide (c : cfg) : cfg := {| bits := bits c; itu := itu c; packed := packed c; eight_k := false |}.
Definition test_mode (c : cfg) : cfg := {| bits := bits c; itu := true; packed := packed c; eight_k := false |}.
(** The six bits of a code that are always speech; one or two lower ones may carry other data. *)
Definition upper (r : rate) (v : Z) : Z := Z.shiftr v (bps r - 6).

(** ---- the predictors ---- *)
(** The limits of the recommendation: |a2| <= 0.75 and |a1| <= 1 - 2^-4 - a2 (in units of 2^-14), which keep the poles
    inside the unit circle, and the limits of the scale factor and of the quantiser step it stands for. *)
Definition stable (s : band) : Prop := Z.abs (a1 s) <= 12288 /\ Z.abs (a0 s) <= 15360 - a1 s.
Definition limits (x : ctx) : Prop :=
  stable (low x) /\ stable (high x) /\ 0 <= nb (low x) <= 18432 /\ 0 <= nb (high x) <= 22528 /\
  32 <= det (low x) <= 32064 /\ 8 <= det (high x) <= 16384.
Definition same_bands (x y : ctx) : Prop := low x = low y /\ high x = high y.

(** ---- several calls ---- *)
Fixpoint encode_calls (c : cfg) (x : ctx) (ls : list (list Z)) : res (list Z * ctx) :=
  match ls with
  | [] => Ok ([], x)
  | l :: t => do (o, x) <- g722_encode c x l; do (o', x) <- encode_calls c x t; Ok (o ++ o', x)
  end.
Fixpoint decode_calls (c : cfg) (x : ctx) (ls : list (list Z)) : res (list Z * ctx) :=
  match ls with
  | [] => Ok ([], x)
  | l :: t => do (o, x) <- g722_decode c x l; do (o', x) <- decode_calls c x t; Ok (o ++ o', x)
  end.
