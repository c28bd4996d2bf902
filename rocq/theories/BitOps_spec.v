(** Specification of the bit operations in terms of bit lists. *)
From Verif Require Import Base.
(** [n]-bit mirror image *)
Definition mirror (n : nat) (x : Z) : Z := of_bits_lsb (rev (bits_lsb n x)).
(** mirror image of each octet of an [n]-octet word *)
Fixpoint mirror_octets (n : nat) (x : Z) : Z :=
  match n with O => 0 | S k => mirror 8 (x mod 256) + 256 * mirror_octets k (x / 256) end.
(** number of ones *)
Fixpoint ones_count (l : list bool) : Z :=
  match l with [] => 0 | b :: t => (if b then 1 else 0) + ones_count t end.
