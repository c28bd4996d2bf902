(** Specification side for the scramblers.  Bits are booleans; [zs] writes them as
    the ints 0 and 1 of the code. *)
From Verif Require Import Base.

Definition zs (l : list bool) : list Z := map Z.b2z l.
Definition bit (l : list bool) (n : nat) : bool := nth n l false.

(** The self synchronising scrambler of a polynomial 1 + x^-t1 + x^-t2:
    y(n) = d(n) + y(n-t1) + y(n-t2). *)
Definition scrambled (t1 t2 : nat) (d y : list bool) : Prop :=
  length y = length d /\
  forall n, (t1 <= n)%nat -> (t2 <= n)%nat -> (n < length d)%nat ->
    bit y n = xorb (bit d n) (xorb (bit y (n - t1)) (bit y (n - t2))).

(** No run of more than [n] ones. *)
Definition ones_at_most (n : nat) (y : list bool) : Prop :=
  forall a b, ~ exists k, y = a ++ repeat true k ++ b /\ (n < k)%nat.

(** The V.27ter guard restarts its count where a line bit differs from the bits
    8, 9 and 12 places before it. *)
Definition v27_restart (y : list bool) (n : nat) : Prop :=
  (12 <= n < length y)%nat /\ bit y (n - 8) <> bit y n /\ bit y (n - 9) <> bit y n /\ bit y (n - 12) <> bit y n.

(** A constant rotation of the constellation by [rho] eighths (quarters for
    V.22bis) of a turn; the ring or position within the quadrant is unchanged. *)
Definition rot8 (rho sym : Z) : Z := Z.lor (Z.land sym 8) (Z.land (sym + rho) 7).
Definition rot4 (rho sym : Z) : Z := Z.lor (Z.shiftl (Z.land (Z.shiftr sym 2 + rho) 3) 2) (Z.land sym 3).
Definition groups (k : nat) (data : list (list bool)) : Prop := Forall (fun g => length g = k) data.
