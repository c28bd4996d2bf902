(** What Contact ID messages are, apart from the code. *)
From Verif Require Import Base Ademco_model.
Local Open Scope Z_scope.

(** A message has 15 digits from 0 to 15, then a digit that makes the sum a multiple of 15, where 0 counts as 10.  The digits
    are sent as the DTMF signals 0-9, D, *, #, A, B, C; the digit 10 is not used. *)
Definition in_range (r : report) : Prop :=
  0 <= acct r < 65536 /\ 0 <= mt r < 256 /\ 0 <= q r < 16 /\ 0 <= xyz r < 4096 /\ 0 <= gg r < 256 /\ 0 <= ccc r < 4096.
Definition digits_of (r : report) : list Z :=
  [acct r / 4096; acct r / 256 mod 16; acct r / 16 mod 16; acct r mod 16; mt r / 16; mt r mod 16; q r;
   xyz r / 256; xyz r / 16 mod 16; xyz r mod 16; gg r / 16; gg r mod 16; ccc r / 256; ccc r / 16 mod 16; ccc r mod 16].
Definition signals : list Z := [48; 49; 50; 51; 52; 53; 54; 55; 56; 57; 68; 42; 35; 65; 66; 67].
Definition signal (d : Z) : Z := nth (Z.to_nat d) signals 0.
Definition count (d : Z) : Z := if d =? 0 then 10 else d.
Fixpoint total (l : list Z) : Z := match l with [] => 0 | d :: t => count d + total t end.
(** [l] is sent for the message [r] *)
Definition message (r : report) (l : list Z) : Prop :=
  exists c, 1 <= c <= 15 /\ (total (digits_of r) + c) mod 15 = 0 /\ l = map signal (digits_of r ++ [c]).

(** A digit is replaced. *)
Fixpoint one_wrong (a b : list Z) : Prop :=
  match a, b with
  | x :: a, y :: b => (x <> y /\ a = b) \/ (x = y /\ one_wrong a b)
  | _, _ => False
  end.
(** The digits 0 and D count the same. *)
Definition alike (x y : Z) : Prop := (x = 48 /\ y = 68) \/ (x = 68 /\ y = 48).
Fixpoint one_wrong_not_alike (a b : list Z) : Prop :=
  match a, b with
  | x :: a, y :: b => (x <> y /\ ~ alike x y /\ a = b) \/ (x = y /\ one_wrong_not_alike a b)
  | _, _ => False
  end.
(** The whole groups of 16 digits. *)
Fixpoint groups (n : nat) (l : list Z) : list (list Z) :=
  match n with O => [] | S k => if (16 <=? length l)%nat then firstn 16 l :: groups k (skipn 16 l) else [] end.
Definition digit_value (c : Z) : Z := if c =? 48 then 10 else if c <=? 57 then (if c =? 42 then 11 else if c =? 35 then 12 else c - 48) else if c =? 68 then 10 else c - 52.

(** ---- the sender: the hits of the blocks, and what is told ---- *)
Definition hit_of (c : call) : list Z := match c with Block h _ => [h] | _ => [] end.
Fixpoint no_gap (l : list Z) : Prop :=
  match l with
  | a :: (b :: _) as t => ~ (a = 0 /\ b = 0) /\ no_gap t
  | _ => True
  end.
(** At the end of [hits] a tone of 1400Hz has ended: it was found twice in succession, then for 59 to 218 blocks (400ms to
    1500ms) no two blocks in succession were without a tone, then there were two. *)
Definition kissoff (hits : list Z) : Prop :=
  exists pre mid, hits = pre ++ [1; 1] ++ mid ++ [0] /\ last (1 :: mid) 1 = 0 /\ no_gap (1 :: mid) /\ 59 <= 1 + Z.of_nat (length mid) <= 218.
