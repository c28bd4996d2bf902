(** What the bit error rate tester shall do, apart from the model. *)
From Verif Require Import Base.
Local Open Scope Z_scope.

(** ITU-T O.150 to O.153: the length of the register, the tap, and whether the signal is inverted, for BERT_PATTERN_ITU_O151_23 and so
    on: the bit after [len] bits is the sum of the first one and the one after [tap] bits. *)
Record prng := { len : nat; tap : nat; inverted : bool }.
Definition itu (n : Z) (g : prng) : Prop :=
  In (n, g) [(8, {| len := 23; tap := 5; inverted := true |}); (10, {| len := 15; tap := 1; inverted := true |});
             (11, {| len := 11; tap := 2; inverted := false |}); (12, {| len := 9; tap := 4; inverted := false |})].
Definition at_ (g : prng) (l : list bool) (t : nat) : bool := xorb (inverted g) (nth t l false).
Definition follows (g : prng) (l : list bool) : Prop := forall t, (t + len g < length l)%nat -> at_ g l (t + len g) = xorb (at_ g l t) (at_ g l (t + tap g)).
(** as bits for the API *)
Definition as_bits (l : list bool) : list Z := map Z.b2z l.
(** a line that inverts the bits where e is true *)
Definition line (l e : list bool) : list bool := map (fun x => xorb (fst x) (snd x)) (combine l e).
Definition errors (e : list bool) : Z := Z.of_nat (count_occ Bool.bool_dec e true).
(** no more than n zeros together *)
Fixpoint runs_up_to (n k : nat) (l : list bool) : Prop :=
  match l with
  | [] => True
  | true :: t => runs_up_to n n t
  | false :: t => match k with O => False | S k => runs_up_to n k t end
  end.
(** after n zeros together a one is sent, whatever the pattern has; k more zeros may be sent *)
Fixpoint suppress (n k : nat) (l : list bool) : list bool :=
  match l with
  | [] => []
  | true :: t => true :: suppress n n t
  | false :: t => match k with O => true :: suppress n n t | S k => false :: suppress n k t end
  end.
Definition O151_20_prng : prng := {| len := 20; tap := 3; inverted := true |}.
(** The error rate. h holds, for each bit that was counted, whether it was wrong, the newest first. Level i from 2 to 7 looks at the last
    10^(i+1) bits whenever as many more have been counted; more than 10 wrong ones set the rate to i, the lowest such level counts;
    when all levels have been looked at and none has more than 10, the rate is 8. *)
Fixpoint grade (h : list bool) (is : list Z) : option Z :=
  match is with
  | [] => Some 8
  | i :: t => if Z.of_nat (length h) mod 10 ^ (i + 1) =? 0 then if 10 <? errors (firstn (Z.to_nat (10 ^ (i + 1))) h) then Some i else grade h t else None
  end.
Definition graded (h : list bool) : option Z := grade h [2; 3; 4; 5; 6; 7].
Fixpoint rating (h : list bool) : Z := match h with [] => 8 | _ :: t => match graded h with Some i => i | None => rating t end end.
(** The fixed patterns, as eight bits that are sent again and again: all zeros, all ones, seven ones to a zero and so on. *)
Definition word (n : Z) (w : list bool) : Prop :=
  In (n, w) [(0, [false; false; false; false; false; false; false; false]); (1, [true; true; true; true; true; true; true; true]);
             (2, [false; true; true; true; true; true; true; true]); (3, [false; true; true; true; false; true; true; true]);
             (4, [false; true; false; true; false; true; false; true]); (5, [true; false; false; false; true; false; false; false]);
             (6, [true; false; false; false; false; false; false; false])].
(** n bits of it, from the k-th on *)
Definition again (w : list bool) (k n : nat) : list bool := map (fun t => nth ((k + t) mod 8) w false) (seq 0 n).
