(** What the text of the bit error rate tester shall be, apart from the model: characters of seven bits, the lowest first. *)
From Coq Require Import Ascii String.
From Verif Require Import Base.
Local Open Scope Z_scope.

Definition text : list Z := map (fun a => Z.of_nat (nat_of_ascii a)) (list_ascii_of_string
  "VoyeZ Le BricK GeanT QuE J'ExaminE PreS Du WharF 123 456 7890 + - * : = $ % ( )ThE QuicK BrowN FoX JumpS OveR ThE LazY DoG 123 456 7890 + - * : = $ % ( )").
(** the t-th character, when the text is sent again and again, and its bits *)
Definition char_at (t : nat) : Z := nth (t mod length text) text 0.
Definition char_bits (ch : Z) : list bool := map (fun k => Z.testbit ch (Z.of_nat k)) (seq 0 7).
Definition typed (i n : nat) : list bool := flat_map (fun t => char_bits (char_at t)) (seq i n).
(** how many characters are not the ones that were sent *)
Fixpoint wrong_chars (i : nat) (xs : list (list bool)) : Z :=
  match xs with
  | [] => 0
  | x :: t => (if list_eq_dec Bool.bool_dec x (char_bits (char_at i)) then 0 else 1) + wrong_chars (S i) t
  end.

