(** Vocabulary for the arithmetic coder properties. *)
From Verif Require Import Base Arith_model.

(** A decision: a context number and a pixel. *)
Definition decision_ok (d : Z * Z) : Prop := 0 <= fst d < 4096 /\ (snd d = 0 \/ snd d = 1).

(** A table of probability states: 4096 octets, each a row of the table of 113 rows
    with the more probable pixel on top. *)
Definition st_ok (st : list Z) : Prop :=
  length st = Z.to_nat 4096 /\ Forall (fun x => byte x /\ x mod 128 < 113) st.

(** Octets in which every 0xFF is followed by a 0x00: they contain no marker. *)
Fixpoint no_marker (l : list Z) : Prop :=
  match l with
  | [] => True
  | x :: t => (x = 255 -> exists t', t = 0 :: t') /\ no_marker t
  end.

(** A decoder between calls: the code register lies inside the interval and its
    bits not yet filled are zero; while starting up the interval is a power of 2. *)
Definition code_ok (a c ct : Z) : Prop :=
  1 <= a <= 65536 /\ 0 <= c < a * 65536 /\ -1 <= ct <= 16 /\ (0 <= ct -> c mod 2 ^ (16 - ct) = 0).

Record dsafe (d : dec) : Prop := {
  ds_code : code_ok (da d) (dc d) (dct d);
  ds_start : dstartup d = true -> exists k, (0 < k <= 16)%nat /\ da d * 2 ^ Z.of_nat k = 65536;
  ds_st : st_ok (dst d) }.
