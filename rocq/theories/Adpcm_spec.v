(** Specification of the ADPCM codecs: what a code means, which code is best, and
    what it is for decoded samples to be a coding of some signal. *)
From Verif Require Import Base.
Local Open Scope Z_scope.

Definition bitn (c n : Z) : Z := Z.b2z (Z.testbit c n).
(** The step a 4 bit code stands for, with step size [ss]: (m + 1/2) ss / 4, each
    term truncated, with the sign in the top bit. *)
Definition delta (ss c : Z) : Z :=
  (if Z.testbit c 3 then -1 else 1) * (ss / 8 + bitn c 0 * (ss / 4) + bitn c 1 * (ss / 2) + bitn c 2 * ss).
Definition within (lo hi x : Z) : Z := Z.max lo (Z.min hi x).
(** The change of step index. *)
Definition adjust (c : Z) : Z := let m := c mod 8 in if m <? 4 then -1 else 2 * (m - 3).

(** A coder: step sizes, and the ranges of samples and of the step index. *)
Record coder := { steps : list Z; lo : Z; hi : Z; top : Z }.
(** The tables of the IMA recommendation and of the Oki (Dialogic) description. *)
Definition ima_coder : coder :=
  {| steps :=
  [7; 8; 9; 10; 11; 12; 13; 14; 16; 17; 19; 21; 23; 25; 28; 31; 34; 37; 41; 45; 50; 55; 60; 66;
   73; 80; 88; 97; 107; 118; 130; 143; 157; 173; 190; 209; 230; 253; 279; 307;
   337; 371; 408; 449; 494; 544; 598; 658; 724; 796; 876; 963; 1060; 1166; 1282; 1411;
   1552; 1707; 1878; 2066; 2272; 2499; 2749; 3024; 3327; 3660; 4026; 4428; 4871; 5358; 5894; 6484;
   7132; 7845; 8630; 9493; 10442; 11487; 12635; 13899; 15289; 16818; 18500; 20350; 22385; 24623; 27086; 29794;
   32767];
     lo := -32768; hi := 32767; top := 88 |}.
Definition oki_coder : coder :=
  {| steps :=
  [16; 17; 19; 21; 23; 25; 28; 31; 34; 37; 41; 45; 50; 55; 60; 66; 73; 80; 88; 97; 107; 118; 130; 143;
   157; 173; 190; 209; 230; 253; 279; 307; 337; 371; 408; 449; 494; 544; 598; 658;
   724; 796; 876; 963; 1060; 1166; 1282; 1411; 1552];
     lo := -2048; hi := 2047; top := 48 |}.
Definition step (k : coder) (i : Z) : Z := nth (Z.to_nat i) (steps k) 0.
Definition valid (k : coder) (s : Z * Z) : Prop := lo k <= fst s <= hi k /\ 0 <= snd s <= top k.
(** One code takes the state (prediction, step index) to the next. *)
Definition next (k : coder) (s : Z * Z) (c : Z) : Z * Z :=
  (within (lo k) (hi k) (fst s + delta (step k (snd s)) c), within 0 (top k) (snd s + adjust c)).
(** The code comes within one unit of the best of all 16, and within half a
    quantising step plus two if the signal is within reach. *)
Definition best (k : coder) (s : Z * Z) (x c : Z) : Prop :=
  0 <= c < 16 /\
  (forall c', 0 <= c' < 16 ->
     Z.abs (x - (fst s + delta (step k (snd s)) c)) <= Z.abs (x - (fst s + delta (step k (snd s)) c')) + 1) /\
  (Z.abs (x - fst s) < 2 * step k (snd s) -> Z.abs (x - fst (next k s c)) <= step k (snd s) / 8 + 2).
(** [ys] are the samples a decoder gives for a good coding of [xs]. *)
Inductive coding (k : coder) : Z * Z -> list Z -> list Z -> Z * Z -> Prop :=
| coding_nil s : coding k s [] [] s
| coding_cons s x xs c ys s' : best k s x c -> coding k (next k s c) xs ys s' ->
    coding k s (x :: xs) (fst (next k s c) :: ys) s'.

(** The VDVI codewords, from the table in the comment at ima_adpcm.c 52-76. *)
Definition vdvi_word (c : Z) : list bool :=
  let n := Z.to_nat (c mod 8) in
  let s := 8 <=? c in
  match c mod 8 with
  | 0 => [s; false]
  | 1 => [false; true; s]
  | 7 => repeat true 7 ++ [s]
  | _ => repeat true n ++ [false; s]
  end.

Definition samples (l : list Z) : Prop := Forall (fun x => -32768 <= x <= 32767) l.
