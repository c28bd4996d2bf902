(** Specification of the non-ECM buffer: rows of a fax image, and what fill may be added to them. *)
From Verif Require Import Base Bits NonEcm_model.

(** A one preceded by at least 11 zeros is the end of a line.  The rows of a bit stream, each up to and including
    that one, and what follows the last.  [z] zeros have just been seen, [row] is the row so far. *)
Fixpoint rows_of (z : Z) (row : list bool) (l : list bool) : list (list bool) * list bool :=
  match l with
  | [] => ([], row)
  | true :: t => if 11 <=? z then let '(rs, tl) := rows_of 0 [] t in ((row ++ [true]) :: rs, tl)
                 else rows_of 0 (row ++ [true]) t
  | false :: t => rows_of (z + 1) (row ++ [false]) t
  end.
(** [out] is the row [inp] with whole octets of zeros added in front of its final one: none when the row is only
    an end of line (12 or 13 bits), and otherwise at least enough to make [min] bits.  [off] is an error in the
    measured row length. *)
Definition padded (off min : Z) (inp out : list bool) : Prop :=
  exists a j, inp = a ++ [true] /\ out = a ++ repeat false (8 * j) ++ [true] /\
    (12 <= Z.of_nat (length inp) - off <= 13 -> j = O) /\
    (~ 12 <= Z.of_nat (length inp) - off <= 13 -> min <= Z.of_nat (length out) - off).
(** Row by row, with the error [off] for the first row only. *)
Fixpoint rows_padded (off min : Z) (inp out : list (list bool)) : Prop :=
  match inp, out with
  | [], [] => True
  | r :: t, r' :: t' => padded off min r r' /\ rows_padded 0 min t t'
  | _, _ => False
  end.
(** What should come out for the image data [inp]: ones until the first end of line arrives, then that end of
    line, then the rows, padded; and the odd bits that follow the last row.  Nothing of an image with no end of
    line. *)
Definition image_forwarded (off min : Z) (inp out : list bool) : Prop :=
  exists k rest, out = repeat true (8 * k) ++ rest /\
    match rows_of 0 [] inp with
    | ([], _) => rest = []
    | (_ :: rows, tail) =>
        exists n rows', rows_of 0 [] rest = ((repeat false n ++ [true]) :: rows', tail) /\ (11 <= n)%nat /\
                        rows_padded off min rows rows'
    end.
(** [out] is [inp] with zero octets added. *)
Inductive with_zeros : list Z -> list Z -> Prop :=
| wz_nil : with_zeros [] []
| wz_octet x a b : with_zeros a b -> with_zeros (x :: a) (x :: b)
| wz_fill x a b : with_zeros (x :: a) b -> with_zeros (x :: a) (0 :: b).
Fixpoint skip_ones (l : list Z) : list Z :=
  match l with x :: t => if x =? 255 then skip_ones t else l | [] => [] end.
(** What should come out for training data: ones until the first octet that is not all ones, then the data from
    that octet on, with zeros added while data is awaited. *)
Definition tcf_forwarded (inp : list Z) (out : list bool) : Prop :=
  exists k rest, out = unpack_msb (repeat 255 k ++ rest) /\ with_zeros (skip_ones inp) rest.
(** The same without any demand on the amount of fill. *)
Definition image_intact (inp out : list bool) : Prop :=
  exists k rest, out = repeat true (8 * k) ++ rest /\
    match rows_of 0 [] inp with
    | ([], _) => rest = []
    | (_ :: rows, tail) =>
        exists n rows', rows_of 0 [] rest = ((repeat false n ++ [true]) :: rows', tail) /\ (11 <= n)%nat /\
          Forall2 (fun r r' => exists a j, r = a ++ [true] /\ r' = a ++ repeat false (8 * j) ++ [true]) rows rows'
    end.
(** A session: blocks of image or training data one after another through the same buffer, each given in any
    pieces with the modem taking bits at any moments, then finished off and read to its end.  [Q] relates the mode,
    the minimum row length and the data of a block to the bits that come out. *)
Fixpoint session (Q : bool -> Z -> list Z -> list bool -> Prop) (s : nes) (blocks : list (bool * Z * list op)) : Prop :=
  match blocks with
  | [] => True
  | (image, min, ops) :: rest =>
      let s1 := set_mode s image min in
      bytes (given ops) -> ~ In Push ops -> fits s1 ops ->
      exists n s2 bits, run s1 (ops ++ Push :: repeat Get n) = Ok (s2, map Z.b2z bits ++ [END_OF_DATA]) /\
        Q image min (given ops) bits /\ session Q s2 rest
  end.
