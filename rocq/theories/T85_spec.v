(** Vocabulary for the T.85 properties. *)
From Verif Require Import Base Arith_model T85_enc_model T85_dec_model.
Local Open Scope Z_scope.

(** Calls of t85_encode_get() for so many octets each: all the octets obtained. *)
Fixpoint gets (s : te) (src : list (list Z)) (sizes : list Z) : res (te * list (list Z) * list (list Z)) :=
  match sizes with
  | [] => Ok (s, src, [])
  | n :: t =>
      do (s1, src1, o1) <- t85_encode_get s src n;
      do (s2, src2, o2) <- gets s1 src1 t;
      Ok (s2, src2, o1 :: o2)
  end.

(** Calls of t85_decode_put(), one for each piece, up to the first which is turned down. *)
Fixpoint feed (junk : Z -> Z) (s : td) (pieces : list (list Z)) : res (list code * td) :=
  match pieces with
  | [] => Ok ([], s)
  | d :: t =>
      do (r, s1) <- t85_decode_put junk s d;
      match r with
      | INVALID_DATA => Ok ([r], s1)
      | _ => do (rs, s2) <- feed junk s1 t; Ok (r :: rs, s2)
      end
  end.

(** What the row handler and the comment handler have been given, oldest first. *)
Definition events (s : td) : list event := rev (pev (d_pd s)).

(** The pixels of a row: the first [w], with the rest of the last octet white. *)
Definition crop (w : Z) (r : list Z) : list Z :=
  firstn (Z.to_nat (w / 8)) r ++ (if w mod 8 =? 0 then [] else [nth (Z.to_nat (w / 8)) r 0 / 2 ^ (8 - w mod 8) * 2 ^ (8 - w mod 8)]).

(** A white row. *)
Definition white (w : Z) : list Z := repeat 0 (Z.to_nat ((w + 7) / 8)).

(** The image that a page of [h] rows turns into, when the rows run out early: with a variable length
    it ends there (but has a row at least), otherwise it is filled up with white. *)
Definition picture (w h : Z) (variable_length : bool) (rows : list (list Z)) : list (list Z) :=
  let page := map (crop w) (firstn (Z.to_nat h) rows) in
  if variable_length then match page with [] => [white w] | _ => page end
  else page ++ repeat (white w) (Z.to_nat h - length page).

(** What calls for so many octets each get from a stream. *)
Fixpoint cut (sizes : list Z) (P : list Z) : list (list Z) :=
  match sizes with
  | [] => []
  | n :: t => firstn (Z.to_nat n) P :: cut t (skipn (Z.to_nat n) P)
  end.
