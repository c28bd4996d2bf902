(** src/t85_decode.c:260-303, t85_analyse_header(): the size of an image, from the octets of its compressed form.
    [len] is the length of [data]; a 64 bit size_t; i and skip are uint32_t. *)
From Verif Require Import Base T85_enc_model T85_dec_model.
Local Open Scope Z_scope.

(* bit_operations.h, get_net_unaligned_uint32() *)
Definition net32_at (data : list Z) (k : Z) : res Z :=
  do b <- aslice data k 4; Ok (get32 b).

(* t85_decode.c:277-300: [None] when the turns allowed for are used up *)
Fixpoint newlen_scan (turns : nat) (data : list Z) (i length0 : Z) : option (res Z) :=
  match turns with
  | O => None
  | S f =>
      if i <? Z.of_nat (length data) - 6 then
        match aget data i with
        | UB => Some UB
        | Ok b =>
            if b =? T82_ESC then
              match aget data (i + 1) with
              | UB => Some UB
              | Ok m =>
                  if m =? T82_COMMENT then
                    match net32_at data 2 with
                    | UB => Some UB
                    | Ok skip =>
                        if Z.of_nat (length data) - i <? u32 (skip + 6) then Some (Ok length0)
                        else newlen_scan f data (u32 (u32 (i + u32 (6 + skip - 1)) + 1)) length0
                    end
                  else if m =? T82_ATMOVE then newlen_scan f data (u32 (i + 8)) length0
                  else if m =? T82_NEWLEN then Some (net32_at data (i + 2))
                  else newlen_scan f data (u32 (i + 1)) length0
              end
            else newlen_scan f data (u32 (i + 1)) length0
        end
      else Some (Ok length0)
  end.

(* t85_decode.c:260-303: (verdict, width, length) *)
Definition t85_analyse_header (turns : nat) (data : list Z) : option (res (bool * Z * Z)) :=
  if Z.of_nat (length data) <? 20 then Some (Ok (false, 0, 0))
  else
    match net32_at data 6, net32_at data 10, aget data 19 with
    | Ok w, Ok l, Ok o =>
        if opt o T85_VLENGTH then
          match newlen_scan turns data 20 l with
          | None => None
          | Some UB => Some UB
          | Some (Ok l1) => Some (Ok (true, w, l1))
          end
        else Some (Ok (true, w, l))
    | _, _, _ => Some UB
    end.
