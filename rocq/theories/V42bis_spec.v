(** What a V.42bis session is: calls made on the compressor of one end and on the
    decompressor of the other, and what the two handlers have been given. *)
From Verif Require Import Base V42bis_model.

(** Calls on the compressor: v42bis_compress, v42bis_compress_flush, v42bis_compression_control. *)
Inductive eop := Give (data : list Z) | Flush | Mode (mode : Z).
Fixpoint compressor (s : comp) (ops : list eop) : res comp :=
  match ops with
  | [] => Ok s
  | Give d :: t => do s <- v42bis_compress s d; compressor s t
  | Flush :: t => do s <- v42bis_compress_flush s; compressor s t
  | Mode m :: t => compressor (compression_control s m) t
  end.
(** The data accepted. *)
Fixpoint accepted (ops : list eop) : list Z :=
  match ops with [] => [] | Give d :: t => d ++ accepted t | _ :: t => accepted t end.

(** Calls on the decompressor: v42bis_decompress, v42bis_decompress_flush.  The session
    stops at the first call which does not return 0. *)
Inductive dop := Feed (data : list Z) | Deliver.
Fixpoint decompressor (s : comp) (ops : list dop) : res (comp * Z) :=
  match ops with
  | [] => Ok (s, 0)
  | Feed d :: t => do (s, r) <- v42bis_decompress s d; if r =? 0 then decompressor s t else Ok (s, r)
  | Deliver :: t => do s <- v42bis_decompress_flush s; decompressor s t
  end.
Fixpoint fed (ops : list dop) : list Z :=
  match ops with [] => [] | Feed d :: t => d ++ fed t | _ :: t => fed t end.

(** The octets the handler has been given, and those still waiting in the composition buffer. *)
Definition handed (s : comp) : list Z := concat (o_log (k_out s)).
Definition held (s : comp) : list Z := firstn (Z.to_nat (o_cnt (k_out s))) (o_buf (k_out s)).

(** At least [n] octets pass between one flush and the next; [gap] have passed so far. *)
Fixpoint spaced (n gap : Z) (ops : list eop) : Prop :=
  match ops with
  | [] => True
  | Give d :: t => spaced n (gap + Z.of_nat (length d)) t
  | Flush :: t => n <= gap /\ spaced n 0 t
  | Mode _ :: t => spaced n gap t
  end.
Fixpoint dspaced (n gap : Z) (ops : list dop) : Prop :=
  match ops with
  | [] => True
  | Feed d :: t => dspaced n (gap + Z.of_nat (length d)) t
  | Deliver :: t => n <= gap /\ dspaced n 0 t
  end.
