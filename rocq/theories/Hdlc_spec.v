(** HDLC as seen on the line (ISO/IEC 13239): flags, bit stuffing, frame check sequence. *)
From Verif Require Import Base Crc_spec Hdlc_model.

Definition flag : list bool := [false; true; true; true; true; true; true; false].
(** Zero bit insertion after five consecutive ones; [ones] ones precede. *)
Fixpoint stuff (ones : nat) (l : list bool) : list bool :=
  match l with
  | [] => []
  | false :: l => false :: stuff 0 l
  | true :: l => if (ones =? 4)%nat then true :: false :: stuff 0 l else true :: stuff (S ones) l
  end.
Definition fcs (crc32 : bool) (d : list Z) : list Z := if crc32 then fcs32 d else fcs16 d.
(** A frame between two flags: octets least significant bit first, FCS appended, stuffed. *)
Definition frame_bits (crc32 : bool) (d : list Z) : list bool := stuff 0 (wire (d ++ fcs crc32 d)).
(** After an opening flag, a line is a sequence of idle flags and frames, each frame followed by its closing flag. *)
Inductive seg := Flag | Fr (d : list Z).
Definition seg_bits (crc32 : bool) (s : seg) : list bool := match s with Flag => flag | Fr d => frame_bits crc32 d ++ flag end.
Definition line (crc32 : bool) (l : list seg) : list bool := flat_map (seg_bits crc32) l.
Definition frames (l : list seg) : list (list Z) := flat_map (fun s => match s with Flag => [] | Fr d => [d] end) l.
(** Bits sent by a sequence of octets, most significant bit first; negative values are status codes. *)
Definition octets (o : list Z) : list Z := filter (fun x => 0 <=? x) o.
Definition sent (o : list Z) : list bool := flat_map (bits_msb 8) (octets o).
(** The frames an application asked for: each accepted piece of data either starts a frame or extends the last one. *)
Definition add_piece (fs : list (list Z)) (p : bool * list Z) : list (list Z) :=
  if fst p then fs ++ [snd p] else match rev fs with [] => [snd p] | f :: r => rev r ++ [f ++ snd p] end.
Definition frames_of (log : list (bool * list Z)) : list (list Z) := fold_left add_piece log [].
Definition prefix {A} (a b : list A) : Prop := exists c, b = a ++ c.
(** The frames handed to the receiving application, with the validity flag; a list of frames all handed over as good. *)
Definition fevents (l : list ev) : list (list Z * bool) := flat_map (fun e => match e with EFrame d ok => [(d, ok)] | _ => [] end) l.
Definition goods (l : list (list Z)) : list (list Z * bool) := map (fun d => (d, true)) l.
