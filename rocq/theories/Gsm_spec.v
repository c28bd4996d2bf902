(** What is expected of the GSM 06.10 codec. *)
From Verif Require Import Base Gsm_model.
Local Open Scope Z_scope.

(** a number of 16 bits with a sign *)
Definition i16 (x : Z) : Prop := -32768 <= x <= 32767.

(** The sizes of the parameters of a frame in bits, GSM 06.10 table 1.1. *)
Definition sub_sizes : list nat := [7; 2; 2; 6; 3; 3; 3; 3; 3; 3; 3; 3; 3; 3; 3; 3; 3]%nat.
Definition sizes : list nat := ([6; 6; 5; 5; 4; 4; 3; 3] ++ sub_sizes ++ sub_sizes ++ sub_sizes ++ sub_sizes)%nat.
Definition fits (w : list nat) (f : list Z) : Prop := Forall2 (fun n x => 0 <= x < 2 ^ Z.of_nat n) w f.
Fixpoint fields (bits : nat -> Z -> list bool) (w : list nat) (f : list Z) : list bool :=
  match w, f with
  | n :: w, x :: f => bits n x ++ fields bits w f
  | _, _ => []
  end.
(** the lags of a frame made by an encoder *)
Definition lags_ok (f : list Z) : Prop := Forall (fun k => 40 <= nth k f 0 <= 120) [8; 25; 42; 59]%nat.

(** Sums of lists, and of products. *)
Fixpoint total (l : list Z) : Z := match l with [] => 0 | x :: t => x + total t end.
Fixpoint dot (a b : list Z) : Z := match a, b with x :: a, y :: b => x * y + dot a b | _, _ => 0 end.
(** the 40 samples that begin [lag] samples before the end *)
Definition from_past (h : list Z) (lag : nat) : list Z := firstn 40 (skipn (length h - lag) h).
(** the 13 samples of a grid *)
Definition on_grid (x : list Z) (m : nat) : list Z := map (fun i => nth (m + 3 * i) x 0) (seq 0 13).

(** No sum of the lattice for the residual leaves 16 bits. *)
Fixpoint unclipped (rp u : list Z) (d : Z) : Prop :=
  match rp, u with
  | r :: rp, x :: u => i16 (d + (r * x + 16384) / 32768) /\ unclipped rp u (d + (r * x + 16384) / 32768)
  | _, _ => True
  end.
Fixpoint unclipped_all (rp u amp : list Z) : Prop :=
  match amp with
  | [] => True
  | x :: t => unclipped rp u x /\ unclipped_all rp (snd (lattice rp u x x)) t
  end.
(** The same for a frame, with its four sets of coefficients. *)
Definition unclipped_frame (larpp_j_1 larpp_j u so : list Z) : Prop :=
  let c k := map larp_to_rp (match k with 0%nat => coefficients_0_12 larpp_j_1 larpp_j | 1%nat => coefficients_13_26 larpp_j_1 larpp_j
                                        | 2%nat => coefficients_27_39 larpp_j_1 larpp_j | _ => larpp_j end) in
  let u1 := fst (short_term_analysis_filtering (c 0%nat) u (firstn 13 so)) in
  let u2 := fst (short_term_analysis_filtering (c 1%nat) u1 (firstn 14 (skipn 13 so))) in
  let u3 := fst (short_term_analysis_filtering (c 2%nat) u2 (firstn 13 (skipn 27 so))) in
  unclipped_all (c 0%nat) u (firstn 13 so) /\ unclipped_all (c 1%nat) u1 (firstn 14 (skipn 13 so)) /\
  unclipped_all (c 2%nat) u2 (firstn 13 (skipn 27 so)) /\ unclipped_all (c 3%nat) u3 (firstn 120 (skipn 40 so)).

(** Encoder and decoder have the same reconstructed residual and the same coefficients. *)
Definition in_step (e d : gsm) : Prop := dp0 e = dp0 d /\ larpp e = larpp d.

(** The contexts that an encoder and a decoder come to: the filters are within their ranges, the residual has 120 samples of
    16 bits, and the lag is one that can be used. *)
Definition pre_ok (z1 L_z2 mp : Z) : Prop := -16384 <= z1 <= 16380 /\ -2147483648 <= L_z2 <= 2147483647 /\ i16 mp.
Definition enc_ok (s : gsm) : Prop := pre_ok (z1 s) (L_z2 s) (mp s) /\ length (dp0 s) = 120%nat /\ Forall i16 (dp0 s) /\ length (us s) = 8%nat /\ length (larpp s) = 8%nat.
Definition dec_ok (s : gsm) : Prop := length (dp0 s) = 120%nat /\ Forall i16 (dp0 s) /\ 40 <= nrp s <= 120 /\ length (larpp s) = 8%nat.

(** The samples and octets for a block of each packing. *)
Definition block_samples (p : packing) : nat := match p with WAV49 => 320 | _ => 160 end.
Definition block_octets (p : packing) : nat := match p with NONE => 76 | WAV49 => 65 | VOIP => 33 end.

(** A quarter of a sample, squared: the energy of the pulses of a grid is the sum of these. *)
Definition sq4 (x : Z) : Z := Z.shiftr x 2 * Z.shiftr x 2.
(** How many of the three thresholds are passed. *)
Definition gain (R S : Z) : Z := Z.of_nat (length (filter (fun t => S * t / 32768 <? R) [6554; 16384; 26214])).
