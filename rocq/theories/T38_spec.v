(** Specification of T.38 packets and sequences. *)
From Verif Require Import Base T38_model.
Local Open Scope Z_scope.

(** ---- Messages and their octets (ITU-T T.38, Annex A, packed encoding) ---- *)
Inductive msg := MInd (i : Z) | MData (data_type : Z) (fields : list (Z * list Z)).

Definition octets16 (n : Z) : list Z := [n / 256; n mod 256].
Definition has_data (d : list Z) : Z := match d with [] => 0 | _ => 1 end.
Definition contents (d : list Z) : list Z := match d with [] => [] | _ => octets16 (Z.of_nat (length d) - 1) ++ d end.
(** [old] is version 0 of T.38. *)
Definition wire_field (old : bool) (f : Z * list Z) : list Z :=
  let (t, d) := f in
  (if old then [128 * has_data d + 16 * t]
   else if t <=? 7 then [128 * has_data d + 8 * t]
   else [128 * has_data d + 64 + (t - 8) / 4; 64 * ((t - 8) mod 4)]) ++ contents d.
Definition wire_fields (old : bool) (fs : list (Z * list Z)) : list Z := flat_map (wire_field old) fs.
Definition wire_type (p base lim t : Z) : list Z :=
  if t <=? lim then [p + base + 2 * t] else [p + base + 32 + (t - lim - 1) / 4; 64 * ((t - lim - 1) mod 4)].
Definition body (old : bool) (m : msg) : list Z :=
  match m with
  | MInd i => wire_type 0 0 15 i
  | MData dt [] => wire_type 0 64 8 dt
  | MData dt fs => wire_type 128 64 8 dt ++ Z.of_nat (length fs) :: wire_fields old fs
  end.
Definition wire (tr : transport) (old : bool) (m : msg) : list Z :=
  match tr with
  | TCP_TPKT => [3; 0] ++ octets16 (Z.of_nat (length (body old m)) + 4) ++ body old m
  | _ => body old m
  end.

(** What a version can say. *)
Definition field_ok (old : bool) (f : Z * list Z) : Prop :=
  0 <= fst f <= (if old then 7 else 11) /\ bytes (snd f) /\ Z.of_nat (length (snd f)) <= 65535.
Definition msg_ok (old : bool) (m : msg) : Prop :=
  match m with
  | MInd i => 0 <= i <= (if old then 15 else 22)
  | MData dt fs => 0 <= dt <= (if old then 8 else 14) /\ (length fs < 128)%nat /\ Forall (field_ok old) fs
  end.
(** With version 0, spandsp's own receiver needs every field but the last to have data. *)
Fixpoint all_but_last {A} (P : A -> Prop) (l : list A) : Prop :=
  match l with
  | [] | [_] => True
  | x :: t => P x /\ all_but_last P t
  end.
Definition decodable (old : bool) (m : msg) : Prop :=
  match m with
  | MData _ fs => old = true -> all_but_last (fun f => snd f <> []) fs
  | _ => True
  end.

(** What the handlers are given. *)
Definition events (m : msg) : list rx_event :=
  match m with
  | MInd i => [EInd i]
  | MData dt fs => map (fun f => EData dt (fst f) (snd f)) fs
  end.
(** What the receiver notes of it. *)
Definition heard (s : t38) (m : msg) : t38 :=
  match m with
  | MInd i => set_rx s i (-1) (-1)
  | MData _ [] => s
  | MData dt fs => set_rx s (current_rx_indicator s) dt (fst (last fs (0, [])))
  end.
(** A packet cut short leaves this. *)
Definition untouched (s s' : t38) : Prop := s' = s \/ s' = set_rx s (current_rx_indicator s) (-1) (-1).
Definition is_data (e : rx_event) : bool := match e with EData _ _ _ => true | _ => false end.

Definition old_version (s : t38) : bool := t38_version s =? 0.
Definition fields_of (fs : list (Z * list Z)) : list field := map (fun f => {| field_type := fst f; field_data := snd f |}) fs.

(** ---- Sequence numbers ---- *)
Definition arriving (tr : transport) (old : bool) (m : msg) : Prop := msg_ok old m /\ decodable old m /\ Z.of_nat (length (wire tr old m)) <= 65535.
Definition packed (tr : transport) (old : bool) (l : list (Z * msg)) : list (Z * list Z) := map (fun a => (fst a, wire tr old (snd a))) l.
(** Arrivals with their numbers not reduced modulo 65536; those that are accepted,
    when [top] is the next expected, with the gap in front of each. *)
Fixpoint records {A} (top : Z) (l : list (Z * A)) : list (Z * Z * A) :=
  match l with
  | [] => []
  | (n, p) :: t => if n <? top then records top t else (top, n, p) :: records (n + 1) t
  end.
(** No arrival is 2000 or more away from the one expected. *)
Fixpoint near {A} (top : Z) (l : list (Z * A)) : Prop :=
  match l with
  | [] => True
  | (n, p) :: t => top - 2000 < n < top + 2000 /\ near (Z.max top (n + 1)) t
  end.
Definition gap (top n : Z) : list rx_event := if top <? n then [EMissing (top mod 65536) (n mod 65536)] else [].

Definition hears (r : Z * Z * msg) : list rx_event := let '(top, n, m) := r in gap top n ++ events m.
Fixpoint increasing (l : list Z) : Prop :=
  match l with
  | x :: ((y :: _) as t) => x < y /\ increasing t
  | _ => True
  end.

Fixpoint receive (s : t38) (l : list (Z * list Z)) : res (t38 * list rx_event * list Z) :=
  match l with
  | [] => Ok (s, [], [])
  | (n, p) :: t =>
      do (s, e1, r1) <- t38_core_rx_ifp_packet s p (n mod 65536) ;
      do (s, e2, r2) <- receive s t ;
      Ok (s, e1 ++ e2, r1 :: r2)
  end.

(** ---- A sending application ---- *)
Inductive send := SInd (i : Z) (ok : bool) | SData (dt : Z) (fs : list (Z * list Z)) (category : Z) (ok : bool).
Definition send1 (s : t38) (o : send) : res (t38 * list packet * Z) :=
  match o with
  | SInd i ok => t38_core_send_indicator s i ok
  | SData dt fs c ok => t38_core_send_data_multi_field s dt (fields_of fs) c ok
  end.
Definition send_ok (o : send) : bool := match o with SInd _ ok => ok | SData _ _ _ ok => ok end.
Fixpoint sends (s : t38) (l : list send) : res (t38 * list packet) :=
  match l with
  | [] => Ok (s, [])
  | o :: t =>
      do (s, p, _) <- send1 s o ;
      do (s, ps) <- sends s t ;
      Ok (s, (if send_ok o then p else []) ++ ps)
  end.
(** What is to be told to the other end: every data message, and indicators that
    change, or are forced with 0x100; [cur] is the last one told. *)
Fixpoint told (cur : Z) (l : list send) : list msg :=
  match l with
  | [] => []
  | SInd i true :: t => if i =? cur then told cur t else MInd (i mod 256) :: told (i mod 256) t
  | SData dt fs _ true :: t => MData dt fs :: told cur t
  | _ :: t => told cur t
  end.
Definition sendable (tr : transport) (old : bool) (o : send) : Prop :=
  match o with
  | SInd i _ => (0 <= i <= 15 \/ 256 <= i <= 271) \/ (old = false /\ (0 <= i <= 22 \/ 256 <= i <= 278))
  | SData dt fs c _ => msg_ok old (MData dt fs) /\ decodable old (MData dt fs) /\ 0 <= c <= 4 /\
                       Z.of_nat (length (wire tr old (MData dt fs))) <= 1000
  end.
(** The packet that comes in k-th place of what was sent *)
Definition arrival (ps : list packet) (k : nat) : Z * list Z :=
  let p := nth k ps {| p_seq := 0; p_octets := []; p_count := 0 |} in (p_seq p, p_octets p).
