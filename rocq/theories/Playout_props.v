(** Theorems about the play-out (jitter) buffer (C29). *)
From Verif Require Import Base Playout_model Playout_spec Playout_proofs Playout_run_proofs.
From Coq Require Import Permutation.
Local Open Scope Z_scope.

(** C29: whatever calls are made, with whatever time stamps, the buffer's pointers stay good. *)
Theorem playout_session_safe :
  forall mn mx ops, Forall op_ok ops ->
    exists log s, run ops (playout_init mn mx) = Ok (log, s) /\ (exists h, playout_release s = Ok h).
Proof. exact session_safe. Qed.
Print Assumptions playout_session_safe.
(** Each frame put in comes out at most once, unchanged, and is still in there
    otherwise; frames put in in order of time stamp come out in that order; and
    playout_release then frees every record. *)
Theorem playout_session_exactly_once :
  forall mn mx ops log s, Forall op_ok ops -> Forall no_restart ops -> run ops (playout_init mn mx) = Ok (log, s) ->
    exists rest, holds s rest /\ Permutation (flat_map put_in log) (flat_map got_out log ++ rest) /\
      (sorted (flat_map put_in log) -> flat_map put_in log = flat_map got_out log ++ rest) /\
      exists h, playout_release s = Ok h /\ all_freed h.
Proof. exact session_exactly_once. Qed.
Print Assumptions playout_session_exactly_once.
(** Where a new frame goes, exactly; and when that keeps the buffer in order. *)
Theorem playout_put_places :
  forall mn mx ops log s q f m c s', Forall op_ok ops -> run ops (playout_init mn mx) = Ok (log, s) -> holds s q -> fstamp f <= 0x7FFFFFFF ->
    playout_put m s f = Ok (c, s') ->
    (c = PLAYOUT_OK /\ holds s' (placed f q)) \/ (c = PLAYOUT_ERROR /\ m = false /\ holds s' q).
Proof. exact session_put. Qed.
Print Assumptions playout_put_places.
Theorem playout_put_sorted_iff :
  forall f q, sorted q -> (sorted (placed f q) <-> ~ exists y z r, q = y :: z :: r /\ fstamp y < fstamp f < fstamp z).
Proof. exact placed_sorted. Qed.
Print Assumptions playout_put_sorted_iff.
(** A fixed length buffer of m frames plays m frames of silence, and then every
    frame at its time, as long as each arrives no more than m frame times late. *)
Theorem playout_steady_speech :
  forall t0 L data recv m l, 0 < L -> timely m 0 0 l ->
    -2147483648 <= t0 - (Z.of_nat m + 1) * L -> t0 + (Z.of_nat (length l) + 1) * L <= 2147483647 ->
    exists s', run (calls t0 L data recv 0 l) (playout_init (Z.of_nat m * L) (Z.of_nat m * L)) = Ok (steady t0 L data recv m 0 0 l, s') /\ ovf (tm s') = false.
Proof. exact steady_speech. Qed.
Print Assumptions playout_steady_speech.

Definition frame (d t : Z) : info := {| fdata := d; ftype := PLAYOUT_TYPE_SPEECH; fstamp := t; flen := 10; frecv := 0 |}.
(** The code does not keep frames in order: one that belongs after the first of two
    or more is put before it. *)
Theorem playout_put_order_refuted :
  ~ (forall ops log s f c s' q q', Forall op_ok ops -> run ops (playout_init 20 20) = Ok (log, s) -> holds s q -> sorted q ->
       fstamp f <= 0x7FFFFFFF -> playout_put true s f = Ok (c, s') -> holds s' q' -> sorted q').
Proof.
  intros H. assert (X : sorted [frame 2 20; frame 1 10; frame 3 30]).
  { eapply (H [Put true (frame 1 10); Put true (frame 3 30)]) with (f := frame 2 20) (q := [frame 1 10; frame 3 30]).
    - repeat constructor; discriminate.
    - vm_compute. reflexivity.
    - eexists. split; [vm_compute; reflexivity|vm_compute; reflexivity].
    - cbn. repeat constructor; discriminate.
    - discriminate.
    - vm_compute. reflexivity.
    - eexists. split; [vm_compute; reflexivity|vm_compute; reflexivity]. }
  destruct X as (X & _). inversion_clear X as [|? ? X1 X2]. apply X1. reflexivity.
Qed.
Print Assumptions playout_put_order_refuted.
(** playout_restart forgets the frames that were waiting without freeing them. *)
Theorem playout_restart_frees_refuted :
  ~ (forall ops log s h, Forall op_ok ops -> run ops (playout_init 20 20) = Ok (log, s) -> playout_release s = Ok h -> all_freed h).
Proof.
  intros H. assert (X : all_freed [Some {| finfo := frame 1 10; earlier := None; later := None |}]).
  { eapply (H [Put true (frame 1 10); Restart 20 20]).
    - repeat constructor; discriminate.
    - vm_compute. reflexivity.
    - vm_compute. reflexivity. }
  inversion X as [|? ? Y ?]. discriminate Y.
Qed.
Print Assumptions playout_restart_frees_refuted.
(** A dynamic buffer's step counter starts at the largest int; the first speech
    frame got increments it. *)
Theorem playout_dynamic_overflow_refuted :
  ~ (forall mn mx ops log s, 0 <= mn <= 1000 -> mn <= mx <= 1000 -> Forall op_ok ops -> run ops (playout_init mn mx) = Ok (log, s) -> ovf (tm s) = false).
Proof.
  intros H. set (ops := Put true (frame 1 10) :: repeat Get 40).
  assert (X : match run ops (playout_init 240 480) with Ok (_, s) => ovf (tm s) | UB => false end = true) by (vm_compute; reflexivity).
  specialize (H 240 480 ops). destruct (run ops (playout_init 240 480)) as [(log & s)|]; [|discriminate].
  rewrite (H log s) in X; [discriminate|lia|lia| |reflexivity]. repeat constructor; discriminate.
Qed.
Print Assumptions playout_dynamic_overflow_refuted.

(** Cases. *)
Example playout_case_late :
  (do (l, _) <- run [Put true (frame 1 100); Get; Put true (frame 2 110); Get; Get; Get; Put true (frame 3 120); Get; Get] (playout_init 20 20) ; Ok l) =
  Ok [SPut 0 (frame 1 100); SGet PLAYOUT_FILLIN None; SPut 0 (frame 2 110); SGet PLAYOUT_FILLIN None; SGet 0 (Some (frame 1 100)); SGet 0 (Some (frame 2 110));
      SPut 0 (frame 3 120); SGet 0 (Some (frame 3 120)); SGet PLAYOUT_FILLIN None].
Proof. reflexivity. Qed.
Example playout_case_steady :
  timely 2 0 0 [Arrive; Play; Play; Arrive; Play; Play; Arrive; Play] /\
  steady 100 10 Z.of_nat (fun _ => 0) 2 0 0 [Arrive; Play; Play; Arrive; Play] =
   [SPut 0 (frame 0 100); SGet PLAYOUT_FILLIN None; SGet PLAYOUT_FILLIN None; SPut 0 (frame 1 110); SGet 0 (Some (frame 0 100))].
Proof. split; [cbn; lia|reflexivity]. Qed.
Example playout_case_order :
  placed (frame 2 20) [frame 1 10; frame 3 30] = [frame 2 20; frame 1 10; frame 3 30] /\
  placed (frame 2 20) [frame 1 10] = [frame 1 10; frame 2 20] /\
  placed (frame 4 35) [frame 1 10; frame 3 30; frame 5 40] = [frame 1 10; frame 3 30; frame 4 35; frame 5 40].
Proof. repeat split. Qed.
