(** Specification of the play-out buffer as a list of frames, earliest first. *)
From Verif Require Import Base Playout_model.
Local Open Scope Z_scope.

(** Where a frame belongs: after all the frames up to the last one that is not
    later than it. *)
Fixpoint split_at (x : Z) (q : list info) : list info * list info :=
  match q with
  | [] => ([], [])
  | y :: r => match split_at x r with
              | ([], b) => if x <? fstamp y then ([], y :: b) else ([y], b)
              | (a, b) => (y :: a, b)
              end
  end.
Definition in_order (f : info) (q : list info) : list info :=
  let (a, b) := split_at (fstamp f) q in a ++ f :: b.
(** What the code does: a frame that belongs just after the first of several goes
    in front of it. *)
Definition placed (f : info) (q : list info) : list info :=
  match split_at (fstamp f) q with
  | ([y], b :: r) => f :: y :: b :: r
  | (a, b) => a ++ f :: b
  end.
Fixpoint sorted (q : list info) : Prop :=
  match q with
  | [] => True
  | y :: r => Forall (fun z => fstamp y <= fstamp z) r /\ sorted r
  end.

(** ---- A session ---- *)
Inductive op := Put (mem_ok : bool) (f : info) | Get | GetU | Restart (mn mx : Z).
(** What is seen: a put, with its return code; a get, with code and frame; an
    unconditional get; a restart. *)
Inductive seen := SPut (code : Z) (f : info) | SGet (code : Z) (f : option info) | SGetU (f : option info) | SRestart.
Definition run1 (o : op) (s : playout) : res (seen * playout) :=
  match o with
  | Put m f => do (c, s) <- playout_put m s f ; Ok (SPut c f, s)
  | Get => do (c, f, s) <- playout_get s ; Ok (SGet c f, s)
  | GetU => do (f, s) <- playout_get_unconditional s ; Ok (SGetU f, s)
  | Restart mn mx => do s <- playout_restart s mn mx ; Ok (SRestart, s)
  end.
Fixpoint run (ops : list op) (s : playout) : res (list seen * playout) :=
  match ops with
  | [] => Ok ([], s)
  | o :: t => do (x, s) <- run1 o s ; do (l, s) <- run t s ; Ok (x :: l, s)
  end.

Definition put_in (x : seen) : list info := match x with SPut 0 f => [f] | _ => [] end.
Definition got_out (x : seen) : list info := match x with SGet _ (Some f) | SGetU (Some f) => [f] | _ => [] end.
Definition no_restart (o : op) : Prop := match o with Restart _ _ => False | _ => True end.
Definition op_ok (o : op) : Prop := match o with Put _ f => fstamp f <= 0x7FFFFFFF | _ => True end.

(** What is left in a buffer, as playout_get_unconditional gives it. *)
Definition holds (s : playout) (q : list info) : Prop :=
  exists s1, run (repeat GetU (length q)) s = Ok (map (fun f => SGetU (Some f)) q, s1) /\ playout_get_unconditional s1 = Ok (None, s1).
Definition all_freed (h : heap) : Prop := Forall (fun c => c = None) h.

(** ---- Regular speech through a fixed length buffer ---- *)
(** Frame number [k] of length [L], sent from time [t0]. *)
Definition speech (t0 L : Z) (data recv : nat -> Z) (k : nat) : info :=
  {| fdata := data k; ftype := PLAYOUT_TYPE_SPEECH; fstamp := t0 + Z.of_nat k * L; flen := L; frecv := recv k |}.
Inductive beat := Arrive | Play.
(** The calls: [p] frames have arrived. *)
Fixpoint calls (t0 L : Z) (data recv : nat -> Z) (p : nat) (l : list beat) : list op :=
  match l with
  | [] => []
  | Arrive :: r => Put true (speech t0 L data recv p) :: calls t0 L data recv (S p) r
  | Play :: r => Get :: calls t0 L data recv p r
  end.
(** Each frame arrives in time: before [m] frame times after it would be due with
    no buffer, counting from the first.  [g] have been asked for. *)
Fixpoint timely (m p g : nat) (l : list beat) : Prop :=
  match l with
  | [] => True
  | Arrive :: r => timely m (S p) g r
  | Play :: r => (0 < p)%nat /\ (g < m + p)%nat /\ timely m p (S g) r
  end.
(** Play: silence at first, then every frame. *)
Fixpoint steady (t0 L : Z) (data recv : nat -> Z) (m p g : nat) (l : list beat) : list seen :=
  match l with
  | [] => []
  | Arrive :: r => SPut PLAYOUT_OK (speech t0 L data recv p) :: steady t0 L data recv m (S p) g r
  | Play :: r => (if (g <? m)%nat then SGet PLAYOUT_FILLIN None else SGet PLAYOUT_OK (Some (speech t0 L data recv (g - m)))) ::
                 steady t0 L data recv m p (S g) r
  end.
