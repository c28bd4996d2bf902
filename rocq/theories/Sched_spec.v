(** What a scheduler's history must look like. *)
From Verif Require Import Base Sched_model.

(** The clock is the sum of the updates. *)
Fixpoint clock (l : list entry) : Z :=
  match l with [] => 0 | EUpd us :: t => us + clock t | _ :: t => clock t end.
(** The event outstanding under an identifier: its due time and callback. *)
Fixpoint pending (l : list entry) (i : Z) : option (Z * Z) :=
  match l with
  | [] => None
  | EAdd j us tag :: t => if i =? j then Some (clock t + us, tag) else pending t i
  | EDel j _ :: t | EFire j _ :: t => if i =? j then None else pending t i
  | _ :: t => pending t i
  end.
(** Was identifier [i] handed out since the current update began? *)
Fixpoint added_during (l : list entry) (i : Z) : bool :=
  match l with
  | [] => false
  | EUpd _ :: _ => false
  | EAdd j _ _ :: t => (i =? j) || added_during t i
  | _ :: t => added_during t i
  end.
(** Is an update in progress? *)
Fixpoint updating (l : list entry) : bool :=
  match l with [] => false | EUpd _ :: _ => true | EEnd :: _ => false | _ :: t => updating t end.

Definition entry_ok (e : entry) (l : list entry) : Prop :=
  match e with
  | EAdd i us tag => 0 <= i /\ pending l i = None            (* identifiers are not shared *)
  | EDel i found => if found then pending l i <> None else pending l i = None
  | ETime v => v = clock l
  | ENext v =>                                               (* the earliest, or "never" *)
      ((v = 18446744073709551615 /\ forall i, pending l i = None) \/
       exists i tag, pending l i = Some (v, tag)) /\
      forall i w tag, pending l i = Some (w, tag) -> v <= w
  | EUpd us => True
  | EFire i tag =>                                           (* only outstanding events, never early *)
      updating l = true /\ exists w, pending l i = Some (w, tag) /\ w <= clock l
  | EEnd =>                                                  (* nothing due is left over *)
      forall i w tag, pending l i = Some (w, tag) -> added_during l i = false -> clock l < w
  end.
Fixpoint log_ok (l : list entry) : Prop :=
  match l with [] => True | e :: t => entry_ok e t /\ log_ok t end.

(** Sensible arguments: C ints, not negative, and a clock that does not wrap. *)
Definition us_ok (us : Z) : Prop := 0 <= us < 2147483648.
Fixpoint cmd_ok (c : cmd) : Prop :=
  match c with
  | CRet => True
  | CAdd us _ k => us_ok us /\ forall i, cmd_ok (k i)
  | CDel _ k => cmd_ok k
  | CNext k | CTime k => forall v, cmd_ok (k v)
  end.
Definition op_ok (o : sop) : Prop := match o with OCmd c => cmd_ok c | OUpdate us => us_ok us end.
Fixpoint total (ops : list sop) : Z :=
  match ops with [] => 0 | OUpdate us :: t => us + total t | _ :: t => total t end.

(** A callback program that adds no event that is already due. *)
Fixpoint later_only (c : cmd) : Prop :=
  match c with
  | CRet => True
  | CAdd us _ k => 0 < us /\ forall i, later_only (k i)
  | CDel _ k => later_only k
  | CNext k | CTime k => forall v, later_only (k v)
  end.
