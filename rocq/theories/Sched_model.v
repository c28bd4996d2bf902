(** Model of src/schedule.c (lines 47-150) and private/schedule.h (lines 29-46).

    A callback is an integer (standing for the function and its user data); what
    it does is a program of scheduler calls, which may depend on everything that
    has happened so far.  Simplifications: memory allocation succeeds, callbacks
    do not call span_schedule_update, logging is omitted.  Newly allocated slots
    hold garbage. *)
From Verif Require Import Base.

(* private/schedule.h:29-34 *)
Record slot := mkSlot { when : Z; callback : option Z }.
(* private/schedule.h:37-44; [allocated] is the length of [sched] *)
Record sched_state := mkSched { ticker : Z; max_to_date : Z; sched : list slot }.

Definition garbage : slot := mkSlot 12345 (Some (-1)).
Definition sget (l : list slot) (i : Z) : res slot :=
  if (0 <=? i) && (i <? Z.of_nat (length l)) then Ok (nth (Z.to_nat i) l garbage) else UB.
Definition sset (l : list slot) (i : Z) (x : slot) : res (list slot) :=
  if (0 <=? i) && (i <? Z.of_nat (length l)) then Ok (upd l (Z.to_nat i) x) else UB.

(** What happened, newest first. *)
Inductive entry :=
| EAdd (i us tag : Z)          (* span_schedule_event(us, tag) returned i *)
| EDel (i : Z) (found : bool)
| ENext (v : Z)
| ETime (v : Z)
| EUpd (us : Z)                (* span_schedule_update(us) entered *)
| EFire (i tag : Z)            (* the callback in slot i is called *)
| EEnd.                        (* span_schedule_update returned *)

(* schedule.c:52-58: the first free slot, or max_to_date *)
Fixpoint find_free (fuel : nat) (i : Z) (s : sched_state) : res Z :=
  match fuel with
  | O => Ok i
  | S f =>
      if i <? max_to_date s then
        do x <- sget (sched s) i;
        match callback x with None => Ok i | Some _ => find_free f (i + 1) s end
      else Ok i
  end.

(* schedule.c:47-72 *)
Definition span_schedule_event (us tag : Z) (s : sched_state) : res (Z * sched_state) :=
  do i <- find_free (Z.to_nat (max_to_date s)) 0 s;
  let l := if Z.of_nat (length (sched s)) <=? i then sched s ++ repeat garbage 5 else sched s in
  let m := if max_to_date s <=? i then i + 1 else max_to_date s in
  do l' <- sset l i (mkSlot (u64 (ticker s + us)) (Some tag));
  Ok (i, mkSched (ticker s) m l').

(* schedule.c:75-89 *)
Fixpoint next_loop (fuel : nat) (i earliest : Z) (s : sched_state) : res Z :=
  match fuel with
  | O => Ok earliest
  | S f =>
      if i <? max_to_date s then
        do x <- sget (sched s) i;
        next_loop f (i + 1)
          (match callback x with
           | Some _ => if when x <? earliest then when x else earliest
           | None => earliest end) s
      else Ok earliest
  end.
Definition span_schedule_next (s : sched_state) : res Z :=
  next_loop (Z.to_nat (max_to_date s)) 0 18446744073709551615 s.

(* schedule.c:92-95 *)
Definition span_schedule_time (s : sched_state) : Z := ticker s.

(* schedule.c:123-136 *)
Definition span_schedule_del (i : Z) (s : sched_state) : res (bool * sched_state) :=
  if (max_to_date s <=? i) || (i <? 0) then Ok (false, s)
  else
    do x <- sget (sched s) i;
    match callback x with
    | None => Ok (false, s)
    | Some _ =>
        do l <- sset (sched s) i (mkSlot (when x) None);
        Ok (true, mkSched (ticker s) (max_to_date s) l)
    end.

(* schedule.c:139-145 *)
Definition span_schedule_init : sched_state := mkSched 0 0 [].

(** What a callback does. *)
Inductive cmd :=
| CRet
| CAdd (us tag : Z) (k : Z -> cmd)
| CDel (i : Z) (k : cmd)
| CNext (k : Z -> cmd)
| CTime (k : Z -> cmd).

Fixpoint do_cmd (c : cmd) (s : sched_state) (log : list entry) : res (sched_state * list entry) :=
  match c with
  | CRet => Ok (s, log)
  | CAdd us tag k =>
      do (i, s1) <- span_schedule_event us tag s;
      do_cmd (k i) s1 (EAdd i us tag :: log)
  | CDel i k =>
      do (f, s1) <- span_schedule_del i s;
      do_cmd k s1 (EDel i f :: log)
  | CNext k =>
      do v <- span_schedule_next s;
      do_cmd (k v) s (ENext v :: log)
  | CTime k => do_cmd (k (span_schedule_time s)) s (ETime (span_schedule_time s) :: log)
  end.

Section Run.
Variable body : list entry -> Z -> cmd.

(* schedule.c:98-120; the flag says whether the loop has ended within [fuel] rounds *)
Fixpoint update_loop (fuel : nat) (i : Z) (s : sched_state) (log : list entry)
  : res (bool * sched_state * list entry) :=
  match fuel with
  | O => Ok (false, s, log)
  | S f =>
      if i <? max_to_date s then
        do x <- sget (sched s) i;
        match callback x with
        | Some tag =>
            if when x <=? ticker s then
              do l <- sset (sched s) i (mkSlot (when x) None);
              let log := EFire i tag :: log in
              do (s1, log1) <- do_cmd (body log tag) (mkSched (ticker s) (max_to_date s) l) log;
              update_loop f (i + 1) s1 log1
            else update_loop f (i + 1) s log
        | None => update_loop f (i + 1) s log
        end
      else Ok (true, s, EEnd :: log)
  end.
Definition span_schedule_update (fuel : nat) (us : Z) (s : sched_state) (log : list entry) :=
  update_loop fuel 0 (mkSched (u64 (ticker s + us)) (max_to_date s) (sched s)) (EUpd us :: log).

(** The application's calls.  A run stops where an update does not finish. *)
Inductive sop := OCmd (c : cmd) | OUpdate (us : Z).
Fixpoint sruns (fuel : nat) (ops : list sop) (s : sched_state) (log : list entry)
  : res (bool * sched_state * list entry) :=
  match ops with
  | [] => Ok (true, s, log)
  | OCmd c :: t => do (s1, log1) <- do_cmd c s log; sruns fuel t s1 log1
  | OUpdate us :: t =>
      do (r, log1) <- span_schedule_update fuel us s log;
      let (fin, s1) := r in
      if fin : bool then sruns fuel t s1 log1 else Ok (false, s1, log1)
  end.
End Run.
