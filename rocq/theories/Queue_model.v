(** Model of src/queue.c and src/spandsp/private/queue.h (lines 33-46): the lock
    free octet and message queue.

    Every function is a program of individual shared memory accesses: reads and
    writes of the [volatile] pointers [iptr] and [optr], and of single octets of
    [data].  Running a program without interference gives the sequential
    meaning; the same programs are interleaved for the two thread meaning.

    Simplifications:
    - memory is sequentially consistent and memcpy moves octets in ascending
      order, one at a time;
    - the caller's own buffers are values: the source of a write is a list
      (reading it out of bounds is UB), what is copied to a destination buffer is
      part of the result (the destination is trusted to hold [len] octets);
    - [sizeof(uint16_t)] is 2 and the host is little endian;
    - [len] and [flags] are constants of the queue after queue_init. *)
From Verif Require Import Base.

Definition QUEUE_READ_ATOMIC : Z := 1.   (* queue.h:46 *)
Definition QUEUE_WRITE_ATOMIC : Z := 2.  (* queue.h:49 *)

(** private/queue.h:33-46; [qlen] and [qflags] are fixed by queue_init. *)
Record qconf := mkQC { qlen : Z; qflags : Z }.
Record qmem := mkQM { iptr : Z; optr : Z; data : list Z }.

(** Programs of shared memory accesses. *)
Inductive prog (A : Type) : Type :=
| Ret (a : A)
| PUB
| RdI (k : Z -> prog A)
| RdO (k : Z -> prog A)
| WrI (v : Z) (k : prog A)
| WrO (v : Z) (k : prog A)
| RdD (i : Z) (k : Z -> prog A)
| WrD (i v : Z) (k : prog A).
Arguments Ret {A}. Arguments PUB {A}. Arguments RdI {A}. Arguments RdO {A}.
Arguments WrI {A}. Arguments WrO {A}. Arguments RdD {A}. Arguments WrD {A}.

Fixpoint pbind {A B} (p : prog A) (f : A -> prog B) : prog B :=
  match p with
  | Ret a => f a
  | PUB => PUB
  | RdI k => RdI (fun x => pbind (k x) f)
  | RdO k => RdO (fun x => pbind (k x) f)
  | WrI v k => WrI v (pbind k f)
  | WrO v k => WrO v (pbind k f)
  | RdD i k => RdD i (fun x => pbind (k x) f)
  | WrD i v k => WrD i v (pbind k f)
  end.

(** One access. *)
Definition astep {A} (p : prog A) (m : qmem) : res (prog A * qmem) :=
  match p with
  | Ret a => Ok (Ret a, m)
  | PUB => UB
  | RdI k => Ok (k (iptr m), m)
  | RdO k => Ok (k (optr m), m)
  | WrI v k => Ok (k, mkQM v (optr m) (data m))
  | WrO v k => Ok (k, mkQM (iptr m) v (data m))
  | RdD i k => do x <- aget (data m) i; Ok (k x, m)
  | WrD i v k => do d <- aset (data m) i v; Ok (k, mkQM (iptr m) (optr m) d)
  end.

(** Run to completion, undisturbed. *)
Fixpoint prun {A} (p : prog A) (m : qmem) : res (A * qmem) :=
  match p with
  | Ret a => Ok (a, m)
  | PUB => UB
  | RdI k => prun (k (iptr m)) m
  | RdO k => prun (k (optr m)) m
  | WrI v k => prun k (mkQM v (optr m) (data m))
  | WrO v k => prun k (mkQM (iptr m) v (data m))
  | RdD i k => match aget (data m) i with Ok x => prun (k x) m | UB => UB end
  | WrD i v k => match aset (data m) i v with Ok d => prun k (mkQM (iptr m) (optr m) d) | UB => UB end
  end.

(** memcpy(&s->data[i], src, n) *)
Fixpoint copy_in {A} (i : Z) (src : list Z) (k : prog A) : prog A :=
  match src with
  | [] => k
  | v :: t => WrD i v (copy_in (i + 1) t k)
  end.
Definition memcpy_to {A} (i : Z) (buf : list Z) (off n : Z) (k : prog A) : prog A :=
  if n <? 0 then PUB
  else match aslice buf off n with Ok src => copy_in i src k | UB => PUB end.
(** memcpy(dst, &s->data[i], n) *)
Fixpoint copy_out {A} (i : Z) (n : nat) (k : list Z -> prog A) : prog A :=
  match n with
  | O => k []
  | S n' => RdD i (fun x => copy_out (i + 1) n' (fun l => k (x :: l)))
  end.
Definition memcpy_from {A} (i n : Z) (k : list Z -> prog A) : prog A :=
  if n <? 0 then PUB else copy_out i (Z.to_nat n) k.

(** Results: the C return value, and the octets stored in the caller's buffer. *)
Notation qres := (Z * list Z)%type.

Definition ratomic (c : qconf) : bool := negb (Z.land (qflags c) QUEUE_READ_ATOMIC =? 0).
Definition watomic (c : qconf) : bool := negb (Z.land (qflags c) QUEUE_WRITE_ATOMIC =? 0).

(* queue.c:55-58 *)
Definition queue_empty (c : qconf) : prog qres :=
  RdI (fun i => RdO (fun o => Ret (if i =? o then 1 else 0, []))).

(* queue.c:61-69 *)
Definition queue_free_space (c : qconf) : prog qres :=
  RdO (fun o => RdI (fun i =>
    let len := o - i - 1 in
    Ret (if len <? 0 then len + qlen c else len, []))).

(* queue.c:72-80 *)
Definition queue_contents (c : qconf) : prog qres :=
  RdI (fun i => RdO (fun o =>
    let len := i - o in
    Ret (if len <? 0 then len + qlen c else len, []))).

(* queue.c:83-86 *)
Definition queue_flush (c : qconf) : prog qres :=
  RdI (fun i => WrO i (Ret (0, []))).

(* queue.c:89-138; [want] says whether buf is not NULL *)
Definition queue_view (c : qconf) (want : bool) (len : Z) : prog qres :=
  RdI (fun ip => RdO (fun op =>
    let real_len := ip - op in
    let real_len := if real_len <? 0 then real_len + qlen c else real_len in
    if (real_len <? len) && ratomic c then Ret (-1, [])
    else
      let real_len := if real_len <? len then real_len else len in
      if real_len =? 0 then Ret (0, [])
      else
        let to_end := qlen c - op in
        if (ip <? op) && (to_end <? real_len) then
          if want then
            memcpy_from op to_end (fun l1 =>
            memcpy_from 0 (real_len - to_end) (fun l2 => Ret (real_len, l1 ++ l2)))
          else Ret (real_len, [])
        else
          if want then memcpy_from op real_len (fun l => Ret (real_len, l))
          else Ret (real_len, []))).

(* queue.c:141-197 *)
Definition queue_read (c : qconf) (want : bool) (len : Z) : prog qres :=
  RdI (fun ip => RdO (fun op =>
    let real_len := ip - op in
    let real_len := if real_len <? 0 then real_len + qlen c else real_len in
    if (real_len <? len) && ratomic c then Ret (-1, [])
    else
      let real_len := if real_len <? len then real_len else len in
      if real_len =? 0 then Ret (0, [])
      else
        let to_end := qlen c - op in
        if (ip <? op) && (to_end <? real_len) then
          if want then
            memcpy_from op to_end (fun l1 =>
            memcpy_from 0 (real_len - to_end) (fun l2 =>
              WrO (real_len - to_end) (Ret (real_len, l1 ++ l2))))
          else WrO (real_len - to_end) (Ret (real_len, []))
        else
          let new_optr := op + real_len in
          let new_optr := if qlen c <=? new_optr then 0 else new_optr in
          if want then memcpy_from op real_len (fun l => WrO new_optr (Ret (real_len, l)))
          else WrO new_optr (Ret (real_len, [])))).

(* queue.c:200-225 *)
Definition queue_read_byte (c : qconf) : prog qres :=
  RdI (fun ip => RdO (fun op =>
    let real_len := ip - op in
    let real_len := if real_len <? 0 then real_len + qlen c else real_len in
    if real_len <? 1 then Ret (-1, [])
    else
      RdD op (fun byte =>
        let op := op + 1 in
        let op := if qlen c <=? op then 0 else op in
        WrO op (Ret (byte, []))))).

(* queue.c:228-280 *)
Definition queue_write (c : qconf) (buf : list Z) (len : Z) : prog qres :=
  RdI (fun ip => RdO (fun op =>
    let real_len := op - ip - 1 in
    let real_len := if real_len <? 0 then real_len + qlen c else real_len in
    if (real_len <? len) && watomic c then Ret (-1, [])
    else
      let real_len := if real_len <? len then real_len else len in
      if real_len =? 0 then Ret (0, [])
      else
        let to_end := qlen c - ip in
        if (ip <? op) || (real_len <=? to_end) then
          let new_iptr := ip + real_len in
          let new_iptr := if qlen c <=? new_iptr then 0 else new_iptr in
          memcpy_to ip buf 0 real_len (WrI new_iptr (Ret (real_len, [])))
        else
          memcpy_to ip buf 0 to_end
          (memcpy_to 0 buf to_end (real_len - to_end)
          (WrI (real_len - to_end) (Ret (real_len, [])))))).

(* queue.c:283-310; the argument is a uint8_t *)
Definition queue_write_byte (c : qconf) (byte : Z) : prog qres :=
  RdI (fun ip => RdO (fun op =>
    let real_len := op - ip - 1 in
    let real_len := if real_len <? 0 then real_len + qlen c else real_len in
    if real_len <? 1 then
      if watomic c then Ret (-1, []) else Ret (0, [])
    else
      WrD ip (u8 byte) (
        let ip := ip + 1 in
        let ip := if qlen c <=? ip then 0 else ip in
        WrI ip (Ret (1, []))))).

(** The octets of a uint16_t in memory, and the value they hold. *)
Definition u16_octets (x : Z) : list Z := [x mod 256; x / 256].
Definition u16_value (l : list Z) : Z := nth 0 l 0 + 256 * nth 1 l 0.

(* queue.c:313-321 *)
Definition queue_state_test_msg (c : qconf) : prog qres :=
  pbind (queue_view c true 2) (fun r =>
    if negb (fst r =? 2) then Ret (-1, []) else Ret (u16_value (snd r), [])).

(* queue.c:324-347 *)
Definition queue_read_msg (c : qconf) (len : Z) : prog qres :=
  pbind (queue_read c true 2) (fun r =>
    if negb (fst r =? 2) then Ret (-1, [])
    else
      let lenx := u16_value (snd r) in
      if lenx =? 0 then Ret (0, [])
      else if len <? lenx then
        pbind (queue_read c true len) (fun r1 =>
        pbind (queue_read c false (lenx - fst r1)) (fun _ => Ret r1))
      else queue_read c true lenx).

(* queue.c:350-405; the int sum len + 2 must not overflow *)
Definition queue_write_msg (c : qconf) (buf : list Z) (len : Z) : prog qres :=
  RdI (fun ip => RdO (fun op =>
    let real_len := op - ip - 1 in
    let real_len := if real_len <? 0 then real_len + qlen c else real_len in
    if 2147483647 <? len + 2 then PUB
    else if real_len <? len + 2 then Ret (-1, [])
    else
      let real_len := len + 2 in
      let to_end := qlen c - ip in
      let lenx := u16_octets (u16 len) in
      if (ip <? op) || (real_len <=? to_end) then
        let new_iptr := ip + real_len in
        let new_iptr := if qlen c <=? new_iptr then 0 else new_iptr in
        memcpy_to ip lenx 0 2
        (memcpy_to (ip + 2) buf 0 len
        (WrI new_iptr (Ret (len, []))))
      else if 2 <=? to_end then
        memcpy_to ip lenx 0 2
        (memcpy_to (ip + 2) buf 0 (to_end - 2)
        (memcpy_to 0 buf (to_end - 2) (real_len - to_end)
        (WrI (real_len - to_end) (Ret (len, [])))))
      else
        memcpy_to ip lenx 0 to_end
        (memcpy_to 0 lenx to_end (2 - to_end)
        (memcpy_to (2 - to_end) buf 0 len
        (WrI (real_len - to_end) (Ret (len, []))))))).

(* queue.c:408-422; the data buffer holds len + 1 octets of any value *)
Definition queue_init (len flags : Z) (d : list Z) : qconf * qmem :=
  (mkQC (len + 1) flags, mkQM 0 0 d).

(** The API, as the writing side and the reading side may call it. *)
Inductive wop :=
| WWrite (buf : list Z) (sz : Z)
| WByte (b : Z)
| WMsg (buf : list Z) (sz : Z)
| WFree | WContents | WEmpty.
Inductive rop :=
| RRead (sz : Z)
| RDiscard (sz : Z)
| RView (sz : Z)
| RByte
| RFlush
| RMsg (sz : Z)
| RTest
| RFree | RContents | REmpty.

Definition wcode (c : qconf) (o : wop) : prog qres :=
  match o with
  | WWrite b n => queue_write c b n
  | WByte b => queue_write_byte c b
  | WMsg b n => queue_write_msg c b n
  | WFree => queue_free_space c
  | WContents => queue_contents c
  | WEmpty => queue_empty c
  end.
Definition rcode (c : qconf) (o : rop) : prog qres :=
  match o with
  | RRead n => queue_read c true n
  | RDiscard n => queue_read c false n
  | RView n => queue_view c true n
  | RByte => queue_read_byte c
  | RFlush => queue_flush c
  | RMsg n => queue_read_msg c n
  | RTest => queue_state_test_msg c
  | RFree => queue_free_space c
  | RContents => queue_contents c
  | REmpty => queue_empty c
  end.

(** ---- one thread ---- *)
Notation qop := (wop + rop)%type.
Definition opcode (c : qconf) (o : qop) : prog qres :=
  match o with inl w => wcode c w | inr r => rcode c r end.
Fixpoint runs (c : qconf) (ops : list qop) (m : qmem) : res (list qres * qmem) :=
  match ops with
  | [] => Ok ([], m)
  | o :: t =>
      do (r, m1) <- prun (opcode c o) m;
      do (rs, m2) <- runs c t m1;
      Ok (r :: rs, m2)
  end.

(** ---- two threads ----
    Each thread is idle ([Ret] of an ignored value) or inside a call.  A call is
    logged, with its result, as soon as its last access is done. *)
Record sys := mkSys {
  smem : qmem;
  wcur : option (wop * prog qres);  wlog : list (wop * qres);
  rcur : option (rop * prog qres);  rlog : list (rop * qres)
}.
Definition sys0 (m : qmem) : sys := mkSys m None [] None [].

Definition wsettle (s : sys) (m : qmem) (o : wop) (p : prog qres) : sys :=
  match p with
  | Ret r => mkSys m None (wlog s ++ [(o, r)]) (rcur s) (rlog s)
  | _ => mkSys m (Some (o, p)) (wlog s) (rcur s) (rlog s)
  end.
Definition rsettle (s : sys) (m : qmem) (o : rop) (p : prog qres) : sys :=
  match p with
  | Ret r => mkSys m (wcur s) (wlog s) None (rlog s ++ [(o, r)])
  | _ => mkSys m (wcur s) (wlog s) (Some (o, p)) (rlog s)
  end.

Inductive step (c : qconf) (wok : wop -> Prop) (rok : rop -> Prop) : sys -> sys -> Prop :=
| step_wcall s o : wcur s = None -> wok o ->
    step c wok rok s (mkSys (smem s) (Some (o, wcode c o)) (wlog s) (rcur s) (rlog s))
| step_waccess s o p p' m' : wcur s = Some (o, p) -> astep p (smem s) = Ok (p', m') ->
    step c wok rok s (wsettle s m' o p')
| step_rcall s o : rcur s = None -> rok o ->
    step c wok rok s (mkSys (smem s) (wcur s) (wlog s) (Some (o, rcode c o)) (rlog s))
| step_raccess s o p p' m' : rcur s = Some (o, p) -> astep p (smem s) = Ok (p', m') ->
    step c wok rok s (rsettle s m' o p').

Inductive reach (c : qconf) (wok : wop -> Prop) (rok : rop -> Prop) (s0 : sys) : sys -> Prop :=
| reach_0 : reach c wok rok s0 s0
| reach_step s s' : reach c wok rok s0 s -> step c wok rok s s' -> reach c wok rok s0 s'.
