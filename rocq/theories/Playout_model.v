(** Model of the play-out (jitter) buffer: src/playout.c 52-413.

    Frames live on a heap, as in the C code: a pointer is None (NULL) or an index,
    and following NULL or a pointer to freed memory is UB.  Timestamps are C ints.
    Their arithmetic wraps and sets the ghost flag [ovf], so the theorems tell
    apart what holds anyway from what needs the absence of overflow.  The
    statistics counters (frames_in and so on) count calls and are not bounded. *)
From Verif Require Import Base.
Local Open Scope Z_scope.

Definition PLAYOUT_OK := 0.
Definition PLAYOUT_ERROR := 1.
Definition PLAYOUT_FILLIN := 4.
Definition PLAYOUT_DROP := 5.
Definition PLAYOUT_TYPE_SPEECH := 2.

(** struct playout_frame_s; the data pointer is an opaque number. *)
Record info := { fdata : Z; ftype : Z; fstamp : Z; flen : Z; frecv : Z }.
Definition ptr := option nat.
Record cell := { finfo : info; earlier : ptr; later : ptr }.
(** A cell of None has been freed. *)
Definition heap := list (option cell).

Definition load (h : heap) (p : ptr) : res cell :=
  match p with
  | None => UB
  | Some i => match nth_error h i with Some (Some c) => Ok c | _ => UB end
  end.
Definition store (h : heap) (p : ptr) (c : cell) : res heap :=
  do _ <- load h p ; match p with None => UB | Some i => Ok (firstn i h ++ Some c :: skipn (S i) h) end.
Definition set_later (h : heap) (p q : ptr) : res heap :=
  do c <- load h p ; store h p {| finfo := finfo c; earlier := earlier c; later := q |}.
Definition set_earlier (h : heap) (p q : ptr) : res heap :=
  do c <- load h p ; store h p {| finfo := finfo c; earlier := q; later := later c |}.
Definition free1 (h : heap) (p : ptr) : res heap :=
  do _ <- load h p ; match p with None => UB | Some i => Ok (firstn i h ++ None :: skipn (S i) h) end.

(** The part of struct playout_state_s that the timing decisions use. *)
Record timing := {
  dynamic : bool; min_length : Z; max_length : Z; dropable_threshold : Z; start : bool;
  frames_in : Z; frames_out : Z; frames_oos : Z; frames_late : Z; frames_missing : Z;
  latest_expected : Z; last_stamp : Z; last_len : Z;
  not_first : bool; since_last_step : Z; state_jit : Z; state_late : Z; target_length : Z;
  ovf : bool }.
Record playout := { mem : heap; first_frame : ptr; last_frame : ptr; free_frames : ptr; tm : timing }.

(** int arithmetic, noting overflow *)
Definition fits (x : Z) : bool := (-2147483648 <=? x) && (x <=? 2147483647).
Definition ov (x : Z) : bool := negb (fits x).

(** queue_get, 52-80: the frame's pointer, or None. *)
Definition queue_get (s : playout) (stamp : Z) : res (ptr * playout) :=
  match first_frame s with
  | None => Ok (None, s)
  | Some _ =>
      do f <- load (mem s) (first_frame s) ;
      if fstamp (finfo f) <=? stamp then
        match later f with
        | Some _ =>
            do h <- set_earlier (mem s) (later f) None ;
            Ok (first_frame s, {| mem := h; first_frame := later f; last_frame := last_frame s; free_frames := free_frames s; tm := tm s |})
        | None =>
            Ok (first_frame s, {| mem := mem s; first_frame := None; last_frame := None; free_frames := free_frames s; tm := tm s |})
        end
      else Ok (None, s)
  end.

(** Put it on the free list. *)
Definition to_free (s : playout) (p : ptr) : res playout :=
  do h <- set_later (mem s) p (free_frames s) ;
  Ok {| mem := h; first_frame := first_frame s; last_frame := last_frame s; free_frames := p; tm := tm s |}.
Definition with_tm (s : playout) (t : timing) : playout :=
  {| mem := mem s; first_frame := first_frame s; last_frame := last_frame s; free_frames := free_frames s; tm := t |}.

(** playout_next_due, 83-87 *)
Definition playout_next_due (s : playout) : Z := s32 (last_stamp (tm s) + last_len (tm s)).

(** playout_get_unconditional, 95-111 *)
Definition playout_get_unconditional (s : playout) : res (option info * playout) :=
  do (p, s1) <- queue_get s 0x7FFFFFFF ;
  match p with
  | None => Ok (None, s1)
  | Some _ =>
      do s2 <- to_free s1 p ;
      do f <- load (mem s2) p ;
      Ok (Some (finfo f), s2)
  end.

(** last_speech_sender_stamp += x *)
Definition add_stamp (t : timing) (x : Z) : timing :=
  {| dynamic := dynamic t; min_length := min_length t; max_length := max_length t; dropable_threshold := dropable_threshold t; start := start t;
     frames_in := frames_in t; frames_out := frames_out t; frames_oos := frames_oos t; frames_late := frames_late t; frames_missing := frames_missing t;
     latest_expected := latest_expected t; last_stamp := s32 (last_stamp t + x); last_len := last_len t;
     not_first := not_first t; since_last_step := since_last_step t; state_jit := state_jit t; state_late := state_late t;
     target_length := target_length t; ovf := ovf t || ov (last_stamp t + x) |}.
Definition set_len (t : timing) (x : Z) : timing :=
  {| dynamic := dynamic t; min_length := min_length t; max_length := max_length t; dropable_threshold := dropable_threshold t; start := start t;
     frames_in := frames_in t; frames_out := frames_out t; frames_oos := frames_oos t; frames_late := frames_late t; frames_missing := frames_missing t;
     latest_expected := latest_expected t; last_stamp := last_stamp t; last_len := x;
     not_first := not_first t; since_last_step := since_last_step t; state_jit := state_jit t; state_late := state_late t;
     target_length := target_length t; ovf := ovf t |}.
(** frames_out += o, frames_late += l, frames_missing += m *)
Definition count (t : timing) (i o oos l m : Z) : timing :=
  {| dynamic := dynamic t; min_length := min_length t; max_length := max_length t; dropable_threshold := dropable_threshold t; start := start t;
     frames_in := frames_in t + i; frames_out := frames_out t + o; frames_oos := frames_oos t + oos; frames_late := frames_late t + l; frames_missing := frames_missing t + m;
     latest_expected := latest_expected t; last_stamp := last_stamp t; last_len := last_len t;
     not_first := not_first t; since_last_step := since_last_step t; state_jit := state_jit t; state_late := state_late t;
     target_length := target_length t; ovf := ovf t |}.

(** The assessment of the buffer length, 127-193, for a speech frame in a dynamic
    buffer.  Changing the target by [k] frame lengths, and the stamp by [-k]
    (3, 1 or -1): *)
Definition step_by (t : timing) (f : info) (k : Z) : timing :=
  add_stamp
  {| dynamic := dynamic t; min_length := min_length t; max_length := max_length t; dropable_threshold := dropable_threshold t; start := start t;
     frames_in := frames_in t; frames_out := frames_out t; frames_oos := frames_oos t; frames_late := frames_late t; frames_missing := frames_missing t;
     latest_expected := s32 (latest_expected t + k * flen f); last_stamp := last_stamp t; last_len := last_len t;
     not_first := not_first t; since_last_step := 0; state_jit := dropable_threshold t; state_late := 0;
     target_length := s32 (target_length t + k * flen f);
     ovf := ovf t || ov (k * flen f) || ov (latest_expected t + k * flen f) || ov (target_length t + k * flen f) || ov (k * last_len t) |}
  (- (k * last_len t)).
Definition assess (t : timing) (f : info) : timing :=
  let le := if not_first t then latest_expected t else s32 (frecv f + min_length t) in
  let o1 := if not_first t then false else ov (frecv f + min_length t) in
  let late := s32 (state_late t + Z.shiftr (s32 ((if le <? frecv f then 0x10000000 else 0) - state_late t)) 8) in
  let o2 := ov ((if le <? frecv f then 0x10000000 else 0) - state_late t) in
  let jit := s32 (state_jit t + Z.shiftr (s32 ((if s32 (le - flen f) <? frecv f then 0x10000000 else 0) - state_jit t)) 8) in
  let o3 := ov (le - flen f) || ov ((if s32 (le - flen f) <? frecv f then 0x10000000 else 0) - state_jit t) in
  let le2 := s32 (le + flen f) in
  let t1 :=
    {| dynamic := dynamic t; min_length := min_length t; max_length := max_length t; dropable_threshold := dropable_threshold t; start := start t;
       frames_in := frames_in t; frames_out := frames_out t; frames_oos := frames_oos t; frames_late := frames_late t; frames_missing := frames_missing t;
       latest_expected := le2; last_stamp := last_stamp t; last_len := last_len t;
       not_first := true; since_last_step := since_last_step t; state_jit := jit; state_late := late;
       target_length := target_length t; ovf := ovf t || o1 || o2 || o3 || ov (le + flen f) |} in
  let t2 :=
    if dropable_threshold t1 <? state_late t1 then
      if since_last_step t1 <? 10 then
        if target_length t1 <? s32 (max_length t1 - 2) then step_by t1 f 3 else t1
      else if target_length t1 <? max_length t1 then step_by t1 f 1 else t1
    else if (500 <? since_last_step t1) && (state_jit t1 <? dropable_threshold t1) then
      if min_length t1 <? target_length t1 then step_by t1 f (-1) else t1
    else t1 in
  (* since_last_step++ *)
  {| dynamic := dynamic t2; min_length := min_length t2; max_length := max_length t2; dropable_threshold := dropable_threshold t2; start := start t2;
     frames_in := frames_in t2; frames_out := frames_out t2; frames_oos := frames_oos t2; frames_late := frames_late t2; frames_missing := frames_missing t2;
     latest_expected := latest_expected t2; last_stamp := last_stamp t2; last_len := last_len t2;
     not_first := not_first t2; since_last_step := s32 (since_last_step t2 + 1); state_jit := state_jit t2; state_late := state_late t2;
     target_length := target_length t2; ovf := ovf t2 || ov (since_last_step t2 + 1) |}.

(** playout_get, 114-238: the return code and the frame. *)
Definition playout_get (s : playout) : res (Z * option info * playout) :=
  let t0 := add_stamp (tm s) (last_len (tm s)) in
  do (p, s1) <- queue_get (with_tm s t0) (last_stamp t0) ;
  match p with
  | None => Ok (PLAYOUT_FILLIN, None, with_tm s1 (count t0 0 0 0 0 1))
  | Some _ =>
      do c <- load (mem s1) p ;
      let f := finfo c in
      let t1 := if dynamic t0 && (ftype f =? PLAYOUT_TYPE_SPEECH) then assess t0 f else t0 in
      do s2 <- to_free s1 p ;
      if negb (ftype f =? PLAYOUT_TYPE_SPEECH) then
        Ok (PLAYOUT_OK, Some f, with_tm s2 (count (add_stamp t1 (- last_len t1)) 0 1 0 0 0))
      else if fstamp f <? last_stamp t1 then
        Ok (PLAYOUT_DROP, Some f, with_tm s2 (count (add_stamp t1 (- last_len t1)) 0 1 0 1 (-1)))
      else
        let t2 := if 0 <? flen f then set_len t1 (flen f) else t1 in
        Ok (PLAYOUT_OK, Some f, with_tm s2 (count t2 0 1 0 0 0))
  end.

(** while (sender_stamp < p->sender_stamp && p->earlier) p = p->earlier;  The
    fuel is the size of the heap; running out is an error. *)
Fixpoint find_place (fuel : nat) (h : heap) (stamp : Z) (p : ptr) : res ptr :=
  match fuel with
  | O => UB
  | S fuel =>
      do c <- load h p ;
      match earlier c with
      | Some _ => if stamp <? fstamp (finfo c) then find_place fuel h stamp (earlier c) else Ok p
      | None => Ok p
      end
  end.

(** playout_put, 241-330.  [mem_ok] says whether span_alloc succeeds. *)
Definition playout_put (mem_ok : bool) (s : playout) (f : info) : res (Z * playout) :=
  let t0 := count (tm s) 1 0 0 0 0 in
  do (p, h, fr) <-
    match free_frames s with
    | Some _ =>
        do c <- load (mem s) (free_frames s) ;
        do h <- store (mem s) (free_frames s) {| finfo := f; earlier := earlier c; later := later c |} ;
        Ok (free_frames s, h, later c)
    | None =>
        if mem_ok then Ok (Some (length (mem s)), mem s ++ [Some {| finfo := f; earlier := None; later := None |}], None)
        else Ok (None, mem s, None)
    end ;
  match p with
  | None => Ok (PLAYOUT_ERROR, with_tm s t0)
  | Some _ =>
      do (h, fst, lst, oos) <-
        match last_frame s with
        | None =>
            do h <- store h p {| finfo := f; earlier := None; later := None |} ;
            Ok (h, p, p, 0)
        | Some _ =>
            do lc <- load h (last_frame s) ;
            if fstamp (finfo lc) <=? fstamp f then
              do h <- store h p {| finfo := f; earlier := last_frame s; later := None |} ;
              do h <- set_later h (last_frame s) p ;
              Ok (h, first_frame s, p, 0)
            else
              do q <- find_place (length h) h (fstamp f) (last_frame s) ;
              do qc <- load h q ;
              match earlier qc with
              | Some _ =>
                  do h <- store h p {| finfo := f; earlier := q; later := later qc |} ;
                  do h <- set_earlier h (later qc) p ;
                  do h <- set_later h q p ;
                  Ok (h, first_frame s, last_frame s, 1)
              | None =>
                  do h <- store h p {| finfo := f; earlier := None; later := q |} ;
                  do h <- set_earlier h q p ;
                  Ok (h, p, last_frame s, 1)
              end
        end ;
      let t1 := count t0 0 0 oos 0 0 in
      let t2 :=
        if start t1 && (ftype f =? PLAYOUT_TYPE_SPEECH) then
          {| dynamic := dynamic t1; min_length := min_length t1; max_length := max_length t1; dropable_threshold := dropable_threshold t1; start := false;
             frames_in := frames_in t1; frames_out := frames_out t1; frames_oos := frames_oos t1; frames_late := frames_late t1; frames_missing := frames_missing t1;
             latest_expected := latest_expected t1; last_stamp := s32 (fstamp f - flen f - min_length t1); last_len := flen f;
             not_first := not_first t1; since_last_step := since_last_step t1; state_jit := state_jit t1; state_late := state_late t1;
             target_length := target_length t1;
             ovf := ovf t1 || ov (fstamp f - flen f) || ov (fstamp f - flen f - min_length t1) |}
        else t1 in
      Ok (PLAYOUT_OK, {| mem := h; first_frame := fst; last_frame := lst; free_frames := fr; tm := t2 |})
  end.

(** Free a list of frames; the fuel is the size of the heap. *)
Fixpoint free_list (fuel : nat) (h : heap) (p : ptr) : res heap :=
  match p with
  | None => Ok h
  | Some _ =>
      match fuel with
      | O => UB
      | S fuel => do c <- load h p ; do h <- free1 h p ; free_list fuel h (later c)
      end
  end.

(** playout_restart, 333-356 *)
Definition timing0 (mn mx : Z) : timing :=
  let mx := if mn <? mx then mx else mn in
  {| dynamic := mn <? mx; min_length := mn; max_length := mx; dropable_threshold := 0x10000000 / 100; start := true;
     frames_in := 0; frames_out := 0; frames_oos := 0; frames_late := 0; frames_missing := 0;
     latest_expected := 0; last_stamp := 0; last_len := 0;
     not_first := false; since_last_step := 0x7FFFFFFF; state_jit := 0; state_late := 0;
     target_length := Z.quot (mx - mn) 2; ovf := ov (mx - mn) |}.
Definition playout_restart (s : playout) (mn mx : Z) : res playout :=
  do h <- free_list (length (mem s)) (mem s) (free_frames s) ;
  Ok {| mem := h; first_frame := None; last_frame := None; free_frames := None; tm := timing0 mn mx |}.
(** playout_init, 359-370 *)
Definition playout_init (mn mx : Z) : playout :=
  {| mem := []; first_frame := None; last_frame := None; free_frames := None; tm := timing0 mn mx |}.
(** playout_release, 373-395: the heap at the end. *)
Definition playout_release (s : playout) : res heap :=
  do h <- free_list (length (mem s)) (mem s) (first_frame s) ;
  free_list (length h) h (free_frames s).
