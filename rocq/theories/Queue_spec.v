(** What a bounded FIFO is, independently of pointers and wrapping. *)
From Verif Require Import Base Queue_model.

(** Valid calls: lengths are not negative and the source buffer is long enough. *)
Definition wvalid (o : wop) : Prop :=
  match o with
  | WWrite b n => 0 <= n <= Z.of_nat (length b)
  | WByte b => byte b
  | WMsg b n => 0 <= n <= Z.of_nat (length b) /\ n < 65536
  | _ => True
  end.
Definition rvalid (o : rop) : Prop :=
  match o with
  | RRead n | RDiscard n | RView n | RMsg n => 0 <= n
  | _ => True
  end.
(** The octet stream calls, and the message calls (queries belong to both). *)
Definition is_msg (o : qop) : bool :=
  match o with inl (WMsg _ _) => true | inr (RMsg _) => true | inr RTest => true | _ => false end.
Definition is_octet (o : qop) : bool :=
  match o with
  | inl (WWrite _ _) | inl (WByte _) | inr (RRead _) | inr (RDiscard _) | inr (RView _) | inr RByte => true
  | _ => false
  end.
Definition qvalid (o : qop) : Prop := match o with inl w => wvalid w | inr r => rvalid r end.

Definition len {A} (l : list A) : Z := Z.of_nat (length l).
Definition take (n : Z) (l : list Z) : list Z := firstn (Z.to_nat n) l.
Definition drop (n : Z) (l : list Z) : list Z := skipn (Z.to_nat n) l.

(** ---- an octet FIFO of capacity [cap] ---- *)
Definition amount (atomic : bool) (avail want : Z) : option Z :=
  if avail <? want then (if atomic then None else Some avail) else Some want.

Definition fifo (cap : Z) (ra wa : bool) (o : qop) (q : list Z) : qres * list Z :=
  let room := cap - len q in
  match o with
  | inl (WWrite b n) =>
      match amount wa room n with
      | None => ((-1, []), q)
      | Some k => ((k, []), q ++ take k b)
      end
  | inl (WByte b) =>
      if room =? 0 then ((if wa then -1 else 0, []), q) else ((1, []), q ++ [b])
  | inr (RRead n) =>
      match amount ra (len q) n with
      | None => ((-1, []), q)
      | Some k => ((k, take k q), drop k q)
      end
  | inr (RDiscard n) =>
      match amount ra (len q) n with
      | None => ((-1, []), q)
      | Some k => ((k, []), drop k q)
      end
  | inr (RView n) =>
      match amount ra (len q) n with
      | None => ((-1, []), q)
      | Some k => ((k, take k q), q)
      end
  | inr RByte => match q with [] => ((-1, []), q) | b :: t => ((b, []), t) end
  | inr RFlush => ((0, []), [])
  | inl WFree | inr RFree => ((room, []), q)
  | inl WContents | inr RContents => ((len q, []), q)
  | inl WEmpty | inr REmpty => ((if len q =? 0 then 1 else 0, []), q)
  | inl (WMsg _ _) | inr (RMsg _) | inr RTest => ((0, []), q)  (* not octet calls *)
  end.
Fixpoint fifos (cap : Z) (ra wa : bool) (ops : list qop) (q : list Z) : list qres :=
  match ops with
  | [] => []
  | o :: t => let (r, q') := fifo cap ra wa o q in r :: fifos cap ra wa t q'
  end.

(** ---- a message FIFO; each message costs two octets more than its length ---- *)
Fixpoint cost (q : list (list Z)) : Z :=
  match q with [] => 0 | m :: t => len m + 2 + cost t end.
Definition mfifo (cap : Z) (o : qop) (q : list (list Z)) : qres * list (list Z) :=
  let room := cap - cost q in
  match o with
  | inl (WMsg b n) => if n + 2 <=? room then ((n, []), q ++ [take n b]) else ((-1, []), q)
  | inr (RMsg n) =>
      match q with
      | [] => ((-1, []), q)
      | m :: t => ((Z.min (len m) n, take n m), t)
      end
  | inr RTest => ((match q with [] => -1 | m :: _ => len m end, []), q)
  | inr RFlush => ((0, []), [])
  | inl WFree | inr RFree => ((room, []), q)
  | inl WContents | inr RContents => ((cost q, []), q)
  | inl WEmpty | inr REmpty => ((match q with [] => 1 | _ => 0 end, []), q)
  | _ => ((0, []), q)                                          (* not message calls *)
  end.
Fixpoint mfifos (cap : Z) (ops : list qop) (q : list (list Z)) : list qres :=
  match ops with
  | [] => []
  | o :: t => let (r, q') := mfifo cap o q in r :: mfifos cap t q'
  end.

(** ---- two threads: what the logs must say ---- *)

(** Octets the writer has been told were accepted. *)
Definition accepted1 (e : wop * qres) : list Z :=
  match e with
  | (WWrite b _, (r, _)) => take r b
  | (WByte b, (r, _)) => if r =? 1 then [b] else []
  | _ => []
  end.
Definition accepted (l : list (wop * qres)) : list Z := flat_map accepted1 l.

(** [delivers log s rest]: the reader's results are explained by the stream [s]
    read from its start, of which [rest] has not been consumed. *)
Inductive delivers : list (rop * qres) -> list Z -> list Z -> Prop :=
| dl_nil s : delivers [] s s
| dl_read l s n bs rest : delivers l s (bs ++ rest) -> len bs <= n ->
    delivers (l ++ [(RRead n, (len bs, bs))]) s rest
| dl_read_no l s n rest : delivers l s rest -> delivers (l ++ [(RRead n, (-1, []))]) s rest
| dl_discard l s n bs rest : delivers l s (bs ++ rest) -> len bs <= n ->
    delivers (l ++ [(RDiscard n, (len bs, []))]) s rest
| dl_discard_no l s n rest : delivers l s rest -> delivers (l ++ [(RDiscard n, (-1, []))]) s rest
| dl_view l s n bs rest : delivers l s (bs ++ rest) -> len bs <= n ->
    delivers (l ++ [(RView n, (len bs, bs))]) s (bs ++ rest)
| dl_view_no l s n rest : delivers l s rest -> delivers (l ++ [(RView n, (-1, []))]) s rest
| dl_byte l s b rest : delivers l s (b :: rest) -> delivers (l ++ [(RByte, (b, []))]) s rest
| dl_byte_no l s rest : delivers l s rest -> delivers (l ++ [(RByte, (-1, []))]) s rest
| dl_flush l s bs rest r : delivers l s (bs ++ rest) -> delivers (l ++ [(RFlush, r)]) s rest
| dl_query l s o r rest : delivers l s rest -> o = RFree \/ o = RContents \/ o = REmpty ->
    delivers (l ++ [(o, r)]) s rest.

(** Messages the writer has been told were accepted. *)
Definition accepted_msg (l : list (wop * qres)) : list (list Z) :=
  flat_map (fun e => match e with
    | (WMsg b _, (r, _)) => if r <? 0 then [] else [take r b]
    | _ => [] end) l.
Inductive mdelivers : list (rop * qres) -> list (list Z) -> list (list Z) -> Prop :=
| md_nil s : mdelivers [] s s
| md_read l s n m rest : mdelivers l s (m :: rest) ->
    mdelivers (l ++ [(RMsg n, (Z.min (len m) n, take n m))]) s rest
| md_read_no l s n rest : mdelivers l s rest -> mdelivers (l ++ [(RMsg n, (-1, []))]) s rest
| md_test l s m rest : mdelivers l s (m :: rest) ->
    mdelivers (l ++ [(RTest, (len m, []))]) s (m :: rest)
| md_test_no l s rest : mdelivers l s rest -> mdelivers (l ++ [(RTest, (-1, []))]) s rest
| md_flush l s ms rest r : mdelivers l s (ms ++ rest) -> mdelivers (l ++ [(RFlush, r)]) s rest
| md_query l s o r rest : mdelivers l s rest -> o = RFree \/ o = RContents \/ o = REmpty ->
    mdelivers (l ++ [(o, r)]) s rest.

(** Room a call needs to succeed in full, and the result that says so. *)
Definition fits (o : wop) (n : Z) : Prop :=
  match o with WWrite _ k => k <= n | WByte _ => 1 <= n | WMsg _ k => k + 2 <= n | _ => False end.
Definition full (o : wop) : Z :=
  match o with WWrite _ k => k | WByte _ => 1 | WMsg _ k => k | _ => 0 end.
(** A writer that has seen [n] free octets may count on them; a reader that has
    seen [n] octets may count on them. *)
Definition room_honest (l : list (wop * qres)) : Prop :=
  forall l1 l2 n x o r y, l = l1 ++ (WFree, (n, x)) :: (o, (r, y)) :: l2 -> fits o n -> r = full o.
Definition contents_honest (l : list (rop * qres)) : Prop :=
  forall l1 l2 n x o k r y, l = l1 ++ (RContents, (n, x)) :: (o, (r, y)) :: l2 ->
    o = RRead k \/ o = RDiscard k \/ o = RView k -> k <= n -> r = k.

(** The calls each thread may make: octet calls, or message calls. *)
Definition wok_octet (o : wop) : Prop := wvalid o /\ is_msg (inl o) = false.
Definition rok_octet (o : rop) : Prop := rvalid o /\ is_msg (inr o) = false.
Definition wok_msg (o : wop) : Prop := wvalid o /\ is_octet (inl o) = false.
Definition rok_msg (o : rop) : Prop := rvalid o /\ is_octet (inr o) = false.
