(** Proofs about T.38 packets. *)
From Verif Require Import Base Bits T38_model T38_spec.
From Coq Require Import ZifyBool ZifyNat.
Local Open Scope Z_scope.

Lemma aget_in l i : 0 <= i < Z.of_nat (length l) -> exists x, aget l i = Ok x /\ In x l.
Proof.
  intros H. unfold aget, in_bounds. replace ((0 <=? i) && (i <? Z.of_nat (length l))) with true by lia.
  eexists. split; [reflexivity|]. apply nth_In. lia.
Qed.
Lemma aget_byte l i : bytes l -> 0 <= i < Z.of_nat (length l) -> exists x, aget l i = Ok x /\ 0 <= x < 256.
Proof. intros B H. destruct (aget_in l i H) as (x & E & I). exists x. split; [exact E|]. unfold bytes in B. rewrite Forall_forall in B. apply B, I. Qed.
Lemma aslice_in l i n : 0 <= i -> 0 <= n -> i + n <= Z.of_nat (length l) -> aslice l i n = Ok (firstn (Z.to_nat n) (skipn (Z.to_nat i) l)).
Proof. intros A B C. unfold aslice. destruct (n <=? 0) eqn:E; [assert (n = 0) by lia; subst; reflexivity|]. replace ((0 <=? i) && (i + n <=? Z.of_nat (length l))) with true by lia. reflexivity. Qed.
Lemma net16 h l : 0 <= h < 256 -> 0 <= l < 256 -> Z.lor (Z.shiftl h 8) l = 256 * h + l.
Proof. intros A B. rewrite Z.lor_comm, Z.shiftl_mul_pow2 by lia. rewrite lor_disj by lia. lia. Qed.
Lemma get_net16_ok buf p : bytes buf -> 0 <= p -> p + 2 <= Z.of_nat (length buf) -> exists n, get_net16 buf p = Ok n /\ 0 <= n < 65536.
Proof.
  intros B A C. unfold get_net16. destruct (aget_byte buf p B ltac:(lia)) as (h & -> & Hh). destruct (aget_byte buf (p + 1) B ltac:(lia)) as (l & -> & Hl).
  cbn [rbind]. eexists. split; [reflexivity|]. rewrite net16 by lia. lia.
Qed.

Ltac bind_aget B :=
  match goal with |- context [aget ?b ?i] =>
    let x := fresh "x" in let E := fresh "E" in let H := fresh "H" in
    destruct (aget_byte b i B ltac:(lia)) as (x & E & H); rewrite E; cbn [rbind] end.

Lemma check_field_ok v ret buf pl ptr half : bytes buf -> 0 <= ptr -> pl <= Z.of_nat (length buf) ->
  exists x, check_field v ret buf pl ptr half = Ok x /\
    match x with
    | Return r => r = ret \/ r = -1
    | Go (p, h) => ptr <= p <= pl /\ exists ft msg, take_field v buf ptr half = Ok (ft, msg, p, h)
    end.
Proof.
  intros B P L. unfold check_field, take_field. destruct (Z.leb_spec pl ptr) as [C|C]; [eexists; split; [reflexivity|left; reflexivity]|].
  bind_aget B.
  assert (TAIL : forall (present : bool) (ft p1 : Z) (h1 : bool), ptr <= p1 -> p1 <= pl -> exists x,
     (do p <- (if present then if pl <? p1 + 2 then Ok (Return ret) else do n <- get_net16 buf p1 ; Ok (Go (p1 + (n + 1) + 2)) else Ok (Go p1)) ;
      match p with Return r => Ok (Return r) | Go ptr => if pl <? ptr then Ok (Return ret) else Ok (Go (ptr, h1)) end) = Ok x /\
     match x with
     | Return r => r = ret \/ r = -1
     | Go (p, h) => ptr <= p <= pl /\ exists ft' msg, (if present then do n <- get_net16 buf p1 ; do msg <- aslice buf (p1 + 2) (n + 1) ; Ok (ft, msg, p1 + (n + 1) + 2, h1) else Ok (ft, [], p1, h1)) = Ok (ft', msg, p, h)
     end).
  { intros present ft p1 h1 Q1 Q2. destruct present.
    - destruct (Z.ltb_spec pl (p1 + 2)); [eexists; split; [reflexivity|left; reflexivity]|].
      destruct (get_net16_ok buf p1 B ltac:(lia) ltac:(lia)) as (n & -> & Hn). cbn [rbind].
      destruct (Z.ltb_spec pl (p1 + (n + 1) + 2)); [eexists; split; [reflexivity|left; reflexivity]|].
      eexists. split; [reflexivity|]. split; [lia|]. rewrite aslice_in by lia. cbn [rbind]. eexists _, _. reflexivity.
    - cbn [rbind]. destruct (Z.ltb_spec pl p1); [lia|]. eexists. split; [reflexivity|]. split; [lia|]. eexists _, _. reflexivity. }
  destruct (v =? 0).
  - assert (NT : forall y, (T38_FIELD_T4_NON_ECM_SIG_END <? Z.land y 7) = false).
    { intros y. change 7 with (Z.ones 3). rewrite Z.land_ones by lia. unfold T38_FIELD_T4_NON_ECM_SIG_END. lia. }
    destruct half.
    + rewrite NT. cbn [rbind]. apply TAIL; lia.
    + destruct (bit_of x 7); rewrite NT; cbn [rbind].
      * exact (TAIL true (Z.land (Z.shiftr x 4) 7) (ptr + 1) false ltac:(lia) ltac:(lia)).
      * exact (TAIL false (Z.land (Z.shiftr x 4) 7) ptr true ltac:(lia) ltac:(lia)).
  - destruct (bit_of x 6).
    + destruct (Z.ltb_spec pl (ptr + 2)); [eexists; split; [reflexivity|left; reflexivity]|].
      bind_aget B. destruct (_ <? _); [eexists; split; [reflexivity|right; reflexivity]|]. cbn [rbind]. apply TAIL; lia.
    + cbn [rbind]. apply TAIL; lia.
Qed.

Lemma check_fields_ok v ret buf pl n : bytes buf -> pl <= Z.of_nat (length buf) -> forall ptr half, 0 <= ptr ->
  exists x, check_fields v ret buf pl n ptr half = Ok x /\
    match x with
    | Return r => r = ret \/ r = -1
    | Go (p, h) => ptr <= p /\ (p <= Z.max ptr pl) /\ forall dt s, exists s' evs, take_fields v buf dt n ptr half s = Ok (s', evs, p, h) /\ length evs = n /\ Forall (fun e => is_data e = true) evs
    end.
Proof.
  intros B L. induction n as [|n IH]; intros ptr half P; cbn [check_fields take_fields].
  - eexists. split; [reflexivity|]. split; [lia|]. split; [lia|]. intros dt s. eexists _, _. split; [reflexivity|]. split; [reflexivity|constructor].
  - destruct (check_field_ok v ret buf pl ptr half B P L) as (x & -> & X). cbn [rbind]. destruct x as [r|(p & h)]; [eexists; split; [reflexivity|exact X]|].
    destruct X as (Q & ft & msg & T). destruct (IH p h ltac:(lia)) as (y & -> & Y). destruct y as [r|(p2 & h2)]; [eexists; split; [reflexivity|exact Y]|].
    eexists. split; [reflexivity|]. destruct Y as (Y1 & Y2 & Y3). split; [lia|]. split; [lia|]. intros dt s. rewrite T. cbn [rbind].
    destruct (Y3 dt (set_rx s (current_rx_indicator s) dt ft)) as (s' & evs & -> & E1 & E2). cbn [rbind]. eexists _, _. split; [reflexivity|]. split; [cbn; congruence|constructor; auto].
Qed.

(** No packet makes the receiver read outside it; nothing is delivered on an error. *)
Lemma stream_safe s buf : bytes buf ->
  exists s' evs r, t38_core_rx_ifp_stream s buf = Ok (s', evs, r) /\ -1 <= r <= Z.of_nat (length buf) /\ (r <= 0 -> evs = []) /\
    (Forall (fun e => is_data e = true) evs \/ exists i, evs = [EInd i] /\ 0 <= i <= 22).
Proof.
  intros B. unfold t38_core_rx_ifp_stream. set (len := Z.of_nat (length buf)). assert (L0 : 0 <= len) by lia.
  set (ret := match data_transport_protocol s with TCP => 0 | _ => -1 end). assert (R : -1 <= ret <= 0) by (unfold ret; destruct (data_transport_protocol s); lia).
  assert (HD : exists hd, match data_transport_protocol s with
     | TCP_TPKT => if 4 <=? len then do b0 <- aget buf 0 ; do b1 <- aget buf 1 ; if negb (b0 =? 3) then Ok (Return (-1)) else if negb (b1 =? 0) then Ok (Return (-1)) else do pkt_len <- get_net16 buf 2 ; if len <? pkt_len then Ok (Return 0) else Ok (Go (4, pkt_len)) else Ok (Go (0, len))
     | _ => Ok (Go (0, len)) end = Ok hd /\ match hd with Return r => -1 <= r <= 0 | Go (p, pl) => 0 <= p /\ pl <= len end).
  { destruct (data_transport_protocol s); try (eexists; split; [reflexivity|cbn beta iota; lia]).
    destruct (Z.leb_spec 4 len); [|eexists; split; [reflexivity|cbn beta iota; lia]].
    bind_aget B. bind_aget B. destruct (negb _); [eexists; split; [reflexivity|cbn beta iota; lia]|]. destruct (negb _); [eexists; split; [reflexivity|cbn beta iota; lia]|].
    destruct (get_net16_ok buf 2 B ltac:(lia) ltac:(lia)) as (n & -> & Hn). cbn [rbind].
    destruct (Z.ltb_spec len n); eexists; split; try reflexivity; cbn beta iota; lia. }
  destruct HD as (hd & -> & HD). cbn [rbind]. destruct hd as [r|(ptr & pl)].
  { eexists _, _, _. split; [reflexivity|]. split; [lia|]. split; [reflexivity|]. left. constructor. }
  destruct HD as (P & PL).
  assert (STOP : forall (s1 : t38) (r : Z), -1 <= r <= len -> exists (s' : t38) (evs : list rx_event) r', Ok (s1, [], r) = Ok (s', evs, r') /\ -1 <= r' <= len /\ (r' <= 0 -> evs = []) /\
      (Forall (fun e => is_data e = true) evs \/ exists i, evs = [EInd i] /\ 0 <= i <= 22)).
  { intros s1 r Hr. eexists _, _, _. split; [reflexivity|]. split; [lia|]. split; [reflexivity|]. left. constructor. }
  destruct (Z.ltb_spec pl (ptr + 1)); [apply STOP; lia|].
  bind_aget B. destruct (negb (bit_of x 6)).
  - destruct (bit_of x 7); [apply STOP; lia|].
    assert (EX : forall b0 b1, 0 <= ext_code b0 b1).
    { intros b0 b1. unfold ext_code. apply Z.lor_nonneg. split; apply Z.land_nonneg; right; lia. }
    destruct (bit_of x 5).
    + destruct (Z.ltb_spec pl (ptr + 2)); cbn [rbind]; [apply STOP; lia|].
      bind_aget B. destruct (Z.ltb_spec T38_IND_V33_14400_TRAINING (T38_IND_V8_ANSAM + ext_code x x0)) as [HI|HI]; cbn [rbind]; [apply STOP; lia|].
      destruct (Z.ltb_spec pl (ptr + 2)); [lia|]. eexists _, _, _. split; [reflexivity|]. split; [lia|]. split; [lia|]. right. eexists. split; [reflexivity|].
      specialize (EX x x0). unfold T38_IND_V33_14400_TRAINING, T38_IND_V8_ANSAM in *. lia.
    + cbn [rbind]. destruct (Z.ltb_spec pl (ptr + 1)); [lia|]. eexists _, _, _. split; [reflexivity|]. split; [lia|]. split; [lia|]. right. eexists. split; [reflexivity|].
      change 15 with (Z.ones 4). rewrite Z.land_ones by lia. pose proof (Z.mod_pos_bound (Z.shiftr x 1) (2 ^ 4) ltac:(lia)). lia.
  - match goal with |- exists s' evs r, (do r0 <- ?X ; _) = _ /\ _ => assert (DT : exists d, X = Ok d /\ match d with Return r => -1 <= r <= 0 | Go (dt, p) => ptr <= p /\ p <= pl end) end.
    { destruct (bit_of x 5).
      - destruct (Z.ltb_spec pl (ptr + 2)); [eexists; split; [reflexivity|cbn beta iota; lia]|]. bind_aget B. destruct (_ <? _); eexists; split; try reflexivity; cbn beta iota; lia.
      - destruct (_ <? _); eexists; split; try reflexivity; cbn beta iota; lia. }
    destruct DT as (d & -> & DT). cbn [rbind]. destruct d as [r|(dt & p)]; [apply STOP; lia|].
    destruct (negb (bit_of x 7)); [destruct (Z.ltb_spec pl p); apply STOP; lia|].
    destruct (Z.leb_spec pl p); [apply STOP; lia|].
    bind_aget B.
    destruct (check_fields_ok (t38_version s) ret buf pl (Z.to_nat x0) B PL (p + 1) false ltac:(lia)) as (c & -> & C). cbn [rbind].
    destruct c as [r|(q & h)]; [apply STOP; lia|]. destruct C as (C1 & C2 & C3).
    destruct (Z.ltb_spec pl (if h then q + 1 else q)) as [HH|HH]; [apply STOP; lia|].
    destruct (C3 dt s) as (s' & evs & -> & E1 & E2). cbn [rbind].
    destruct (Z.ltb_spec pl (if h then q + 1 else q)); [lia|]. eexists _, _, _. split; [reflexivity|]. split; [destruct h; lia|]. split; [destruct h; lia|]. left. exact E2.
Qed.

(** ---- Reading at a place in a packet ---- *)
Lemma aget_at pre x t i : i = Z.of_nat (length pre) -> aget (pre ++ x :: t) i = Ok x.
Proof.
  intros ->. unfold aget, in_bounds. rewrite app_length. cbn [length].
  replace (_ && _) with true by lia. rewrite Nat2Z.id, app_nth2, Nat.sub_diag by lia. reflexivity.
Qed.
Lemma aget_at1 pre a x t i : i = Z.of_nat (length pre) + 1 -> aget (pre ++ a :: x :: t) i = Ok x.
Proof. intros ->. replace (pre ++ a :: x :: t) with ((pre ++ [a]) ++ x :: t) by (rewrite <- app_assoc; reflexivity). apply aget_at. rewrite app_length. cbn. lia. Qed.
Lemma aslice_at pre m t i n : i = Z.of_nat (length pre) -> n = Z.of_nat (length m) -> aslice (pre ++ m ++ t) i n = Ok m.
Proof.
  intros -> ->. rewrite aslice_in; try lia.
  - rewrite !Nat2Z.id, skipn_app, skipn_all, Nat.sub_diag, app_nil_l, skipn_O, firstn_app, firstn_all, Nat.sub_diag, firstn_O, app_nil_r. reflexivity.
  - rewrite !app_length. lia.
Qed.
Lemma octets16_ok n : 0 <= n < 65536 -> 0 <= n / 256 < 256 /\ 0 <= n mod 256 < 256 /\ Z.lor (Z.shiftl (n / 256) 8) (n mod 256) = n.
Proof. intros H. assert (A : 0 <= n / 256 < 256) by lia. assert (B : 0 <= n mod 256 < 256) by lia. split; [exact A|]. split; [exact B|]. rewrite net16 by assumption. lia. Qed.
Lemma get_net16_at pre n t i : i = Z.of_nat (length pre) -> 0 <= n < 65536 -> get_net16 (pre ++ octets16 n ++ t) i = Ok n.
Proof.
  intros -> H. unfold get_net16, octets16. cbn [app]. rewrite aget_at, aget_at1 by reflexivity. cbn [rbind]. f_equal. apply octets16_ok, H.
Qed.

(** The header of a field *)
Definition hdr (old : bool) (t hd : Z) : list Z :=
  if old then [128 * hd + 16 * t] else if t <=? 7 then [128 * hd + 8 * t] else [128 * hd + 64 + (t - 8) / 4; 64 * ((t - 8) mod 4)].
Lemma wire_field_hdr old t d : wire_field old (t, d) = hdr old t (has_data d) ++ contents d.
Proof. reflexivity. Qed.
Definition hb (d : list Z) : bool := match d with [] => false | _ => true end.

Lemma hdr_new t d : 0 <= t <= 7 -> let b := 128 * has_data d + 8 * t in bit_of b 6 = false /\ bit_of b 7 = hb d /\ Z.land (Z.shiftr b 3) 7 = t.
Proof.
  intros H. assert (E : has_data d = if hb d then 1 else 0) by (destruct d; reflexivity). rewrite E. clear E.
  assert (C : t = 0 \/ t = 1 \/ t = 2 \/ t = 3 \/ t = 4 \/ t = 5 \/ t = 6 \/ t = 7) by lia.
  destruct (hb d); repeat (destruct C as [->|C]; [vm_compute; auto|]); subst t; vm_compute; auto.
Qed.
Lemma hdr_ext t d : 8 <= t <= 11 -> let b := 128 * has_data d + 64 + (t - 8) / 4 in let b1 := 64 * ((t - 8) mod 4) in
  bit_of b 6 = true /\ bit_of b 7 = hb d /\ T38_FIELD_CM_MESSAGE + ext_code b b1 = t.
Proof.
  intros H. assert (E : has_data d = if hb d then 1 else 0) by (destruct d; reflexivity). rewrite E. clear E.
  assert (C : t = 8 \/ t = 9 \/ t = 10 \/ t = 11) by lia.
  destruct (hb d); repeat (destruct C as [->|C]; [vm_compute; auto|]); subst t; vm_compute; auto.
Qed.
Lemma hdr_old t d : 0 <= t <= 7 -> let b := 128 * has_data d + 16 * t in bit_of b 7 = hb d /\ Z.land (Z.shiftr b 4) 7 = t.
Proof.
  intros H. assert (E : has_data d = if hb d then 1 else 0) by (destruct d; reflexivity). rewrite E. clear E.
  assert (C : t = 0 \/ t = 1 \/ t = 2 \/ t = 3 \/ t = 4 \/ t = 5 \/ t = 6 \/ t = 7) by lia.
  destruct (hb d); repeat (destruct C as [->|C]; [vm_compute; auto|]); subst t; vm_compute; auto.
Qed.

Ltac eqz := match goal with
  | |- Ok (Go (?a, _)) = Ok (Go (?b, _)) => apply f_equal, f_equal, f_equal2; [lia|reflexivity]
  | |- Ok (_, _, ?a, _) = Ok (_, _, ?b, _) => apply f_equal, f_equal2; [apply f_equal2; [reflexivity|lia]|reflexivity] end.

(** What is left after the header, in whole and cut short *)
Definition check_tail (ret : Z) (buf : list Z) (pl : Z) (present : bool) (ptr : Z) (half : bool) : res (early (Z * bool)) :=
  do p <-
    (if present then
       if pl <? ptr + 2 then Ok (Return ret)
       else do n <- get_net16 buf ptr ; Ok (Go (ptr + (n + 1) + 2))
     else Ok (Go ptr)) ;
  match p with
  | Return r => Ok (Return r)
  | Go ptr => if pl <? ptr then Ok (Return ret) else Ok (Go (ptr, half))
  end.
Definition take_tail (buf : list Z) (present : bool) (ft ptr : Z) (half : bool) : res (Z * list Z * Z * bool) :=
  if present then
    do n <- get_net16 buf ptr ;
    do msg <- aslice buf (ptr + 2) (n + 1) ;
    Ok (ft, msg, ptr + (n + 1) + 2, half)
  else Ok (ft, [], ptr, half).
Lemma contents_len d : Z.of_nat (length (contents d)) = if hb d then 2 + Z.of_nat (length d) else 0.
Proof. destruct d; [reflexivity|]. cbn [contents hb]. rewrite app_length. cbn [octets16 length]. lia. Qed.

Lemma tail_whole ret pre d rest pl ft half ptr : Z.of_nat (length d) <= 65535 -> ptr = Z.of_nat (length pre) ->
  ptr + Z.of_nat (length (contents d)) <= pl ->
  check_tail ret (pre ++ contents d ++ rest) pl (hb d) ptr half = Ok (Go (ptr + Z.of_nat (length (contents d)), half)) /\
  take_tail (pre ++ contents d ++ rest) (hb d) ft ptr half = Ok (ft, d, ptr + Z.of_nat (length (contents d)), half).
Proof.
  intros H P L. rewrite contents_len in L |- *. unfold check_tail, take_tail. destruct d as [|x d].
  - cbn [hb contents app] in *. cbn [rbind]. destruct (Z.ltb_spec pl ptr); [lia|]. rewrite Z.add_0_r. split; reflexivity.
  - cbn [hb] in *. set (dd := x :: d) in *. assert (LD : 1 <= Z.of_nat (length dd)) by (unfold dd; cbn [length]; lia).
    replace (contents dd) with (octets16 (Z.of_nat (length dd) - 1) ++ dd) by reflexivity. rewrite <- app_assoc.
    destruct (Z.ltb_spec pl (ptr + 2)); [lia|]. rewrite get_net16_at by (auto; lia). cbn [rbind].
    destruct (Z.ltb_spec pl (ptr + (Z.of_nat (length dd) - 1 + 1) + 2)); [lia|].
    rewrite (app_assoc pre). rewrite aslice_at; [|rewrite app_length; cbn [octets16 length]; lia|lia]. cbn [rbind].
    split; eqz.
Qed.
Lemma tail_cut ret pre d k half ptr : Z.of_nat (length d) <= 65535 -> ptr = Z.of_nat (length pre) -> (k < length (contents d))%nat ->
  check_tail ret (pre ++ firstn k (contents d)) (ptr + Z.of_nat k) (hb d) ptr half = Ok (Return ret).
Proof.
  intros H P L. pose proof (contents_len d) as CL. unfold check_tail. destruct d as [|x d]; [cbn in L; lia|].
  cbn [hb] in *. set (dd := x :: d) in *. assert (LD : 1 <= Z.of_nat (length dd)) by (unfold dd; cbn [length]; lia).
  destruct (Z.ltb_spec (ptr + Z.of_nat k) (ptr + 2)) as [C|C]; [reflexivity|].
  replace (contents dd) with (octets16 (Z.of_nat (length dd) - 1) ++ dd) by reflexivity.
  rewrite firstn_app. rewrite (firstn_all2 (octets16 _)) by (cbn [octets16 length]; lia).
  rewrite get_net16_at by (auto; lia). cbn [rbind].
  destruct (Z.ltb_spec (ptr + Z.of_nat k) (ptr + (Z.of_nat (length dd) - 1 + 1) + 2)); [reflexivity|lia].
Qed.

Lemma field_whole v ret pre f rest pl old : old = (v =? 0) -> field_ok old f ->
  Z.of_nat (length pre) + Z.of_nat (length (wire_field old f)) <= pl ->
  let buf := pre ++ wire_field old f ++ rest in
  let ptr := Z.of_nat (length pre) in
  let h := old && negb (hb (snd f)) in
  let q := ptr + Z.of_nat (length (wire_field old f)) - (if h then 1 else 0) in
  check_field v ret buf pl ptr false = Ok (Go (q, h)) /\ take_field v buf ptr false = Ok (fst f, snd f, q, h).
Proof.
  intros V (T & _ & D) L buf ptr h q. destruct f as [t d]. cbn [fst snd] in *. rewrite wire_field_hdr in *. rewrite app_length in L.
  unfold check_field, take_field. rewrite <- V.
  assert (HL : (1 <= length (hdr old t (has_data d)))%nat) by (unfold hdr; destruct old; [|destruct (_ <=? _)]; cbn; lia).
  destruct (Z.leb_spec pl ptr) as [C|C]; [unfold ptr in C; lia|].
  unfold buf, q. rewrite wire_field_hdr, ?app_length. unfold hdr in *. destruct old.
  - destruct (hdr_old t d ltac:(lia)) as (B7 & BT). cbn [app length] in *. rewrite <- ?app_assoc. cbn [app].
    rewrite aget_at by reflexivity. cbn [rbind]. rewrite B7, BT.
    destruct (hb d) eqn:HB.
    + destruct (Z.ltb_spec T38_FIELD_T4_NON_ECM_SIG_END t) as [X|X]; [unfold T38_FIELD_T4_NON_ECM_SIG_END in X; lia|]. cbn [rbind].
      destruct (tail_whole ret (pre ++ [128 * has_data d + 16 * t]) d rest pl t false (ptr + 1) D) as (E1 & E2); [rewrite app_length; cbn [length]; lia|lia|].
      rewrite HB in E1, E2. rewrite <- app_assoc in E1, E2. unfold check_tail in E1. unfold take_tail in E2. cbn [app] in E1, E2. rewrite E1, E2. unfold h. cbn [andb negb]. split; eqz.
    + destruct (Z.ltb_spec T38_FIELD_T4_NON_ECM_SIG_END t) as [X|X]; [unfold T38_FIELD_T4_NON_ECM_SIG_END in X; lia|]. cbn [rbind].
      destruct (Z.ltb_spec pl ptr); [lia|]. unfold h. cbn [andb negb]. destruct d; [|discriminate HB]. cbn [contents length]. split; eqz.
  - unfold h. cbn [andb]. destruct (Z.leb_spec t 7) as [T7|T7].
    + destruct (hdr_new t d ltac:(lia)) as (B6 & B7 & BT). cbn [app length] in *. rewrite <- ?app_assoc. cbn [app].
      rewrite aget_at by reflexivity. cbn [rbind]. rewrite B6, B7, BT. cbn [rbind].
      destruct (tail_whole ret (pre ++ [128 * has_data d + 8 * t]) d rest pl t false (ptr + 1) D) as (E1 & E2); [rewrite app_length; cbn [length]; lia|lia|].
      rewrite <- app_assoc in E1, E2. unfold check_tail in E1. unfold take_tail in E2. cbn [app] in E1, E2. rewrite E1, E2. split; eqz.
    + destruct (hdr_ext t d ltac:(lia)) as (B6 & B7 & BT). cbn [app length] in *. rewrite <- ?app_assoc. cbn [app].
      rewrite aget_at, aget_at1 by reflexivity. cbn [rbind]. rewrite B6, B7, BT.
      destruct (Z.ltb_spec pl (ptr + 2)); [lia|]. destruct (Z.ltb_spec T38_FIELD_V34RATE t) as [X|X]; [unfold T38_FIELD_V34RATE in X; lia|]. cbn [rbind].
      destruct (tail_whole ret (pre ++ [128 * has_data d + 64 + (t - 8) / 4; 64 * ((t - 8) mod 4)]) d rest pl t false (ptr + 2) D) as (E1 & E2); [rewrite app_length; cbn [length]; lia|lia|].
      rewrite <- app_assoc in E1, E2. unfold check_tail in E1. unfold take_tail in E2. cbn [app] in E1, E2. rewrite E1, E2. split; eqz.
Qed.
Lemma field_cut v ret pre f old k : old = (v =? 0) -> field_ok old f -> (k < length (wire_field old f))%nat ->
  check_field v ret (pre ++ firstn k (wire_field old f)) (Z.of_nat (length pre) + Z.of_nat k) (Z.of_nat (length pre)) false = Ok (Return ret).
Proof.
  intros V (T & _ & D) L. destruct f as [t d]. cbn [fst snd] in *. rewrite wire_field_hdr in *. rewrite app_length in L.
  unfold check_field. rewrite <- V. set (ptr := Z.of_nat (length pre)).
  destruct (Z.leb_spec (ptr + Z.of_nat k) ptr) as [C|C]; [reflexivity|]. destruct k as [|k]; [lia|].
  unfold hdr in *. destruct old.
  - destruct (hdr_old t d ltac:(lia)) as (B7 & BT). cbn [app length firstn] in *.
    rewrite aget_at by reflexivity. cbn [rbind]. rewrite B7, BT.
    destruct (hb d) eqn:HB; [|destruct d; [cbn in L; lia|discriminate HB]].
    destruct (Z.ltb_spec T38_FIELD_T4_NON_ECM_SIG_END t) as [X|X]; [unfold T38_FIELD_T4_NON_ECM_SIG_END in X; lia|]. cbn [rbind].
    pose proof (tail_cut ret (pre ++ [128 * has_data d + 16 * t]) d k false (ptr + 1) D ltac:(rewrite app_length; cbn [length]; lia) ltac:(lia)) as E1.
    rewrite HB in E1. rewrite <- app_assoc in E1. unfold check_tail in E1. cbn [app] in E1. replace (ptr + Z.of_nat (S k)) with (ptr + 1 + Z.of_nat k) by lia. exact E1.
  - destruct (Z.leb_spec t 7) as [T7|T7].
    + destruct (hdr_new t d ltac:(lia)) as (B6 & B7 & BT). cbn [app length firstn] in *.
      rewrite aget_at by reflexivity. cbn [rbind]. rewrite B6, B7. cbn [rbind].
      pose proof (tail_cut ret (pre ++ [128 * has_data d + 8 * t]) d k false (ptr + 1) D ltac:(rewrite app_length; cbn [length]; lia) ltac:(lia)) as E1.
      rewrite <- app_assoc in E1. unfold check_tail in E1. cbn [app] in E1. replace (ptr + Z.of_nat (S k)) with (ptr + 1 + Z.of_nat k) by lia. exact E1.
    + destruct (hdr_ext t d ltac:(lia)) as (B6 & B7 & BT). cbn [app length firstn] in *.
      rewrite aget_at by reflexivity. cbn [rbind]. rewrite B6.
      destruct (Z.ltb_spec (ptr + Z.of_nat (S k)) (ptr + 2)); [reflexivity|]. destruct k as [|k]; [lia|]. cbn [firstn].
      rewrite aget_at1 by reflexivity. cbn [rbind]. rewrite B7, BT.
      destruct (Z.ltb_spec T38_FIELD_V34RATE t) as [X|X]; [unfold T38_FIELD_V34RATE in X; lia|]. cbn [rbind].
      pose proof (tail_cut ret (pre ++ [128 * has_data d + 64 + (t - 8) / 4; 64 * ((t - 8) mod 4)]) d k false (ptr + 2) D ltac:(rewrite app_length; cbn [length]; lia) ltac:(lia)) as E1.
      rewrite <- app_assoc in E1. unfold check_tail in E1. cbn [app] in E1. replace (ptr + Z.of_nat (S (S k))) with (ptr + 2 + Z.of_nat k) by lia. exact E1.
Qed.

(** ---- All the fields ---- *)
Definition note (dt : Z) (s : t38) (f : Z * list Z) : t38 := set_rx s (current_rx_indicator s) dt (fst f).
Lemma note_all dt fs : forall s f, fold_left (note dt) (f :: fs) s = set_rx s (current_rx_indicator s) dt (fst (last (f :: fs) (0, []))).
Proof.
  induction fs as [|g fs IH]; intros s f; [reflexivity|]. cbn [fold_left] in *. rewrite IH.
  replace (last (f :: g :: fs) (0, [])) with (last (g :: fs) (0, [])) by reflexivity. reflexivity.
Qed.

Lemma fields_whole v ret old pl dt fs : old = (v =? 0) -> Forall (field_ok old) fs ->
  (old = true -> all_but_last (fun f => snd f <> []) fs) ->
  forall pre rest s, Z.of_nat (length pre) + Z.of_nat (length (wire_fields old fs)) <= pl ->
  exists q h, check_fields v ret (pre ++ wire_fields old fs ++ rest) pl (length fs) (Z.of_nat (length pre)) false = Ok (Go (q, h)) /\
    (if h : bool then q + 1 else q) = Z.of_nat (length pre) + Z.of_nat (length (wire_fields old fs)) /\
    take_fields v (pre ++ wire_fields old fs ++ rest) dt (length fs) (Z.of_nat (length pre)) false s =
      Ok (fold_left (note dt) fs s, map (fun f => EData dt (fst f) (snd f)) fs, q, h).
Proof.
  intros V F. induction F as [|f fs Ff F IH]; intros D pre rest s L.
  - exists (Z.of_nat (length pre)), false. cbn. split; [reflexivity|]. split; [lia|reflexivity].
  - cbn [wire_fields flat_map] in *. fold (wire_fields old fs) in *. rewrite app_length in L |- *. rewrite <- app_assoc.
    destruct (field_whole v ret pre f (wire_fields old fs ++ rest) pl old V Ff ltac:(lia)) as (E1 & E2).
    cbn [length check_fields take_fields map fold_left]. rewrite E1, E2. cbn [rbind].
    destruct (old && negb (hb (snd f))) eqn:H.
    + apply andb_prop in H. destruct H as (-> & H). destruct fs as [|g fs].
      * cbn [check_fields take_fields map fold_left rbind length wire_fields flat_map]. eexists _, _. split; [reflexivity|]. split; [cbn [wire_fields flat_map length]; lia|]. reflexivity.
      * exfalso. destruct (D eq_refl) as (X & _). destruct (snd f); [now apply X|discriminate H].
    + rewrite Z.sub_0_r. replace (Z.of_nat (length pre) + Z.of_nat (length (wire_field old f))) with (Z.of_nat (length (pre ++ wire_field old f))) by (rewrite app_length; lia).
      rewrite app_assoc. destruct (IH ltac:(intros O; specialize (D O); destruct fs; [exact I|apply D]) (pre ++ wire_field old f) rest (note dt s f)) as (q & h & A & B & C).
      { rewrite app_length. lia. }
      exists q, h. split; [exact A|]. split; [rewrite B, app_length; lia|]. change (set_rx s (current_rx_indicator s) dt (fst f)) with (note dt s f). rewrite C. reflexivity.
Qed.
Lemma fields_cut v ret old fs : old = (v =? 0) -> Forall (field_ok old) fs ->
  (old = true -> all_but_last (fun f => snd f <> []) fs) ->
  forall pre k, (k < length (wire_fields old fs))%nat ->
  check_fields v ret (pre ++ firstn k (wire_fields old fs)) (Z.of_nat (length pre) + Z.of_nat k) (length fs) (Z.of_nat (length pre)) false = Ok (Return ret).
Proof.
  intros V F. induction F as [|f fs Ff F IH]; intros D pre k L; [cbn in L; lia|].
  cbn [wire_fields flat_map] in *. fold (wire_fields old fs) in *. rewrite app_length in L. cbn [length check_fields].
  destruct (Nat.lt_ge_cases k (length (wire_field old f))) as [C|C].
  - rewrite firstn_app. replace (k - length (wire_field old f))%nat with O by lia. rewrite firstn_O, app_nil_r. rewrite field_cut by assumption. reflexivity.
  - rewrite firstn_app, (firstn_all2 (wire_field old f)) by lia.
    destruct (field_whole v ret pre f (firstn (k - length (wire_field old f)) (wire_fields old fs)) (Z.of_nat (length pre) + Z.of_nat k) old V Ff ltac:(lia)) as (E1 & _).
    rewrite E1. cbn [rbind]. destruct (old && negb (hb (snd f))) eqn:H.
    + apply andb_prop in H. destruct H as (-> & H). destruct fs as [|g fs]; [cbn in L; lia|].
      exfalso. destruct (D eq_refl) as (X & _). destruct (snd f); [now apply X|discriminate H].
    + rewrite Z.sub_0_r. replace (Z.of_nat (length pre) + Z.of_nat (length (wire_field old f))) with (Z.of_nat (length (pre ++ wire_field old f))) by (rewrite app_length; lia).
      rewrite app_assoc. replace (Z.of_nat (length pre) + Z.of_nat k) with (Z.of_nat (length (pre ++ wire_field old f)) + Z.of_nat (k - length (wire_field old f))) by (rewrite app_length; lia).
      apply IH; [|lia]. intros O; specialize (D O); destruct fs; [exact I|apply D].
Qed.

(** ---- A packet after its transport header ---- *)
Definition stream_body (s : t38) (ret : Z) (buf : list Z) (ptr pkt_len : Z) : res (t38 * list rx_event * Z) :=
  if pkt_len <? ptr + 1 then Ok (s, [], ret)
  else
    do b <- aget buf ptr ;
    if negb (bit_of b 6) then
      if bit_of b 7 then Ok (s, [], -1)
      else
        do r <-
          (if bit_of b 5 then
             if pkt_len <? ptr + 2 then Ok (Return ret)
             else
               do b1 <- aget buf (ptr + 1) ;
               if T38_IND_V33_14400_TRAINING <? T38_IND_V8_ANSAM + ext_code b b1 then Ok (Return (-1)) else Ok (Go (T38_IND_V8_ANSAM + ext_code b b1, ptr + 2))
           else Ok (Go (Z.land (Z.shiftr b 1) 0xF, ptr + 1))) ;
        match r with
        | Return r => Ok (set_rx s (current_rx_indicator s) (-1) (-1), [], r)
        | Go (i, ptr) => Ok (set_rx s i (-1) (-1), [EInd i], if pkt_len <? ptr then ret else ptr)
        end
    else
      do r <-
        (if bit_of b 5 then
           if pkt_len <? ptr + 2 then Ok (Return ret)
           else
             do b1 <- aget buf (ptr + 1) ;
             if T38_DATA_V33_14400 <? T38_DATA_V8 + ext_code b b1 then Ok (Return (-1)) else Ok (Go (T38_DATA_V8 + ext_code b b1, ptr + 2))
         else
           if T38_DATA_V17_14400 <? Z.land (Z.shiftr b 1) 0xF then Ok (Return (-1)) else Ok (Go (Z.land (Z.shiftr b 1) 0xF, ptr + 1))) ;
      match r with
      | Return r => Ok (s, [], r)
      | Go (dt, ptr) =>
          if negb (bit_of b 7) then Ok (s, [], if pkt_len <? ptr then ret else ptr)
          else if pkt_len <=? ptr then Ok (s, [], ret)
          else
            do count <- aget buf ptr ;
            do r <- check_fields (t38_version s) ret buf pkt_len (Z.to_nat count) (ptr + 1) false ;
            match r with
            | Return r => Ok (s, [], r)
            | Go (p, half) =>
                if pkt_len <? (if half : bool then p + 1 else p) then Ok (s, [], ret)
                else
                  do (s, evs, p, half) <- take_fields (t38_version s) buf dt (Z.to_nat count) (ptr + 1) false s ;
                  Ok (s, evs, if pkt_len <? (if half : bool then p + 1 else p) then ret else (if half : bool then p + 1 else p))
            end
      end.
Definition stream_head (s : t38) (buf : list Z) : res (early (Z * Z)) :=
  let len := Z.of_nat (length buf) in
  match data_transport_protocol s with
  | TCP_TPKT =>
      if 4 <=? len then
        do b0 <- aget buf 0 ;
        do b1 <- aget buf 1 ;
        if negb (b0 =? 3) then Ok (Return (-1))
        else if negb (b1 =? 0) then Ok (Return (-1))
        else
          do pkt_len <- get_net16 buf 2 ;
          if len <? pkt_len then Ok (Return 0) else Ok (Go (4, pkt_len))
      else Ok (Go (0, len))
  | _ => Ok (Go (0, len))
  end.
Definition short_ret (s : t38) : Z := match data_transport_protocol s with TCP => 0 | _ => -1 end.
Lemma stream_eq s buf : t38_core_rx_ifp_stream s buf =
  do hd <- stream_head s buf ; match hd with Return r => Ok (s, [], r) | Go (ptr, pl) => stream_body s (short_ret s) buf ptr pl end.
Proof. reflexivity. Qed.

Lemma hdr_ind i : 0 <= i <= 15 -> let b := 0 + 0 + 2 * i in bit_of b 6 = false /\ bit_of b 7 = false /\ bit_of b 5 = false /\ Z.land (Z.shiftr b 1) 15 = i.
Proof.
  intros H.
  assert (C : i = 0 \/ i = 1 \/ i = 2 \/ i = 3 \/ i = 4 \/ i = 5 \/ i = 6 \/ i = 7 \/ i = 8 \/ i = 9 \/ i = 10 \/ i = 11 \/ i = 12 \/ i = 13 \/ i = 14 \/ i = 15) by lia.
  repeat (destruct C as [->|C]; [vm_compute; auto|]); subst i; vm_compute; auto.
Qed.
Lemma hdr_ind_ext i : 16 <= i <= 22 -> let b := 0 + 0 + 32 + (i - 15 - 1) / 4 in let b1 := 64 * ((i - 15 - 1) mod 4) in
  bit_of b 6 = false /\ bit_of b 7 = false /\ bit_of b 5 = true /\ T38_IND_V8_ANSAM + ext_code b b1 = i.
Proof.
  intros H. assert (C : i = 16 \/ i = 17 \/ i = 18 \/ i = 19 \/ i = 20 \/ i = 21 \/ i = 22) by lia.
  repeat (destruct C as [->|C]; [vm_compute; auto|]); subst i; vm_compute; auto.
Qed.
Lemma hdr_dt (y : bool) t : 0 <= t <= 8 -> let b := (if y then 128 else 0) + 64 + 2 * t in bit_of b 6 = true /\ bit_of b 7 = y /\ bit_of b 5 = false /\ Z.land (Z.shiftr b 1) 15 = t.
Proof.
  intros H. assert (C : t = 0 \/ t = 1 \/ t = 2 \/ t = 3 \/ t = 4 \/ t = 5 \/ t = 6 \/ t = 7 \/ t = 8) by lia.
  destruct y; repeat (destruct C as [->|C]; [vm_compute; auto|]); subst t; vm_compute; auto.
Qed.
Lemma hdr_dt_ext (y : bool) t : 9 <= t <= 14 -> let b := (if y then 128 else 0) + 64 + 32 + (t - 8 - 1) / 4 in let b1 := 64 * ((t - 8 - 1) mod 4) in
  bit_of b 6 = true /\ bit_of b 7 = y /\ bit_of b 5 = true /\ T38_DATA_V8 + ext_code b b1 = t.
Proof.
  intros H. assert (C : t = 9 \/ t = 10 \/ t = 11 \/ t = 12 \/ t = 13 \/ t = 14) by lia.
  destruct y; repeat (destruct C as [->|C]; [vm_compute; auto|]); subst t; vm_compute; auto.
Qed.
Lemma heard_ind s i j : set_rx (set_rx s j (-1) (-1)) i (-1) (-1) = set_rx s i (-1) (-1).
Proof. reflexivity. Qed.

Lemma body_whole s ret pre m rest pl : msg_ok (old_version s) m -> decodable (old_version s) m ->
  Z.of_nat (length pre) + Z.of_nat (length (body (old_version s) m)) <= pl ->
  stream_body s ret (pre ++ body (old_version s) m ++ rest) (Z.of_nat (length pre)) pl =
    Ok (heard s m, events m, Z.of_nat (length pre) + Z.of_nat (length (body (old_version s) m))).
Proof.
  intros M D L. set (ptr := Z.of_nat (length pre)). unfold stream_body. destruct m as [i|dt fs].
  - cbn [msg_ok body] in *. unfold wire_type in *. destruct (Z.leb_spec i 15) as [C|C].
    + destruct (hdr_ind i ltac:(lia)) as (B6 & B7 & B5 & BT). cbn [length app] in *.
      destruct (Z.ltb_spec pl (ptr + 1)); [lia|]. rewrite aget_at by reflexivity. cbn [rbind]. rewrite B6, B7, B5, BT. cbn [negb rbind].
      destruct (Z.ltb_spec pl (ptr + 1)); [lia|]. reflexivity.
    + assert (i <= 22) by (destruct (old_version s); lia). destruct (hdr_ind_ext i ltac:(lia)) as (B6 & B7 & B5 & BT). cbn [length app] in *.
      destruct (Z.ltb_spec pl (ptr + 1)); [lia|]. rewrite aget_at, aget_at1 by reflexivity. cbn [rbind]. rewrite B6, B7, B5, BT. cbn [negb rbind].
      destruct (Z.ltb_spec pl (ptr + 2)) as [X|X]; [lia|]. destruct (Z.ltb_spec T38_IND_V33_14400_TRAINING i) as [Y|Y]; [unfold T38_IND_V33_14400_TRAINING in Y; lia|].
      cbn [rbind]. destruct (Z.ltb_spec pl (ptr + 2)); [lia|]. reflexivity.
  - destruct M as (DT & N & F).
    assert (TYPE : forall (y : bool) tl, let w := wire_type (if y then 128 else 0) 64 8 dt in ptr + Z.of_nat (length w) <= pl ->
       (1 <= length w)%nat /\ exists b, nth 0 w 0 = b /\ aget (pre ++ w ++ tl) ptr = Ok b /\ bit_of b 6 = true /\ bit_of b 7 = y /\
       (if bit_of b 5 then
           if pl <? ptr + 2 then Ok (Return ret)
           else
             do b1 <- aget (pre ++ w ++ tl) (ptr + 1) ;
             if T38_DATA_V33_14400 <? T38_DATA_V8 + ext_code b b1 then Ok (Return (-1)) else Ok (Go (T38_DATA_V8 + ext_code b b1, ptr + 2))
         else
           if T38_DATA_V17_14400 <? Z.land (Z.shiftr b 1) 0xF then Ok (Return (-1)) else Ok (Go (Z.land (Z.shiftr b 1) 0xF, ptr + 1))) = Ok (Go (dt, ptr + Z.of_nat (length w)))).
    { intros y tl w. unfold w, wire_type. destruct (Z.leb_spec dt 8) as [C|C]; cbn [length app]; intros LL; (split; [lia|]).
      - destruct (hdr_dt y dt ltac:(lia)) as (B6 & B7 & B5 & BT). eexists. split; [reflexivity|]. split; [rewrite aget_at by reflexivity; reflexivity|].
        cbn [nth]. rewrite B6, B7, B5, BT. split; [reflexivity|]. split; [reflexivity|]. destruct (Z.ltb_spec T38_DATA_V17_14400 dt) as [Y|Y]; [unfold T38_DATA_V17_14400 in Y; lia|]. reflexivity.
      - assert (dt <= 14) by (destruct (old_version s); lia). destruct (hdr_dt_ext y dt ltac:(lia)) as (B6 & B7 & B5 & BT).
        eexists. split; [reflexivity|]. split; [rewrite aget_at by reflexivity; reflexivity|]. cbn [nth]. rewrite B6, B7, B5. split; [reflexivity|]. split; [reflexivity|].
        destruct (Z.ltb_spec pl (ptr + 2)) as [X|X]; [lia|]. rewrite aget_at1 by reflexivity. cbn [rbind]. rewrite BT.
        destruct (Z.ltb_spec T38_DATA_V33_14400 dt) as [Y|Y]; [unfold T38_DATA_V33_14400 in Y; lia|]. reflexivity. }
    destruct fs as [|f fs].
    + cbn [body] in *. destruct (TYPE false rest ltac:(exact L)) as (W & b & _ & E0 & B6 & B7 & E).
      change (if false then 128 else 0) with 0 in *. destruct (Z.ltb_spec pl (ptr + 1)); [lia|]. rewrite E0. cbn [rbind]. rewrite B6. cbn [negb]. rewrite E. cbn [rbind]. rewrite B7. cbn [negb]. destruct (Z.ltb_spec pl (ptr + Z.of_nat (length (wire_type 0 64 8 dt)))); [lia|]. reflexivity.
    + set (ffs := f :: fs) in *. assert (NE : ffs <> []) by discriminate. assert (BD : body (old_version s) (MData dt ffs) = wire_type 128 64 8 dt ++ Z.of_nat (length ffs) :: wire_fields (old_version s) ffs) by reflexivity.
      rewrite BD in *. set (w := wire_type 128 64 8 dt) in *. rewrite app_length in L |- *. cbn [length] in L |- *.
      rewrite <- app_assoc. destruct (TYPE true ((Z.of_nat (length ffs) :: wire_fields (old_version s) ffs) ++ rest) ltac:(unfold w in *; lia)) as (W & b & _ & E0 & B6 & B7 & E).
      change (if true then 128 else 0) with 128 in *. fold w in W, E0, E. destruct (Z.ltb_spec pl (ptr + 1)); [lia|]. rewrite E0. cbn [rbind]. rewrite B6. cbn [negb]. rewrite E. cbn [rbind]. rewrite B7. cbn [negb].
      destruct (Z.leb_spec pl (ptr + Z.of_nat (length w))); [lia|].
      rewrite (app_assoc pre). cbn [app]. rewrite aget_at by (rewrite app_length; lia). cbn [rbind]. rewrite Nat2Z.id.
      replace ((pre ++ w) ++ Z.of_nat (length ffs) :: wire_fields (old_version s) ffs ++ rest) with (((pre ++ w) ++ [Z.of_nat (length ffs)]) ++ wire_fields (old_version s) ffs ++ rest) by (rewrite <- app_assoc; reflexivity).
      assert (PL : Z.of_nat (length ((pre ++ w) ++ [Z.of_nat (length ffs)])) = ptr + Z.of_nat (length w) + 1) by (rewrite !app_length; cbn [length]; unfold ptr; lia).
      destruct (fields_whole (t38_version s) ret (old_version s) pl dt ffs eq_refl F D ((pre ++ w) ++ [Z.of_nat (length ffs)]) rest s ltac:(rewrite PL; lia)) as (q & h & A & B & C).
      rewrite PL in A, B, C. rewrite A. cbn [rbind]. rewrite B. destruct (Z.ltb_spec pl (ptr + Z.of_nat (length w) + 1 + Z.of_nat (length (wire_fields (old_version s) ffs)))); [lia|].
      rewrite C. cbn [rbind]. rewrite B. destruct (Z.ltb_spec pl (ptr + Z.of_nat (length w) + 1 + Z.of_nat (length (wire_fields (old_version s) ffs)))); [lia|].
      unfold heard, events, ffs. rewrite note_all. apply f_equal, f_equal2; [reflexivity|]. lia.
Qed.

Lemma stream_whole s m rest : msg_ok (old_version s) m -> decodable (old_version s) m ->
  let w := wire (data_transport_protocol s) (old_version s) m in
  (data_transport_protocol s = TCP_TPKT -> Z.of_nat (length w) <= 65535) ->
  t38_core_rx_ifp_stream s (w ++ rest) = Ok (heard s m, events m, Z.of_nat (length w)).
Proof.
  intros M D w T. rewrite stream_eq. unfold stream_head. unfold wire in w.
  assert (PLAIN : w = body (old_version s) m -> stream_body s (short_ret s) (w ++ rest) 0 (Z.of_nat (length (w ++ rest))) = Ok (heard s m, events m, Z.of_nat (length w))).
  { intros ->. pose proof (body_whole s (short_ret s) [] m rest (Z.of_nat (length (body (old_version s) m ++ rest))) M D ltac:(rewrite app_length; cbn [length]; lia)) as E. exact E. }
  destruct (data_transport_protocol s); try (cbn [rbind]; apply PLAIN; reflexivity).
  specialize (T eq_refl). clear PLAIN. set (bd := body (old_version s) m) in *. set (n := Z.of_nat (length bd) + 4) in *.
  assert (LW : Z.of_nat (length w) = n) by (unfold w; rewrite !app_length; cbn [length octets16]; unfold n; lia).
  destruct (Z.leb_spec 4 (Z.of_nat (length (w ++ rest)))) as [C|C]; [|rewrite app_length in C; lia].
  replace (aget (w ++ rest) 0) with (Ok 3 : res Z) by (symmetry; apply (aget_at []); reflexivity).
  replace (aget (w ++ rest) 1) with (Ok 0 : res Z) by (symmetry; apply (aget_at1 [] 3); reflexivity).
  cbn [rbind Z.eqb negb]. change (negb (3 =? 3)) with false. change (negb (0 =? 0)) with false.
  replace (get_net16 (w ++ rest) 2) with (Ok n : res Z) by (symmetry; apply (get_net16_at [3; 0] n (bd ++ rest) 2 eq_refl); lia).
  cbn [rbind]. destruct (Z.ltb_spec (Z.of_nat (length (w ++ rest))) n) as [X|X]; [rewrite app_length in X; lia|]. cbn [rbind].
  assert (PRE : length ([3; 0] ++ octets16 n) = 4%nat) by reflexivity.
  pose proof (body_whole s (short_ret s) ([3; 0] ++ octets16 n) m rest n M D ltac:(rewrite PRE; fold bd; lia)) as E.
  rewrite PRE in E. fold bd in E. replace (Z.of_nat 4 + Z.of_nat (length bd)) with (Z.of_nat (length w)) in E by lia. exact E.
Qed.

(** ---- Packets cut short ---- *)
Lemma body_cut s ret pre m k : msg_ok (old_version s) m -> decodable (old_version s) m -> (k < length (body (old_version s) m))%nat ->
  exists s', stream_body s ret (pre ++ firstn k (body (old_version s) m)) (Z.of_nat (length pre)) (Z.of_nat (length pre) + Z.of_nat k) = Ok (s', [], ret) /\ untouched s s'.
Proof.
  intros M D L. set (ptr := Z.of_nat (length pre)). unfold stream_body. destruct (Z.ltb_spec (ptr + Z.of_nat k) (ptr + 1)) as [K0|K0].
  { eexists. split; [reflexivity|left; reflexivity]. }
  destruct k as [|k]; [lia|]. destruct m as [i|dt fs].
  - cbn [msg_ok body] in *. unfold wire_type in *. destruct (Z.leb_spec i 15) as [C|C]; [cbn [length] in L; lia|].
    assert (i <= 22) by (destruct (old_version s); lia). destruct (hdr_ind_ext i ltac:(lia)) as (B6 & B7 & B5 & BT). cbn [length app firstn] in *.
    destruct k as [|k]; [|lia]. cbn [firstn]. rewrite aget_at by reflexivity. cbn [rbind]. rewrite B6, B7, B5. cbn [negb].
    destruct (Z.ltb_spec (ptr + Z.of_nat 1) (ptr + 2)); [|lia]. cbn [rbind]. eexists. split; [reflexivity|right; reflexivity].
  - destruct M as (DT & N & F).
    assert (TYPE : forall (y : bool) tl pl, let w := wire_type (if y then 128 else 0) 64 8 dt in
       exists b, (forall t, aget (pre ++ firstn (S t) (w ++ tl)) ptr = Ok b) /\ bit_of b 6 = true /\ bit_of b 7 = y /\
       (forall t, pl = ptr + Z.of_nat (S t) -> (if bit_of b 5 then
           if pl <? ptr + 2 then Ok (Return ret)
           else
             do b1 <- aget (pre ++ firstn (S t) (w ++ tl)) (ptr + 1) ;
             if T38_DATA_V33_14400 <? T38_DATA_V8 + ext_code b b1 then Ok (Return (-1)) else Ok (Go (T38_DATA_V8 + ext_code b b1, ptr + 2))
         else
           if T38_DATA_V17_14400 <? Z.land (Z.shiftr b 1) 0xF then Ok (Return (-1)) else Ok (Go (Z.land (Z.shiftr b 1) 0xF, ptr + 1))) =
         if (S t <? length w)%nat then Ok (Return ret) else Ok (Go (dt, ptr + Z.of_nat (length w))))).
    { intros y tl pl w. unfold w, wire_type. destruct (Z.leb_spec dt 8) as [C|C]; cbn [length app].
      - destruct (hdr_dt y dt ltac:(lia)) as (B6 & B7 & B5 & BT). eexists. split; [intros t; cbn [firstn]; apply aget_at; reflexivity|].
        rewrite B6, B7, B5, BT. split; [reflexivity|]. split; [reflexivity|]. intros t _. destruct (Z.ltb_spec T38_DATA_V17_14400 dt) as [Y|Y]; [unfold T38_DATA_V17_14400 in Y; lia|]. reflexivity.
      - assert (dt <= 14) by (destruct (old_version s); lia). destruct (hdr_dt_ext y dt ltac:(lia)) as (B6 & B7 & B5 & BT).
        eexists. split; [intros t; cbn [firstn]; apply aget_at; reflexivity|]. rewrite B6, B7, B5. split; [reflexivity|]. split; [reflexivity|]. intros t ->.
        destruct t as [|t].
        + destruct (Z.ltb_spec (ptr + Z.of_nat 1) (ptr + 2)); [reflexivity|lia].
        + destruct (Z.ltb_spec (ptr + Z.of_nat (S (S t))) (ptr + 2)); [lia|]. cbn [firstn]. rewrite aget_at1 by reflexivity. cbn [rbind]. rewrite BT.
          destruct (Z.ltb_spec T38_DATA_V33_14400 dt) as [Y|Y]; [unfold T38_DATA_V33_14400 in Y; lia|]. reflexivity. }
    destruct fs as [|f fs].
    + cbn [body] in *. destruct (TYPE false [] (ptr + Z.of_nat (S k))) as (b & E0 & B6 & B7 & E). rewrite app_nil_r in E0, E.
      change (if false then 128 else 0) with 0 in *. rewrite E0. cbn [rbind]. rewrite B6. cbn [negb]. rewrite (E k eq_refl).
      destruct (Nat.ltb_spec (S k) (length (wire_type 0 64 8 dt))); [|lia]. cbn [rbind]. eexists. split; [reflexivity|left; reflexivity].
    + set (ffs := f :: fs) in *. assert (BD : body (old_version s) (MData dt ffs) = wire_type 128 64 8 dt ++ Z.of_nat (length ffs) :: wire_fields (old_version s) ffs) by reflexivity.
      rewrite BD in *. set (w := wire_type 128 64 8 dt) in *. rewrite app_length in L. cbn [length] in L.
      destruct (TYPE true (Z.of_nat (length ffs) :: wire_fields (old_version s) ffs) (ptr + Z.of_nat (S k))) as (b & E0 & B6 & B7 & E).
      change (if true then 128 else 0) with 128 in *. fold w in E0, E. rewrite E0. cbn [rbind]. rewrite B6. cbn [negb]. rewrite (E k eq_refl).
      destruct (Nat.ltb_spec (S k) (length w)) as [C|C]; cbn [rbind]; [eexists; split; [reflexivity|left; reflexivity]|]. rewrite B7. cbn [negb].
      destruct (Z.leb_spec (ptr + Z.of_nat (S k)) (ptr + Z.of_nat (length w))) as [X|X]; [eexists; split; [reflexivity|left; reflexivity]|].
      rewrite firstn_app, (firstn_all2 w) by lia. remember (S k - length w)%nat as j eqn:J. destruct j as [|j]; [lia|]. cbn [firstn].
      rewrite (app_assoc pre). rewrite aget_at by (rewrite app_length; lia). cbn [rbind]. rewrite Nat2Z.id.
      replace ((pre ++ w) ++ Z.of_nat (length ffs) :: firstn j (wire_fields (old_version s) ffs)) with (((pre ++ w) ++ [Z.of_nat (length ffs)]) ++ firstn j (wire_fields (old_version s) ffs)) by (rewrite <- app_assoc; reflexivity).
      assert (PL : Z.of_nat (length ((pre ++ w) ++ [Z.of_nat (length ffs)])) = ptr + Z.of_nat (length w) + 1) by (rewrite !app_length; cbn [length]; unfold ptr; lia).
      pose proof (fields_cut (t38_version s) ret (old_version s) ffs eq_refl F D ((pre ++ w) ++ [Z.of_nat (length ffs)]) j ltac:(lia)) as A.
      rewrite PL in A. replace (ptr + Z.of_nat (length w) + 1 + Z.of_nat j) with (ptr + Z.of_nat (S k)) in A by lia. rewrite A. cbn [rbind]. eexists. split; [reflexivity|left; reflexivity].
Qed.
Lemma stream_cut s m k : msg_ok (old_version s) m -> decodable (old_version s) m ->
  let w := wire (data_transport_protocol s) (old_version s) m in
  (k < length w)%nat -> (data_transport_protocol s = TCP_TPKT -> Z.of_nat (length w) <= 65535 /\ (4 <= k)%nat) ->
  exists s', t38_core_rx_ifp_stream s (firstn k w) = Ok (s', [], match data_transport_protocol s with UDPTL | RTP => -1 | _ => 0 end) /\ untouched s s'.
Proof.
  intros M D w K T. rewrite stream_eq. unfold stream_head, short_ret. unfold wire in w.
  assert (LF : length (firstn k w) = k) by (rewrite firstn_length; lia).
  assert (PLAIN : forall ret, w = body (old_version s) m -> exists s', stream_body s ret (firstn k w) 0 (Z.of_nat (length (firstn k w))) = Ok (s', [], ret) /\ untouched s s').
  { intros ret E. rewrite LF. rewrite E in *. destruct (body_cut s ret [] m k M D K) as (s' & X & Y). exists s'. split; [exact X|exact Y]. }
  destruct (data_transport_protocol s); try (cbn [rbind]; apply PLAIN; reflexivity).
  destruct (T eq_refl) as (T1 & T2). clear PLAIN T. set (bd := body (old_version s) m) in *. set (n := Z.of_nat (length bd) + 4) in *.
  assert (LW : Z.of_nat (length w) = n) by (unfold w; rewrite !app_length; cbn [length octets16]; unfold n; lia).
  rewrite LF. destruct (Z.leb_spec 4 (Z.of_nat k)) as [C|C]; [|lia].
  do 4 (destruct k as [|k]; [lia|]).
  assert (W : firstn (S (S (S (S k)))) w = [3; 0] ++ octets16 n ++ firstn k bd) by reflexivity. rewrite W.
  replace (aget _ 0) with (Ok 3 : res Z) by (symmetry; apply (aget_at []); reflexivity).
  replace (aget _ 1) with (Ok 0 : res Z) by (symmetry; apply (aget_at1 [] 3); reflexivity).
  cbn [rbind]. change (negb (3 =? 3)) with false. change (negb (0 =? 0)) with false.
  replace (get_net16 _ 2) with (Ok n : res Z) by (symmetry; apply (get_net16_at [3; 0] n (firstn k bd) 2 eq_refl); lia).
  cbn [rbind]. destruct (Z.ltb_spec (Z.of_nat (S (S (S (S k))))) n) as [X|X]; [|lia]. cbn [rbind]. exists s. split; [reflexivity|left; reflexivity].
Qed.

(** ---- The encoders ---- *)
Lemma put8_ok cap out b : put8 cap out b = if Z.of_nat (length (out ++ [u8 b])) <=? cap then Ok (out ++ [u8 b]) else UB.
Proof. unfold put8. rewrite app_length. cbn [length]. destruct (Z.ltb_spec (Z.of_nat (length out)) cap), (Z.leb_spec (Z.of_nat (length out + 1)) cap); try lia; reflexivity. Qed.
Lemma put16_ok cap out x : 0 <= x < 65536 -> put16 cap out x = if Z.of_nat (length (out ++ octets16 x)) <=? cap then Ok (out ++ octets16 x) else UB.
Proof.
  intros H. unfold put16. rewrite put8_ok. unfold octets16. rewrite !app_length. cbn [length].
  replace (u8 (Z.shiftr x 8)) with (x / 256) by (rewrite Z.shiftr_div_pow2 by lia; unfold u8; change (2 ^ 8) with 256; lia).
  destruct (Z.leb_spec (Z.of_nat (length out + 1)) cap).
  - cbn [rbind]. rewrite put8_ok, !app_length. cbn [length]. replace (u8 x) with (x mod 256) by reflexivity. rewrite <- app_assoc. cbn [app].
    destruct (Z.leb_spec (Z.of_nat (length out + 1 + 1)) cap), (Z.leb_spec (Z.of_nat (length out + 2)) cap); try lia; reflexivity.
  - cbn [rbind]. destruct (Z.leb_spec (Z.of_nat (length out + 2)) cap); [lia|]. reflexivity.
Qed.
Lemma putn_ok cap out l : putn cap out l = if Z.of_nat (length (out ++ l)) <=? cap then Ok (out ++ l) else UB.
Proof. unfold putn. rewrite app_length, Nat2Z.inj_add. reflexivity. Qed.

Lemma enc_old t d : 0 <= t <= 7 -> u8 (Z.lor (Z.shiftl (has_data d) 7) (Z.shiftl t 4)) = 128 * has_data d + 16 * t.
Proof.
  intros H. assert (E : has_data d = if hb d then 1 else 0) by (destruct d; reflexivity). rewrite E. clear E.
  assert (C : t = 0 \/ t = 1 \/ t = 2 \/ t = 3 \/ t = 4 \/ t = 5 \/ t = 6 \/ t = 7) by lia.
  destruct (hb d); repeat (destruct C as [->|C]; [reflexivity|]); subst t; reflexivity.
Qed.
Lemma enc_new t d : 0 <= t <= 7 -> u8 (Z.lor (Z.shiftl (has_data d) 7) (Z.shiftl t 3)) = 128 * has_data d + 8 * t.
Proof.
  intros H. assert (E : has_data d = if hb d then 1 else 0) by (destruct d; reflexivity). rewrite E. clear E.
  assert (C : t = 0 \/ t = 1 \/ t = 2 \/ t = 3 \/ t = 4 \/ t = 5 \/ t = 6 \/ t = 7) by lia.
  destruct (hb d); repeat (destruct C as [->|C]; [reflexivity|]); subst t; reflexivity.
Qed.
Lemma enc_ext t d : 8 <= t <= 11 -> u8 (Z.lor (Z.lor (Z.shiftl (has_data d) 7) 0x40) (Z.shiftr (t - 8) 2)) = 128 * has_data d + 64 + (t - 8) / 4 /\
  u8 (Z.land (Z.shiftl (t - 8) 6) 0xC0) = 64 * ((t - 8) mod 4).
Proof.
  intros H. assert (E : has_data d = if hb d then 1 else 0) by (destruct d; reflexivity). rewrite E. clear E.
  assert (C : t = 8 \/ t = 9 \/ t = 10 \/ t = 11) by lia.
  destruct (hb d); repeat (destruct C as [->|C]; [split; reflexivity|]); subst t; split; reflexivity.
Qed.

Lemma encode_field_ok v out f : field_ok (v =? 0) f ->
  encode_field v out {| field_type := fst f; field_data := snd f |} =
    if Z.of_nat (length (out ++ wire_field (v =? 0) f)) <=? 1000 then Ok (Some (out ++ wire_field (v =? 0) f)) else UB.
Proof.
  intros (T & B & N). destruct f as [t d]. cbn [fst snd] in *. unfold encode_field. cbn [field_type field_data].
  destruct (Z.ltb_spec t 0); [lia|]. rewrite wire_field_hdr.
  replace (if 0 <? Z.of_nat (length d) then 1 else 0) with (has_data d) by (destruct d; reflexivity).
  match goal with |- (do o <- ?X ; _) = _ => assert (HH : X = if Z.of_nat (length (out ++ hdr (v =? 0) t (has_data d))) <=? 1000 then Ok (Some (out ++ hdr (v =? 0) t (has_data d))) else UB) end.
  { unfold hdr. destruct (v =? 0).
    - destruct (Z.ltb_spec T38_FIELD_T4_NON_ECM_SIG_END t) as [X|X]; [unfold T38_FIELD_T4_NON_ECM_SIG_END in X; lia|].
      rewrite put8_ok, enc_old by lia. destruct (_ <=? 1000); reflexivity.
    - change T38_FIELD_T4_NON_ECM_SIG_END with 7. destruct (Z.leb_spec t 7).
      + rewrite put8_ok, enc_new by lia. destruct (_ <=? 1000); reflexivity.
      + change T38_FIELD_V34RATE with 11. destruct (Z.leb_spec t 11); [|lia]. change T38_FIELD_CM_MESSAGE with 8.
        destruct (enc_ext t d ltac:(lia)) as (E1 & E2). rewrite put8_ok, E1. rewrite !app_length. cbn [length].
        destruct (Z.leb_spec (Z.of_nat (length out + 1)) 1000); cbn [rbind].
        * rewrite put8_ok, E2, !app_length, <- app_assoc. cbn [length app]. destruct (Z.leb_spec (Z.of_nat (length out + 1 + 1)) 1000), (Z.leb_spec (Z.of_nat (length out + 2)) 1000); try lia; reflexivity.
        * destruct (Z.leb_spec (Z.of_nat (length out + 2)) 1000); [lia|reflexivity]. }
  rewrite HH. clear HH. set (h := hdr (v =? 0) t (has_data d)). rewrite !app_length.
  destruct d as [|x d].
  - cbn [contents length app]. rewrite Nat.add_0_r, app_nil_r. destruct (_ <=? 1000); cbn [rbind]; reflexivity.
  - set (dd := x :: d) in *. assert (LD : 1 <= Z.of_nat (length dd)) by (unfold dd; cbn [length]; lia).
    replace (contents dd) with (octets16 (Z.of_nat (length dd) - 1) ++ dd) by reflexivity. rewrite app_length. cbn [octets16 length].
    destruct (Z.leb_spec (Z.of_nat (length out + length h)) 1000) as [A|A]; cbn [rbind].
    + destruct (Z.ltb_spec 0 (Z.of_nat (length dd))); [|lia]. destruct (Z.ltb_spec (Z.of_nat (length dd)) 1); [lia|]. destruct (Z.ltb_spec 65535 (Z.of_nat (length dd))); [lia|]. cbn [orb].
      rewrite put16_ok by lia. rewrite !app_length. cbn [octets16 length]. destruct (Z.leb_spec (Z.of_nat (length out + length h + 2)) 1000); cbn [rbind].
      * rewrite putn_ok, !app_length. cbn [octets16 length]. destruct (Z.leb_spec (Z.of_nat (length out + length h + 2 + length dd)) 1000), (Z.leb_spec (Z.of_nat (length out + (length h + (2 + length dd)))) 1000); try lia; cbn [rbind].
        -- rewrite <- !app_assoc. reflexivity.
        -- reflexivity.
      * destruct (Z.leb_spec (Z.of_nat (length out + (length h + (2 + length dd)))) 1000); [lia|reflexivity].
    + destruct (Z.leb_spec (Z.of_nat (length out + (length h + (2 + length dd)))) 1000); [lia|reflexivity].
Qed.
Lemma encode_fields_ok v fs : Forall (field_ok (v =? 0)) fs -> forall out, Z.of_nat (length out) <= 1000 ->
  encode_fields v out (fields_of fs) =
    if Z.of_nat (length (out ++ wire_fields (v =? 0) fs)) <=? 1000 then Ok (Some (out ++ wire_fields (v =? 0) fs)) else UB.
Proof.
  induction 1 as [|f fs F _ IH]; intros out L.
  - cbn [fields_of map encode_fields wire_fields flat_map]. rewrite app_nil_r. destruct (Z.leb_spec (Z.of_nat (length out)) 1000); [reflexivity|lia].
  - cbn [fields_of map encode_fields wire_fields flat_map]. fold (fields_of fs) (wire_fields (v =? 0) fs). rewrite encode_field_ok by exact F.
    destruct (Z.leb_spec (Z.of_nat (length (out ++ wire_field (v =? 0) f))) 1000) as [A|A]; cbn [rbind].
    + rewrite IH by exact A. rewrite <- app_assoc. reflexivity.
    + rewrite app_length in A. rewrite !app_length. destruct (Z.leb_spec (Z.of_nat (length out + (length (wire_field (v =? 0) f) + length (wire_fields (v =? 0) fs)))) 1000); [lia|reflexivity].
Qed.

Lemma enc_ind i : 0 <= i <= 15 -> u8 (u8 (Z.shiftl i 1)) = 0 + 0 + 2 * i.
Proof.
  intros H.
  assert (C : i = 0 \/ i = 1 \/ i = 2 \/ i = 3 \/ i = 4 \/ i = 5 \/ i = 6 \/ i = 7 \/ i = 8 \/ i = 9 \/ i = 10 \/ i = 11 \/ i = 12 \/ i = 13 \/ i = 14 \/ i = 15) by lia.
  repeat (destruct C as [->|C]; [reflexivity|]); subst i; reflexivity.
Qed.
Lemma enc_ind_ext i : 16 <= i <= 22 -> 0 <= Z.lor 0x2000 (Z.shiftl (i - 16) 6) < 65536 /\ octets16 (Z.lor 0x2000 (Z.shiftl (i - 16) 6)) = [0 + 0 + 32 + (i - 15 - 1) / 4; 64 * ((i - 15 - 1) mod 4)].
Proof.
  intros H. assert (C : i = 16 \/ i = 17 \/ i = 18 \/ i = 19 \/ i = 20 \/ i = 21 \/ i = 22) by lia.
  repeat (destruct C as [->|C]; [split; [vm_compute; intuition discriminate|reflexivity]|]); subst i; split; [vm_compute; intuition discriminate|reflexivity].
Qed.
Lemma enc_dt (y : bool) t : 0 <= t <= 8 -> u8 (Z.lor (Z.lor (if y then 128 else 0) 0x40) (Z.shiftl t 1)) = (if y then 128 else 0) + 64 + 2 * t.
Proof.
  intros H. assert (C : t = 0 \/ t = 1 \/ t = 2 \/ t = 3 \/ t = 4 \/ t = 5 \/ t = 6 \/ t = 7 \/ t = 8) by lia.
  destruct y; repeat (destruct C as [->|C]; [reflexivity|]); subst t; reflexivity.
Qed.
Lemma enc_dt_ext (y : bool) t : 9 <= t <= 14 -> let x := Z.lor (Z.lor (Z.shiftl (if y then 128 else 0) 8) 0x6000) (Z.shiftl (t - 9) 6) in
  0 <= x < 65536 /\ octets16 x = [(if y then 128 else 0) + 64 + 32 + (t - 8 - 1) / 4; 64 * ((t - 8 - 1) mod 4)].
Proof.
  intros H. assert (C : t = 9 \/ t = 10 \/ t = 11 \/ t = 12 \/ t = 13 \/ t = 14) by lia.
  destruct y; repeat (destruct C as [->|C]; [split; [vm_compute; intuition discriminate|reflexivity]|]); subst t; split; [vm_compute; intuition discriminate|reflexivity|vm_compute; intuition discriminate|reflexivity].
Qed.
Lemma tpkt_fill_ok s bd : Z.of_nat (length bd) + 4 < 65536 ->
  tpkt_fill s (tpkt_space s ++ bd) (Z.of_nat (length (tpkt_space s ++ bd))) =
    Ok (match data_transport_protocol s with TCP_TPKT => [3; 0] ++ octets16 (Z.of_nat (length bd) + 4) ++ bd | _ => bd end).
Proof.
  intros H. unfold tpkt_fill, tpkt_space. destruct (data_transport_protocol s); try reflexivity.
  unfold ablit. rewrite app_length. cbn [length]. replace (_ && _) with true by lia. cbn [Z.to_nat firstn app]. change (0 + 4)%nat with 4%nat. cbn [skipn].
  unfold octets16. cbn [app]. set (n := Z.of_nat (4 + length bd)). assert (E : n = Z.of_nat (length bd) + 4) by (unfold n; lia). rewrite <- E.
  rewrite Z.shiftr_div_pow2 by lia. change (2 ^ 8) with 256. unfold u8, u16. rewrite (Z.mod_small n 65536) by lia. rewrite (Z.mod_small (n / 256) 256) by (clear - E H; lia). reflexivity.
Qed.

Lemma encode_indicator_ok s i : 0 <= i <= 255 ->
  exists out, t38_encode_indicator s i = Ok (out) /\
   if i <=? (if old_version s then 15 else 22)
   then out = (Z.of_nat (length (wire (data_transport_protocol s) (old_version s) (MInd i))), wire (data_transport_protocol s) (old_version s) (MInd i))
   else fst out = -1.
Proof.
  intros H. unfold t38_encode_indicator. change T38_IND_V17_14400_LONG_TRAINING with 15. change T38_IND_V8_ANSAM with 16. change T38_IND_V33_14400_TRAINING with 22. fold (old_version s).
  assert (SP : (length (tpkt_space s) <= 4)%nat) by (unfold tpkt_space; destruct (data_transport_protocol s); cbn; lia).
  assert (FIN : forall bd, (length bd <= 2)%nat -> bd = body (old_version s) (MInd i) -> exists out, (do (len, out) <- Ok (Z.of_nat (length (tpkt_space s ++ bd)), tpkt_space s ++ bd) ; do out0 <- tpkt_fill s out len ; Ok (len, out0)) = Ok out /\
     out = (Z.of_nat (length (wire (data_transport_protocol s) (old_version s) (MInd i))), wire (data_transport_protocol s) (old_version s) (MInd i))).
  { intros bd LB E. cbn [rbind]. rewrite tpkt_fill_ok by lia. cbn [rbind]. eexists. split; [reflexivity|]. unfold wire. rewrite <- E. unfold tpkt_space. destruct (data_transport_protocol s); reflexivity. }
  destruct (Z.leb_spec i 15) as [C|C].
  - replace (i <=? (if old_version s then 15 else 22)) with true by (destruct (old_version s); lia).
    rewrite put8_ok, enc_ind, app_length by lia. cbn [length]. destruct (Z.leb_spec (Z.of_nat (length (tpkt_space s) + 1)) 100); [|lia]. cbn [rbind].
    apply FIN; [cbn; lia|]. cbn [body]. unfold wire_type. destruct (Z.leb_spec i 15); [reflexivity|lia].
  - destruct (old_version s) eqn:O; cbn [negb andb].
    + replace (i <=? 15) with false by lia. cbn [rbind]. unfold tpkt_fill, tpkt_space. destruct (data_transport_protocol s); cbn [rbind ablit]; eexists; (split; [reflexivity|reflexivity]).
    + destruct (Z.leb_spec i 22) as [C2|C2].
      * destruct (enc_ind_ext i ltac:(lia)) as (R & E). rewrite put16_ok, E, app_length by exact R. cbn [length].
        destruct (Z.leb_spec (Z.of_nat (length (tpkt_space s) + 2)) 100); [|lia]. cbn [rbind].
        apply FIN; [cbn; lia|]. cbn [body]. unfold wire_type. destruct (Z.leb_spec i 15); [lia|reflexivity].
      * cbn [rbind]. unfold tpkt_fill, tpkt_space. destruct (data_transport_protocol s); cbn [rbind ablit]; eexists; (split; [reflexivity|reflexivity]).
Qed.

Lemma encode_data_ok s dt fs : msg_ok (old_version s) (MData dt fs) ->
  let w := wire (data_transport_protocol s) (old_version s) (MData dt fs) in
  t38_encode_data s dt (fields_of fs) = if Z.of_nat (length w) <=? 1000 then Ok (Z.of_nat (length w), w) else UB.
Proof.
  intros (DT & N & F) w. unfold t38_encode_data. unfold fields_of at 1 2 3 4 5. rewrite map_length.
  destruct (Z.ltb_spec dt 0); [lia|]. change T38_DATA_V17_14400 with 8. change T38_DATA_V8 with 9. change T38_DATA_V33_14400 with 14. fold (old_version s).
  set (y := match fs with [] => false | _ => true end).
  replace (if 0 <? Z.of_nat (length fs) then 128 else 0) with (if y then 128 else 0) by (destruct fs; reflexivity).
  set (sp := tpkt_space s) in *. assert (SP : (length sp <= 4)%nat) by (unfold sp, tpkt_space; destruct (data_transport_protocol s); cbn; lia).
  set (ty := wire_type (if y then 128 else 0) 64 8 dt).
  assert (TL : (length ty <= 2)%nat) by (unfold ty, wire_type; destruct (_ <=? 8); cbn; lia).
  match goal with |- (do o <- ?X ; _) = _ => assert (HX : X = Ok (Some (sp ++ ty))) end.
  { unfold ty, wire_type. destruct (Z.leb_spec dt 8).
    - rewrite put8_ok, enc_dt, app_length by lia. cbn [length]. destruct (Z.leb_spec (Z.of_nat (length sp + 1)) 1000); [reflexivity|lia].
    - destruct (old_version s); [lia|]. cbn [negb andb]. destruct (Z.leb_spec dt 14); [|lia]. destruct (enc_dt_ext y dt ltac:(lia)) as (R & E).
      rewrite put16_ok, E, app_length by exact R. cbn [length]. destruct (Z.leb_spec (Z.of_nat (length sp + 2)) 1000); [reflexivity|lia]. }
  rewrite HX. clear HX. cbn [rbind].
  set (bd := body (old_version s) (MData dt fs)) in *.
  assert (LW : length w = (length sp + length bd)%nat).
  { unfold w, wire, sp, tpkt_space. fold bd. destruct (data_transport_protocol s); cbn [length octets16 app]; lia. }
  assert (MAIN : (if 0 <? Z.of_nat (length fs) then
             if Z.of_nat (length fs) <? 0x80 then do out <- put8 1000 (sp ++ ty) (Z.of_nat (length fs)) ; encode_fields (t38_version s) out (fields_of fs)
             else UB else Ok (Some (sp ++ ty))) = if Z.of_nat (length (sp ++ bd)) <=? 1000 then Ok (Some (sp ++ bd)) else UB).
  { destruct fs as [|f fs].
    - cbn [length]. change (0 <? Z.of_nat 0) with false. cbn iota. subst bd ty y. cbn [body]. destruct (Z.leb_spec (Z.of_nat (length (sp ++ wire_type 0 64 8 dt))) 1000) as [X|X]; [reflexivity|]. rewrite app_length in X. exfalso. change (if false then 128 else 0) with 0 in TL. lia.
    - set (ffs := f :: fs) in *. assert (NE : (1 <= length ffs)%nat) by (cbn; lia). destruct (Z.ltb_spec 0 (Z.of_nat (length ffs))); [|lia]. destruct (Z.ltb_spec (Z.of_nat (length ffs)) 128); [|lia].
      assert (BD : bd = ty ++ Z.of_nat (length ffs) :: wire_fields (old_version s) ffs) by reflexivity. rewrite BD.
      rewrite put8_ok. replace (u8 (Z.of_nat (length ffs))) with (Z.of_nat (length ffs)) by (unfold u8; rewrite Z.mod_small; lia).
      rewrite (app_length (sp ++ ty)), app_length. cbn [length]. destruct (Z.leb_spec (Z.of_nat (length sp + length ty + 1)) 1000); [|lia]. cbn [rbind].
      rewrite encode_fields_ok; [|exact F|rewrite !app_length; cbn [length]; lia]. fold (old_version s). rewrite <- !app_assoc. reflexivity. }
  assert (T : forall X, (if 0 <? Z.of_nat (length fs) then
             if Z.of_nat (length fs) <? 0x80 then do out <- put8 1000 (sp ++ ty) (Z.of_nat (length fs)) ; encode_fields (t38_version s) out (fields_of fs)
             else X else Ok (Some (sp ++ ty))) = if Z.of_nat (length (sp ++ bd)) <=? 1000 then Ok (Some (sp ++ bd)) else UB).
  { intros X. rewrite <- MAIN. destruct (Z.ltb_spec (Z.of_nat (length fs)) 128); [reflexivity|lia]. }
  rewrite T. clear T MAIN. rewrite app_length, LW. destruct (Z.leb_spec (Z.of_nat (length sp + length bd)) 1000) as [C|C]; cbn [rbind]; [|reflexivity].
  unfold sp. rewrite tpkt_fill_ok by lia. cbn [rbind]. fold sp. rewrite app_length. reflexivity.
Qed.

(** ---- Sequence numbers ---- *)
Lemma packet_judged s buf seq : check_sequence_numbers s = true -> 0 <= rx_expected_seq_no s < 65536 -> 0 <= seq < 65536 -> buf <> [] ->
  let e := rx_expected_seq_no s in
  let d := (seq - e) mod 65536 in
  t38_core_rx_ifp_packet s buf seq =
    if 63536 <? d then Ok (s, [], 0)
    else
      do (s', evs, r) <- t38_core_rx_ifp_stream (set_expected s ((seq + 1) mod 65536) (missing_packets s + (if d =? 0 then 0 else if d <? 2000 then seq - e else 1))) buf ;
      Ok (s', (if d =? 0 then [] else if d <? 2000 then [EMissing e seq] else [EMissing (-1) (-1)]) ++ evs,
          if r =? Z.of_nat (length buf) then 0 else -1).
Proof.
  intros K E S B e d. unfold t38_core_rx_ifp_packet. fold e in E |- *. rewrite K. unfold u16. rewrite (Z.mod_small seq) by lia.
  assert (NB : (Z.of_nat (length buf) <? 1) = false) by (destruct buf; [congruence|]; cbn [length]; lia).
  assert (M : forall x, Z.land x 65535 = x mod 65536) by (intros x; change 65535 with (Z.ones 16); rewrite Z.land_ones by lia; reflexivity).
  rewrite M. destruct (Z.eqb_spec seq e) as [Q|Q]; cbn [negb].
  { rewrite NB. assert (D0 : d = 0) by (unfold d; rewrite Q, Z.sub_diag; reflexivity). rewrite D0. change (63536 <? 0) with false. change (0 =? 0) with true. cbn iota.
    rewrite M. fold e. rewrite <- Q, Z.add_0_r. reflexivity. }
  destruct (Z.eqb_spec e (-1)); [lia|]. cbn [negb].
  assert (D : d = if seq <? e then seq - e + 65536 else seq - e).
  { unfold d. destruct (Z.ltb_spec seq e); [symmetry; apply (Z.mod_unique _ _ (-1)); lia|apply Z.mod_small; lia]. }
  assert (DR : 0 < d < 65536) by (rewrite D; destruct (Z.ltb_spec seq e); lia). clearbody d.
  replace ((seq + 1) mod 65536 =? e) with (d =? 65535).
  2: { rewrite D. destruct (Z.ltb_spec seq e); destruct (Z.eqb_spec ((seq + 1) mod 65536) e), (Z.eqb_spec (seq - e + 65536) 65535), (Z.eqb_spec (seq - e) 65535); try reflexivity; exfalso;
       pose proof (Z.div_mod (seq + 1) 65536); pose proof (Z.mod_pos_bound (seq + 1) 65536); lia. }
  assert (KL : classify_seq_no_offset e seq = if 63536 <? d then -1 else if d <? 2000 then 1 else 0).
  { unfold classify_seq_no_offset, ACCEPTABLE_SEQ_NO_OFFSET. rewrite D. destruct (Z.ltb_spec seq e).
    - destruct (Z.ltb_spec (seq + 65536 - 2000) e), (Z.ltb_spec 63536 (seq - e + 65536)), (Z.ltb_spec (seq - e + 65536) 2000), (Z.ltb_spec e (seq + 2000)); try reflexivity; lia.
    - destruct (Z.ltb_spec seq (e + 2000)), (Z.ltb_spec 63536 (seq - e)), (Z.ltb_spec (seq - e) 2000), (Z.ltb_spec (e + 65536 - 2000) seq); try reflexivity; lia. }
  destruct (Z.eqb_spec d 65535) as [D5|D5].
  { destruct (Z.ltb_spec 63536 d); [reflexivity|lia]. }
  rewrite KL. destruct (Z.ltb_spec 63536 d); [reflexivity|]. destruct (Z.eqb_spec d 0); [lia|]. destruct (Z.ltb_spec d 2000).
  - change (1 =? -1) with false. change (1 =? 1) with true. cbn iota. rewrite NB. cbn [rx_expected_seq_no set_expected missing_packets]. rewrite M. reflexivity.
  - change (0 =? -1) with false. change (0 =? 1) with false. cbn iota. rewrite NB. cbn [rx_expected_seq_no set_expected missing_packets]. rewrite M. reflexivity.
Qed.

Lemma stream_keeps s m : rx_expected_seq_no (heard s m) = rx_expected_seq_no s /\ t38_version (heard s m) = t38_version s /\
  data_transport_protocol (heard s m) = data_transport_protocol s /\ check_sequence_numbers (heard s m) = check_sequence_numbers s.
Proof. destruct m as [i|dt [|f fs]]; repeat split; reflexivity. Qed.
Lemma wire_nonempty tr old m : wire tr old m <> [].
Proof. destruct m as [i|dt [|f fs]]; destruct tr; unfold wire, body, wire_type; try destruct (_ <=? _); discriminate. Qed.


Lemma packet_whole s m n top : check_sequence_numbers s = true -> rx_expected_seq_no s = top mod 65536 ->
  arriving (data_transport_protocol s) (old_version s) m -> top - 2000 < n < top + 2000 ->
  exists s', t38_core_rx_ifp_packet s (wire (data_transport_protocol s) (old_version s) m) (n mod 65536) =
      Ok (s', if n <? top then [] else gap top n ++ events m, 0) /\
    check_sequence_numbers s' = true /\ rx_expected_seq_no s' = Z.max top (n + 1) mod 65536 /\
    data_transport_protocol s' = data_transport_protocol s /\ t38_version s' = t38_version s.
Proof.
  intros K E (M & D & L) R. set (tr := data_transport_protocol s) in *. set (w := wire tr (old_version s) m) in *.
  assert (ER : 0 <= top mod 65536 < 65536) by (apply Z.mod_pos_bound; lia). assert (NR : 0 <= n mod 65536 < 65536) by (apply Z.mod_pos_bound; lia).
  pose proof (packet_judged s w (n mod 65536) K ltac:(rewrite E; exact ER) NR (wire_nonempty _ _ _)) as J. cbv zeta in J. rewrite J. clear J. rewrite E.
  assert (DD : (n mod 65536 - top mod 65536) mod 65536 = (n - top) mod 65536) by (symmetry; apply Zminus_mod). rewrite DD.
  destruct (Z.ltb_spec n top) as [C|C].
  - assert (X : (n - top) mod 65536 = n - top + 65536) by (symmetry; apply (Z.mod_unique _ _ (-1)); lia). rewrite X.
    destruct (Z.ltb_spec 63536 (n - top + 65536)); [|lia]. exists s. split; [reflexivity|]. split; [exact K|]. split; [rewrite Z.max_l by lia; exact E|]. split; reflexivity.
  - assert (X : (n - top) mod 65536 = n - top) by (apply Z.mod_small; lia). rewrite X. destruct (Z.ltb_spec 63536 (n - top)); [lia|].
    rewrite Zplus_mod_idemp_l.
    match goal with |- context [t38_core_rx_ifp_stream ?s1 w] => set (s1' := s1) end.
    pose proof (stream_whole s1' m [] M D (fun _ => L)) as W. cbv zeta in W. rewrite app_nil_r in W.
    change (t38_core_rx_ifp_stream s1' w = Ok (heard s1' m, events m, Z.of_nat (length w))) in W. rewrite W. cbn [rbind]. rewrite Z.eqb_refl.
    destruct (stream_keeps s1' m) as (K1 & K2 & K3 & K4).
    eexists. split.
    + apply f_equal, f_equal2; [|reflexivity]. apply f_equal2; [reflexivity|]. apply f_equal2; [|reflexivity]. unfold gap.
      destruct (Z.eqb_spec (n - top) 0), (Z.ltb_spec top n); try lia; [reflexivity|]. destruct (Z.ltb_spec (n - top) 2000); [|lia]. reflexivity.
    + rewrite K1, K2, K3, K4. split; [exact K|]. split; [rewrite Z.max_r by lia; reflexivity|]. split; reflexivity.
Qed.

Lemma receive_run l : forall s top, check_sequence_numbers s = true -> rx_expected_seq_no s = top mod 65536 ->
  Forall (fun a => arriving (data_transport_protocol s) (old_version s) (snd a)) l -> near top l ->
  exists s', receive s (packed (data_transport_protocol s) (old_version s) l) = Ok (s', flat_map hears (records top l), map (fun _ => 0) l).
Proof.
  induction l as [|[n m] l IH]; intros s top K E F N; [eexists; reflexivity|].
  inversion F as [|? ? F1 F2]; subst. destruct N as (N1 & N2). cbn [packed map fst snd receive]. cbn [snd] in F1.
  destruct (packet_whole s m n top K E F1 N1) as (s' & -> & K' & E' & T' & V'). cbn [rbind].
  assert (O' : old_version s' = old_version s) by (unfold old_version; rewrite V'; reflexivity).
  destruct (IH s' (Z.max top (n + 1)) K' E' ltac:(rewrite T', O'; exact F2) N2) as (s2 & R). rewrite T', O' in R. unfold packed in R. rewrite R. cbn [rbind].
  exists s2. cbn [records]. destruct (Z.ltb_spec n top).
  - rewrite Z.max_l by lia. reflexivity.
  - rewrite Z.max_r by lia. reflexivity.
Qed.
(** The first packet after a start or a restart sets the numbering. *)
Lemma receive_start s n m l : check_sequence_numbers s = true -> rx_expected_seq_no s = -1 ->
  Forall (fun a => arriving (data_transport_protocol s) (old_version s) (snd a)) ((n, m) :: l) -> near (n + 1) l ->
  exists s', receive s (packed (data_transport_protocol s) (old_version s) ((n, m) :: l)) =
    Ok (s', events m ++ flat_map hears (records (n + 1) l), map (fun _ => 0) ((n, m) :: l)).
Proof.
  intros K E F N. inversion F as [|? ? F1 F2]; subst. cbn [snd] in F1. destruct F1 as (M & D & L). cbn [packed map fst snd receive].
  set (w := wire (data_transport_protocol s) (old_version s) m) in *.
  assert (NR : 0 <= n mod 65536 < 65536) by (apply Z.mod_pos_bound; lia).
  unfold t38_core_rx_ifp_packet. rewrite K, E. unfold u16. rewrite (Z.mod_small (n mod 65536)) by lia.
  destruct (Z.eqb_spec (n mod 65536) (-1)); [lia|]. cbn [negb]. change (-1 =? -1) with true. cbn [negb].
  assert (NB : (Z.of_nat (length w) <? 1) = false) by (pose proof (wire_nonempty (data_transport_protocol s) (old_version s) m); fold w in H; destruct w; [congruence|]; cbn [length]; lia).
  rewrite NB. match goal with |- context [t38_core_rx_ifp_stream ?s1 w] => set (s1' := s1) end.
  pose proof (stream_whole s1' m [] M D (fun _ => L)) as W. cbv zeta in W. rewrite app_nil_r in W.
  change (t38_core_rx_ifp_stream s1' w = Ok (heard s1' m, events m, Z.of_nat (length w))) in W. rewrite W. cbn [rbind]. rewrite Z.eqb_refl.
  destruct (stream_keeps s1' m) as (K1 & K2 & K3 & K4).
  assert (X : rx_expected_seq_no s1' = (n + 1) mod 65536).
  { unfold s1'. cbn [rx_expected_seq_no set_expected]. change 65535 with (Z.ones 16). rewrite Z.land_ones by lia. change (2 ^ 16) with 65536. apply Zplus_mod_idemp_l. }
  destruct (receive_run l (heard s1' m) (n + 1)) as (s2 & R).
  - rewrite K4. exact K.
  - rewrite K1. exact X.
  - unfold old_version. rewrite K2, K3. exact F2.
  - exact N.
  - unfold old_version in R. rewrite K2, K3 in R. unfold packed in R.
    change (receive (heard s1' m) (map (fun a => (fst a, wire (data_transport_protocol s) (old_version s) (snd a))) l) = Ok (s2, flat_map hears (records (n + 1) l), map (fun _ => 0) l)) in R.
    rewrite R. cbn [rbind]. exists s2. reflexivity.
Qed.

(** Accepted packets are in order, each at most once. *)
Lemma records_increasing {A} (l : list (Z * A)) : forall top, increasing (map (fun r => snd (fst r)) (records top l)) /\
  Forall (fun r => top <= fst (fst r) /\ fst (fst r) <= snd (fst r) /\ In (snd (fst r), snd r) l) (records top l).
Proof.
  induction l as [|[n a] l IH]; intros top; [split; [exact I|constructor]|]. cbn [records]. destruct (Z.ltb_spec n top).
  - destruct (IH top) as (A1 & A2). split; [exact A1|]. eapply Forall_impl; [|exact A2]. intros r (X & Y & W). split; [exact X|]. split; [exact Y|]. right. exact W.
  - destruct (IH (n + 1)) as (A1 & A2). split.
    + cbn [map fst snd]. remember (records (n + 1) l) as rs eqn:RS. destruct rs as [|r rs]; [exact I|]. cbn [map]. split; [|exact A1]. inversion A2; subst. lia.
    + constructor; [cbn; split; [lia|]; split; [lia|]; left; reflexivity|]. eapply Forall_impl; [|exact A2]. intros r (X & Y & W). cbn beta. split; [lia|]. split; [exact Y|]. right. exact W.
Qed.

(** ---- From sender to receiver ---- *)
Lemma told_sends l : forall s, 0 <= tx_seq_no s < 65536 -> (exists c, aget (category_control s) 0 = Ok c /\ c <> 0) -> length (category_control s) = 5%nat ->
  Forall (sendable (data_transport_protocol s) (old_version s)) l ->
  exists s' ps, sends s l = Ok (s', ps) /\
    map p_octets ps = map (wire (data_transport_protocol s) (old_version s)) (told (current_tx_indicator s) l) /\
    map p_seq ps = map (fun k => (tx_seq_no s + Z.of_nat k) mod 65536) (seq 0 (length (told (current_tx_indicator s) l))).
Proof.
  induction l as [|o l IH]; intros s T C5 C F; [eexists _, _; repeat split; reflexivity|].
  inversion F as [|? ? F1 F2]; subst. cbn [sends]. 
  assert (M : forall x, Z.land x 65535 = x mod 65536) by (intros x; change 65535 with (Z.ones 16); rewrite Z.land_ones by lia; reflexivity).
  assert (NEXT : forall s1 m cur p, told (current_tx_indicator s) (o :: l) = m :: told cur l -> send_ok o = true ->
     (exists r, send1 s o = Ok (s1, [p], r)) -> s1 = set_tx s ((tx_seq_no s + 1) mod 65536) cur ->
     p_octets p = wire (data_transport_protocol s) (old_version s) m -> p_seq p = tx_seq_no s ->
     exists s' ps, (do (s0, p0, _) <- send1 s o ; do (s2, ps) <- sends s0 l ; Ok (s2, (if send_ok o then p0 else []) ++ ps)) = Ok (s', ps) /\
       map p_octets ps = map (wire (data_transport_protocol s) (old_version s)) (told (current_tx_indicator s) (o :: l)) /\
       map p_seq ps = map (fun k => (tx_seq_no s + Z.of_nat k) mod 65536) (seq 0 (length (told (current_tx_indicator s) (o :: l))))).
  { intros s1 m cur p TL SO SE S1 PO PS. destruct SE as (r & ->). cbn [rbind].
    destruct (IH s1) as (s' & ps & -> & A & B).
    - rewrite S1. cbn. apply Z.mod_pos_bound. lia.
    - rewrite S1. exact C5.
    - rewrite S1. exact C.
    - rewrite S1. exact F2.
    - cbn [rbind]. rewrite SO. eexists _, _. split; [reflexivity|]. rewrite TL. cbn [app map length seq]. rewrite PO, PS, A, B. rewrite S1. cbn [data_transport_protocol old_version set_tx current_tx_indicator tx_seq_no].
      split; [reflexivity|]. rewrite Z.add_0_r, (Z.mod_small (tx_seq_no s)) by exact T. f_equal. rewrite <- seq_shift, map_map. apply map_ext. intros k. rewrite Zplus_mod_idemp_l. f_equal. lia. }
  assert (SKIP : forall p r, told (current_tx_indicator s) (o :: l) = told (current_tx_indicator s) l -> send1 s o = Ok (s, p, r) -> (if send_ok o then p else []) = [] ->
     exists s' ps, (do (s0, p0, _) <- send1 s o ; do (s2, ps) <- sends s0 l ; Ok (s2, (if send_ok o then p0 else []) ++ ps)) = Ok (s', ps) /\
       map p_octets ps = map (wire (data_transport_protocol s) (old_version s)) (told (current_tx_indicator s) (o :: l)) /\
       map p_seq ps = map (fun k => (tx_seq_no s + Z.of_nat k) mod 65536) (seq 0 (length (told (current_tx_indicator s) (o :: l))))).
  { intros p r TL SE SO. rewrite SE. cbn [rbind]. destruct (IH s T C5 C F2) as (s' & ps & -> & A & B). cbn [rbind]. rewrite SO, TL. eexists _, _. split; [reflexivity|]. split; [exact A|exact B]. }
  destruct o as [i ok|dt fs c ok]; cbn [send1 send_ok told sendable] in *.
  - unfold t38_core_send_indicator in *. destruct (Z.eqb_spec (current_tx_indicator s) i) as [CI|CI]; cbn [negb] in *.
    { apply (SKIP [] 0); [|reflexivity|destruct ok; reflexivity]. destruct ok; [|reflexivity]. rewrite (Z.eqb_sym i). destruct (Z.eqb_spec (current_tx_indicator s) i); [reflexivity|congruence]. }
    destruct C5 as (cc & CC & CN). rewrite CC in *. cbn [rbind] in *. destruct (Z.eqb_spec cc 0); [congruence|]. cbn [negb] in *.
    set (j := Z.land i 255) in *. assert (J : j = i mod 256) by (unfold j; change 255 with (Z.ones 8); rewrite Z.land_ones by lia; reflexivity).
    assert (JR : 0 <= j <= (if old_version s then 15 else 22)).
    { rewrite J. destruct (old_version s).
      - destruct F1 as [[F1|F1]|(F1 & _)]; [rewrite Z.mod_small; lia| |discriminate]. replace i with (i - 256 + 1 * 256) by lia. rewrite Z.mod_add, Z.mod_small by lia. lia.
      - assert (X : 0 <= i <= 22 \/ 256 <= i <= 278) by lia. destruct X as [X|X]; [rewrite Z.mod_small; lia|]. replace i with (i - 256 + 1 * 256) by lia. rewrite Z.mod_add, Z.mod_small by lia. lia. }
    destruct (encode_indicator_ok s j ltac:(destruct (old_version s); lia)) as (out & EO & OUT). rewrite EO in *. destruct (Z.leb_spec j (if old_version s then 15 else 22)); [|lia].
    rewrite OUT in *. cbn [rbind] in *. destruct (Z.ltb_spec (Z.of_nat (length (wire (data_transport_protocol s) (old_version s) (MInd j)))) 0); [lia|].
    destruct ok; cbn [negb] in *.
    + assert (DL : exists delay, (if pace_transmission s then do d <- aget startup_training j ; if allow_for_tep s then do t <- aget startup_tep j ; Ok (d + t) else Ok d else Ok 0) = Ok delay).
      { destruct (aget_in startup_training j) as (d1 & -> & _); [change (Z.of_nat (length startup_training)) with 23; destruct (old_version s); lia|].
        destruct (aget_in startup_tep j) as (d2 & -> & _); [change (Z.of_nat (length startup_tep)) with 23; destruct (old_version s); lia|].
        destruct (pace_transmission s), (allow_for_tep s); eexists; reflexivity. }
      destruct DL as (delay & DL). cbn [pace_transmission allow_for_tep set_tx] in *. rewrite DL in *. cbn [rbind] in *.
      eapply (NEXT _ (MInd j) j); [|reflexivity|eexists; reflexivity|rewrite M; reflexivity|reflexivity|reflexivity].
      destruct (Z.eqb_spec i (current_tx_indicator s)); [congruence|]. rewrite J. reflexivity.
    + eapply SKIP; reflexivity.
  - destruct F1 as (MO & DE & CR & LE). unfold t38_core_send_data_multi_field in *. rewrite encode_data_ok in * by exact MO. cbv zeta in *.
    destruct (Z.leb_spec (Z.of_nat (length (wire (data_transport_protocol s) (old_version s) (MData dt fs)))) 1000); [|lia]. cbn [rbind] in *.
    destruct (Z.ltb_spec (Z.of_nat (length (wire (data_transport_protocol s) (old_version s) (MData dt fs)))) 0); [lia|].
    destruct (aget_in (category_control s) c) as (cc & CC & _); [rewrite C; lia|]. rewrite CC in *. cbn [rbind] in *. destruct ok; cbn [negb] in *.
    + eapply (NEXT _ (MData dt fs) (current_tx_indicator s)); [reflexivity|reflexivity|eexists; reflexivity|rewrite M; reflexivity|reflexivity|reflexivity].
    + eapply SKIP; reflexivity.
Qed.
Lemma ind_wire_short tr old i : (length (wire tr old (MInd i)) <= 6)%nat.
Proof. destruct tr; unfold wire, body, wire_type; destruct (_ <=? _); cbn; lia. Qed.
Lemma told_arriving tr old l : Forall (sendable tr old) l -> forall cur, Forall (arriving tr old) (told cur l).
Proof.
  induction 1 as [|o l F _ IH]; intros cur; [constructor|]. destruct o as [i [|]|dt fs c [|]]; cbn [told]; auto.
  - destruct (i =? cur); [apply IH|]. constructor; [|apply IH]. unfold arriving, msg_ok, decodable. cbn [sendable] in F. split; [|split; [exact I|pose proof (ind_wire_short tr old (i mod 256)); lia]].
    destruct F as [F|(-> & F)].
    + assert (0 <= i mod 256 <= 15); [|destruct old; lia]. destruct F as [F|F]; [rewrite Z.mod_small; lia|]. replace i with (i - 256 + 1 * 256) by lia. rewrite Z.mod_add, Z.mod_small by lia. lia.
    + destruct F as [F|F]; [rewrite Z.mod_small; lia|]. replace i with (i - 256 + 1 * 256) by lia. rewrite Z.mod_add, Z.mod_small by lia. lia.
  - constructor; [|apply IH]. destruct F as (A & B & C & D). split; [exact A|]. split; [exact B|]. lia.
Qed.
Lemma receive_mod l : forall s, receive s (map (fun a => (fst a mod 65536, snd a)) l) = receive s l.
Proof.
  induction l as [|[n p] l IH]; intros s; [reflexivity|]. cbn [map receive fst snd]. rewrite Z.mod_mod by lia. destruct (t38_core_rx_ifp_packet s p (n mod 65536)) as [[[s' e] r]|]; cbn [rbind]; [|reflexivity]. rewrite IH. reflexivity.
Qed.

Lemma end_to_end s r l k0 ks : 0 <= tx_seq_no s < 65536 -> (exists c, aget (category_control s) 0 = Ok c /\ c <> 0) -> length (category_control s) = 5%nat ->
  Forall (sendable (data_transport_protocol s) (old_version s)) l ->
  t38_version r = t38_version s -> data_transport_protocol r = data_transport_protocol s -> check_sequence_numbers r = true -> rx_expected_seq_no r = -1 ->
  let ms := told (current_tx_indicator s) l in
  let numbered := map (fun k => (tx_seq_no s + Z.of_nat k, nth k ms (MInd 0))) in
  Forall (fun k => (k < length ms)%nat) (k0 :: ks) -> near (tx_seq_no s + Z.of_nat k0 + 1) (numbered ks) ->
  exists s' ps r', sends s l = Ok (s', ps) /\ length ps = length ms /\
    receive r (map (arrival ps) (k0 :: ks)) =
      Ok (r', events (nth k0 ms (MInd 0)) ++ flat_map hears (records (tx_seq_no s + Z.of_nat k0 + 1) (numbered ks)), map (fun _ => 0) (k0 :: ks)).
Proof.
  intros T C5 C F V TR K E ms numbered KS N.
  destruct (told_sends l s T C5 C F) as (s' & ps & S & A & B). fold ms in A, B.
  assert (LP : length ps = length ms) by (rewrite <- (map_length p_octets ps), A, map_length; reflexivity).
  assert (AR : forall k, (k < length ms)%nat -> arrival ps k = ((tx_seq_no s + Z.of_nat k) mod 65536, wire (data_transport_protocol s) (old_version s) (nth k ms (MInd 0)))).
  { intros k LK. unfold arrival. apply f_equal2.
    - rewrite <- (map_nth p_seq). cbn [p_seq]. rewrite B.
      rewrite (nth_indep _ 0 ((tx_seq_no s + Z.of_nat O) mod 65536)) by (rewrite map_length, seq_length; lia).
      rewrite (map_nth (fun k => (tx_seq_no s + Z.of_nat k) mod 65536)). rewrite seq_nth by lia. reflexivity.
    - rewrite <- (map_nth p_octets). cbn [p_octets]. rewrite A. rewrite (nth_indep _ [] (wire (data_transport_protocol s) (old_version s) (MInd 0))) by (rewrite map_length; lia).
      apply map_nth. }
  pose proof (told_arriving _ _ l F (current_tx_indicator s)) as ARR. fold ms in ARR.
  assert (OV : old_version r = old_version s) by (unfold old_version; rewrite V; reflexivity).
  destruct (receive_start r (tx_seq_no s + Z.of_nat k0) (nth k0 ms (MInd 0)) (numbered ks) K E) as (r' & R).
  - rewrite TR, OV. change ((tx_seq_no s + Z.of_nat k0, nth k0 ms (MInd 0)) :: numbered ks) with (numbered (k0 :: ks)).
    unfold numbered. rewrite Forall_map. eapply Forall_impl; [|exact KS]. intros k LK. cbn [snd]. rewrite Forall_forall in ARR. apply ARR, nth_In, LK.
  - exact N.
  - exists s', ps, r'. split; [exact S|]. split; [exact LP|].
    change ((tx_seq_no s + Z.of_nat k0, nth k0 ms (MInd 0)) :: numbered ks) with (numbered (k0 :: ks)) in R.
    replace (map (fun _ => 0) (numbered (k0 :: ks))) with (map (fun _ : nat => 0) (k0 :: ks)) in R by (unfold numbered; rewrite map_map; reflexivity).
    rewrite TR, OV in R. rewrite <- receive_mod in R. rewrite <- R. f_equal. unfold packed, numbered. rewrite !map_map.
    apply map_ext_in. intros k IN. cbn [fst snd]. apply AR. rewrite Forall_forall in KS. apply KS, IN.
Qed.

Lemma records_all {A} (d : A) (ms : list A) base : forall n top, (n + top = length ms)%nat ->
  records (base + Z.of_nat top) (map (fun k => (base + Z.of_nat k, nth k ms d)) (seq top n)) = map (fun k => (base + Z.of_nat k, base + Z.of_nat k, nth k ms d)) (seq top n).
Proof.
  induction n as [|n IH]; intros top L; [reflexivity|]. cbn [seq map records]. destruct (Z.ltb_spec (base + Z.of_nat top) (base + Z.of_nat top)); [lia|].
  f_equal. replace (base + Z.of_nat top + 1) with (base + Z.of_nat (S top)) by lia. apply IH. lia.
Qed.
Lemma near_all {A} (d : A) (ms : list A) base : forall n top, near (base + Z.of_nat top) (map (fun k => (base + Z.of_nat k, nth k ms d)) (seq top n)).
Proof.
  induction n as [|n IH]; intros top; [exact I|]. cbn [seq map near]. split; [lia|]. replace (Z.max _ _) with (base + Z.of_nat (S top)) by lia. apply IH.
Qed.
Lemma flat_map_nth {A B} (g : A -> list B) d (ms : list A) : forall n top, (n + top = length ms)%nat -> flat_map (fun k => g (nth k ms d)) (seq top n) = flat_map g (skipn top ms).
Proof.
  induction n as [|n IH]; intros top L; [rewrite skipn_all2 by lia; reflexivity|]. cbn [seq flat_map]. rewrite IH by lia.
  assert (X : skipn top ms = nth top ms d :: skipn (S top) ms).
  { clear IH. revert top L. induction ms as [|m ms IHm]; intros top L; [cbn in L; lia|]. destruct top; [reflexivity|]. cbn [skipn nth]. apply IHm. cbn in L. lia. }
  rewrite X. reflexivity.
Qed.
(** With nothing lost, what is told is what is heard. *)
Lemma lossless s r l : 0 <= tx_seq_no s < 65536 -> (exists c, aget (category_control s) 0 = Ok c /\ c <> 0) -> length (category_control s) = 5%nat ->
  Forall (sendable (data_transport_protocol s) (old_version s)) l ->
  t38_version r = t38_version s -> data_transport_protocol r = data_transport_protocol s -> check_sequence_numbers r = true -> rx_expected_seq_no r = -1 ->
  exists s' ps r', sends s l = Ok (s', ps) /\
    receive r (map (fun p => (p_seq p, p_octets p)) ps) = Ok (r', flat_map events (told (current_tx_indicator s) l), map (fun _ => 0) ps).
Proof.
  intros T C5 C F V TR K E. set (ms := told (current_tx_indicator s) l).
  destruct (told_sends l s T C5 C F) as (s' & ps & SS & A & B). fold ms in A, B.
  assert (LP : length ps = length ms) by (rewrite <- (map_length p_octets ps), A, map_length; reflexivity).
  remember (length ms) as n eqn:LN. destruct n as [|n].
  { exists s', ps, r. split; [exact SS|]. destruct ms; [|cbn in LN; lia]. destruct ps; [|cbn in LP; lia]. reflexivity. }
  assert (IDX : map (arrival ps) (seq 0 (S n)) = map (fun p => (p_seq p, p_octets p)) ps).
  { rewrite <- LP. clear. induction ps as [|p ps IH]; [reflexivity|]. cbn [length seq map]. f_equal. rewrite <- IH, <- seq_shift, map_map. reflexivity. }
  destruct (end_to_end s r l 0 (seq 1 n) T C5 C F V TR K E) as (s2 & ps2 & r' & S2 & _ & R).
  - fold ms. change (0%nat :: seq 1 n) with (seq 0 (S n)). rewrite Forall_forall. intros k IN. apply in_seq in IN. lia.
  - fold ms. replace (tx_seq_no s + Z.of_nat 0 + 1) with (tx_seq_no s + Z.of_nat 1) by lia. apply near_all.
  - rewrite SS in S2. injection S2 as <- <-. exists s', ps, r'. split; [exact SS|]. fold ms in R. change (0%nat :: seq 1 n) with (seq 0 (S n)) in R. rewrite IDX in R. rewrite R.
    apply f_equal, f_equal2.
    + apply f_equal2; [reflexivity|]. replace (tx_seq_no s + Z.of_nat 0 + 1) with (tx_seq_no s + Z.of_nat 1) by lia. rewrite records_all by lia.
      rewrite flat_map_concat_map, map_map, <- flat_map_concat_map.
      transitivity (events (nth 0 ms (MInd 0)) ++ flat_map (fun k => events (nth k ms (MInd 0))) (seq 1 n)).
      * f_equal. apply flat_map_ext. intros k. unfold hears, gap. destruct (Z.ltb_spec (tx_seq_no s + Z.of_nat k) (tx_seq_no s + Z.of_nat k)); [lia|]. reflexivity.
      * rewrite (flat_map_nth events (MInd 0) ms n 1) by lia. destruct ms as [|m ms']; [cbn in LN; lia|]. reflexivity.
    + assert (Z0 : forall (X : Type) (q : list X), map (fun _ => 0) q = repeat 0 (length q)) by (clear; intros X q; induction q as [|x q IHq]; [reflexivity|cbn [map length repeat]; rewrite IHq; reflexivity]).
      rewrite !Z0, seq_length, LP. reflexivity.
Qed.

Lemma v34rate_ok a b c rest : byte a -> byte b -> byte c ->
  t38_v34rate_to_bps (a :: b :: c :: rest) =
    Ok (if (48 <=? a) && (a <=? 57) && (48 <=? b) && (b <=? 57) && (48 <=? c) && (c <=? 57) then 10000 * (a - 48) + 1000 * (b - 48) + 100 * (c - 48) else -1).
Proof.
  intros A B C. unfold t38_v34rate_to_bps. cbn [length]. destruct (Z.ltb_spec (Z.of_nat (S (S (S (length rest))))) 3); [lia|]. cbn [rate_digits].
  replace (aget (a :: b :: c :: rest) 0) with (Ok a : res Z) by (symmetry; apply (aget_at []); reflexivity).
  replace (aget (a :: b :: c :: rest) (0 + 1)) with (Ok b : res Z) by (symmetry; apply (aget_at [a]); reflexivity).
  replace (aget (a :: b :: c :: rest) (0 + 1 + 1)) with (Ok c : res Z) by (symmetry; apply (aget_at [a; b]); reflexivity).
  cbn [rbind].
  destruct (Z.ltb_spec a 48), (Z.ltb_spec 57 a), (Z.leb_spec 48 a), (Z.leb_spec a 57); try lia; cbn [orb andb]; try reflexivity.
  destruct (Z.ltb_spec b 48), (Z.ltb_spec 57 b), (Z.leb_spec 48 b), (Z.leb_spec b 57); try lia; cbn [orb andb]; try reflexivity.
  destruct (Z.ltb_spec c 48), (Z.ltb_spec 57 c), (Z.leb_spec 48 c), (Z.leb_spec c 57); try lia; cbn [orb andb]; try reflexivity.
  apply f_equal. lia.
Qed.
(** How many times each packet is asked to be sent. *)
Lemma send_repeats : forall s o s' ps r, send1 s o = Ok (s', ps, r) ->
  (length ps <= 1)%nat /\
  Forall (fun p => match o with
                   | SInd i _ => if Z.land i 0x100 =? 0 then aget (category_control s) 0 = Ok (p_count p) else p_count p = 1
                   | SData _ _ c _ => aget (category_control s) c = Ok (p_count p)
                   end) ps.
Proof.
  intros s o s' ps r H. destruct o as [i ok|dt fs c ok]; cbn [send1] in H.
  - unfold t38_core_send_indicator in H. destruct (negb _) eqn:N; [|injection H as <- <- <-; cbn; split; [lia|constructor]].
    destruct (aget (category_control s) 0) as [cc|]; [|discriminate]. cbn [rbind] in H. cbv zeta in H.
    destruct (negb (cc =? 0)) eqn:C; [|injection H as <- <- <-; cbn; split; [lia|constructor]].
    destruct (t38_encode_indicator _ _) as [(len, buf)|]; [|discriminate]. cbn [rbind] in H.
    destruct (len <? 0); [injection H as <- <- <-; cbn; split; [lia|constructor]|].
    assert (P : ps = [{| p_seq := tx_seq_no s; p_octets := buf; p_count := if negb (Z.land i 256 =? 0) then 1 else cc |}]).
    { destruct ok; cbn [negb] in H; [|injection H as _ <- _; reflexivity].
      match type of H with rbind ?m _ = _ => destruct m; [|discriminate] end. cbn [rbind] in H. injection H as _ <- _. reflexivity. }
    subst ps. cbn [length]. split; [lia|]. constructor; [|constructor]. cbn [p_count]. destruct (Z.land i 256 =? 0); reflexivity.
  - unfold t38_core_send_data_multi_field in H. destruct (t38_encode_data _ _ _) as [(len, buf)|]; [|discriminate]. cbn [rbind] in H.
    destruct (len <? 0); [injection H as <- <- <-; cbn; split; [lia|constructor]|].
    destruct (aget (category_control s) c) as [cc|]; [|discriminate]. cbn [rbind] in H. cbv zeta in H.
    destruct ok; cbn [negb] in H; injection H as <- <- <-; (cbn [length]; split; [lia|constructor; [reflexivity|constructor]]).
Qed.
