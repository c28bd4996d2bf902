(** Contact ID: encoding, decoding, and the digits received. *)
From Verif Require Import Base Ademco_model Ademco_spec.
Local Open Scope Z_scope.

Lemma hex_length n v : length (hex n v) = n.
Proof. induction n as [|n IH]; cbn; auto. Qed.
Lemma strip_zeros w k l : length l = w -> strip w (repeat 48 k ++ l) = l.
Proof.
  intros L. induction k as [|k IH]; cbn [repeat app].
  - destruct l as [|x t]; [reflexivity|]. cbn [strip]. rewrite L, Nat.ltb_irrefl, andb_false_r. reflexivity.
  - cbn [strip]. change (48 =? 48) with true. cbn [andb]. replace (w <? length (48%Z :: repeat 48%Z k ++ l))%nat with true; [exact IH|]. symmetry. apply Nat.ltb_lt. cbn. rewrite app_length, repeat_length. lia.
Qed.
Lemma hex_zeros v w k : 0 <= v < 16 ^ Z.of_nat w -> hex (k + w) v = repeat 48 k ++ hex w v.
Proof.
  intros H. induction k as [|k IH]; [reflexivity|]. cbn [Nat.add hex repeat app]. rewrite IH. f_equal. rewrite Z.div_small; [reflexivity|].
  split; [lia|]. eapply Z.lt_le_trans; [apply H|]. apply Z.pow_le_mono_r; lia.
Qed.
Lemma print_hex_eq w v : (w <= 7)%nat -> 0 <= v < 16 ^ Z.of_nat w -> print_hex w v = hex w v.
Proof.
  intros Hw H. unfold print_hex. assert (16 ^ Z.of_nat w <= 16 ^ 7) by (apply Z.pow_le_mono_r; lia). replace (u32 v) with v by (unfold u32; rewrite Z.mod_small; [reflexivity | change (16 ^ 7) with 268435456 in *; lia]).
  replace 8%nat with ((8 - w) + w)%nat by lia. rewrite hex_zeros by exact H. apply strip_zeros, hex_length.
Qed.
Lemma printed_eq r : in_range r -> printed r = map hex_digit (digits_of r).
Proof.
  intros (A & B & C & D & E & F). unfold printed. rewrite !print_hex_eq by (try lia; cbn; lia). unfold digits_of. cbn [hex app map Z.of_nat Pos.of_succ_nat Pos.succ].
  change (16 ^ 3) with 4096. change (16 ^ 2) with 256. change (16 ^ 1) with 16. change (16 ^ 0) with 1. rewrite !Z.div_1_r.
  rewrite (Z.mod_small (acct r / 4096)) by (split; [apply Z.div_pos; lia | apply Z.div_lt_upper_bound; lia]). rewrite (Z.mod_small (mt r / 16)) by (split; [apply Z.div_pos; lia | apply Z.div_lt_upper_bound; lia]).
  rewrite (Z.mod_small (q r)) by lia. rewrite (Z.mod_small (xyz r / 256)) by (split; [apply Z.div_pos; lia | apply Z.div_lt_upper_bound; lia]). rewrite (Z.mod_small (gg r / 16)) by (split; [apply Z.div_pos; lia | apply Z.div_lt_upper_bound; lia]).
  rewrite (Z.mod_small (ccc r / 256)) by (split; [apply Z.div_pos; lia | apply Z.div_lt_upper_bound; lia]). reflexivity.
Qed.
Lemma digits_range r : in_range r -> Forall (fun d => 0 <= d < 16) (digits_of r).
Proof.
  intros (A & B & C & D & E & F). unfold digits_of.
  repeat (constructor; [first [apply Z.mod_pos_bound; lia | split; [apply Z.div_pos; lia | apply Z.div_lt_upper_bound; lia] | lia]|]). constructor.
Qed.

(** ---- one digit at a time: all 16 by cases ---- *)
Lemma digit_cases (P : Z -> Prop) : P 0 -> P 1 -> P 2 -> P 3 -> P 4 -> P 5 -> P 6 -> P 7 -> P 8 -> P 9 -> P 10 -> P 11 -> P 12 -> P 13 -> P 14 -> P 15 -> forall d, 0 <= d < 16 -> P d.
Proof. intros. assert (C : d = 0 \/ d = 1 \/ d = 2 \/ d = 3 \/ d = 4 \/ d = 5 \/ d = 6 \/ d = 7 \/ d = 8 \/ d = 9 \/ d = 10 \/ d = 11 \/ d = 12 \/ d = 13 \/ d = 14 \/ d = 15) by lia. repeat (destruct C as [-> | C]; [assumption|]). subst d. assumption. Qed.
Lemma signal_hex d : 0 <= d < 16 -> to_hex (signal d) = hex_digit d.
Proof. revert d. apply digit_cases; reflexivity. Qed.
Lemma hex_value_digit d : 0 <= d < 16 -> hex_value (hex_digit d) = d.
Proof. revert d. apply digit_cases; reflexivity. Qed.
Lemma weight_digit d : 0 <= d < 16 -> weight (hex_digit d) = count d.
Proof. revert d. apply digit_cases; reflexivity. Qed.
Lemma encode_digit d : 0 <= d < 16 -> d <> 10 -> (hex_digit d =? 65) = false /\
  (if 57 <? hex_digit d then do m <- aget remap (hex_digit d - 55 - 10); Ok (m, hex_digit d - 55) else Ok (hex_digit d, if hex_digit d - 48 =? 0 then 10 else hex_digit d - 48)) = Ok (signal d, count d).
Proof. intros H N. revert N. pattern d. revert d H. apply digit_cases; intros N; try (split; reflexivity). lia. Qed.
Lemma encode_loop_ok l : Forall (fun d => 0 <= d < 16) l -> ~ In 10 l -> encode_loop (map hex_digit l) = Ok (map signal l, Some (total l)).
Proof.
  induction 1 as [|d l Hd F IH]; intros N; [reflexivity|]. cbn [map encode_loop total]. destruct (encode_digit d Hd) as [-> E]; [intros ->; apply N; left; reflexivity|]. rewrite E. cbn [rbind].
  rewrite IH by (intros I; apply N; right; exact I). reflexivity.
Qed.
Lemma encode_loop_bad l : Forall (fun d => 0 <= d < 16) l -> In 10 l -> exists l', encode_loop (map hex_digit l) = Ok (l', None).
Proof.
  induction 1 as [|d l Hd F IH]; intros N; [contradiction|]. destruct (Z.eq_dec d 10) as [->|D]; [eexists; reflexivity|]. destruct N as [X | N]; [contradiction|]. destruct (IH N) as [l' E].
  cbn [map encode_loop]. destruct (encode_digit d Hd D) as [-> E']. rewrite E'. cbn [rbind]. rewrite E. eexists. reflexivity.
Qed.
Lemma total_pos l : Forall (fun d => 0 <= d < 16) l -> 0 <= total l.
Proof. induction 1 as [|d l Hd F IH]; cbn [total]; [lia|]. unfold count. destruct (d =? 0); lia. Qed.
Lemma total_app a b : total (a ++ b) = total a + total b.
Proof. induction a as [|d a IH]; cbn [app total]; lia. Qed.
Lemma check_digit s : 0 <= s -> let c := (s + 15) / 15 * 15 - s in 1 <= c <= 15 /\ (s + c) mod 15 = 0 /\
  (if c =? 0 then Ok 67 else if c <=? 9 then Ok (c + 48) else aget remap (c - 10)) = Ok (signal c).
Proof.
  intros H. cbv zeta. assert (A : 1 <= (s + 15) / 15 * 15 - s <= 15) by (pose proof (Z.div_mod (s + 15) 15 ltac:(lia)); pose proof (Z.mod_pos_bound (s + 15) 15 ltac:(lia)); lia).
  set (c := (s + 15) / 15 * 15 - s) in *. split; [exact A|]. split; [unfold c; replace (s + ((s + 15) / 15 * 15 - s)) with ((s + 15) / 15 * 15) by ring; apply Z.mod_mul; lia|].
  clearbody c. assert (N : c <> 0) by lia. assert (R : 0 <= c < 16) by lia. clear A. revert N. pattern c. revert c R. apply digit_cases; intros N; try reflexivity; lia.
Qed.
Lemma in10 l : {In 10 l} + {~ In 10 l}.
Proof. apply in_dec, Z.eq_dec. Qed.
Lemma encode_ok r : in_range r -> ~ In 10 (digits_of r) -> exists l, encode_msg 17 r = Ok (l, 16) /\ message r l.
Proof.
  intros R N. pose proof (digits_range r R) as F. unfold encode_msg. rewrite (printed_eq r R). rewrite map_length. change (17 <=? Z.of_nat (length (digits_of r))) with false. cbv iota zeta. rewrite (encode_loop_ok _ F N). cbn [rbind].
  pose proof (total_pos _ F) as T. destruct (check_digit _ T) as (C1 & C2 & C3). cbv zeta in *. rewrite C3. cbn [rbind]. rewrite map_length. change (17 <=? Z.of_nat (length (digits_of r)) + 1) with false. cbv iota. eexists. split; [reflexivity|].
  exists ((total (digits_of r) + 15) / 15 * 15 - total (digits_of r)). split; [exact C1|]. split; [exact C2|]. rewrite map_app. reflexivity.
Qed.
Lemma encode_refuses r : in_range r -> In 10 (digits_of r) -> exists l, encode_msg 17 r = Ok (l, -1).
Proof.
  intros R N. pose proof (digits_range r R) as F. unfold encode_msg. rewrite (printed_eq r R), map_length. change (17 <=? Z.of_nat (length (digits_of r))) with false. cbv iota zeta. destruct (encode_loop_bad _ F N) as [l ->]. eexists. reflexivity.
Qed.

(** ---- decoding ---- *)
Lemma checksum_from l : forall s, fold_left (fun s c => s + weight (to_hex c)) l s = s + checksum l.
Proof. unfold checksum. induction l as [|c l IH]; intros s; cbn [fold_left]; [lia|]. rewrite IH, (IH (0 + _)). lia. Qed.
Lemma checksum_cons c l : checksum (c :: l) = weight (to_hex c) + checksum l.
Proof. unfold checksum at 1. cbn [fold_left]. rewrite checksum_from. lia. Qed.
Lemma checksum_signals l : Forall (fun d => 0 <= d < 16) l -> checksum (map signal l) = total l.
Proof. induction 1 as [|d l Hd F IH]; [reflexivity|]. cbn [map total]. rewrite checksum_cons, IH, signal_hex, weight_digit by exact Hd. reflexivity. Qed.
Lemma hex_signals l : Forall (fun d => 0 <= d < 16) l -> map to_hex (map signal l) = map hex_digit l.
Proof. induction 1 as [|d l Hd F IH]; [reflexivity|]. cbn [map]. rewrite IH, signal_hex by exact Hd. reflexivity. Qed.
Definition from_digits (d : list Z) : Z := fold_left (fun v x => v * 16 + x) d 0.
Lemma value_digits l : Forall (fun d => 0 <= d < 16) l -> forall v, fold_left (fun v x => v * 16 + hex_value x) (map hex_digit l) v = fold_left (fun v x => v * 16 + x) l v.
Proof. induction 1 as [|d l Hd F IH]; intros v; [reflexivity|]. cbn [map fold_left]. rewrite hex_value_digit by exact Hd. apply IH. Qed.
Lemma scan_digits (w : nat) l : Forall (fun d => 0 <= d < 16) l -> l <> [] -> scan w (map hex_digit l) = Some (from_digits (firstn w l), map hex_digit (skipn w l)).
Proof.
  intros F N. unfold scan. destruct l as [|d l]; [contradiction|]. cbn [map]. change (hex_digit d :: map hex_digit l) with (map hex_digit (d :: l)). 
  rewrite firstn_map, skipn_map. rewrite value_digits; [reflexivity|]. apply Forall_forall. intros x I. apply (proj1 (Forall_forall _ _) F). rewrite <- (firstn_skipn w (d :: l)). apply in_or_app. left. exact I.
Qed.
Lemma scan_report_ok d0 d1 d2 d3 d4 d5 d6 d7 d8 d9 d10 d11 d12 d13 d14 c : Forall (fun d => 0 <= d < 16) [d0; d1; d2; d3; d4; d5; d6; d7; d8; d9; d10; d11; d12; d13; d14; c] ->
  scan_report (map hex_digit [d0; d1; d2; d3; d4; d5; d6; d7; d8; d9; d10; d11; d12; d13; d14; c]) =
  Some {| acct := from_digits [d0; d1; d2; d3]; mt := from_digits [d4; d5]; q := from_digits [d6]; xyz := from_digits [d7; d8; d9]; gg := from_digits [d10; d11]; ccc := from_digits [d12; d13; d14] |}.
Proof.
  intros F. unfold scan_report.
  assert (T : forall k l, Forall (fun d => 0 <= d < 16) l -> Forall (fun d => 0 <= d < 16) (skipn k l)) by (intros k l G; apply Forall_forall; intros x I; apply (proj1 (Forall_forall _ _) G); rewrite <- (firstn_skipn k l); apply in_or_app; right; exact I).
  rewrite scan_digits by (try assumption; discriminate). pose proof (T 4%nat _ F) as F1. cbn [skipn firstn] in *.
  rewrite scan_digits by (try assumption; discriminate). pose proof (T 2%nat _ F1) as F2. cbn [skipn firstn] in *.
  rewrite scan_digits by (try assumption; discriminate). pose proof (T 1%nat _ F2) as F3. cbn [skipn firstn] in *.
  rewrite scan_digits by (try assumption; discriminate). pose proof (T 3%nat _ F3) as F4. cbn [skipn firstn] in *.
  rewrite scan_digits by (try assumption; discriminate). pose proof (T 2%nat _ F4) as F5. cbn [skipn firstn] in *.
  rewrite scan_digits by (try assumption; discriminate). reflexivity.
Qed.
Lemma decode_message r l : in_range r -> message r l -> decode_msg l = Ok (Some r).
Proof.
  intros R (c & Hc & S & ->). assert (F : Forall (fun d => 0 <= d < 16) (digits_of r ++ [c])) by (apply Forall_app; split; [apply digits_range, R | constructor; [lia | constructor]]).
  unfold decode_msg. rewrite map_length, app_length. change (20 <=? Z.of_nat (length (digits_of r) + length [c])) with false. cbv iota. rewrite (checksum_signals _ F), total_app. cbn [total].
  replace (count c) with c by (unfold count; destruct (Z.eqb_spec c 0); lia). rewrite Z.add_0_r. pose proof (total_pos _ (digits_range r R)). rewrite Z.rem_mod_nonneg by lia. rewrite S. change (negb (0 =? 0)) with false. cbv iota. rewrite (hex_signals _ F).
  f_equal. unfold digits_of in *. cbn [app] in *. rewrite scan_report_ok by exact F. f_equal. clear F S. destruct R as (A & B & C & D & E & G), r as [ra rm rq rx rg rc]. cbn [acct mt q xyz gg ccc] in *. unfold from_digits. cbn [fold_left].
  f_equal.
  - pose proof (Z.div_mod ra 16 ltac:(lia)). pose proof (Z.div_mod (ra / 16) 16 ltac:(lia)). pose proof (Z.div_mod (ra / 256) 16 ltac:(lia)). rewrite Z.div_div in * by lia. change (16 * 16) with 256 in *. change (256 * 16) with 4096 in *. lia.
  - pose proof (Z.div_mod rm 16 ltac:(lia)). lia.
  - pose proof (Z.div_mod rx 16 ltac:(lia)). pose proof (Z.div_mod (rx / 16) 16 ltac:(lia)). rewrite Z.div_div in * by lia. change (16 * 16) with 256 in *. lia.
  - pose proof (Z.div_mod rg 16 ltac:(lia)). lia.
  - pose proof (Z.div_mod rc 16 ltac:(lia)). pose proof (Z.div_mod (rc / 16) 16 ltac:(lia)). rewrite Z.div_div in * by lia. change (16 * 16) with 256 in *. lia.
Qed.

(** ---- any digits ---- *)
Lemma dtmf_signal c : In c signals -> exists d, 0 <= d < 16 /\ c = signal d.
Proof. intros I. cbn in I. repeat (destruct I as [<- | I]; [match goal with |- exists d, _ /\ ?c = _ => first [exists 0; split; [lia | reflexivity] | exists 1; split; [lia | reflexivity] | exists 2; split; [lia | reflexivity] | exists 3; split; [lia | reflexivity] | exists 4; split; [lia | reflexivity] | exists 5; split; [lia | reflexivity] | exists 6; split; [lia | reflexivity] | exists 7; split; [lia | reflexivity] | exists 8; split; [lia | reflexivity] | exists 9; split; [lia | reflexivity] | exists 10; split; [lia | reflexivity] | exists 11; split; [lia | reflexivity] | exists 12; split; [lia | reflexivity] | exists 13; split; [lia | reflexivity] | exists 14; split; [lia | reflexivity] | exists 15; split; [lia | reflexivity]] end|]). contradiction. Qed.
Lemma signals_of l : Forall (fun c => In c signals) l -> exists ds, l = map signal ds /\ Forall (fun d => 0 <= d < 16) ds.
Proof. induction 1 as [|c l Hc F (ds & -> & G)]; [exists []; split; [reflexivity | constructor]|]. destruct (dtmf_signal c Hc) as (d & Hd & ->). exists (d :: ds). split; [reflexivity | constructor; assumption]. Qed.
Lemma count_differ x y : 0 <= x < 16 -> 0 <= y < 16 -> x <> y -> ~ alike (signal x) (signal y) -> (count x - count y) mod 15 <> 0.
Proof.
  intros Hx Hy N A M. assert (C : 1 <= count x <= 15 /\ 1 <= count y <= 15) by (unfold count; destruct (Z.eqb_spec x 0), (Z.eqb_spec y 0); lia).
  assert (E : count x = count y) by (apply Z.mod_divide in M as [k M]; [|lia]; nia). unfold count in E. destruct (Z.eqb_spec x 0), (Z.eqb_spec y 0); subst; try lia; apply A; [left | right]; split; reflexivity.
Qed.
Lemma one_wrong_sum a : forall b, Forall (fun d => 0 <= d < 16) a -> Forall (fun d => 0 <= d < 16) b -> one_wrong_not_alike (map signal a) (map signal b) -> (total a - total b) mod 15 <> 0.
Proof.
  induction a as [|x a IH]; intros [|y b] Fa Fb H; cbn [map one_wrong_not_alike] in H; try contradiction. inversion Fa as [|? ? Hx Fa']; subst. inversion Fb as [|? ? Hy Fb']; subst. cbn [total]. destruct H as [(N & A & E) | (E & H)].
  - assert (T : total a = total b). { rewrite <- (checksum_signals a Fa'), <- (checksum_signals b Fb'), E. reflexivity. } rewrite T. replace (count x + total b - (count y + total b)) with (count x - count y) by ring.
    apply count_differ; auto. intros ->. apply N. reflexivity.
  - assert (X : count x = count y). { rewrite <- (weight_digit x Hx), <- (weight_digit y Hy), <- !signal_hex, E by assumption. reflexivity. } rewrite X. replace (count y + total a - (count y + total b)) with (total a - total b) by ring. apply IH; assumption.
Qed.
Lemma decode_any l : Forall (fun c => In c signals) l -> length l = 16%nat -> exists o, decode_msg l = Ok o /\ (o <> None <-> Z.rem (checksum l) 15 = 0) /\ forall r, o = Some r -> in_range r.
Proof.
  intros F L. destruct (signals_of l F) as (ds & -> & G). rewrite map_length in L. unfold decode_msg. rewrite map_length, L. change (20 <=? Z.of_nat 16) with false. cbv iota. destruct (Z.eqb_spec (Z.rem (checksum (map signal ds)) 15) 0) as [E|E]; cbn [negb].
  - rewrite (hex_signals _ G). do 17 (destruct ds as [|? ds]; try discriminate L). rewrite scan_report_ok by exact G. eexists. split; [reflexivity|]. split; [split; [intros _; exact E | discriminate]|]. intros r X. injection X as <-. unfold in_range, from_digits. cbn [acct mt q xyz gg ccc fold_left].
    repeat match goal with H : Forall _ (_ :: _) |- _ => inversion H; clear H; subst end. lia.
  - eexists. split; [reflexivity|]. split; [split; [contradiction | intros X; contradiction] | discriminate].
Qed.
Lemma checksum_nonneg ds : Forall (fun d => 0 <= d < 16) ds -> 0 <= checksum (map signal ds).
Proof. intros F. rewrite checksum_signals by exact F. apply total_pos, F. Qed.
Lemma detects a b r : Forall (fun c => In c signals) a -> Forall (fun c => In c signals) b -> length a = 16%nat -> length b = 16%nat -> decode_msg a = Ok (Some r) -> one_wrong_not_alike a b -> decode_msg b = Ok None.
Proof.
  intros Fa Fb La Lb D W. destruct (decode_any a Fa La) as (o & E & I & _). rewrite D in E. injection E as <-. destruct (decode_any b Fb Lb) as (o' & E' & I' & _). rewrite E'. destruct o' as [r'|]; [exfalso | reflexivity].
  assert (A0 : Z.rem (checksum a) 15 = 0) by (apply I; discriminate). assert (B0 : Z.rem (checksum b) 15 = 0) by (apply I'; discriminate).
  destruct (signals_of a Fa) as (da & -> & Ga), (signals_of b Fb) as (db & -> & Gb). pose proof (checksum_nonneg da Ga). pose proof (checksum_nonneg db Gb). rewrite Z.rem_mod_nonneg in A0, B0 by lia. rewrite checksum_signals in A0, B0 by assumption.
  apply (one_wrong_sum da db Ga Gb W). rewrite Zminus_mod, A0, B0. reflexivity.
Qed.

(** ---- the receiver ---- *)
Definition accepted (g : list Z) : list report := match decode_msg g with Ok (Some r) => [r] | _ => [] end.
Lemma receive_ok l : forall rx, (length rx < 16)%nat -> Forall (fun c => In c signals) rx -> Forall (fun c => In c signals) l ->
  exists rx', receive rx l = Ok (rx', flat_map accepted (groups (length l + 1) (rx ++ l))) /\ (length rx' < 16)%nat.
Proof.
  induction l as [|d l IH]; intros rx L F G.
  - exists rx. cbn [receive length Nat.add groups]. rewrite app_nil_r. replace (16 <=? length rx)%nat with false by (symmetry; apply Nat.leb_gt; lia). split; [reflexivity | exact L].
  - inversion G as [|? ? Hd G']; subst. assert (F' : Forall (fun c => In c signals) (rx ++ [d])) by (apply Forall_app; split; [exact F | constructor; [exact Hd | constructor]]). cbn [receive]. unfold digit_delivery. rewrite app_length. cbn [length]. replace (17 <? Z.of_nat (length rx + 1)) with false by (symmetry; apply Z.ltb_ge; lia).
    replace (rx ++ d :: l) with ((rx ++ [d]) ++ l) by (rewrite <- app_assoc; reflexivity).
    destruct (Nat.eqb_spec (length rx + 1) 16) as [E|E].
    + destruct (decode_any (rx ++ [d]) F' ltac:(rewrite app_length; cbn; lia)) as (o & D & _). rewrite D. cbn [rbind]. destruct (IH [] ltac:(cbn; lia) ltac:(constructor) G') as (rx' & E' & L'). rewrite E'. cbn [rbind app]. exists rx'. split; [|exact L'].
      cbn [Nat.add groups]. replace (16 <=? length ((rx ++ [d]) ++ l))%nat with true by (symmetry; apply Nat.leb_le; rewrite !app_length; cbn; lia).
      assert (L16 : length (rx ++ [d]) = 16%nat) by (rewrite app_length; cbn; lia). replace (firstn 16 ((rx ++ [d]) ++ l)) with (rx ++ [d]) by (rewrite <- L16, firstn_app, Nat.sub_diag, firstn_all, firstn_O, app_nil_r; reflexivity).
      replace (skipn 16 ((rx ++ [d]) ++ l)) with l by (rewrite <- L16, skipn_app, Nat.sub_diag, skipn_all; reflexivity). cbn [flat_map]. unfold accepted at 2. rewrite D. reflexivity.
    + cbn [rbind]. destruct (IH (rx ++ [d]) ltac:(rewrite app_length; cbn; lia) F' G') as (rx' & E' & L'). rewrite E'. cbn [rbind app]. exists rx'. split; [|exact L']. f_equal. f_equal. f_equal.
      clear - L E.
      assert (M2 : forall n m k, (length m <= 16 * n + 15)%nat -> (n <= k)%nat -> groups k m = groups n m).
      { induction n as [|n IHn]; intros m k Hm Hk; destruct k as [|k]; try lia; cbn [groups]; auto.
        - replace (16 <=? length m)%nat with false by (symmetry; apply Nat.leb_gt; lia). reflexivity.
        - destruct (Nat.leb_spec 16 (length m)); [|reflexivity]. f_equal. apply IHn; [rewrite skipn_length; lia | lia]. }
      symmetry. apply M2; cbn [length]; [rewrite !app_length; cbn [length]; lia | lia].
Qed.
