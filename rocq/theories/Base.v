(** Common vocabulary for the spandsp models: outcomes with explicit undefined
    behaviour, C integer wrap-around, checked arrays and bit lists. *)
From Coq Require Export ZArith List Bool Lia.
Export ListNotations.
Open Scope Z_scope.

(** Result of running a piece of C code: a value, or undefined behaviour
    (out-of-bounds access, out-of-range shift, ...). *)
Inductive res (A : Type) : Type :=
| Ok (a : A)
| UB.
Arguments Ok {A} a.
Arguments UB {A}.

Definition rbind {A B} (m : res A) (k : A -> res B) : res B :=
  match m with Ok a => k a | UB => UB end.
Notation "'do' x <- m ; k" := (rbind m (fun x => k))
  (at level 200, x pattern, m at level 100, k at level 200, right associativity).

Definition is_ok {A} (m : res A) : bool := match m with Ok _ => true | UB => false end.

(** C integer conversions (all platforms supported by spandsp: two's complement). *)
Definition u8  (x : Z) : Z := x mod 256.
Definition u16 (x : Z) : Z := x mod 65536.
Definition u32 (x : Z) : Z := x mod 4294967296.
Definition u64 (x : Z) : Z := x mod 18446744073709551616.
Definition s16 (x : Z) : Z := (x + 32768) mod 65536 - 32768.
Definition s32 (x : Z) : Z := (x + 2147483648) mod 4294967296 - 2147483648.

(** A C octet. *)
Definition byte (x : Z) : Prop := 0 <= x < 256.
Definition is_byte (x : Z) : bool := (0 <=? x) && (x <? 256).
Definition bytes (l : list Z) : Prop := Forall byte l.

(** Bounds-checked array access: an access outside the array is UB. *)
Definition in_bounds (l : list Z) (i : Z) : bool := (0 <=? i) && (i <? Z.of_nat (length l)).
Definition aget (l : list Z) (i : Z) : res Z :=
  if in_bounds l i then Ok (nth (Z.to_nat i) l 0) else UB.
Fixpoint upd {A} (l : list A) (n : nat) (x : A) : list A :=
  match l, n with
  | [], _ => []
  | _ :: t, O => x :: t
  | h :: t, S m => h :: upd t m x
  end.
Definition aset (l : list Z) (i : Z) (x : Z) : res (list Z) :=
  if in_bounds l i then Ok (upd l (Z.to_nat i) x) else UB.

(** Reading [n] consecutive elements from index [off] (nothing is read when [n <= 0]). *)
Definition aslice (l : list Z) (off n : Z) : res (list Z) :=
  if n <=? 0 then Ok []
  else if (0 <=? off) && (off + n <=? Z.of_nat (length l))
       then Ok (firstn (Z.to_nat n) (skipn (Z.to_nat off) l)) else UB.
(** memcpy of the list [src] to index [off]. *)
Definition ablit (l : list Z) (off : Z) (src : list Z) : res (list Z) :=
  match src with
  | [] => Ok l
  | _ => if (0 <=? off) && (off + Z.of_nat (length src) <=? Z.of_nat (length l))
         then Ok (firstn (Z.to_nat off) l ++ src ++ skipn (Z.to_nat off + length src) l) else UB
  end.

(** The [n] low bits of [x], least significant first. *)
Fixpoint bits_lsb (n : nat) (x : Z) : list bool :=
  match n with
  | O => []
  | S k => Z.odd x :: bits_lsb k (Z.div2 x)
  end.
(** The value of a list of bits, least significant first. *)
Fixpoint of_bits_lsb (l : list bool) : Z :=
  match l with
  | [] => 0
  | b :: t => Z.b2z b + 2 * of_bits_lsb t
  end.
(** Most significant first variants. *)
Definition bits_msb (n : nat) (x : Z) : list bool := rev (bits_lsb n x).
Definition of_bits_msb (l : list bool) : Z := of_bits_lsb (rev l).

(** ---- basic lemmas ---- *)

Lemma upd_length {A} (l : list A) n x : length (upd l n x) = length l.
Proof. revert n; induction l as [|a l IH]; intros [|n]; cbn; auto. Qed.

Lemma nth_upd_same {A} (l : list A) n x d : (n < length l)%nat -> nth n (upd l n x) d = x.
Proof. revert n; induction l as [|a l IH]; intros [|n]; cbn; intros H; try lia; auto. apply IH; lia. Qed.

Lemma nth_upd_other {A} (l : list A) n m x d : n <> m -> nth n (upd l m x) d = nth n l d.
Proof. revert n m; induction l as [|a l IH]; intros [|n] [|m]; cbn; intros H; try congruence; auto. Qed.

Lemma bits_lsb_length n x : length (bits_lsb n x) = n.
Proof. revert x; induction n as [|n IH]; cbn; intros; auto. Qed.

Lemma of_bits_lsb_range l : 0 <= of_bits_lsb l < 2 ^ Z.of_nat (length l).
Proof.
  induction l as [|b l IH]; cbn [of_bits_lsb length].
  - cbn; lia.
  - rewrite Nat2Z.inj_succ, Z.pow_succ_r by lia. destruct b; cbn [Z.b2z]; lia.
Qed.

Lemma of_bits_lsb_bits n x : 0 <= x < 2 ^ Z.of_nat n -> of_bits_lsb (bits_lsb n x) = x.
Proof.
  revert x; induction n as [|n IH]; intros x Hx.
  - cbn in *; lia.
  - cbn [bits_lsb of_bits_lsb]. rewrite Nat2Z.inj_succ, Z.pow_succ_r in Hx by lia.
    rewrite IH.
    + pose proof (Z.div2_odd x). lia.
    + pose proof (Z.div2_odd x). destruct (Z.odd x); cbn [Z.b2z] in *; lia.
Qed.

Lemma odd_b2z_2 b x : Z.odd (Z.b2z b + 2 * x) = b.
Proof. rewrite Z.odd_add, Z.odd_mul. destruct b; reflexivity. Qed.
Lemma div2_b2z_2 b x : Z.div2 (Z.b2z b + 2 * x) = x.
Proof. rewrite Z.div2_div. rewrite Z.mul_comm, Z.div_add by lia. destruct b; reflexivity. Qed.

Lemma bits_lsb_of_bits l : bits_lsb (length l) (of_bits_lsb l) = l.
Proof.
  induction l as [|b l IH]; cbn [length bits_lsb of_bits_lsb]; auto.
  rewrite odd_b2z_2, div2_b2z_2, IH. reflexivity.
Qed.

Lemma bits_lsb_inj n x y :
  0 <= x < 2 ^ Z.of_nat n -> 0 <= y < 2 ^ Z.of_nat n -> bits_lsb n x = bits_lsb n y -> x = y.
Proof. intros Hx Hy H. rewrite <- (of_bits_lsb_bits n x Hx), <- (of_bits_lsb_bits n y Hy), H. reflexivity. Qed.

Lemma nth_bits_lsb n x i : (i < n)%nat -> nth i (bits_lsb n x) false = Z.testbit x (Z.of_nat i).
Proof.
  revert x i; induction n as [|n IH]; intros x i Hi; [lia|].
  destruct i as [|i]; cbn [bits_lsb nth].
  - symmetry. apply Z.bit0_odd.
  - rewrite IH by lia. rewrite Nat2Z.inj_succ, Z.div2_spec, Z.shiftr_spec by lia. f_equal; lia.
Qed.

(** Finite sweeps over an initial segment of Z. *)
Fixpoint all_below_from (n : nat) (a : Z) (p : Z -> bool) : bool :=
  match n with
  | O => true
  | S k => p a && all_below_from k (a + 1) p
  end.
Lemma all_below_from_spec n a p :
  all_below_from n a p = true -> forall x, a <= x < a + Z.of_nat n -> p x = true.
Proof.
  revert a; induction n as [|n IH]; intros a H x Hx; [lia|].
  cbn [all_below_from] in H. apply andb_true_iff in H as [H1 H2].
  destruct (Z.eq_dec x a) as [->|Hne]; auto. apply (IH _ H2). lia.
Qed.
Lemma sweep (n : Z) p :
  all_below_from (Z.to_nat n) 0 p = true -> forall x, 0 <= x < n -> p x = true.
Proof. intros H x Hx. apply (all_below_from_spec _ _ _ H). lia. Qed.

(** Sequencing of list-producing maps used in several models. *)
Fixpoint res_map {A B} (f : A -> res B) (l : list A) : res (list B) :=
  match l with
  | [] => Ok []
  | a :: t => do b <- f a; do bs <- res_map f t; Ok (b :: bs)
  end.
Ltac bytes_lit := repeat (apply Forall_cons; [unfold byte; lia|]); apply Forall_nil.
