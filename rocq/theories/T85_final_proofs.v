(** The T.85 properties in the words of T85_spec. *)
From Verif Require Import Base Bits Arith_model T85_enc_model T85_dec_model T85_spec T85_hdr_model T85_safe_proofs T85_whole_proofs T85_lossless_proofs T85_hdr_proofs.
From Coq Require Import ZifyBool ZifyNat.
Local Open Scope Z_scope.

Lemma lossless_final w h l m opts max_xd max_yd rows : 1 <= w <= 4294967288 -> 1 <= h < 4294967296 -> (max_xd = 0 \/ w <= max_xd) ->
  Forall (fun r => Z.of_nat (length r) = (w + 7) / 8 /\ bytes r) rows ->
  let variable_length := (opts <? 0) || Z.testbit opts 5 in
  let image := picture w h variable_length rows in
  (max_yd = 0 \/ Z.of_nat (length image) <= max_yd) ->
  exists P, bytes P /\
    (forall sizes, Forall (fun n => 0 <= n) sizes ->
       exists s' rows', gets (t85_encode_set_options (t85_encode_init w h) l m opts) rows sizes = Ok (s', rows', cut sizes P)) /\
    (forall junk pieces, concat pieces = P -> Forall (fun d => d <> []) pieces ->
       exists rs s', feed junk (t85_decode_set_image_size_constraints t85_decode_init max_xd max_yd) (pieces ++ [[]]) = Ok (rs, s') /\
         (rs = repeat MORE_DATA (length pieces - 1) ++ [OK; OK] \/ variable_length = true /\ rs = repeat MORE_DATA (length pieces) ++ [OK]) /\
         events s' = map Row image).
Proof.
  intros W H MX HF vl image HY.
  destruct (lossless w h l m opts W H (t85_decode_set_image_size_constraints t85_decode_init max_xd max_yd) eq_refl MX rows HF eq_refl) as (P & B & PL & _ & EG & ED).
  { rewrite the_options_v. exact HY. }
  exists P. split; [exact B|]. split; [exact EG|]. intros junk pieces EP HP. destruct (ED junk pieces EP HP) as (rs & s' & EF & OC & EV). exists rs, s'. split; [exact EF|].
  split; [|rewrite EV, the_options_v; reflexivity].
  assert (LP : (0 < length pieces)%nat) by (destruct pieces; [cbn in EP; subst P; cbn in PL; lia|cbn [length]; lia]).
  destruct OC as [->|(V & _ & ->)]; [left; rewrite Nat.sub_1_r; reflexivity|right]. rewrite the_options_v in V. split; [exact V|]. rewrite Nat.succ_pred by lia. reflexivity.
Qed.

Definition handled (s : td) (comments : option Z) : td := match comments with Some n => t85_decode_set_comment_handler s n | None => s end.
Lemma safe_final junk max_xd max_yd comments pieces : 0 < max_xd <= 4294967288 -> Forall bytes pieces ->
  exists rs s', feed junk (handled (t85_decode_set_image_size_constraints t85_decode_init max_xd max_yd) comments) pieces = Ok (rs, s').
Proof.
  intros H HB. apply feed_safe; [|exact HB]. left. destruct comments; unfold header; cbn [handled t85_decode_set_comment_handler t85_decode_set_image_size_constraints t85_decode_init d_bie_len d_hdr d_max_xd length]; (split; [reflexivity|split; [lia|split; [constructor|lia]]]).
Qed.

Lemma width_final w h l m opts rows : 1 <= w < 65536 -> 1 <= h < 65536 -> Forall (fun r => Z.of_nat (length r) = (w + 7) / 8 /\ bytes r) rows ->
  exists P, (forall sizes, Forall (fun n => 0 <= n) sizes ->
       exists s' rows', gets (t85_encode_set_options (t85_encode_init w h) l m opts) rows sizes = Ok (s', rows', cut sizes P)) /\
    forall turns valid width len, t85_analyse_header turns P = Some (Ok (valid, width, len)) -> width = 65536 * w.
Proof.
  intros W H HF.
  destruct (lossless w h l m opts ltac:(lia) ltac:(lia) t85_decode_init eq_refl (or_introl eq_refl) rows HF eq_refl (or_introl eq_refl)) as (P & B & PL & EH & EG & _).
  exists P. split; [exact EG|]. intros turns valid width len E.
  apply (width_wrong _ _ _ P turns valid width len) with (4 := EH) in E; [exact E| | |exact PL]. { cbn [xd]. lia. }
  unfold header_length. destruct (opt _ _); [destruct rows|]; lia.
Qed.

Ltac some_bytes := unfold bytes; cbn [app repeat]; repeat first [apply Forall_nil | apply Forall_cons; [red; lia|]].
Lemma wide_final : exists pieces, Forall bytes pieces /\ feed (fun _ => 0) t85_decode_init pieces = UB.
Proof.
  exists [[0; 0; 1; 0] ++ [255; 255; 255; 249] ++ [0; 0; 0; 1] ++ [0; 0; 0; 1; 0; 0; 0; 0]; repeat 0 10]. split.
  - apply Forall_cons; [|apply Forall_cons; [|apply Forall_nil]]; some_bytes.
  - lazy. reflexivity.
Qed.

Lemma rejected_final : exists hdr more s', bytes hdr /\ bytes more /\
  t85_decode_put (fun _ => 0) (t85_decode_set_image_size_constraints t85_decode_init 2000 0) hdr = Ok (INVALID_DATA, s') /\
  t85_decode_put (fun _ => 0) s' more = UB.
Proof.
  exists ([0; 0; 1; 0] ++ [0; 0; 15; 16] ++ [0; 0; 0; 1] ++ [0; 0; 0; 1; 0; 0; 0; 0]), [0; 0; 0; 0; 1; 2; 3; 4; 5; 6]. eexists.
  split; [some_bytes|]. split; [some_bytes|]. split; [lazy; reflexivity|]. lazy. reflexivity.
Qed.

Lemma endless_final : exists data, bytes data /\ forall turns, t85_analyse_header turns data = None.
Proof. exists endless. split; [unfold endless; some_bytes|exact analyse_endless]. Qed.
