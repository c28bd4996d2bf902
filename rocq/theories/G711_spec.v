(** Vocabulary for the G.711 properties. *)
From Verif Require Import Base.
Definition int16 (x : Z) : Prop := -32768 <= x < 32768.
(** Half of the quantising interval to which a reconstructed u-law / A-law value y belongs:
    intervals double in width at every power of two of the (u-law: biased by 132) magnitude;
    the two lowest A-law segments share the smallest width. *)
Definition ulaw_half_step (y : Z) : Z := 2 ^ Z.log2 (Z.abs y + 132) / 32.
Definition alaw_half_step (y : Z) : Z := Z.max 8 (2 ^ Z.log2 (Z.abs y) / 32).
