(** Model of src/g711.c and src/spandsp/g711.h (G711_ULAW_ZEROTRAP is not defined, as in the source). *)
From Verif Require Import Base BitOps_model.

(** src/spandsp/g711.h:124-158 linear_to_ulaw.  [linear] is an int; the additions do not overflow for
    |linear| <= 2^31 - 1 - 0x84. *)
Definition linear_to_ulaw (linear : Z) : Z :=
  let '(linear, mask) := if 0 <=? linear then (0x84 + linear, 0xFF) else (0x84 - linear, 0x7F) in
  let seg := top_bit (Z.lor linear 0xFF) - 7 in
  if 8 <=? seg then u8 (Z.lxor 0x7F mask)
  else u8 (Z.lxor (Z.lor (Z.shiftl seg 4) (Z.land (Z.shiftr linear (seg + 3)) 0xF)) mask).

(** src/spandsp/g711.h:165-177 ulaw_to_linear *)
Definition ulaw_to_linear (ulaw : Z) : Z :=
  let ulaw := u8 (Z.lnot ulaw) in
  let t := Z.shiftl (Z.shiftl (Z.land ulaw 0x0F) 3 + 0x84) (Z.shiftr (Z.land ulaw 0x70) 4) in
  s16 (if Z.land ulaw 0x80 =? 0 then t - 0x84 else 0x84 - t).

(** src/spandsp/g711.h:202-232 linear_to_alaw; G711_ALAW_AMI_MASK is 0x55 (g711.h:57) *)
Definition linear_to_alaw (linear : Z) : Z :=
  let '(linear, mask) := if 0 <=? linear then (linear, Z.lor 0x80 0x55) else (- linear - 1, 0x55) in
  let seg := top_bit (Z.lor linear 0xFF) - 7 in
  if 8 <=? seg then u8 (Z.lxor 0x7F mask)
  else u8 (Z.lxor (Z.lor (Z.shiftl seg 4) (Z.land (Z.shiftr linear (if seg =? 0 then 4 else seg + 3)) 0x0F)) mask).

(** src/spandsp/g711.h:239-252 alaw_to_linear *)
Definition alaw_to_linear (alaw : Z) : Z :=
  let alaw := Z.lxor alaw 0x55 in
  let i := Z.shiftl (Z.land alaw 0x0F) 4 in
  let seg := Z.shiftr (Z.land alaw 0x70) 4 in
  let i := if seg =? 0 then i + 8 else Z.shiftl (i + 0x108) (seg - 1) in
  s16 (if Z.land alaw 0x80 =? 0 then - i else i).

(** src/g711.c:44-62 *)
Definition ulaw_to_alaw_table : list Z :=
  [42; 43; 40; 41; 46; 47; 44; 45; 34; 35; 32; 33;
   38; 39; 36; 37; 58; 59; 56; 57; 62; 63; 60; 61;
   50; 51; 48; 49; 54; 55; 52; 53; 10; 11; 8; 9;
   14; 15; 12; 13; 2; 3; 0; 1; 6; 7; 4; 26;
   27; 24; 25; 30; 31; 28; 29; 18; 19; 16; 17; 22;
   23; 20; 21; 106; 104; 105; 110; 111; 108; 109; 98; 99;
   96; 97; 102; 103; 100; 101; 122; 120; 126; 127; 124; 125;
   114; 115; 112; 113; 118; 119; 116; 117; 75; 73; 79; 77;
   66; 67; 64; 65; 70; 71; 68; 69; 90; 91; 88; 89;
   94; 95; 92; 93; 82; 82; 83; 83; 80; 80; 81; 81;
   86; 86; 87; 87; 84; 84; 85; 85; 170; 171; 168; 169;
   174; 175; 172; 173; 162; 163; 160; 161; 166; 167; 164; 165;
   186; 187; 184; 185; 190; 191; 188; 189; 178; 179; 176; 177;
   182; 183; 180; 181; 138; 139; 136; 137; 142; 143; 140; 141;
   130; 131; 128; 129; 134; 135; 132; 154; 155; 152; 153; 158;
   159; 156; 157; 146; 147; 144; 145; 150; 151; 148; 149; 234;
   232; 233; 238; 239; 236; 237; 226; 227; 224; 225; 230; 231;
   228; 229; 250; 248; 254; 255; 252; 253; 242; 243; 240; 241;
   246; 247; 244; 245; 203; 201; 207; 205; 194; 195; 192; 193;
   198; 199; 196; 197; 218; 219; 216; 217; 222; 223; 220; 221;
   210; 210; 211; 211; 208; 208; 209; 209; 214; 214; 215; 215;
   212; 212; 213; 213].

(** src/g711.c:67-85 *)
Definition alaw_to_ulaw_table : list Z :=
  [42; 43; 40; 41; 46; 47; 44; 45; 34; 35; 32; 33;
   38; 39; 36; 37; 57; 58; 55; 56; 61; 62; 59; 60;
   49; 50; 47; 48; 53; 54; 51; 52; 10; 11; 8; 9;
   14; 15; 12; 13; 2; 3; 0; 1; 6; 7; 4; 5;
   26; 27; 24; 25; 30; 31; 28; 29; 18; 19; 16; 17;
   22; 23; 20; 21; 98; 99; 96; 97; 102; 103; 100; 101;
   93; 93; 92; 92; 95; 95; 94; 94; 116; 118; 112; 114;
   124; 126; 120; 122; 106; 107; 104; 105; 110; 111; 108; 109;
   72; 73; 70; 71; 76; 77; 74; 75; 64; 65; 63; 63;
   68; 69; 66; 67; 86; 87; 84; 85; 90; 91; 88; 89;
   79; 79; 78; 78; 82; 83; 80; 81; 170; 171; 168; 169;
   174; 175; 172; 173; 162; 163; 160; 161; 166; 167; 164; 165;
   185; 186; 183; 184; 189; 190; 187; 188; 177; 178; 175; 176;
   181; 182; 179; 180; 138; 139; 136; 137; 142; 143; 140; 141;
   130; 131; 128; 129; 134; 135; 132; 133; 154; 155; 152; 153;
   158; 159; 156; 157; 146; 147; 144; 145; 150; 151; 148; 149;
   226; 227; 224; 225; 230; 231; 228; 229; 221; 221; 220; 220;
   223; 223; 222; 222; 244; 246; 240; 242; 252; 254; 248; 250;
   234; 235; 232; 233; 238; 239; 236; 237; 200; 201; 198; 199;
   204; 205; 202; 203; 192; 193; 191; 191; 196; 197; 194; 195;
   214; 215; 212; 213; 218; 219; 216; 217; 207; 207; 206; 206;
   210; 211; 208; 209].

(** src/g711.c:87-96; the argument is a uint8_t *)
Definition alaw_to_ulaw (a : Z) : Z := nth (Z.to_nat a) alaw_to_ulaw_table 0.
Definition ulaw_to_alaw (u : Z) : Z := nth (Z.to_nat u) ulaw_to_alaw_table 0.

(** for (i = 0; i < n; i++) out[i] = f(inp[i]); *)
Fixpoint xform (f : Z -> Z) (i : Z) (n : nat) (out inp : list Z) : res (list Z) :=
  match n with
  | O => Ok out
  | S k => do x <- aget inp i; do out <- aset out i (f x); xform f (i + 1) k out inp
  end.
Inductive g711_mode := G711_ALAW | G711_ULAW.
(** src/g711.c:99-120 g711_decode; 123-144 g711_encode; 147-168 g711_transcode.
    Result: the output buffer and the returned count. *)
Definition g711_decode (m : g711_mode) (amp data : list Z) (n : Z) : res (list Z * Z) :=
  do out <- xform (match m with G711_ALAW => alaw_to_linear | G711_ULAW => ulaw_to_linear end) 0 (Z.to_nat n) amp data;
  Ok (out, n).
Definition g711_encode (m : g711_mode) (data amp : list Z) (n : Z) : res (list Z * Z) :=
  do out <- xform (match m with G711_ALAW => linear_to_alaw | G711_ULAW => linear_to_ulaw end) 0 (Z.to_nat n) data amp;
  Ok (out, n).
Definition g711_transcode (m : g711_mode) (outb inp : list Z) (n : Z) : res (list Z * Z) :=
  do out <- xform (match m with G711_ALAW => alaw_to_ulaw | G711_ULAW => ulaw_to_alaw end) 0 (Z.to_nat n) outb inp;
  Ok (out, n).
