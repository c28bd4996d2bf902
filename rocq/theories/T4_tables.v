(** Tables of src/t4_t6_encode.c and src/t4_t6_decode_states.h, transcribed from the source text. *)
From Verif Require Import Base.

(** src/t4_t6_encode.c:132-140 t4_run_table_entry_t: length and code (bit 0 is sent first), run length *)
Record rte := R { rt_len : Z; rt_code : Z; rt_run : Z }.
(** src/t4_t6_decode_states.h:30-43 the state codes *)
Inductive tst := S_Null | S_Pass | S_Horiz | S_Vert | S_Ext | S_TermW | S_TermB | S_MakeUpW | S_MakeUpB | S_MakeUp | S_EOL.
(** src/t4_t6_decode_states.h:46-54 t4_table_entry_t: state, width of the code, run length or offset *)
Record te := E { te_st : tst; te_width : Z; te_param : Z }.

(** src/t4_t6_encode.c:149-255 *)
Definition t4_white_codes : list rte :=
  [
R 8 0x00AC 0; R 6 0x0038 1; R 4 0x000E 2; R 4 0x0001 3;
   R 4 0x000D 4; R 4 0x0003 5; R 4 0x0007 6; R 4 0x000F 7;
   R 5 0x0019 8; R 5 0x0005 9; R 5 0x001C 10; R 5 0x0002 11;
   R 6 0x0004 12; R 6 0x0030 13; R 6 0x000B 14; R 6 0x002B 15;
   R 6 0x0015 16; R 6 0x0035 17; R 7 0x0072 18; R 7 0x0018 19;
   R 7 0x0008 20; R 7 0x0074 21; R 7 0x0060 22; R 7 0x0010 23;
   R 7 0x000A 24; R 7 0x006A 25; R 7 0x0064 26; R 7 0x0012 27;
   R 7 0x000C 28; R 8 0x0040 29; R 8 0x00C0 30; R 8 0x0058 31;
   R 8 0x00D8 32; R 8 0x0048 33; R 8 0x00C8 34; R 8 0x0028 35;
   R 8 0x00A8 36; R 8 0x0068 37; R 8 0x00E8 38; R 8 0x0014 39;
   R 8 0x0094 40; R 8 0x0054 41; R 8 0x00D4 42; R 8 0x0034 43;
   R 8 0x00B4 44; R 8 0x0020 45; R 8 0x00A0 46; R 8 0x0050 47;
   R 8 0x00D0 48; R 8 0x004A 49; R 8 0x00CA 50; R 8 0x002A 51;
   R 8 0x00AA 52; R 8 0x0024 53; R 8 0x00A4 54; R 8 0x001A 55;
   R 8 0x009A 56; R 8 0x005A 57; R 8 0x00DA 58; R 8 0x0052 59;
   R 8 0x00D2 60; R 8 0x004C 61; R 8 0x00CC 62; R 8 0x002C 63;
   R 5 0x001B 64; R 5 0x0009 128; R 6 0x003A 192; R 7 0x0076 256;
   R 8 0x006C 320; R 8 0x00EC 384; R 8 0x0026 448; R 8 0x00A6 512;
   R 8 0x0016 576; R 8 0x00E6 640; R 9 0x0066 704; R 9 0x0166 768;
   R 9 0x0096 832; R 9 0x0196 896; R 9 0x0056 960; R 9 0x0156 1024;
   R 9 0x00D6 1088; R 9 0x01D6 1152; R 9 0x0036 1216; R 9 0x0136 1280;
   R 9 0x00B6 1344; R 9 0x01B6 1408; R 9 0x0032 1472; R 9 0x0132 1536;
   R 9 0x00B2 1600; R 6 0x0006 1664; R 9 0x01B2 1728; R 11 0x0080 1792;
   R 11 0x0180 1856; R 11 0x0580 1920; R 12 0x0480 1984; R 12 0x0C80 2048;
   R 12 0x0280 2112; R 12 0x0A80 2176; R 12 0x0680 2240; R 12 0x0E80 2304;
   R 12 0x0380 2368; R 12 0x0B80 2432; R 12 0x0780 2496; R 12 0x0F80 2560].

(** src/t4_t6_encode.c:257-363 *)
Definition t4_black_codes : list rte :=
  [
R 10 0x03B0 0; R 3 0x0002 1; R 2 0x0003 2; R 2 0x0001 3;
   R 3 0x0006 4; R 4 0x000C 5; R 4 0x0004 6; R 5 0x0018 7;
   R 6 0x0028 8; R 6 0x0008 9; R 7 0x0010 10; R 7 0x0050 11;
   R 7 0x0070 12; R 8 0x0020 13; R 8 0x00E0 14; R 9 0x0030 15;
   R 10 0x03A0 16; R 10 0x0060 17; R 10 0x0040 18; R 11 0x0730 19;
   R 11 0x00B0 20; R 11 0x01B0 21; R 11 0x0760 22; R 11 0x00A0 23;
   R 11 0x0740 24; R 11 0x00C0 25; R 12 0x0530 26; R 12 0x0D30 27;
   R 12 0x0330 28; R 12 0x0B30 29; R 12 0x0160 30; R 12 0x0960 31;
   R 12 0x0560 32; R 12 0x0D60 33; R 12 0x04B0 34; R 12 0x0CB0 35;
   R 12 0x02B0 36; R 12 0x0AB0 37; R 12 0x06B0 38; R 12 0x0EB0 39;
   R 12 0x0360 40; R 12 0x0B60 41; R 12 0x05B0 42; R 12 0x0DB0 43;
   R 12 0x02A0 44; R 12 0x0AA0 45; R 12 0x06A0 46; R 12 0x0EA0 47;
   R 12 0x0260 48; R 12 0x0A60 49; R 12 0x04A0 50; R 12 0x0CA0 51;
   R 12 0x0240 52; R 12 0x0EC0 53; R 12 0x01C0 54; R 12 0x0E40 55;
   R 12 0x0140 56; R 12 0x01A0 57; R 12 0x09A0 58; R 12 0x0D40 59;
   R 12 0x0340 60; R 12 0x05A0 61; R 12 0x0660 62; R 12 0x0E60 63;
   R 10 0x03C0 64; R 12 0x0130 128; R 12 0x0930 192; R 12 0x0DA0 256;
   R 12 0x0CC0 320; R 12 0x02C0 384; R 12 0x0AC0 448; R 13 0x06C0 512;
   R 13 0x16C0 576; R 13 0x0A40 640; R 13 0x1A40 704; R 13 0x0640 768;
   R 13 0x1640 832; R 13 0x09C0 896; R 13 0x19C0 960; R 13 0x05C0 1024;
   R 13 0x15C0 1088; R 13 0x0DC0 1152; R 13 0x1DC0 1216; R 13 0x0940 1280;
   R 13 0x1940 1344; R 13 0x0540 1408; R 13 0x1540 1472; R 13 0x0B40 1536;
   R 13 0x1B40 1600; R 13 0x04C0 1664; R 13 0x14C0 1728; R 11 0x0080 1792;
   R 11 0x0180 1856; R 11 0x0580 1920; R 12 0x0480 1984; R 12 0x0C80 2048;
   R 12 0x0280 2112; R 12 0x0A80 2176; R 12 0x0680 2240; R 12 0x0E80 2304;
   R 12 0x0380 2368; R 12 0x0B80 2432; R 12 0x0780 2496; R 12 0x0F80 2560].

(** src/t4_t6_encode.c:641-652 the 2-D mode codes (VR3 VR2 VR1 V0 VL1 VL2 VL3 H P) *)
Definition t4_2d_codes : list rte :=
  [R 7 0x60 0; R 6 0x30 0; R 3 0x06 0; R 1 0x01 0; R 3 0x02 0; R 6 0x10 0; R 7 0x20 0; R 3 0x04 0; R 4 0x08 0].

Definition t4_2d_table_0 : list te :=
  [E S_Null 1 0; E S_Vert 1 0; E S_Vert 3 (-1); E S_Vert 1 0; E S_Horiz 3 0; E S_Vert 1 0;
   E S_Vert 3 1; E S_Vert 1 0; E S_Pass 4 0; E S_Vert 1 0; E S_Vert 3 (-1); E S_Vert 1 0;
   E S_Horiz 3 0; E S_Vert 1 0; E S_Vert 3 1; E S_Vert 1 0; E S_Vert 6 (-2); E S_Vert 1 0;
   E S_Vert 3 (-1); E S_Vert 1 0; E S_Horiz 3 0; E S_Vert 1 0; E S_Vert 3 1; E S_Vert 1 0;
   E S_Pass 4 0; E S_Vert 1 0; E S_Vert 3 (-1); E S_Vert 1 0; E S_Horiz 3 0; E S_Vert 1 0;
   E S_Vert 3 1; E S_Vert 1 0; E S_Vert 7 (-3); E S_Vert 1 0; E S_Vert 3 (-1); E S_Vert 1 0;
   E S_Horiz 3 0; E S_Vert 1 0; E S_Vert 3 1; E S_Vert 1 0; E S_Pass 4 0; E S_Vert 1 0;
   E S_Vert 3 (-1); E S_Vert 1 0; E S_Horiz 3 0; E S_Vert 1 0; E S_Vert 3 1; E S_Vert 1 0;
   E S_Vert 6 2; E S_Vert 1 0; E S_Vert 3 (-1); E S_Vert 1 0; E S_Horiz 3 0; E S_Vert 1 0;
   E S_Vert 3 1; E S_Vert 1 0; E S_Pass 4 0; E S_Vert 1 0; E S_Vert 3 (-1); E S_Vert 1 0;
   E S_Horiz 3 0; E S_Vert 1 0; E S_Vert 3 1; E S_Vert 1 0; E S_Ext 7 0; E S_Vert 1 0;
   E S_Vert 3 (-1); E S_Vert 1 0; E S_Horiz 3 0; E S_Vert 1 0; E S_Vert 3 1; E S_Vert 1 0;
   E S_Pass 4 0; E S_Vert 1 0; E S_Vert 3 (-1); E S_Vert 1 0; E S_Horiz 3 0; E S_Vert 1 0;
   E S_Vert 3 1; E S_Vert 1 0; E S_Vert 6 (-2); E S_Vert 1 0; E S_Vert 3 (-1); E S_Vert 1 0;
   E S_Horiz 3 0; E S_Vert 1 0; E S_Vert 3 1; E S_Vert 1 0; E S_Pass 4 0; E S_Vert 1 0;
   E S_Vert 3 (-1); E S_Vert 1 0; E S_Horiz 3 0; E S_Vert 1 0; E S_Vert 3 1; E S_Vert 1 0;
   E S_Vert 7 3; E S_Vert 1 0; E S_Vert 3 (-1); E S_Vert 1 0; E S_Horiz 3 0; E S_Vert 1 0;
   E S_Vert 3 1; E S_Vert 1 0; E S_Pass 4 0; E S_Vert 1 0; E S_Vert 3 (-1); E S_Vert 1 0;
   E S_Horiz 3 0; E S_Vert 1 0; E S_Vert 3 1; E S_Vert 1 0; E S_Vert 6 2; E S_Vert 1 0;
   E S_Vert 3 (-1); E S_Vert 1 0; E S_Horiz 3 0; E S_Vert 1 0; E S_Vert 3 1; E S_Vert 1 0;
   E S_Pass 4 0; E S_Vert 1 0; E S_Vert 3 (-1); E S_Vert 1 0; E S_Horiz 3 0; E S_Vert 1 0;
   E S_Vert 3 1; E S_Vert 1 0].
(** src/t4_t6_decode_states.h:56-186 *)
Definition t4_2d_table : list te :=
  concat [t4_2d_table_0].

Definition t4_1d_white_table_0 : list te :=
  [E S_Null 1 0; E S_TermW 4 3; E S_TermW 5 11; E S_TermW 4 5; E S_TermW 6 12; E S_TermW 5 9;
   E S_MakeUpW 6 1664; E S_TermW 4 6; E S_TermW 7 20; E S_MakeUpW 5 128; E S_TermW 7 24; E S_TermW 6 14;
   E S_TermW 7 28; E S_TermW 4 4; E S_TermW 4 2; E S_TermW 4 7; E S_TermW 7 23; E S_TermW 4 3;
   E S_TermW 7 27; E S_TermW 4 5; E S_TermW 8 39; E S_TermW 6 16; E S_MakeUpW 8 576; E S_TermW 4 6;
   E S_TermW 7 19; E S_TermW 5 8; E S_TermW 8 55; E S_MakeUpW 5 64; E S_TermW 5 10; E S_TermW 4 4;
   E S_TermW 4 2; E S_TermW 4 7; E S_TermW 8 45; E S_TermW 4 3; E S_TermW 5 11; E S_TermW 4 5;
   E S_TermW 8 53; E S_TermW 5 9; E S_MakeUpW 8 448; E S_TermW 4 6; E S_TermW 8 35; E S_MakeUpW 5 128;
   E S_TermW 8 51; E S_TermW 6 15; E S_TermW 8 63; E S_TermW 4 4; E S_TermW 4 2; E S_TermW 4 7;
   E S_TermW 6 13; E S_TermW 4 3; E S_MakeUpW 9 1472; E S_TermW 4 5; E S_TermW 8 43; E S_TermW 6 17;
   E S_MakeUpW 9 1216; E S_TermW 4 6; E S_TermW 6 1; E S_TermW 5 8; E S_MakeUpW 6 192; E S_MakeUpW 5 64;
   E S_TermW 5 10; E S_TermW 4 4; E S_TermW 4 2; E S_TermW 4 7; E S_TermW 8 29; E S_TermW 4 3;
   E S_TermW 5 11; E S_TermW 4 5; E S_TermW 6 12; E S_TermW 5 9; E S_MakeUpW 6 1664; E S_TermW 4 6;
   E S_TermW 8 33; E S_MakeUpW 5 128; E S_TermW 8 49; E S_TermW 6 14; E S_TermW 8 61; E S_TermW 4 4;
   E S_TermW 4 2; E S_TermW 4 7; E S_TermW 8 47; E S_TermW 4 3; E S_TermW 8 59; E S_TermW 4 5;
   E S_TermW 8 41; E S_TermW 6 16; E S_MakeUpW 9 960; E S_TermW 4 6; E S_TermW 8 31; E S_TermW 5 8;
   E S_TermW 8 57; E S_MakeUpW 5 64; E S_TermW 5 10; E S_TermW 4 4; E S_TermW 4 2; E S_TermW 4 7;
   E S_TermW 7 22; E S_TermW 4 3; E S_TermW 5 11; E S_TermW 4 5; E S_TermW 7 26; E S_TermW 5 9;
   E S_MakeUpW 9 704; E S_TermW 4 6; E S_TermW 8 37; E S_MakeUpW 5 128; E S_TermW 7 25; E S_TermW 6 15;
   E S_MakeUpW 8 320; E S_TermW 4 4; E S_TermW 4 2; E S_TermW 4 7; E S_TermW 6 13; E S_TermW 4 3;
   E S_TermW 7 18; E S_TermW 4 5; E S_TermW 7 21; E S_TermW 6 17; E S_MakeUpW 7 256; E S_TermW 4 6;
   E S_TermW 6 1; E S_TermW 5 8; E S_MakeUpW 6 192; E S_MakeUpW 5 64; E S_TermW 5 10; E S_TermW 4 4;
   E S_TermW 4 2; E S_TermW 4 7].
Definition t4_1d_white_table_1 : list te :=
  [E S_MakeUp 11 1792; E S_TermW 4 3; E S_TermW 5 11; E S_TermW 4 5; E S_TermW 6 12; E S_TermW 5 9;
   E S_MakeUpW 6 1664; E S_TermW 4 6; E S_TermW 7 20; E S_MakeUpW 5 128; E S_TermW 7 24; E S_TermW 6 14;
   E S_TermW 7 28; E S_TermW 4 4; E S_TermW 4 2; E S_TermW 4 7; E S_TermW 7 23; E S_TermW 4 3;
   E S_TermW 7 27; E S_TermW 4 5; E S_TermW 8 40; E S_TermW 6 16; E S_MakeUpW 9 832; E S_TermW 4 6;
   E S_TermW 7 19; E S_TermW 5 8; E S_TermW 8 56; E S_MakeUpW 5 64; E S_TermW 5 10; E S_TermW 4 4;
   E S_TermW 4 2; E S_TermW 4 7; E S_TermW 8 46; E S_TermW 4 3; E S_TermW 5 11; E S_TermW 4 5;
   E S_TermW 8 54; E S_TermW 5 9; E S_MakeUpW 8 512; E S_TermW 4 6; E S_TermW 8 36; E S_MakeUpW 5 128;
   E S_TermW 8 52; E S_TermW 6 15; E S_TermW 8 0; E S_TermW 4 4; E S_TermW 4 2; E S_TermW 4 7;
   E S_TermW 6 13; E S_TermW 4 3; E S_MakeUpW 9 1600; E S_TermW 4 5; E S_TermW 8 44; E S_TermW 6 17;
   E S_MakeUpW 9 1344; E S_TermW 4 6; E S_TermW 6 1; E S_TermW 5 8; E S_MakeUpW 6 192; E S_MakeUpW 5 64;
   E S_TermW 5 10; E S_TermW 4 4; E S_TermW 4 2; E S_TermW 4 7; E S_TermW 8 30; E S_TermW 4 3;
   E S_TermW 5 11; E S_TermW 4 5; E S_TermW 6 12; E S_TermW 5 9; E S_MakeUpW 6 1664; E S_TermW 4 6;
   E S_TermW 8 34; E S_MakeUpW 5 128; E S_TermW 8 50; E S_TermW 6 14; E S_TermW 8 62; E S_TermW 4 4;
   E S_TermW 4 2; E S_TermW 4 7; E S_TermW 8 48; E S_TermW 4 3; E S_TermW 8 60; E S_TermW 4 5;
   E S_TermW 8 42; E S_TermW 6 16; E S_MakeUpW 9 1088; E S_TermW 4 6; E S_TermW 8 32; E S_TermW 5 8;
   E S_TermW 8 58; E S_MakeUpW 5 64; E S_TermW 5 10; E S_TermW 4 4; E S_TermW 4 2; E S_TermW 4 7;
   E S_TermW 7 22; E S_TermW 4 3; E S_TermW 5 11; E S_TermW 4 5; E S_TermW 7 26; E S_TermW 5 9;
   E S_MakeUpW 8 640; E S_TermW 4 6; E S_TermW 8 38; E S_MakeUpW 5 128; E S_TermW 7 25; E S_TermW 6 15;
   E S_MakeUpW 8 384; E S_TermW 4 4; E S_TermW 4 2; E S_TermW 4 7; E S_TermW 6 13; E S_TermW 4 3;
   E S_TermW 7 18; E S_TermW 4 5; E S_TermW 7 21; E S_TermW 6 17; E S_MakeUpW 7 256; E S_TermW 4 6;
   E S_TermW 6 1; E S_TermW 5 8; E S_MakeUpW 6 192; E S_MakeUpW 5 64; E S_TermW 5 10; E S_TermW 4 4;
   E S_TermW 4 2; E S_TermW 4 7].
Definition t4_1d_white_table_2 : list te :=
  [E S_Null 1 0; E S_TermW 4 3; E S_TermW 5 11; E S_TermW 4 5; E S_TermW 6 12; E S_TermW 5 9;
   E S_MakeUpW 6 1664; E S_TermW 4 6; E S_TermW 7 20; E S_MakeUpW 5 128; E S_TermW 7 24; E S_TermW 6 14;
   E S_TermW 7 28; E S_TermW 4 4; E S_TermW 4 2; E S_TermW 4 7; E S_TermW 7 23; E S_TermW 4 3;
   E S_TermW 7 27; E S_TermW 4 5; E S_TermW 8 39; E S_TermW 6 16; E S_MakeUpW 8 576; E S_TermW 4 6;
   E S_TermW 7 19; E S_TermW 5 8; E S_TermW 8 55; E S_MakeUpW 5 64; E S_TermW 5 10; E S_TermW 4 4;
   E S_TermW 4 2; E S_TermW 4 7; E S_TermW 8 45; E S_TermW 4 3; E S_TermW 5 11; E S_TermW 4 5;
   E S_TermW 8 53; E S_TermW 5 9; E S_MakeUpW 8 448; E S_TermW 4 6; E S_TermW 8 35; E S_MakeUpW 5 128;
   E S_TermW 8 51; E S_TermW 6 15; E S_TermW 8 63; E S_TermW 4 4; E S_TermW 4 2; E S_TermW 4 7;
   E S_TermW 6 13; E S_TermW 4 3; E S_MakeUpW 9 1536; E S_TermW 4 5; E S_TermW 8 43; E S_TermW 6 17;
   E S_MakeUpW 9 1280; E S_TermW 4 6; E S_TermW 6 1; E S_TermW 5 8; E S_MakeUpW 6 192; E S_MakeUpW 5 64;
   E S_TermW 5 10; E S_TermW 4 4; E S_TermW 4 2; E S_TermW 4 7; E S_TermW 8 29; E S_TermW 4 3;
   E S_TermW 5 11; E S_TermW 4 5; E S_TermW 6 12; E S_TermW 5 9; E S_MakeUpW 6 1664; E S_TermW 4 6;
   E S_TermW 8 33; E S_MakeUpW 5 128; E S_TermW 8 49; E S_TermW 6 14; E S_TermW 8 61; E S_TermW 4 4;
   E S_TermW 4 2; E S_TermW 4 7; E S_TermW 8 47; E S_TermW 4 3; E S_TermW 8 59; E S_TermW 4 5;
   E S_TermW 8 41; E S_TermW 6 16; E S_MakeUpW 9 1024; E S_TermW 4 6; E S_TermW 8 31; E S_TermW 5 8;
   E S_TermW 8 57; E S_MakeUpW 5 64; E S_TermW 5 10; E S_TermW 4 4; E S_TermW 4 2; E S_TermW 4 7;
   E S_TermW 7 22; E S_TermW 4 3; E S_TermW 5 11; E S_TermW 4 5; E S_TermW 7 26; E S_TermW 5 9;
   E S_MakeUpW 9 768; E S_TermW 4 6; E S_TermW 8 37; E S_MakeUpW 5 128; E S_TermW 7 25; E S_TermW 6 15;
   E S_MakeUpW 8 320; E S_TermW 4 4; E S_TermW 4 2; E S_TermW 4 7; E S_TermW 6 13; E S_TermW 4 3;
   E S_TermW 7 18; E S_TermW 4 5; E S_TermW 7 21; E S_TermW 6 17; E S_MakeUpW 7 256; E S_TermW 4 6;
   E S_TermW 6 1; E S_TermW 5 8; E S_MakeUpW 6 192; E S_MakeUpW 5 64; E S_TermW 5 10; E S_TermW 4 4;
   E S_TermW 4 2; E S_TermW 4 7].
Definition t4_1d_white_table_3 : list te :=
  [E S_MakeUp 11 1856; E S_TermW 4 3; E S_TermW 5 11; E S_TermW 4 5; E S_TermW 6 12; E S_TermW 5 9;
   E S_MakeUpW 6 1664; E S_TermW 4 6; E S_TermW 7 20; E S_MakeUpW 5 128; E S_TermW 7 24; E S_TermW 6 14;
   E S_TermW 7 28; E S_TermW 4 4; E S_TermW 4 2; E S_TermW 4 7; E S_TermW 7 23; E S_TermW 4 3;
   E S_TermW 7 27; E S_TermW 4 5; E S_TermW 8 40; E S_TermW 6 16; E S_MakeUpW 9 896; E S_TermW 4 6;
   E S_TermW 7 19; E S_TermW 5 8; E S_TermW 8 56; E S_MakeUpW 5 64; E S_TermW 5 10; E S_TermW 4 4;
   E S_TermW 4 2; E S_TermW 4 7; E S_TermW 8 46; E S_TermW 4 3; E S_TermW 5 11; E S_TermW 4 5;
   E S_TermW 8 54; E S_TermW 5 9; E S_MakeUpW 8 512; E S_TermW 4 6; E S_TermW 8 36; E S_MakeUpW 5 128;
   E S_TermW 8 52; E S_TermW 6 15; E S_TermW 8 0; E S_TermW 4 4; E S_TermW 4 2; E S_TermW 4 7;
   E S_TermW 6 13; E S_TermW 4 3; E S_MakeUpW 9 1728; E S_TermW 4 5; E S_TermW 8 44; E S_TermW 6 17;
   E S_MakeUpW 9 1408; E S_TermW 4 6; E S_TermW 6 1; E S_TermW 5 8; E S_MakeUpW 6 192; E S_MakeUpW 5 64;
   E S_TermW 5 10; E S_TermW 4 4; E S_TermW 4 2; E S_TermW 4 7; E S_TermW 8 30; E S_TermW 4 3;
   E S_TermW 5 11; E S_TermW 4 5; E S_TermW 6 12; E S_TermW 5 9; E S_MakeUpW 6 1664; E S_TermW 4 6;
   E S_TermW 8 34; E S_MakeUpW 5 128; E S_TermW 8 50; E S_TermW 6 14; E S_TermW 8 62; E S_TermW 4 4;
   E S_TermW 4 2; E S_TermW 4 7; E S_TermW 8 48; E S_TermW 4 3; E S_TermW 8 60; E S_TermW 4 5;
   E S_TermW 8 42; E S_TermW 6 16; E S_MakeUpW 9 1152; E S_TermW 4 6; E S_TermW 8 32; E S_TermW 5 8;
   E S_TermW 8 58; E S_MakeUpW 5 64; E S_TermW 5 10; E S_TermW 4 4; E S_TermW 4 2; E S_TermW 4 7;
   E S_TermW 7 22; E S_TermW 4 3; E S_TermW 5 11; E S_TermW 4 5; E S_TermW 7 26; E S_TermW 5 9;
   E S_MakeUpW 8 640; E S_TermW 4 6; E S_TermW 8 38; E S_MakeUpW 5 128; E S_TermW 7 25; E S_TermW 6 15;
   E S_MakeUpW 8 384; E S_TermW 4 4; E S_TermW 4 2; E S_TermW 4 7; E S_TermW 6 13; E S_TermW 4 3;
   E S_TermW 7 18; E S_TermW 4 5; E S_TermW 7 21; E S_TermW 6 17; E S_MakeUpW 7 256; E S_TermW 4 6;
   E S_TermW 6 1; E S_TermW 5 8; E S_MakeUpW 6 192; E S_MakeUpW 5 64; E S_TermW 5 10; E S_TermW 4 4;
   E S_TermW 4 2; E S_TermW 4 7].
Definition t4_1d_white_table_4 : list te :=
  [E S_Null 1 0; E S_TermW 4 3; E S_TermW 5 11; E S_TermW 4 5; E S_TermW 6 12; E S_TermW 5 9;
   E S_MakeUpW 6 1664; E S_TermW 4 6; E S_TermW 7 20; E S_MakeUpW 5 128; E S_TermW 7 24; E S_TermW 6 14;
   E S_TermW 7 28; E S_TermW 4 4; E S_TermW 4 2; E S_TermW 4 7; E S_TermW 7 23; E S_TermW 4 3;
   E S_TermW 7 27; E S_TermW 4 5; E S_TermW 8 39; E S_TermW 6 16; E S_MakeUpW 8 576; E S_TermW 4 6;
   E S_TermW 7 19; E S_TermW 5 8; E S_TermW 8 55; E S_MakeUpW 5 64; E S_TermW 5 10; E S_TermW 4 4;
   E S_TermW 4 2; E S_TermW 4 7; E S_TermW 8 45; E S_TermW 4 3; E S_TermW 5 11; E S_TermW 4 5;
   E S_TermW 8 53; E S_TermW 5 9; E S_MakeUpW 8 448; E S_TermW 4 6; E S_TermW 8 35; E S_MakeUpW 5 128;
   E S_TermW 8 51; E S_TermW 6 15; E S_TermW 8 63; E S_TermW 4 4; E S_TermW 4 2; E S_TermW 4 7;
   E S_TermW 6 13; E S_TermW 4 3; E S_MakeUpW 9 1472; E S_TermW 4 5; E S_TermW 8 43; E S_TermW 6 17;
   E S_MakeUpW 9 1216; E S_TermW 4 6; E S_TermW 6 1; E S_TermW 5 8; E S_MakeUpW 6 192; E S_MakeUpW 5 64;
   E S_TermW 5 10; E S_TermW 4 4; E S_TermW 4 2; E S_TermW 4 7; E S_TermW 8 29; E S_TermW 4 3;
   E S_TermW 5 11; E S_TermW 4 5; E S_TermW 6 12; E S_TermW 5 9; E S_MakeUpW 6 1664; E S_TermW 4 6;
   E S_TermW 8 33; E S_MakeUpW 5 128; E S_TermW 8 49; E S_TermW 6 14; E S_TermW 8 61; E S_TermW 4 4;
   E S_TermW 4 2; E S_TermW 4 7; E S_TermW 8 47; E S_TermW 4 3; E S_TermW 8 59; E S_TermW 4 5;
   E S_TermW 8 41; E S_TermW 6 16; E S_MakeUpW 9 960; E S_TermW 4 6; E S_TermW 8 31; E S_TermW 5 8;
   E S_TermW 8 57; E S_MakeUpW 5 64; E S_TermW 5 10; E S_TermW 4 4; E S_TermW 4 2; E S_TermW 4 7;
   E S_TermW 7 22; E S_TermW 4 3; E S_TermW 5 11; E S_TermW 4 5; E S_TermW 7 26; E S_TermW 5 9;
   E S_MakeUpW 9 704; E S_TermW 4 6; E S_TermW 8 37; E S_MakeUpW 5 128; E S_TermW 7 25; E S_TermW 6 15;
   E S_MakeUpW 8 320; E S_TermW 4 4; E S_TermW 4 2; E S_TermW 4 7; E S_TermW 6 13; E S_TermW 4 3;
   E S_TermW 7 18; E S_TermW 4 5; E S_TermW 7 21; E S_TermW 6 17; E S_MakeUpW 7 256; E S_TermW 4 6;
   E S_TermW 6 1; E S_TermW 5 8; E S_MakeUpW 6 192; E S_MakeUpW 5 64; E S_TermW 5 10; E S_TermW 4 4;
   E S_TermW 4 2; E S_TermW 4 7].
Definition t4_1d_white_table_5 : list te :=
  [E S_MakeUp 12 2112; E S_TermW 4 3; E S_TermW 5 11; E S_TermW 4 5; E S_TermW 6 12; E S_TermW 5 9;
   E S_MakeUpW 6 1664; E S_TermW 4 6; E S_TermW 7 20; E S_MakeUpW 5 128; E S_TermW 7 24; E S_TermW 6 14;
   E S_TermW 7 28; E S_TermW 4 4; E S_TermW 4 2; E S_TermW 4 7; E S_TermW 7 23; E S_TermW 4 3;
   E S_TermW 7 27; E S_TermW 4 5; E S_TermW 8 40; E S_TermW 6 16; E S_MakeUpW 9 832; E S_TermW 4 6;
   E S_TermW 7 19; E S_TermW 5 8; E S_TermW 8 56; E S_MakeUpW 5 64; E S_TermW 5 10; E S_TermW 4 4;
   E S_TermW 4 2; E S_TermW 4 7; E S_TermW 8 46; E S_TermW 4 3; E S_TermW 5 11; E S_TermW 4 5;
   E S_TermW 8 54; E S_TermW 5 9; E S_MakeUpW 8 512; E S_TermW 4 6; E S_TermW 8 36; E S_MakeUpW 5 128;
   E S_TermW 8 52; E S_TermW 6 15; E S_TermW 8 0; E S_TermW 4 4; E S_TermW 4 2; E S_TermW 4 7;
   E S_TermW 6 13; E S_TermW 4 3; E S_MakeUpW 9 1600; E S_TermW 4 5; E S_TermW 8 44; E S_TermW 6 17;
   E S_MakeUpW 9 1344; E S_TermW 4 6; E S_TermW 6 1; E S_TermW 5 8; E S_MakeUpW 6 192; E S_MakeUpW 5 64;
   E S_TermW 5 10; E S_TermW 4 4; E S_TermW 4 2; E S_TermW 4 7; E S_TermW 8 30; E S_TermW 4 3;
   E S_TermW 5 11; E S_TermW 4 5; E S_TermW 6 12; E S_TermW 5 9; E S_MakeUpW 6 1664; E S_TermW 4 6;
   E S_TermW 8 34; E S_MakeUpW 5 128; E S_TermW 8 50; E S_TermW 6 14; E S_TermW 8 62; E S_TermW 4 4;
   E S_TermW 4 2; E S_TermW 4 7; E S_TermW 8 48; E S_TermW 4 3; E S_TermW 8 60; E S_TermW 4 5;
   E S_TermW 8 42; E S_TermW 6 16; E S_MakeUpW 9 1088; E S_TermW 4 6; E S_TermW 8 32; E S_TermW 5 8;
   E S_TermW 8 58; E S_MakeUpW 5 64; E S_TermW 5 10; E S_TermW 4 4; E S_TermW 4 2; E S_TermW 4 7;
   E S_TermW 7 22; E S_TermW 4 3; E S_TermW 5 11; E S_TermW 4 5; E S_TermW 7 26; E S_TermW 5 9;
   E S_MakeUpW 8 640; E S_TermW 4 6; E S_TermW 8 38; E S_MakeUpW 5 128; E S_TermW 7 25; E S_TermW 6 15;
   E S_MakeUpW 8 384; E S_TermW 4 4; E S_TermW 4 2; E S_TermW 4 7; E S_TermW 6 13; E S_TermW 4 3;
   E S_TermW 7 18; E S_TermW 4 5; E S_TermW 7 21; E S_TermW 6 17; E S_MakeUpW 7 256; E S_TermW 4 6;
   E S_TermW 6 1; E S_TermW 5 8; E S_MakeUpW 6 192; E S_MakeUpW 5 64; E S_TermW 5 10; E S_TermW 4 4;
   E S_TermW 4 2; E S_TermW 4 7].
Definition t4_1d_white_table_6 : list te :=
  [E S_Null 1 0; E S_TermW 4 3; E S_TermW 5 11; E S_TermW 4 5; E S_TermW 6 12; E S_TermW 5 9;
   E S_MakeUpW 6 1664; E S_TermW 4 6; E S_TermW 7 20; E S_MakeUpW 5 128; E S_TermW 7 24; E S_TermW 6 14;
   E S_TermW 7 28; E S_TermW 4 4; E S_TermW 4 2; E S_TermW 4 7; E S_TermW 7 23; E S_TermW 4 3;
   E S_TermW 7 27; E S_TermW 4 5; E S_TermW 8 39; E S_TermW 6 16; E S_MakeUpW 8 576; E S_TermW 4 6;
   E S_TermW 7 19; E S_TermW 5 8; E S_TermW 8 55; E S_MakeUpW 5 64; E S_TermW 5 10; E S_TermW 4 4;
   E S_TermW 4 2; E S_TermW 4 7; E S_TermW 8 45; E S_TermW 4 3; E S_TermW 5 11; E S_TermW 4 5;
   E S_TermW 8 53; E S_TermW 5 9; E S_MakeUpW 8 448; E S_TermW 4 6; E S_TermW 8 35; E S_MakeUpW 5 128;
   E S_TermW 8 51; E S_TermW 6 15; E S_TermW 8 63; E S_TermW 4 4; E S_TermW 4 2; E S_TermW 4 7;
   E S_TermW 6 13; E S_TermW 4 3; E S_MakeUpW 9 1536; E S_TermW 4 5; E S_TermW 8 43; E S_TermW 6 17;
   E S_MakeUpW 9 1280; E S_TermW 4 6; E S_TermW 6 1; E S_TermW 5 8; E S_MakeUpW 6 192; E S_MakeUpW 5 64;
   E S_TermW 5 10; E S_TermW 4 4; E S_TermW 4 2; E S_TermW 4 7; E S_TermW 8 29; E S_TermW 4 3;
   E S_TermW 5 11; E S_TermW 4 5; E S_TermW 6 12; E S_TermW 5 9; E S_MakeUpW 6 1664; E S_TermW 4 6;
   E S_TermW 8 33; E S_MakeUpW 5 128; E S_TermW 8 49; E S_TermW 6 14; E S_TermW 8 61; E S_TermW 4 4;
   E S_TermW 4 2; E S_TermW 4 7; E S_TermW 8 47; E S_TermW 4 3; E S_TermW 8 59; E S_TermW 4 5;
   E S_TermW 8 41; E S_TermW 6 16; E S_MakeUpW 9 1024; E S_TermW 4 6; E S_TermW 8 31; E S_TermW 5 8;
   E S_TermW 8 57; E S_MakeUpW 5 64; E S_TermW 5 10; E S_TermW 4 4; E S_TermW 4 2; E S_TermW 4 7;
   E S_TermW 7 22; E S_TermW 4 3; E S_TermW 5 11; E S_TermW 4 5; E S_TermW 7 26; E S_TermW 5 9;
   E S_MakeUpW 9 768; E S_TermW 4 6; E S_TermW 8 37; E S_MakeUpW 5 128; E S_TermW 7 25; E S_TermW 6 15;
   E S_MakeUpW 8 320; E S_TermW 4 4; E S_TermW 4 2; E S_TermW 4 7; E S_TermW 6 13; E S_TermW 4 3;
   E S_TermW 7 18; E S_TermW 4 5; E S_TermW 7 21; E S_TermW 6 17; E S_MakeUpW 7 256; E S_TermW 4 6;
   E S_TermW 6 1; E S_TermW 5 8; E S_MakeUpW 6 192; E S_MakeUpW 5 64; E S_TermW 5 10; E S_TermW 4 4;
   E S_TermW 4 2; E S_TermW 4 7].
Definition t4_1d_white_table_7 : list te :=
  [E S_MakeUp 12 2368; E S_TermW 4 3; E S_TermW 5 11; E S_TermW 4 5; E S_TermW 6 12; E S_TermW 5 9;
   E S_MakeUpW 6 1664; E S_TermW 4 6; E S_TermW 7 20; E S_MakeUpW 5 128; E S_TermW 7 24; E S_TermW 6 14;
   E S_TermW 7 28; E S_TermW 4 4; E S_TermW 4 2; E S_TermW 4 7; E S_TermW 7 23; E S_TermW 4 3;
   E S_TermW 7 27; E S_TermW 4 5; E S_TermW 8 40; E S_TermW 6 16; E S_MakeUpW 9 896; E S_TermW 4 6;
   E S_TermW 7 19; E S_TermW 5 8; E S_TermW 8 56; E S_MakeUpW 5 64; E S_TermW 5 10; E S_TermW 4 4;
   E S_TermW 4 2; E S_TermW 4 7; E S_TermW 8 46; E S_TermW 4 3; E S_TermW 5 11; E S_TermW 4 5;
   E S_TermW 8 54; E S_TermW 5 9; E S_MakeUpW 8 512; E S_TermW 4 6; E S_TermW 8 36; E S_MakeUpW 5 128;
   E S_TermW 8 52; E S_TermW 6 15; E S_TermW 8 0; E S_TermW 4 4; E S_TermW 4 2; E S_TermW 4 7;
   E S_TermW 6 13; E S_TermW 4 3; E S_MakeUpW 9 1728; E S_TermW 4 5; E S_TermW 8 44; E S_TermW 6 17;
   E S_MakeUpW 9 1408; E S_TermW 4 6; E S_TermW 6 1; E S_TermW 5 8; E S_MakeUpW 6 192; E S_MakeUpW 5 64;
   E S_TermW 5 10; E S_TermW 4 4; E S_TermW 4 2; E S_TermW 4 7; E S_TermW 8 30; E S_TermW 4 3;
   E S_TermW 5 11; E S_TermW 4 5; E S_TermW 6 12; E S_TermW 5 9; E S_MakeUpW 6 1664; E S_TermW 4 6;
   E S_TermW 8 34; E S_MakeUpW 5 128; E S_TermW 8 50; E S_TermW 6 14; E S_TermW 8 62; E S_TermW 4 4;
   E S_TermW 4 2; E S_TermW 4 7; E S_TermW 8 48; E S_TermW 4 3; E S_TermW 8 60; E S_TermW 4 5;
   E S_TermW 8 42; E S_TermW 6 16; E S_MakeUpW 9 1152; E S_TermW 4 6; E S_TermW 8 32; E S_TermW 5 8;
   E S_TermW 8 58; E S_MakeUpW 5 64; E S_TermW 5 10; E S_TermW 4 4; E S_TermW 4 2; E S_TermW 4 7;
   E S_TermW 7 22; E S_TermW 4 3; E S_TermW 5 11; E S_TermW 4 5; E S_TermW 7 26; E S_TermW 5 9;
   E S_MakeUpW 8 640; E S_TermW 4 6; E S_TermW 8 38; E S_MakeUpW 5 128; E S_TermW 7 25; E S_TermW 6 15;
   E S_MakeUpW 8 384; E S_TermW 4 4; E S_TermW 4 2; E S_TermW 4 7; E S_TermW 6 13; E S_TermW 4 3;
   E S_TermW 7 18; E S_TermW 4 5; E S_TermW 7 21; E S_TermW 6 17; E S_MakeUpW 7 256; E S_TermW 4 6;
   E S_TermW 6 1; E S_TermW 5 8; E S_MakeUpW 6 192; E S_MakeUpW 5 64; E S_TermW 5 10; E S_TermW 4 4;
   E S_TermW 4 2; E S_TermW 4 7].
Definition t4_1d_white_table_8 : list te :=
  [E S_Null 1 0; E S_TermW 4 3; E S_TermW 5 11; E S_TermW 4 5; E S_TermW 6 12; E S_TermW 5 9;
   E S_MakeUpW 6 1664; E S_TermW 4 6; E S_TermW 7 20; E S_MakeUpW 5 128; E S_TermW 7 24; E S_TermW 6 14;
   E S_TermW 7 28; E S_TermW 4 4; E S_TermW 4 2; E S_TermW 4 7; E S_TermW 7 23; E S_TermW 4 3;
   E S_TermW 7 27; E S_TermW 4 5; E S_TermW 8 39; E S_TermW 6 16; E S_MakeUpW 8 576; E S_TermW 4 6;
   E S_TermW 7 19; E S_TermW 5 8; E S_TermW 8 55; E S_MakeUpW 5 64; E S_TermW 5 10; E S_TermW 4 4;
   E S_TermW 4 2; E S_TermW 4 7; E S_TermW 8 45; E S_TermW 4 3; E S_TermW 5 11; E S_TermW 4 5;
   E S_TermW 8 53; E S_TermW 5 9; E S_MakeUpW 8 448; E S_TermW 4 6; E S_TermW 8 35; E S_MakeUpW 5 128;
   E S_TermW 8 51; E S_TermW 6 15; E S_TermW 8 63; E S_TermW 4 4; E S_TermW 4 2; E S_TermW 4 7;
   E S_TermW 6 13; E S_TermW 4 3; E S_MakeUpW 9 1472; E S_TermW 4 5; E S_TermW 8 43; E S_TermW 6 17;
   E S_MakeUpW 9 1216; E S_TermW 4 6; E S_TermW 6 1; E S_TermW 5 8; E S_MakeUpW 6 192; E S_MakeUpW 5 64;
   E S_TermW 5 10; E S_TermW 4 4; E S_TermW 4 2; E S_TermW 4 7; E S_TermW 8 29; E S_TermW 4 3;
   E S_TermW 5 11; E S_TermW 4 5; E S_TermW 6 12; E S_TermW 5 9; E S_MakeUpW 6 1664; E S_TermW 4 6;
   E S_TermW 8 33; E S_MakeUpW 5 128; E S_TermW 8 49; E S_TermW 6 14; E S_TermW 8 61; E S_TermW 4 4;
   E S_TermW 4 2; E S_TermW 4 7; E S_TermW 8 47; E S_TermW 4 3; E S_TermW 8 59; E S_TermW 4 5;
   E S_TermW 8 41; E S_TermW 6 16; E S_MakeUpW 9 960; E S_TermW 4 6; E S_TermW 8 31; E S_TermW 5 8;
   E S_TermW 8 57; E S_MakeUpW 5 64; E S_TermW 5 10; E S_TermW 4 4; E S_TermW 4 2; E S_TermW 4 7;
   E S_TermW 7 22; E S_TermW 4 3; E S_TermW 5 11; E S_TermW 4 5; E S_TermW 7 26; E S_TermW 5 9;
   E S_MakeUpW 9 704; E S_TermW 4 6; E S_TermW 8 37; E S_MakeUpW 5 128; E S_TermW 7 25; E S_TermW 6 15;
   E S_MakeUpW 8 320; E S_TermW 4 4; E S_TermW 4 2; E S_TermW 4 7; E S_TermW 6 13; E S_TermW 4 3;
   E S_TermW 7 18; E S_TermW 4 5; E S_TermW 7 21; E S_TermW 6 17; E S_MakeUpW 7 256; E S_TermW 4 6;
   E S_TermW 6 1; E S_TermW 5 8; E S_MakeUpW 6 192; E S_MakeUpW 5 64; E S_TermW 5 10; E S_TermW 4 4;
   E S_TermW 4 2; E S_TermW 4 7].
Definition t4_1d_white_table_9 : list te :=
  [E S_MakeUp 12 1984; E S_TermW 4 3; E S_TermW 5 11; E S_TermW 4 5; E S_TermW 6 12; E S_TermW 5 9;
   E S_MakeUpW 6 1664; E S_TermW 4 6; E S_TermW 7 20; E S_MakeUpW 5 128; E S_TermW 7 24; E S_TermW 6 14;
   E S_TermW 7 28; E S_TermW 4 4; E S_TermW 4 2; E S_TermW 4 7; E S_TermW 7 23; E S_TermW 4 3;
   E S_TermW 7 27; E S_TermW 4 5; E S_TermW 8 40; E S_TermW 6 16; E S_MakeUpW 9 832; E S_TermW 4 6;
   E S_TermW 7 19; E S_TermW 5 8; E S_TermW 8 56; E S_MakeUpW 5 64; E S_TermW 5 10; E S_TermW 4 4;
   E S_TermW 4 2; E S_TermW 4 7; E S_TermW 8 46; E S_TermW 4 3; E S_TermW 5 11; E S_TermW 4 5;
   E S_TermW 8 54; E S_TermW 5 9; E S_MakeUpW 8 512; E S_TermW 4 6; E S_TermW 8 36; E S_MakeUpW 5 128;
   E S_TermW 8 52; E S_TermW 6 15; E S_TermW 8 0; E S_TermW 4 4; E S_TermW 4 2; E S_TermW 4 7;
   E S_TermW 6 13; E S_TermW 4 3; E S_MakeUpW 9 1600; E S_TermW 4 5; E S_TermW 8 44; E S_TermW 6 17;
   E S_MakeUpW 9 1344; E S_TermW 4 6; E S_TermW 6 1; E S_TermW 5 8; E S_MakeUpW 6 192; E S_MakeUpW 5 64;
   E S_TermW 5 10; E S_TermW 4 4; E S_TermW 4 2; E S_TermW 4 7; E S_TermW 8 30; E S_TermW 4 3;
   E S_TermW 5 11; E S_TermW 4 5; E S_TermW 6 12; E S_TermW 5 9; E S_MakeUpW 6 1664; E S_TermW 4 6;
   E S_TermW 8 34; E S_MakeUpW 5 128; E S_TermW 8 50; E S_TermW 6 14; E S_TermW 8 62; E S_TermW 4 4;
   E S_TermW 4 2; E S_TermW 4 7; E S_TermW 8 48; E S_TermW 4 3; E S_TermW 8 60; E S_TermW 4 5;
   E S_TermW 8 42; E S_TermW 6 16; E S_MakeUpW 9 1088; E S_TermW 4 6; E S_TermW 8 32; E S_TermW 5 8;
   E S_TermW 8 58; E S_MakeUpW 5 64; E S_TermW 5 10; E S_TermW 4 4; E S_TermW 4 2; E S_TermW 4 7;
   E S_TermW 7 22; E S_TermW 4 3; E S_TermW 5 11; E S_TermW 4 5; E S_TermW 7 26; E S_TermW 5 9;
   E S_MakeUpW 8 640; E S_TermW 4 6; E S_TermW 8 38; E S_MakeUpW 5 128; E S_TermW 7 25; E S_TermW 6 15;
   E S_MakeUpW 8 384; E S_TermW 4 4; E S_TermW 4 2; E S_TermW 4 7; E S_TermW 6 13; E S_TermW 4 3;
   E S_TermW 7 18; E S_TermW 4 5; E S_TermW 7 21; E S_TermW 6 17; E S_MakeUpW 7 256; E S_TermW 4 6;
   E S_TermW 6 1; E S_TermW 5 8; E S_MakeUpW 6 192; E S_MakeUpW 5 64; E S_TermW 5 10; E S_TermW 4 4;
   E S_TermW 4 2; E S_TermW 4 7].
Definition t4_1d_white_table_10 : list te :=
  [E S_Null 1 0; E S_TermW 4 3; E S_TermW 5 11; E S_TermW 4 5; E S_TermW 6 12; E S_TermW 5 9;
   E S_MakeUpW 6 1664; E S_TermW 4 6; E S_TermW 7 20; E S_MakeUpW 5 128; E S_TermW 7 24; E S_TermW 6 14;
   E S_TermW 7 28; E S_TermW 4 4; E S_TermW 4 2; E S_TermW 4 7; E S_TermW 7 23; E S_TermW 4 3;
   E S_TermW 7 27; E S_TermW 4 5; E S_TermW 8 39; E S_TermW 6 16; E S_MakeUpW 8 576; E S_TermW 4 6;
   E S_TermW 7 19; E S_TermW 5 8; E S_TermW 8 55; E S_MakeUpW 5 64; E S_TermW 5 10; E S_TermW 4 4;
   E S_TermW 4 2; E S_TermW 4 7; E S_TermW 8 45; E S_TermW 4 3; E S_TermW 5 11; E S_TermW 4 5;
   E S_TermW 8 53; E S_TermW 5 9; E S_MakeUpW 8 448; E S_TermW 4 6; E S_TermW 8 35; E S_MakeUpW 5 128;
   E S_TermW 8 51; E S_TermW 6 15; E S_TermW 8 63; E S_TermW 4 4; E S_TermW 4 2; E S_TermW 4 7;
   E S_TermW 6 13; E S_TermW 4 3; E S_MakeUpW 9 1536; E S_TermW 4 5; E S_TermW 8 43; E S_TermW 6 17;
   E S_MakeUpW 9 1280; E S_TermW 4 6; E S_TermW 6 1; E S_TermW 5 8; E S_MakeUpW 6 192; E S_MakeUpW 5 64;
   E S_TermW 5 10; E S_TermW 4 4; E S_TermW 4 2; E S_TermW 4 7; E S_TermW 8 29; E S_TermW 4 3;
   E S_TermW 5 11; E S_TermW 4 5; E S_TermW 6 12; E S_TermW 5 9; E S_MakeUpW 6 1664; E S_TermW 4 6;
   E S_TermW 8 33; E S_MakeUpW 5 128; E S_TermW 8 49; E S_TermW 6 14; E S_TermW 8 61; E S_TermW 4 4;
   E S_TermW 4 2; E S_TermW 4 7; E S_TermW 8 47; E S_TermW 4 3; E S_TermW 8 59; E S_TermW 4 5;
   E S_TermW 8 41; E S_TermW 6 16; E S_MakeUpW 9 1024; E S_TermW 4 6; E S_TermW 8 31; E S_TermW 5 8;
   E S_TermW 8 57; E S_MakeUpW 5 64; E S_TermW 5 10; E S_TermW 4 4; E S_TermW 4 2; E S_TermW 4 7;
   E S_TermW 7 22; E S_TermW 4 3; E S_TermW 5 11; E S_TermW 4 5; E S_TermW 7 26; E S_TermW 5 9;
   E S_MakeUpW 9 768; E S_TermW 4 6; E S_TermW 8 37; E S_MakeUpW 5 128; E S_TermW 7 25; E S_TermW 6 15;
   E S_MakeUpW 8 320; E S_TermW 4 4; E S_TermW 4 2; E S_TermW 4 7; E S_TermW 6 13; E S_TermW 4 3;
   E S_TermW 7 18; E S_TermW 4 5; E S_TermW 7 21; E S_TermW 6 17; E S_MakeUpW 7 256; E S_TermW 4 6;
   E S_TermW 6 1; E S_TermW 5 8; E S_MakeUpW 6 192; E S_MakeUpW 5 64; E S_TermW 5 10; E S_TermW 4 4;
   E S_TermW 4 2; E S_TermW 4 7].
Definition t4_1d_white_table_11 : list te :=
  [E S_MakeUp 11 1920; E S_TermW 4 3; E S_TermW 5 11; E S_TermW 4 5; E S_TermW 6 12; E S_TermW 5 9;
   E S_MakeUpW 6 1664; E S_TermW 4 6; E S_TermW 7 20; E S_MakeUpW 5 128; E S_TermW 7 24; E S_TermW 6 14;
   E S_TermW 7 28; E S_TermW 4 4; E S_TermW 4 2; E S_TermW 4 7; E S_TermW 7 23; E S_TermW 4 3;
   E S_TermW 7 27; E S_TermW 4 5; E S_TermW 8 40; E S_TermW 6 16; E S_MakeUpW 9 896; E S_TermW 4 6;
   E S_TermW 7 19; E S_TermW 5 8; E S_TermW 8 56; E S_MakeUpW 5 64; E S_TermW 5 10; E S_TermW 4 4;
   E S_TermW 4 2; E S_TermW 4 7; E S_TermW 8 46; E S_TermW 4 3; E S_TermW 5 11; E S_TermW 4 5;
   E S_TermW 8 54; E S_TermW 5 9; E S_MakeUpW 8 512; E S_TermW 4 6; E S_TermW 8 36; E S_MakeUpW 5 128;
   E S_TermW 8 52; E S_TermW 6 15; E S_TermW 8 0; E S_TermW 4 4; E S_TermW 4 2; E S_TermW 4 7;
   E S_TermW 6 13; E S_TermW 4 3; E S_MakeUpW 9 1728; E S_TermW 4 5; E S_TermW 8 44; E S_TermW 6 17;
   E S_MakeUpW 9 1408; E S_TermW 4 6; E S_TermW 6 1; E S_TermW 5 8; E S_MakeUpW 6 192; E S_MakeUpW 5 64;
   E S_TermW 5 10; E S_TermW 4 4; E S_TermW 4 2; E S_TermW 4 7; E S_TermW 8 30; E S_TermW 4 3;
   E S_TermW 5 11; E S_TermW 4 5; E S_TermW 6 12; E S_TermW 5 9; E S_MakeUpW 6 1664; E S_TermW 4 6;
   E S_TermW 8 34; E S_MakeUpW 5 128; E S_TermW 8 50; E S_TermW 6 14; E S_TermW 8 62; E S_TermW 4 4;
   E S_TermW 4 2; E S_TermW 4 7; E S_TermW 8 48; E S_TermW 4 3; E S_TermW 8 60; E S_TermW 4 5;
   E S_TermW 8 42; E S_TermW 6 16; E S_MakeUpW 9 1152; E S_TermW 4 6; E S_TermW 8 32; E S_TermW 5 8;
   E S_TermW 8 58; E S_MakeUpW 5 64; E S_TermW 5 10; E S_TermW 4 4; E S_TermW 4 2; E S_TermW 4 7;
   E S_TermW 7 22; E S_TermW 4 3; E S_TermW 5 11; E S_TermW 4 5; E S_TermW 7 26; E S_TermW 5 9;
   E S_MakeUpW 8 640; E S_TermW 4 6; E S_TermW 8 38; E S_MakeUpW 5 128; E S_TermW 7 25; E S_TermW 6 15;
   E S_MakeUpW 8 384; E S_TermW 4 4; E S_TermW 4 2; E S_TermW 4 7; E S_TermW 6 13; E S_TermW 4 3;
   E S_TermW 7 18; E S_TermW 4 5; E S_TermW 7 21; E S_TermW 6 17; E S_MakeUpW 7 256; E S_TermW 4 6;
   E S_TermW 6 1; E S_TermW 5 8; E S_MakeUpW 6 192; E S_MakeUpW 5 64; E S_TermW 5 10; E S_TermW 4 4;
   E S_TermW 4 2; E S_TermW 4 7].
Definition t4_1d_white_table_12 : list te :=
  [E S_Null 1 0; E S_TermW 4 3; E S_TermW 5 11; E S_TermW 4 5; E S_TermW 6 12; E S_TermW 5 9;
   E S_MakeUpW 6 1664; E S_TermW 4 6; E S_TermW 7 20; E S_MakeUpW 5 128; E S_TermW 7 24; E S_TermW 6 14;
   E S_TermW 7 28; E S_TermW 4 4; E S_TermW 4 2; E S_TermW 4 7; E S_TermW 7 23; E S_TermW 4 3;
   E S_TermW 7 27; E S_TermW 4 5; E S_TermW 8 39; E S_TermW 6 16; E S_MakeUpW 8 576; E S_TermW 4 6;
   E S_TermW 7 19; E S_TermW 5 8; E S_TermW 8 55; E S_MakeUpW 5 64; E S_TermW 5 10; E S_TermW 4 4;
   E S_TermW 4 2; E S_TermW 4 7; E S_TermW 8 45; E S_TermW 4 3; E S_TermW 5 11; E S_TermW 4 5;
   E S_TermW 8 53; E S_TermW 5 9; E S_MakeUpW 8 448; E S_TermW 4 6; E S_TermW 8 35; E S_MakeUpW 5 128;
   E S_TermW 8 51; E S_TermW 6 15; E S_TermW 8 63; E S_TermW 4 4; E S_TermW 4 2; E S_TermW 4 7;
   E S_TermW 6 13; E S_TermW 4 3; E S_MakeUpW 9 1472; E S_TermW 4 5; E S_TermW 8 43; E S_TermW 6 17;
   E S_MakeUpW 9 1216; E S_TermW 4 6; E S_TermW 6 1; E S_TermW 5 8; E S_MakeUpW 6 192; E S_MakeUpW 5 64;
   E S_TermW 5 10; E S_TermW 4 4; E S_TermW 4 2; E S_TermW 4 7; E S_TermW 8 29; E S_TermW 4 3;
   E S_TermW 5 11; E S_TermW 4 5; E S_TermW 6 12; E S_TermW 5 9; E S_MakeUpW 6 1664; E S_TermW 4 6;
   E S_TermW 8 33; E S_MakeUpW 5 128; E S_TermW 8 49; E S_TermW 6 14; E S_TermW 8 61; E S_TermW 4 4;
   E S_TermW 4 2; E S_TermW 4 7; E S_TermW 8 47; E S_TermW 4 3; E S_TermW 8 59; E S_TermW 4 5;
   E S_TermW 8 41; E S_TermW 6 16; E S_MakeUpW 9 960; E S_TermW 4 6; E S_TermW 8 31; E S_TermW 5 8;
   E S_TermW 8 57; E S_MakeUpW 5 64; E S_TermW 5 10; E S_TermW 4 4; E S_TermW 4 2; E S_TermW 4 7;
   E S_TermW 7 22; E S_TermW 4 3; E S_TermW 5 11; E S_TermW 4 5; E S_TermW 7 26; E S_TermW 5 9;
   E S_MakeUpW 9 704; E S_TermW 4 6; E S_TermW 8 37; E S_MakeUpW 5 128; E S_TermW 7 25; E S_TermW 6 15;
   E S_MakeUpW 8 320; E S_TermW 4 4; E S_TermW 4 2; E S_TermW 4 7; E S_TermW 6 13; E S_TermW 4 3;
   E S_TermW 7 18; E S_TermW 4 5; E S_TermW 7 21; E S_TermW 6 17; E S_MakeUpW 7 256; E S_TermW 4 6;
   E S_TermW 6 1; E S_TermW 5 8; E S_MakeUpW 6 192; E S_MakeUpW 5 64; E S_TermW 5 10; E S_TermW 4 4;
   E S_TermW 4 2; E S_TermW 4 7].
Definition t4_1d_white_table_13 : list te :=
  [E S_MakeUp 12 2240; E S_TermW 4 3; E S_TermW 5 11; E S_TermW 4 5; E S_TermW 6 12; E S_TermW 5 9;
   E S_MakeUpW 6 1664; E S_TermW 4 6; E S_TermW 7 20; E S_MakeUpW 5 128; E S_TermW 7 24; E S_TermW 6 14;
   E S_TermW 7 28; E S_TermW 4 4; E S_TermW 4 2; E S_TermW 4 7; E S_TermW 7 23; E S_TermW 4 3;
   E S_TermW 7 27; E S_TermW 4 5; E S_TermW 8 40; E S_TermW 6 16; E S_MakeUpW 9 832; E S_TermW 4 6;
   E S_TermW 7 19; E S_TermW 5 8; E S_TermW 8 56; E S_MakeUpW 5 64; E S_TermW 5 10; E S_TermW 4 4;
   E S_TermW 4 2; E S_TermW 4 7; E S_TermW 8 46; E S_TermW 4 3; E S_TermW 5 11; E S_TermW 4 5;
   E S_TermW 8 54; E S_TermW 5 9; E S_MakeUpW 8 512; E S_TermW 4 6; E S_TermW 8 36; E S_MakeUpW 5 128;
   E S_TermW 8 52; E S_TermW 6 15; E S_TermW 8 0; E S_TermW 4 4; E S_TermW 4 2; E S_TermW 4 7;
   E S_TermW 6 13; E S_TermW 4 3; E S_MakeUpW 9 1600; E S_TermW 4 5; E S_TermW 8 44; E S_TermW 6 17;
   E S_MakeUpW 9 1344; E S_TermW 4 6; E S_TermW 6 1; E S_TermW 5 8; E S_MakeUpW 6 192; E S_MakeUpW 5 64;
   E S_TermW 5 10; E S_TermW 4 4; E S_TermW 4 2; E S_TermW 4 7; E S_TermW 8 30; E S_TermW 4 3;
   E S_TermW 5 11; E S_TermW 4 5; E S_TermW 6 12; E S_TermW 5 9; E S_MakeUpW 6 1664; E S_TermW 4 6;
   E S_TermW 8 34; E S_MakeUpW 5 128; E S_TermW 8 50; E S_TermW 6 14; E S_TermW 8 62; E S_TermW 4 4;
   E S_TermW 4 2; E S_TermW 4 7; E S_TermW 8 48; E S_TermW 4 3; E S_TermW 8 60; E S_TermW 4 5;
   E S_TermW 8 42; E S_TermW 6 16; E S_MakeUpW 9 1088; E S_TermW 4 6; E S_TermW 8 32; E S_TermW 5 8;
   E S_TermW 8 58; E S_MakeUpW 5 64; E S_TermW 5 10; E S_TermW 4 4; E S_TermW 4 2; E S_TermW 4 7;
   E S_TermW 7 22; E S_TermW 4 3; E S_TermW 5 11; E S_TermW 4 5; E S_TermW 7 26; E S_TermW 5 9;
   E S_MakeUpW 8 640; E S_TermW 4 6; E S_TermW 8 38; E S_MakeUpW 5 128; E S_TermW 7 25; E S_TermW 6 15;
   E S_MakeUpW 8 384; E S_TermW 4 4; E S_TermW 4 2; E S_TermW 4 7; E S_TermW 6 13; E S_TermW 4 3;
   E S_TermW 7 18; E S_TermW 4 5; E S_TermW 7 21; E S_TermW 6 17; E S_MakeUpW 7 256; E S_TermW 4 6;
   E S_TermW 6 1; E S_TermW 5 8; E S_MakeUpW 6 192; E S_MakeUpW 5 64; E S_TermW 5 10; E S_TermW 4 4;
   E S_TermW 4 2; E S_TermW 4 7].
Definition t4_1d_white_table_14 : list te :=
  [E S_Null 1 0; E S_TermW 4 3; E S_TermW 5 11; E S_TermW 4 5; E S_TermW 6 12; E S_TermW 5 9;
   E S_MakeUpW 6 1664; E S_TermW 4 6; E S_TermW 7 20; E S_MakeUpW 5 128; E S_TermW 7 24; E S_TermW 6 14;
   E S_TermW 7 28; E S_TermW 4 4; E S_TermW 4 2; E S_TermW 4 7; E S_TermW 7 23; E S_TermW 4 3;
   E S_TermW 7 27; E S_TermW 4 5; E S_TermW 8 39; E S_TermW 6 16; E S_MakeUpW 8 576; E S_TermW 4 6;
   E S_TermW 7 19; E S_TermW 5 8; E S_TermW 8 55; E S_MakeUpW 5 64; E S_TermW 5 10; E S_TermW 4 4;
   E S_TermW 4 2; E S_TermW 4 7; E S_TermW 8 45; E S_TermW 4 3; E S_TermW 5 11; E S_TermW 4 5;
   E S_TermW 8 53; E S_TermW 5 9; E S_MakeUpW 8 448; E S_TermW 4 6; E S_TermW 8 35; E S_MakeUpW 5 128;
   E S_TermW 8 51; E S_TermW 6 15; E S_TermW 8 63; E S_TermW 4 4; E S_TermW 4 2; E S_TermW 4 7;
   E S_TermW 6 13; E S_TermW 4 3; E S_MakeUpW 9 1536; E S_TermW 4 5; E S_TermW 8 43; E S_TermW 6 17;
   E S_MakeUpW 9 1280; E S_TermW 4 6; E S_TermW 6 1; E S_TermW 5 8; E S_MakeUpW 6 192; E S_MakeUpW 5 64;
   E S_TermW 5 10; E S_TermW 4 4; E S_TermW 4 2; E S_TermW 4 7; E S_TermW 8 29; E S_TermW 4 3;
   E S_TermW 5 11; E S_TermW 4 5; E S_TermW 6 12; E S_TermW 5 9; E S_MakeUpW 6 1664; E S_TermW 4 6;
   E S_TermW 8 33; E S_MakeUpW 5 128; E S_TermW 8 49; E S_TermW 6 14; E S_TermW 8 61; E S_TermW 4 4;
   E S_TermW 4 2; E S_TermW 4 7; E S_TermW 8 47; E S_TermW 4 3; E S_TermW 8 59; E S_TermW 4 5;
   E S_TermW 8 41; E S_TermW 6 16; E S_MakeUpW 9 1024; E S_TermW 4 6; E S_TermW 8 31; E S_TermW 5 8;
   E S_TermW 8 57; E S_MakeUpW 5 64; E S_TermW 5 10; E S_TermW 4 4; E S_TermW 4 2; E S_TermW 4 7;
   E S_TermW 7 22; E S_TermW 4 3; E S_TermW 5 11; E S_TermW 4 5; E S_TermW 7 26; E S_TermW 5 9;
   E S_MakeUpW 9 768; E S_TermW 4 6; E S_TermW 8 37; E S_MakeUpW 5 128; E S_TermW 7 25; E S_TermW 6 15;
   E S_MakeUpW 8 320; E S_TermW 4 4; E S_TermW 4 2; E S_TermW 4 7; E S_TermW 6 13; E S_TermW 4 3;
   E S_TermW 7 18; E S_TermW 4 5; E S_TermW 7 21; E S_TermW 6 17; E S_MakeUpW 7 256; E S_TermW 4 6;
   E S_TermW 6 1; E S_TermW 5 8; E S_MakeUpW 6 192; E S_MakeUpW 5 64; E S_TermW 5 10; E S_TermW 4 4;
   E S_TermW 4 2; E S_TermW 4 7].
Definition t4_1d_white_table_15 : list te :=
  [E S_MakeUp 12 2496; E S_TermW 4 3; E S_TermW 5 11; E S_TermW 4 5; E S_TermW 6 12; E S_TermW 5 9;
   E S_MakeUpW 6 1664; E S_TermW 4 6; E S_TermW 7 20; E S_MakeUpW 5 128; E S_TermW 7 24; E S_TermW 6 14;
   E S_TermW 7 28; E S_TermW 4 4; E S_TermW 4 2; E S_TermW 4 7; E S_TermW 7 23; E S_TermW 4 3;
   E S_TermW 7 27; E S_TermW 4 5; E S_TermW 8 40; E S_TermW 6 16; E S_MakeUpW 9 896; E S_TermW 4 6;
   E S_TermW 7 19; E S_TermW 5 8; E S_TermW 8 56; E S_MakeUpW 5 64; E S_TermW 5 10; E S_TermW 4 4;
   E S_TermW 4 2; E S_TermW 4 7; E S_TermW 8 46; E S_TermW 4 3; E S_TermW 5 11; E S_TermW 4 5;
   E S_TermW 8 54; E S_TermW 5 9; E S_MakeUpW 8 512; E S_TermW 4 6; E S_TermW 8 36; E S_MakeUpW 5 128;
   E S_TermW 8 52; E S_TermW 6 15; E S_TermW 8 0; E S_TermW 4 4; E S_TermW 4 2; E S_TermW 4 7;
   E S_TermW 6 13; E S_TermW 4 3; E S_MakeUpW 9 1728; E S_TermW 4 5; E S_TermW 8 44; E S_TermW 6 17;
   E S_MakeUpW 9 1408; E S_TermW 4 6; E S_TermW 6 1; E S_TermW 5 8; E S_MakeUpW 6 192; E S_MakeUpW 5 64;
   E S_TermW 5 10; E S_TermW 4 4; E S_TermW 4 2; E S_TermW 4 7; E S_TermW 8 30; E S_TermW 4 3;
   E S_TermW 5 11; E S_TermW 4 5; E S_TermW 6 12; E S_TermW 5 9; E S_MakeUpW 6 1664; E S_TermW 4 6;
   E S_TermW 8 34; E S_MakeUpW 5 128; E S_TermW 8 50; E S_TermW 6 14; E S_TermW 8 62; E S_TermW 4 4;
   E S_TermW 4 2; E S_TermW 4 7; E S_TermW 8 48; E S_TermW 4 3; E S_TermW 8 60; E S_TermW 4 5;
   E S_TermW 8 42; E S_TermW 6 16; E S_MakeUpW 9 1152; E S_TermW 4 6; E S_TermW 8 32; E S_TermW 5 8;
   E S_TermW 8 58; E S_MakeUpW 5 64; E S_TermW 5 10; E S_TermW 4 4; E S_TermW 4 2; E S_TermW 4 7;
   E S_TermW 7 22; E S_TermW 4 3; E S_TermW 5 11; E S_TermW 4 5; E S_TermW 7 26; E S_TermW 5 9;
   E S_MakeUpW 8 640; E S_TermW 4 6; E S_TermW 8 38; E S_MakeUpW 5 128; E S_TermW 7 25; E S_TermW 6 15;
   E S_MakeUpW 8 384; E S_TermW 4 4; E S_TermW 4 2; E S_TermW 4 7; E S_TermW 6 13; E S_TermW 4 3;
   E S_TermW 7 18; E S_TermW 4 5; E S_TermW 7 21; E S_TermW 6 17; E S_MakeUpW 7 256; E S_TermW 4 6;
   E S_TermW 6 1; E S_TermW 5 8; E S_MakeUpW 6 192; E S_MakeUpW 5 64; E S_TermW 5 10; E S_TermW 4 4;
   E S_TermW 4 2; E S_TermW 4 7].
Definition t4_1d_white_table_16 : list te :=
  [E S_EOL 12 0; E S_TermW 4 3; E S_TermW 5 11; E S_TermW 4 5; E S_TermW 6 12; E S_TermW 5 9;
   E S_MakeUpW 6 1664; E S_TermW 4 6; E S_TermW 7 20; E S_MakeUpW 5 128; E S_TermW 7 24; E S_TermW 6 14;
   E S_TermW 7 28; E S_TermW 4 4; E S_TermW 4 2; E S_TermW 4 7; E S_TermW 7 23; E S_TermW 4 3;
   E S_TermW 7 27; E S_TermW 4 5; E S_TermW 8 39; E S_TermW 6 16; E S_MakeUpW 8 576; E S_TermW 4 6;
   E S_TermW 7 19; E S_TermW 5 8; E S_TermW 8 55; E S_MakeUpW 5 64; E S_TermW 5 10; E S_TermW 4 4;
   E S_TermW 4 2; E S_TermW 4 7; E S_TermW 8 45; E S_TermW 4 3; E S_TermW 5 11; E S_TermW 4 5;
   E S_TermW 8 53; E S_TermW 5 9; E S_MakeUpW 8 448; E S_TermW 4 6; E S_TermW 8 35; E S_MakeUpW 5 128;
   E S_TermW 8 51; E S_TermW 6 15; E S_TermW 8 63; E S_TermW 4 4; E S_TermW 4 2; E S_TermW 4 7;
   E S_TermW 6 13; E S_TermW 4 3; E S_MakeUpW 9 1472; E S_TermW 4 5; E S_TermW 8 43; E S_TermW 6 17;
   E S_MakeUpW 9 1216; E S_TermW 4 6; E S_TermW 6 1; E S_TermW 5 8; E S_MakeUpW 6 192; E S_MakeUpW 5 64;
   E S_TermW 5 10; E S_TermW 4 4; E S_TermW 4 2; E S_TermW 4 7; E S_TermW 8 29; E S_TermW 4 3;
   E S_TermW 5 11; E S_TermW 4 5; E S_TermW 6 12; E S_TermW 5 9; E S_MakeUpW 6 1664; E S_TermW 4 6;
   E S_TermW 8 33; E S_MakeUpW 5 128; E S_TermW 8 49; E S_TermW 6 14; E S_TermW 8 61; E S_TermW 4 4;
   E S_TermW 4 2; E S_TermW 4 7; E S_TermW 8 47; E S_TermW 4 3; E S_TermW 8 59; E S_TermW 4 5;
   E S_TermW 8 41; E S_TermW 6 16; E S_MakeUpW 9 960; E S_TermW 4 6; E S_TermW 8 31; E S_TermW 5 8;
   E S_TermW 8 57; E S_MakeUpW 5 64; E S_TermW 5 10; E S_TermW 4 4; E S_TermW 4 2; E S_TermW 4 7;
   E S_TermW 7 22; E S_TermW 4 3; E S_TermW 5 11; E S_TermW 4 5; E S_TermW 7 26; E S_TermW 5 9;
   E S_MakeUpW 9 704; E S_TermW 4 6; E S_TermW 8 37; E S_MakeUpW 5 128; E S_TermW 7 25; E S_TermW 6 15;
   E S_MakeUpW 8 320; E S_TermW 4 4; E S_TermW 4 2; E S_TermW 4 7; E S_TermW 6 13; E S_TermW 4 3;
   E S_TermW 7 18; E S_TermW 4 5; E S_TermW 7 21; E S_TermW 6 17; E S_MakeUpW 7 256; E S_TermW 4 6;
   E S_TermW 6 1; E S_TermW 5 8; E S_MakeUpW 6 192; E S_MakeUpW 5 64; E S_TermW 5 10; E S_TermW 4 4;
   E S_TermW 4 2; E S_TermW 4 7].
Definition t4_1d_white_table_17 : list te :=
  [E S_MakeUp 11 1792; E S_TermW 4 3; E S_TermW 5 11; E S_TermW 4 5; E S_TermW 6 12; E S_TermW 5 9;
   E S_MakeUpW 6 1664; E S_TermW 4 6; E S_TermW 7 20; E S_MakeUpW 5 128; E S_TermW 7 24; E S_TermW 6 14;
   E S_TermW 7 28; E S_TermW 4 4; E S_TermW 4 2; E S_TermW 4 7; E S_TermW 7 23; E S_TermW 4 3;
   E S_TermW 7 27; E S_TermW 4 5; E S_TermW 8 40; E S_TermW 6 16; E S_MakeUpW 9 832; E S_TermW 4 6;
   E S_TermW 7 19; E S_TermW 5 8; E S_TermW 8 56; E S_MakeUpW 5 64; E S_TermW 5 10; E S_TermW 4 4;
   E S_TermW 4 2; E S_TermW 4 7; E S_TermW 8 46; E S_TermW 4 3; E S_TermW 5 11; E S_TermW 4 5;
   E S_TermW 8 54; E S_TermW 5 9; E S_MakeUpW 8 512; E S_TermW 4 6; E S_TermW 8 36; E S_MakeUpW 5 128;
   E S_TermW 8 52; E S_TermW 6 15; E S_TermW 8 0; E S_TermW 4 4; E S_TermW 4 2; E S_TermW 4 7;
   E S_TermW 6 13; E S_TermW 4 3; E S_MakeUpW 9 1600; E S_TermW 4 5; E S_TermW 8 44; E S_TermW 6 17;
   E S_MakeUpW 9 1344; E S_TermW 4 6; E S_TermW 6 1; E S_TermW 5 8; E S_MakeUpW 6 192; E S_MakeUpW 5 64;
   E S_TermW 5 10; E S_TermW 4 4; E S_TermW 4 2; E S_TermW 4 7; E S_TermW 8 30; E S_TermW 4 3;
   E S_TermW 5 11; E S_TermW 4 5; E S_TermW 6 12; E S_TermW 5 9; E S_MakeUpW 6 1664; E S_TermW 4 6;
   E S_TermW 8 34; E S_MakeUpW 5 128; E S_TermW 8 50; E S_TermW 6 14; E S_TermW 8 62; E S_TermW 4 4;
   E S_TermW 4 2; E S_TermW 4 7; E S_TermW 8 48; E S_TermW 4 3; E S_TermW 8 60; E S_TermW 4 5;
   E S_TermW 8 42; E S_TermW 6 16; E S_MakeUpW 9 1088; E S_TermW 4 6; E S_TermW 8 32; E S_TermW 5 8;
   E S_TermW 8 58; E S_MakeUpW 5 64; E S_TermW 5 10; E S_TermW 4 4; E S_TermW 4 2; E S_TermW 4 7;
   E S_TermW 7 22; E S_TermW 4 3; E S_TermW 5 11; E S_TermW 4 5; E S_TermW 7 26; E S_TermW 5 9;
   E S_MakeUpW 8 640; E S_TermW 4 6; E S_TermW 8 38; E S_MakeUpW 5 128; E S_TermW 7 25; E S_TermW 6 15;
   E S_MakeUpW 8 384; E S_TermW 4 4; E S_TermW 4 2; E S_TermW 4 7; E S_TermW 6 13; E S_TermW 4 3;
   E S_TermW 7 18; E S_TermW 4 5; E S_TermW 7 21; E S_TermW 6 17; E S_MakeUpW 7 256; E S_TermW 4 6;
   E S_TermW 6 1; E S_TermW 5 8; E S_MakeUpW 6 192; E S_MakeUpW 5 64; E S_TermW 5 10; E S_TermW 4 4;
   E S_TermW 4 2; E S_TermW 4 7].
Definition t4_1d_white_table_18 : list te :=
  [E S_Null 1 0; E S_TermW 4 3; E S_TermW 5 11; E S_TermW 4 5; E S_TermW 6 12; E S_TermW 5 9;
   E S_MakeUpW 6 1664; E S_TermW 4 6; E S_TermW 7 20; E S_MakeUpW 5 128; E S_TermW 7 24; E S_TermW 6 14;
   E S_TermW 7 28; E S_TermW 4 4; E S_TermW 4 2; E S_TermW 4 7; E S_TermW 7 23; E S_TermW 4 3;
   E S_TermW 7 27; E S_TermW 4 5; E S_TermW 8 39; E S_TermW 6 16; E S_MakeUpW 8 576; E S_TermW 4 6;
   E S_TermW 7 19; E S_TermW 5 8; E S_TermW 8 55; E S_MakeUpW 5 64; E S_TermW 5 10; E S_TermW 4 4;
   E S_TermW 4 2; E S_TermW 4 7; E S_TermW 8 45; E S_TermW 4 3; E S_TermW 5 11; E S_TermW 4 5;
   E S_TermW 8 53; E S_TermW 5 9; E S_MakeUpW 8 448; E S_TermW 4 6; E S_TermW 8 35; E S_MakeUpW 5 128;
   E S_TermW 8 51; E S_TermW 6 15; E S_TermW 8 63; E S_TermW 4 4; E S_TermW 4 2; E S_TermW 4 7;
   E S_TermW 6 13; E S_TermW 4 3; E S_MakeUpW 9 1536; E S_TermW 4 5; E S_TermW 8 43; E S_TermW 6 17;
   E S_MakeUpW 9 1280; E S_TermW 4 6; E S_TermW 6 1; E S_TermW 5 8; E S_MakeUpW 6 192; E S_MakeUpW 5 64;
   E S_TermW 5 10; E S_TermW 4 4; E S_TermW 4 2; E S_TermW 4 7; E S_TermW 8 29; E S_TermW 4 3;
   E S_TermW 5 11; E S_TermW 4 5; E S_TermW 6 12; E S_TermW 5 9; E S_MakeUpW 6 1664; E S_TermW 4 6;
   E S_TermW 8 33; E S_MakeUpW 5 128; E S_TermW 8 49; E S_TermW 6 14; E S_TermW 8 61; E S_TermW 4 4;
   E S_TermW 4 2; E S_TermW 4 7; E S_TermW 8 47; E S_TermW 4 3; E S_TermW 8 59; E S_TermW 4 5;
   E S_TermW 8 41; E S_TermW 6 16; E S_MakeUpW 9 1024; E S_TermW 4 6; E S_TermW 8 31; E S_TermW 5 8;
   E S_TermW 8 57; E S_MakeUpW 5 64; E S_TermW 5 10; E S_TermW 4 4; E S_TermW 4 2; E S_TermW 4 7;
   E S_TermW 7 22; E S_TermW 4 3; E S_TermW 5 11; E S_TermW 4 5; E S_TermW 7 26; E S_TermW 5 9;
   E S_MakeUpW 9 768; E S_TermW 4 6; E S_TermW 8 37; E S_MakeUpW 5 128; E S_TermW 7 25; E S_TermW 6 15;
   E S_MakeUpW 8 320; E S_TermW 4 4; E S_TermW 4 2; E S_TermW 4 7; E S_TermW 6 13; E S_TermW 4 3;
   E S_TermW 7 18; E S_TermW 4 5; E S_TermW 7 21; E S_TermW 6 17; E S_MakeUpW 7 256; E S_TermW 4 6;
   E S_TermW 6 1; E S_TermW 5 8; E S_MakeUpW 6 192; E S_MakeUpW 5 64; E S_TermW 5 10; E S_TermW 4 4;
   E S_TermW 4 2; E S_TermW 4 7].
Definition t4_1d_white_table_19 : list te :=
  [E S_MakeUp 11 1856; E S_TermW 4 3; E S_TermW 5 11; E S_TermW 4 5; E S_TermW 6 12; E S_TermW 5 9;
   E S_MakeUpW 6 1664; E S_TermW 4 6; E S_TermW 7 20; E S_MakeUpW 5 128; E S_TermW 7 24; E S_TermW 6 14;
   E S_TermW 7 28; E S_TermW 4 4; E S_TermW 4 2; E S_TermW 4 7; E S_TermW 7 23; E S_TermW 4 3;
   E S_TermW 7 27; E S_TermW 4 5; E S_TermW 8 40; E S_TermW 6 16; E S_MakeUpW 9 896; E S_TermW 4 6;
   E S_TermW 7 19; E S_TermW 5 8; E S_TermW 8 56; E S_MakeUpW 5 64; E S_TermW 5 10; E S_TermW 4 4;
   E S_TermW 4 2; E S_TermW 4 7; E S_TermW 8 46; E S_TermW 4 3; E S_TermW 5 11; E S_TermW 4 5;
   E S_TermW 8 54; E S_TermW 5 9; E S_MakeUpW 8 512; E S_TermW 4 6; E S_TermW 8 36; E S_MakeUpW 5 128;
   E S_TermW 8 52; E S_TermW 6 15; E S_TermW 8 0; E S_TermW 4 4; E S_TermW 4 2; E S_TermW 4 7;
   E S_TermW 6 13; E S_TermW 4 3; E S_MakeUpW 9 1728; E S_TermW 4 5; E S_TermW 8 44; E S_TermW 6 17;
   E S_MakeUpW 9 1408; E S_TermW 4 6; E S_TermW 6 1; E S_TermW 5 8; E S_MakeUpW 6 192; E S_MakeUpW 5 64;
   E S_TermW 5 10; E S_TermW 4 4; E S_TermW 4 2; E S_TermW 4 7; E S_TermW 8 30; E S_TermW 4 3;
   E S_TermW 5 11; E S_TermW 4 5; E S_TermW 6 12; E S_TermW 5 9; E S_MakeUpW 6 1664; E S_TermW 4 6;
   E S_TermW 8 34; E S_MakeUpW 5 128; E S_TermW 8 50; E S_TermW 6 14; E S_TermW 8 62; E S_TermW 4 4;
   E S_TermW 4 2; E S_TermW 4 7; E S_TermW 8 48; E S_TermW 4 3; E S_TermW 8 60; E S_TermW 4 5;
   E S_TermW 8 42; E S_TermW 6 16; E S_MakeUpW 9 1152; E S_TermW 4 6; E S_TermW 8 32; E S_TermW 5 8;
   E S_TermW 8 58; E S_MakeUpW 5 64; E S_TermW 5 10; E S_TermW 4 4; E S_TermW 4 2; E S_TermW 4 7;
   E S_TermW 7 22; E S_TermW 4 3; E S_TermW 5 11; E S_TermW 4 5; E S_TermW 7 26; E S_TermW 5 9;
   E S_MakeUpW 8 640; E S_TermW 4 6; E S_TermW 8 38; E S_MakeUpW 5 128; E S_TermW 7 25; E S_TermW 6 15;
   E S_MakeUpW 8 384; E S_TermW 4 4; E S_TermW 4 2; E S_TermW 4 7; E S_TermW 6 13; E S_TermW 4 3;
   E S_TermW 7 18; E S_TermW 4 5; E S_TermW 7 21; E S_TermW 6 17; E S_MakeUpW 7 256; E S_TermW 4 6;
   E S_TermW 6 1; E S_TermW 5 8; E S_MakeUpW 6 192; E S_MakeUpW 5 64; E S_TermW 5 10; E S_TermW 4 4;
   E S_TermW 4 2; E S_TermW 4 7].
Definition t4_1d_white_table_20 : list te :=
  [E S_Null 1 0; E S_TermW 4 3; E S_TermW 5 11; E S_TermW 4 5; E S_TermW 6 12; E S_TermW 5 9;
   E S_MakeUpW 6 1664; E S_TermW 4 6; E S_TermW 7 20; E S_MakeUpW 5 128; E S_TermW 7 24; E S_TermW 6 14;
   E S_TermW 7 28; E S_TermW 4 4; E S_TermW 4 2; E S_TermW 4 7; E S_TermW 7 23; E S_TermW 4 3;
   E S_TermW 7 27; E S_TermW 4 5; E S_TermW 8 39; E S_TermW 6 16; E S_MakeUpW 8 576; E S_TermW 4 6;
   E S_TermW 7 19; E S_TermW 5 8; E S_TermW 8 55; E S_MakeUpW 5 64; E S_TermW 5 10; E S_TermW 4 4;
   E S_TermW 4 2; E S_TermW 4 7; E S_TermW 8 45; E S_TermW 4 3; E S_TermW 5 11; E S_TermW 4 5;
   E S_TermW 8 53; E S_TermW 5 9; E S_MakeUpW 8 448; E S_TermW 4 6; E S_TermW 8 35; E S_MakeUpW 5 128;
   E S_TermW 8 51; E S_TermW 6 15; E S_TermW 8 63; E S_TermW 4 4; E S_TermW 4 2; E S_TermW 4 7;
   E S_TermW 6 13; E S_TermW 4 3; E S_MakeUpW 9 1472; E S_TermW 4 5; E S_TermW 8 43; E S_TermW 6 17;
   E S_MakeUpW 9 1216; E S_TermW 4 6; E S_TermW 6 1; E S_TermW 5 8; E S_MakeUpW 6 192; E S_MakeUpW 5 64;
   E S_TermW 5 10; E S_TermW 4 4; E S_TermW 4 2; E S_TermW 4 7; E S_TermW 8 29; E S_TermW 4 3;
   E S_TermW 5 11; E S_TermW 4 5; E S_TermW 6 12; E S_TermW 5 9; E S_MakeUpW 6 1664; E S_TermW 4 6;
   E S_TermW 8 33; E S_MakeUpW 5 128; E S_TermW 8 49; E S_TermW 6 14; E S_TermW 8 61; E S_TermW 4 4;
   E S_TermW 4 2; E S_TermW 4 7; E S_TermW 8 47; E S_TermW 4 3; E S_TermW 8 59; E S_TermW 4 5;
   E S_TermW 8 41; E S_TermW 6 16; E S_MakeUpW 9 960; E S_TermW 4 6; E S_TermW 8 31; E S_TermW 5 8;
   E S_TermW 8 57; E S_MakeUpW 5 64; E S_TermW 5 10; E S_TermW 4 4; E S_TermW 4 2; E S_TermW 4 7;
   E S_TermW 7 22; E S_TermW 4 3; E S_TermW 5 11; E S_TermW 4 5; E S_TermW 7 26; E S_TermW 5 9;
   E S_MakeUpW 9 704; E S_TermW 4 6; E S_TermW 8 37; E S_MakeUpW 5 128; E S_TermW 7 25; E S_TermW 6 15;
   E S_MakeUpW 8 320; E S_TermW 4 4; E S_TermW 4 2; E S_TermW 4 7; E S_TermW 6 13; E S_TermW 4 3;
   E S_TermW 7 18; E S_TermW 4 5; E S_TermW 7 21; E S_TermW 6 17; E S_MakeUpW 7 256; E S_TermW 4 6;
   E S_TermW 6 1; E S_TermW 5 8; E S_MakeUpW 6 192; E S_MakeUpW 5 64; E S_TermW 5 10; E S_TermW 4 4;
   E S_TermW 4 2; E S_TermW 4 7].
Definition t4_1d_white_table_21 : list te :=
  [E S_MakeUp 12 2176; E S_TermW 4 3; E S_TermW 5 11; E S_TermW 4 5; E S_TermW 6 12; E S_TermW 5 9;
   E S_MakeUpW 6 1664; E S_TermW 4 6; E S_TermW 7 20; E S_MakeUpW 5 128; E S_TermW 7 24; E S_TermW 6 14;
   E S_TermW 7 28; E S_TermW 4 4; E S_TermW 4 2; E S_TermW 4 7; E S_TermW 7 23; E S_TermW 4 3;
   E S_TermW 7 27; E S_TermW 4 5; E S_TermW 8 40; E S_TermW 6 16; E S_MakeUpW 9 832; E S_TermW 4 6;
   E S_TermW 7 19; E S_TermW 5 8; E S_TermW 8 56; E S_MakeUpW 5 64; E S_TermW 5 10; E S_TermW 4 4;
   E S_TermW 4 2; E S_TermW 4 7; E S_TermW 8 46; E S_TermW 4 3; E S_TermW 5 11; E S_TermW 4 5;
   E S_TermW 8 54; E S_TermW 5 9; E S_MakeUpW 8 512; E S_TermW 4 6; E S_TermW 8 36; E S_MakeUpW 5 128;
   E S_TermW 8 52; E S_TermW 6 15; E S_TermW 8 0; E S_TermW 4 4; E S_TermW 4 2; E S_TermW 4 7;
   E S_TermW 6 13; E S_TermW 4 3; E S_MakeUpW 9 1600; E S_TermW 4 5; E S_TermW 8 44; E S_TermW 6 17;
   E S_MakeUpW 9 1344; E S_TermW 4 6; E S_TermW 6 1; E S_TermW 5 8; E S_MakeUpW 6 192; E S_MakeUpW 5 64;
   E S_TermW 5 10; E S_TermW 4 4; E S_TermW 4 2; E S_TermW 4 7; E S_TermW 8 30; E S_TermW 4 3;
   E S_TermW 5 11; E S_TermW 4 5; E S_TermW 6 12; E S_TermW 5 9; E S_MakeUpW 6 1664; E S_TermW 4 6;
   E S_TermW 8 34; E S_MakeUpW 5 128; E S_TermW 8 50; E S_TermW 6 14; E S_TermW 8 62; E S_TermW 4 4;
   E S_TermW 4 2; E S_TermW 4 7; E S_TermW 8 48; E S_TermW 4 3; E S_TermW 8 60; E S_TermW 4 5;
   E S_TermW 8 42; E S_TermW 6 16; E S_MakeUpW 9 1088; E S_TermW 4 6; E S_TermW 8 32; E S_TermW 5 8;
   E S_TermW 8 58; E S_MakeUpW 5 64; E S_TermW 5 10; E S_TermW 4 4; E S_TermW 4 2; E S_TermW 4 7;
   E S_TermW 7 22; E S_TermW 4 3; E S_TermW 5 11; E S_TermW 4 5; E S_TermW 7 26; E S_TermW 5 9;
   E S_MakeUpW 8 640; E S_TermW 4 6; E S_TermW 8 38; E S_MakeUpW 5 128; E S_TermW 7 25; E S_TermW 6 15;
   E S_MakeUpW 8 384; E S_TermW 4 4; E S_TermW 4 2; E S_TermW 4 7; E S_TermW 6 13; E S_TermW 4 3;
   E S_TermW 7 18; E S_TermW 4 5; E S_TermW 7 21; E S_TermW 6 17; E S_MakeUpW 7 256; E S_TermW 4 6;
   E S_TermW 6 1; E S_TermW 5 8; E S_MakeUpW 6 192; E S_MakeUpW 5 64; E S_TermW 5 10; E S_TermW 4 4;
   E S_TermW 4 2; E S_TermW 4 7].
Definition t4_1d_white_table_22 : list te :=
  [E S_Null 1 0; E S_TermW 4 3; E S_TermW 5 11; E S_TermW 4 5; E S_TermW 6 12; E S_TermW 5 9;
   E S_MakeUpW 6 1664; E S_TermW 4 6; E S_TermW 7 20; E S_MakeUpW 5 128; E S_TermW 7 24; E S_TermW 6 14;
   E S_TermW 7 28; E S_TermW 4 4; E S_TermW 4 2; E S_TermW 4 7; E S_TermW 7 23; E S_TermW 4 3;
   E S_TermW 7 27; E S_TermW 4 5; E S_TermW 8 39; E S_TermW 6 16; E S_MakeUpW 8 576; E S_TermW 4 6;
   E S_TermW 7 19; E S_TermW 5 8; E S_TermW 8 55; E S_MakeUpW 5 64; E S_TermW 5 10; E S_TermW 4 4;
   E S_TermW 4 2; E S_TermW 4 7; E S_TermW 8 45; E S_TermW 4 3; E S_TermW 5 11; E S_TermW 4 5;
   E S_TermW 8 53; E S_TermW 5 9; E S_MakeUpW 8 448; E S_TermW 4 6; E S_TermW 8 35; E S_MakeUpW 5 128;
   E S_TermW 8 51; E S_TermW 6 15; E S_TermW 8 63; E S_TermW 4 4; E S_TermW 4 2; E S_TermW 4 7;
   E S_TermW 6 13; E S_TermW 4 3; E S_MakeUpW 9 1536; E S_TermW 4 5; E S_TermW 8 43; E S_TermW 6 17;
   E S_MakeUpW 9 1280; E S_TermW 4 6; E S_TermW 6 1; E S_TermW 5 8; E S_MakeUpW 6 192; E S_MakeUpW 5 64;
   E S_TermW 5 10; E S_TermW 4 4; E S_TermW 4 2; E S_TermW 4 7; E S_TermW 8 29; E S_TermW 4 3;
   E S_TermW 5 11; E S_TermW 4 5; E S_TermW 6 12; E S_TermW 5 9; E S_MakeUpW 6 1664; E S_TermW 4 6;
   E S_TermW 8 33; E S_MakeUpW 5 128; E S_TermW 8 49; E S_TermW 6 14; E S_TermW 8 61; E S_TermW 4 4;
   E S_TermW 4 2; E S_TermW 4 7; E S_TermW 8 47; E S_TermW 4 3; E S_TermW 8 59; E S_TermW 4 5;
   E S_TermW 8 41; E S_TermW 6 16; E S_MakeUpW 9 1024; E S_TermW 4 6; E S_TermW 8 31; E S_TermW 5 8;
   E S_TermW 8 57; E S_MakeUpW 5 64; E S_TermW 5 10; E S_TermW 4 4; E S_TermW 4 2; E S_TermW 4 7;
   E S_TermW 7 22; E S_TermW 4 3; E S_TermW 5 11; E S_TermW 4 5; E S_TermW 7 26; E S_TermW 5 9;
   E S_MakeUpW 9 768; E S_TermW 4 6; E S_TermW 8 37; E S_MakeUpW 5 128; E S_TermW 7 25; E S_TermW 6 15;
   E S_MakeUpW 8 320; E S_TermW 4 4; E S_TermW 4 2; E S_TermW 4 7; E S_TermW 6 13; E S_TermW 4 3;
   E S_TermW 7 18; E S_TermW 4 5; E S_TermW 7 21; E S_TermW 6 17; E S_MakeUpW 7 256; E S_TermW 4 6;
   E S_TermW 6 1; E S_TermW 5 8; E S_MakeUpW 6 192; E S_MakeUpW 5 64; E S_TermW 5 10; E S_TermW 4 4;
   E S_TermW 4 2; E S_TermW 4 7].
Definition t4_1d_white_table_23 : list te :=
  [E S_MakeUp 12 2432; E S_TermW 4 3; E S_TermW 5 11; E S_TermW 4 5; E S_TermW 6 12; E S_TermW 5 9;
   E S_MakeUpW 6 1664; E S_TermW 4 6; E S_TermW 7 20; E S_MakeUpW 5 128; E S_TermW 7 24; E S_TermW 6 14;
   E S_TermW 7 28; E S_TermW 4 4; E S_TermW 4 2; E S_TermW 4 7; E S_TermW 7 23; E S_TermW 4 3;
   E S_TermW 7 27; E S_TermW 4 5; E S_TermW 8 40; E S_TermW 6 16; E S_MakeUpW 9 896; E S_TermW 4 6;
   E S_TermW 7 19; E S_TermW 5 8; E S_TermW 8 56; E S_MakeUpW 5 64; E S_TermW 5 10; E S_TermW 4 4;
   E S_TermW 4 2; E S_TermW 4 7; E S_TermW 8 46; E S_TermW 4 3; E S_TermW 5 11; E S_TermW 4 5;
   E S_TermW 8 54; E S_TermW 5 9; E S_MakeUpW 8 512; E S_TermW 4 6; E S_TermW 8 36; E S_MakeUpW 5 128;
   E S_TermW 8 52; E S_TermW 6 15; E S_TermW 8 0; E S_TermW 4 4; E S_TermW 4 2; E S_TermW 4 7;
   E S_TermW 6 13; E S_TermW 4 3; E S_MakeUpW 9 1728; E S_TermW 4 5; E S_TermW 8 44; E S_TermW 6 17;
   E S_MakeUpW 9 1408; E S_TermW 4 6; E S_TermW 6 1; E S_TermW 5 8; E S_MakeUpW 6 192; E S_MakeUpW 5 64;
   E S_TermW 5 10; E S_TermW 4 4; E S_TermW 4 2; E S_TermW 4 7; E S_TermW 8 30; E S_TermW 4 3;
   E S_TermW 5 11; E S_TermW 4 5; E S_TermW 6 12; E S_TermW 5 9; E S_MakeUpW 6 1664; E S_TermW 4 6;
   E S_TermW 8 34; E S_MakeUpW 5 128; E S_TermW 8 50; E S_TermW 6 14; E S_TermW 8 62; E S_TermW 4 4;
   E S_TermW 4 2; E S_TermW 4 7; E S_TermW 8 48; E S_TermW 4 3; E S_TermW 8 60; E S_TermW 4 5;
   E S_TermW 8 42; E S_TermW 6 16; E S_MakeUpW 9 1152; E S_TermW 4 6; E S_TermW 8 32; E S_TermW 5 8;
   E S_TermW 8 58; E S_MakeUpW 5 64; E S_TermW 5 10; E S_TermW 4 4; E S_TermW 4 2; E S_TermW 4 7;
   E S_TermW 7 22; E S_TermW 4 3; E S_TermW 5 11; E S_TermW 4 5; E S_TermW 7 26; E S_TermW 5 9;
   E S_MakeUpW 8 640; E S_TermW 4 6; E S_TermW 8 38; E S_MakeUpW 5 128; E S_TermW 7 25; E S_TermW 6 15;
   E S_MakeUpW 8 384; E S_TermW 4 4; E S_TermW 4 2; E S_TermW 4 7; E S_TermW 6 13; E S_TermW 4 3;
   E S_TermW 7 18; E S_TermW 4 5; E S_TermW 7 21; E S_TermW 6 17; E S_MakeUpW 7 256; E S_TermW 4 6;
   E S_TermW 6 1; E S_TermW 5 8; E S_MakeUpW 6 192; E S_MakeUpW 5 64; E S_TermW 5 10; E S_TermW 4 4;
   E S_TermW 4 2; E S_TermW 4 7].
Definition t4_1d_white_table_24 : list te :=
  [E S_Null 1 0; E S_TermW 4 3; E S_TermW 5 11; E S_TermW 4 5; E S_TermW 6 12; E S_TermW 5 9;
   E S_MakeUpW 6 1664; E S_TermW 4 6; E S_TermW 7 20; E S_MakeUpW 5 128; E S_TermW 7 24; E S_TermW 6 14;
   E S_TermW 7 28; E S_TermW 4 4; E S_TermW 4 2; E S_TermW 4 7; E S_TermW 7 23; E S_TermW 4 3;
   E S_TermW 7 27; E S_TermW 4 5; E S_TermW 8 39; E S_TermW 6 16; E S_MakeUpW 8 576; E S_TermW 4 6;
   E S_TermW 7 19; E S_TermW 5 8; E S_TermW 8 55; E S_MakeUpW 5 64; E S_TermW 5 10; E S_TermW 4 4;
   E S_TermW 4 2; E S_TermW 4 7; E S_TermW 8 45; E S_TermW 4 3; E S_TermW 5 11; E S_TermW 4 5;
   E S_TermW 8 53; E S_TermW 5 9; E S_MakeUpW 8 448; E S_TermW 4 6; E S_TermW 8 35; E S_MakeUpW 5 128;
   E S_TermW 8 51; E S_TermW 6 15; E S_TermW 8 63; E S_TermW 4 4; E S_TermW 4 2; E S_TermW 4 7;
   E S_TermW 6 13; E S_TermW 4 3; E S_MakeUpW 9 1472; E S_TermW 4 5; E S_TermW 8 43; E S_TermW 6 17;
   E S_MakeUpW 9 1216; E S_TermW 4 6; E S_TermW 6 1; E S_TermW 5 8; E S_MakeUpW 6 192; E S_MakeUpW 5 64;
   E S_TermW 5 10; E S_TermW 4 4; E S_TermW 4 2; E S_TermW 4 7; E S_TermW 8 29; E S_TermW 4 3;
   E S_TermW 5 11; E S_TermW 4 5; E S_TermW 6 12; E S_TermW 5 9; E S_MakeUpW 6 1664; E S_TermW 4 6;
   E S_TermW 8 33; E S_MakeUpW 5 128; E S_TermW 8 49; E S_TermW 6 14; E S_TermW 8 61; E S_TermW 4 4;
   E S_TermW 4 2; E S_TermW 4 7; E S_TermW 8 47; E S_TermW 4 3; E S_TermW 8 59; E S_TermW 4 5;
   E S_TermW 8 41; E S_TermW 6 16; E S_MakeUpW 9 960; E S_TermW 4 6; E S_TermW 8 31; E S_TermW 5 8;
   E S_TermW 8 57; E S_MakeUpW 5 64; E S_TermW 5 10; E S_TermW 4 4; E S_TermW 4 2; E S_TermW 4 7;
   E S_TermW 7 22; E S_TermW 4 3; E S_TermW 5 11; E S_TermW 4 5; E S_TermW 7 26; E S_TermW 5 9;
   E S_MakeUpW 9 704; E S_TermW 4 6; E S_TermW 8 37; E S_MakeUpW 5 128; E S_TermW 7 25; E S_TermW 6 15;
   E S_MakeUpW 8 320; E S_TermW 4 4; E S_TermW 4 2; E S_TermW 4 7; E S_TermW 6 13; E S_TermW 4 3;
   E S_TermW 7 18; E S_TermW 4 5; E S_TermW 7 21; E S_TermW 6 17; E S_MakeUpW 7 256; E S_TermW 4 6;
   E S_TermW 6 1; E S_TermW 5 8; E S_MakeUpW 6 192; E S_MakeUpW 5 64; E S_TermW 5 10; E S_TermW 4 4;
   E S_TermW 4 2; E S_TermW 4 7].
Definition t4_1d_white_table_25 : list te :=
  [E S_MakeUp 12 2048; E S_TermW 4 3; E S_TermW 5 11; E S_TermW 4 5; E S_TermW 6 12; E S_TermW 5 9;
   E S_MakeUpW 6 1664; E S_TermW 4 6; E S_TermW 7 20; E S_MakeUpW 5 128; E S_TermW 7 24; E S_TermW 6 14;
   E S_TermW 7 28; E S_TermW 4 4; E S_TermW 4 2; E S_TermW 4 7; E S_TermW 7 23; E S_TermW 4 3;
   E S_TermW 7 27; E S_TermW 4 5; E S_TermW 8 40; E S_TermW 6 16; E S_MakeUpW 9 832; E S_TermW 4 6;
   E S_TermW 7 19; E S_TermW 5 8; E S_TermW 8 56; E S_MakeUpW 5 64; E S_TermW 5 10; E S_TermW 4 4;
   E S_TermW 4 2; E S_TermW 4 7; E S_TermW 8 46; E S_TermW 4 3; E S_TermW 5 11; E S_TermW 4 5;
   E S_TermW 8 54; E S_TermW 5 9; E S_MakeUpW 8 512; E S_TermW 4 6; E S_TermW 8 36; E S_MakeUpW 5 128;
   E S_TermW 8 52; E S_TermW 6 15; E S_TermW 8 0; E S_TermW 4 4; E S_TermW 4 2; E S_TermW 4 7;
   E S_TermW 6 13; E S_TermW 4 3; E S_MakeUpW 9 1600; E S_TermW 4 5; E S_TermW 8 44; E S_TermW 6 17;
   E S_MakeUpW 9 1344; E S_TermW 4 6; E S_TermW 6 1; E S_TermW 5 8; E S_MakeUpW 6 192; E S_MakeUpW 5 64;
   E S_TermW 5 10; E S_TermW 4 4; E S_TermW 4 2; E S_TermW 4 7; E S_TermW 8 30; E S_TermW 4 3;
   E S_TermW 5 11; E S_TermW 4 5; E S_TermW 6 12; E S_TermW 5 9; E S_MakeUpW 6 1664; E S_TermW 4 6;
   E S_TermW 8 34; E S_MakeUpW 5 128; E S_TermW 8 50; E S_TermW 6 14; E S_TermW 8 62; E S_TermW 4 4;
   E S_TermW 4 2; E S_TermW 4 7; E S_TermW 8 48; E S_TermW 4 3; E S_TermW 8 60; E S_TermW 4 5;
   E S_TermW 8 42; E S_TermW 6 16; E S_MakeUpW 9 1088; E S_TermW 4 6; E S_TermW 8 32; E S_TermW 5 8;
   E S_TermW 8 58; E S_MakeUpW 5 64; E S_TermW 5 10; E S_TermW 4 4; E S_TermW 4 2; E S_TermW 4 7;
   E S_TermW 7 22; E S_TermW 4 3; E S_TermW 5 11; E S_TermW 4 5; E S_TermW 7 26; E S_TermW 5 9;
   E S_MakeUpW 8 640; E S_TermW 4 6; E S_TermW 8 38; E S_MakeUpW 5 128; E S_TermW 7 25; E S_TermW 6 15;
   E S_MakeUpW 8 384; E S_TermW 4 4; E S_TermW 4 2; E S_TermW 4 7; E S_TermW 6 13; E S_TermW 4 3;
   E S_TermW 7 18; E S_TermW 4 5; E S_TermW 7 21; E S_TermW 6 17; E S_MakeUpW 7 256; E S_TermW 4 6;
   E S_TermW 6 1; E S_TermW 5 8; E S_MakeUpW 6 192; E S_MakeUpW 5 64; E S_TermW 5 10; E S_TermW 4 4;
   E S_TermW 4 2; E S_TermW 4 7].
Definition t4_1d_white_table_26 : list te :=
  [E S_Null 1 0; E S_TermW 4 3; E S_TermW 5 11; E S_TermW 4 5; E S_TermW 6 12; E S_TermW 5 9;
   E S_MakeUpW 6 1664; E S_TermW 4 6; E S_TermW 7 20; E S_MakeUpW 5 128; E S_TermW 7 24; E S_TermW 6 14;
   E S_TermW 7 28; E S_TermW 4 4; E S_TermW 4 2; E S_TermW 4 7; E S_TermW 7 23; E S_TermW 4 3;
   E S_TermW 7 27; E S_TermW 4 5; E S_TermW 8 39; E S_TermW 6 16; E S_MakeUpW 8 576; E S_TermW 4 6;
   E S_TermW 7 19; E S_TermW 5 8; E S_TermW 8 55; E S_MakeUpW 5 64; E S_TermW 5 10; E S_TermW 4 4;
   E S_TermW 4 2; E S_TermW 4 7; E S_TermW 8 45; E S_TermW 4 3; E S_TermW 5 11; E S_TermW 4 5;
   E S_TermW 8 53; E S_TermW 5 9; E S_MakeUpW 8 448; E S_TermW 4 6; E S_TermW 8 35; E S_MakeUpW 5 128;
   E S_TermW 8 51; E S_TermW 6 15; E S_TermW 8 63; E S_TermW 4 4; E S_TermW 4 2; E S_TermW 4 7;
   E S_TermW 6 13; E S_TermW 4 3; E S_MakeUpW 9 1536; E S_TermW 4 5; E S_TermW 8 43; E S_TermW 6 17;
   E S_MakeUpW 9 1280; E S_TermW 4 6; E S_TermW 6 1; E S_TermW 5 8; E S_MakeUpW 6 192; E S_MakeUpW 5 64;
   E S_TermW 5 10; E S_TermW 4 4; E S_TermW 4 2; E S_TermW 4 7; E S_TermW 8 29; E S_TermW 4 3;
   E S_TermW 5 11; E S_TermW 4 5; E S_TermW 6 12; E S_TermW 5 9; E S_MakeUpW 6 1664; E S_TermW 4 6;
   E S_TermW 8 33; E S_MakeUpW 5 128; E S_TermW 8 49; E S_TermW 6 14; E S_TermW 8 61; E S_TermW 4 4;
   E S_TermW 4 2; E S_TermW 4 7; E S_TermW 8 47; E S_TermW 4 3; E S_TermW 8 59; E S_TermW 4 5;
   E S_TermW 8 41; E S_TermW 6 16; E S_MakeUpW 9 1024; E S_TermW 4 6; E S_TermW 8 31; E S_TermW 5 8;
   E S_TermW 8 57; E S_MakeUpW 5 64; E S_TermW 5 10; E S_TermW 4 4; E S_TermW 4 2; E S_TermW 4 7;
   E S_TermW 7 22; E S_TermW 4 3; E S_TermW 5 11; E S_TermW 4 5; E S_TermW 7 26; E S_TermW 5 9;
   E S_MakeUpW 9 768; E S_TermW 4 6; E S_TermW 8 37; E S_MakeUpW 5 128; E S_TermW 7 25; E S_TermW 6 15;
   E S_MakeUpW 8 320; E S_TermW 4 4; E S_TermW 4 2; E S_TermW 4 7; E S_TermW 6 13; E S_TermW 4 3;
   E S_TermW 7 18; E S_TermW 4 5; E S_TermW 7 21; E S_TermW 6 17; E S_MakeUpW 7 256; E S_TermW 4 6;
   E S_TermW 6 1; E S_TermW 5 8; E S_MakeUpW 6 192; E S_MakeUpW 5 64; E S_TermW 5 10; E S_TermW 4 4;
   E S_TermW 4 2; E S_TermW 4 7].
Definition t4_1d_white_table_27 : list te :=
  [E S_MakeUp 11 1920; E S_TermW 4 3; E S_TermW 5 11; E S_TermW 4 5; E S_TermW 6 12; E S_TermW 5 9;
   E S_MakeUpW 6 1664; E S_TermW 4 6; E S_TermW 7 20; E S_MakeUpW 5 128; E S_TermW 7 24; E S_TermW 6 14;
   E S_TermW 7 28; E S_TermW 4 4; E S_TermW 4 2; E S_TermW 4 7; E S_TermW 7 23; E S_TermW 4 3;
   E S_TermW 7 27; E S_TermW 4 5; E S_TermW 8 40; E S_TermW 6 16; E S_MakeUpW 9 896; E S_TermW 4 6;
   E S_TermW 7 19; E S_TermW 5 8; E S_TermW 8 56; E S_MakeUpW 5 64; E S_TermW 5 10; E S_TermW 4 4;
   E S_TermW 4 2; E S_TermW 4 7; E S_TermW 8 46; E S_TermW 4 3; E S_TermW 5 11; E S_TermW 4 5;
   E S_TermW 8 54; E S_TermW 5 9; E S_MakeUpW 8 512; E S_TermW 4 6; E S_TermW 8 36; E S_MakeUpW 5 128;
   E S_TermW 8 52; E S_TermW 6 15; E S_TermW 8 0; E S_TermW 4 4; E S_TermW 4 2; E S_TermW 4 7;
   E S_TermW 6 13; E S_TermW 4 3; E S_MakeUpW 9 1728; E S_TermW 4 5; E S_TermW 8 44; E S_TermW 6 17;
   E S_MakeUpW 9 1408; E S_TermW 4 6; E S_TermW 6 1; E S_TermW 5 8; E S_MakeUpW 6 192; E S_MakeUpW 5 64;
   E S_TermW 5 10; E S_TermW 4 4; E S_TermW 4 2; E S_TermW 4 7; E S_TermW 8 30; E S_TermW 4 3;
   E S_TermW 5 11; E S_TermW 4 5; E S_TermW 6 12; E S_TermW 5 9; E S_MakeUpW 6 1664; E S_TermW 4 6;
   E S_TermW 8 34; E S_MakeUpW 5 128; E S_TermW 8 50; E S_TermW 6 14; E S_TermW 8 62; E S_TermW 4 4;
   E S_TermW 4 2; E S_TermW 4 7; E S_TermW 8 48; E S_TermW 4 3; E S_TermW 8 60; E S_TermW 4 5;
   E S_TermW 8 42; E S_TermW 6 16; E S_MakeUpW 9 1152; E S_TermW 4 6; E S_TermW 8 32; E S_TermW 5 8;
   E S_TermW 8 58; E S_MakeUpW 5 64; E S_TermW 5 10; E S_TermW 4 4; E S_TermW 4 2; E S_TermW 4 7;
   E S_TermW 7 22; E S_TermW 4 3; E S_TermW 5 11; E S_TermW 4 5; E S_TermW 7 26; E S_TermW 5 9;
   E S_MakeUpW 8 640; E S_TermW 4 6; E S_TermW 8 38; E S_MakeUpW 5 128; E S_TermW 7 25; E S_TermW 6 15;
   E S_MakeUpW 8 384; E S_TermW 4 4; E S_TermW 4 2; E S_TermW 4 7; E S_TermW 6 13; E S_TermW 4 3;
   E S_TermW 7 18; E S_TermW 4 5; E S_TermW 7 21; E S_TermW 6 17; E S_MakeUpW 7 256; E S_TermW 4 6;
   E S_TermW 6 1; E S_TermW 5 8; E S_MakeUpW 6 192; E S_MakeUpW 5 64; E S_TermW 5 10; E S_TermW 4 4;
   E S_TermW 4 2; E S_TermW 4 7].
Definition t4_1d_white_table_28 : list te :=
  [E S_Null 1 0; E S_TermW 4 3; E S_TermW 5 11; E S_TermW 4 5; E S_TermW 6 12; E S_TermW 5 9;
   E S_MakeUpW 6 1664; E S_TermW 4 6; E S_TermW 7 20; E S_MakeUpW 5 128; E S_TermW 7 24; E S_TermW 6 14;
   E S_TermW 7 28; E S_TermW 4 4; E S_TermW 4 2; E S_TermW 4 7; E S_TermW 7 23; E S_TermW 4 3;
   E S_TermW 7 27; E S_TermW 4 5; E S_TermW 8 39; E S_TermW 6 16; E S_MakeUpW 8 576; E S_TermW 4 6;
   E S_TermW 7 19; E S_TermW 5 8; E S_TermW 8 55; E S_MakeUpW 5 64; E S_TermW 5 10; E S_TermW 4 4;
   E S_TermW 4 2; E S_TermW 4 7; E S_TermW 8 45; E S_TermW 4 3; E S_TermW 5 11; E S_TermW 4 5;
   E S_TermW 8 53; E S_TermW 5 9; E S_MakeUpW 8 448; E S_TermW 4 6; E S_TermW 8 35; E S_MakeUpW 5 128;
   E S_TermW 8 51; E S_TermW 6 15; E S_TermW 8 63; E S_TermW 4 4; E S_TermW 4 2; E S_TermW 4 7;
   E S_TermW 6 13; E S_TermW 4 3; E S_MakeUpW 9 1472; E S_TermW 4 5; E S_TermW 8 43; E S_TermW 6 17;
   E S_MakeUpW 9 1216; E S_TermW 4 6; E S_TermW 6 1; E S_TermW 5 8; E S_MakeUpW 6 192; E S_MakeUpW 5 64;
   E S_TermW 5 10; E S_TermW 4 4; E S_TermW 4 2; E S_TermW 4 7; E S_TermW 8 29; E S_TermW 4 3;
   E S_TermW 5 11; E S_TermW 4 5; E S_TermW 6 12; E S_TermW 5 9; E S_MakeUpW 6 1664; E S_TermW 4 6;
   E S_TermW 8 33; E S_MakeUpW 5 128; E S_TermW 8 49; E S_TermW 6 14; E S_TermW 8 61; E S_TermW 4 4;
   E S_TermW 4 2; E S_TermW 4 7; E S_TermW 8 47; E S_TermW 4 3; E S_TermW 8 59; E S_TermW 4 5;
   E S_TermW 8 41; E S_TermW 6 16; E S_MakeUpW 9 960; E S_TermW 4 6; E S_TermW 8 31; E S_TermW 5 8;
   E S_TermW 8 57; E S_MakeUpW 5 64; E S_TermW 5 10; E S_TermW 4 4; E S_TermW 4 2; E S_TermW 4 7;
   E S_TermW 7 22; E S_TermW 4 3; E S_TermW 5 11; E S_TermW 4 5; E S_TermW 7 26; E S_TermW 5 9;
   E S_MakeUpW 9 704; E S_TermW 4 6; E S_TermW 8 37; E S_MakeUpW 5 128; E S_TermW 7 25; E S_TermW 6 15;
   E S_MakeUpW 8 320; E S_TermW 4 4; E S_TermW 4 2; E S_TermW 4 7; E S_TermW 6 13; E S_TermW 4 3;
   E S_TermW 7 18; E S_TermW 4 5; E S_TermW 7 21; E S_TermW 6 17; E S_MakeUpW 7 256; E S_TermW 4 6;
   E S_TermW 6 1; E S_TermW 5 8; E S_MakeUpW 6 192; E S_MakeUpW 5 64; E S_TermW 5 10; E S_TermW 4 4;
   E S_TermW 4 2; E S_TermW 4 7].
Definition t4_1d_white_table_29 : list te :=
  [E S_MakeUp 12 2304; E S_TermW 4 3; E S_TermW 5 11; E S_TermW 4 5; E S_TermW 6 12; E S_TermW 5 9;
   E S_MakeUpW 6 1664; E S_TermW 4 6; E S_TermW 7 20; E S_MakeUpW 5 128; E S_TermW 7 24; E S_TermW 6 14;
   E S_TermW 7 28; E S_TermW 4 4; E S_TermW 4 2; E S_TermW 4 7; E S_TermW 7 23; E S_TermW 4 3;
   E S_TermW 7 27; E S_TermW 4 5; E S_TermW 8 40; E S_TermW 6 16; E S_MakeUpW 9 832; E S_TermW 4 6;
   E S_TermW 7 19; E S_TermW 5 8; E S_TermW 8 56; E S_MakeUpW 5 64; E S_TermW 5 10; E S_TermW 4 4;
   E S_TermW 4 2; E S_TermW 4 7; E S_TermW 8 46; E S_TermW 4 3; E S_TermW 5 11; E S_TermW 4 5;
   E S_TermW 8 54; E S_TermW 5 9; E S_MakeUpW 8 512; E S_TermW 4 6; E S_TermW 8 36; E S_MakeUpW 5 128;
   E S_TermW 8 52; E S_TermW 6 15; E S_TermW 8 0; E S_TermW 4 4; E S_TermW 4 2; E S_TermW 4 7;
   E S_TermW 6 13; E S_TermW 4 3; E S_MakeUpW 9 1600; E S_TermW 4 5; E S_TermW 8 44; E S_TermW 6 17;
   E S_MakeUpW 9 1344; E S_TermW 4 6; E S_TermW 6 1; E S_TermW 5 8; E S_MakeUpW 6 192; E S_MakeUpW 5 64;
   E S_TermW 5 10; E S_TermW 4 4; E S_TermW 4 2; E S_TermW 4 7; E S_TermW 8 30; E S_TermW 4 3;
   E S_TermW 5 11; E S_TermW 4 5; E S_TermW 6 12; E S_TermW 5 9; E S_MakeUpW 6 1664; E S_TermW 4 6;
   E S_TermW 8 34; E S_MakeUpW 5 128; E S_TermW 8 50; E S_TermW 6 14; E S_TermW 8 62; E S_TermW 4 4;
   E S_TermW 4 2; E S_TermW 4 7; E S_TermW 8 48; E S_TermW 4 3; E S_TermW 8 60; E S_TermW 4 5;
   E S_TermW 8 42; E S_TermW 6 16; E S_MakeUpW 9 1088; E S_TermW 4 6; E S_TermW 8 32; E S_TermW 5 8;
   E S_TermW 8 58; E S_MakeUpW 5 64; E S_TermW 5 10; E S_TermW 4 4; E S_TermW 4 2; E S_TermW 4 7;
   E S_TermW 7 22; E S_TermW 4 3; E S_TermW 5 11; E S_TermW 4 5; E S_TermW 7 26; E S_TermW 5 9;
   E S_MakeUpW 8 640; E S_TermW 4 6; E S_TermW 8 38; E S_MakeUpW 5 128; E S_TermW 7 25; E S_TermW 6 15;
   E S_MakeUpW 8 384; E S_TermW 4 4; E S_TermW 4 2; E S_TermW 4 7; E S_TermW 6 13; E S_TermW 4 3;
   E S_TermW 7 18; E S_TermW 4 5; E S_TermW 7 21; E S_TermW 6 17; E S_MakeUpW 7 256; E S_TermW 4 6;
   E S_TermW 6 1; E S_TermW 5 8; E S_MakeUpW 6 192; E S_MakeUpW 5 64; E S_TermW 5 10; E S_TermW 4 4;
   E S_TermW 4 2; E S_TermW 4 7].
Definition t4_1d_white_table_30 : list te :=
  [E S_Null 1 0; E S_TermW 4 3; E S_TermW 5 11; E S_TermW 4 5; E S_TermW 6 12; E S_TermW 5 9;
   E S_MakeUpW 6 1664; E S_TermW 4 6; E S_TermW 7 20; E S_MakeUpW 5 128; E S_TermW 7 24; E S_TermW 6 14;
   E S_TermW 7 28; E S_TermW 4 4; E S_TermW 4 2; E S_TermW 4 7; E S_TermW 7 23; E S_TermW 4 3;
   E S_TermW 7 27; E S_TermW 4 5; E S_TermW 8 39; E S_TermW 6 16; E S_MakeUpW 8 576; E S_TermW 4 6;
   E S_TermW 7 19; E S_TermW 5 8; E S_TermW 8 55; E S_MakeUpW 5 64; E S_TermW 5 10; E S_TermW 4 4;
   E S_TermW 4 2; E S_TermW 4 7; E S_TermW 8 45; E S_TermW 4 3; E S_TermW 5 11; E S_TermW 4 5;
   E S_TermW 8 53; E S_TermW 5 9; E S_MakeUpW 8 448; E S_TermW 4 6; E S_TermW 8 35; E S_MakeUpW 5 128;
   E S_TermW 8 51; E S_TermW 6 15; E S_TermW 8 63; E S_TermW 4 4; E S_TermW 4 2; E S_TermW 4 7;
   E S_TermW 6 13; E S_TermW 4 3; E S_MakeUpW 9 1536; E S_TermW 4 5; E S_TermW 8 43; E S_TermW 6 17;
   E S_MakeUpW 9 1280; E S_TermW 4 6; E S_TermW 6 1; E S_TermW 5 8; E S_MakeUpW 6 192; E S_MakeUpW 5 64;
   E S_TermW 5 10; E S_TermW 4 4; E S_TermW 4 2; E S_TermW 4 7; E S_TermW 8 29; E S_TermW 4 3;
   E S_TermW 5 11; E S_TermW 4 5; E S_TermW 6 12; E S_TermW 5 9; E S_MakeUpW 6 1664; E S_TermW 4 6;
   E S_TermW 8 33; E S_MakeUpW 5 128; E S_TermW 8 49; E S_TermW 6 14; E S_TermW 8 61; E S_TermW 4 4;
   E S_TermW 4 2; E S_TermW 4 7; E S_TermW 8 47; E S_TermW 4 3; E S_TermW 8 59; E S_TermW 4 5;
   E S_TermW 8 41; E S_TermW 6 16; E S_MakeUpW 9 1024; E S_TermW 4 6; E S_TermW 8 31; E S_TermW 5 8;
   E S_TermW 8 57; E S_MakeUpW 5 64; E S_TermW 5 10; E S_TermW 4 4; E S_TermW 4 2; E S_TermW 4 7;
   E S_TermW 7 22; E S_TermW 4 3; E S_TermW 5 11; E S_TermW 4 5; E S_TermW 7 26; E S_TermW 5 9;
   E S_MakeUpW 9 768; E S_TermW 4 6; E S_TermW 8 37; E S_MakeUpW 5 128; E S_TermW 7 25; E S_TermW 6 15;
   E S_MakeUpW 8 320; E S_TermW 4 4; E S_TermW 4 2; E S_TermW 4 7; E S_TermW 6 13; E S_TermW 4 3;
   E S_TermW 7 18; E S_TermW 4 5; E S_TermW 7 21; E S_TermW 6 17; E S_MakeUpW 7 256; E S_TermW 4 6;
   E S_TermW 6 1; E S_TermW 5 8; E S_MakeUpW 6 192; E S_MakeUpW 5 64; E S_TermW 5 10; E S_TermW 4 4;
   E S_TermW 4 2; E S_TermW 4 7].
Definition t4_1d_white_table_31 : list te :=
  [E S_MakeUp 12 2560; E S_TermW 4 3; E S_TermW 5 11; E S_TermW 4 5; E S_TermW 6 12; E S_TermW 5 9;
   E S_MakeUpW 6 1664; E S_TermW 4 6; E S_TermW 7 20; E S_MakeUpW 5 128; E S_TermW 7 24; E S_TermW 6 14;
   E S_TermW 7 28; E S_TermW 4 4; E S_TermW 4 2; E S_TermW 4 7; E S_TermW 7 23; E S_TermW 4 3;
   E S_TermW 7 27; E S_TermW 4 5; E S_TermW 8 40; E S_TermW 6 16; E S_MakeUpW 9 896; E S_TermW 4 6;
   E S_TermW 7 19; E S_TermW 5 8; E S_TermW 8 56; E S_MakeUpW 5 64; E S_TermW 5 10; E S_TermW 4 4;
   E S_TermW 4 2; E S_TermW 4 7; E S_TermW 8 46; E S_TermW 4 3; E S_TermW 5 11; E S_TermW 4 5;
   E S_TermW 8 54; E S_TermW 5 9; E S_MakeUpW 8 512; E S_TermW 4 6; E S_TermW 8 36; E S_MakeUpW 5 128;
   E S_TermW 8 52; E S_TermW 6 15; E S_TermW 8 0; E S_TermW 4 4; E S_TermW 4 2; E S_TermW 4 7;
   E S_TermW 6 13; E S_TermW 4 3; E S_MakeUpW 9 1728; E S_TermW 4 5; E S_TermW 8 44; E S_TermW 6 17;
   E S_MakeUpW 9 1408; E S_TermW 4 6; E S_TermW 6 1; E S_TermW 5 8; E S_MakeUpW 6 192; E S_MakeUpW 5 64;
   E S_TermW 5 10; E S_TermW 4 4; E S_TermW 4 2; E S_TermW 4 7; E S_TermW 8 30; E S_TermW 4 3;
   E S_TermW 5 11; E S_TermW 4 5; E S_TermW 6 12; E S_TermW 5 9; E S_MakeUpW 6 1664; E S_TermW 4 6;
   E S_TermW 8 34; E S_MakeUpW 5 128; E S_TermW 8 50; E S_TermW 6 14; E S_TermW 8 62; E S_TermW 4 4;
   E S_TermW 4 2; E S_TermW 4 7; E S_TermW 8 48; E S_TermW 4 3; E S_TermW 8 60; E S_TermW 4 5;
   E S_TermW 8 42; E S_TermW 6 16; E S_MakeUpW 9 1152; E S_TermW 4 6; E S_TermW 8 32; E S_TermW 5 8;
   E S_TermW 8 58; E S_MakeUpW 5 64; E S_TermW 5 10; E S_TermW 4 4; E S_TermW 4 2; E S_TermW 4 7;
   E S_TermW 7 22; E S_TermW 4 3; E S_TermW 5 11; E S_TermW 4 5; E S_TermW 7 26; E S_TermW 5 9;
   E S_MakeUpW 8 640; E S_TermW 4 6; E S_TermW 8 38; E S_MakeUpW 5 128; E S_TermW 7 25; E S_TermW 6 15;
   E S_MakeUpW 8 384; E S_TermW 4 4; E S_TermW 4 2; E S_TermW 4 7; E S_TermW 6 13; E S_TermW 4 3;
   E S_TermW 7 18; E S_TermW 4 5; E S_TermW 7 21; E S_TermW 6 17; E S_MakeUpW 7 256; E S_TermW 4 6;
   E S_TermW 6 1; E S_TermW 5 8; E S_MakeUpW 6 192; E S_MakeUpW 5 64; E S_TermW 5 10; E S_TermW 4 4;
   E S_TermW 4 2; E S_TermW 4 7].
(** src/t4_t6_decode_states.h:188-4286 *)
Definition t4_1d_white_table : list te :=
  concat [t4_1d_white_table_0; t4_1d_white_table_1; t4_1d_white_table_2; t4_1d_white_table_3; t4_1d_white_table_4; t4_1d_white_table_5; t4_1d_white_table_6; t4_1d_white_table_7; t4_1d_white_table_8; t4_1d_white_table_9; t4_1d_white_table_10; t4_1d_white_table_11; t4_1d_white_table_12; t4_1d_white_table_13; t4_1d_white_table_14; t4_1d_white_table_15; t4_1d_white_table_16; t4_1d_white_table_17; t4_1d_white_table_18; t4_1d_white_table_19; t4_1d_white_table_20; t4_1d_white_table_21; t4_1d_white_table_22; t4_1d_white_table_23; t4_1d_white_table_24; t4_1d_white_table_25; t4_1d_white_table_26; t4_1d_white_table_27; t4_1d_white_table_28; t4_1d_white_table_29; t4_1d_white_table_30; t4_1d_white_table_31].

Definition t4_1d_black_table_0 : list te :=
  [E S_Null 1 0; E S_TermB 2 3; E S_TermB 3 1; E S_TermB 2 2; E S_TermB 4 6; E S_TermB 2 3;
   E S_TermB 3 4; E S_TermB 2 2; E S_TermB 6 9; E S_TermB 2 3; E S_TermB 3 1; E S_TermB 2 2;
   E S_TermB 4 5; E S_TermB 2 3; E S_TermB 3 4; E S_TermB 2 2; E S_TermB 7 10; E S_TermB 2 3;
   E S_TermB 3 1; E S_TermB 2 2; E S_TermB 4 6; E S_TermB 2 3; E S_TermB 3 4; E S_TermB 2 2;
   E S_TermB 5 7; E S_TermB 2 3; E S_TermB 3 1; E S_TermB 2 2; E S_TermB 4 5; E S_TermB 2 3;
   E S_TermB 3 4; E S_TermB 2 2; E S_TermB 8 13; E S_TermB 2 3; E S_TermB 3 1; E S_TermB 2 2;
   E S_TermB 4 6; E S_TermB 2 3; E S_TermB 3 4; E S_TermB 2 2; E S_TermB 6 8; E S_TermB 2 3;
   E S_TermB 3 1; E S_TermB 2 2; E S_TermB 4 5; E S_TermB 2 3; E S_TermB 3 4; E S_TermB 2 2;
   E S_TermB 9 15; E S_TermB 2 3; E S_TermB 3 1; E S_TermB 2 2; E S_TermB 4 6; E S_TermB 2 3;
   E S_TermB 3 4; E S_TermB 2 2; E S_TermB 5 7; E S_TermB 2 3; E S_TermB 3 1; E S_TermB 2 2;
   E S_TermB 4 5; E S_TermB 2 3; E S_TermB 3 4; E S_TermB 2 2; E S_TermB 10 18; E S_TermB 2 3;
   E S_TermB 3 1; E S_TermB 2 2; E S_TermB 4 6; E S_TermB 2 3; E S_TermB 3 4; E S_TermB 2 2;
   E S_TermB 6 9; E S_TermB 2 3; E S_TermB 3 1; E S_TermB 2 2; E S_TermB 4 5; E S_TermB 2 3;
   E S_TermB 3 4; E S_TermB 2 2; E S_TermB 7 11; E S_TermB 2 3; E S_TermB 3 1; E S_TermB 2 2;
   E S_TermB 4 6; E S_TermB 2 3; E S_TermB 3 4; E S_TermB 2 2; E S_TermB 5 7; E S_TermB 2 3;
   E S_TermB 3 1; E S_TermB 2 2; E S_TermB 4 5; E S_TermB 2 3; E S_TermB 3 4; E S_TermB 2 2;
   E S_TermB 10 17; E S_TermB 2 3; E S_TermB 3 1; E S_TermB 2 2; E S_TermB 4 6; E S_TermB 2 3;
   E S_TermB 3 4; E S_TermB 2 2; E S_TermB 6 8; E S_TermB 2 3; E S_TermB 3 1; E S_TermB 2 2;
   E S_TermB 4 5; E S_TermB 2 3; E S_TermB 3 4; E S_TermB 2 2; E S_TermB 7 12; E S_TermB 2 3;
   E S_TermB 3 1; E S_TermB 2 2; E S_TermB 4 6; E S_TermB 2 3; E S_TermB 3 4; E S_TermB 2 2;
   E S_TermB 5 7; E S_TermB 2 3; E S_TermB 3 1; E S_TermB 2 2; E S_TermB 4 5; E S_TermB 2 3;
   E S_TermB 3 4; E S_TermB 2 2].
Definition t4_1d_black_table_1 : list te :=
  [E S_MakeUp 11 1792; E S_TermB 2 3; E S_TermB 3 1; E S_TermB 2 2; E S_TermB 4 6; E S_TermB 2 3;
   E S_TermB 3 4; E S_TermB 2 2; E S_TermB 6 9; E S_TermB 2 3; E S_TermB 3 1; E S_TermB 2 2;
   E S_TermB 4 5; E S_TermB 2 3; E S_TermB 3 4; E S_TermB 2 2; E S_TermB 7 10; E S_TermB 2 3;
   E S_TermB 3 1; E S_TermB 2 2; E S_TermB 4 6; E S_TermB 2 3; E S_TermB 3 4; E S_TermB 2 2;
   E S_TermB 5 7; E S_TermB 2 3; E S_TermB 3 1; E S_TermB 2 2; E S_TermB 4 5; E S_TermB 2 3;
   E S_TermB 3 4; E S_TermB 2 2; E S_TermB 11 23; E S_TermB 2 3; E S_TermB 3 1; E S_TermB 2 2;
   E S_TermB 4 6; E S_TermB 2 3; E S_TermB 3 4; E S_TermB 2 2; E S_TermB 6 8; E S_TermB 2 3;
   E S_TermB 3 1; E S_TermB 2 2; E S_TermB 4 5; E S_TermB 2 3; E S_TermB 3 4; E S_TermB 2 2;
   E S_TermB 11 20; E S_TermB 2 3; E S_TermB 3 1; E S_TermB 2 2; E S_TermB 4 6; E S_TermB 2 3;
   E S_TermB 3 4; E S_TermB 2 2; E S_TermB 5 7; E S_TermB 2 3; E S_TermB 3 1; E S_TermB 2 2;
   E S_TermB 4 5; E S_TermB 2 3; E S_TermB 3 4; E S_TermB 2 2; E S_TermB 11 25; E S_TermB 2 3;
   E S_TermB 3 1; E S_TermB 2 2; E S_TermB 4 6; E S_TermB 2 3; E S_TermB 3 4; E S_TermB 2 2;
   E S_TermB 6 9; E S_TermB 2 3; E S_TermB 3 1; E S_TermB 2 2; E S_TermB 4 5; E S_TermB 2 3;
   E S_TermB 3 4; E S_TermB 2 2; E S_TermB 7 11; E S_TermB 2 3; E S_TermB 3 1; E S_TermB 2 2;
   E S_TermB 4 6; E S_TermB 2 3; E S_TermB 3 4; E S_TermB 2 2; E S_TermB 5 7; E S_TermB 2 3;
   E S_TermB 3 1; E S_TermB 2 2; E S_TermB 4 5; E S_TermB 2 3; E S_TermB 3 4; E S_TermB 2 2;
   E S_TermB 8 14; E S_TermB 2 3; E S_TermB 3 1; E S_TermB 2 2; E S_TermB 4 6; E S_TermB 2 3;
   E S_TermB 3 4; E S_TermB 2 2; E S_TermB 6 8; E S_TermB 2 3; E S_TermB 3 1; E S_TermB 2 2;
   E S_TermB 4 5; E S_TermB 2 3; E S_TermB 3 4; E S_TermB 2 2; E S_TermB 7 12; E S_TermB 2 3;
   E S_TermB 3 1; E S_TermB 2 2; E S_TermB 4 6; E S_TermB 2 3; E S_TermB 3 4; E S_TermB 2 2;
   E S_TermB 5 7; E S_TermB 2 3; E S_TermB 3 1; E S_TermB 2 2; E S_TermB 4 5; E S_TermB 2 3;
   E S_TermB 3 4; E S_TermB 2 2].
Definition t4_1d_black_table_2 : list te :=
  [E S_Null 1 0; E S_TermB 2 3; E S_TermB 3 1; E S_TermB 2 2; E S_TermB 4 6; E S_TermB 2 3;
   E S_TermB 3 4; E S_TermB 2 2; E S_TermB 6 9; E S_TermB 2 3; E S_TermB 3 1; E S_TermB 2 2;
   E S_TermB 4 5; E S_TermB 2 3; E S_TermB 3 4; E S_TermB 2 2; E S_TermB 7 10; E S_TermB 2 3;
   E S_TermB 3 1; E S_TermB 2 2; E S_TermB 4 6; E S_TermB 2 3; E S_TermB 3 4; E S_TermB 2 2;
   E S_TermB 5 7; E S_TermB 2 3; E S_TermB 3 1; E S_TermB 2 2; E S_TermB 4 5; E S_TermB 2 3;
   E S_TermB 3 4; E S_TermB 2 2; E S_TermB 8 13; E S_TermB 2 3; E S_TermB 3 1; E S_TermB 2 2;
   E S_TermB 4 6; E S_TermB 2 3; E S_TermB 3 4; E S_TermB 2 2; E S_TermB 6 8; E S_TermB 2 3;
   E S_TermB 3 1; E S_TermB 2 2; E S_TermB 4 5; E S_TermB 2 3; E S_TermB 3 4; E S_TermB 2 2;
   E S_MakeUpB 12 128; E S_TermB 2 3; E S_TermB 3 1; E S_TermB 2 2; E S_TermB 4 6; E S_TermB 2 3;
   E S_TermB 3 4; E S_TermB 2 2; E S_TermB 5 7; E S_TermB 2 3; E S_TermB 3 1; E S_TermB 2 2;
   E S_TermB 4 5; E S_TermB 2 3; E S_TermB 3 4; E S_TermB 2 2; E S_TermB 12 56; E S_TermB 2 3;
   E S_TermB 3 1; E S_TermB 2 2; E S_TermB 4 6; E S_TermB 2 3; E S_TermB 3 4; E S_TermB 2 2;
   E S_TermB 6 9; E S_TermB 2 3; E S_TermB 3 1; E S_TermB 2 2; E S_TermB 4 5; E S_TermB 2 3;
   E S_TermB 3 4; E S_TermB 2 2; E S_TermB 7 11; E S_TermB 2 3; E S_TermB 3 1; E S_TermB 2 2;
   E S_TermB 4 6; E S_TermB 2 3; E S_TermB 3 4; E S_TermB 2 2; E S_TermB 5 7; E S_TermB 2 3;
   E S_TermB 3 1; E S_TermB 2 2; E S_TermB 4 5; E S_TermB 2 3; E S_TermB 3 4; E S_TermB 2 2;
   E S_TermB 12 30; E S_TermB 2 3; E S_TermB 3 1; E S_TermB 2 2; E S_TermB 4 6; E S_TermB 2 3;
   E S_TermB 3 4; E S_TermB 2 2; E S_TermB 6 8; E S_TermB 2 3; E S_TermB 3 1; E S_TermB 2 2;
   E S_TermB 4 5; E S_TermB 2 3; E S_TermB 3 4; E S_TermB 2 2; E S_TermB 7 12; E S_TermB 2 3;
   E S_TermB 3 1; E S_TermB 2 2; E S_TermB 4 6; E S_TermB 2 3; E S_TermB 3 4; E S_TermB 2 2;
   E S_TermB 5 7; E S_TermB 2 3; E S_TermB 3 1; E S_TermB 2 2; E S_TermB 4 5; E S_TermB 2 3;
   E S_TermB 3 4; E S_TermB 2 2].
Definition t4_1d_black_table_3 : list te :=
  [E S_MakeUp 11 1856; E S_TermB 2 3; E S_TermB 3 1; E S_TermB 2 2; E S_TermB 4 6; E S_TermB 2 3;
   E S_TermB 3 4; E S_TermB 2 2; E S_TermB 6 9; E S_TermB 2 3; E S_TermB 3 1; E S_TermB 2 2;
   E S_TermB 4 5; E S_TermB 2 3; E S_TermB 3 4; E S_TermB 2 2; E S_TermB 7 10; E S_TermB 2 3;
   E S_TermB 3 1; E S_TermB 2 2; E S_TermB 4 6; E S_TermB 2 3; E S_TermB 3 4; E S_TermB 2 2;
   E S_TermB 5 7; E S_TermB 2 3; E S_TermB 3 1; E S_TermB 2 2; E S_TermB 4 5; E S_TermB 2 3;
   E S_TermB 3 4; E S_TermB 2 2; E S_TermB 12 57; E S_TermB 2 3; E S_TermB 3 1; E S_TermB 2 2;
   E S_TermB 4 6; E S_TermB 2 3; E S_TermB 3 4; E S_TermB 2 2; E S_TermB 6 8; E S_TermB 2 3;
   E S_TermB 3 1; E S_TermB 2 2; E S_TermB 4 5; E S_TermB 2 3; E S_TermB 3 4; E S_TermB 2 2;
   E S_TermB 11 21; E S_TermB 2 3; E S_TermB 3 1; E S_TermB 2 2; E S_TermB 4 6; E S_TermB 2 3;
   E S_TermB 3 4; E S_TermB 2 2; E S_TermB 5 7; E S_TermB 2 3; E S_TermB 3 1; E S_TermB 2 2;
   E S_TermB 4 5; E S_TermB 2 3; E S_TermB 3 4; E S_TermB 2 2; E S_TermB 12 54; E S_TermB 2 3;
   E S_TermB 3 1; E S_TermB 2 2; E S_TermB 4 6; E S_TermB 2 3; E S_TermB 3 4; E S_TermB 2 2;
   E S_TermB 6 9; E S_TermB 2 3; E S_TermB 3 1; E S_TermB 2 2; E S_TermB 4 5; E S_TermB 2 3;
   E S_TermB 3 4; E S_TermB 2 2; E S_TermB 7 11; E S_TermB 2 3; E S_TermB 3 1; E S_TermB 2 2;
   E S_TermB 4 6; E S_TermB 2 3; E S_TermB 3 4; E S_TermB 2 2; E S_TermB 5 7; E S_TermB 2 3;
   E S_TermB 3 1; E S_TermB 2 2; E S_TermB 4 5; E S_TermB 2 3; E S_TermB 3 4; E S_TermB 2 2;
   E S_TermB 8 14; E S_TermB 2 3; E S_TermB 3 1; E S_TermB 2 2; E S_TermB 4 6; E S_TermB 2 3;
   E S_TermB 3 4; E S_TermB 2 2; E S_TermB 6 8; E S_TermB 2 3; E S_TermB 3 1; E S_TermB 2 2;
   E S_TermB 4 5; E S_TermB 2 3; E S_TermB 3 4; E S_TermB 2 2; E S_TermB 7 12; E S_TermB 2 3;
   E S_TermB 3 1; E S_TermB 2 2; E S_TermB 4 6; E S_TermB 2 3; E S_TermB 3 4; E S_TermB 2 2;
   E S_TermB 5 7; E S_TermB 2 3; E S_TermB 3 1; E S_TermB 2 2; E S_TermB 4 5; E S_TermB 2 3;
   E S_TermB 3 4; E S_TermB 2 2].
Definition t4_1d_black_table_4 : list te :=
  [E S_Null 1 0; E S_TermB 2 3; E S_TermB 3 1; E S_TermB 2 2; E S_TermB 4 6; E S_TermB 2 3;
   E S_TermB 3 4; E S_TermB 2 2; E S_TermB 6 9; E S_TermB 2 3; E S_TermB 3 1; E S_TermB 2 2;
   E S_TermB 4 5; E S_TermB 2 3; E S_TermB 3 4; E S_TermB 2 2; E S_TermB 7 10; E S_TermB 2 3;
   E S_TermB 3 1; E S_TermB 2 2; E S_TermB 4 6; E S_TermB 2 3; E S_TermB 3 4; E S_TermB 2 2;
   E S_TermB 5 7; E S_TermB 2 3; E S_TermB 3 1; E S_TermB 2 2; E S_TermB 4 5; E S_TermB 2 3;
   E S_TermB 3 4; E S_TermB 2 2; E S_TermB 8 13; E S_TermB 2 3; E S_TermB 3 1; E S_TermB 2 2;
   E S_TermB 4 6; E S_TermB 2 3; E S_TermB 3 4; E S_TermB 2 2; E S_TermB 6 8; E S_TermB 2 3;
   E S_TermB 3 1; E S_TermB 2 2; E S_TermB 4 5; E S_TermB 2 3; E S_TermB 3 4; E S_TermB 2 2;
   E S_TermB 9 15; E S_TermB 2 3; E S_TermB 3 1; E S_TermB 2 2; E S_TermB 4 6; E S_TermB 2 3;
   E S_TermB 3 4; E S_TermB 2 2; E S_TermB 5 7; E S_TermB 2 3; E S_TermB 3 1; E S_TermB 2 2;
   E S_TermB 4 5; E S_TermB 2 3; E S_TermB 3 4; E S_TermB 2 2; E S_TermB 12 52; E S_TermB 2 3;
   E S_TermB 3 1; E S_TermB 2 2; E S_TermB 4 6; E S_TermB 2 3; E S_TermB 3 4; E S_TermB 2 2;
   E S_TermB 6 9; E S_TermB 2 3; E S_TermB 3 1; E S_TermB 2 2; E S_TermB 4 5; E S_TermB 2 3;
   E S_TermB 3 4; E S_TermB 2 2; E S_TermB 7 11; E S_TermB 2 3; E S_TermB 3 1; E S_TermB 2 2;
   E S_TermB 4 6; E S_TermB 2 3; E S_TermB 3 4; E S_TermB 2 2; E S_TermB 5 7; E S_TermB 2 3;
   E S_TermB 3 1; E S_TermB 2 2; E S_TermB 4 5; E S_TermB 2 3; E S_TermB 3 4; E S_TermB 2 2;
   E S_TermB 12 48; E S_TermB 2 3; E S_TermB 3 1; E S_TermB 2 2; E S_TermB 4 6; E S_TermB 2 3;
   E S_TermB 3 4; E S_TermB 2 2; E S_TermB 6 8; E S_TermB 2 3; E S_TermB 3 1; E S_TermB 2 2;
   E S_TermB 4 5; E S_TermB 2 3; E S_TermB 3 4; E S_TermB 2 2; E S_TermB 7 12; E S_TermB 2 3;
   E S_TermB 3 1; E S_TermB 2 2; E S_TermB 4 6; E S_TermB 2 3; E S_TermB 3 4; E S_TermB 2 2;
   E S_TermB 5 7; E S_TermB 2 3; E S_TermB 3 1; E S_TermB 2 2; E S_TermB 4 5; E S_TermB 2 3;
   E S_TermB 3 4; E S_TermB 2 2].
Definition t4_1d_black_table_5 : list te :=
  [E S_MakeUp 12 2112; E S_TermB 2 3; E S_TermB 3 1; E S_TermB 2 2; E S_TermB 4 6; E S_TermB 2 3;
   E S_TermB 3 4; E S_TermB 2 2; E S_TermB 6 9; E S_TermB 2 3; E S_TermB 3 1; E S_TermB 2 2;
   E S_TermB 4 5; E S_TermB 2 3; E S_TermB 3 4; E S_TermB 2 2; E S_TermB 7 10; E S_TermB 2 3;
   E S_TermB 3 1; E S_TermB 2 2; E S_TermB 4 6; E S_TermB 2 3; E S_TermB 3 4; E S_TermB 2 2;
   E S_TermB 5 7; E S_TermB 2 3; E S_TermB 3 1; E S_TermB 2 2; E S_TermB 4 5; E S_TermB 2 3;
   E S_TermB 3 4; E S_TermB 2 2; E S_TermB 12 44; E S_TermB 2 3; E S_TermB 3 1; E S_TermB 2 2;
   E S_TermB 4 6; E S_TermB 2 3; E S_TermB 3 4; E S_TermB 2 2; E S_TermB 6 8; E S_TermB 2 3;
   E S_TermB 3 1; E S_TermB 2 2; E S_TermB 4 5; E S_TermB 2 3; E S_TermB 3 4; E S_TermB 2 2;
   E S_TermB 12 36; E S_TermB 2 3; E S_TermB 3 1; E S_TermB 2 2; E S_TermB 4 6; E S_TermB 2 3;
   E S_TermB 3 4; E S_TermB 2 2; E S_TermB 5 7; E S_TermB 2 3; E S_TermB 3 1; E S_TermB 2 2;
   E S_TermB 4 5; E S_TermB 2 3; E S_TermB 3 4; E S_TermB 2 2; E S_MakeUpB 12 384; E S_TermB 2 3;
   E S_TermB 3 1; E S_TermB 2 2; E S_TermB 4 6; E S_TermB 2 3; E S_TermB 3 4; E S_TermB 2 2;
   E S_TermB 6 9; E S_TermB 2 3; E S_TermB 3 1; E S_TermB 2 2; E S_TermB 4 5; E S_TermB 2 3;
   E S_TermB 3 4; E S_TermB 2 2; E S_TermB 7 11; E S_TermB 2 3; E S_TermB 3 1; E S_TermB 2 2;
   E S_TermB 4 6; E S_TermB 2 3; E S_TermB 3 4; E S_TermB 2 2; E S_TermB 5 7; E S_TermB 2 3;
   E S_TermB 3 1; E S_TermB 2 2; E S_TermB 4 5; E S_TermB 2 3; E S_TermB 3 4; E S_TermB 2 2;
   E S_TermB 8 14; E S_TermB 2 3; E S_TermB 3 1; E S_TermB 2 2; E S_TermB 4 6; E S_TermB 2 3;
   E S_TermB 3 4; E S_TermB 2 2; E S_TermB 6 8; E S_TermB 2 3; E S_TermB 3 1; E S_TermB 2 2;
   E S_TermB 4 5; E S_TermB 2 3; E S_TermB 3 4; E S_TermB 2 2; E S_TermB 7 12; E S_TermB 2 3;
   E S_TermB 3 1; E S_TermB 2 2; E S_TermB 4 6; E S_TermB 2 3; E S_TermB 3 4; E S_TermB 2 2;
   E S_TermB 5 7; E S_TermB 2 3; E S_TermB 3 1; E S_TermB 2 2; E S_TermB 4 5; E S_TermB 2 3;
   E S_TermB 3 4; E S_TermB 2 2].
Definition t4_1d_black_table_6 : list te :=
  [E S_Null 1 0; E S_TermB 2 3; E S_TermB 3 1; E S_TermB 2 2; E S_TermB 4 6; E S_TermB 2 3;
   E S_TermB 3 4; E S_TermB 2 2; E S_TermB 6 9; E S_TermB 2 3; E S_TermB 3 1; E S_TermB 2 2;
   E S_TermB 4 5; E S_TermB 2 3; E S_TermB 3 4; E S_TermB 2 2; E S_TermB 7 10; E S_TermB 2 3;
   E S_TermB 3 1; E S_TermB 2 2; E S_TermB 4 6; E S_TermB 2 3; E S_TermB 3 4; E S_TermB 2 2;
   E S_TermB 5 7; E S_TermB 2 3; E S_TermB 3 1; E S_TermB 2 2; E S_TermB 4 5; E S_TermB 2 3;
   E S_TermB 3 4; E S_TermB 2 2; E S_TermB 8 13; E S_TermB 2 3; E S_TermB 3 1; E S_TermB 2 2;
   E S_TermB 4 6; E S_TermB 2 3; E S_TermB 3 4; E S_TermB 2 2; E S_TermB 6 8; E S_TermB 2 3;
   E S_TermB 3 1; E S_TermB 2 2; E S_TermB 4 5; E S_TermB 2 3; E S_TermB 3 4; E S_TermB 2 2;
   E S_TermB 12 28; E S_TermB 2 3; E S_TermB 3 1; E S_TermB 2 2; E S_TermB 4 6; E S_TermB 2 3;
   E S_TermB 3 4; E S_TermB 2 2; E S_TermB 5 7; E S_TermB 2 3; E S_TermB 3 1; E S_TermB 2 2;
   E S_TermB 4 5; E S_TermB 2 3; E S_TermB 3 4; E S_TermB 2 2; E S_TermB 12 60; E S_TermB 2 3;
   E S_TermB 3 1; E S_TermB 2 2; E S_TermB 4 6; E S_TermB 2 3; E S_TermB 3 4; E S_TermB 2 2;
   E S_TermB 6 9; E S_TermB 2 3; E S_TermB 3 1; E S_TermB 2 2; E S_TermB 4 5; E S_TermB 2 3;
   E S_TermB 3 4; E S_TermB 2 2; E S_TermB 7 11; E S_TermB 2 3; E S_TermB 3 1; E S_TermB 2 2;
   E S_TermB 4 6; E S_TermB 2 3; E S_TermB 3 4; E S_TermB 2 2; E S_TermB 5 7; E S_TermB 2 3;
   E S_TermB 3 1; E S_TermB 2 2; E S_TermB 4 5; E S_TermB 2 3; E S_TermB 3 4; E S_TermB 2 2;
   E S_TermB 12 40; E S_TermB 2 3; E S_TermB 3 1; E S_TermB 2 2; E S_TermB 4 6; E S_TermB 2 3;
   E S_TermB 3 4; E S_TermB 2 2; E S_TermB 6 8; E S_TermB 2 3; E S_TermB 3 1; E S_TermB 2 2;
   E S_TermB 4 5; E S_TermB 2 3; E S_TermB 3 4; E S_TermB 2 2; E S_TermB 7 12; E S_TermB 2 3;
   E S_TermB 3 1; E S_TermB 2 2; E S_TermB 4 6; E S_TermB 2 3; E S_TermB 3 4; E S_TermB 2 2;
   E S_TermB 5 7; E S_TermB 2 3; E S_TermB 3 1; E S_TermB 2 2; E S_TermB 4 5; E S_TermB 2 3;
   E S_TermB 3 4; E S_TermB 2 2].
Definition t4_1d_black_table_7 : list te :=
  [E S_MakeUp 12 2368; E S_TermB 2 3; E S_TermB 3 1; E S_TermB 2 2; E S_TermB 4 6; E S_TermB 2 3;
   E S_TermB 3 4; E S_TermB 2 2; E S_TermB 6 9; E S_TermB 2 3; E S_TermB 3 1; E S_TermB 2 2;
   E S_TermB 4 5; E S_TermB 2 3; E S_TermB 3 4; E S_TermB 2 2; E S_TermB 7 10; E S_TermB 2 3;
   E S_TermB 3 1; E S_TermB 2 2; E S_TermB 4 6; E S_TermB 2 3; E S_TermB 3 4; E S_TermB 2 2;
   E S_TermB 5 7; E S_TermB 2 3; E S_TermB 3 1; E S_TermB 2 2; E S_TermB 4 5; E S_TermB 2 3;
   E S_TermB 3 4; E S_TermB 2 2; E S_TermB 10 16; E S_TermB 2 3; E S_TermB 3 1; E S_TermB 2 2;
   E S_TermB 4 6; E S_TermB 2 3; E S_TermB 3 4; E S_TermB 2 2; E S_TermB 6 8; E S_TermB 2 3;
   E S_TermB 3 1; E S_TermB 2 2; E S_TermB 4 5; E S_TermB 2 3; E S_TermB 3 4; E S_TermB 2 2;
   E S_TermB 10 0; E S_TermB 2 3; E S_TermB 3 1; E S_TermB 2 2; E S_TermB 4 6; E S_TermB 2 3;
   E S_TermB 3 4; E S_TermB 2 2; E S_TermB 5 7; E S_TermB 2 3; E S_TermB 3 1; E S_TermB 2 2;
   E S_TermB 4 5; E S_TermB 2 3; E S_TermB 3 4; E S_TermB 2 2; E S_MakeUpB 10 64; E S_TermB 2 3;
   E S_TermB 3 1; E S_TermB 2 2; E S_TermB 4 6; E S_TermB 2 3; E S_TermB 3 4; E S_TermB 2 2;
   E S_TermB 6 9; E S_TermB 2 3; E S_TermB 3 1; E S_TermB 2 2; E S_TermB 4 5; E S_TermB 2 3;
   E S_TermB 3 4; E S_TermB 2 2; E S_TermB 7 11; E S_TermB 2 3; E S_TermB 3 1; E S_TermB 2 2;
   E S_TermB 4 6; E S_TermB 2 3; E S_TermB 3 4; E S_TermB 2 2; E S_TermB 5 7; E S_TermB 2 3;
   E S_TermB 3 1; E S_TermB 2 2; E S_TermB 4 5; E S_TermB 2 3; E S_TermB 3 4; E S_TermB 2 2;
   E S_TermB 8 14; E S_TermB 2 3; E S_TermB 3 1; E S_TermB 2 2; E S_TermB 4 6; E S_TermB 2 3;
   E S_TermB 3 4; E S_TermB 2 2; E S_TermB 6 8; E S_TermB 2 3; E S_TermB 3 1; E S_TermB 2 2;
   E S_TermB 4 5; E S_TermB 2 3; E S_TermB 3 4; E S_TermB 2 2; E S_TermB 7 12; E S_TermB 2 3;
   E S_TermB 3 1; E S_TermB 2 2; E S_TermB 4 6; E S_TermB 2 3; E S_TermB 3 4; E S_TermB 2 2;
   E S_TermB 5 7; E S_TermB 2 3; E S_TermB 3 1; E S_TermB 2 2; E S_TermB 4 5; E S_TermB 2 3;
   E S_TermB 3 4; E S_TermB 2 2].
Definition t4_1d_black_table_8 : list te :=
  [E S_Null 1 0; E S_TermB 2 3; E S_TermB 3 1; E S_TermB 2 2; E S_TermB 4 6; E S_TermB 2 3;
   E S_TermB 3 4; E S_TermB 2 2; E S_TermB 6 9; E S_TermB 2 3; E S_TermB 3 1; E S_TermB 2 2;
   E S_TermB 4 5; E S_TermB 2 3; E S_TermB 3 4; E S_TermB 2 2; E S_TermB 7 10; E S_TermB 2 3;
   E S_TermB 3 1; E S_TermB 2 2; E S_TermB 4 6; E S_TermB 2 3; E S_TermB 3 4; E S_TermB 2 2;
   E S_TermB 5 7; E S_TermB 2 3; E S_TermB 3 1; E S_TermB 2 2; E S_TermB 4 5; E S_TermB 2 3;
   E S_TermB 3 4; E S_TermB 2 2; E S_TermB 8 13; E S_TermB 2 3; E S_TermB 3 1; E S_TermB 2 2;
   E S_TermB 4 6; E S_TermB 2 3; E S_TermB 3 4; E S_TermB 2 2; E S_TermB 6 8; E S_TermB 2 3;
   E S_TermB 3 1; E S_TermB 2 2; E S_TermB 4 5; E S_TermB 2 3; E S_TermB 3 4; E S_TermB 2 2;
   E S_TermB 9 15; E S_TermB 2 3; E S_TermB 3 1; E S_TermB 2 2; E S_TermB 4 6; E S_TermB 2 3;
   E S_TermB 3 4; E S_TermB 2 2; E S_TermB 5 7; E S_TermB 2 3; E S_TermB 3 1; E S_TermB 2 2;
   E S_TermB 4 5; E S_TermB 2 3; E S_TermB 3 4; E S_TermB 2 2; E S_TermB 10 18; E S_TermB 2 3;
   E S_TermB 3 1; E S_TermB 2 2; E S_TermB 4 6; E S_TermB 2 3; E S_TermB 3 4; E S_TermB 2 2;
   E S_TermB 6 9; E S_TermB 2 3; E S_TermB 3 1; E S_TermB 2 2; E S_TermB 4 5; E S_TermB 2 3;
   E S_TermB 3 4; E S_TermB 2 2; E S_TermB 7 11; E S_TermB 2 3; E S_TermB 3 1; E S_TermB 2 2;
   E S_TermB 4 6; E S_TermB 2 3; E S_TermB 3 4; E S_TermB 2 2; E S_TermB 5 7; E S_TermB 2 3;
   E S_TermB 3 1; E S_TermB 2 2; E S_TermB 4 5; E S_TermB 2 3; E S_TermB 3 4; E S_TermB 2 2;
   E S_TermB 10 17; E S_TermB 2 3; E S_TermB 3 1; E S_TermB 2 2; E S_TermB 4 6; E S_TermB 2 3;
   E S_TermB 3 4; E S_TermB 2 2; E S_TermB 6 8; E S_TermB 2 3; E S_TermB 3 1; E S_TermB 2 2;
   E S_TermB 4 5; E S_TermB 2 3; E S_TermB 3 4; E S_TermB 2 2; E S_TermB 7 12; E S_TermB 2 3;
   E S_TermB 3 1; E S_TermB 2 2; E S_TermB 4 6; E S_TermB 2 3; E S_TermB 3 4; E S_TermB 2 2;
   E S_TermB 5 7; E S_TermB 2 3; E S_TermB 3 1; E S_TermB 2 2; E S_TermB 4 5; E S_TermB 2 3;
   E S_TermB 3 4; E S_TermB 2 2].
Definition t4_1d_black_table_9 : list te :=
  [E S_MakeUp 12 1984; E S_TermB 2 3; E S_TermB 3 1; E S_TermB 2 2; E S_TermB 4 6; E S_TermB 2 3;
   E S_TermB 3 4; E S_TermB 2 2; E S_TermB 6 9; E S_TermB 2 3; E S_TermB 3 1; E S_TermB 2 2;
   E S_TermB 4 5; E S_TermB 2 3; E S_TermB 3 4; E S_TermB 2 2; E S_TermB 7 10; E S_TermB 2 3;
   E S_TermB 3 1; E S_TermB 2 2; E S_TermB 4 6; E S_TermB 2 3; E S_TermB 3 4; E S_TermB 2 2;
   E S_TermB 5 7; E S_TermB 2 3; E S_TermB 3 1; E S_TermB 2 2; E S_TermB 4 5; E S_TermB 2 3;
   E S_TermB 3 4; E S_TermB 2 2; E S_TermB 12 50; E S_TermB 2 3; E S_TermB 3 1; E S_TermB 2 2;
   E S_TermB 4 6; E S_TermB 2 3; E S_TermB 3 4; E S_TermB 2 2; E S_TermB 6 8; E S_TermB 2 3;
   E S_TermB 3 1; E S_TermB 2 2; E S_TermB 4 5; E S_TermB 2 3; E S_TermB 3 4; E S_TermB 2 2;
   E S_TermB 12 34; E S_TermB 2 3; E S_TermB 3 1; E S_TermB 2 2; E S_TermB 4 6; E S_TermB 2 3;
   E S_TermB 3 4; E S_TermB 2 2; E S_TermB 5 7; E S_TermB 2 3; E S_TermB 3 1; E S_TermB 2 2;
   E S_TermB 4 5; E S_TermB 2 3; E S_TermB 3 4; E S_TermB 2 2; E S_MakeUpB 13 1664; E S_TermB 2 3;
   E S_TermB 3 1; E S_TermB 2 2; E S_TermB 4 6; E S_TermB 2 3; E S_TermB 3 4; E S_TermB 2 2;
   E S_TermB 6 9; E S_TermB 2 3; E S_TermB 3 1; E S_TermB 2 2; E S_TermB 4 5; E S_TermB 2 3;
   E S_TermB 3 4; E S_TermB 2 2; E S_TermB 7 11; E S_TermB 2 3; E S_TermB 3 1; E S_TermB 2 2;
   E S_TermB 4 6; E S_TermB 2 3; E S_TermB 3 4; E S_TermB 2 2; E S_TermB 5 7; E S_TermB 2 3;
   E S_TermB 3 1; E S_TermB 2 2; E S_TermB 4 5; E S_TermB 2 3; E S_TermB 3 4; E S_TermB 2 2;
   E S_TermB 8 14; E S_TermB 2 3; E S_TermB 3 1; E S_TermB 2 2; E S_TermB 4 6; E S_TermB 2 3;
   E S_TermB 3 4; E S_TermB 2 2; E S_TermB 6 8; E S_TermB 2 3; E S_TermB 3 1; E S_TermB 2 2;
   E S_TermB 4 5; E S_TermB 2 3; E S_TermB 3 4; E S_TermB 2 2; E S_TermB 7 12; E S_TermB 2 3;
   E S_TermB 3 1; E S_TermB 2 2; E S_TermB 4 6; E S_TermB 2 3; E S_TermB 3 4; E S_TermB 2 2;
   E S_TermB 5 7; E S_TermB 2 3; E S_TermB 3 1; E S_TermB 2 2; E S_TermB 4 5; E S_TermB 2 3;
   E S_TermB 3 4; E S_TermB 2 2].
Definition t4_1d_black_table_10 : list te :=
  [E S_Null 1 0; E S_TermB 2 3; E S_TermB 3 1; E S_TermB 2 2; E S_TermB 4 6; E S_TermB 2 3;
   E S_TermB 3 4; E S_TermB 2 2; E S_TermB 6 9; E S_TermB 2 3; E S_TermB 3 1; E S_TermB 2 2;
   E S_TermB 4 5; E S_TermB 2 3; E S_TermB 3 4; E S_TermB 2 2; E S_TermB 7 10; E S_TermB 2 3;
   E S_TermB 3 1; E S_TermB 2 2; E S_TermB 4 6; E S_TermB 2 3; E S_TermB 3 4; E S_TermB 2 2;
   E S_TermB 5 7; E S_TermB 2 3; E S_TermB 3 1; E S_TermB 2 2; E S_TermB 4 5; E S_TermB 2 3;
   E S_TermB 3 4; E S_TermB 2 2; E S_TermB 8 13; E S_TermB 2 3; E S_TermB 3 1; E S_TermB 2 2;
   E S_TermB 4 6; E S_TermB 2 3; E S_TermB 3 4; E S_TermB 2 2; E S_TermB 6 8; E S_TermB 2 3;
   E S_TermB 3 1; E S_TermB 2 2; E S_TermB 4 5; E S_TermB 2 3; E S_TermB 3 4; E S_TermB 2 2;
   E S_TermB 12 26; E S_TermB 2 3; E S_TermB 3 1; E S_TermB 2 2; E S_TermB 4 6; E S_TermB 2 3;
   E S_TermB 3 4; E S_TermB 2 2; E S_TermB 5 7; E S_TermB 2 3; E S_TermB 3 1; E S_TermB 2 2;
   E S_TermB 4 5; E S_TermB 2 3; E S_TermB 3 4; E S_TermB 2 2; E S_MakeUpB 13 1408; E S_TermB 2 3;
   E S_TermB 3 1; E S_TermB 2 2; E S_TermB 4 6; E S_TermB 2 3; E S_TermB 3 4; E S_TermB 2 2;
   E S_TermB 6 9; E S_TermB 2 3; E S_TermB 3 1; E S_TermB 2 2; E S_TermB 4 5; E S_TermB 2 3;
   E S_TermB 3 4; E S_TermB 2 2; E S_TermB 7 11; E S_TermB 2 3; E S_TermB 3 1; E S_TermB 2 2;
   E S_TermB 4 6; E S_TermB 2 3; E S_TermB 3 4; E S_TermB 2 2; E S_TermB 5 7; E S_TermB 2 3;
   E S_TermB 3 1; E S_TermB 2 2; E S_TermB 4 5; E S_TermB 2 3; E S_TermB 3 4; E S_TermB 2 2;
   E S_TermB 12 32; E S_TermB 2 3; E S_TermB 3 1; E S_TermB 2 2; E S_TermB 4 6; E S_TermB 2 3;
   E S_TermB 3 4; E S_TermB 2 2; E S_TermB 6 8; E S_TermB 2 3; E S_TermB 3 1; E S_TermB 2 2;
   E S_TermB 4 5; E S_TermB 2 3; E S_TermB 3 4; E S_TermB 2 2; E S_TermB 7 12; E S_TermB 2 3;
   E S_TermB 3 1; E S_TermB 2 2; E S_TermB 4 6; E S_TermB 2 3; E S_TermB 3 4; E S_TermB 2 2;
   E S_TermB 5 7; E S_TermB 2 3; E S_TermB 3 1; E S_TermB 2 2; E S_TermB 4 5; E S_TermB 2 3;
   E S_TermB 3 4; E S_TermB 2 2].
Definition t4_1d_black_table_11 : list te :=
  [E S_MakeUp 11 1920; E S_TermB 2 3; E S_TermB 3 1; E S_TermB 2 2; E S_TermB 4 6; E S_TermB 2 3;
   E S_TermB 3 4; E S_TermB 2 2; E S_TermB 6 9; E S_TermB 2 3; E S_TermB 3 1; E S_TermB 2 2;
   E S_TermB 4 5; E S_TermB 2 3; E S_TermB 3 4; E S_TermB 2 2; E S_TermB 7 10; E S_TermB 2 3;
   E S_TermB 3 1; E S_TermB 2 2; E S_TermB 4 6; E S_TermB 2 3; E S_TermB 3 4; E S_TermB 2 2;
   E S_TermB 5 7; E S_TermB 2 3; E S_TermB 3 1; E S_TermB 2 2; E S_TermB 4 5; E S_TermB 2 3;
   E S_TermB 3 4; E S_TermB 2 2; E S_TermB 12 61; E S_TermB 2 3; E S_TermB 3 1; E S_TermB 2 2;
   E S_TermB 4 6; E S_TermB 2 3; E S_TermB 3 4; E S_TermB 2 2; E S_TermB 6 8; E S_TermB 2 3;
   E S_TermB 3 1; E S_TermB 2 2; E S_TermB 4 5; E S_TermB 2 3; E S_TermB 3 4; E S_TermB 2 2;
   E S_TermB 12 42; E S_TermB 2 3; E S_TermB 3 1; E S_TermB 2 2; E S_TermB 4 6; E S_TermB 2 3;
   E S_TermB 3 4; E S_TermB 2 2; E S_TermB 5 7; E S_TermB 2 3; E S_TermB 3 1; E S_TermB 2 2;
   E S_TermB 4 5; E S_TermB 2 3; E S_TermB 3 4; E S_TermB 2 2; E S_MakeUpB 13 1024; E S_TermB 2 3;
   E S_TermB 3 1; E S_TermB 2 2; E S_TermB 4 6; E S_TermB 2 3; E S_TermB 3 4; E S_TermB 2 2;
   E S_TermB 6 9; E S_TermB 2 3; E S_TermB 3 1; E S_TermB 2 2; E S_TermB 4 5; E S_TermB 2 3;
   E S_TermB 3 4; E S_TermB 2 2; E S_TermB 7 11; E S_TermB 2 3; E S_TermB 3 1; E S_TermB 2 2;
   E S_TermB 4 6; E S_TermB 2 3; E S_TermB 3 4; E S_TermB 2 2; E S_TermB 5 7; E S_TermB 2 3;
   E S_TermB 3 1; E S_TermB 2 2; E S_TermB 4 5; E S_TermB 2 3; E S_TermB 3 4; E S_TermB 2 2;
   E S_TermB 8 14; E S_TermB 2 3; E S_TermB 3 1; E S_TermB 2 2; E S_TermB 4 6; E S_TermB 2 3;
   E S_TermB 3 4; E S_TermB 2 2; E S_TermB 6 8; E S_TermB 2 3; E S_TermB 3 1; E S_TermB 2 2;
   E S_TermB 4 5; E S_TermB 2 3; E S_TermB 3 4; E S_TermB 2 2; E S_TermB 7 12; E S_TermB 2 3;
   E S_TermB 3 1; E S_TermB 2 2; E S_TermB 4 6; E S_TermB 2 3; E S_TermB 3 4; E S_TermB 2 2;
   E S_TermB 5 7; E S_TermB 2 3; E S_TermB 3 1; E S_TermB 2 2; E S_TermB 4 5; E S_TermB 2 3;
   E S_TermB 3 4; E S_TermB 2 2].
Definition t4_1d_black_table_12 : list te :=
  [E S_Null 1 0; E S_TermB 2 3; E S_TermB 3 1; E S_TermB 2 2; E S_TermB 4 6; E S_TermB 2 3;
   E S_TermB 3 4; E S_TermB 2 2; E S_TermB 6 9; E S_TermB 2 3; E S_TermB 3 1; E S_TermB 2 2;
   E S_TermB 4 5; E S_TermB 2 3; E S_TermB 3 4; E S_TermB 2 2; E S_TermB 7 10; E S_TermB 2 3;
   E S_TermB 3 1; E S_TermB 2 2; E S_TermB 4 6; E S_TermB 2 3; E S_TermB 3 4; E S_TermB 2 2;
   E S_TermB 5 7; E S_TermB 2 3; E S_TermB 3 1; E S_TermB 2 2; E S_TermB 4 5; E S_TermB 2 3;
   E S_TermB 3 4; E S_TermB 2 2; E S_TermB 8 13; E S_TermB 2 3; E S_TermB 3 1; E S_TermB 2 2;
   E S_TermB 4 6; E S_TermB 2 3; E S_TermB 3 4; E S_TermB 2 2; E S_TermB 6 8; E S_TermB 2 3;
   E S_TermB 3 1; E S_TermB 2 2; E S_TermB 4 5; E S_TermB 2 3; E S_TermB 3 4; E S_TermB 2 2;
   E S_TermB 9 15; E S_TermB 2 3; E S_TermB 3 1; E S_TermB 2 2; E S_TermB 4 6; E S_TermB 2 3;
   E S_TermB 3 4; E S_TermB 2 2; E S_TermB 5 7; E S_TermB 2 3; E S_TermB 3 1; E S_TermB 2 2;
   E S_TermB 4 5; E S_TermB 2 3; E S_TermB 3 4; E S_TermB 2 2; E S_MakeUpB 13 768; E S_TermB 2 3;
   E S_TermB 3 1; E S_TermB 2 2; E S_TermB 4 6; E S_TermB 2 3; E S_TermB 3 4; E S_TermB 2 2;
   E S_TermB 6 9; E S_TermB 2 3; E S_TermB 3 1; E S_TermB 2 2; E S_TermB 4 5; E S_TermB 2 3;
   E S_TermB 3 4; E S_TermB 2 2; E S_TermB 7 11; E S_TermB 2 3; E S_TermB 3 1; E S_TermB 2 2;
   E S_TermB 4 6; E S_TermB 2 3; E S_TermB 3 4; E S_TermB 2 2; E S_TermB 5 7; E S_TermB 2 3;
   E S_TermB 3 1; E S_TermB 2 2; E S_TermB 4 5; E S_TermB 2 3; E S_TermB 3 4; E S_TermB 2 2;
   E S_TermB 12 62; E S_TermB 2 3; E S_TermB 3 1; E S_TermB 2 2; E S_TermB 4 6; E S_TermB 2 3;
   E S_TermB 3 4; E S_TermB 2 2; E S_TermB 6 8; E S_TermB 2 3; E S_TermB 3 1; E S_TermB 2 2;
   E S_TermB 4 5; E S_TermB 2 3; E S_TermB 3 4; E S_TermB 2 2; E S_TermB 7 12; E S_TermB 2 3;
   E S_TermB 3 1; E S_TermB 2 2; E S_TermB 4 6; E S_TermB 2 3; E S_TermB 3 4; E S_TermB 2 2;
   E S_TermB 5 7; E S_TermB 2 3; E S_TermB 3 1; E S_TermB 2 2; E S_TermB 4 5; E S_TermB 2 3;
   E S_TermB 3 4; E S_TermB 2 2].
Definition t4_1d_black_table_13 : list te :=
  [E S_MakeUp 12 2240; E S_TermB 2 3; E S_TermB 3 1; E S_TermB 2 2; E S_TermB 4 6; E S_TermB 2 3;
   E S_TermB 3 4; E S_TermB 2 2; E S_TermB 6 9; E S_TermB 2 3; E S_TermB 3 1; E S_TermB 2 2;
   E S_TermB 4 5; E S_TermB 2 3; E S_TermB 3 4; E S_TermB 2 2; E S_TermB 7 10; E S_TermB 2 3;
   E S_TermB 3 1; E S_TermB 2 2; E S_TermB 4 6; E S_TermB 2 3; E S_TermB 3 4; E S_TermB 2 2;
   E S_TermB 5 7; E S_TermB 2 3; E S_TermB 3 1; E S_TermB 2 2; E S_TermB 4 5; E S_TermB 2 3;
   E S_TermB 3 4; E S_TermB 2 2; E S_TermB 12 46; E S_TermB 2 3; E S_TermB 3 1; E S_TermB 2 2;
   E S_TermB 4 6; E S_TermB 2 3; E S_TermB 3 4; E S_TermB 2 2; E S_TermB 6 8; E S_TermB 2 3;
   E S_TermB 3 1; E S_TermB 2 2; E S_TermB 4 5; E S_TermB 2 3; E S_TermB 3 4; E S_TermB 2 2;
   E S_TermB 12 38; E S_TermB 2 3; E S_TermB 3 1; E S_TermB 2 2; E S_TermB 4 6; E S_TermB 2 3;
   E S_TermB 3 4; E S_TermB 2 2; E S_TermB 5 7; E S_TermB 2 3; E S_TermB 3 1; E S_TermB 2 2;
   E S_TermB 4 5; E S_TermB 2 3; E S_TermB 3 4; E S_TermB 2 2; E S_MakeUpB 13 512; E S_TermB 2 3;
   E S_TermB 3 1; E S_TermB 2 2; E S_TermB 4 6; E S_TermB 2 3; E S_TermB 3 4; E S_TermB 2 2;
   E S_TermB 6 9; E S_TermB 2 3; E S_TermB 3 1; E S_TermB 2 2; E S_TermB 4 5; E S_TermB 2 3;
   E S_TermB 3 4; E S_TermB 2 2; E S_TermB 7 11; E S_TermB 2 3; E S_TermB 3 1; E S_TermB 2 2;
   E S_TermB 4 6; E S_TermB 2 3; E S_TermB 3 4; E S_TermB 2 2; E S_TermB 5 7; E S_TermB 2 3;
   E S_TermB 3 1; E S_TermB 2 2; E S_TermB 4 5; E S_TermB 2 3; E S_TermB 3 4; E S_TermB 2 2;
   E S_TermB 8 14; E S_TermB 2 3; E S_TermB 3 1; E S_TermB 2 2; E S_TermB 4 6; E S_TermB 2 3;
   E S_TermB 3 4; E S_TermB 2 2; E S_TermB 6 8; E S_TermB 2 3; E S_TermB 3 1; E S_TermB 2 2;
   E S_TermB 4 5; E S_TermB 2 3; E S_TermB 3 4; E S_TermB 2 2; E S_TermB 7 12; E S_TermB 2 3;
   E S_TermB 3 1; E S_TermB 2 2; E S_TermB 4 6; E S_TermB 2 3; E S_TermB 3 4; E S_TermB 2 2;
   E S_TermB 5 7; E S_TermB 2 3; E S_TermB 3 1; E S_TermB 2 2; E S_TermB 4 5; E S_TermB 2 3;
   E S_TermB 3 4; E S_TermB 2 2].
Definition t4_1d_black_table_14 : list te :=
  [E S_Null 1 0; E S_TermB 2 3; E S_TermB 3 1; E S_TermB 2 2; E S_TermB 4 6; E S_TermB 2 3;
   E S_TermB 3 4; E S_TermB 2 2; E S_TermB 6 9; E S_TermB 2 3; E S_TermB 3 1; E S_TermB 2 2;
   E S_TermB 4 5; E S_TermB 2 3; E S_TermB 3 4; E S_TermB 2 2; E S_TermB 7 10; E S_TermB 2 3;
   E S_TermB 3 1; E S_TermB 2 2; E S_TermB 4 6; E S_TermB 2 3; E S_TermB 3 4; E S_TermB 2 2;
   E S_TermB 5 7; E S_TermB 2 3; E S_TermB 3 1; E S_TermB 2 2; E S_TermB 4 5; E S_TermB 2 3;
   E S_TermB 3 4; E S_TermB 2 2; E S_TermB 8 13; E S_TermB 2 3; E S_TermB 3 1; E S_TermB 2 2;
   E S_TermB 4 6; E S_TermB 2 3; E S_TermB 3 4; E S_TermB 2 2; E S_TermB 6 8; E S_TermB 2 3;
   E S_TermB 3 1; E S_TermB 2 2; E S_TermB 4 5; E S_TermB 2 3; E S_TermB 3 4; E S_TermB 2 2;
   E S_TermB 11 19; E S_TermB 2 3; E S_TermB 3 1; E S_TermB 2 2; E S_TermB 4 6; E S_TermB 2 3;
   E S_TermB 3 4; E S_TermB 2 2; E S_TermB 5 7; E S_TermB 2 3; E S_TermB 3 1; E S_TermB 2 2;
   E S_TermB 4 5; E S_TermB 2 3; E S_TermB 3 4; E S_TermB 2 2; E S_TermB 11 24; E S_TermB 2 3;
   E S_TermB 3 1; E S_TermB 2 2; E S_TermB 4 6; E S_TermB 2 3; E S_TermB 3 4; E S_TermB 2 2;
   E S_TermB 6 9; E S_TermB 2 3; E S_TermB 3 1; E S_TermB 2 2; E S_TermB 4 5; E S_TermB 2 3;
   E S_TermB 3 4; E S_TermB 2 2; E S_TermB 7 11; E S_TermB 2 3; E S_TermB 3 1; E S_TermB 2 2;
   E S_TermB 4 6; E S_TermB 2 3; E S_TermB 3 4; E S_TermB 2 2; E S_TermB 5 7; E S_TermB 2 3;
   E S_TermB 3 1; E S_TermB 2 2; E S_TermB 4 5; E S_TermB 2 3; E S_TermB 3 4; E S_TermB 2 2;
   E S_TermB 11 22; E S_TermB 2 3; E S_TermB 3 1; E S_TermB 2 2; E S_TermB 4 6; E S_TermB 2 3;
   E S_TermB 3 4; E S_TermB 2 2; E S_TermB 6 8; E S_TermB 2 3; E S_TermB 3 1; E S_TermB 2 2;
   E S_TermB 4 5; E S_TermB 2 3; E S_TermB 3 4; E S_TermB 2 2; E S_TermB 7 12; E S_TermB 2 3;
   E S_TermB 3 1; E S_TermB 2 2; E S_TermB 4 6; E S_TermB 2 3; E S_TermB 3 4; E S_TermB 2 2;
   E S_TermB 5 7; E S_TermB 2 3; E S_TermB 3 1; E S_TermB 2 2; E S_TermB 4 5; E S_TermB 2 3;
   E S_TermB 3 4; E S_TermB 2 2].
Definition t4_1d_black_table_15 : list te :=
  [E S_MakeUp 12 2496; E S_TermB 2 3; E S_TermB 3 1; E S_TermB 2 2; E S_TermB 4 6; E S_TermB 2 3;
   E S_TermB 3 4; E S_TermB 2 2; E S_TermB 6 9; E S_TermB 2 3; E S_TermB 3 1; E S_TermB 2 2;
   E S_TermB 4 5; E S_TermB 2 3; E S_TermB 3 4; E S_TermB 2 2; E S_TermB 7 10; E S_TermB 2 3;
   E S_TermB 3 1; E S_TermB 2 2; E S_TermB 4 6; E S_TermB 2 3; E S_TermB 3 4; E S_TermB 2 2;
   E S_TermB 5 7; E S_TermB 2 3; E S_TermB 3 1; E S_TermB 2 2; E S_TermB 4 5; E S_TermB 2 3;
   E S_TermB 3 4; E S_TermB 2 2; E S_TermB 10 16; E S_TermB 2 3; E S_TermB 3 1; E S_TermB 2 2;
   E S_TermB 4 6; E S_TermB 2 3; E S_TermB 3 4; E S_TermB 2 2; E S_TermB 6 8; E S_TermB 2 3;
   E S_TermB 3 1; E S_TermB 2 2; E S_TermB 4 5; E S_TermB 2 3; E S_TermB 3 4; E S_TermB 2 2;
   E S_TermB 10 0; E S_TermB 2 3; E S_TermB 3 1; E S_TermB 2 2; E S_TermB 4 6; E S_TermB 2 3;
   E S_TermB 3 4; E S_TermB 2 2; E S_TermB 5 7; E S_TermB 2 3; E S_TermB 3 1; E S_TermB 2 2;
   E S_TermB 4 5; E S_TermB 2 3; E S_TermB 3 4; E S_TermB 2 2; E S_MakeUpB 10 64; E S_TermB 2 3;
   E S_TermB 3 1; E S_TermB 2 2; E S_TermB 4 6; E S_TermB 2 3; E S_TermB 3 4; E S_TermB 2 2;
   E S_TermB 6 9; E S_TermB 2 3; E S_TermB 3 1; E S_TermB 2 2; E S_TermB 4 5; E S_TermB 2 3;
   E S_TermB 3 4; E S_TermB 2 2; E S_TermB 7 11; E S_TermB 2 3; E S_TermB 3 1; E S_TermB 2 2;
   E S_TermB 4 6; E S_TermB 2 3; E S_TermB 3 4; E S_TermB 2 2; E S_TermB 5 7; E S_TermB 2 3;
   E S_TermB 3 1; E S_TermB 2 2; E S_TermB 4 5; E S_TermB 2 3; E S_TermB 3 4; E S_TermB 2 2;
   E S_TermB 8 14; E S_TermB 2 3; E S_TermB 3 1; E S_TermB 2 2; E S_TermB 4 6; E S_TermB 2 3;
   E S_TermB 3 4; E S_TermB 2 2; E S_TermB 6 8; E S_TermB 2 3; E S_TermB 3 1; E S_TermB 2 2;
   E S_TermB 4 5; E S_TermB 2 3; E S_TermB 3 4; E S_TermB 2 2; E S_TermB 7 12; E S_TermB 2 3;
   E S_TermB 3 1; E S_TermB 2 2; E S_TermB 4 6; E S_TermB 2 3; E S_TermB 3 4; E S_TermB 2 2;
   E S_TermB 5 7; E S_TermB 2 3; E S_TermB 3 1; E S_TermB 2 2; E S_TermB 4 5; E S_TermB 2 3;
   E S_TermB 3 4; E S_TermB 2 2].
Definition t4_1d_black_table_16 : list te :=
  [E S_EOL 12 0; E S_TermB 2 3; E S_TermB 3 1; E S_TermB 2 2; E S_TermB 4 6; E S_TermB 2 3;
   E S_TermB 3 4; E S_TermB 2 2; E S_TermB 6 9; E S_TermB 2 3; E S_TermB 3 1; E S_TermB 2 2;
   E S_TermB 4 5; E S_TermB 2 3; E S_TermB 3 4; E S_TermB 2 2; E S_TermB 7 10; E S_TermB 2 3;
   E S_TermB 3 1; E S_TermB 2 2; E S_TermB 4 6; E S_TermB 2 3; E S_TermB 3 4; E S_TermB 2 2;
   E S_TermB 5 7; E S_TermB 2 3; E S_TermB 3 1; E S_TermB 2 2; E S_TermB 4 5; E S_TermB 2 3;
   E S_TermB 3 4; E S_TermB 2 2; E S_TermB 8 13; E S_TermB 2 3; E S_TermB 3 1; E S_TermB 2 2;
   E S_TermB 4 6; E S_TermB 2 3; E S_TermB 3 4; E S_TermB 2 2; E S_TermB 6 8; E S_TermB 2 3;
   E S_TermB 3 1; E S_TermB 2 2; E S_TermB 4 5; E S_TermB 2 3; E S_TermB 3 4; E S_TermB 2 2;
   E S_TermB 9 15; E S_TermB 2 3; E S_TermB 3 1; E S_TermB 2 2; E S_TermB 4 6; E S_TermB 2 3;
   E S_TermB 3 4; E S_TermB 2 2; E S_TermB 5 7; E S_TermB 2 3; E S_TermB 3 1; E S_TermB 2 2;
   E S_TermB 4 5; E S_TermB 2 3; E S_TermB 3 4; E S_TermB 2 2; E S_TermB 10 18; E S_TermB 2 3;
   E S_TermB 3 1; E S_TermB 2 2; E S_TermB 4 6; E S_TermB 2 3; E S_TermB 3 4; E S_TermB 2 2;
   E S_TermB 6 9; E S_TermB 2 3; E S_TermB 3 1; E S_TermB 2 2; E S_TermB 4 5; E S_TermB 2 3;
   E S_TermB 3 4; E S_TermB 2 2; E S_TermB 7 11; E S_TermB 2 3; E S_TermB 3 1; E S_TermB 2 2;
   E S_TermB 4 6; E S_TermB 2 3; E S_TermB 3 4; E S_TermB 2 2; E S_TermB 5 7; E S_TermB 2 3;
   E S_TermB 3 1; E S_TermB 2 2; E S_TermB 4 5; E S_TermB 2 3; E S_TermB 3 4; E S_TermB 2 2;
   E S_TermB 10 17; E S_TermB 2 3; E S_TermB 3 1; E S_TermB 2 2; E S_TermB 4 6; E S_TermB 2 3;
   E S_TermB 3 4; E S_TermB 2 2; E S_TermB 6 8; E S_TermB 2 3; E S_TermB 3 1; E S_TermB 2 2;
   E S_TermB 4 5; E S_TermB 2 3; E S_TermB 3 4; E S_TermB 2 2; E S_TermB 7 12; E S_TermB 2 3;
   E S_TermB 3 1; E S_TermB 2 2; E S_TermB 4 6; E S_TermB 2 3; E S_TermB 3 4; E S_TermB 2 2;
   E S_TermB 5 7; E S_TermB 2 3; E S_TermB 3 1; E S_TermB 2 2; E S_TermB 4 5; E S_TermB 2 3;
   E S_TermB 3 4; E S_TermB 2 2].
Definition t4_1d_black_table_17 : list te :=
  [E S_MakeUp 11 1792; E S_TermB 2 3; E S_TermB 3 1; E S_TermB 2 2; E S_TermB 4 6; E S_TermB 2 3;
   E S_TermB 3 4; E S_TermB 2 2; E S_TermB 6 9; E S_TermB 2 3; E S_TermB 3 1; E S_TermB 2 2;
   E S_TermB 4 5; E S_TermB 2 3; E S_TermB 3 4; E S_TermB 2 2; E S_TermB 7 10; E S_TermB 2 3;
   E S_TermB 3 1; E S_TermB 2 2; E S_TermB 4 6; E S_TermB 2 3; E S_TermB 3 4; E S_TermB 2 2;
   E S_TermB 5 7; E S_TermB 2 3; E S_TermB 3 1; E S_TermB 2 2; E S_TermB 4 5; E S_TermB 2 3;
   E S_TermB 3 4; E S_TermB 2 2; E S_TermB 11 23; E S_TermB 2 3; E S_TermB 3 1; E S_TermB 2 2;
   E S_TermB 4 6; E S_TermB 2 3; E S_TermB 3 4; E S_TermB 2 2; E S_TermB 6 8; E S_TermB 2 3;
   E S_TermB 3 1; E S_TermB 2 2; E S_TermB 4 5; E S_TermB 2 3; E S_TermB 3 4; E S_TermB 2 2;
   E S_TermB 11 20; E S_TermB 2 3; E S_TermB 3 1; E S_TermB 2 2; E S_TermB 4 6; E S_TermB 2 3;
   E S_TermB 3 4; E S_TermB 2 2; E S_TermB 5 7; E S_TermB 2 3; E S_TermB 3 1; E S_TermB 2 2;
   E S_TermB 4 5; E S_TermB 2 3; E S_TermB 3 4; E S_TermB 2 2; E S_TermB 11 25; E S_TermB 2 3;
   E S_TermB 3 1; E S_TermB 2 2; E S_TermB 4 6; E S_TermB 2 3; E S_TermB 3 4; E S_TermB 2 2;
   E S_TermB 6 9; E S_TermB 2 3; E S_TermB 3 1; E S_TermB 2 2; E S_TermB 4 5; E S_TermB 2 3;
   E S_TermB 3 4; E S_TermB 2 2; E S_TermB 7 11; E S_TermB 2 3; E S_TermB 3 1; E S_TermB 2 2;
   E S_TermB 4 6; E S_TermB 2 3; E S_TermB 3 4; E S_TermB 2 2; E S_TermB 5 7; E S_TermB 2 3;
   E S_TermB 3 1; E S_TermB 2 2; E S_TermB 4 5; E S_TermB 2 3; E S_TermB 3 4; E S_TermB 2 2;
   E S_TermB 8 14; E S_TermB 2 3; E S_TermB 3 1; E S_TermB 2 2; E S_TermB 4 6; E S_TermB 2 3;
   E S_TermB 3 4; E S_TermB 2 2; E S_TermB 6 8; E S_TermB 2 3; E S_TermB 3 1; E S_TermB 2 2;
   E S_TermB 4 5; E S_TermB 2 3; E S_TermB 3 4; E S_TermB 2 2; E S_TermB 7 12; E S_TermB 2 3;
   E S_TermB 3 1; E S_TermB 2 2; E S_TermB 4 6; E S_TermB 2 3; E S_TermB 3 4; E S_TermB 2 2;
   E S_TermB 5 7; E S_TermB 2 3; E S_TermB 3 1; E S_TermB 2 2; E S_TermB 4 5; E S_TermB 2 3;
   E S_TermB 3 4; E S_TermB 2 2].
Definition t4_1d_black_table_18 : list te :=
  [E S_Null 1 0; E S_TermB 2 3; E S_TermB 3 1; E S_TermB 2 2; E S_TermB 4 6; E S_TermB 2 3;
   E S_TermB 3 4; E S_TermB 2 2; E S_TermB 6 9; E S_TermB 2 3; E S_TermB 3 1; E S_TermB 2 2;
   E S_TermB 4 5; E S_TermB 2 3; E S_TermB 3 4; E S_TermB 2 2; E S_TermB 7 10; E S_TermB 2 3;
   E S_TermB 3 1; E S_TermB 2 2; E S_TermB 4 6; E S_TermB 2 3; E S_TermB 3 4; E S_TermB 2 2;
   E S_TermB 5 7; E S_TermB 2 3; E S_TermB 3 1; E S_TermB 2 2; E S_TermB 4 5; E S_TermB 2 3;
   E S_TermB 3 4; E S_TermB 2 2; E S_TermB 8 13; E S_TermB 2 3; E S_TermB 3 1; E S_TermB 2 2;
   E S_TermB 4 6; E S_TermB 2 3; E S_TermB 3 4; E S_TermB 2 2; E S_TermB 6 8; E S_TermB 2 3;
   E S_TermB 3 1; E S_TermB 2 2; E S_TermB 4 5; E S_TermB 2 3; E S_TermB 3 4; E S_TermB 2 2;
   E S_MakeUpB 12 192; E S_TermB 2 3; E S_TermB 3 1; E S_TermB 2 2; E S_TermB 4 6; E S_TermB 2 3;
   E S_TermB 3 4; E S_TermB 2 2; E S_TermB 5 7; E S_TermB 2 3; E S_TermB 3 1; E S_TermB 2 2;
   E S_TermB 4 5; E S_TermB 2 3; E S_TermB 3 4; E S_TermB 2 2; E S_MakeUpB 13 1280; E S_TermB 2 3;
   E S_TermB 3 1; E S_TermB 2 2; E S_TermB 4 6; E S_TermB 2 3; E S_TermB 3 4; E S_TermB 2 2;
   E S_TermB 6 9; E S_TermB 2 3; E S_TermB 3 1; E S_TermB 2 2; E S_TermB 4 5; E S_TermB 2 3;
   E S_TermB 3 4; E S_TermB 2 2; E S_TermB 7 11; E S_TermB 2 3; E S_TermB 3 1; E S_TermB 2 2;
   E S_TermB 4 6; E S_TermB 2 3; E S_TermB 3 4; E S_TermB 2 2; E S_TermB 5 7; E S_TermB 2 3;
   E S_TermB 3 1; E S_TermB 2 2; E S_TermB 4 5; E S_TermB 2 3; E S_TermB 3 4; E S_TermB 2 2;
   E S_TermB 12 31; E S_TermB 2 3; E S_TermB 3 1; E S_TermB 2 2; E S_TermB 4 6; E S_TermB 2 3;
   E S_TermB 3 4; E S_TermB 2 2; E S_TermB 6 8; E S_TermB 2 3; E S_TermB 3 1; E S_TermB 2 2;
   E S_TermB 4 5; E S_TermB 2 3; E S_TermB 3 4; E S_TermB 2 2; E S_TermB 7 12; E S_TermB 2 3;
   E S_TermB 3 1; E S_TermB 2 2; E S_TermB 4 6; E S_TermB 2 3; E S_TermB 3 4; E S_TermB 2 2;
   E S_TermB 5 7; E S_TermB 2 3; E S_TermB 3 1; E S_TermB 2 2; E S_TermB 4 5; E S_TermB 2 3;
   E S_TermB 3 4; E S_TermB 2 2].
Definition t4_1d_black_table_19 : list te :=
  [E S_MakeUp 11 1856; E S_TermB 2 3; E S_TermB 3 1; E S_TermB 2 2; E S_TermB 4 6; E S_TermB 2 3;
   E S_TermB 3 4; E S_TermB 2 2; E S_TermB 6 9; E S_TermB 2 3; E S_TermB 3 1; E S_TermB 2 2;
   E S_TermB 4 5; E S_TermB 2 3; E S_TermB 3 4; E S_TermB 2 2; E S_TermB 7 10; E S_TermB 2 3;
   E S_TermB 3 1; E S_TermB 2 2; E S_TermB 4 6; E S_TermB 2 3; E S_TermB 3 4; E S_TermB 2 2;
   E S_TermB 5 7; E S_TermB 2 3; E S_TermB 3 1; E S_TermB 2 2; E S_TermB 4 5; E S_TermB 2 3;
   E S_TermB 3 4; E S_TermB 2 2; E S_TermB 12 58; E S_TermB 2 3; E S_TermB 3 1; E S_TermB 2 2;
   E S_TermB 4 6; E S_TermB 2 3; E S_TermB 3 4; E S_TermB 2 2; E S_TermB 6 8; E S_TermB 2 3;
   E S_TermB 3 1; E S_TermB 2 2; E S_TermB 4 5; E S_TermB 2 3; E S_TermB 3 4; E S_TermB 2 2;
   E S_TermB 11 21; E S_TermB 2 3; E S_TermB 3 1; E S_TermB 2 2; E S_TermB 4 6; E S_TermB 2 3;
   E S_TermB 3 4; E S_TermB 2 2; E S_TermB 5 7; E S_TermB 2 3; E S_TermB 3 1; E S_TermB 2 2;
   E S_TermB 4 5; E S_TermB 2 3; E S_TermB 3 4; E S_TermB 2 2; E S_MakeUpB 13 896; E S_TermB 2 3;
   E S_TermB 3 1; E S_TermB 2 2; E S_TermB 4 6; E S_TermB 2 3; E S_TermB 3 4; E S_TermB 2 2;
   E S_TermB 6 9; E S_TermB 2 3; E S_TermB 3 1; E S_TermB 2 2; E S_TermB 4 5; E S_TermB 2 3;
   E S_TermB 3 4; E S_TermB 2 2; E S_TermB 7 11; E S_TermB 2 3; E S_TermB 3 1; E S_TermB 2 2;
   E S_TermB 4 6; E S_TermB 2 3; E S_TermB 3 4; E S_TermB 2 2; E S_TermB 5 7; E S_TermB 2 3;
   E S_TermB 3 1; E S_TermB 2 2; E S_TermB 4 5; E S_TermB 2 3; E S_TermB 3 4; E S_TermB 2 2;
   E S_TermB 8 14; E S_TermB 2 3; E S_TermB 3 1; E S_TermB 2 2; E S_TermB 4 6; E S_TermB 2 3;
   E S_TermB 3 4; E S_TermB 2 2; E S_TermB 6 8; E S_TermB 2 3; E S_TermB 3 1; E S_TermB 2 2;
   E S_TermB 4 5; E S_TermB 2 3; E S_TermB 3 4; E S_TermB 2 2; E S_TermB 7 12; E S_TermB 2 3;
   E S_TermB 3 1; E S_TermB 2 2; E S_TermB 4 6; E S_TermB 2 3; E S_TermB 3 4; E S_TermB 2 2;
   E S_TermB 5 7; E S_TermB 2 3; E S_TermB 3 1; E S_TermB 2 2; E S_TermB 4 5; E S_TermB 2 3;
   E S_TermB 3 4; E S_TermB 2 2].
Definition t4_1d_black_table_20 : list te :=
  [E S_Null 1 0; E S_TermB 2 3; E S_TermB 3 1; E S_TermB 2 2; E S_TermB 4 6; E S_TermB 2 3;
   E S_TermB 3 4; E S_TermB 2 2; E S_TermB 6 9; E S_TermB 2 3; E S_TermB 3 1; E S_TermB 2 2;
   E S_TermB 4 5; E S_TermB 2 3; E S_TermB 3 4; E S_TermB 2 2; E S_TermB 7 10; E S_TermB 2 3;
   E S_TermB 3 1; E S_TermB 2 2; E S_TermB 4 6; E S_TermB 2 3; E S_TermB 3 4; E S_TermB 2 2;
   E S_TermB 5 7; E S_TermB 2 3; E S_TermB 3 1; E S_TermB 2 2; E S_TermB 4 5; E S_TermB 2 3;
   E S_TermB 3 4; E S_TermB 2 2; E S_TermB 8 13; E S_TermB 2 3; E S_TermB 3 1; E S_TermB 2 2;
   E S_TermB 4 6; E S_TermB 2 3; E S_TermB 3 4; E S_TermB 2 2; E S_TermB 6 8; E S_TermB 2 3;
   E S_TermB 3 1; E S_TermB 2 2; E S_TermB 4 5; E S_TermB 2 3; E S_TermB 3 4; E S_TermB 2 2;
   E S_TermB 9 15; E S_TermB 2 3; E S_TermB 3 1; E S_TermB 2 2; E S_TermB 4 6; E S_TermB 2 3;
   E S_TermB 3 4; E S_TermB 2 2; E S_TermB 5 7; E S_TermB 2 3; E S_TermB 3 1; E S_TermB 2 2;
   E S_TermB 4 5; E S_TermB 2 3; E S_TermB 3 4; E S_TermB 2 2; E S_MakeUpB 13 640; E S_TermB 2 3;
   E S_TermB 3 1; E S_TermB 2 2; E S_TermB 4 6; E S_TermB 2 3; E S_TermB 3 4; E S_TermB 2 2;
   E S_TermB 6 9; E S_TermB 2 3; E S_TermB 3 1; E S_TermB 2 2; E S_TermB 4 5; E S_TermB 2 3;
   E S_TermB 3 4; E S_TermB 2 2; E S_TermB 7 11; E S_TermB 2 3; E S_TermB 3 1; E S_TermB 2 2;
   E S_TermB 4 6; E S_TermB 2 3; E S_TermB 3 4; E S_TermB 2 2; E S_TermB 5 7; E S_TermB 2 3;
   E S_TermB 3 1; E S_TermB 2 2; E S_TermB 4 5; E S_TermB 2 3; E S_TermB 3 4; E S_TermB 2 2;
   E S_TermB 12 49; E S_TermB 2 3; E S_TermB 3 1; E S_TermB 2 2; E S_TermB 4 6; E S_TermB 2 3;
   E S_TermB 3 4; E S_TermB 2 2; E S_TermB 6 8; E S_TermB 2 3; E S_TermB 3 1; E S_TermB 2 2;
   E S_TermB 4 5; E S_TermB 2 3; E S_TermB 3 4; E S_TermB 2 2; E S_TermB 7 12; E S_TermB 2 3;
   E S_TermB 3 1; E S_TermB 2 2; E S_TermB 4 6; E S_TermB 2 3; E S_TermB 3 4; E S_TermB 2 2;
   E S_TermB 5 7; E S_TermB 2 3; E S_TermB 3 1; E S_TermB 2 2; E S_TermB 4 5; E S_TermB 2 3;
   E S_TermB 3 4; E S_TermB 2 2].
Definition t4_1d_black_table_21 : list te :=
  [E S_MakeUp 12 2176; E S_TermB 2 3; E S_TermB 3 1; E S_TermB 2 2; E S_TermB 4 6; E S_TermB 2 3;
   E S_TermB 3 4; E S_TermB 2 2; E S_TermB 6 9; E S_TermB 2 3; E S_TermB 3 1; E S_TermB 2 2;
   E S_TermB 4 5; E S_TermB 2 3; E S_TermB 3 4; E S_TermB 2 2; E S_TermB 7 10; E S_TermB 2 3;
   E S_TermB 3 1; E S_TermB 2 2; E S_TermB 4 6; E S_TermB 2 3; E S_TermB 3 4; E S_TermB 2 2;
   E S_TermB 5 7; E S_TermB 2 3; E S_TermB 3 1; E S_TermB 2 2; E S_TermB 4 5; E S_TermB 2 3;
   E S_TermB 3 4; E S_TermB 2 2; E S_TermB 12 45; E S_TermB 2 3; E S_TermB 3 1; E S_TermB 2 2;
   E S_TermB 4 6; E S_TermB 2 3; E S_TermB 3 4; E S_TermB 2 2; E S_TermB 6 8; E S_TermB 2 3;
   E S_TermB 3 1; E S_TermB 2 2; E S_TermB 4 5; E S_TermB 2 3; E S_TermB 3 4; E S_TermB 2 2;
   E S_TermB 12 37; E S_TermB 2 3; E S_TermB 3 1; E S_TermB 2 2; E S_TermB 4 6; E S_TermB 2 3;
   E S_TermB 3 4; E S_TermB 2 2; E S_TermB 5 7; E S_TermB 2 3; E S_TermB 3 1; E S_TermB 2 2;
   E S_TermB 4 5; E S_TermB 2 3; E S_TermB 3 4; E S_TermB 2 2; E S_MakeUpB 12 448; E S_TermB 2 3;
   E S_TermB 3 1; E S_TermB 2 2; E S_TermB 4 6; E S_TermB 2 3; E S_TermB 3 4; E S_TermB 2 2;
   E S_TermB 6 9; E S_TermB 2 3; E S_TermB 3 1; E S_TermB 2 2; E S_TermB 4 5; E S_TermB 2 3;
   E S_TermB 3 4; E S_TermB 2 2; E S_TermB 7 11; E S_TermB 2 3; E S_TermB 3 1; E S_TermB 2 2;
   E S_TermB 4 6; E S_TermB 2 3; E S_TermB 3 4; E S_TermB 2 2; E S_TermB 5 7; E S_TermB 2 3;
   E S_TermB 3 1; E S_TermB 2 2; E S_TermB 4 5; E S_TermB 2 3; E S_TermB 3 4; E S_TermB 2 2;
   E S_TermB 8 14; E S_TermB 2 3; E S_TermB 3 1; E S_TermB 2 2; E S_TermB 4 6; E S_TermB 2 3;
   E S_TermB 3 4; E S_TermB 2 2; E S_TermB 6 8; E S_TermB 2 3; E S_TermB 3 1; E S_TermB 2 2;
   E S_TermB 4 5; E S_TermB 2 3; E S_TermB 3 4; E S_TermB 2 2; E S_TermB 7 12; E S_TermB 2 3;
   E S_TermB 3 1; E S_TermB 2 2; E S_TermB 4 6; E S_TermB 2 3; E S_TermB 3 4; E S_TermB 2 2;
   E S_TermB 5 7; E S_TermB 2 3; E S_TermB 3 1; E S_TermB 2 2; E S_TermB 4 5; E S_TermB 2 3;
   E S_TermB 3 4; E S_TermB 2 2].
Definition t4_1d_black_table_22 : list te :=
  [E S_Null 1 0; E S_TermB 2 3; E S_TermB 3 1; E S_TermB 2 2; E S_TermB 4 6; E S_TermB 2 3;
   E S_TermB 3 4; E S_TermB 2 2; E S_TermB 6 9; E S_TermB 2 3; E S_TermB 3 1; E S_TermB 2 2;
   E S_TermB 4 5; E S_TermB 2 3; E S_TermB 3 4; E S_TermB 2 2; E S_TermB 7 10; E S_TermB 2 3;
   E S_TermB 3 1; E S_TermB 2 2; E S_TermB 4 6; E S_TermB 2 3; E S_TermB 3 4; E S_TermB 2 2;
   E S_TermB 5 7; E S_TermB 2 3; E S_TermB 3 1; E S_TermB 2 2; E S_TermB 4 5; E S_TermB 2 3;
   E S_TermB 3 4; E S_TermB 2 2; E S_TermB 8 13; E S_TermB 2 3; E S_TermB 3 1; E S_TermB 2 2;
   E S_TermB 4 6; E S_TermB 2 3; E S_TermB 3 4; E S_TermB 2 2; E S_TermB 6 8; E S_TermB 2 3;
   E S_TermB 3 1; E S_TermB 2 2; E S_TermB 4 5; E S_TermB 2 3; E S_TermB 3 4; E S_TermB 2 2;
   E S_TermB 12 29; E S_TermB 2 3; E S_TermB 3 1; E S_TermB 2 2; E S_TermB 4 6; E S_TermB 2 3;
   E S_TermB 3 4; E S_TermB 2 2; E S_TermB 5 7; E S_TermB 2 3; E S_TermB 3 1; E S_TermB 2 2;
   E S_TermB 4 5; E S_TermB 2 3; E S_TermB 3 4; E S_TermB 2 2; E S_MakeUpB 13 1536; E S_TermB 2 3;
   E S_TermB 3 1; E S_TermB 2 2; E S_TermB 4 6; E S_TermB 2 3; E S_TermB 3 4; E S_TermB 2 2;
   E S_TermB 6 9; E S_TermB 2 3; E S_TermB 3 1; E S_TermB 2 2; E S_TermB 4 5; E S_TermB 2 3;
   E S_TermB 3 4; E S_TermB 2 2; E S_TermB 7 11; E S_TermB 2 3; E S_TermB 3 1; E S_TermB 2 2;
   E S_TermB 4 6; E S_TermB 2 3; E S_TermB 3 4; E S_TermB 2 2; E S_TermB 5 7; E S_TermB 2 3;
   E S_TermB 3 1; E S_TermB 2 2; E S_TermB 4 5; E S_TermB 2 3; E S_TermB 3 4; E S_TermB 2 2;
   E S_TermB 12 41; E S_TermB 2 3; E S_TermB 3 1; E S_TermB 2 2; E S_TermB 4 6; E S_TermB 2 3;
   E S_TermB 3 4; E S_TermB 2 2; E S_TermB 6 8; E S_TermB 2 3; E S_TermB 3 1; E S_TermB 2 2;
   E S_TermB 4 5; E S_TermB 2 3; E S_TermB 3 4; E S_TermB 2 2; E S_TermB 7 12; E S_TermB 2 3;
   E S_TermB 3 1; E S_TermB 2 2; E S_TermB 4 6; E S_TermB 2 3; E S_TermB 3 4; E S_TermB 2 2;
   E S_TermB 5 7; E S_TermB 2 3; E S_TermB 3 1; E S_TermB 2 2; E S_TermB 4 5; E S_TermB 2 3;
   E S_TermB 3 4; E S_TermB 2 2].
Definition t4_1d_black_table_23 : list te :=
  [E S_MakeUp 12 2432; E S_TermB 2 3; E S_TermB 3 1; E S_TermB 2 2; E S_TermB 4 6; E S_TermB 2 3;
   E S_TermB 3 4; E S_TermB 2 2; E S_TermB 6 9; E S_TermB 2 3; E S_TermB 3 1; E S_TermB 2 2;
   E S_TermB 4 5; E S_TermB 2 3; E S_TermB 3 4; E S_TermB 2 2; E S_TermB 7 10; E S_TermB 2 3;
   E S_TermB 3 1; E S_TermB 2 2; E S_TermB 4 6; E S_TermB 2 3; E S_TermB 3 4; E S_TermB 2 2;
   E S_TermB 5 7; E S_TermB 2 3; E S_TermB 3 1; E S_TermB 2 2; E S_TermB 4 5; E S_TermB 2 3;
   E S_TermB 3 4; E S_TermB 2 2; E S_TermB 10 16; E S_TermB 2 3; E S_TermB 3 1; E S_TermB 2 2;
   E S_TermB 4 6; E S_TermB 2 3; E S_TermB 3 4; E S_TermB 2 2; E S_TermB 6 8; E S_TermB 2 3;
   E S_TermB 3 1; E S_TermB 2 2; E S_TermB 4 5; E S_TermB 2 3; E S_TermB 3 4; E S_TermB 2 2;
   E S_TermB 10 0; E S_TermB 2 3; E S_TermB 3 1; E S_TermB 2 2; E S_TermB 4 6; E S_TermB 2 3;
   E S_TermB 3 4; E S_TermB 2 2; E S_TermB 5 7; E S_TermB 2 3; E S_TermB 3 1; E S_TermB 2 2;
   E S_TermB 4 5; E S_TermB 2 3; E S_TermB 3 4; E S_TermB 2 2; E S_MakeUpB 10 64; E S_TermB 2 3;
   E S_TermB 3 1; E S_TermB 2 2; E S_TermB 4 6; E S_TermB 2 3; E S_TermB 3 4; E S_TermB 2 2;
   E S_TermB 6 9; E S_TermB 2 3; E S_TermB 3 1; E S_TermB 2 2; E S_TermB 4 5; E S_TermB 2 3;
   E S_TermB 3 4; E S_TermB 2 2; E S_TermB 7 11; E S_TermB 2 3; E S_TermB 3 1; E S_TermB 2 2;
   E S_TermB 4 6; E S_TermB 2 3; E S_TermB 3 4; E S_TermB 2 2; E S_TermB 5 7; E S_TermB 2 3;
   E S_TermB 3 1; E S_TermB 2 2; E S_TermB 4 5; E S_TermB 2 3; E S_TermB 3 4; E S_TermB 2 2;
   E S_TermB 8 14; E S_TermB 2 3; E S_TermB 3 1; E S_TermB 2 2; E S_TermB 4 6; E S_TermB 2 3;
   E S_TermB 3 4; E S_TermB 2 2; E S_TermB 6 8; E S_TermB 2 3; E S_TermB 3 1; E S_TermB 2 2;
   E S_TermB 4 5; E S_TermB 2 3; E S_TermB 3 4; E S_TermB 2 2; E S_TermB 7 12; E S_TermB 2 3;
   E S_TermB 3 1; E S_TermB 2 2; E S_TermB 4 6; E S_TermB 2 3; E S_TermB 3 4; E S_TermB 2 2;
   E S_TermB 5 7; E S_TermB 2 3; E S_TermB 3 1; E S_TermB 2 2; E S_TermB 4 5; E S_TermB 2 3;
   E S_TermB 3 4; E S_TermB 2 2].
Definition t4_1d_black_table_24 : list te :=
  [E S_Null 1 0; E S_TermB 2 3; E S_TermB 3 1; E S_TermB 2 2; E S_TermB 4 6; E S_TermB 2 3;
   E S_TermB 3 4; E S_TermB 2 2; E S_TermB 6 9; E S_TermB 2 3; E S_TermB 3 1; E S_TermB 2 2;
   E S_TermB 4 5; E S_TermB 2 3; E S_TermB 3 4; E S_TermB 2 2; E S_TermB 7 10; E S_TermB 2 3;
   E S_TermB 3 1; E S_TermB 2 2; E S_TermB 4 6; E S_TermB 2 3; E S_TermB 3 4; E S_TermB 2 2;
   E S_TermB 5 7; E S_TermB 2 3; E S_TermB 3 1; E S_TermB 2 2; E S_TermB 4 5; E S_TermB 2 3;
   E S_TermB 3 4; E S_TermB 2 2; E S_TermB 8 13; E S_TermB 2 3; E S_TermB 3 1; E S_TermB 2 2;
   E S_TermB 4 6; E S_TermB 2 3; E S_TermB 3 4; E S_TermB 2 2; E S_TermB 6 8; E S_TermB 2 3;
   E S_TermB 3 1; E S_TermB 2 2; E S_TermB 4 5; E S_TermB 2 3; E S_TermB 3 4; E S_TermB 2 2;
   E S_TermB 9 15; E S_TermB 2 3; E S_TermB 3 1; E S_TermB 2 2; E S_TermB 4 6; E S_TermB 2 3;
   E S_TermB 3 4; E S_TermB 2 2; E S_TermB 5 7; E S_TermB 2 3; E S_TermB 3 1; E S_TermB 2 2;
   E S_TermB 4 5; E S_TermB 2 3; E S_TermB 3 4; E S_TermB 2 2; E S_TermB 10 18; E S_TermB 2 3;
   E S_TermB 3 1; E S_TermB 2 2; E S_TermB 4 6; E S_TermB 2 3; E S_TermB 3 4; E S_TermB 2 2;
   E S_TermB 6 9; E S_TermB 2 3; E S_TermB 3 1; E S_TermB 2 2; E S_TermB 4 5; E S_TermB 2 3;
   E S_TermB 3 4; E S_TermB 2 2; E S_TermB 7 11; E S_TermB 2 3; E S_TermB 3 1; E S_TermB 2 2;
   E S_TermB 4 6; E S_TermB 2 3; E S_TermB 3 4; E S_TermB 2 2; E S_TermB 5 7; E S_TermB 2 3;
   E S_TermB 3 1; E S_TermB 2 2; E S_TermB 4 5; E S_TermB 2 3; E S_TermB 3 4; E S_TermB 2 2;
   E S_TermB 10 17; E S_TermB 2 3; E S_TermB 3 1; E S_TermB 2 2; E S_TermB 4 6; E S_TermB 2 3;
   E S_TermB 3 4; E S_TermB 2 2; E S_TermB 6 8; E S_TermB 2 3; E S_TermB 3 1; E S_TermB 2 2;
   E S_TermB 4 5; E S_TermB 2 3; E S_TermB 3 4; E S_TermB 2 2; E S_TermB 7 12; E S_TermB 2 3;
   E S_TermB 3 1; E S_TermB 2 2; E S_TermB 4 6; E S_TermB 2 3; E S_TermB 3 4; E S_TermB 2 2;
   E S_TermB 5 7; E S_TermB 2 3; E S_TermB 3 1; E S_TermB 2 2; E S_TermB 4 5; E S_TermB 2 3;
   E S_TermB 3 4; E S_TermB 2 2].
Definition t4_1d_black_table_25 : list te :=
  [E S_MakeUp 12 2048; E S_TermB 2 3; E S_TermB 3 1; E S_TermB 2 2; E S_TermB 4 6; E S_TermB 2 3;
   E S_TermB 3 4; E S_TermB 2 2; E S_TermB 6 9; E S_TermB 2 3; E S_TermB 3 1; E S_TermB 2 2;
   E S_TermB 4 5; E S_TermB 2 3; E S_TermB 3 4; E S_TermB 2 2; E S_TermB 7 10; E S_TermB 2 3;
   E S_TermB 3 1; E S_TermB 2 2; E S_TermB 4 6; E S_TermB 2 3; E S_TermB 3 4; E S_TermB 2 2;
   E S_TermB 5 7; E S_TermB 2 3; E S_TermB 3 1; E S_TermB 2 2; E S_TermB 4 5; E S_TermB 2 3;
   E S_TermB 3 4; E S_TermB 2 2; E S_TermB 12 51; E S_TermB 2 3; E S_TermB 3 1; E S_TermB 2 2;
   E S_TermB 4 6; E S_TermB 2 3; E S_TermB 3 4; E S_TermB 2 2; E S_TermB 6 8; E S_TermB 2 3;
   E S_TermB 3 1; E S_TermB 2 2; E S_TermB 4 5; E S_TermB 2 3; E S_TermB 3 4; E S_TermB 2 2;
   E S_TermB 12 35; E S_TermB 2 3; E S_TermB 3 1; E S_TermB 2 2; E S_TermB 4 6; E S_TermB 2 3;
   E S_TermB 3 4; E S_TermB 2 2; E S_TermB 5 7; E S_TermB 2 3; E S_TermB 3 1; E S_TermB 2 2;
   E S_TermB 4 5; E S_TermB 2 3; E S_TermB 3 4; E S_TermB 2 2; E S_MakeUpB 12 320; E S_TermB 2 3;
   E S_TermB 3 1; E S_TermB 2 2; E S_TermB 4 6; E S_TermB 2 3; E S_TermB 3 4; E S_TermB 2 2;
   E S_TermB 6 9; E S_TermB 2 3; E S_TermB 3 1; E S_TermB 2 2; E S_TermB 4 5; E S_TermB 2 3;
   E S_TermB 3 4; E S_TermB 2 2; E S_TermB 7 11; E S_TermB 2 3; E S_TermB 3 1; E S_TermB 2 2;
   E S_TermB 4 6; E S_TermB 2 3; E S_TermB 3 4; E S_TermB 2 2; E S_TermB 5 7; E S_TermB 2 3;
   E S_TermB 3 1; E S_TermB 2 2; E S_TermB 4 5; E S_TermB 2 3; E S_TermB 3 4; E S_TermB 2 2;
   E S_TermB 8 14; E S_TermB 2 3; E S_TermB 3 1; E S_TermB 2 2; E S_TermB 4 6; E S_TermB 2 3;
   E S_TermB 3 4; E S_TermB 2 2; E S_TermB 6 8; E S_TermB 2 3; E S_TermB 3 1; E S_TermB 2 2;
   E S_TermB 4 5; E S_TermB 2 3; E S_TermB 3 4; E S_TermB 2 2; E S_TermB 7 12; E S_TermB 2 3;
   E S_TermB 3 1; E S_TermB 2 2; E S_TermB 4 6; E S_TermB 2 3; E S_TermB 3 4; E S_TermB 2 2;
   E S_TermB 5 7; E S_TermB 2 3; E S_TermB 3 1; E S_TermB 2 2; E S_TermB 4 5; E S_TermB 2 3;
   E S_TermB 3 4; E S_TermB 2 2].
Definition t4_1d_black_table_26 : list te :=
  [E S_Null 1 0; E S_TermB 2 3; E S_TermB 3 1; E S_TermB 2 2; E S_TermB 4 6; E S_TermB 2 3;
   E S_TermB 3 4; E S_TermB 2 2; E S_TermB 6 9; E S_TermB 2 3; E S_TermB 3 1; E S_TermB 2 2;
   E S_TermB 4 5; E S_TermB 2 3; E S_TermB 3 4; E S_TermB 2 2; E S_TermB 7 10; E S_TermB 2 3;
   E S_TermB 3 1; E S_TermB 2 2; E S_TermB 4 6; E S_TermB 2 3; E S_TermB 3 4; E S_TermB 2 2;
   E S_TermB 5 7; E S_TermB 2 3; E S_TermB 3 1; E S_TermB 2 2; E S_TermB 4 5; E S_TermB 2 3;
   E S_TermB 3 4; E S_TermB 2 2; E S_TermB 8 13; E S_TermB 2 3; E S_TermB 3 1; E S_TermB 2 2;
   E S_TermB 4 6; E S_TermB 2 3; E S_TermB 3 4; E S_TermB 2 2; E S_TermB 6 8; E S_TermB 2 3;
   E S_TermB 3 1; E S_TermB 2 2; E S_TermB 4 5; E S_TermB 2 3; E S_TermB 3 4; E S_TermB 2 2;
   E S_TermB 12 27; E S_TermB 2 3; E S_TermB 3 1; E S_TermB 2 2; E S_TermB 4 6; E S_TermB 2 3;
   E S_TermB 3 4; E S_TermB 2 2; E S_TermB 5 7; E S_TermB 2 3; E S_TermB 3 1; E S_TermB 2 2;
   E S_TermB 4 5; E S_TermB 2 3; E S_TermB 3 4; E S_TermB 2 2; E S_TermB 12 59; E S_TermB 2 3;
   E S_TermB 3 1; E S_TermB 2 2; E S_TermB 4 6; E S_TermB 2 3; E S_TermB 3 4; E S_TermB 2 2;
   E S_TermB 6 9; E S_TermB 2 3; E S_TermB 3 1; E S_TermB 2 2; E S_TermB 4 5; E S_TermB 2 3;
   E S_TermB 3 4; E S_TermB 2 2; E S_TermB 7 11; E S_TermB 2 3; E S_TermB 3 1; E S_TermB 2 2;
   E S_TermB 4 6; E S_TermB 2 3; E S_TermB 3 4; E S_TermB 2 2; E S_TermB 5 7; E S_TermB 2 3;
   E S_TermB 3 1; E S_TermB 2 2; E S_TermB 4 5; E S_TermB 2 3; E S_TermB 3 4; E S_TermB 2 2;
   E S_TermB 12 33; E S_TermB 2 3; E S_TermB 3 1; E S_TermB 2 2; E S_TermB 4 6; E S_TermB 2 3;
   E S_TermB 3 4; E S_TermB 2 2; E S_TermB 6 8; E S_TermB 2 3; E S_TermB 3 1; E S_TermB 2 2;
   E S_TermB 4 5; E S_TermB 2 3; E S_TermB 3 4; E S_TermB 2 2; E S_TermB 7 12; E S_TermB 2 3;
   E S_TermB 3 1; E S_TermB 2 2; E S_TermB 4 6; E S_TermB 2 3; E S_TermB 3 4; E S_TermB 2 2;
   E S_TermB 5 7; E S_TermB 2 3; E S_TermB 3 1; E S_TermB 2 2; E S_TermB 4 5; E S_TermB 2 3;
   E S_TermB 3 4; E S_TermB 2 2].
Definition t4_1d_black_table_27 : list te :=
  [E S_MakeUp 11 1920; E S_TermB 2 3; E S_TermB 3 1; E S_TermB 2 2; E S_TermB 4 6; E S_TermB 2 3;
   E S_TermB 3 4; E S_TermB 2 2; E S_TermB 6 9; E S_TermB 2 3; E S_TermB 3 1; E S_TermB 2 2;
   E S_TermB 4 5; E S_TermB 2 3; E S_TermB 3 4; E S_TermB 2 2; E S_TermB 7 10; E S_TermB 2 3;
   E S_TermB 3 1; E S_TermB 2 2; E S_TermB 4 6; E S_TermB 2 3; E S_TermB 3 4; E S_TermB 2 2;
   E S_TermB 5 7; E S_TermB 2 3; E S_TermB 3 1; E S_TermB 2 2; E S_TermB 4 5; E S_TermB 2 3;
   E S_TermB 3 4; E S_TermB 2 2; E S_MakeUpB 12 256; E S_TermB 2 3; E S_TermB 3 1; E S_TermB 2 2;
   E S_TermB 4 6; E S_TermB 2 3; E S_TermB 3 4; E S_TermB 2 2; E S_TermB 6 8; E S_TermB 2 3;
   E S_TermB 3 1; E S_TermB 2 2; E S_TermB 4 5; E S_TermB 2 3; E S_TermB 3 4; E S_TermB 2 2;
   E S_TermB 12 43; E S_TermB 2 3; E S_TermB 3 1; E S_TermB 2 2; E S_TermB 4 6; E S_TermB 2 3;
   E S_TermB 3 4; E S_TermB 2 2; E S_TermB 5 7; E S_TermB 2 3; E S_TermB 3 1; E S_TermB 2 2;
   E S_TermB 4 5; E S_TermB 2 3; E S_TermB 3 4; E S_TermB 2 2; E S_MakeUpB 13 1152; E S_TermB 2 3;
   E S_TermB 3 1; E S_TermB 2 2; E S_TermB 4 6; E S_TermB 2 3; E S_TermB 3 4; E S_TermB 2 2;
   E S_TermB 6 9; E S_TermB 2 3; E S_TermB 3 1; E S_TermB 2 2; E S_TermB 4 5; E S_TermB 2 3;
   E S_TermB 3 4; E S_TermB 2 2; E S_TermB 7 11; E S_TermB 2 3; E S_TermB 3 1; E S_TermB 2 2;
   E S_TermB 4 6; E S_TermB 2 3; E S_TermB 3 4; E S_TermB 2 2; E S_TermB 5 7; E S_TermB 2 3;
   E S_TermB 3 1; E S_TermB 2 2; E S_TermB 4 5; E S_TermB 2 3; E S_TermB 3 4; E S_TermB 2 2;
   E S_TermB 8 14; E S_TermB 2 3; E S_TermB 3 1; E S_TermB 2 2; E S_TermB 4 6; E S_TermB 2 3;
   E S_TermB 3 4; E S_TermB 2 2; E S_TermB 6 8; E S_TermB 2 3; E S_TermB 3 1; E S_TermB 2 2;
   E S_TermB 4 5; E S_TermB 2 3; E S_TermB 3 4; E S_TermB 2 2; E S_TermB 7 12; E S_TermB 2 3;
   E S_TermB 3 1; E S_TermB 2 2; E S_TermB 4 6; E S_TermB 2 3; E S_TermB 3 4; E S_TermB 2 2;
   E S_TermB 5 7; E S_TermB 2 3; E S_TermB 3 1; E S_TermB 2 2; E S_TermB 4 5; E S_TermB 2 3;
   E S_TermB 3 4; E S_TermB 2 2].
Definition t4_1d_black_table_28 : list te :=
  [E S_Null 1 0; E S_TermB 2 3; E S_TermB 3 1; E S_TermB 2 2; E S_TermB 4 6; E S_TermB 2 3;
   E S_TermB 3 4; E S_TermB 2 2; E S_TermB 6 9; E S_TermB 2 3; E S_TermB 3 1; E S_TermB 2 2;
   E S_TermB 4 5; E S_TermB 2 3; E S_TermB 3 4; E S_TermB 2 2; E S_TermB 7 10; E S_TermB 2 3;
   E S_TermB 3 1; E S_TermB 2 2; E S_TermB 4 6; E S_TermB 2 3; E S_TermB 3 4; E S_TermB 2 2;
   E S_TermB 5 7; E S_TermB 2 3; E S_TermB 3 1; E S_TermB 2 2; E S_TermB 4 5; E S_TermB 2 3;
   E S_TermB 3 4; E S_TermB 2 2; E S_TermB 8 13; E S_TermB 2 3; E S_TermB 3 1; E S_TermB 2 2;
   E S_TermB 4 6; E S_TermB 2 3; E S_TermB 3 4; E S_TermB 2 2; E S_TermB 6 8; E S_TermB 2 3;
   E S_TermB 3 1; E S_TermB 2 2; E S_TermB 4 5; E S_TermB 2 3; E S_TermB 3 4; E S_TermB 2 2;
   E S_TermB 9 15; E S_TermB 2 3; E S_TermB 3 1; E S_TermB 2 2; E S_TermB 4 6; E S_TermB 2 3;
   E S_TermB 3 4; E S_TermB 2 2; E S_TermB 5 7; E S_TermB 2 3; E S_TermB 3 1; E S_TermB 2 2;
   E S_TermB 4 5; E S_TermB 2 3; E S_TermB 3 4; E S_TermB 2 2; E S_TermB 12 55; E S_TermB 2 3;
   E S_TermB 3 1; E S_TermB 2 2; E S_TermB 4 6; E S_TermB 2 3; E S_TermB 3 4; E S_TermB 2 2;
   E S_TermB 6 9; E S_TermB 2 3; E S_TermB 3 1; E S_TermB 2 2; E S_TermB 4 5; E S_TermB 2 3;
   E S_TermB 3 4; E S_TermB 2 2; E S_TermB 7 11; E S_TermB 2 3; E S_TermB 3 1; E S_TermB 2 2;
   E S_TermB 4 6; E S_TermB 2 3; E S_TermB 3 4; E S_TermB 2 2; E S_TermB 5 7; E S_TermB 2 3;
   E S_TermB 3 1; E S_TermB 2 2; E S_TermB 4 5; E S_TermB 2 3; E S_TermB 3 4; E S_TermB 2 2;
   E S_TermB 12 63; E S_TermB 2 3; E S_TermB 3 1; E S_TermB 2 2; E S_TermB 4 6; E S_TermB 2 3;
   E S_TermB 3 4; E S_TermB 2 2; E S_TermB 6 8; E S_TermB 2 3; E S_TermB 3 1; E S_TermB 2 2;
   E S_TermB 4 5; E S_TermB 2 3; E S_TermB 3 4; E S_TermB 2 2; E S_TermB 7 12; E S_TermB 2 3;
   E S_TermB 3 1; E S_TermB 2 2; E S_TermB 4 6; E S_TermB 2 3; E S_TermB 3 4; E S_TermB 2 2;
   E S_TermB 5 7; E S_TermB 2 3; E S_TermB 3 1; E S_TermB 2 2; E S_TermB 4 5; E S_TermB 2 3;
   E S_TermB 3 4; E S_TermB 2 2].
Definition t4_1d_black_table_29 : list te :=
  [E S_MakeUp 12 2304; E S_TermB 2 3; E S_TermB 3 1; E S_TermB 2 2; E S_TermB 4 6; E S_TermB 2 3;
   E S_TermB 3 4; E S_TermB 2 2; E S_TermB 6 9; E S_TermB 2 3; E S_TermB 3 1; E S_TermB 2 2;
   E S_TermB 4 5; E S_TermB 2 3; E S_TermB 3 4; E S_TermB 2 2; E S_TermB 7 10; E S_TermB 2 3;
   E S_TermB 3 1; E S_TermB 2 2; E S_TermB 4 6; E S_TermB 2 3; E S_TermB 3 4; E S_TermB 2 2;
   E S_TermB 5 7; E S_TermB 2 3; E S_TermB 3 1; E S_TermB 2 2; E S_TermB 4 5; E S_TermB 2 3;
   E S_TermB 3 4; E S_TermB 2 2; E S_TermB 12 47; E S_TermB 2 3; E S_TermB 3 1; E S_TermB 2 2;
   E S_TermB 4 6; E S_TermB 2 3; E S_TermB 3 4; E S_TermB 2 2; E S_TermB 6 8; E S_TermB 2 3;
   E S_TermB 3 1; E S_TermB 2 2; E S_TermB 4 5; E S_TermB 2 3; E S_TermB 3 4; E S_TermB 2 2;
   E S_TermB 12 39; E S_TermB 2 3; E S_TermB 3 1; E S_TermB 2 2; E S_TermB 4 6; E S_TermB 2 3;
   E S_TermB 3 4; E S_TermB 2 2; E S_TermB 5 7; E S_TermB 2 3; E S_TermB 3 1; E S_TermB 2 2;
   E S_TermB 4 5; E S_TermB 2 3; E S_TermB 3 4; E S_TermB 2 2; E S_TermB 12 53; E S_TermB 2 3;
   E S_TermB 3 1; E S_TermB 2 2; E S_TermB 4 6; E S_TermB 2 3; E S_TermB 3 4; E S_TermB 2 2;
   E S_TermB 6 9; E S_TermB 2 3; E S_TermB 3 1; E S_TermB 2 2; E S_TermB 4 5; E S_TermB 2 3;
   E S_TermB 3 4; E S_TermB 2 2; E S_TermB 7 11; E S_TermB 2 3; E S_TermB 3 1; E S_TermB 2 2;
   E S_TermB 4 6; E S_TermB 2 3; E S_TermB 3 4; E S_TermB 2 2; E S_TermB 5 7; E S_TermB 2 3;
   E S_TermB 3 1; E S_TermB 2 2; E S_TermB 4 5; E S_TermB 2 3; E S_TermB 3 4; E S_TermB 2 2;
   E S_TermB 8 14; E S_TermB 2 3; E S_TermB 3 1; E S_TermB 2 2; E S_TermB 4 6; E S_TermB 2 3;
   E S_TermB 3 4; E S_TermB 2 2; E S_TermB 6 8; E S_TermB 2 3; E S_TermB 3 1; E S_TermB 2 2;
   E S_TermB 4 5; E S_TermB 2 3; E S_TermB 3 4; E S_TermB 2 2; E S_TermB 7 12; E S_TermB 2 3;
   E S_TermB 3 1; E S_TermB 2 2; E S_TermB 4 6; E S_TermB 2 3; E S_TermB 3 4; E S_TermB 2 2;
   E S_TermB 5 7; E S_TermB 2 3; E S_TermB 3 1; E S_TermB 2 2; E S_TermB 4 5; E S_TermB 2 3;
   E S_TermB 3 4; E S_TermB 2 2].
Definition t4_1d_black_table_30 : list te :=
  [E S_Null 1 0; E S_TermB 2 3; E S_TermB 3 1; E S_TermB 2 2; E S_TermB 4 6; E S_TermB 2 3;
   E S_TermB 3 4; E S_TermB 2 2; E S_TermB 6 9; E S_TermB 2 3; E S_TermB 3 1; E S_TermB 2 2;
   E S_TermB 4 5; E S_TermB 2 3; E S_TermB 3 4; E S_TermB 2 2; E S_TermB 7 10; E S_TermB 2 3;
   E S_TermB 3 1; E S_TermB 2 2; E S_TermB 4 6; E S_TermB 2 3; E S_TermB 3 4; E S_TermB 2 2;
   E S_TermB 5 7; E S_TermB 2 3; E S_TermB 3 1; E S_TermB 2 2; E S_TermB 4 5; E S_TermB 2 3;
   E S_TermB 3 4; E S_TermB 2 2; E S_TermB 8 13; E S_TermB 2 3; E S_TermB 3 1; E S_TermB 2 2;
   E S_TermB 4 6; E S_TermB 2 3; E S_TermB 3 4; E S_TermB 2 2; E S_TermB 6 8; E S_TermB 2 3;
   E S_TermB 3 1; E S_TermB 2 2; E S_TermB 4 5; E S_TermB 2 3; E S_TermB 3 4; E S_TermB 2 2;
   E S_TermB 11 19; E S_TermB 2 3; E S_TermB 3 1; E S_TermB 2 2; E S_TermB 4 6; E S_TermB 2 3;
   E S_TermB 3 4; E S_TermB 2 2; E S_TermB 5 7; E S_TermB 2 3; E S_TermB 3 1; E S_TermB 2 2;
   E S_TermB 4 5; E S_TermB 2 3; E S_TermB 3 4; E S_TermB 2 2; E S_TermB 11 24; E S_TermB 2 3;
   E S_TermB 3 1; E S_TermB 2 2; E S_TermB 4 6; E S_TermB 2 3; E S_TermB 3 4; E S_TermB 2 2;
   E S_TermB 6 9; E S_TermB 2 3; E S_TermB 3 1; E S_TermB 2 2; E S_TermB 4 5; E S_TermB 2 3;
   E S_TermB 3 4; E S_TermB 2 2; E S_TermB 7 11; E S_TermB 2 3; E S_TermB 3 1; E S_TermB 2 2;
   E S_TermB 4 6; E S_TermB 2 3; E S_TermB 3 4; E S_TermB 2 2; E S_TermB 5 7; E S_TermB 2 3;
   E S_TermB 3 1; E S_TermB 2 2; E S_TermB 4 5; E S_TermB 2 3; E S_TermB 3 4; E S_TermB 2 2;
   E S_TermB 11 22; E S_TermB 2 3; E S_TermB 3 1; E S_TermB 2 2; E S_TermB 4 6; E S_TermB 2 3;
   E S_TermB 3 4; E S_TermB 2 2; E S_TermB 6 8; E S_TermB 2 3; E S_TermB 3 1; E S_TermB 2 2;
   E S_TermB 4 5; E S_TermB 2 3; E S_TermB 3 4; E S_TermB 2 2; E S_TermB 7 12; E S_TermB 2 3;
   E S_TermB 3 1; E S_TermB 2 2; E S_TermB 4 6; E S_TermB 2 3; E S_TermB 3 4; E S_TermB 2 2;
   E S_TermB 5 7; E S_TermB 2 3; E S_TermB 3 1; E S_TermB 2 2; E S_TermB 4 5; E S_TermB 2 3;
   E S_TermB 3 4; E S_TermB 2 2].
Definition t4_1d_black_table_31 : list te :=
  [E S_MakeUp 12 2560; E S_TermB 2 3; E S_TermB 3 1; E S_TermB 2 2; E S_TermB 4 6; E S_TermB 2 3;
   E S_TermB 3 4; E S_TermB 2 2; E S_TermB 6 9; E S_TermB 2 3; E S_TermB 3 1; E S_TermB 2 2;
   E S_TermB 4 5; E S_TermB 2 3; E S_TermB 3 4; E S_TermB 2 2; E S_TermB 7 10; E S_TermB 2 3;
   E S_TermB 3 1; E S_TermB 2 2; E S_TermB 4 6; E S_TermB 2 3; E S_TermB 3 4; E S_TermB 2 2;
   E S_TermB 5 7; E S_TermB 2 3; E S_TermB 3 1; E S_TermB 2 2; E S_TermB 4 5; E S_TermB 2 3;
   E S_TermB 3 4; E S_TermB 2 2; E S_TermB 10 16; E S_TermB 2 3; E S_TermB 3 1; E S_TermB 2 2;
   E S_TermB 4 6; E S_TermB 2 3; E S_TermB 3 4; E S_TermB 2 2; E S_TermB 6 8; E S_TermB 2 3;
   E S_TermB 3 1; E S_TermB 2 2; E S_TermB 4 5; E S_TermB 2 3; E S_TermB 3 4; E S_TermB 2 2;
   E S_TermB 10 0; E S_TermB 2 3; E S_TermB 3 1; E S_TermB 2 2; E S_TermB 4 6; E S_TermB 2 3;
   E S_TermB 3 4; E S_TermB 2 2; E S_TermB 5 7; E S_TermB 2 3; E S_TermB 3 1; E S_TermB 2 2;
   E S_TermB 4 5; E S_TermB 2 3; E S_TermB 3 4; E S_TermB 2 2; E S_MakeUpB 10 64; E S_TermB 2 3;
   E S_TermB 3 1; E S_TermB 2 2; E S_TermB 4 6; E S_TermB 2 3; E S_TermB 3 4; E S_TermB 2 2;
   E S_TermB 6 9; E S_TermB 2 3; E S_TermB 3 1; E S_TermB 2 2; E S_TermB 4 5; E S_TermB 2 3;
   E S_TermB 3 4; E S_TermB 2 2; E S_TermB 7 11; E S_TermB 2 3; E S_TermB 3 1; E S_TermB 2 2;
   E S_TermB 4 6; E S_TermB 2 3; E S_TermB 3 4; E S_TermB 2 2; E S_TermB 5 7; E S_TermB 2 3;
   E S_TermB 3 1; E S_TermB 2 2; E S_TermB 4 5; E S_TermB 2 3; E S_TermB 3 4; E S_TermB 2 2;
   E S_TermB 8 14; E S_TermB 2 3; E S_TermB 3 1; E S_TermB 2 2; E S_TermB 4 6; E S_TermB 2 3;
   E S_TermB 3 4; E S_TermB 2 2; E S_TermB 6 8; E S_TermB 2 3; E S_TermB 3 1; E S_TermB 2 2;
   E S_TermB 4 5; E S_TermB 2 3; E S_TermB 3 4; E S_TermB 2 2; E S_TermB 7 12; E S_TermB 2 3;
   E S_TermB 3 1; E S_TermB 2 2; E S_TermB 4 6; E S_TermB 2 3; E S_TermB 3 4; E S_TermB 2 2;
   E S_TermB 5 7; E S_TermB 2 3; E S_TermB 3 1; E S_TermB 2 2; E S_TermB 4 5; E S_TermB 2 3;
   E S_TermB 3 4; E S_TermB 2 2].
Definition t4_1d_black_table_32 : list te :=
  [E S_Null 1 0; E S_TermB 2 3; E S_TermB 3 1; E S_TermB 2 2; E S_TermB 4 6; E S_TermB 2 3;
   E S_TermB 3 4; E S_TermB 2 2; E S_TermB 6 9; E S_TermB 2 3; E S_TermB 3 1; E S_TermB 2 2;
   E S_TermB 4 5; E S_TermB 2 3; E S_TermB 3 4; E S_TermB 2 2; E S_TermB 7 10; E S_TermB 2 3;
   E S_TermB 3 1; E S_TermB 2 2; E S_TermB 4 6; E S_TermB 2 3; E S_TermB 3 4; E S_TermB 2 2;
   E S_TermB 5 7; E S_TermB 2 3; E S_TermB 3 1; E S_TermB 2 2; E S_TermB 4 5; E S_TermB 2 3;
   E S_TermB 3 4; E S_TermB 2 2; E S_TermB 8 13; E S_TermB 2 3; E S_TermB 3 1; E S_TermB 2 2;
   E S_TermB 4 6; E S_TermB 2 3; E S_TermB 3 4; E S_TermB 2 2; E S_TermB 6 8; E S_TermB 2 3;
   E S_TermB 3 1; E S_TermB 2 2; E S_TermB 4 5; E S_TermB 2 3; E S_TermB 3 4; E S_TermB 2 2;
   E S_TermB 9 15; E S_TermB 2 3; E S_TermB 3 1; E S_TermB 2 2; E S_TermB 4 6; E S_TermB 2 3;
   E S_TermB 3 4; E S_TermB 2 2; E S_TermB 5 7; E S_TermB 2 3; E S_TermB 3 1; E S_TermB 2 2;
   E S_TermB 4 5; E S_TermB 2 3; E S_TermB 3 4; E S_TermB 2 2; E S_TermB 10 18; E S_TermB 2 3;
   E S_TermB 3 1; E S_TermB 2 2; E S_TermB 4 6; E S_TermB 2 3; E S_TermB 3 4; E S_TermB 2 2;
   E S_TermB 6 9; E S_TermB 2 3; E S_TermB 3 1; E S_TermB 2 2; E S_TermB 4 5; E S_TermB 2 3;
   E S_TermB 3 4; E S_TermB 2 2; E S_TermB 7 11; E S_TermB 2 3; E S_TermB 3 1; E S_TermB 2 2;
   E S_TermB 4 6; E S_TermB 2 3; E S_TermB 3 4; E S_TermB 2 2; E S_TermB 5 7; E S_TermB 2 3;
   E S_TermB 3 1; E S_TermB 2 2; E S_TermB 4 5; E S_TermB 2 3; E S_TermB 3 4; E S_TermB 2 2;
   E S_TermB 10 17; E S_TermB 2 3; E S_TermB 3 1; E S_TermB 2 2; E S_TermB 4 6; E S_TermB 2 3;
   E S_TermB 3 4; E S_TermB 2 2; E S_TermB 6 8; E S_TermB 2 3; E S_TermB 3 1; E S_TermB 2 2;
   E S_TermB 4 5; E S_TermB 2 3; E S_TermB 3 4; E S_TermB 2 2; E S_TermB 7 12; E S_TermB 2 3;
   E S_TermB 3 1; E S_TermB 2 2; E S_TermB 4 6; E S_TermB 2 3; E S_TermB 3 4; E S_TermB 2 2;
   E S_TermB 5 7; E S_TermB 2 3; E S_TermB 3 1; E S_TermB 2 2; E S_TermB 4 5; E S_TermB 2 3;
   E S_TermB 3 4; E S_TermB 2 2].
Definition t4_1d_black_table_33 : list te :=
  [E S_MakeUp 11 1792; E S_TermB 2 3; E S_TermB 3 1; E S_TermB 2 2; E S_TermB 4 6; E S_TermB 2 3;
   E S_TermB 3 4; E S_TermB 2 2; E S_TermB 6 9; E S_TermB 2 3; E S_TermB 3 1; E S_TermB 2 2;
   E S_TermB 4 5; E S_TermB 2 3; E S_TermB 3 4; E S_TermB 2 2; E S_TermB 7 10; E S_TermB 2 3;
   E S_TermB 3 1; E S_TermB 2 2; E S_TermB 4 6; E S_TermB 2 3; E S_TermB 3 4; E S_TermB 2 2;
   E S_TermB 5 7; E S_TermB 2 3; E S_TermB 3 1; E S_TermB 2 2; E S_TermB 4 5; E S_TermB 2 3;
   E S_TermB 3 4; E S_TermB 2 2; E S_TermB 11 23; E S_TermB 2 3; E S_TermB 3 1; E S_TermB 2 2;
   E S_TermB 4 6; E S_TermB 2 3; E S_TermB 3 4; E S_TermB 2 2; E S_TermB 6 8; E S_TermB 2 3;
   E S_TermB 3 1; E S_TermB 2 2; E S_TermB 4 5; E S_TermB 2 3; E S_TermB 3 4; E S_TermB 2 2;
   E S_TermB 11 20; E S_TermB 2 3; E S_TermB 3 1; E S_TermB 2 2; E S_TermB 4 6; E S_TermB 2 3;
   E S_TermB 3 4; E S_TermB 2 2; E S_TermB 5 7; E S_TermB 2 3; E S_TermB 3 1; E S_TermB 2 2;
   E S_TermB 4 5; E S_TermB 2 3; E S_TermB 3 4; E S_TermB 2 2; E S_TermB 11 25; E S_TermB 2 3;
   E S_TermB 3 1; E S_TermB 2 2; E S_TermB 4 6; E S_TermB 2 3; E S_TermB 3 4; E S_TermB 2 2;
   E S_TermB 6 9; E S_TermB 2 3; E S_TermB 3 1; E S_TermB 2 2; E S_TermB 4 5; E S_TermB 2 3;
   E S_TermB 3 4; E S_TermB 2 2; E S_TermB 7 11; E S_TermB 2 3; E S_TermB 3 1; E S_TermB 2 2;
   E S_TermB 4 6; E S_TermB 2 3; E S_TermB 3 4; E S_TermB 2 2; E S_TermB 5 7; E S_TermB 2 3;
   E S_TermB 3 1; E S_TermB 2 2; E S_TermB 4 5; E S_TermB 2 3; E S_TermB 3 4; E S_TermB 2 2;
   E S_TermB 8 14; E S_TermB 2 3; E S_TermB 3 1; E S_TermB 2 2; E S_TermB 4 6; E S_TermB 2 3;
   E S_TermB 3 4; E S_TermB 2 2; E S_TermB 6 8; E S_TermB 2 3; E S_TermB 3 1; E S_TermB 2 2;
   E S_TermB 4 5; E S_TermB 2 3; E S_TermB 3 4; E S_TermB 2 2; E S_TermB 7 12; E S_TermB 2 3;
   E S_TermB 3 1; E S_TermB 2 2; E S_TermB 4 6; E S_TermB 2 3; E S_TermB 3 4; E S_TermB 2 2;
   E S_TermB 5 7; E S_TermB 2 3; E S_TermB 3 1; E S_TermB 2 2; E S_TermB 4 5; E S_TermB 2 3;
   E S_TermB 3 4; E S_TermB 2 2].
Definition t4_1d_black_table_34 : list te :=
  [E S_Null 1 0; E S_TermB 2 3; E S_TermB 3 1; E S_TermB 2 2; E S_TermB 4 6; E S_TermB 2 3;
   E S_TermB 3 4; E S_TermB 2 2; E S_TermB 6 9; E S_TermB 2 3; E S_TermB 3 1; E S_TermB 2 2;
   E S_TermB 4 5; E S_TermB 2 3; E S_TermB 3 4; E S_TermB 2 2; E S_TermB 7 10; E S_TermB 2 3;
   E S_TermB 3 1; E S_TermB 2 2; E S_TermB 4 6; E S_TermB 2 3; E S_TermB 3 4; E S_TermB 2 2;
   E S_TermB 5 7; E S_TermB 2 3; E S_TermB 3 1; E S_TermB 2 2; E S_TermB 4 5; E S_TermB 2 3;
   E S_TermB 3 4; E S_TermB 2 2; E S_TermB 8 13; E S_TermB 2 3; E S_TermB 3 1; E S_TermB 2 2;
   E S_TermB 4 6; E S_TermB 2 3; E S_TermB 3 4; E S_TermB 2 2; E S_TermB 6 8; E S_TermB 2 3;
   E S_TermB 3 1; E S_TermB 2 2; E S_TermB 4 5; E S_TermB 2 3; E S_TermB 3 4; E S_TermB 2 2;
   E S_MakeUpB 12 128; E S_TermB 2 3; E S_TermB 3 1; E S_TermB 2 2; E S_TermB 4 6; E S_TermB 2 3;
   E S_TermB 3 4; E S_TermB 2 2; E S_TermB 5 7; E S_TermB 2 3; E S_TermB 3 1; E S_TermB 2 2;
   E S_TermB 4 5; E S_TermB 2 3; E S_TermB 3 4; E S_TermB 2 2; E S_TermB 12 56; E S_TermB 2 3;
   E S_TermB 3 1; E S_TermB 2 2; E S_TermB 4 6; E S_TermB 2 3; E S_TermB 3 4; E S_TermB 2 2;
   E S_TermB 6 9; E S_TermB 2 3; E S_TermB 3 1; E S_TermB 2 2; E S_TermB 4 5; E S_TermB 2 3;
   E S_TermB 3 4; E S_TermB 2 2; E S_TermB 7 11; E S_TermB 2 3; E S_TermB 3 1; E S_TermB 2 2;
   E S_TermB 4 6; E S_TermB 2 3; E S_TermB 3 4; E S_TermB 2 2; E S_TermB 5 7; E S_TermB 2 3;
   E S_TermB 3 1; E S_TermB 2 2; E S_TermB 4 5; E S_TermB 2 3; E S_TermB 3 4; E S_TermB 2 2;
   E S_TermB 12 30; E S_TermB 2 3; E S_TermB 3 1; E S_TermB 2 2; E S_TermB 4 6; E S_TermB 2 3;
   E S_TermB 3 4; E S_TermB 2 2; E S_TermB 6 8; E S_TermB 2 3; E S_TermB 3 1; E S_TermB 2 2;
   E S_TermB 4 5; E S_TermB 2 3; E S_TermB 3 4; E S_TermB 2 2; E S_TermB 7 12; E S_TermB 2 3;
   E S_TermB 3 1; E S_TermB 2 2; E S_TermB 4 6; E S_TermB 2 3; E S_TermB 3 4; E S_TermB 2 2;
   E S_TermB 5 7; E S_TermB 2 3; E S_TermB 3 1; E S_TermB 2 2; E S_TermB 4 5; E S_TermB 2 3;
   E S_TermB 3 4; E S_TermB 2 2].
Definition t4_1d_black_table_35 : list te :=
  [E S_MakeUp 11 1856; E S_TermB 2 3; E S_TermB 3 1; E S_TermB 2 2; E S_TermB 4 6; E S_TermB 2 3;
   E S_TermB 3 4; E S_TermB 2 2; E S_TermB 6 9; E S_TermB 2 3; E S_TermB 3 1; E S_TermB 2 2;
   E S_TermB 4 5; E S_TermB 2 3; E S_TermB 3 4; E S_TermB 2 2; E S_TermB 7 10; E S_TermB 2 3;
   E S_TermB 3 1; E S_TermB 2 2; E S_TermB 4 6; E S_TermB 2 3; E S_TermB 3 4; E S_TermB 2 2;
   E S_TermB 5 7; E S_TermB 2 3; E S_TermB 3 1; E S_TermB 2 2; E S_TermB 4 5; E S_TermB 2 3;
   E S_TermB 3 4; E S_TermB 2 2; E S_TermB 12 57; E S_TermB 2 3; E S_TermB 3 1; E S_TermB 2 2;
   E S_TermB 4 6; E S_TermB 2 3; E S_TermB 3 4; E S_TermB 2 2; E S_TermB 6 8; E S_TermB 2 3;
   E S_TermB 3 1; E S_TermB 2 2; E S_TermB 4 5; E S_TermB 2 3; E S_TermB 3 4; E S_TermB 2 2;
   E S_TermB 11 21; E S_TermB 2 3; E S_TermB 3 1; E S_TermB 2 2; E S_TermB 4 6; E S_TermB 2 3;
   E S_TermB 3 4; E S_TermB 2 2; E S_TermB 5 7; E S_TermB 2 3; E S_TermB 3 1; E S_TermB 2 2;
   E S_TermB 4 5; E S_TermB 2 3; E S_TermB 3 4; E S_TermB 2 2; E S_TermB 12 54; E S_TermB 2 3;
   E S_TermB 3 1; E S_TermB 2 2; E S_TermB 4 6; E S_TermB 2 3; E S_TermB 3 4; E S_TermB 2 2;
   E S_TermB 6 9; E S_TermB 2 3; E S_TermB 3 1; E S_TermB 2 2; E S_TermB 4 5; E S_TermB 2 3;
   E S_TermB 3 4; E S_TermB 2 2; E S_TermB 7 11; E S_TermB 2 3; E S_TermB 3 1; E S_TermB 2 2;
   E S_TermB 4 6; E S_TermB 2 3; E S_TermB 3 4; E S_TermB 2 2; E S_TermB 5 7; E S_TermB 2 3;
   E S_TermB 3 1; E S_TermB 2 2; E S_TermB 4 5; E S_TermB 2 3; E S_TermB 3 4; E S_TermB 2 2;
   E S_TermB 8 14; E S_TermB 2 3; E S_TermB 3 1; E S_TermB 2 2; E S_TermB 4 6; E S_TermB 2 3;
   E S_TermB 3 4; E S_TermB 2 2; E S_TermB 6 8; E S_TermB 2 3; E S_TermB 3 1; E S_TermB 2 2;
   E S_TermB 4 5; E S_TermB 2 3; E S_TermB 3 4; E S_TermB 2 2; E S_TermB 7 12; E S_TermB 2 3;
   E S_TermB 3 1; E S_TermB 2 2; E S_TermB 4 6; E S_TermB 2 3; E S_TermB 3 4; E S_TermB 2 2;
   E S_TermB 5 7; E S_TermB 2 3; E S_TermB 3 1; E S_TermB 2 2; E S_TermB 4 5; E S_TermB 2 3;
   E S_TermB 3 4; E S_TermB 2 2].
Definition t4_1d_black_table_36 : list te :=
  [E S_Null 1 0; E S_TermB 2 3; E S_TermB 3 1; E S_TermB 2 2; E S_TermB 4 6; E S_TermB 2 3;
   E S_TermB 3 4; E S_TermB 2 2; E S_TermB 6 9; E S_TermB 2 3; E S_TermB 3 1; E S_TermB 2 2;
   E S_TermB 4 5; E S_TermB 2 3; E S_TermB 3 4; E S_TermB 2 2; E S_TermB 7 10; E S_TermB 2 3;
   E S_TermB 3 1; E S_TermB 2 2; E S_TermB 4 6; E S_TermB 2 3; E S_TermB 3 4; E S_TermB 2 2;
   E S_TermB 5 7; E S_TermB 2 3; E S_TermB 3 1; E S_TermB 2 2; E S_TermB 4 5; E S_TermB 2 3;
   E S_TermB 3 4; E S_TermB 2 2; E S_TermB 8 13; E S_TermB 2 3; E S_TermB 3 1; E S_TermB 2 2;
   E S_TermB 4 6; E S_TermB 2 3; E S_TermB 3 4; E S_TermB 2 2; E S_TermB 6 8; E S_TermB 2 3;
   E S_TermB 3 1; E S_TermB 2 2; E S_TermB 4 5; E S_TermB 2 3; E S_TermB 3 4; E S_TermB 2 2;
   E S_TermB 9 15; E S_TermB 2 3; E S_TermB 3 1; E S_TermB 2 2; E S_TermB 4 6; E S_TermB 2 3;
   E S_TermB 3 4; E S_TermB 2 2; E S_TermB 5 7; E S_TermB 2 3; E S_TermB 3 1; E S_TermB 2 2;
   E S_TermB 4 5; E S_TermB 2 3; E S_TermB 3 4; E S_TermB 2 2; E S_TermB 12 52; E S_TermB 2 3;
   E S_TermB 3 1; E S_TermB 2 2; E S_TermB 4 6; E S_TermB 2 3; E S_TermB 3 4; E S_TermB 2 2;
   E S_TermB 6 9; E S_TermB 2 3; E S_TermB 3 1; E S_TermB 2 2; E S_TermB 4 5; E S_TermB 2 3;
   E S_TermB 3 4; E S_TermB 2 2; E S_TermB 7 11; E S_TermB 2 3; E S_TermB 3 1; E S_TermB 2 2;
   E S_TermB 4 6; E S_TermB 2 3; E S_TermB 3 4; E S_TermB 2 2; E S_TermB 5 7; E S_TermB 2 3;
   E S_TermB 3 1; E S_TermB 2 2; E S_TermB 4 5; E S_TermB 2 3; E S_TermB 3 4; E S_TermB 2 2;
   E S_TermB 12 48; E S_TermB 2 3; E S_TermB 3 1; E S_TermB 2 2; E S_TermB 4 6; E S_TermB 2 3;
   E S_TermB 3 4; E S_TermB 2 2; E S_TermB 6 8; E S_TermB 2 3; E S_TermB 3 1; E S_TermB 2 2;
   E S_TermB 4 5; E S_TermB 2 3; E S_TermB 3 4; E S_TermB 2 2; E S_TermB 7 12; E S_TermB 2 3;
   E S_TermB 3 1; E S_TermB 2 2; E S_TermB 4 6; E S_TermB 2 3; E S_TermB 3 4; E S_TermB 2 2;
   E S_TermB 5 7; E S_TermB 2 3; E S_TermB 3 1; E S_TermB 2 2; E S_TermB 4 5; E S_TermB 2 3;
   E S_TermB 3 4; E S_TermB 2 2].
Definition t4_1d_black_table_37 : list te :=
  [E S_MakeUp 12 2112; E S_TermB 2 3; E S_TermB 3 1; E S_TermB 2 2; E S_TermB 4 6; E S_TermB 2 3;
   E S_TermB 3 4; E S_TermB 2 2; E S_TermB 6 9; E S_TermB 2 3; E S_TermB 3 1; E S_TermB 2 2;
   E S_TermB 4 5; E S_TermB 2 3; E S_TermB 3 4; E S_TermB 2 2; E S_TermB 7 10; E S_TermB 2 3;
   E S_TermB 3 1; E S_TermB 2 2; E S_TermB 4 6; E S_TermB 2 3; E S_TermB 3 4; E S_TermB 2 2;
   E S_TermB 5 7; E S_TermB 2 3; E S_TermB 3 1; E S_TermB 2 2; E S_TermB 4 5; E S_TermB 2 3;
   E S_TermB 3 4; E S_TermB 2 2; E S_TermB 12 44; E S_TermB 2 3; E S_TermB 3 1; E S_TermB 2 2;
   E S_TermB 4 6; E S_TermB 2 3; E S_TermB 3 4; E S_TermB 2 2; E S_TermB 6 8; E S_TermB 2 3;
   E S_TermB 3 1; E S_TermB 2 2; E S_TermB 4 5; E S_TermB 2 3; E S_TermB 3 4; E S_TermB 2 2;
   E S_TermB 12 36; E S_TermB 2 3; E S_TermB 3 1; E S_TermB 2 2; E S_TermB 4 6; E S_TermB 2 3;
   E S_TermB 3 4; E S_TermB 2 2; E S_TermB 5 7; E S_TermB 2 3; E S_TermB 3 1; E S_TermB 2 2;
   E S_TermB 4 5; E S_TermB 2 3; E S_TermB 3 4; E S_TermB 2 2; E S_MakeUpB 12 384; E S_TermB 2 3;
   E S_TermB 3 1; E S_TermB 2 2; E S_TermB 4 6; E S_TermB 2 3; E S_TermB 3 4; E S_TermB 2 2;
   E S_TermB 6 9; E S_TermB 2 3; E S_TermB 3 1; E S_TermB 2 2; E S_TermB 4 5; E S_TermB 2 3;
   E S_TermB 3 4; E S_TermB 2 2; E S_TermB 7 11; E S_TermB 2 3; E S_TermB 3 1; E S_TermB 2 2;
   E S_TermB 4 6; E S_TermB 2 3; E S_TermB 3 4; E S_TermB 2 2; E S_TermB 5 7; E S_TermB 2 3;
   E S_TermB 3 1; E S_TermB 2 2; E S_TermB 4 5; E S_TermB 2 3; E S_TermB 3 4; E S_TermB 2 2;
   E S_TermB 8 14; E S_TermB 2 3; E S_TermB 3 1; E S_TermB 2 2; E S_TermB 4 6; E S_TermB 2 3;
   E S_TermB 3 4; E S_TermB 2 2; E S_TermB 6 8; E S_TermB 2 3; E S_TermB 3 1; E S_TermB 2 2;
   E S_TermB 4 5; E S_TermB 2 3; E S_TermB 3 4; E S_TermB 2 2; E S_TermB 7 12; E S_TermB 2 3;
   E S_TermB 3 1; E S_TermB 2 2; E S_TermB 4 6; E S_TermB 2 3; E S_TermB 3 4; E S_TermB 2 2;
   E S_TermB 5 7; E S_TermB 2 3; E S_TermB 3 1; E S_TermB 2 2; E S_TermB 4 5; E S_TermB 2 3;
   E S_TermB 3 4; E S_TermB 2 2].
Definition t4_1d_black_table_38 : list te :=
  [E S_Null 1 0; E S_TermB 2 3; E S_TermB 3 1; E S_TermB 2 2; E S_TermB 4 6; E S_TermB 2 3;
   E S_TermB 3 4; E S_TermB 2 2; E S_TermB 6 9; E S_TermB 2 3; E S_TermB 3 1; E S_TermB 2 2;
   E S_TermB 4 5; E S_TermB 2 3; E S_TermB 3 4; E S_TermB 2 2; E S_TermB 7 10; E S_TermB 2 3;
   E S_TermB 3 1; E S_TermB 2 2; E S_TermB 4 6; E S_TermB 2 3; E S_TermB 3 4; E S_TermB 2 2;
   E S_TermB 5 7; E S_TermB 2 3; E S_TermB 3 1; E S_TermB 2 2; E S_TermB 4 5; E S_TermB 2 3;
   E S_TermB 3 4; E S_TermB 2 2; E S_TermB 8 13; E S_TermB 2 3; E S_TermB 3 1; E S_TermB 2 2;
   E S_TermB 4 6; E S_TermB 2 3; E S_TermB 3 4; E S_TermB 2 2; E S_TermB 6 8; E S_TermB 2 3;
   E S_TermB 3 1; E S_TermB 2 2; E S_TermB 4 5; E S_TermB 2 3; E S_TermB 3 4; E S_TermB 2 2;
   E S_TermB 12 28; E S_TermB 2 3; E S_TermB 3 1; E S_TermB 2 2; E S_TermB 4 6; E S_TermB 2 3;
   E S_TermB 3 4; E S_TermB 2 2; E S_TermB 5 7; E S_TermB 2 3; E S_TermB 3 1; E S_TermB 2 2;
   E S_TermB 4 5; E S_TermB 2 3; E S_TermB 3 4; E S_TermB 2 2; E S_TermB 12 60; E S_TermB 2 3;
   E S_TermB 3 1; E S_TermB 2 2; E S_TermB 4 6; E S_TermB 2 3; E S_TermB 3 4; E S_TermB 2 2;
   E S_TermB 6 9; E S_TermB 2 3; E S_TermB 3 1; E S_TermB 2 2; E S_TermB 4 5; E S_TermB 2 3;
   E S_TermB 3 4; E S_TermB 2 2; E S_TermB 7 11; E S_TermB 2 3; E S_TermB 3 1; E S_TermB 2 2;
   E S_TermB 4 6; E S_TermB 2 3; E S_TermB 3 4; E S_TermB 2 2; E S_TermB 5 7; E S_TermB 2 3;
   E S_TermB 3 1; E S_TermB 2 2; E S_TermB 4 5; E S_TermB 2 3; E S_TermB 3 4; E S_TermB 2 2;
   E S_TermB 12 40; E S_TermB 2 3; E S_TermB 3 1; E S_TermB 2 2; E S_TermB 4 6; E S_TermB 2 3;
   E S_TermB 3 4; E S_TermB 2 2; E S_TermB 6 8; E S_TermB 2 3; E S_TermB 3 1; E S_TermB 2 2;
   E S_TermB 4 5; E S_TermB 2 3; E S_TermB 3 4; E S_TermB 2 2; E S_TermB 7 12; E S_TermB 2 3;
   E S_TermB 3 1; E S_TermB 2 2; E S_TermB 4 6; E S_TermB 2 3; E S_TermB 3 4; E S_TermB 2 2;
   E S_TermB 5 7; E S_TermB 2 3; E S_TermB 3 1; E S_TermB 2 2; E S_TermB 4 5; E S_TermB 2 3;
   E S_TermB 3 4; E S_TermB 2 2].
Definition t4_1d_black_table_39 : list te :=
  [E S_MakeUp 12 2368; E S_TermB 2 3; E S_TermB 3 1; E S_TermB 2 2; E S_TermB 4 6; E S_TermB 2 3;
   E S_TermB 3 4; E S_TermB 2 2; E S_TermB 6 9; E S_TermB 2 3; E S_TermB 3 1; E S_TermB 2 2;
   E S_TermB 4 5; E S_TermB 2 3; E S_TermB 3 4; E S_TermB 2 2; E S_TermB 7 10; E S_TermB 2 3;
   E S_TermB 3 1; E S_TermB 2 2; E S_TermB 4 6; E S_TermB 2 3; E S_TermB 3 4; E S_TermB 2 2;
   E S_TermB 5 7; E S_TermB 2 3; E S_TermB 3 1; E S_TermB 2 2; E S_TermB 4 5; E S_TermB 2 3;
   E S_TermB 3 4; E S_TermB 2 2; E S_TermB 10 16; E S_TermB 2 3; E S_TermB 3 1; E S_TermB 2 2;
   E S_TermB 4 6; E S_TermB 2 3; E S_TermB 3 4; E S_TermB 2 2; E S_TermB 6 8; E S_TermB 2 3;
   E S_TermB 3 1; E S_TermB 2 2; E S_TermB 4 5; E S_TermB 2 3; E S_TermB 3 4; E S_TermB 2 2;
   E S_TermB 10 0; E S_TermB 2 3; E S_TermB 3 1; E S_TermB 2 2; E S_TermB 4 6; E S_TermB 2 3;
   E S_TermB 3 4; E S_TermB 2 2; E S_TermB 5 7; E S_TermB 2 3; E S_TermB 3 1; E S_TermB 2 2;
   E S_TermB 4 5; E S_TermB 2 3; E S_TermB 3 4; E S_TermB 2 2; E S_MakeUpB 10 64; E S_TermB 2 3;
   E S_TermB 3 1; E S_TermB 2 2; E S_TermB 4 6; E S_TermB 2 3; E S_TermB 3 4; E S_TermB 2 2;
   E S_TermB 6 9; E S_TermB 2 3; E S_TermB 3 1; E S_TermB 2 2; E S_TermB 4 5; E S_TermB 2 3;
   E S_TermB 3 4; E S_TermB 2 2; E S_TermB 7 11; E S_TermB 2 3; E S_TermB 3 1; E S_TermB 2 2;
   E S_TermB 4 6; E S_TermB 2 3; E S_TermB 3 4; E S_TermB 2 2; E S_TermB 5 7; E S_TermB 2 3;
   E S_TermB 3 1; E S_TermB 2 2; E S_TermB 4 5; E S_TermB 2 3; E S_TermB 3 4; E S_TermB 2 2;
   E S_TermB 8 14; E S_TermB 2 3; E S_TermB 3 1; E S_TermB 2 2; E S_TermB 4 6; E S_TermB 2 3;
   E S_TermB 3 4; E S_TermB 2 2; E S_TermB 6 8; E S_TermB 2 3; E S_TermB 3 1; E S_TermB 2 2;
   E S_TermB 4 5; E S_TermB 2 3; E S_TermB 3 4; E S_TermB 2 2; E S_TermB 7 12; E S_TermB 2 3;
   E S_TermB 3 1; E S_TermB 2 2; E S_TermB 4 6; E S_TermB 2 3; E S_TermB 3 4; E S_TermB 2 2;
   E S_TermB 5 7; E S_TermB 2 3; E S_TermB 3 1; E S_TermB 2 2; E S_TermB 4 5; E S_TermB 2 3;
   E S_TermB 3 4; E S_TermB 2 2].
Definition t4_1d_black_table_40 : list te :=
  [E S_Null 1 0; E S_TermB 2 3; E S_TermB 3 1; E S_TermB 2 2; E S_TermB 4 6; E S_TermB 2 3;
   E S_TermB 3 4; E S_TermB 2 2; E S_TermB 6 9; E S_TermB 2 3; E S_TermB 3 1; E S_TermB 2 2;
   E S_TermB 4 5; E S_TermB 2 3; E S_TermB 3 4; E S_TermB 2 2; E S_TermB 7 10; E S_TermB 2 3;
   E S_TermB 3 1; E S_TermB 2 2; E S_TermB 4 6; E S_TermB 2 3; E S_TermB 3 4; E S_TermB 2 2;
   E S_TermB 5 7; E S_TermB 2 3; E S_TermB 3 1; E S_TermB 2 2; E S_TermB 4 5; E S_TermB 2 3;
   E S_TermB 3 4; E S_TermB 2 2; E S_TermB 8 13; E S_TermB 2 3; E S_TermB 3 1; E S_TermB 2 2;
   E S_TermB 4 6; E S_TermB 2 3; E S_TermB 3 4; E S_TermB 2 2; E S_TermB 6 8; E S_TermB 2 3;
   E S_TermB 3 1; E S_TermB 2 2; E S_TermB 4 5; E S_TermB 2 3; E S_TermB 3 4; E S_TermB 2 2;
   E S_TermB 9 15; E S_TermB 2 3; E S_TermB 3 1; E S_TermB 2 2; E S_TermB 4 6; E S_TermB 2 3;
   E S_TermB 3 4; E S_TermB 2 2; E S_TermB 5 7; E S_TermB 2 3; E S_TermB 3 1; E S_TermB 2 2;
   E S_TermB 4 5; E S_TermB 2 3; E S_TermB 3 4; E S_TermB 2 2; E S_TermB 10 18; E S_TermB 2 3;
   E S_TermB 3 1; E S_TermB 2 2; E S_TermB 4 6; E S_TermB 2 3; E S_TermB 3 4; E S_TermB 2 2;
   E S_TermB 6 9; E S_TermB 2 3; E S_TermB 3 1; E S_TermB 2 2; E S_TermB 4 5; E S_TermB 2 3;
   E S_TermB 3 4; E S_TermB 2 2; E S_TermB 7 11; E S_TermB 2 3; E S_TermB 3 1; E S_TermB 2 2;
   E S_TermB 4 6; E S_TermB 2 3; E S_TermB 3 4; E S_TermB 2 2; E S_TermB 5 7; E S_TermB 2 3;
   E S_TermB 3 1; E S_TermB 2 2; E S_TermB 4 5; E S_TermB 2 3; E S_TermB 3 4; E S_TermB 2 2;
   E S_TermB 10 17; E S_TermB 2 3; E S_TermB 3 1; E S_TermB 2 2; E S_TermB 4 6; E S_TermB 2 3;
   E S_TermB 3 4; E S_TermB 2 2; E S_TermB 6 8; E S_TermB 2 3; E S_TermB 3 1; E S_TermB 2 2;
   E S_TermB 4 5; E S_TermB 2 3; E S_TermB 3 4; E S_TermB 2 2; E S_TermB 7 12; E S_TermB 2 3;
   E S_TermB 3 1; E S_TermB 2 2; E S_TermB 4 6; E S_TermB 2 3; E S_TermB 3 4; E S_TermB 2 2;
   E S_TermB 5 7; E S_TermB 2 3; E S_TermB 3 1; E S_TermB 2 2; E S_TermB 4 5; E S_TermB 2 3;
   E S_TermB 3 4; E S_TermB 2 2].
Definition t4_1d_black_table_41 : list te :=
  [E S_MakeUp 12 1984; E S_TermB 2 3; E S_TermB 3 1; E S_TermB 2 2; E S_TermB 4 6; E S_TermB 2 3;
   E S_TermB 3 4; E S_TermB 2 2; E S_TermB 6 9; E S_TermB 2 3; E S_TermB 3 1; E S_TermB 2 2;
   E S_TermB 4 5; E S_TermB 2 3; E S_TermB 3 4; E S_TermB 2 2; E S_TermB 7 10; E S_TermB 2 3;
   E S_TermB 3 1; E S_TermB 2 2; E S_TermB 4 6; E S_TermB 2 3; E S_TermB 3 4; E S_TermB 2 2;
   E S_TermB 5 7; E S_TermB 2 3; E S_TermB 3 1; E S_TermB 2 2; E S_TermB 4 5; E S_TermB 2 3;
   E S_TermB 3 4; E S_TermB 2 2; E S_TermB 12 50; E S_TermB 2 3; E S_TermB 3 1; E S_TermB 2 2;
   E S_TermB 4 6; E S_TermB 2 3; E S_TermB 3 4; E S_TermB 2 2; E S_TermB 6 8; E S_TermB 2 3;
   E S_TermB 3 1; E S_TermB 2 2; E S_TermB 4 5; E S_TermB 2 3; E S_TermB 3 4; E S_TermB 2 2;
   E S_TermB 12 34; E S_TermB 2 3; E S_TermB 3 1; E S_TermB 2 2; E S_TermB 4 6; E S_TermB 2 3;
   E S_TermB 3 4; E S_TermB 2 2; E S_TermB 5 7; E S_TermB 2 3; E S_TermB 3 1; E S_TermB 2 2;
   E S_TermB 4 5; E S_TermB 2 3; E S_TermB 3 4; E S_TermB 2 2; E S_MakeUpB 13 1728; E S_TermB 2 3;
   E S_TermB 3 1; E S_TermB 2 2; E S_TermB 4 6; E S_TermB 2 3; E S_TermB 3 4; E S_TermB 2 2;
   E S_TermB 6 9; E S_TermB 2 3; E S_TermB 3 1; E S_TermB 2 2; E S_TermB 4 5; E S_TermB 2 3;
   E S_TermB 3 4; E S_TermB 2 2; E S_TermB 7 11; E S_TermB 2 3; E S_TermB 3 1; E S_TermB 2 2;
   E S_TermB 4 6; E S_TermB 2 3; E S_TermB 3 4; E S_TermB 2 2; E S_TermB 5 7; E S_TermB 2 3;
   E S_TermB 3 1; E S_TermB 2 2; E S_TermB 4 5; E S_TermB 2 3; E S_TermB 3 4; E S_TermB 2 2;
   E S_TermB 8 14; E S_TermB 2 3; E S_TermB 3 1; E S_TermB 2 2; E S_TermB 4 6; E S_TermB 2 3;
   E S_TermB 3 4; E S_TermB 2 2; E S_TermB 6 8; E S_TermB 2 3; E S_TermB 3 1; E S_TermB 2 2;
   E S_TermB 4 5; E S_TermB 2 3; E S_TermB 3 4; E S_TermB 2 2; E S_TermB 7 12; E S_TermB 2 3;
   E S_TermB 3 1; E S_TermB 2 2; E S_TermB 4 6; E S_TermB 2 3; E S_TermB 3 4; E S_TermB 2 2;
   E S_TermB 5 7; E S_TermB 2 3; E S_TermB 3 1; E S_TermB 2 2; E S_TermB 4 5; E S_TermB 2 3;
   E S_TermB 3 4; E S_TermB 2 2].
Definition t4_1d_black_table_42 : list te :=
  [E S_Null 1 0; E S_TermB 2 3; E S_TermB 3 1; E S_TermB 2 2; E S_TermB 4 6; E S_TermB 2 3;
   E S_TermB 3 4; E S_TermB 2 2; E S_TermB 6 9; E S_TermB 2 3; E S_TermB 3 1; E S_TermB 2 2;
   E S_TermB 4 5; E S_TermB 2 3; E S_TermB 3 4; E S_TermB 2 2; E S_TermB 7 10; E S_TermB 2 3;
   E S_TermB 3 1; E S_TermB 2 2; E S_TermB 4 6; E S_TermB 2 3; E S_TermB 3 4; E S_TermB 2 2;
   E S_TermB 5 7; E S_TermB 2 3; E S_TermB 3 1; E S_TermB 2 2; E S_TermB 4 5; E S_TermB 2 3;
   E S_TermB 3 4; E S_TermB 2 2; E S_TermB 8 13; E S_TermB 2 3; E S_TermB 3 1; E S_TermB 2 2;
   E S_TermB 4 6; E S_TermB 2 3; E S_TermB 3 4; E S_TermB 2 2; E S_TermB 6 8; E S_TermB 2 3;
   E S_TermB 3 1; E S_TermB 2 2; E S_TermB 4 5; E S_TermB 2 3; E S_TermB 3 4; E S_TermB 2 2;
   E S_TermB 12 26; E S_TermB 2 3; E S_TermB 3 1; E S_TermB 2 2; E S_TermB 4 6; E S_TermB 2 3;
   E S_TermB 3 4; E S_TermB 2 2; E S_TermB 5 7; E S_TermB 2 3; E S_TermB 3 1; E S_TermB 2 2;
   E S_TermB 4 5; E S_TermB 2 3; E S_TermB 3 4; E S_TermB 2 2; E S_MakeUpB 13 1472; E S_TermB 2 3;
   E S_TermB 3 1; E S_TermB 2 2; E S_TermB 4 6; E S_TermB 2 3; E S_TermB 3 4; E S_TermB 2 2;
   E S_TermB 6 9; E S_TermB 2 3; E S_TermB 3 1; E S_TermB 2 2; E S_TermB 4 5; E S_TermB 2 3;
   E S_TermB 3 4; E S_TermB 2 2; E S_TermB 7 11; E S_TermB 2 3; E S_TermB 3 1; E S_TermB 2 2;
   E S_TermB 4 6; E S_TermB 2 3; E S_TermB 3 4; E S_TermB 2 2; E S_TermB 5 7; E S_TermB 2 3;
   E S_TermB 3 1; E S_TermB 2 2; E S_TermB 4 5; E S_TermB 2 3; E S_TermB 3 4; E S_TermB 2 2;
   E S_TermB 12 32; E S_TermB 2 3; E S_TermB 3 1; E S_TermB 2 2; E S_TermB 4 6; E S_TermB 2 3;
   E S_TermB 3 4; E S_TermB 2 2; E S_TermB 6 8; E S_TermB 2 3; E S_TermB 3 1; E S_TermB 2 2;
   E S_TermB 4 5; E S_TermB 2 3; E S_TermB 3 4; E S_TermB 2 2; E S_TermB 7 12; E S_TermB 2 3;
   E S_TermB 3 1; E S_TermB 2 2; E S_TermB 4 6; E S_TermB 2 3; E S_TermB 3 4; E S_TermB 2 2;
   E S_TermB 5 7; E S_TermB 2 3; E S_TermB 3 1; E S_TermB 2 2; E S_TermB 4 5; E S_TermB 2 3;
   E S_TermB 3 4; E S_TermB 2 2].
Definition t4_1d_black_table_43 : list te :=
  [E S_MakeUp 11 1920; E S_TermB 2 3; E S_TermB 3 1; E S_TermB 2 2; E S_TermB 4 6; E S_TermB 2 3;
   E S_TermB 3 4; E S_TermB 2 2; E S_TermB 6 9; E S_TermB 2 3; E S_TermB 3 1; E S_TermB 2 2;
   E S_TermB 4 5; E S_TermB 2 3; E S_TermB 3 4; E S_TermB 2 2; E S_TermB 7 10; E S_TermB 2 3;
   E S_TermB 3 1; E S_TermB 2 2; E S_TermB 4 6; E S_TermB 2 3; E S_TermB 3 4; E S_TermB 2 2;
   E S_TermB 5 7; E S_TermB 2 3; E S_TermB 3 1; E S_TermB 2 2; E S_TermB 4 5; E S_TermB 2 3;
   E S_TermB 3 4; E S_TermB 2 2; E S_TermB 12 61; E S_TermB 2 3; E S_TermB 3 1; E S_TermB 2 2;
   E S_TermB 4 6; E S_TermB 2 3; E S_TermB 3 4; E S_TermB 2 2; E S_TermB 6 8; E S_TermB 2 3;
   E S_TermB 3 1; E S_TermB 2 2; E S_TermB 4 5; E S_TermB 2 3; E S_TermB 3 4; E S_TermB 2 2;
   E S_TermB 12 42; E S_TermB 2 3; E S_TermB 3 1; E S_TermB 2 2; E S_TermB 4 6; E S_TermB 2 3;
   E S_TermB 3 4; E S_TermB 2 2; E S_TermB 5 7; E S_TermB 2 3; E S_TermB 3 1; E S_TermB 2 2;
   E S_TermB 4 5; E S_TermB 2 3; E S_TermB 3 4; E S_TermB 2 2; E S_MakeUpB 13 1088; E S_TermB 2 3;
   E S_TermB 3 1; E S_TermB 2 2; E S_TermB 4 6; E S_TermB 2 3; E S_TermB 3 4; E S_TermB 2 2;
   E S_TermB 6 9; E S_TermB 2 3; E S_TermB 3 1; E S_TermB 2 2; E S_TermB 4 5; E S_TermB 2 3;
   E S_TermB 3 4; E S_TermB 2 2; E S_TermB 7 11; E S_TermB 2 3; E S_TermB 3 1; E S_TermB 2 2;
   E S_TermB 4 6; E S_TermB 2 3; E S_TermB 3 4; E S_TermB 2 2; E S_TermB 5 7; E S_TermB 2 3;
   E S_TermB 3 1; E S_TermB 2 2; E S_TermB 4 5; E S_TermB 2 3; E S_TermB 3 4; E S_TermB 2 2;
   E S_TermB 8 14; E S_TermB 2 3; E S_TermB 3 1; E S_TermB 2 2; E S_TermB 4 6; E S_TermB 2 3;
   E S_TermB 3 4; E S_TermB 2 2; E S_TermB 6 8; E S_TermB 2 3; E S_TermB 3 1; E S_TermB 2 2;
   E S_TermB 4 5; E S_TermB 2 3; E S_TermB 3 4; E S_TermB 2 2; E S_TermB 7 12; E S_TermB 2 3;
   E S_TermB 3 1; E S_TermB 2 2; E S_TermB 4 6; E S_TermB 2 3; E S_TermB 3 4; E S_TermB 2 2;
   E S_TermB 5 7; E S_TermB 2 3; E S_TermB 3 1; E S_TermB 2 2; E S_TermB 4 5; E S_TermB 2 3;
   E S_TermB 3 4; E S_TermB 2 2].
Definition t4_1d_black_table_44 : list te :=
  [E S_Null 1 0; E S_TermB 2 3; E S_TermB 3 1; E S_TermB 2 2; E S_TermB 4 6; E S_TermB 2 3;
   E S_TermB 3 4; E S_TermB 2 2; E S_TermB 6 9; E S_TermB 2 3; E S_TermB 3 1; E S_TermB 2 2;
   E S_TermB 4 5; E S_TermB 2 3; E S_TermB 3 4; E S_TermB 2 2; E S_TermB 7 10; E S_TermB 2 3;
   E S_TermB 3 1; E S_TermB 2 2; E S_TermB 4 6; E S_TermB 2 3; E S_TermB 3 4; E S_TermB 2 2;
   E S_TermB 5 7; E S_TermB 2 3; E S_TermB 3 1; E S_TermB 2 2; E S_TermB 4 5; E S_TermB 2 3;
   E S_TermB 3 4; E S_TermB 2 2; E S_TermB 8 13; E S_TermB 2 3; E S_TermB 3 1; E S_TermB 2 2;
   E S_TermB 4 6; E S_TermB 2 3; E S_TermB 3 4; E S_TermB 2 2; E S_TermB 6 8; E S_TermB 2 3;
   E S_TermB 3 1; E S_TermB 2 2; E S_TermB 4 5; E S_TermB 2 3; E S_TermB 3 4; E S_TermB 2 2;
   E S_TermB 9 15; E S_TermB 2 3; E S_TermB 3 1; E S_TermB 2 2; E S_TermB 4 6; E S_TermB 2 3;
   E S_TermB 3 4; E S_TermB 2 2; E S_TermB 5 7; E S_TermB 2 3; E S_TermB 3 1; E S_TermB 2 2;
   E S_TermB 4 5; E S_TermB 2 3; E S_TermB 3 4; E S_TermB 2 2; E S_MakeUpB 13 832; E S_TermB 2 3;
   E S_TermB 3 1; E S_TermB 2 2; E S_TermB 4 6; E S_TermB 2 3; E S_TermB 3 4; E S_TermB 2 2;
   E S_TermB 6 9; E S_TermB 2 3; E S_TermB 3 1; E S_TermB 2 2; E S_TermB 4 5; E S_TermB 2 3;
   E S_TermB 3 4; E S_TermB 2 2; E S_TermB 7 11; E S_TermB 2 3; E S_TermB 3 1; E S_TermB 2 2;
   E S_TermB 4 6; E S_TermB 2 3; E S_TermB 3 4; E S_TermB 2 2; E S_TermB 5 7; E S_TermB 2 3;
   E S_TermB 3 1; E S_TermB 2 2; E S_TermB 4 5; E S_TermB 2 3; E S_TermB 3 4; E S_TermB 2 2;
   E S_TermB 12 62; E S_TermB 2 3; E S_TermB 3 1; E S_TermB 2 2; E S_TermB 4 6; E S_TermB 2 3;
   E S_TermB 3 4; E S_TermB 2 2; E S_TermB 6 8; E S_TermB 2 3; E S_TermB 3 1; E S_TermB 2 2;
   E S_TermB 4 5; E S_TermB 2 3; E S_TermB 3 4; E S_TermB 2 2; E S_TermB 7 12; E S_TermB 2 3;
   E S_TermB 3 1; E S_TermB 2 2; E S_TermB 4 6; E S_TermB 2 3; E S_TermB 3 4; E S_TermB 2 2;
   E S_TermB 5 7; E S_TermB 2 3; E S_TermB 3 1; E S_TermB 2 2; E S_TermB 4 5; E S_TermB 2 3;
   E S_TermB 3 4; E S_TermB 2 2].
Definition t4_1d_black_table_45 : list te :=
  [E S_MakeUp 12 2240; E S_TermB 2 3; E S_TermB 3 1; E S_TermB 2 2; E S_TermB 4 6; E S_TermB 2 3;
   E S_TermB 3 4; E S_TermB 2 2; E S_TermB 6 9; E S_TermB 2 3; E S_TermB 3 1; E S_TermB 2 2;
   E S_TermB 4 5; E S_TermB 2 3; E S_TermB 3 4; E S_TermB 2 2; E S_TermB 7 10; E S_TermB 2 3;
   E S_TermB 3 1; E S_TermB 2 2; E S_TermB 4 6; E S_TermB 2 3; E S_TermB 3 4; E S_TermB 2 2;
   E S_TermB 5 7; E S_TermB 2 3; E S_TermB 3 1; E S_TermB 2 2; E S_TermB 4 5; E S_TermB 2 3;
   E S_TermB 3 4; E S_TermB 2 2; E S_TermB 12 46; E S_TermB 2 3; E S_TermB 3 1; E S_TermB 2 2;
   E S_TermB 4 6; E S_TermB 2 3; E S_TermB 3 4; E S_TermB 2 2; E S_TermB 6 8; E S_TermB 2 3;
   E S_TermB 3 1; E S_TermB 2 2; E S_TermB 4 5; E S_TermB 2 3; E S_TermB 3 4; E S_TermB 2 2;
   E S_TermB 12 38; E S_TermB 2 3; E S_TermB 3 1; E S_TermB 2 2; E S_TermB 4 6; E S_TermB 2 3;
   E S_TermB 3 4; E S_TermB 2 2; E S_TermB 5 7; E S_TermB 2 3; E S_TermB 3 1; E S_TermB 2 2;
   E S_TermB 4 5; E S_TermB 2 3; E S_TermB 3 4; E S_TermB 2 2; E S_MakeUpB 13 576; E S_TermB 2 3;
   E S_TermB 3 1; E S_TermB 2 2; E S_TermB 4 6; E S_TermB 2 3; E S_TermB 3 4; E S_TermB 2 2;
   E S_TermB 6 9; E S_TermB 2 3; E S_TermB 3 1; E S_TermB 2 2; E S_TermB 4 5; E S_TermB 2 3;
   E S_TermB 3 4; E S_TermB 2 2; E S_TermB 7 11; E S_TermB 2 3; E S_TermB 3 1; E S_TermB 2 2;
   E S_TermB 4 6; E S_TermB 2 3; E S_TermB 3 4; E S_TermB 2 2; E S_TermB 5 7; E S_TermB 2 3;
   E S_TermB 3 1; E S_TermB 2 2; E S_TermB 4 5; E S_TermB 2 3; E S_TermB 3 4; E S_TermB 2 2;
   E S_TermB 8 14; E S_TermB 2 3; E S_TermB 3 1; E S_TermB 2 2; E S_TermB 4 6; E S_TermB 2 3;
   E S_TermB 3 4; E S_TermB 2 2; E S_TermB 6 8; E S_TermB 2 3; E S_TermB 3 1; E S_TermB 2 2;
   E S_TermB 4 5; E S_TermB 2 3; E S_TermB 3 4; E S_TermB 2 2; E S_TermB 7 12; E S_TermB 2 3;
   E S_TermB 3 1; E S_TermB 2 2; E S_TermB 4 6; E S_TermB 2 3; E S_TermB 3 4; E S_TermB 2 2;
   E S_TermB 5 7; E S_TermB 2 3; E S_TermB 3 1; E S_TermB 2 2; E S_TermB 4 5; E S_TermB 2 3;
   E S_TermB 3 4; E S_TermB 2 2].
Definition t4_1d_black_table_46 : list te :=
  [E S_Null 1 0; E S_TermB 2 3; E S_TermB 3 1; E S_TermB 2 2; E S_TermB 4 6; E S_TermB 2 3;
   E S_TermB 3 4; E S_TermB 2 2; E S_TermB 6 9; E S_TermB 2 3; E S_TermB 3 1; E S_TermB 2 2;
   E S_TermB 4 5; E S_TermB 2 3; E S_TermB 3 4; E S_TermB 2 2; E S_TermB 7 10; E S_TermB 2 3;
   E S_TermB 3 1; E S_TermB 2 2; E S_TermB 4 6; E S_TermB 2 3; E S_TermB 3 4; E S_TermB 2 2;
   E S_TermB 5 7; E S_TermB 2 3; E S_TermB 3 1; E S_TermB 2 2; E S_TermB 4 5; E S_TermB 2 3;
   E S_TermB 3 4; E S_TermB 2 2; E S_TermB 8 13; E S_TermB 2 3; E S_TermB 3 1; E S_TermB 2 2;
   E S_TermB 4 6; E S_TermB 2 3; E S_TermB 3 4; E S_TermB 2 2; E S_TermB 6 8; E S_TermB 2 3;
   E S_TermB 3 1; E S_TermB 2 2; E S_TermB 4 5; E S_TermB 2 3; E S_TermB 3 4; E S_TermB 2 2;
   E S_TermB 11 19; E S_TermB 2 3; E S_TermB 3 1; E S_TermB 2 2; E S_TermB 4 6; E S_TermB 2 3;
   E S_TermB 3 4; E S_TermB 2 2; E S_TermB 5 7; E S_TermB 2 3; E S_TermB 3 1; E S_TermB 2 2;
   E S_TermB 4 5; E S_TermB 2 3; E S_TermB 3 4; E S_TermB 2 2; E S_TermB 11 24; E S_TermB 2 3;
   E S_TermB 3 1; E S_TermB 2 2; E S_TermB 4 6; E S_TermB 2 3; E S_TermB 3 4; E S_TermB 2 2;
   E S_TermB 6 9; E S_TermB 2 3; E S_TermB 3 1; E S_TermB 2 2; E S_TermB 4 5; E S_TermB 2 3;
   E S_TermB 3 4; E S_TermB 2 2; E S_TermB 7 11; E S_TermB 2 3; E S_TermB 3 1; E S_TermB 2 2;
   E S_TermB 4 6; E S_TermB 2 3; E S_TermB 3 4; E S_TermB 2 2; E S_TermB 5 7; E S_TermB 2 3;
   E S_TermB 3 1; E S_TermB 2 2; E S_TermB 4 5; E S_TermB 2 3; E S_TermB 3 4; E S_TermB 2 2;
   E S_TermB 11 22; E S_TermB 2 3; E S_TermB 3 1; E S_TermB 2 2; E S_TermB 4 6; E S_TermB 2 3;
   E S_TermB 3 4; E S_TermB 2 2; E S_TermB 6 8; E S_TermB 2 3; E S_TermB 3 1; E S_TermB 2 2;
   E S_TermB 4 5; E S_TermB 2 3; E S_TermB 3 4; E S_TermB 2 2; E S_TermB 7 12; E S_TermB 2 3;
   E S_TermB 3 1; E S_TermB 2 2; E S_TermB 4 6; E S_TermB 2 3; E S_TermB 3 4; E S_TermB 2 2;
   E S_TermB 5 7; E S_TermB 2 3; E S_TermB 3 1; E S_TermB 2 2; E S_TermB 4 5; E S_TermB 2 3;
   E S_TermB 3 4; E S_TermB 2 2].
Definition t4_1d_black_table_47 : list te :=
  [E S_MakeUp 12 2496; E S_TermB 2 3; E S_TermB 3 1; E S_TermB 2 2; E S_TermB 4 6; E S_TermB 2 3;
   E S_TermB 3 4; E S_TermB 2 2; E S_TermB 6 9; E S_TermB 2 3; E S_TermB 3 1; E S_TermB 2 2;
   E S_TermB 4 5; E S_TermB 2 3; E S_TermB 3 4; E S_TermB 2 2; E S_TermB 7 10; E S_TermB 2 3;
   E S_TermB 3 1; E S_TermB 2 2; E S_TermB 4 6; E S_TermB 2 3; E S_TermB 3 4; E S_TermB 2 2;
   E S_TermB 5 7; E S_TermB 2 3; E S_TermB 3 1; E S_TermB 2 2; E S_TermB 4 5; E S_TermB 2 3;
   E S_TermB 3 4; E S_TermB 2 2; E S_TermB 10 16; E S_TermB 2 3; E S_TermB 3 1; E S_TermB 2 2;
   E S_TermB 4 6; E S_TermB 2 3; E S_TermB 3 4; E S_TermB 2 2; E S_TermB 6 8; E S_TermB 2 3;
   E S_TermB 3 1; E S_TermB 2 2; E S_TermB 4 5; E S_TermB 2 3; E S_TermB 3 4; E S_TermB 2 2;
   E S_TermB 10 0; E S_TermB 2 3; E S_TermB 3 1; E S_TermB 2 2; E S_TermB 4 6; E S_TermB 2 3;
   E S_TermB 3 4; E S_TermB 2 2; E S_TermB 5 7; E S_TermB 2 3; E S_TermB 3 1; E S_TermB 2 2;
   E S_TermB 4 5; E S_TermB 2 3; E S_TermB 3 4; E S_TermB 2 2; E S_MakeUpB 10 64; E S_TermB 2 3;
   E S_TermB 3 1; E S_TermB 2 2; E S_TermB 4 6; E S_TermB 2 3; E S_TermB 3 4; E S_TermB 2 2;
   E S_TermB 6 9; E S_TermB 2 3; E S_TermB 3 1; E S_TermB 2 2; E S_TermB 4 5; E S_TermB 2 3;
   E S_TermB 3 4; E S_TermB 2 2; E S_TermB 7 11; E S_TermB 2 3; E S_TermB 3 1; E S_TermB 2 2;
   E S_TermB 4 6; E S_TermB 2 3; E S_TermB 3 4; E S_TermB 2 2; E S_TermB 5 7; E S_TermB 2 3;
   E S_TermB 3 1; E S_TermB 2 2; E S_TermB 4 5; E S_TermB 2 3; E S_TermB 3 4; E S_TermB 2 2;
   E S_TermB 8 14; E S_TermB 2 3; E S_TermB 3 1; E S_TermB 2 2; E S_TermB 4 6; E S_TermB 2 3;
   E S_TermB 3 4; E S_TermB 2 2; E S_TermB 6 8; E S_TermB 2 3; E S_TermB 3 1; E S_TermB 2 2;
   E S_TermB 4 5; E S_TermB 2 3; E S_TermB 3 4; E S_TermB 2 2; E S_TermB 7 12; E S_TermB 2 3;
   E S_TermB 3 1; E S_TermB 2 2; E S_TermB 4 6; E S_TermB 2 3; E S_TermB 3 4; E S_TermB 2 2;
   E S_TermB 5 7; E S_TermB 2 3; E S_TermB 3 1; E S_TermB 2 2; E S_TermB 4 5; E S_TermB 2 3;
   E S_TermB 3 4; E S_TermB 2 2].
Definition t4_1d_black_table_48 : list te :=
  [E S_EOL 12 0; E S_TermB 2 3; E S_TermB 3 1; E S_TermB 2 2; E S_TermB 4 6; E S_TermB 2 3;
   E S_TermB 3 4; E S_TermB 2 2; E S_TermB 6 9; E S_TermB 2 3; E S_TermB 3 1; E S_TermB 2 2;
   E S_TermB 4 5; E S_TermB 2 3; E S_TermB 3 4; E S_TermB 2 2; E S_TermB 7 10; E S_TermB 2 3;
   E S_TermB 3 1; E S_TermB 2 2; E S_TermB 4 6; E S_TermB 2 3; E S_TermB 3 4; E S_TermB 2 2;
   E S_TermB 5 7; E S_TermB 2 3; E S_TermB 3 1; E S_TermB 2 2; E S_TermB 4 5; E S_TermB 2 3;
   E S_TermB 3 4; E S_TermB 2 2; E S_TermB 8 13; E S_TermB 2 3; E S_TermB 3 1; E S_TermB 2 2;
   E S_TermB 4 6; E S_TermB 2 3; E S_TermB 3 4; E S_TermB 2 2; E S_TermB 6 8; E S_TermB 2 3;
   E S_TermB 3 1; E S_TermB 2 2; E S_TermB 4 5; E S_TermB 2 3; E S_TermB 3 4; E S_TermB 2 2;
   E S_TermB 9 15; E S_TermB 2 3; E S_TermB 3 1; E S_TermB 2 2; E S_TermB 4 6; E S_TermB 2 3;
   E S_TermB 3 4; E S_TermB 2 2; E S_TermB 5 7; E S_TermB 2 3; E S_TermB 3 1; E S_TermB 2 2;
   E S_TermB 4 5; E S_TermB 2 3; E S_TermB 3 4; E S_TermB 2 2; E S_TermB 10 18; E S_TermB 2 3;
   E S_TermB 3 1; E S_TermB 2 2; E S_TermB 4 6; E S_TermB 2 3; E S_TermB 3 4; E S_TermB 2 2;
   E S_TermB 6 9; E S_TermB 2 3; E S_TermB 3 1; E S_TermB 2 2; E S_TermB 4 5; E S_TermB 2 3;
   E S_TermB 3 4; E S_TermB 2 2; E S_TermB 7 11; E S_TermB 2 3; E S_TermB 3 1; E S_TermB 2 2;
   E S_TermB 4 6; E S_TermB 2 3; E S_TermB 3 4; E S_TermB 2 2; E S_TermB 5 7; E S_TermB 2 3;
   E S_TermB 3 1; E S_TermB 2 2; E S_TermB 4 5; E S_TermB 2 3; E S_TermB 3 4; E S_TermB 2 2;
   E S_TermB 10 17; E S_TermB 2 3; E S_TermB 3 1; E S_TermB 2 2; E S_TermB 4 6; E S_TermB 2 3;
   E S_TermB 3 4; E S_TermB 2 2; E S_TermB 6 8; E S_TermB 2 3; E S_TermB 3 1; E S_TermB 2 2;
   E S_TermB 4 5; E S_TermB 2 3; E S_TermB 3 4; E S_TermB 2 2; E S_TermB 7 12; E S_TermB 2 3;
   E S_TermB 3 1; E S_TermB 2 2; E S_TermB 4 6; E S_TermB 2 3; E S_TermB 3 4; E S_TermB 2 2;
   E S_TermB 5 7; E S_TermB 2 3; E S_TermB 3 1; E S_TermB 2 2; E S_TermB 4 5; E S_TermB 2 3;
   E S_TermB 3 4; E S_TermB 2 2].
Definition t4_1d_black_table_49 : list te :=
  [E S_MakeUp 11 1792; E S_TermB 2 3; E S_TermB 3 1; E S_TermB 2 2; E S_TermB 4 6; E S_TermB 2 3;
   E S_TermB 3 4; E S_TermB 2 2; E S_TermB 6 9; E S_TermB 2 3; E S_TermB 3 1; E S_TermB 2 2;
   E S_TermB 4 5; E S_TermB 2 3; E S_TermB 3 4; E S_TermB 2 2; E S_TermB 7 10; E S_TermB 2 3;
   E S_TermB 3 1; E S_TermB 2 2; E S_TermB 4 6; E S_TermB 2 3; E S_TermB 3 4; E S_TermB 2 2;
   E S_TermB 5 7; E S_TermB 2 3; E S_TermB 3 1; E S_TermB 2 2; E S_TermB 4 5; E S_TermB 2 3;
   E S_TermB 3 4; E S_TermB 2 2; E S_TermB 11 23; E S_TermB 2 3; E S_TermB 3 1; E S_TermB 2 2;
   E S_TermB 4 6; E S_TermB 2 3; E S_TermB 3 4; E S_TermB 2 2; E S_TermB 6 8; E S_TermB 2 3;
   E S_TermB 3 1; E S_TermB 2 2; E S_TermB 4 5; E S_TermB 2 3; E S_TermB 3 4; E S_TermB 2 2;
   E S_TermB 11 20; E S_TermB 2 3; E S_TermB 3 1; E S_TermB 2 2; E S_TermB 4 6; E S_TermB 2 3;
   E S_TermB 3 4; E S_TermB 2 2; E S_TermB 5 7; E S_TermB 2 3; E S_TermB 3 1; E S_TermB 2 2;
   E S_TermB 4 5; E S_TermB 2 3; E S_TermB 3 4; E S_TermB 2 2; E S_TermB 11 25; E S_TermB 2 3;
   E S_TermB 3 1; E S_TermB 2 2; E S_TermB 4 6; E S_TermB 2 3; E S_TermB 3 4; E S_TermB 2 2;
   E S_TermB 6 9; E S_TermB 2 3; E S_TermB 3 1; E S_TermB 2 2; E S_TermB 4 5; E S_TermB 2 3;
   E S_TermB 3 4; E S_TermB 2 2; E S_TermB 7 11; E S_TermB 2 3; E S_TermB 3 1; E S_TermB 2 2;
   E S_TermB 4 6; E S_TermB 2 3; E S_TermB 3 4; E S_TermB 2 2; E S_TermB 5 7; E S_TermB 2 3;
   E S_TermB 3 1; E S_TermB 2 2; E S_TermB 4 5; E S_TermB 2 3; E S_TermB 3 4; E S_TermB 2 2;
   E S_TermB 8 14; E S_TermB 2 3; E S_TermB 3 1; E S_TermB 2 2; E S_TermB 4 6; E S_TermB 2 3;
   E S_TermB 3 4; E S_TermB 2 2; E S_TermB 6 8; E S_TermB 2 3; E S_TermB 3 1; E S_TermB 2 2;
   E S_TermB 4 5; E S_TermB 2 3; E S_TermB 3 4; E S_TermB 2 2; E S_TermB 7 12; E S_TermB 2 3;
   E S_TermB 3 1; E S_TermB 2 2; E S_TermB 4 6; E S_TermB 2 3; E S_TermB 3 4; E S_TermB 2 2;
   E S_TermB 5 7; E S_TermB 2 3; E S_TermB 3 1; E S_TermB 2 2; E S_TermB 4 5; E S_TermB 2 3;
   E S_TermB 3 4; E S_TermB 2 2].
Definition t4_1d_black_table_50 : list te :=
  [E S_Null 1 0; E S_TermB 2 3; E S_TermB 3 1; E S_TermB 2 2; E S_TermB 4 6; E S_TermB 2 3;
   E S_TermB 3 4; E S_TermB 2 2; E S_TermB 6 9; E S_TermB 2 3; E S_TermB 3 1; E S_TermB 2 2;
   E S_TermB 4 5; E S_TermB 2 3; E S_TermB 3 4; E S_TermB 2 2; E S_TermB 7 10; E S_TermB 2 3;
   E S_TermB 3 1; E S_TermB 2 2; E S_TermB 4 6; E S_TermB 2 3; E S_TermB 3 4; E S_TermB 2 2;
   E S_TermB 5 7; E S_TermB 2 3; E S_TermB 3 1; E S_TermB 2 2; E S_TermB 4 5; E S_TermB 2 3;
   E S_TermB 3 4; E S_TermB 2 2; E S_TermB 8 13; E S_TermB 2 3; E S_TermB 3 1; E S_TermB 2 2;
   E S_TermB 4 6; E S_TermB 2 3; E S_TermB 3 4; E S_TermB 2 2; E S_TermB 6 8; E S_TermB 2 3;
   E S_TermB 3 1; E S_TermB 2 2; E S_TermB 4 5; E S_TermB 2 3; E S_TermB 3 4; E S_TermB 2 2;
   E S_MakeUpB 12 192; E S_TermB 2 3; E S_TermB 3 1; E S_TermB 2 2; E S_TermB 4 6; E S_TermB 2 3;
   E S_TermB 3 4; E S_TermB 2 2; E S_TermB 5 7; E S_TermB 2 3; E S_TermB 3 1; E S_TermB 2 2;
   E S_TermB 4 5; E S_TermB 2 3; E S_TermB 3 4; E S_TermB 2 2; E S_MakeUpB 13 1344; E S_TermB 2 3;
   E S_TermB 3 1; E S_TermB 2 2; E S_TermB 4 6; E S_TermB 2 3; E S_TermB 3 4; E S_TermB 2 2;
   E S_TermB 6 9; E S_TermB 2 3; E S_TermB 3 1; E S_TermB 2 2; E S_TermB 4 5; E S_TermB 2 3;
   E S_TermB 3 4; E S_TermB 2 2; E S_TermB 7 11; E S_TermB 2 3; E S_TermB 3 1; E S_TermB 2 2;
   E S_TermB 4 6; E S_TermB 2 3; E S_TermB 3 4; E S_TermB 2 2; E S_TermB 5 7; E S_TermB 2 3;
   E S_TermB 3 1; E S_TermB 2 2; E S_TermB 4 5; E S_TermB 2 3; E S_TermB 3 4; E S_TermB 2 2;
   E S_TermB 12 31; E S_TermB 2 3; E S_TermB 3 1; E S_TermB 2 2; E S_TermB 4 6; E S_TermB 2 3;
   E S_TermB 3 4; E S_TermB 2 2; E S_TermB 6 8; E S_TermB 2 3; E S_TermB 3 1; E S_TermB 2 2;
   E S_TermB 4 5; E S_TermB 2 3; E S_TermB 3 4; E S_TermB 2 2; E S_TermB 7 12; E S_TermB 2 3;
   E S_TermB 3 1; E S_TermB 2 2; E S_TermB 4 6; E S_TermB 2 3; E S_TermB 3 4; E S_TermB 2 2;
   E S_TermB 5 7; E S_TermB 2 3; E S_TermB 3 1; E S_TermB 2 2; E S_TermB 4 5; E S_TermB 2 3;
   E S_TermB 3 4; E S_TermB 2 2].
Definition t4_1d_black_table_51 : list te :=
  [E S_MakeUp 11 1856; E S_TermB 2 3; E S_TermB 3 1; E S_TermB 2 2; E S_TermB 4 6; E S_TermB 2 3;
   E S_TermB 3 4; E S_TermB 2 2; E S_TermB 6 9; E S_TermB 2 3; E S_TermB 3 1; E S_TermB 2 2;
   E S_TermB 4 5; E S_TermB 2 3; E S_TermB 3 4; E S_TermB 2 2; E S_TermB 7 10; E S_TermB 2 3;
   E S_TermB 3 1; E S_TermB 2 2; E S_TermB 4 6; E S_TermB 2 3; E S_TermB 3 4; E S_TermB 2 2;
   E S_TermB 5 7; E S_TermB 2 3; E S_TermB 3 1; E S_TermB 2 2; E S_TermB 4 5; E S_TermB 2 3;
   E S_TermB 3 4; E S_TermB 2 2; E S_TermB 12 58; E S_TermB 2 3; E S_TermB 3 1; E S_TermB 2 2;
   E S_TermB 4 6; E S_TermB 2 3; E S_TermB 3 4; E S_TermB 2 2; E S_TermB 6 8; E S_TermB 2 3;
   E S_TermB 3 1; E S_TermB 2 2; E S_TermB 4 5; E S_TermB 2 3; E S_TermB 3 4; E S_TermB 2 2;
   E S_TermB 11 21; E S_TermB 2 3; E S_TermB 3 1; E S_TermB 2 2; E S_TermB 4 6; E S_TermB 2 3;
   E S_TermB 3 4; E S_TermB 2 2; E S_TermB 5 7; E S_TermB 2 3; E S_TermB 3 1; E S_TermB 2 2;
   E S_TermB 4 5; E S_TermB 2 3; E S_TermB 3 4; E S_TermB 2 2; E S_MakeUpB 13 960; E S_TermB 2 3;
   E S_TermB 3 1; E S_TermB 2 2; E S_TermB 4 6; E S_TermB 2 3; E S_TermB 3 4; E S_TermB 2 2;
   E S_TermB 6 9; E S_TermB 2 3; E S_TermB 3 1; E S_TermB 2 2; E S_TermB 4 5; E S_TermB 2 3;
   E S_TermB 3 4; E S_TermB 2 2; E S_TermB 7 11; E S_TermB 2 3; E S_TermB 3 1; E S_TermB 2 2;
   E S_TermB 4 6; E S_TermB 2 3; E S_TermB 3 4; E S_TermB 2 2; E S_TermB 5 7; E S_TermB 2 3;
   E S_TermB 3 1; E S_TermB 2 2; E S_TermB 4 5; E S_TermB 2 3; E S_TermB 3 4; E S_TermB 2 2;
   E S_TermB 8 14; E S_TermB 2 3; E S_TermB 3 1; E S_TermB 2 2; E S_TermB 4 6; E S_TermB 2 3;
   E S_TermB 3 4; E S_TermB 2 2; E S_TermB 6 8; E S_TermB 2 3; E S_TermB 3 1; E S_TermB 2 2;
   E S_TermB 4 5; E S_TermB 2 3; E S_TermB 3 4; E S_TermB 2 2; E S_TermB 7 12; E S_TermB 2 3;
   E S_TermB 3 1; E S_TermB 2 2; E S_TermB 4 6; E S_TermB 2 3; E S_TermB 3 4; E S_TermB 2 2;
   E S_TermB 5 7; E S_TermB 2 3; E S_TermB 3 1; E S_TermB 2 2; E S_TermB 4 5; E S_TermB 2 3;
   E S_TermB 3 4; E S_TermB 2 2].
Definition t4_1d_black_table_52 : list te :=
  [E S_Null 1 0; E S_TermB 2 3; E S_TermB 3 1; E S_TermB 2 2; E S_TermB 4 6; E S_TermB 2 3;
   E S_TermB 3 4; E S_TermB 2 2; E S_TermB 6 9; E S_TermB 2 3; E S_TermB 3 1; E S_TermB 2 2;
   E S_TermB 4 5; E S_TermB 2 3; E S_TermB 3 4; E S_TermB 2 2; E S_TermB 7 10; E S_TermB 2 3;
   E S_TermB 3 1; E S_TermB 2 2; E S_TermB 4 6; E S_TermB 2 3; E S_TermB 3 4; E S_TermB 2 2;
   E S_TermB 5 7; E S_TermB 2 3; E S_TermB 3 1; E S_TermB 2 2; E S_TermB 4 5; E S_TermB 2 3;
   E S_TermB 3 4; E S_TermB 2 2; E S_TermB 8 13; E S_TermB 2 3; E S_TermB 3 1; E S_TermB 2 2;
   E S_TermB 4 6; E S_TermB 2 3; E S_TermB 3 4; E S_TermB 2 2; E S_TermB 6 8; E S_TermB 2 3;
   E S_TermB 3 1; E S_TermB 2 2; E S_TermB 4 5; E S_TermB 2 3; E S_TermB 3 4; E S_TermB 2 2;
   E S_TermB 9 15; E S_TermB 2 3; E S_TermB 3 1; E S_TermB 2 2; E S_TermB 4 6; E S_TermB 2 3;
   E S_TermB 3 4; E S_TermB 2 2; E S_TermB 5 7; E S_TermB 2 3; E S_TermB 3 1; E S_TermB 2 2;
   E S_TermB 4 5; E S_TermB 2 3; E S_TermB 3 4; E S_TermB 2 2; E S_MakeUpB 13 704; E S_TermB 2 3;
   E S_TermB 3 1; E S_TermB 2 2; E S_TermB 4 6; E S_TermB 2 3; E S_TermB 3 4; E S_TermB 2 2;
   E S_TermB 6 9; E S_TermB 2 3; E S_TermB 3 1; E S_TermB 2 2; E S_TermB 4 5; E S_TermB 2 3;
   E S_TermB 3 4; E S_TermB 2 2; E S_TermB 7 11; E S_TermB 2 3; E S_TermB 3 1; E S_TermB 2 2;
   E S_TermB 4 6; E S_TermB 2 3; E S_TermB 3 4; E S_TermB 2 2; E S_TermB 5 7; E S_TermB 2 3;
   E S_TermB 3 1; E S_TermB 2 2; E S_TermB 4 5; E S_TermB 2 3; E S_TermB 3 4; E S_TermB 2 2;
   E S_TermB 12 49; E S_TermB 2 3; E S_TermB 3 1; E S_TermB 2 2; E S_TermB 4 6; E S_TermB 2 3;
   E S_TermB 3 4; E S_TermB 2 2; E S_TermB 6 8; E S_TermB 2 3; E S_TermB 3 1; E S_TermB 2 2;
   E S_TermB 4 5; E S_TermB 2 3; E S_TermB 3 4; E S_TermB 2 2; E S_TermB 7 12; E S_TermB 2 3;
   E S_TermB 3 1; E S_TermB 2 2; E S_TermB 4 6; E S_TermB 2 3; E S_TermB 3 4; E S_TermB 2 2;
   E S_TermB 5 7; E S_TermB 2 3; E S_TermB 3 1; E S_TermB 2 2; E S_TermB 4 5; E S_TermB 2 3;
   E S_TermB 3 4; E S_TermB 2 2].
Definition t4_1d_black_table_53 : list te :=
  [E S_MakeUp 12 2176; E S_TermB 2 3; E S_TermB 3 1; E S_TermB 2 2; E S_TermB 4 6; E S_TermB 2 3;
   E S_TermB 3 4; E S_TermB 2 2; E S_TermB 6 9; E S_TermB 2 3; E S_TermB 3 1; E S_TermB 2 2;
   E S_TermB 4 5; E S_TermB 2 3; E S_TermB 3 4; E S_TermB 2 2; E S_TermB 7 10; E S_TermB 2 3;
   E S_TermB 3 1; E S_TermB 2 2; E S_TermB 4 6; E S_TermB 2 3; E S_TermB 3 4; E S_TermB 2 2;
   E S_TermB 5 7; E S_TermB 2 3; E S_TermB 3 1; E S_TermB 2 2; E S_TermB 4 5; E S_TermB 2 3;
   E S_TermB 3 4; E S_TermB 2 2; E S_TermB 12 45; E S_TermB 2 3; E S_TermB 3 1; E S_TermB 2 2;
   E S_TermB 4 6; E S_TermB 2 3; E S_TermB 3 4; E S_TermB 2 2; E S_TermB 6 8; E S_TermB 2 3;
   E S_TermB 3 1; E S_TermB 2 2; E S_TermB 4 5; E S_TermB 2 3; E S_TermB 3 4; E S_TermB 2 2;
   E S_TermB 12 37; E S_TermB 2 3; E S_TermB 3 1; E S_TermB 2 2; E S_TermB 4 6; E S_TermB 2 3;
   E S_TermB 3 4; E S_TermB 2 2; E S_TermB 5 7; E S_TermB 2 3; E S_TermB 3 1; E S_TermB 2 2;
   E S_TermB 4 5; E S_TermB 2 3; E S_TermB 3 4; E S_TermB 2 2; E S_MakeUpB 12 448; E S_TermB 2 3;
   E S_TermB 3 1; E S_TermB 2 2; E S_TermB 4 6; E S_TermB 2 3; E S_TermB 3 4; E S_TermB 2 2;
   E S_TermB 6 9; E S_TermB 2 3; E S_TermB 3 1; E S_TermB 2 2; E S_TermB 4 5; E S_TermB 2 3;
   E S_TermB 3 4; E S_TermB 2 2; E S_TermB 7 11; E S_TermB 2 3; E S_TermB 3 1; E S_TermB 2 2;
   E S_TermB 4 6; E S_TermB 2 3; E S_TermB 3 4; E S_TermB 2 2; E S_TermB 5 7; E S_TermB 2 3;
   E S_TermB 3 1; E S_TermB 2 2; E S_TermB 4 5; E S_TermB 2 3; E S_TermB 3 4; E S_TermB 2 2;
   E S_TermB 8 14; E S_TermB 2 3; E S_TermB 3 1; E S_TermB 2 2; E S_TermB 4 6; E S_TermB 2 3;
   E S_TermB 3 4; E S_TermB 2 2; E S_TermB 6 8; E S_TermB 2 3; E S_TermB 3 1; E S_TermB 2 2;
   E S_TermB 4 5; E S_TermB 2 3; E S_TermB 3 4; E S_TermB 2 2; E S_TermB 7 12; E S_TermB 2 3;
   E S_TermB 3 1; E S_TermB 2 2; E S_TermB 4 6; E S_TermB 2 3; E S_TermB 3 4; E S_TermB 2 2;
   E S_TermB 5 7; E S_TermB 2 3; E S_TermB 3 1; E S_TermB 2 2; E S_TermB 4 5; E S_TermB 2 3;
   E S_TermB 3 4; E S_TermB 2 2].
Definition t4_1d_black_table_54 : list te :=
  [E S_Null 1 0; E S_TermB 2 3; E S_TermB 3 1; E S_TermB 2 2; E S_TermB 4 6; E S_TermB 2 3;
   E S_TermB 3 4; E S_TermB 2 2; E S_TermB 6 9; E S_TermB 2 3; E S_TermB 3 1; E S_TermB 2 2;
   E S_TermB 4 5; E S_TermB 2 3; E S_TermB 3 4; E S_TermB 2 2; E S_TermB 7 10; E S_TermB 2 3;
   E S_TermB 3 1; E S_TermB 2 2; E S_TermB 4 6; E S_TermB 2 3; E S_TermB 3 4; E S_TermB 2 2;
   E S_TermB 5 7; E S_TermB 2 3; E S_TermB 3 1; E S_TermB 2 2; E S_TermB 4 5; E S_TermB 2 3;
   E S_TermB 3 4; E S_TermB 2 2; E S_TermB 8 13; E S_TermB 2 3; E S_TermB 3 1; E S_TermB 2 2;
   E S_TermB 4 6; E S_TermB 2 3; E S_TermB 3 4; E S_TermB 2 2; E S_TermB 6 8; E S_TermB 2 3;
   E S_TermB 3 1; E S_TermB 2 2; E S_TermB 4 5; E S_TermB 2 3; E S_TermB 3 4; E S_TermB 2 2;
   E S_TermB 12 29; E S_TermB 2 3; E S_TermB 3 1; E S_TermB 2 2; E S_TermB 4 6; E S_TermB 2 3;
   E S_TermB 3 4; E S_TermB 2 2; E S_TermB 5 7; E S_TermB 2 3; E S_TermB 3 1; E S_TermB 2 2;
   E S_TermB 4 5; E S_TermB 2 3; E S_TermB 3 4; E S_TermB 2 2; E S_MakeUpB 13 1600; E S_TermB 2 3;
   E S_TermB 3 1; E S_TermB 2 2; E S_TermB 4 6; E S_TermB 2 3; E S_TermB 3 4; E S_TermB 2 2;
   E S_TermB 6 9; E S_TermB 2 3; E S_TermB 3 1; E S_TermB 2 2; E S_TermB 4 5; E S_TermB 2 3;
   E S_TermB 3 4; E S_TermB 2 2; E S_TermB 7 11; E S_TermB 2 3; E S_TermB 3 1; E S_TermB 2 2;
   E S_TermB 4 6; E S_TermB 2 3; E S_TermB 3 4; E S_TermB 2 2; E S_TermB 5 7; E S_TermB 2 3;
   E S_TermB 3 1; E S_TermB 2 2; E S_TermB 4 5; E S_TermB 2 3; E S_TermB 3 4; E S_TermB 2 2;
   E S_TermB 12 41; E S_TermB 2 3; E S_TermB 3 1; E S_TermB 2 2; E S_TermB 4 6; E S_TermB 2 3;
   E S_TermB 3 4; E S_TermB 2 2; E S_TermB 6 8; E S_TermB 2 3; E S_TermB 3 1; E S_TermB 2 2;
   E S_TermB 4 5; E S_TermB 2 3; E S_TermB 3 4; E S_TermB 2 2; E S_TermB 7 12; E S_TermB 2 3;
   E S_TermB 3 1; E S_TermB 2 2; E S_TermB 4 6; E S_TermB 2 3; E S_TermB 3 4; E S_TermB 2 2;
   E S_TermB 5 7; E S_TermB 2 3; E S_TermB 3 1; E S_TermB 2 2; E S_TermB 4 5; E S_TermB 2 3;
   E S_TermB 3 4; E S_TermB 2 2].
Definition t4_1d_black_table_55 : list te :=
  [E S_MakeUp 12 2432; E S_TermB 2 3; E S_TermB 3 1; E S_TermB 2 2; E S_TermB 4 6; E S_TermB 2 3;
   E S_TermB 3 4; E S_TermB 2 2; E S_TermB 6 9; E S_TermB 2 3; E S_TermB 3 1; E S_TermB 2 2;
   E S_TermB 4 5; E S_TermB 2 3; E S_TermB 3 4; E S_TermB 2 2; E S_TermB 7 10; E S_TermB 2 3;
   E S_TermB 3 1; E S_TermB 2 2; E S_TermB 4 6; E S_TermB 2 3; E S_TermB 3 4; E S_TermB 2 2;
   E S_TermB 5 7; E S_TermB 2 3; E S_TermB 3 1; E S_TermB 2 2; E S_TermB 4 5; E S_TermB 2 3;
   E S_TermB 3 4; E S_TermB 2 2; E S_TermB 10 16; E S_TermB 2 3; E S_TermB 3 1; E S_TermB 2 2;
   E S_TermB 4 6; E S_TermB 2 3; E S_TermB 3 4; E S_TermB 2 2; E S_TermB 6 8; E S_TermB 2 3;
   E S_TermB 3 1; E S_TermB 2 2; E S_TermB 4 5; E S_TermB 2 3; E S_TermB 3 4; E S_TermB 2 2;
   E S_TermB 10 0; E S_TermB 2 3; E S_TermB 3 1; E S_TermB 2 2; E S_TermB 4 6; E S_TermB 2 3;
   E S_TermB 3 4; E S_TermB 2 2; E S_TermB 5 7; E S_TermB 2 3; E S_TermB 3 1; E S_TermB 2 2;
   E S_TermB 4 5; E S_TermB 2 3; E S_TermB 3 4; E S_TermB 2 2; E S_MakeUpB 10 64; E S_TermB 2 3;
   E S_TermB 3 1; E S_TermB 2 2; E S_TermB 4 6; E S_TermB 2 3; E S_TermB 3 4; E S_TermB 2 2;
   E S_TermB 6 9; E S_TermB 2 3; E S_TermB 3 1; E S_TermB 2 2; E S_TermB 4 5; E S_TermB 2 3;
   E S_TermB 3 4; E S_TermB 2 2; E S_TermB 7 11; E S_TermB 2 3; E S_TermB 3 1; E S_TermB 2 2;
   E S_TermB 4 6; E S_TermB 2 3; E S_TermB 3 4; E S_TermB 2 2; E S_TermB 5 7; E S_TermB 2 3;
   E S_TermB 3 1; E S_TermB 2 2; E S_TermB 4 5; E S_TermB 2 3; E S_TermB 3 4; E S_TermB 2 2;
   E S_TermB 8 14; E S_TermB 2 3; E S_TermB 3 1; E S_TermB 2 2; E S_TermB 4 6; E S_TermB 2 3;
   E S_TermB 3 4; E S_TermB 2 2; E S_TermB 6 8; E S_TermB 2 3; E S_TermB 3 1; E S_TermB 2 2;
   E S_TermB 4 5; E S_TermB 2 3; E S_TermB 3 4; E S_TermB 2 2; E S_TermB 7 12; E S_TermB 2 3;
   E S_TermB 3 1; E S_TermB 2 2; E S_TermB 4 6; E S_TermB 2 3; E S_TermB 3 4; E S_TermB 2 2;
   E S_TermB 5 7; E S_TermB 2 3; E S_TermB 3 1; E S_TermB 2 2; E S_TermB 4 5; E S_TermB 2 3;
   E S_TermB 3 4; E S_TermB 2 2].
Definition t4_1d_black_table_56 : list te :=
  [E S_Null 1 0; E S_TermB 2 3; E S_TermB 3 1; E S_TermB 2 2; E S_TermB 4 6; E S_TermB 2 3;
   E S_TermB 3 4; E S_TermB 2 2; E S_TermB 6 9; E S_TermB 2 3; E S_TermB 3 1; E S_TermB 2 2;
   E S_TermB 4 5; E S_TermB 2 3; E S_TermB 3 4; E S_TermB 2 2; E S_TermB 7 10; E S_TermB 2 3;
   E S_TermB 3 1; E S_TermB 2 2; E S_TermB 4 6; E S_TermB 2 3; E S_TermB 3 4; E S_TermB 2 2;
   E S_TermB 5 7; E S_TermB 2 3; E S_TermB 3 1; E S_TermB 2 2; E S_TermB 4 5; E S_TermB 2 3;
   E S_TermB 3 4; E S_TermB 2 2; E S_TermB 8 13; E S_TermB 2 3; E S_TermB 3 1; E S_TermB 2 2;
   E S_TermB 4 6; E S_TermB 2 3; E S_TermB 3 4; E S_TermB 2 2; E S_TermB 6 8; E S_TermB 2 3;
   E S_TermB 3 1; E S_TermB 2 2; E S_TermB 4 5; E S_TermB 2 3; E S_TermB 3 4; E S_TermB 2 2;
   E S_TermB 9 15; E S_TermB 2 3; E S_TermB 3 1; E S_TermB 2 2; E S_TermB 4 6; E S_TermB 2 3;
   E S_TermB 3 4; E S_TermB 2 2; E S_TermB 5 7; E S_TermB 2 3; E S_TermB 3 1; E S_TermB 2 2;
   E S_TermB 4 5; E S_TermB 2 3; E S_TermB 3 4; E S_TermB 2 2; E S_TermB 10 18; E S_TermB 2 3;
   E S_TermB 3 1; E S_TermB 2 2; E S_TermB 4 6; E S_TermB 2 3; E S_TermB 3 4; E S_TermB 2 2;
   E S_TermB 6 9; E S_TermB 2 3; E S_TermB 3 1; E S_TermB 2 2; E S_TermB 4 5; E S_TermB 2 3;
   E S_TermB 3 4; E S_TermB 2 2; E S_TermB 7 11; E S_TermB 2 3; E S_TermB 3 1; E S_TermB 2 2;
   E S_TermB 4 6; E S_TermB 2 3; E S_TermB 3 4; E S_TermB 2 2; E S_TermB 5 7; E S_TermB 2 3;
   E S_TermB 3 1; E S_TermB 2 2; E S_TermB 4 5; E S_TermB 2 3; E S_TermB 3 4; E S_TermB 2 2;
   E S_TermB 10 17; E S_TermB 2 3; E S_TermB 3 1; E S_TermB 2 2; E S_TermB 4 6; E S_TermB 2 3;
   E S_TermB 3 4; E S_TermB 2 2; E S_TermB 6 8; E S_TermB 2 3; E S_TermB 3 1; E S_TermB 2 2;
   E S_TermB 4 5; E S_TermB 2 3; E S_TermB 3 4; E S_TermB 2 2; E S_TermB 7 12; E S_TermB 2 3;
   E S_TermB 3 1; E S_TermB 2 2; E S_TermB 4 6; E S_TermB 2 3; E S_TermB 3 4; E S_TermB 2 2;
   E S_TermB 5 7; E S_TermB 2 3; E S_TermB 3 1; E S_TermB 2 2; E S_TermB 4 5; E S_TermB 2 3;
   E S_TermB 3 4; E S_TermB 2 2].
Definition t4_1d_black_table_57 : list te :=
  [E S_MakeUp 12 2048; E S_TermB 2 3; E S_TermB 3 1; E S_TermB 2 2; E S_TermB 4 6; E S_TermB 2 3;
   E S_TermB 3 4; E S_TermB 2 2; E S_TermB 6 9; E S_TermB 2 3; E S_TermB 3 1; E S_TermB 2 2;
   E S_TermB 4 5; E S_TermB 2 3; E S_TermB 3 4; E S_TermB 2 2; E S_TermB 7 10; E S_TermB 2 3;
   E S_TermB 3 1; E S_TermB 2 2; E S_TermB 4 6; E S_TermB 2 3; E S_TermB 3 4; E S_TermB 2 2;
   E S_TermB 5 7; E S_TermB 2 3; E S_TermB 3 1; E S_TermB 2 2; E S_TermB 4 5; E S_TermB 2 3;
   E S_TermB 3 4; E S_TermB 2 2; E S_TermB 12 51; E S_TermB 2 3; E S_TermB 3 1; E S_TermB 2 2;
   E S_TermB 4 6; E S_TermB 2 3; E S_TermB 3 4; E S_TermB 2 2; E S_TermB 6 8; E S_TermB 2 3;
   E S_TermB 3 1; E S_TermB 2 2; E S_TermB 4 5; E S_TermB 2 3; E S_TermB 3 4; E S_TermB 2 2;
   E S_TermB 12 35; E S_TermB 2 3; E S_TermB 3 1; E S_TermB 2 2; E S_TermB 4 6; E S_TermB 2 3;
   E S_TermB 3 4; E S_TermB 2 2; E S_TermB 5 7; E S_TermB 2 3; E S_TermB 3 1; E S_TermB 2 2;
   E S_TermB 4 5; E S_TermB 2 3; E S_TermB 3 4; E S_TermB 2 2; E S_MakeUpB 12 320; E S_TermB 2 3;
   E S_TermB 3 1; E S_TermB 2 2; E S_TermB 4 6; E S_TermB 2 3; E S_TermB 3 4; E S_TermB 2 2;
   E S_TermB 6 9; E S_TermB 2 3; E S_TermB 3 1; E S_TermB 2 2; E S_TermB 4 5; E S_TermB 2 3;
   E S_TermB 3 4; E S_TermB 2 2; E S_TermB 7 11; E S_TermB 2 3; E S_TermB 3 1; E S_TermB 2 2;
   E S_TermB 4 6; E S_TermB 2 3; E S_TermB 3 4; E S_TermB 2 2; E S_TermB 5 7; E S_TermB 2 3;
   E S_TermB 3 1; E S_TermB 2 2; E S_TermB 4 5; E S_TermB 2 3; E S_TermB 3 4; E S_TermB 2 2;
   E S_TermB 8 14; E S_TermB 2 3; E S_TermB 3 1; E S_TermB 2 2; E S_TermB 4 6; E S_TermB 2 3;
   E S_TermB 3 4; E S_TermB 2 2; E S_TermB 6 8; E S_TermB 2 3; E S_TermB 3 1; E S_TermB 2 2;
   E S_TermB 4 5; E S_TermB 2 3; E S_TermB 3 4; E S_TermB 2 2; E S_TermB 7 12; E S_TermB 2 3;
   E S_TermB 3 1; E S_TermB 2 2; E S_TermB 4 6; E S_TermB 2 3; E S_TermB 3 4; E S_TermB 2 2;
   E S_TermB 5 7; E S_TermB 2 3; E S_TermB 3 1; E S_TermB 2 2; E S_TermB 4 5; E S_TermB 2 3;
   E S_TermB 3 4; E S_TermB 2 2].
Definition t4_1d_black_table_58 : list te :=
  [E S_Null 1 0; E S_TermB 2 3; E S_TermB 3 1; E S_TermB 2 2; E S_TermB 4 6; E S_TermB 2 3;
   E S_TermB 3 4; E S_TermB 2 2; E S_TermB 6 9; E S_TermB 2 3; E S_TermB 3 1; E S_TermB 2 2;
   E S_TermB 4 5; E S_TermB 2 3; E S_TermB 3 4; E S_TermB 2 2; E S_TermB 7 10; E S_TermB 2 3;
   E S_TermB 3 1; E S_TermB 2 2; E S_TermB 4 6; E S_TermB 2 3; E S_TermB 3 4; E S_TermB 2 2;
   E S_TermB 5 7; E S_TermB 2 3; E S_TermB 3 1; E S_TermB 2 2; E S_TermB 4 5; E S_TermB 2 3;
   E S_TermB 3 4; E S_TermB 2 2; E S_TermB 8 13; E S_TermB 2 3; E S_TermB 3 1; E S_TermB 2 2;
   E S_TermB 4 6; E S_TermB 2 3; E S_TermB 3 4; E S_TermB 2 2; E S_TermB 6 8; E S_TermB 2 3;
   E S_TermB 3 1; E S_TermB 2 2; E S_TermB 4 5; E S_TermB 2 3; E S_TermB 3 4; E S_TermB 2 2;
   E S_TermB 12 27; E S_TermB 2 3; E S_TermB 3 1; E S_TermB 2 2; E S_TermB 4 6; E S_TermB 2 3;
   E S_TermB 3 4; E S_TermB 2 2; E S_TermB 5 7; E S_TermB 2 3; E S_TermB 3 1; E S_TermB 2 2;
   E S_TermB 4 5; E S_TermB 2 3; E S_TermB 3 4; E S_TermB 2 2; E S_TermB 12 59; E S_TermB 2 3;
   E S_TermB 3 1; E S_TermB 2 2; E S_TermB 4 6; E S_TermB 2 3; E S_TermB 3 4; E S_TermB 2 2;
   E S_TermB 6 9; E S_TermB 2 3; E S_TermB 3 1; E S_TermB 2 2; E S_TermB 4 5; E S_TermB 2 3;
   E S_TermB 3 4; E S_TermB 2 2; E S_TermB 7 11; E S_TermB 2 3; E S_TermB 3 1; E S_TermB 2 2;
   E S_TermB 4 6; E S_TermB 2 3; E S_TermB 3 4; E S_TermB 2 2; E S_TermB 5 7; E S_TermB 2 3;
   E S_TermB 3 1; E S_TermB 2 2; E S_TermB 4 5; E S_TermB 2 3; E S_TermB 3 4; E S_TermB 2 2;
   E S_TermB 12 33; E S_TermB 2 3; E S_TermB 3 1; E S_TermB 2 2; E S_TermB 4 6; E S_TermB 2 3;
   E S_TermB 3 4; E S_TermB 2 2; E S_TermB 6 8; E S_TermB 2 3; E S_TermB 3 1; E S_TermB 2 2;
   E S_TermB 4 5; E S_TermB 2 3; E S_TermB 3 4; E S_TermB 2 2; E S_TermB 7 12; E S_TermB 2 3;
   E S_TermB 3 1; E S_TermB 2 2; E S_TermB 4 6; E S_TermB 2 3; E S_TermB 3 4; E S_TermB 2 2;
   E S_TermB 5 7; E S_TermB 2 3; E S_TermB 3 1; E S_TermB 2 2; E S_TermB 4 5; E S_TermB 2 3;
   E S_TermB 3 4; E S_TermB 2 2].
Definition t4_1d_black_table_59 : list te :=
  [E S_MakeUp 11 1920; E S_TermB 2 3; E S_TermB 3 1; E S_TermB 2 2; E S_TermB 4 6; E S_TermB 2 3;
   E S_TermB 3 4; E S_TermB 2 2; E S_TermB 6 9; E S_TermB 2 3; E S_TermB 3 1; E S_TermB 2 2;
   E S_TermB 4 5; E S_TermB 2 3; E S_TermB 3 4; E S_TermB 2 2; E S_TermB 7 10; E S_TermB 2 3;
   E S_TermB 3 1; E S_TermB 2 2; E S_TermB 4 6; E S_TermB 2 3; E S_TermB 3 4; E S_TermB 2 2;
   E S_TermB 5 7; E S_TermB 2 3; E S_TermB 3 1; E S_TermB 2 2; E S_TermB 4 5; E S_TermB 2 3;
   E S_TermB 3 4; E S_TermB 2 2; E S_MakeUpB 12 256; E S_TermB 2 3; E S_TermB 3 1; E S_TermB 2 2;
   E S_TermB 4 6; E S_TermB 2 3; E S_TermB 3 4; E S_TermB 2 2; E S_TermB 6 8; E S_TermB 2 3;
   E S_TermB 3 1; E S_TermB 2 2; E S_TermB 4 5; E S_TermB 2 3; E S_TermB 3 4; E S_TermB 2 2;
   E S_TermB 12 43; E S_TermB 2 3; E S_TermB 3 1; E S_TermB 2 2; E S_TermB 4 6; E S_TermB 2 3;
   E S_TermB 3 4; E S_TermB 2 2; E S_TermB 5 7; E S_TermB 2 3; E S_TermB 3 1; E S_TermB 2 2;
   E S_TermB 4 5; E S_TermB 2 3; E S_TermB 3 4; E S_TermB 2 2; E S_MakeUpB 13 1216; E S_TermB 2 3;
   E S_TermB 3 1; E S_TermB 2 2; E S_TermB 4 6; E S_TermB 2 3; E S_TermB 3 4; E S_TermB 2 2;
   E S_TermB 6 9; E S_TermB 2 3; E S_TermB 3 1; E S_TermB 2 2; E S_TermB 4 5; E S_TermB 2 3;
   E S_TermB 3 4; E S_TermB 2 2; E S_TermB 7 11; E S_TermB 2 3; E S_TermB 3 1; E S_TermB 2 2;
   E S_TermB 4 6; E S_TermB 2 3; E S_TermB 3 4; E S_TermB 2 2; E S_TermB 5 7; E S_TermB 2 3;
   E S_TermB 3 1; E S_TermB 2 2; E S_TermB 4 5; E S_TermB 2 3; E S_TermB 3 4; E S_TermB 2 2;
   E S_TermB 8 14; E S_TermB 2 3; E S_TermB 3 1; E S_TermB 2 2; E S_TermB 4 6; E S_TermB 2 3;
   E S_TermB 3 4; E S_TermB 2 2; E S_TermB 6 8; E S_TermB 2 3; E S_TermB 3 1; E S_TermB 2 2;
   E S_TermB 4 5; E S_TermB 2 3; E S_TermB 3 4; E S_TermB 2 2; E S_TermB 7 12; E S_TermB 2 3;
   E S_TermB 3 1; E S_TermB 2 2; E S_TermB 4 6; E S_TermB 2 3; E S_TermB 3 4; E S_TermB 2 2;
   E S_TermB 5 7; E S_TermB 2 3; E S_TermB 3 1; E S_TermB 2 2; E S_TermB 4 5; E S_TermB 2 3;
   E S_TermB 3 4; E S_TermB 2 2].
Definition t4_1d_black_table_60 : list te :=
  [E S_Null 1 0; E S_TermB 2 3; E S_TermB 3 1; E S_TermB 2 2; E S_TermB 4 6; E S_TermB 2 3;
   E S_TermB 3 4; E S_TermB 2 2; E S_TermB 6 9; E S_TermB 2 3; E S_TermB 3 1; E S_TermB 2 2;
   E S_TermB 4 5; E S_TermB 2 3; E S_TermB 3 4; E S_TermB 2 2; E S_TermB 7 10; E S_TermB 2 3;
   E S_TermB 3 1; E S_TermB 2 2; E S_TermB 4 6; E S_TermB 2 3; E S_TermB 3 4; E S_TermB 2 2;
   E S_TermB 5 7; E S_TermB 2 3; E S_TermB 3 1; E S_TermB 2 2; E S_TermB 4 5; E S_TermB 2 3;
   E S_TermB 3 4; E S_TermB 2 2; E S_TermB 8 13; E S_TermB 2 3; E S_TermB 3 1; E S_TermB 2 2;
   E S_TermB 4 6; E S_TermB 2 3; E S_TermB 3 4; E S_TermB 2 2; E S_TermB 6 8; E S_TermB 2 3;
   E S_TermB 3 1; E S_TermB 2 2; E S_TermB 4 5; E S_TermB 2 3; E S_TermB 3 4; E S_TermB 2 2;
   E S_TermB 9 15; E S_TermB 2 3; E S_TermB 3 1; E S_TermB 2 2; E S_TermB 4 6; E S_TermB 2 3;
   E S_TermB 3 4; E S_TermB 2 2; E S_TermB 5 7; E S_TermB 2 3; E S_TermB 3 1; E S_TermB 2 2;
   E S_TermB 4 5; E S_TermB 2 3; E S_TermB 3 4; E S_TermB 2 2; E S_TermB 12 55; E S_TermB 2 3;
   E S_TermB 3 1; E S_TermB 2 2; E S_TermB 4 6; E S_TermB 2 3; E S_TermB 3 4; E S_TermB 2 2;
   E S_TermB 6 9; E S_TermB 2 3; E S_TermB 3 1; E S_TermB 2 2; E S_TermB 4 5; E S_TermB 2 3;
   E S_TermB 3 4; E S_TermB 2 2; E S_TermB 7 11; E S_TermB 2 3; E S_TermB 3 1; E S_TermB 2 2;
   E S_TermB 4 6; E S_TermB 2 3; E S_TermB 3 4; E S_TermB 2 2; E S_TermB 5 7; E S_TermB 2 3;
   E S_TermB 3 1; E S_TermB 2 2; E S_TermB 4 5; E S_TermB 2 3; E S_TermB 3 4; E S_TermB 2 2;
   E S_TermB 12 63; E S_TermB 2 3; E S_TermB 3 1; E S_TermB 2 2; E S_TermB 4 6; E S_TermB 2 3;
   E S_TermB 3 4; E S_TermB 2 2; E S_TermB 6 8; E S_TermB 2 3; E S_TermB 3 1; E S_TermB 2 2;
   E S_TermB 4 5; E S_TermB 2 3; E S_TermB 3 4; E S_TermB 2 2; E S_TermB 7 12; E S_TermB 2 3;
   E S_TermB 3 1; E S_TermB 2 2; E S_TermB 4 6; E S_TermB 2 3; E S_TermB 3 4; E S_TermB 2 2;
   E S_TermB 5 7; E S_TermB 2 3; E S_TermB 3 1; E S_TermB 2 2; E S_TermB 4 5; E S_TermB 2 3;
   E S_TermB 3 4; E S_TermB 2 2].
Definition t4_1d_black_table_61 : list te :=
  [E S_MakeUp 12 2304; E S_TermB 2 3; E S_TermB 3 1; E S_TermB 2 2; E S_TermB 4 6; E S_TermB 2 3;
   E S_TermB 3 4; E S_TermB 2 2; E S_TermB 6 9; E S_TermB 2 3; E S_TermB 3 1; E S_TermB 2 2;
   E S_TermB 4 5; E S_TermB 2 3; E S_TermB 3 4; E S_TermB 2 2; E S_TermB 7 10; E S_TermB 2 3;
   E S_TermB 3 1; E S_TermB 2 2; E S_TermB 4 6; E S_TermB 2 3; E S_TermB 3 4; E S_TermB 2 2;
   E S_TermB 5 7; E S_TermB 2 3; E S_TermB 3 1; E S_TermB 2 2; E S_TermB 4 5; E S_TermB 2 3;
   E S_TermB 3 4; E S_TermB 2 2; E S_TermB 12 47; E S_TermB 2 3; E S_TermB 3 1; E S_TermB 2 2;
   E S_TermB 4 6; E S_TermB 2 3; E S_TermB 3 4; E S_TermB 2 2; E S_TermB 6 8; E S_TermB 2 3;
   E S_TermB 3 1; E S_TermB 2 2; E S_TermB 4 5; E S_TermB 2 3; E S_TermB 3 4; E S_TermB 2 2;
   E S_TermB 12 39; E S_TermB 2 3; E S_TermB 3 1; E S_TermB 2 2; E S_TermB 4 6; E S_TermB 2 3;
   E S_TermB 3 4; E S_TermB 2 2; E S_TermB 5 7; E S_TermB 2 3; E S_TermB 3 1; E S_TermB 2 2;
   E S_TermB 4 5; E S_TermB 2 3; E S_TermB 3 4; E S_TermB 2 2; E S_TermB 12 53; E S_TermB 2 3;
   E S_TermB 3 1; E S_TermB 2 2; E S_TermB 4 6; E S_TermB 2 3; E S_TermB 3 4; E S_TermB 2 2;
   E S_TermB 6 9; E S_TermB 2 3; E S_TermB 3 1; E S_TermB 2 2; E S_TermB 4 5; E S_TermB 2 3;
   E S_TermB 3 4; E S_TermB 2 2; E S_TermB 7 11; E S_TermB 2 3; E S_TermB 3 1; E S_TermB 2 2;
   E S_TermB 4 6; E S_TermB 2 3; E S_TermB 3 4; E S_TermB 2 2; E S_TermB 5 7; E S_TermB 2 3;
   E S_TermB 3 1; E S_TermB 2 2; E S_TermB 4 5; E S_TermB 2 3; E S_TermB 3 4; E S_TermB 2 2;
   E S_TermB 8 14; E S_TermB 2 3; E S_TermB 3 1; E S_TermB 2 2; E S_TermB 4 6; E S_TermB 2 3;
   E S_TermB 3 4; E S_TermB 2 2; E S_TermB 6 8; E S_TermB 2 3; E S_TermB 3 1; E S_TermB 2 2;
   E S_TermB 4 5; E S_TermB 2 3; E S_TermB 3 4; E S_TermB 2 2; E S_TermB 7 12; E S_TermB 2 3;
   E S_TermB 3 1; E S_TermB 2 2; E S_TermB 4 6; E S_TermB 2 3; E S_TermB 3 4; E S_TermB 2 2;
   E S_TermB 5 7; E S_TermB 2 3; E S_TermB 3 1; E S_TermB 2 2; E S_TermB 4 5; E S_TermB 2 3;
   E S_TermB 3 4; E S_TermB 2 2].
Definition t4_1d_black_table_62 : list te :=
  [E S_Null 1 0; E S_TermB 2 3; E S_TermB 3 1; E S_TermB 2 2; E S_TermB 4 6; E S_TermB 2 3;
   E S_TermB 3 4; E S_TermB 2 2; E S_TermB 6 9; E S_TermB 2 3; E S_TermB 3 1; E S_TermB 2 2;
   E S_TermB 4 5; E S_TermB 2 3; E S_TermB 3 4; E S_TermB 2 2; E S_TermB 7 10; E S_TermB 2 3;
   E S_TermB 3 1; E S_TermB 2 2; E S_TermB 4 6; E S_TermB 2 3; E S_TermB 3 4; E S_TermB 2 2;
   E S_TermB 5 7; E S_TermB 2 3; E S_TermB 3 1; E S_TermB 2 2; E S_TermB 4 5; E S_TermB 2 3;
   E S_TermB 3 4; E S_TermB 2 2; E S_TermB 8 13; E S_TermB 2 3; E S_TermB 3 1; E S_TermB 2 2;
   E S_TermB 4 6; E S_TermB 2 3; E S_TermB 3 4; E S_TermB 2 2; E S_TermB 6 8; E S_TermB 2 3;
   E S_TermB 3 1; E S_TermB 2 2; E S_TermB 4 5; E S_TermB 2 3; E S_TermB 3 4; E S_TermB 2 2;
   E S_TermB 11 19; E S_TermB 2 3; E S_TermB 3 1; E S_TermB 2 2; E S_TermB 4 6; E S_TermB 2 3;
   E S_TermB 3 4; E S_TermB 2 2; E S_TermB 5 7; E S_TermB 2 3; E S_TermB 3 1; E S_TermB 2 2;
   E S_TermB 4 5; E S_TermB 2 3; E S_TermB 3 4; E S_TermB 2 2; E S_TermB 11 24; E S_TermB 2 3;
   E S_TermB 3 1; E S_TermB 2 2; E S_TermB 4 6; E S_TermB 2 3; E S_TermB 3 4; E S_TermB 2 2;
   E S_TermB 6 9; E S_TermB 2 3; E S_TermB 3 1; E S_TermB 2 2; E S_TermB 4 5; E S_TermB 2 3;
   E S_TermB 3 4; E S_TermB 2 2; E S_TermB 7 11; E S_TermB 2 3; E S_TermB 3 1; E S_TermB 2 2;
   E S_TermB 4 6; E S_TermB 2 3; E S_TermB 3 4; E S_TermB 2 2; E S_TermB 5 7; E S_TermB 2 3;
   E S_TermB 3 1; E S_TermB 2 2; E S_TermB 4 5; E S_TermB 2 3; E S_TermB 3 4; E S_TermB 2 2;
   E S_TermB 11 22; E S_TermB 2 3; E S_TermB 3 1; E S_TermB 2 2; E S_TermB 4 6; E S_TermB 2 3;
   E S_TermB 3 4; E S_TermB 2 2; E S_TermB 6 8; E S_TermB 2 3; E S_TermB 3 1; E S_TermB 2 2;
   E S_TermB 4 5; E S_TermB 2 3; E S_TermB 3 4; E S_TermB 2 2; E S_TermB 7 12; E S_TermB 2 3;
   E S_TermB 3 1; E S_TermB 2 2; E S_TermB 4 6; E S_TermB 2 3; E S_TermB 3 4; E S_TermB 2 2;
   E S_TermB 5 7; E S_TermB 2 3; E S_TermB 3 1; E S_TermB 2 2; E S_TermB 4 5; E S_TermB 2 3;
   E S_TermB 3 4; E S_TermB 2 2].
Definition t4_1d_black_table_63 : list te :=
  [E S_MakeUp 12 2560; E S_TermB 2 3; E S_TermB 3 1; E S_TermB 2 2; E S_TermB 4 6; E S_TermB 2 3;
   E S_TermB 3 4; E S_TermB 2 2; E S_TermB 6 9; E S_TermB 2 3; E S_TermB 3 1; E S_TermB 2 2;
   E S_TermB 4 5; E S_TermB 2 3; E S_TermB 3 4; E S_TermB 2 2; E S_TermB 7 10; E S_TermB 2 3;
   E S_TermB 3 1; E S_TermB 2 2; E S_TermB 4 6; E S_TermB 2 3; E S_TermB 3 4; E S_TermB 2 2;
   E S_TermB 5 7; E S_TermB 2 3; E S_TermB 3 1; E S_TermB 2 2; E S_TermB 4 5; E S_TermB 2 3;
   E S_TermB 3 4; E S_TermB 2 2; E S_TermB 10 16; E S_TermB 2 3; E S_TermB 3 1; E S_TermB 2 2;
   E S_TermB 4 6; E S_TermB 2 3; E S_TermB 3 4; E S_TermB 2 2; E S_TermB 6 8; E S_TermB 2 3;
   E S_TermB 3 1; E S_TermB 2 2; E S_TermB 4 5; E S_TermB 2 3; E S_TermB 3 4; E S_TermB 2 2;
   E S_TermB 10 0; E S_TermB 2 3; E S_TermB 3 1; E S_TermB 2 2; E S_TermB 4 6; E S_TermB 2 3;
   E S_TermB 3 4; E S_TermB 2 2; E S_TermB 5 7; E S_TermB 2 3; E S_TermB 3 1; E S_TermB 2 2;
   E S_TermB 4 5; E S_TermB 2 3; E S_TermB 3 4; E S_TermB 2 2; E S_MakeUpB 10 64; E S_TermB 2 3;
   E S_TermB 3 1; E S_TermB 2 2; E S_TermB 4 6; E S_TermB 2 3; E S_TermB 3 4; E S_TermB 2 2;
   E S_TermB 6 9; E S_TermB 2 3; E S_TermB 3 1; E S_TermB 2 2; E S_TermB 4 5; E S_TermB 2 3;
   E S_TermB 3 4; E S_TermB 2 2; E S_TermB 7 11; E S_TermB 2 3; E S_TermB 3 1; E S_TermB 2 2;
   E S_TermB 4 6; E S_TermB 2 3; E S_TermB 3 4; E S_TermB 2 2; E S_TermB 5 7; E S_TermB 2 3;
   E S_TermB 3 1; E S_TermB 2 2; E S_TermB 4 5; E S_TermB 2 3; E S_TermB 3 4; E S_TermB 2 2;
   E S_TermB 8 14; E S_TermB 2 3; E S_TermB 3 1; E S_TermB 2 2; E S_TermB 4 6; E S_TermB 2 3;
   E S_TermB 3 4; E S_TermB 2 2; E S_TermB 6 8; E S_TermB 2 3; E S_TermB 3 1; E S_TermB 2 2;
   E S_TermB 4 5; E S_TermB 2 3; E S_TermB 3 4; E S_TermB 2 2; E S_TermB 7 12; E S_TermB 2 3;
   E S_TermB 3 1; E S_TermB 2 2; E S_TermB 4 6; E S_TermB 2 3; E S_TermB 3 4; E S_TermB 2 2;
   E S_TermB 5 7; E S_TermB 2 3; E S_TermB 3 1; E S_TermB 2 2; E S_TermB 4 5; E S_TermB 2 3;
   E S_TermB 3 4; E S_TermB 2 2].
(** src/t4_t6_decode_states.h:4288-12482 *)
Definition t4_1d_black_table : list te :=
  concat [t4_1d_black_table_0; t4_1d_black_table_1; t4_1d_black_table_2; t4_1d_black_table_3; t4_1d_black_table_4; t4_1d_black_table_5; t4_1d_black_table_6; t4_1d_black_table_7; t4_1d_black_table_8; t4_1d_black_table_9; t4_1d_black_table_10; t4_1d_black_table_11; t4_1d_black_table_12; t4_1d_black_table_13; t4_1d_black_table_14; t4_1d_black_table_15; t4_1d_black_table_16; t4_1d_black_table_17; t4_1d_black_table_18; t4_1d_black_table_19; t4_1d_black_table_20; t4_1d_black_table_21; t4_1d_black_table_22; t4_1d_black_table_23; t4_1d_black_table_24; t4_1d_black_table_25; t4_1d_black_table_26; t4_1d_black_table_27; t4_1d_black_table_28; t4_1d_black_table_29; t4_1d_black_table_30; t4_1d_black_table_31; t4_1d_black_table_32; t4_1d_black_table_33; t4_1d_black_table_34; t4_1d_black_table_35; t4_1d_black_table_36; t4_1d_black_table_37; t4_1d_black_table_38; t4_1d_black_table_39; t4_1d_black_table_40; t4_1d_black_table_41; t4_1d_black_table_42; t4_1d_black_table_43; t4_1d_black_table_44; t4_1d_black_table_45; t4_1d_black_table_46; t4_1d_black_table_47; t4_1d_black_table_48; t4_1d_black_table_49; t4_1d_black_table_50; t4_1d_black_table_51; t4_1d_black_table_52; t4_1d_black_table_53; t4_1d_black_table_54; t4_1d_black_table_55; t4_1d_black_table_56; t4_1d_black_table_57; t4_1d_black_table_58; t4_1d_black_table_59; t4_1d_black_table_60; t4_1d_black_table_61; t4_1d_black_table_62; t4_1d_black_table_63].
