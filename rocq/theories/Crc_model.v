(** Model of src/crc.c (ITU-T CRC-16 and CRC-32). *)
From Verif Require Import Base.

(** src/crc.c:45-79 *)
Definition crc_itu32_table : list Z :=
  [0; 1996959894; 3993919788; 2567524794; 124634137; 1886057615; 3915621685; 2657392035; 249268274; 2044508324; 3772115230; 2547177864;
   162941995; 2125561021; 3887607047; 2428444049; 498536548; 1789927666; 4089016648; 2227061214; 450548861; 1843258603; 4107580753; 2211677639;
   325883990; 1684777152; 4251122042; 2321926636; 335633487; 1661365465; 4195302755; 2366115317; 997073096; 1281953886; 3579855332; 2724688242;
   1006888145; 1258607687; 3524101629; 2768942443; 901097722; 1119000684; 3686517206; 2898065728; 853044451; 1172266101; 3705015759; 2882616665;
   651767980; 1373503546; 3369554304; 3218104598; 565507253; 1454621731; 3485111705; 3099436303; 671266974; 1594198024; 3322730930; 2970347812;
   795835527; 1483230225; 3244367275; 3060149565; 1994146192; 31158534; 2563907772; 4023717930; 1907459465; 112637215; 2680153253; 3904427059;
   2013776290; 251722036; 2517215374; 3775830040; 2137656763; 141376813; 2439277719; 3865271297; 1802195444; 476864866; 2238001368; 4066508878;
   1812370925; 453092731; 2181625025; 4111451223; 1706088902; 314042704; 2344532202; 4240017532; 1658658271; 366619977; 2362670323; 4224994405;
   1303535960; 984961486; 2747007092; 3569037538; 1256170817; 1037604311; 2765210733; 3554079995; 1131014506; 879679996; 2909243462; 3663771856;
   1141124467; 855842277; 2852801631; 3708648649; 1342533948; 654459306; 3188396048; 3373015174; 1466479909; 544179635; 3110523913; 3462522015;
   1591671054; 702138776; 2966460450; 3352799412; 1504918807; 783551873; 3082640443; 3233442989; 3988292384; 2596254646; 62317068; 1957810842;
   3939845945; 2647816111; 81470997; 1943803523; 3814918930; 2489596804; 225274430; 2053790376; 3826175755; 2466906013; 167816743; 2097651377;
   4027552580; 2265490386; 503444072; 1762050814; 4150417245; 2154129355; 426522225; 1852507879; 4275313526; 2312317920; 282753626; 1742555852;
   4189708143; 2394877945; 397917763; 1622183637; 3604390888; 2714866558; 953729732; 1340076626; 3518719985; 2797360999; 1068828381; 1219638859;
   3624741850; 2936675148; 906185462; 1090812512; 3747672003; 2825379669; 829329135; 1181335161; 3412177804; 3160834842; 628085408; 1382605366;
   3423369109; 3138078467; 570562233; 1426400815; 3317316542; 2998733608; 733239954; 1555261956; 3268935591; 3050360625; 752459403; 1541320221;
   2607071920; 3965973030; 1969922972; 40735498; 2617837225; 3943577151; 1913087877; 83908371; 2512341634; 3803740692; 2075208622; 213261112;
   2463272603; 3855990285; 2094854071; 198958881; 2262029012; 4057260610; 1759359992; 534414190; 2176718541; 4139329115; 1873836001; 414664567;
   2282248934; 4279200368; 1711684554; 285281116; 2405801727; 4167216745; 1634467795; 376229701; 2685067896; 3608007406; 1308918612; 956543938;
   2808555105; 3495958263; 1231636301; 1047427035; 2932959818; 3654703836; 1088359270; 936918000; 2847714899; 3736837829; 1202900863; 817233897;
   3183342108; 3401237130; 1404277552; 615818150; 3134207493; 3453421203; 1423857449; 601450431; 3009837614; 3294710456; 1567103746; 711928724;
   3020668471; 3272380065; 1510334235; 755167117].

(** src/crc.c:125-159 *)
Definition crc_itu16_table : list Z :=
  [0; 4489; 8978; 12955; 17956; 22445; 25910; 29887; 35912; 40385; 44890; 48851;
   51820; 56293; 59774; 63735; 4225; 264; 13203; 8730; 22181; 18220; 30135; 25662;
   40137; 36160; 49115; 44626; 56045; 52068; 63999; 59510; 8450; 12427; 528; 5017;
   26406; 30383; 17460; 21949; 44362; 48323; 36440; 40913; 60270; 64231; 51324; 55797;
   12675; 8202; 4753; 792; 30631; 26158; 21685; 17724; 48587; 44098; 40665; 36688;
   64495; 60006; 55549; 51572; 16900; 21389; 24854; 28831; 1056; 5545; 10034; 14011;
   52812; 57285; 60766; 64727; 34920; 39393; 43898; 47859; 21125; 17164; 29079; 24606;
   5281; 1320; 14259; 9786; 57037; 53060; 64991; 60502; 39145; 35168; 48123; 43634;
   25350; 29327; 16404; 20893; 9506; 13483; 1584; 6073; 61262; 65223; 52316; 56789;
   43370; 47331; 35448; 39921; 29575; 25102; 20629; 16668; 13731; 9258; 5809; 1848;
   65487; 60998; 56541; 52564; 47595; 43106; 39673; 35696; 33800; 38273; 42778; 46739;
   49708; 54181; 57662; 61623; 2112; 6601; 11090; 15067; 20068; 24557; 28022; 31999;
   38025; 34048; 47003; 42514; 53933; 49956; 61887; 57398; 6337; 2376; 15315; 10842;
   24293; 20332; 32247; 27774; 42250; 46211; 34328; 38801; 58158; 62119; 49212; 53685;
   10562; 14539; 2640; 7129; 28518; 32495; 19572; 24061; 46475; 41986; 38553; 34576;
   62383; 57894; 53437; 49460; 14787; 10314; 6865; 2904; 32743; 28270; 23797; 19836;
   50700; 55173; 58654; 62615; 32808; 37281; 41786; 45747; 19012; 23501; 26966; 30943;
   3168; 7657; 12146; 16123; 54925; 50948; 62879; 58390; 37033; 33056; 46011; 41522;
   23237; 19276; 31191; 26718; 7393; 3432; 16371; 11898; 59150; 63111; 50204; 54677;
   41258; 45219; 33336; 37809; 27462; 31439; 18516; 23005; 11618; 15595; 3696; 8185;
   63375; 58886; 54429; 50452; 45483; 40994; 37561; 33584; 31687; 27214; 22741; 18780;
   15843; 11370; 7921; 3960].

(** Table look-up; every index used below is masked with 0xFF, so it is inside the table. *)
Definition tab (t : list Z) (i : Z) : Z := nth (Z.to_nat i) t 0.

(** src/crc.c:86 - loop body of crc_itu32_calc/append/check *)
Definition crc_itu32_step (crc b : Z) : Z :=
  Z.lxor (Z.land (Z.shiftr crc 8) 0x00FFFFFF) (tab crc_itu32_table (Z.land (Z.lxor crc b) 0xFF)).

(** src/crc.c:81-89 crc_itu32_calc.  [buf] is the octets 0..len-1 of the C buffer. *)
Definition crc_itu32_calc (buf : list Z) (crc : Z) : Z := fold_left crc_itu32_step buf crc.

(** src/crc.c:92-109 crc_itu32_append.  [mem] is the whole caller buffer, [len] the message
    length; the result is the new buffer contents and the returned length. *)
Definition crc_itu32_append (mem : list Z) (len : Z) : res (list Z * Z) :=
  do m <- aslice mem 0 len;
  let crc := Z.lxor (fold_left crc_itu32_step m 0xFFFFFFFF) 0xFFFFFFFF in
  let i := Z.max 0 len in
  do mem <- aset mem i (u8 crc);
  do mem <- aset mem (i + 1) (u8 (Z.shiftr crc 8));
  do mem <- aset mem (i + 2) (u8 (Z.shiftr crc 16));
  do mem <- aset mem (i + 3) (u8 (Z.shiftr crc 24));
  Ok (mem, len + 4).

(** src/crc.c:112-122 crc_itu32_check *)
Definition crc_itu32_check (mem : list Z) (len : Z) : res bool :=
  do m <- aslice mem 0 len;
  Ok (fold_left crc_itu32_step m 0xFFFFFFFF =? 0xDEBB20E3).

(** src/crc.c:166 - loop body of crc_itu16_calc/append/check (crc is uint16_t) *)
Definition crc_itu16_step (crc b : Z) : Z :=
  Z.lxor (Z.shiftr crc 8) (tab crc_itu16_table (Z.land (Z.lxor crc b) 0xFF)).

(** src/crc.c:161-169 crc_itu16_calc *)
Definition crc_itu16_calc (buf : list Z) (crc : Z) : Z := fold_left crc_itu16_step buf crc.

(** src/crc.c:172-187 crc_itu16_bits.  [len] as nat: a negative C len runs the loop zero times.
    After 8 iterations the (uint8_t) buf is 0, as in the C code. *)
Fixpoint crc_itu16_bits (buf : Z) (len : nat) (crc : Z) : Z :=
  match len with
  | O => crc
  | S k =>
    let crc' := if Z.odd (Z.land (Z.lxor buf crc) 1) then Z.lxor (Z.shiftr crc 1) 0x8408
                else Z.shiftr crc 1 in
    crc_itu16_bits (Z.shiftr buf 1) k crc'
  end.

(** src/crc.c:190-205 crc_itu16_append *)
Definition crc_itu16_append (mem : list Z) (len : Z) : res (list Z * Z) :=
  do m <- aslice mem 0 len;
  let crc := Z.lxor (fold_left crc_itu16_step m 0xFFFF) 0xFFFF in
  let i := Z.max 0 len in
  do mem <- aset mem i (u8 crc);
  do mem <- aset mem (i + 1) (u8 (Z.shiftr crc 8));
  Ok (mem, len + 2).

(** src/crc.c:208-218 crc_itu16_check *)
Definition crc_itu16_check (mem : list Z) (len : Z) : res bool :=
  do m <- aslice mem 0 len;
  Ok (Z.land (fold_left crc_itu16_step m 0xFFFF) 0xFFFF =? 0xF0B8).
