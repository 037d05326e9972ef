(* The end-to-end unit tests of the crate, run on the model with the executable libm of SoftLibm.v. They compare the model with the code; they are
   tests, not proofs. *)
From Coq Require Import ZArith List Bool.
From Verif Require Import Base Config Buffers Scalar DecSignal F32 EncF32 Decoder Encoder SoftLibm.
Import ListNotations.
Local Open Scope Z_scope.

Definition test_ops : ops f32 := f32_ops soft_libm.
Definition test_eops := f32_eops soft_elibm.
Definition test_target : target := mkTarget true (2 ^ 64 - 1).

(* encoder/lc3_encoder.rs:314-367 *)
Definition enc_samples : list Z :=
  [836; 739; 638; 510; 352; 200; 72; (-56); (-177); (-297); (-416); (-520); (-623); (-709); (-791); (-911); (-1062); (-1199); (-1298); (-1375); (-1433); (-1484); (-1548); 
   (-1603); (-1648); (-1687); (-1724); (-1744); (-1730); (-1699); (-1650); (-1613); (-1594); (-1563); (-1532); (-1501); (-1473); (-1441); (-1409); (-1393); (-1355); 
   (-1280); (-1201); (-1118); (-1032); (-953); (-860); (-741); (-613); (-477); (-355); (-261); (-168); (-80); (-8); 57; 127; 217; 296; 347; 385; 413; 456; 517; 575; 640; 
   718; 806; 888; 963; 1041; 1080; 1081; 1083; 1072; 1062; 1067; 1056; 1035; 1019; 999; 964; 934; 909; 876; 854; 835; 813; 795; 781; 783; 772; 750; 747; 728; 713; 726; 716; 
   680; 638; 580; 516; 451; 393; 351; 307; 244; 161; 79; 18; (-45); (-123); (-215); (-301); (-389); (-512); (-644); (-764); (-888); (-1006); (-1126); (-1253); (-1378); 
   (-1500); (-1614); (-1716); (-1813); (-1926); (-2051); (-2176); (-2301); (-2416); (-2514); (-2595); (-2680); (-2783); (-2883); (-2977); (-3068); (-3163); (-3262); 
   (-3341); (-3381); (-3392); (-3392); (-3379); (-3368); (-3353); (-3318); (-3292); (-3244); (-3169); (-3109); (-3049); (-2989); (-2922); (-2844); (-2790); (-2743); 
   (-2672); (-2588); (-2490); (-2371); (-2222); (-2046); (-1861); (-1695); (-1546); (-1384); (-1214); (-1058); (-913); (-761); (-602); (-441); (-280); (-124); 24; 169; 302; 
   421; 546; 661; 738; 796; 851; 924; 1055; 1227; 1412; 1588; 1707; 1787; 1853; 1905; 1963; 2015; 2048; 2072; 2082; 2093; 2099; 2095; 2097; 2086; 2063; 2060; 2069; 2052; 
   2012; 1977; 1956; 1948; 1918; 1843; 1748; 1641; 1533; 1435; 1342; 1252; 1163; 1081; 1024; 989; 962; 937; 911; 879; 841; 769; 657; 541; 445; 365; 289; 202; 104; (-4); 
   (-119); (-245); (-381); (-523); (-655); (-770); (-874); (-957); (-1017); (-1069); (-1118); (-1173); (-1256); (-1370); (-1497); (-1629); (-1745); (-1827); (-1882); 
   (-1934); (-2021); (-2115); (-2165); (-2196); (-2230); (-2258); (-2282); (-2302); (-2320); (-2332); (-2340); (-2344); (-2338); (-2313); (-2269); (-2215); (-2152); 
   (-2072); (-1978); (-1885); (-1793); (-1704); (-1621); (-1528); (-1419); (-1310); (-1213); (-1116); (-1014); (-914); (-820); (-736); (-656); (-578); (-514); (-445); 
   (-358); (-276); (-206); (-136); (-62); 0; 56; 124; 190; 253; 316; 379; 458; 552; 630; 686; 725; 735; 709; 661; 612; 572; 538; 507; 476; 453; 448; 453; 444; 415; 370; 
   316; 257; 203; 159; 125; 107; 114; 137; 162; 181; 189; 186; 166; 145; 145; 154; 154; 161; 184; 200; 217; 254; 294; 325; 332; 320; 302; 286; 273; 260; 266; 294; 297; 274; 
   251; 221; 170; 100; 29; (-31); (-82); (-134); (-187); (-232); (-278); (-347); (-426); (-490); (-548); (-613); (-677); (-727); (-755); (-769); (-770); (-757); (-741); 
   (-729); (-713); (-684); (-659); (-647); (-631); (-606); (-588); (-585); (-577); (-555); (-534); (-527); (-528); (-513); (-480); (-456); (-440); (-415); (-382); (-333); 
   (-244); (-132); (-32); 47; 130; 225; 308; 383; 460; 533; 607; 687; 757; 817; 889; 977; 1038; 1064; 1100; 1165; 1250; 1349; 1456; 1563; 1665; 1755; 1829; 1890; 1935; 
   1973; 2008; 2033; 2044; 2054; 2076; 2106; 2125; 2115; 2097; 2092; 2093; 2082; 2067; 2068; 2095; 2135; 2169; 2193; 2213; 2219; 2202; 2163; 2101; 2033; 1992; 1985; 1990; 
   1986; 1978; 1977; 1976; 1969; 1959; 1956; 1960; 1955; 1930; 1907; 1884; 1844; 1790; 1733; 1687; 1649; 1611; 1586].
Definition enc_bytes : list Z :=
  [230; 243; 160; 169; 152; 75; 36; 156; 223; 96; 241; 214; 150; 248; 180; 106; 115; 92; 147; 213; 56; 100; 96; 52; 194; 178; 44; 31; 222; 246; 83; 116; 240; 220; 40; 241; 
   82; 228; 209; 57; 128; 152; 9; 144; 112; 249; 48; 46; 135; 182; 250; 59; 135; 221; 129; 46; 204; 178; 232; 100; 172; 27; 177; 120; 86; 253; 35; 137; 19; 253; 191; 202; 
   97; 240; 10; 45; 124; 110; 234; 149; 49; 115; 209; 177; 153; 231; 93; 211; 214; 19; 127; 143; 103; 47; 239; 86; 73; 91; 231; 94; 248; 143; 54; 54; 190; 51; 47; 136; 92; 
   157; 13; 226; 13; 96; 104; 159; 17; 206; 66; 25; 157; 51; 5; 252; 166; 135; 213; 118; 107; 152; 226; 253; 51; 136; 74; 186; 52; 64; 236; 152; 115; 0; 29; 23; 247; 3; 20; 
   124; 21; 116].
Definition test_encode (d : duration) (f : freq) (frames : list (list Z)) (bytes : Z) : res (list (list Z)) :=
  '(ni, ns, nx) <- enc_lens 1 d f ;;
  let z := f32_of_Z 0 in
  en <- encoder_new test_ops 1 d f (repeat 0 (Z.to_nat ni)) (repeat z (Z.to_nat ns)) (repeat (z, z) (Z.to_nat nx)) ;;
  '(_, out) <- fold_left (fun s x => '(en, out) <- s ;; '(en, buf) <- encode_call test_ops test_eops test_target en 0 x (repeat 0 (Z.to_nat bytes)) ;; Ok (en, out ++ [buf])) frames (Ok (en, [])) ;;
  Ok out.
(* evaluated here and stored as a boolean: the run is too long for the checker, which has no virtual machine *)
Definition agrees (r : res (list (list Z))) (l : list (list Z)) : bool :=
  match r with Ok out => forallb (fun '(a, b) => (len a =? len b) && forallb (fun '(x, y) => x =? y) (combine a b)) (combine out l) && (len out =? len l) | _ => false end.
Definition lc3_encode_channel : bool := Eval vm_compute in agrees (test_encode TenMs Hz48000 [enc_samples] 150) [enc_bytes].
Example lc3_encode_channel_passes : lc3_encode_channel = true.
Proof. reflexivity. Qed.

(* decoder/lc3_decoder.rs:374-432 *)
Definition dec_bytes : list Z :=
  [187; 56; 111; 155; 76; 236; 70; 99; 10; 135; 219; 76; 176; 3; 108; 203; 131; 111; 206; 221; 195; 25; 96; 240; 18; 202; 163; 241; 109; 142; 198; 122; 176; 70; 37; 6; 35; 
   190; 110; 184; 251; 162; 71; 7; 151; 58; 42; 79; 200; 192; 99; 157; 234; 156; 245; 43; 84; 64; 167; 32; 52; 106; 43; 75; 4; 102; 213; 123; 168; 120; 213; 252; 208; 118; 
   78; 115; 154; 158; 157; 26; 152; 231; 121; 146; 203; 11; 169; 227; 75; 154; 237; 154; 227; 145; 196; 182; 207; 94; 95; 26; 184; 248; 1; 118; 72; 47; 18; 205; 56; 96; 
   195; 139; 216; 240; 113; 233; 44; 198; 245; 157; 139; 70; 162; 182; 139; 136; 165; 68; 79; 247; 161; 126; 17; 135; 36; 30; 229; 24; 196; 2; 5; 65; 111; 80; 124; 168; 70; 
   156; 198; 60].
Definition dec_samples : list Z :=
  [0; 1; 1; 1; 0; (-1); (-2); (-3); (-5); (-7); (-9); (-10); (-11); (-11); (-9); (-6); (-1); 4; 13; 24; 37; 53; 71; 91; 107; 122; 138; 148; 153; 153; 148; 140; 128; 114; 
   102; 90; 82; 80; 80; 86; 97; 108; 121; 135; 152; 166; 185; 204; 221; 245; 263; 276; 291; 287; 271; 251; 212; 161; 100; 33; (-34); (-108); (-181); (-250); (-310); (-351); 
   (-391); (-416); (-413); (-414); (-405); (-383); (-373); (-355); (-336); (-323); (-303); (-285); (-270); (-255); (-240); (-237); (-251); (-271); (-315); (-379); (-451); 
   (-541); (-631); (-712); (-787); (-841); (-872); (-875); (-838); (-793); (-726); (-615); (-499); (-381); (-268); (-164); (-59); 22; 96; 163; 217; 252; 254; 261; 238; 190; 
   149; 90; 34; (-26); (-62); (-88); (-126); (-119); (-119); (-100); (-61); (-31); 36; 65; 107; 153; 146; 185; 194; 180; 192; 185; 195; 188; 196; 213; 210; 226; 246; 291; 
   325; 371; 437; 466; 534; 586; 609; 658; 663; 660; 629; 547; 471; 336; 143; (-59); (-288); (-532); (-760); (-983); (-1161); (-1289); (-1401); (-1453); (-1463); (-1431); 
   (-1346); (-1249); (-1109); (-952); (-786); (-607); (-451); (-292); (-165); (-51); 58; 117; 192; 236; 233; 241; 225; 214; 199; 177; 186; 189; 209; 248; 263; 289; 312; 
   322; 327; 299; 257; 201; 125; 38; (-72); (-174); (-269); (-366); (-454); (-521); (-555); (-593); (-591); (-554); (-534); (-466); (-399); (-338); (-250); (-189); (-108); 
   (-40); 19; 115; 197; 289; 380; 484; 596; 678; 772; 850; 914; 969; 994; 1033; 1071; 1117; 1174; 1231; 1291; 1344; 1401; 1429; 1449; 1456; 1408; 1357; 1255; 1102; 950; 
   752; 531; 301; 52; (-183); (-416); (-636); (-818); (-971); (-1092); (-1171); (-1205); (-1190); (-1128); (-1036); (-909); (-754); (-594); (-420); (-233); (-67); 75; 203; 
   300; 347; 370; 363; 291; 206; 97; (-45); (-158); (-296); (-434); (-536); (-644); (-705); (-740); (-771); (-776); (-796); (-811); (-839); (-879); (-876); (-834); (-780); 
   (-726); (-671); (-654); (-665); (-697); (-750); (-770); (-807); (-841); (-821); (-800); (-727); (-592); (-408); (-131); 163; 431; 649; 789; 928; 1073; 1220; 1405; 1543; 
   1615; 1646; 1599; 1525; 1449; 1391; 1392; 1453; 1574; 1663; 1714; 1716; 1657; 1665; 1680; 1691; 1745; 1772; 1795; 1788; 1766; 1721; 1622; 1541; 1433; 1335; 1264; 1200; 
   1204; 1200; 1216; 1266; 1291; 1364; 1484; 1626; 1779; 1943; 2096; 2211; 2333; 2450; 2541; 2613; 2656; 2664; 2680; 2713; 2737; 2807; 2839; 2815; 2778; 2662; 2564; 2475; 
   2405; 2441; 2508; 2646; 2776; 2832; 2869; 2843; 2814; 2789; 2786; 2815; 2829; 2899; 2963; 2994; 3007; 2944; 2846; 2728; 2625; 2556; 2495; 2479; 2459; 2399; 2285; 2089; 
   1879; 1689; 1533; 1498; 1556; 1667; 1817; 1929; 2020; 2052; 2031; 2026; 1927; 1769; 1546; 1234; 947; 633; 349; 107; (-156); (-372); (-563); (-698); (-784); (-830); 
   (-828); (-870); (-934); (-1060); (-1257); (-1491); (-1747); (-1956); (-2120); (-2175); (-2178); (-2164); (-2072); (-1994); (-1873); (-1727); (-1603); (-1451); (-1341); 
   (-1245); (-1193); (-1172); (-1139); (-1138); (-1080); (-980); (-853); (-684); (-529); (-397); (-328); (-312); (-387); (-564); (-784); (-1066); (-1359); (-1629); (-1854); 
   (-2020); (-2164); (-2266); (-2337); (-2388); (-2406); (-2382); (-2338); (-2307); (-2263); (-2233)].
Definition test_decode (d : duration) (f : freq) (frames : list (list Z)) : res (list (list Z)) :=
  '(ns, nx) <- dec_lens 1 d f ;;
  let z := f32_of_Z 0 in
  de <- decoder_new test_ops 1 d f (repeat z (Z.to_nat ns)) (repeat (z, z) (Z.to_nat nx)) ;;
  '(_, out) <- fold_left (fun s b => '(de, out) <- s ;; '(_, de, x) <- decode_frame test_ops test_target de 16 0 b (repeat 0 (Z.to_nat (nf (config_new f d)))) ;; Ok (de, out ++ [x])) frames (Ok (de, [])) ;;
  Ok out.
Definition lc3_decode_channel : bool := Eval vm_compute in agrees (test_decode TenMs Hz48000 [dec_bytes]) [dec_samples].
Example lc3_decode_channel_passes : lc3_decode_channel = true.
Proof. reflexivity. Qed.
