(* Two frames of 16 bit audio whose second one the encoder codes into one bit more than the frame has. *)
From Coq Require Import ZArith Lia List Bool.
From Verif Require Import Base Config Buffers Scalar EncScalar EncF32 Fixed DecSignal Decoder Encoder FrameDec EncMdct EncRun EncCheck F32 SoftLibm.
Import ListNotations.
Local Open Scope Z_scope.

Definition over_x1 : list Z :=
  [0; 0; 0; 0; 0; 0; 0; 0; 0; 0; 0; 0; 0; 0; 0; 0; 0; 0; 0; 0; 0; 0; 0; 0;
   0; 0; 0; 0; 0; 0; 0; 0; 0; 0; 0; 0; 0; 0; 0; 0; 0; 0; 0; 0; 0; 0; 0; 0;
   0; 0; 0; 0; 0; 0; 0; 0; 0; 0; 0; 0; 0; 0; 0; 0; 0; 0; 0; 0; 0; 0; 0; 0;
   0; 0; 0; 0; 0; 0; 0; 0; 0; 0; 0; 0; 0; 0; 0; 0; 0; 0; 0; 0; 0; 0; 0; 0;
   0; 0; 0; 0; 0; 0; 0; 0; 0; 0; 0; 0; 0; 0; 0; 0; 0; 0; 0; 0; 0; 0; 0; 0;
   0; 0; 0; 0; 0; 0; 0; 0; 0; 0; 0; 0; 0; 0; 0; 0; 0; 0; 0; 0; 0; 0; 0; 0;
   0; 0; 0; 0; 0; 0; 0; 0; 0; 0; 0; 0; 0; 0; 0; 0; 0; 0; 0; 0; 0; 0; 0; 0;
   0; 0; 0; 0; 0; 0; 0; 0; 0; 0; 0; 0; 1; (-2); (-2); 1; (-1); (-3); 2; (-3); (-4); 9; (-2); 0;
   5; (-6); 5; (-3); (-10); (-9); 24; 27; (-45); (-3); 29; 29; 30; (-46); (-5); 5; 20; 35; (-64); 57; 35; (-140); 30; 153;
   (-33); (-97); (-9); (-3); 129; (-106); (-234); 246; (-42); (-109); 140; (-192); 177; 37; (-286); 295; (-25); (-220); 170; (-73); (-32); 163; (-211); (-230);
   246; 76; (-313); 206; 536; (-181); (-158); 274; (-263); 152; 514; (-568); (-363); 400; (-206); (-435); 114; (-268); (-137); 660; (-221); (-229); 373; (-301);
   131; 408; (-183); (-168); 167; 171; 89; 385; (-193); (-311); (-35); (-217); 520; 8; (-363); 83; (-243); 174; (-25); 146; 433; (-480); (-448); (-141);
   319; 439; 380; (-131); (-969); 91; (-5); (-54); 485; (-480); 220; 42; (-401); 327; (-101); 300; (-98); (-279); 320; (-372); 56; 165; (-84); (-26);
   (-521); 83; 375; 9; (-14); (-87); (-123); (-47); 207; (-44); (-118); 109; (-26); 20; (-77); (-63); 82; 4; 10; (-6); (-25); 0; 0; (-69);
   (-18); (-118); 3; 342; 48; 7; (-225); (-282); 368; (-172); (-453); 63; 228; 459; (-354); (-867); 543; 524; (-548); 35; (-220); (-109); 894; 489;
   628; (-29); 62; 93; (-1975); (-2); 1126; (-666); (-716); 11; 1416; 167; (-5); 1; (-1617); 972; 537; (-951); (-873); (-905); 2177; 892; (-278); 101;
   (-285); 2547; (-1173); (-3656); 1160; 858; (-478); 869; 555; (-204); (-837); (-1144); 909; (-460); (-184); 3472; (-3209); (-2300); 3209; (-2764); (-663); 621; 1287; 3860;
   (-4181); (-1076); 3277; (-2487); (-940); 1081; 1814; 478; (-2311); 1127; 2813; 693; (-700); (-2896); (-1182); 2472; (-522); (-2017); (-1226); 1087; 2932; (-3938); 1319; 5227;
   (-4922); (-1674); (-825); 898; 3820; (-4527); 3311; 4718; (-5212); 282; 720; (-1454); 1872; 1400; 349; (-969); (-1555); 875; (-1607); (-2224); 7180; 2361; (-5253); 603;
   (-219); 618; (-2038); (-5109); 2183; 2163; 2424; (-1409); (-2625); 4501; (-3); 14; (-510); (-4470); (-35); 2419; 2327; (-4079); 8; 7702; (-377); (-263); 126; (-2875)].
Definition over_x2 : list Z :=
  [(-2336); (-4471); 571; 1206; (-204); 3320; (-3345); (-3656); 6183; 2675; (-3688); (-1955); (-578); 4465; 1830; (-4231); 3526; 3079; (-111); (-796); (-6423); (-63); 2882; 530;
   2373; 14; (-4); 2040; 873; (-6041); 1137; 9735; (-4816); (-4341); 887; (-986); 3516; (-3361); (-1120); 4812; (-995); (-2446); (-1611); (-245); 157; 5874; 1246; (-7474);
   (-359); (-1110); 2117; 702; (-4489); 3755; (-3196); (-1095); 3288; (-1087); 3441; (-4145); 429; 2199; (-4739); 4734; (-519); (-49); 857; (-9062); (-1213); 3499; 4023; 2909;
   (-1273); (-4041); (-4314); 3889; 1304; (-225); 1559; (-2176); 746; (-3253); 75; 4683; (-1961); (-317); (-2834); (-1766); 3550; 825; 1605; 1573; (-1598); (-1762); 3957; 1284;
   (-2979); 3742; (-2320); (-2277); 6879; (-1446); (-2874); 1241; (-4816); (-2318); 4586; (-4242); (-6765); 6236; 1881; (-3333); 3546; (-2090); (-2455); 7436; 2929; (-4578); 1135; 3791;
   (-3642); (-3444); 2736; (-552); (-1305); 3155; (-4222); (-502); 6057; (-6091); 827; 4066; (-4589); 3502; (-2845); (-1146); 6988; (-6958); (-3327); 4244; (-107); (-339); (-3727); (-1328);
   6530; 1348; (-6743); 1810; 3090; (-3727); 2190; 1347; 366; (-356); (-3805); 2674; 2782; 3100; (-349); (-5701); 3710; 3658; (-1536); (-1823); (-663); 1147; (-1449); 1603;
   125; (-787); 4087; (-2017); (-1907); 1622; (-2937); (-1519); 1691; (-3368); (-4293); 4105; 1217; (-1987); 4548; 2187; (-1925); (-2218); 553; 808; (-3451); 1092; 2885; (-3080);
   (-3107); 5122; 4831; (-5380); (-1616); 515; (-763); 3877; (-2889); 15; 4190; (-3906); (-460); 107; (-720); 1604; 288; 5041; 1717; (-1511); 959; (-4118); (-62); 2688;
   (-2403); 488; 111; (-1437); 874; 680; (-608); (-2862); (-895); 583; (-669); 1296; (-1013); (-74); 3927; (-2262); (-3134); 1879; (-1513); (-1320); 2580; (-1994); (-1326); 5489;
   (-245); (-4034); 1042; (-89); 38; 878; (-373); 464; (-978); 373; (-618); (-3111); 1761; 1281; (-2767); (-1698); 2447; 4951; 1662; (-1344); (-2982); (-1918); (-127); 932;
   2444; (-2931); (-1223); 2779; (-1947); 1011; 380; 332; 4131; (-2451); (-809); 1936; (-2740); (-1485); 1375; 1318; (-2424); 349; 3626; (-1369); (-1160); (-2488); (-4310); 1806;
   3249; (-996); (-544); 4792; 3922; (-6149); (-6128); 5067; (-292); (-4180); 6294; (-45); (-3437); 808; (-2492); 1309; (-810); 203; 5595; (-2153); (-2663); 4046; 1542; (-6149);
   (-264); 3975; (-2216); 605; (-2958); (-691); 37; (-3955); 8700; (-1427); (-3772); 5858; (-4231); 3125; (-1314); (-6234); 5033; (-277); (-1382); (-4535); (-1534); 5667; (-55); 152;
   (-999); (-717); (-5322); (-4417); 7294; 646; 749; 2799; (-4795); 525; 3925; (-2033); (-2301); 3938; (-816); (-1645); 1913; (-5408); (-2737); (-1055); 5191; 4380; (-10535); 3226;
   4667; (-4393); 2205; (-3058); 1826; 2883; (-2548); (-500); (-2242); 6393; 5; (-9271); 3505; 5698; 1213; (-2586); (-1034); 2999; (-4116); (-3276); 362; (-895); 755; (-662);
   3990; 3766; (-4234); 1028; 252; (-1330); 5767; 131; (-1056); 1025; (-2508); (-1875); (-765); 3832; (-2182); (-4853); 2421; (-1414); 4918; 783; (-7161); 5306; (-3429); (-4186);
   8484; (-1277); (-2525); 1763; 23; (-1067); (-1528); 3502; (-739); (-2043); 4973; (-2574); (-2514); 4633; (-1815); (-627); 2831; (-1178); (-784); 16; 1176; (-1605); (-773); 4885;
   (-2293); (-1786); 2626; (-3366); 349; 2081; (-567); 919; (-1744); (-741); 1229; (-231); (-535); (-673); 259; (-250); 29; 1200; (-259); 46; 174; (-666); 550; 540;
   (-83); 87; (-95); 35; (-292); (-335); 222; (-69); (-156); 66; 278; 152; (-357); 0; 190; (-58); (-11); (-49); 47; 25; (-35); 20; (-30); 17].
Definition over_calls : list ecall := [mkEcall 0 over_x1 (repeat 0 154); mkEcall 0 over_x2 (repeat 0 154)].
Definition over_target : target := mkTarget true (2 ^ 64 - 1).
Definition over_encoder {F} (o : ops F) : res (encoder F) :=
  '(ni, ns, nx) <- enc_lens 1 TenMs Hz48000 ;;
  encoder_new o 1 TenMs Hz48000 (repeat 0 (Z.to_nat ni)) (repeat (fz o 0) (Z.to_nat ns)) (repeat (fz o 0, fz o 0) (Z.to_nat nx)).
Definition over_check {F} (o : ops F) (e : eops F) (r : res (encoder F)) : bool :=
  match r with
  | Ok en => match run_ecalls o e over_target en over_calls with
             | Ok (rs, _) => match idx rs 1 with
                             | Ok buf => match read_frame true (config_new Hz48000 TenMs) buf with Err NegativeResidualNumBits => true | _ => false end
                             | _ => false
                             end
             | _ => false
             end
  | _ => false
  end.
Lemma over_check_ok {F} (o : ops F) e r : over_check o e r = true ->
  exists en rs en' buf, r = Ok en /\ run_ecalls o e over_target en over_calls = Ok (rs, en') /\ idx rs 1 = Ok buf /\ read_frame true (config_new Hz48000 TenMs) buf = Err NegativeResidualNumBits.
Proof.
  unfold over_check. intros H. destruct r as [en| |]; try discriminate H. destruct (run_ecalls o e over_target en over_calls) as [[rs en']| |] eqn:E1; try discriminate H.
  destruct (idx rs 1) as [buf| |] eqn:E2; try discriminate H. destruct (read_frame true (config_new Hz48000 TenMs) buf) as [fr|er|] eqn:E3; try discriminate H.
  exists en, rs, en', buf. destruct er; try discriminate H. auto.
Qed.
Lemma over_fx : over_check fx_ops fx_eops (over_encoder fx_ops) = true.
Proof. vm_compute. reflexivity. Qed.

(* The encoder returns normally and its own crate's parser rejects what it has written: the payload is longer than the frame. *)
Theorem C43_payload_fits_refuted :
  exists (o : ops Z) (e : eops Z), elaws o e /\ exists en rs en' buf,
    over_encoder o = Ok en /\ Forall (fun k => g_ch k = 0 /\ len (g_x k) = 480 /\ len (g_buf k) = 154 /\ Forall (fun v => -32768 <= v <= 32767) (g_x k)) over_calls /\
    run_ecalls o e over_target en over_calls = Ok (rs, en') /\ idx rs 1 = Ok buf /\ read_frame true (config_new Hz48000 TenMs) buf = Err NegativeResidualNumBits.
Proof.
  exists fx_ops, fx_eops. split; [exact fx_elaws|]. destruct (over_check_ok _ _ _ over_fx) as (en & rs & en' & buf & A & B & C & D). exists en, rs, en', buf. split; [exact A|]. split; [|auto].
  assert (H : forall x, forallb (fun v => (-32768 <=? v) && (v <=? 32767)) x = true -> Forall (fun v => -32768 <= v <= 32767) x).
  { intros x Hx. rewrite forallb_forall in Hx. apply Forall_forall. intros v Hv. specialize (Hx v Hv). lia. }
  unfold over_calls. constructor; [|constructor; [|constructor]]; cbn [g_ch g_x g_buf]; (split; [reflexivity|]); (split; [reflexivity|]); (split; [reflexivity|]); apply H; vm_compute; reflexivity.
Qed.
Print Assumptions C43_payload_fits_refuted.
(* The same audio in binary32 with the software libm of SoftLibm: a test, its result is stored because the run is too long to be repeated without the virtual machine. *)
Definition over_f32 : bool := Eval vm_compute in over_check (f32_ops soft_libm) (f32_eops soft_elibm) (over_encoder (f32_ops soft_libm)).
Example C43_f32_test : over_f32 = true.
Proof. reflexivity. Qed.
