(* Tests of the model (not proofs): the expected values of unit tests in the Rust sources are reproduced by the model.
   The numbers are copied from the cited test functions. *)
From Coq Require Import ZArith List Bool.
From Verif Require Import Base Config Writer Reader AcDec SideInfo ArithDec FrameDec AcEnc FrameEnc.
Import ListNotations.
Local Open Scope Z_scope.

(* /repo/src/decoder/side_info_reader.rs:207-237 *)
Example read_side_info_test :
  omap fst (read_side_info [192; 74; 255; 80; 28; 187; 134; 52] reader_new 4 400) =
  Ok (mkSide 4 398 false 184 2 [1; 1] (mkSnsVq 25 1 0 0 307189 0 1 0 0) (mkLtpf false false 0) 6).
Proof. vm_compute. reflexivity. Qed.

(* /repo/src/decoder/arithmetic_codec.rs:414-480 *)
Definition t_buf : list Z :=
  [187; 56; 111; 155; 76; 236; 70; 99; 10; 135; 219; 76; 176; 3; 108; 203; 131; 111; 206; 221; 195; 25; 
   96; 240; 18; 202; 163; 241; 109; 142; 198; 122; 176; 70; 37; 6; 35; 190; 110; 184; 251; 162; 71; 7; 
   151; 58; 42; 79; 200; 192; 99; 157; 234; 156; 245; 43; 84; 64; 167; 32; 52; 106; 43; 75; 4; 102; 213; 
   123; 168; 120; 213; 252; 208; 118; 78; 115; 154; 158; 157; 26; 152; 231; 121; 146; 203; 11; 169; 227; 
   75; 154; 237; 154; 227; 145; 196; 182; 207; 94; 95; 26; 184; 248; 1; 118; 72; 47; 18; 205; 56; 96; 
   195; 139; 216; 240; 113; 233; 44; 198; 245; 157; 139; 70; 162; 182; 139; 136; 165; 68; 79; 247; 161; 
   126; 17; 135; 36; 30; 229; 24; 196; 2; 5; 65; 111; 80; 124; 168; 70; 156; 198; 60].
Definition t_side : side_info :=
  mkSide 4 400 false 204 2 [1; 0] (mkSnsVq 13 4 1 0 1718290 2 0 0 0) (mkLtpf false false 0) 3.
Example arithmetic_decode_test :
  omap (fun r => fst (fst r)) (decode_arith true t_buf (mkReader 0 64) 4 400 t_side TenMs) =
  Ok (mkArith [8; 0] [6; 10; 7; 8; 7; 9; 7; 7; 0; 0; 0; 0; 0; 0; 0; 0]
   [false; true; true; true; false; false; false; true; false; false; true; true; true; false; false; 
   false; true; true; true; false; true; false; true; true; false; false; true; true; false; true; true; 
   false; true; true; true; false; true; false; true; true; false; false; true; true; true]
   56909 false 1200).
Proof. vm_compute. reflexivity. Qed.

(* /repo/src/encoder/bitstream_encoding.rs:455-546 *)
Definition t_params : enc_params :=
  mkEnc 4 3 350 false 193 2 [8; 6] [10; 7; 8; 9; 7; 9; 8; 9; 14; 11; 6; 9; 7; 9; 8; 8] 0 true false 0
   8 17 3 0 0 15253432 6 512 107
   [102; (-146); (-18); (-14); (-104); (-128); 264; 254; (-417); (-180); 94; (-28); 20; (-38); 21; (-62); 
   (-125); 10; (-15); (-4); 27; (-9); (-4); 3; 3; (-1); 0; (-13); (-2); 0; (-11); 3; 5; 4; (-10); (-18); 
   (-22); 4; 10; (-5); 17; 4; (-6); 2; 6; 11; (-3); (-3); 29; 16; (-15); 3; 4; 7; 4; (-3); 5; 0; 6; 0; 
   (-6); 1; 0; (-1); (-2); 7; 6; 2; (-9); (-4); 3; (-5); 3; 6; 4; (-1); 3; 5; (-1); (-10); (-16); 1; 1; 
   0; (-4); (-1); 7; (-5); (-4); (-2); 0; (-4); 1; 4; (-1); (-2); (-7); 1; (-2); 1; 1; (-7); 1; 4; (-1); 
   (-1); 2; 0; (-1); (-2); 1; 3; (-5); (-1); 0; 2; 0; 0; 2; 0; 1; (-3); 1; 2; 0; (-5); (-1); 5; (-1); 0; 
   (-3); 0; 0; (-1); 0; (-2); 2; (-3); 0; 1; (-2); (-1); (-2); 0; 1; 2; (-2); 0; (-1); (-3); (-2); (-1); 
   3; (-2); (-2); 0; 1; 0; (-3); 1; 0; 0; (-1); 0; 1; 0; 1; (-2); 1; 1; 0; (-1); 0; 0; 1; 2; (-1); 0; 
   (-1); 1; 0; (-1); 1; (-1); 1; (-1); 0; 0; 0; (-1); (-1); 0; (-2); 1; (-1); (-1); (-1); (-1); 0; (-2); 
   0; (-1); (-1); 0; 0; 0; 1; 0; (-1); 0; 1; 1; 0; 0; 0; (-1); 0; 0; (-2); (-1); 0; 1; 0; 0; 0; 1; (-1); 
   (-1); 1; 0; 0; (-1); (-2); (-1); (-1); 0; 0; 0; 0; 0; 1; 0; 0; 0; 0; 0; 1; 0; 0; 0; 0; 0; 0; 1; 0; 
   (-1); (-1); 0; 0; 0; 0; 0; (-1); (-1); 0; 0; 0; 0; (-1); 0; 0; 0; 0; 0; 0; 0; 0; 0; 0; (-1); (-1); 0; 
   0; 0; 0; 0; 0; 0; 0; 0; 0; 0; 0; 0; (-1); 0; 0; 0; 0; 0; 0; 1; 0; 0; 0; 0; 0; 0; 0; 0; 0; (-1); 0; 0; 
   0; 0; 0; 0; 0; 0; 0; 0; 0; 0; 0; 0; 0; 0; 0; 0; 0; 0; 0; 0; 0; 0; 0; 0; 0; (-1); 0; 0; 0; 0; 0; 0; 0; 
   0; 0; 1; 0; 0; 0; 0; 0; 0; 0; 0; 0; 0; 0; 0; 0; 0; 0; 0; 0; 0; 0; 0; 0; 0; 0; 0; 0; 0; 0; 0; 0; 0; 0; 
   0; 0; 0; 0; 0; 0; 0; 0; 0; 0; 0; 0; 0; 0; 0; 0; 0; 0; 0]
   [false; true; false; false; false; false; true; true; false; true; false; true; true; true; true; 
   false; false; true; false; true; true; true; false; true; true; true; false; true; false; true; true; 
   true; false; false; true; true; true; true; false; false; true; true; true; false; true; false; 
   false; true; false; true; true; true; true; false; true; false; true; false; false; true; false; 
   true; true; false; false; true; false; false; false; true; false; true; true; true; false; false; 
   true; false; false; true; true; false; true; true; false; false; true; false; false; true; false; 
   true; false; false; false; true; false; true; false; true; true; true; true; true; true; false; 
   false; true; true; false; false; true; false; false; false; true; true; true; false; true; false; 
   true; true; true; true; false; false; false; true; true; true; false; true; true; true; true; true; 
   true; true; true].
Definition t_out : list Z :=
  [230; 243; 160; 169; 152; 75; 36; 156; 223; 96; 241; 214; 150; 248; 180; 106; 115; 92; 147; 213; 56; 
   100; 96; 52; 194; 178; 44; 31; 222; 246; 83; 116; 240; 220; 40; 241; 82; 228; 209; 57; 128; 152; 9; 
   144; 112; 249; 48; 46; 135; 182; 250; 59; 135; 221; 129; 46; 204; 178; 232; 100; 172; 27; 177; 120; 
   86; 253; 35; 137; 19; 253; 191; 202; 97; 240; 10; 45; 124; 110; 234; 149; 49; 115; 209; 177; 153; 
   231; 93; 211; 214; 19; 127; 143; 103; 47; 239; 86; 73; 91; 231; 94; 248; 143; 54; 54; 190; 51; 47; 
   136; 92; 157; 13; 226; 13; 96; 104; 159; 17; 206; 66; 25; 157; 51; 5; 252; 166; 135; 213; 118; 107; 
   152; 226; 253; 51; 136; 74; 186; 52; 64; 236; 152; 115; 0; 29; 23; 247; 3; 20; 124; 21; 116].
Example bitstream_encoding_test : encode_frame 400 t_params (repeat 0 150) = Ok t_out.
Proof. vm_compute. reflexivity. Qed.

(* the decoder model on that frame *)
Example bitstream_reparse_test :
  omap (fun f => (s_lastnz (f_side f), a_rc_order (f_arith f), a_rc_i (f_arith f), f_spec f)) (read_frame true (config_new Hz48000 TenMs) t_out) =
  Ok (350, [8; 6], [10; 7; 8; 9; 7; 9; 8; 9; 14; 11; 6; 9; 7; 9; 0; 0], p_xq t_params).
Proof. vm_compute. reflexivity. Qed.
