(* Final theorems: parsing arbitrary byte strings (C08, C09, C20). *)
From Coq Require Import ZArith List Bool Lia.
From Verif Require Import Base Config Reader AcDec SideInfo ArithDec FrameDec TailSpec FrameSpec PayloadSpec ModelTests ParseBase SeedBound ParseTotal.
Import ListNotations.
Local Open Scope Z_scope.

(* ---- C08 ---- *)
(* `chk`: integer overflow checks on, as in a debug build. Missing from the full claim: byte strings of fewer than 8 bytes
   and, with overflow checks, of more than 440 bytes. Both restrictions are needed, see the refutations. *)
Theorem C08_parse_never_panics_partial :
  forall chk c buf, legal_config c -> bytes buf -> 8 <= len buf -> (chk = true -> len buf <= 440) -> read_frame chk c buf <> Panic.
Proof. exact read_frame_total. Qed.
Print Assumptions C08_parse_never_panics_partial.

(* frames on which the theorem says something: accepted, rejected, all 8 bytes set *)
Example C08_case :
  (exists f, read_frame true (config_new Hz48000 TenMs) t_out = Ok f) /\
  read_frame true (config_new Hz8000 TenMs) (repeat 255 8) = Err LastNonZeroTupleGreaterThanYLen /\
  exists f, read_frame true (config_new Hz8000 SevenPointFiveMs) (repeat 0 20) = Ok f.
Proof.
  split; [|split; [vm_compute; reflexivity|]].
  - eexists. vm_compute. reflexivity.
  - eexists. vm_compute. reflexivity.
Qed.

(* short frames make `read_tail_bool` subtract below zero, buffer_reader.rs:101-107 *)
Theorem C08_parse_never_panics_refuted :
  ~ (forall chk c buf, legal_config c -> bytes buf -> read_frame chk c buf <> Panic).
Proof.
  intros H. apply (H false (config_new Hz8000 TenMs) [0; 0]); [now exists Hz8000, TenMs| |vm_compute; reflexivity].
  repeat constructor; lia.
Qed.
Print Assumptions C08_parse_never_panics_refuted.

(* the bound 8 is sharp *)
Theorem C08_seven_bytes_refuted :
  ~ (forall chk c buf, legal_config c -> bytes buf -> 7 <= len buf -> (chk = true -> len buf <= 440) -> read_frame chk c buf <> Panic).
Proof.
  intros H. apply (H false (config_new Hz16000 SevenPointFiveMs) [0; 0; 0; 0; 2; 0; 0]); [now exists Hz16000, SevenPointFiveMs| |vm_compute; discriminate|discriminate|vm_compute; reflexivity].
  repeat constructor; lia.
Qed.
Print Assumptions C08_seven_bytes_refuted.

(* a frame of 490 bytes at 48 kHz, 10 ms whose top 66 pairs carry 14 escapes each *)
Definition overflow_frame : list Z :=
  [0; 0; 0; 0; 0; 0; 0; 0; 0; 0; 0; 0; 0; 0; 0; 0; 0; 0; 0; 0; 50; 151; 249; 179; 156; 0; 31; 23; 37; 74; 6; 232; 25; 68; 74; 184; 38; 255; 56; 115;
   43; 82; 3; 248; 148; 224; 184; 44; 217; 44; 109; 111; 192; 139; 134; 112; 60; 224; 137; 74; 136; 54; 88; 111; 216; 65; 192; 110; 80; 109; 42; 237; 59; 78; 185; 48; 227; 109; 159; 153;
   74; 142; 237; 227; 173; 215; 159; 80; 183; 244; 38; 152; 113; 203; 113; 193; 163; 5; 228; 71; 36; 38; 144; 18; 187; 79; 186; 74; 152; 249; 112; 6; 159; 202; 43; 40; 73; 82; 214; 30;
   116; 118; 183; 224; 242; 99; 32; 87; 188; 44; 108; 10; 192; 141; 148; 229; 245; 1; 135; 153; 78; 120; 230; 146; 225; 25; 229; 237; 59; 77; 184; 114; 46; 18; 217; 148; 118; 222; 73; 134;
   109; 42; 67; 6; 60; 255; 40; 115; 181; 206; 226; 177; 105; 12; 9; 200; 38; 40; 112; 242; 221; 226; 180; 65; 190; 33; 187; 97; 40; 111; 84; 221; 220; 251; 255; 11; 254; 244; 121; 34;
   215; 152; 217; 144; 96; 83; 216; 30; 191; 71; 133; 236; 2; 225; 115; 245; 22; 208; 224; 108; 210; 248; 37; 215; 254; 118; 115; 123; 89; 108; 182; 154; 81; 155; 110; 99; 118; 114; 43; 201;
   108; 185; 88; 189; 70; 222; 152; 118; 112; 152; 184; 31; 255; 255; 249; 255; 255; 255; 159; 255; 255; 249; 255; 255; 255; 159; 255; 255; 249; 255; 255; 255; 159; 255; 255; 249; 255; 255; 255; 159;
   255; 255; 249; 255; 255; 255; 159; 255; 255; 249; 255; 255; 255; 159; 255; 255; 249; 255; 255; 255; 159; 255; 255; 249; 255; 255; 255; 159; 255; 255; 249; 255; 255; 255; 159; 255; 255; 249; 255; 255;
   255; 159; 255; 255; 249; 255; 255; 255; 159; 255; 255; 249; 255; 255; 255; 159; 255; 255; 249; 255; 255; 255; 159; 255; 255; 249; 255; 255; 255; 159; 255; 255; 249; 255; 255; 255; 159; 255; 255; 249;
   255; 255; 255; 159; 255; 255; 249; 255; 255; 255; 159; 255; 255; 249; 255; 255; 255; 159; 255; 255; 249; 255; 255; 255; 159; 255; 255; 249; 255; 255; 255; 159; 255; 255; 249; 255; 255; 255; 159; 255;
   255; 249; 255; 255; 255; 159; 255; 255; 249; 255; 255; 255; 159; 255; 255; 249; 255; 255; 255; 159; 255; 255; 249; 255; 255; 255; 159; 255; 255; 249; 255; 255; 255; 159; 255; 255; 249; 255; 255; 255;
   159; 255; 255; 249; 255; 255; 255; 159; 255; 255; 249; 255; 255; 255; 159; 255; 255; 249; 255; 255; 255; 159; 255; 255; 249; 255; 255; 255; 159; 255; 255; 249; 255; 255; 255; 159; 255; 255; 249; 255;
   255; 255; 128; 0; 0; 1; 0; 0; 14; 56].
(* the same without the least significant bit mode, 506 bytes *)
Definition overflow_frame_plain : list Z :=
  [0; 0; 0; 0; 0; 0; 0; 0; 0; 0; 0; 0; 0; 0; 0; 0; 0; 0; 0; 0; 50; 151; 249; 179; 156; 0; 31; 23; 37; 74; 6; 232; 25; 68; 74; 184; 38; 255; 56; 115;
   43; 82; 3; 248; 148; 224; 184; 44; 217; 44; 109; 111; 192; 139; 134; 112; 60; 224; 137; 74; 136; 54; 88; 111; 216; 65; 192; 110; 80; 109; 42; 237; 59; 78; 185; 48; 227; 109; 159; 153;
   74; 142; 237; 227; 173; 215; 159; 80; 183; 244; 38; 152; 113; 203; 113; 193; 163; 5; 228; 71; 36; 38; 144; 18; 187; 79; 186; 74; 152; 249; 112; 6; 159; 202; 43; 40; 73; 82; 214; 30;
   116; 118; 183; 224; 242; 99; 32; 87; 188; 44; 108; 10; 192; 141; 148; 229; 245; 1; 135; 153; 78; 120; 230; 146; 225; 25; 229; 237; 59; 77; 184; 114; 46; 18; 217; 148; 118; 222; 73; 134;
   109; 42; 67; 6; 60; 255; 40; 115; 181; 206; 226; 177; 105; 12; 9; 200; 38; 40; 112; 242; 221; 226; 180; 65; 190; 33; 187; 97; 40; 111; 84; 221; 220; 251; 255; 11; 254; 244; 121; 34;
   215; 152; 217; 144; 96; 83; 216; 30; 191; 71; 133; 236; 2; 225; 115; 245; 22; 208; 224; 108; 210; 248; 37; 215; 254; 118; 115; 123; 89; 108; 182; 154; 81; 155; 110; 99; 118; 114; 43; 201;
   108; 185; 88; 189; 70; 222; 152; 118; 112; 152; 185; 255; 255; 255; 231; 255; 255; 255; 159; 255; 255; 254; 127; 255; 255; 249; 255; 255; 255; 231; 255; 255; 255; 159; 255; 255; 254; 127; 255; 255;
   249; 255; 255; 255; 231; 255; 255; 255; 159; 255; 255; 254; 127; 255; 255; 249; 255; 255; 255; 231; 255; 255; 255; 159; 255; 255; 254; 127; 255; 255; 249; 255; 255; 255; 231; 255; 255; 255; 159; 255;
   255; 254; 127; 255; 255; 249; 255; 255; 255; 231; 255; 255; 255; 159; 255; 255; 254; 127; 255; 255; 249; 255; 255; 255; 231; 255; 255; 255; 159; 255; 255; 254; 127; 255; 255; 249; 255; 255; 255; 231;
   255; 255; 255; 159; 255; 255; 254; 127; 255; 255; 249; 255; 255; 255; 231; 255; 255; 255; 159; 255; 255; 254; 127; 255; 255; 249; 255; 255; 255; 231; 255; 255; 255; 159; 255; 255; 254; 127; 255; 255;
   249; 255; 255; 255; 231; 255; 255; 255; 159; 255; 255; 254; 127; 255; 255; 249; 255; 255; 255; 231; 255; 255; 255; 159; 255; 255; 254; 127; 255; 255; 249; 255; 255; 255; 231; 255; 255; 255; 159; 255;
   255; 254; 127; 255; 255; 249; 255; 255; 255; 231; 255; 255; 255; 159; 255; 255; 254; 127; 255; 255; 249; 255; 255; 255; 231; 255; 255; 255; 159; 255; 255; 254; 127; 255; 255; 249; 255; 255; 255; 231;
   255; 255; 255; 159; 255; 255; 254; 127; 255; 255; 249; 255; 255; 255; 231; 255; 255; 255; 128; 0; 0; 1; 0; 0; 6; 56].

Lemma bytes_check l : forallb (fun b => (0 <=? b) && (b <? 256)) l = true -> bytes l.
Proof.
  intros H. apply Forall_forall. intros b Hb. rewrite forallb_forall in H. specialize (H b Hb).
  apply andb_true_iff in H as [H1 H2]. apply Z.leb_le in H1. apply Z.ltb_lt in H2. split; assumption.
Qed.

(* ---- C09 ---- *)
(* `frame_wf` says, field by field, what later stages may rely on *)
Theorem C09_accepted_frame_well_formed :
  forall chk c buf f, legal_config c -> bytes buf -> read_frame chk c buf = Ok f -> frame_wf c (len buf) f.
Proof. exact read_frame_wf. Qed.
Print Assumptions C09_accepted_frame_well_formed.

Example C09_case : exists f, read_frame true (config_new Hz48000 TenMs) t_out = Ok f /\ s_lastnz (f_side f) = 350 /\ s_lsb_mode (f_side f) = false /\
  len (a_residual (f_arith f)) = 42.
Proof. eexists. split; [vm_compute; reflexivity|]. vm_compute. repeat split. Qed.

Theorem C09_too_short_is_rejected :
  forall chk c buf f, legal_config c -> read_frame chk c buf = Ok f -> 8 <= len buf.
Proof. exact read_frame_len. Qed.
Print Assumptions C09_too_short_is_rejected.

(* ---- C20 ---- *)
(* Missing from the full claim: frames of more than 440 bytes. The largest frame of the format has 400 bytes. *)
Theorem C20_seed_no_overflow_partial :
  forall c buf f, legal_config c -> bytes buf -> len buf <= 440 -> read_frame false c buf = Ok f ->
  read_frame true c buf = Ok f /\ weighted_sum (firstn (Z.to_nat (ne c)) (f_spec f)) 0 <= 2147483647.
Proof. exact read_frame_safe_len. Qed.
Print Assumptions C20_seed_no_overflow_partial.

Example C20_case : exists f, read_frame false (config_new Hz48000 TenMs) t_out = Ok f /\ weighted_sum (f_spec f) 0 = 63961.
Proof. eexists. split; [vm_compute; reflexivity|]. vm_compute. reflexivity. Qed.

(* longer frames do overflow, in both modes *)
Lemma overflow_frame_bytes : bytes overflow_frame.
Proof. apply bytes_check. vm_compute. reflexivity. Qed.
Lemma overflow_frame_panics : read_frame true (config_new Hz48000 TenMs) overflow_frame = Panic.
Proof. vm_compute. reflexivity. Qed.

Theorem C20_seed_no_overflow_refuted :
  (exists f, read_frame false (config_new Hz48000 TenMs) overflow_frame = Ok f /\ weighted_sum (f_spec f) 0 = 2165843988) /\
  read_frame true (config_new Hz48000 TenMs) overflow_frame = Panic /\ read_frame true (config_new Hz48000 TenMs) overflow_frame_plain = Panic /\
  bytes overflow_frame /\ bytes overflow_frame_plain /\ len overflow_frame = 490.
Proof.
  split; [eexists; split; [vm_compute; reflexivity|vm_compute; reflexivity]|].
  split; [exact overflow_frame_panics|]. split; [vm_compute; reflexivity|].
  split; [exact overflow_frame_bytes|]. split; [apply bytes_check; vm_compute; reflexivity|vm_compute; reflexivity].
Qed.
Print Assumptions C20_seed_no_overflow_refuted.

Theorem C08_long_frame_refuted :
  ~ (forall c buf, legal_config c -> bytes buf -> 8 <= len buf -> read_frame true c buf <> Panic).
Proof.
  intros H. apply (H (config_new Hz48000 TenMs) overflow_frame); [now exists Hz48000, TenMs|exact overflow_frame_bytes|vm_compute; discriminate|].
  exact overflow_frame_panics.
Qed.
Print Assumptions C08_long_frame_refuted.
