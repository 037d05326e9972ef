(* Final theorems: frame writer against frame parser (C03, C04, C05, C06, C07, C30, C31). *)
From Coq Require Import ZArith List Bool Lia.
From Verif Require Import Base Config Writer Reader AcEnc AcDec AcSpec SideInfo ArithDec FrameDec BufLemmas TailSpec TailProofs FrameEnc PayloadSpec Events
  EncPayload EncFrame FrameSpec DecSide DecPayload FrameProofs RoundTrip ModelTests TablesProofs.
Import ListNotations.
Local Open Scope Z_scope.

(* ---- C03 ---- *)
(* `good_width`: 1..9, 16, 17, 24, 25, which covers the widths of the format *)
Theorem C03_tail_fields_round_trip :
  forall L l w0 buf0 t,
  fields_good l -> len buf0 = L -> bytes buf0 -> wpos L w0 t -> 0 <= t -> t + widths l < 8 * L ->
  exists w' buf', write_fields (w0, buf0) l = Ok (w', buf') /\ len buf' = L /\ bytes buf' /\
    be buf' mod 2 ^ t = be buf0 mod 2 ^ t /\
    (L <= 65535 -> t = 0 -> nbits_side_written w' (8 * L) = Ok (widths l)) /\
    read_fields (mkReader 0 t) buf' (map snd l) = Ok (map fst l, mkReader 0 (t + widths l)) /\
    read_bits (mkReader 0 t) buf' (length (fields_bits l)) = Ok (fields_bits l, mkReader 0 (t + widths l)).
Proof. exact fields_round_trip. Qed.
Print Assumptions C03_tail_fields_round_trip.

Example C03_case :
  let l := [(5, 3); (200, 8); (33460055, 25); (1, 1)] in
  fields_good l /\ widths l < 8 * 6 /\ wpos 6 (mkWriter 0 5 1) 0 /\
  exists w' buf', write_fields (mkWriter 0 5 1, [1; 2; 3; 4; 5; 255]) l = Ok (w', buf') /\
    read_fields reader_new buf' (map snd l) = Ok ([5; 200; 33460055; 1], mkReader 0 37).
Proof.
  cbn zeta. split; [|split; [vm_compute; reflexivity|split; [split; vm_compute; reflexivity|]]].
  - unfold fields_good, field_ok, good_width. do 4 (apply Forall_cons; [cbn [fst snd]; split; [split; [lia|vm_compute; reflexivity]|lia]|]). apply Forall_nil.
  - eexists _, _. split; [vm_compute; reflexivity|]. vm_compute. reflexivity.
Qed.
(* the bound is strict for a reason: the writer panics once the last bit of the buffer is written *)
Example C03_sharp : write_fields (mkWriter 0 0 1, [0]) [(200, 8)] = Panic.
Proof. reflexivity. Qed.

(* ---- C04 ---- *)
Theorem C04_side_info_round_trip :
  forall c p q buf0 w0, let L := len buf0 in
  legal_config c -> side_legal c p q -> bytes buf0 -> writer_new L = Ok w0 -> L < 65536 -> spec_side_len (ne c) p < 8 * L ->
  exists w buf, enc_side (w0, buf0) (ne c) p = Ok (w, buf) /\ len buf = L /\ bytes buf /\
    nbits_side_written w (8 * L) = Ok (spec_side_len (ne c) p) /\
    read_side_info buf reader_new (fs_ind c) (ne c) = Ok (spec_side p q, mkReader 0 (spec_side_len (ne c) p)).
Proof. exact side_info_round_trip. Qed.
Print Assumptions C04_side_info_round_trip.

(* the same for the side information of a complete frame, in both modes and without any condition on the code word *)
Theorem C04_frame_side_info :
  forall c p q buf0, let L := len buf0 in let l := payload (ne c) p in
  legal_config c -> L < 65536 -> frame_legal c L p q -> payload_bits l <= 8 * L ->
  exists buf, encode_frame (ne c) p buf0 = Ok buf /\ len buf = L /\ bytes buf /\
    read_side_info buf reader_new (fs_ind c) (ne c) = Ok (spec_side p q, mkReader 0 (spec_side_len (ne c) p)).
Proof. exact frame_side_info. Qed.
Print Assumptions C04_frame_side_info.

(* the frame of the unit test bitstream_encoding.rs:455-546 is legal *)
Definition t_sns : sns_vq := mkSnsVq 8 17 0 0 47580 0 1 1 0.
Lemma mag_check xq n : forallb (fun x => Z.abs x <=? 32767) (firstn (Z.to_nat n) xq) = true ->
  forall i, 0 <= i < n -> Z.abs (nth (Z.to_nat i) xq 0) <= 32767.
Proof.
  intros H i Hi. rewrite forallb_forall in H. destruct (Nat.lt_ge_cases (Z.to_nat i) (length xq)) as [Hl|Hl].
  - apply Z.leb_le, H. rewrite <- (nth_firstn_lt xq (Z.to_nat n)) by lia. apply nth_In. rewrite firstn_length. lia.
  - rewrite nth_overflow by lia. cbn. lia.
Qed.
Lemma lc48 : legal_config (config_new Hz48000 TenMs).
Proof. now exists Hz48000, TenMs. Qed.
Lemma lc16 : legal_config (config_new Hz16000 TenMs).
Proof. now exists Hz16000, TenMs. Qed.
Lemma t_side_legal : side_legal (config_new Hz48000 TenMs) t_params t_sns.
Proof.
  constructor; try (vm_compute; congruence); try (vm_compute; split; congruence); [vm_compute; lia..|].
  constructor; [vm_compute; split; congruence..|left; reflexivity|]. right; right; right. vm_compute. repeat split; congruence.
Qed.
Lemma t_legal : frame_legal (config_new Hz48000 TenMs) 150 t_params t_sns.
Proof.
  constructor; [exact t_side_legal| |reflexivity|reflexivity|vm_compute; congruence| |vm_compute; congruence|discriminate].
  - unfold tns_params_ok. cbn [t_params p_rc_order p_rc_i]. split; [reflexivity|]. split; [reflexivity|]. split; repeat constructor; lia.
  - apply mag_check. vm_compute. reflexivity.
Qed.
Lemma t_fits : payload_bits (payload 400 t_params) = 1158.
Proof. vm_compute. reflexivity. Qed.
Example C04_case : legal_config (config_new Hz48000 TenMs) /\ side_legal (config_new Hz48000 TenMs) t_params t_sns /\
  spec_side_len 400 t_params = 74 /\ frame_legal (config_new Hz48000 TenMs) 150 t_params t_sns /\ payload_bits (payload 400 t_params) <= 8 * 150.
Proof. split; [exact lc48|]. split; [exact t_side_legal|]. split; [reflexivity|]. split; [exact t_legal|]. rewrite t_fits. lia. Qed.
(* with the frame filled exactly by the side information (8 bytes) the writer panics *)
Definition t_plain : enc_params :=
  mkEnc 4 3 2 false 100 2 [0; 0] (repeat 0 16) 1 false false 0 0 0 2 0 0 0 0 0 0 (repeat 0 400) [].
Example C04_sharp : side_legal (config_new Hz48000 TenMs) t_plain (mkSnsVq 0 0 0 0 0 0 0 1 0) /\ spec_side_len 400 t_plain = 8 * 8 /\
  enc_side (mkWriter 0 7 1, repeat 0 8) 400 t_plain = Panic.
Proof.
  split; [|split; reflexivity].
  constructor; try (vm_compute; congruence); try (vm_compute; split; congruence); [vm_compute; lia..|].
  constructor; [vm_compute; split; congruence..|left; reflexivity|]. right; right; left. vm_compute. repeat split; congruence.
Qed.

(* ---- C05 ---- *)
(* The claim as stated is false: in the termination window (see AcSpec.v) the residual bits written behind the code word
   change the last symbols. 16 kHz, 10 ms, 20 bytes: line 24 is written as -1 and parsed as -2. *)
Definition w_sns : sns_vq := mkSnsVq 0 0 0 0 0 0 0 1 0.
Definition w_lines : list Z :=
  [0; -1; -2; -2; -2; 2; -2; 0; -1; 0; -2; 2; 1; -2; 2; 2; 1; -2; 1; -1; 2; -2; -1; 0; -1; 1] ++ repeat 0 134.
Definition w_params : enc_params :=
  mkEnc 1 1 26 false 100 1 [0; 0] (repeat 0 16) 1 false false 0 0 0 2 0 0 0 0 0 0 w_lines
   [true; true; false; false; false; true; true; true; true; true; true; false; true; false; false; false; true; true; true; false; false; false].
Lemma w_side_legal lsb lnz w r xs l res : 2 <= lnz <= 160 -> Z.even lnz = true ->
  side_legal (config_new Hz16000 TenMs) (mkEnc 1 1 lnz lsb 100 1 [0; 0] (repeat 0 16) w false false 0 0 0 2 0 0 0 0 r l xs res) w_sns.
Proof.
  intros. constructor; try assumption; try (vm_compute; congruence); try (vm_compute; split; congruence); [vm_compute; lia..|].
  constructor; [vm_compute; split; congruence..|left; reflexivity|]. right; right; left. vm_compute. repeat split; congruence.
Qed.
Lemma w_legal : frame_legal (config_new Hz16000 TenMs) 20 w_params w_sns.
Proof.
  constructor; [apply w_side_legal; [lia|reflexivity]| |reflexivity|reflexivity|vm_compute; congruence| |vm_compute; congruence|discriminate].
  - unfold tns_params_ok. cbn [w_params p_rc_order p_rc_i repeat]. split; [reflexivity|]. split; [reflexivity|]. split; repeat constructor; lia.
  - apply mag_check. vm_compute. reflexivity.
Qed.
Theorem C05_regular_round_trip_refuted :
  exists c p q buf0 buf f,
    legal_config c /\ len buf0 = 20 /\ frame_legal c (len buf0) p q /\ p_lsb_mode p = false /\
    payload_bits (payload (ne c) p) <= 8 * len buf0 /\ len (p_res_bits p) = nonzero_count (p_xq p) /\
    encode_frame (ne c) p buf0 = Ok buf /\ read_frame true c buf = Ok f /\
    nth 24 (p_xq p) 0 = -1 /\ nth 24 (f_spec f) 0 = -2.
Proof.
  exists (config_new Hz16000 TenMs), w_params, w_sns, (repeat 0 20). eexists _, _.
  split; [exact lc16|]. split; [reflexivity|]. split; [exact w_legal|]. split; [reflexivity|].
  split; [vm_compute; congruence|]. split; [reflexivity|]. split; [vm_compute; reflexivity|]. split; [vm_compute; reflexivity|].
  split; reflexivity.
Qed.
Print Assumptions C05_regular_round_trip_refuted.

(* What holds: outside the termination window, or when three bytes remain free between both ends. `room` is the number of
   residual bits the writer has room for; the parser returns one bit per nonzero line, as many as there is space for, and
   each of them that was written has the value written.
   For frames parsed with overflow checks (chk = true) the noise filling seed has to stay in range (C20). *)
Theorem C05_regular_round_trip_partial :
  forall chk c p q buf0, let L := len buf0 in let l := payload (ne c) p in
  legal_config c -> L < 65536 -> frame_legal c L p q -> p_lsb_mode p = false -> payload_bits l <= 8 * L ->
  ~ term_window (fin l) \/ tbits l + Z.min (8 * L - payload_bits l) (len (p_res_bits p)) + 8 * iN (fin l) + 24 <= 8 * L ->
  (chk = true -> weighted_sum (firstn (Z.to_nat (ne c)) (spec_lines p)) 0 <= i32_max) ->
  exists buf room got, encode_frame (ne c) p buf0 = Ok buf /\ len buf = L /\ bytes buf /\ room_ok L room l /\
    read_frame chk c buf = Ok (mkFrame (spec_side p q)
      (mkArith (spec_orders p) (spec_tns_idx p) got (spec_seed (firstn (Z.to_nat (ne c)) (spec_lines p))) (spec_zero p) (8 * L))
      (spec_lines p)) /\
    len got = Z.min (8 * L - payload_bits l) (nonzero_count (firstn (Z.to_nat (p_lastnz p)) (p_xq p))) /\
    (forall k, (k < length got)%nat -> Z.of_nat k < room -> (k < length (p_res_bits p))%nat -> nth k got false = nth k (p_res_bits p) false).
Proof. exact round_trip_regular. Qed.
Print Assumptions C05_regular_round_trip_partial.

Example C05_case : let c := config_new Hz48000 TenMs in let l := payload (ne c) t_params in
  legal_config c /\ frame_legal c 150 t_params t_sns /\ p_lsb_mode t_params = false /\ payload_bits l <= 8 * 150 /\ ~ term_window (fin l) /\
  weighted_sum (firstn (Z.to_nat (ne c)) (spec_lines t_params)) 0 <= i32_max.
Proof.
  cbn zeta. split; [exact lc48|]. split; [exact t_legal|]. split; [reflexivity|]. split; [change (ne _) with 400; rewrite t_fits; lia|].
  split; [|vm_compute; congruence]. vm_compute. intros [A B]. tauto.
Qed.

(* ---- C06 ---- *)
(* The claim is false: the decoder stores the escape level of pair k at index k and looks it up at index 2k
   (arithmetic_codec.rs:269-272 against 194-204), so the least significant bits of all pairs but the first are lost or
   applied to other lines. 16 kHz, 10 ms, 80 bytes: lines (2, 3) = (5, 7), parsed as (4, 6). *)
Definition v_lines : list Z := [1; 0; 5; 7] ++ repeat 0 156.
Definition v_params : enc_params :=
  mkEnc 1 1 4 true 100 1 [0; 0] (repeat 0 16) 0 false false 0 0 0 2 0 0 0 0 512 2 v_lines [].
Lemma v_legal : frame_legal (config_new Hz16000 TenMs) 80 v_params w_sns.
Proof.
  constructor; [apply w_side_legal; [lia|reflexivity]| |reflexivity|reflexivity|vm_compute; congruence| |vm_compute; congruence|intros; vm_compute; congruence].
  - unfold tns_params_ok. cbn [v_params p_rc_order p_rc_i repeat]. split; [reflexivity|]. split; [reflexivity|]. split; repeat constructor; lia.
  - apply mag_check. vm_compute. reflexivity.
Qed.
Theorem C06_lsb_round_trip_refuted :
  exists c p q buf0 buf f,
    legal_config c /\ len buf0 = 80 /\ frame_legal c (len buf0) p q /\ p_lsb_mode p = true /\
    payload_bits (payload (ne c) p) + len (res_source p) + 400 <= 8 * len buf0 /\
    encode_frame (ne c) p buf0 = Ok buf /\ read_frame true c buf = Ok f /\
    firstn 4 (p_xq p) = [1; 0; 5; 7] /\ firstn 4 (f_spec f) = [1; 0; 4; 6].
Proof.
  exists (config_new Hz16000 TenMs), v_params, w_sns, (repeat 0 80). eexists _, _.
  split; [exact lc16|]. split; [reflexivity|]. split; [exact v_legal|]. split; [reflexivity|].
  split; [vm_compute; congruence|]. split; [vm_compute; reflexivity|]. split; [vm_compute; reflexivity|].
  split; reflexivity.
Qed.
Print Assumptions C06_lsb_round_trip_refuted.

(* What holds: every line is parsed with an error of at most 1 (2 for lines +-1, whose sign may be lost), nothing appears
   above the last line, and the spectrum is exact if no pair needs an escape, or only the first one does and its bits fit. *)
Theorem C06_lsb_round_trip_partial :
  forall chk c p q buf0, let L := len buf0 in let l := payload (ne c) p in
  legal_config c -> L < 65536 -> frame_legal c L p q -> p_lsb_mode p = true -> payload_bits l <= 8 * L ->
  ~ term_window (fin l) \/ tbits l + Z.min (8 * L - payload_bits l) (len (res_source p)) + 8 * iN (fin l) + 24 <= 8 * L ->
  let levs := pair_levs (Z.to_nat (p_lastnz p / 2)) 0 (p_xq p) in
  exists buf room x, encode_frame (ne c) p buf0 = Ok buf /\ len buf = L /\ bytes buf /\ room_ok L room l /\ length x = 400%nat /\
    (forall i, 0 <= i < p_lastnz p -> let d := Z.abs (nth (Z.to_nat i) (p_xq p) 0 - nth (Z.to_nat i) x 0) in
       d <= 2 /\ (Z.abs (nth (Z.to_nat i) (p_xq p) 0) <> 1 -> d <= 1)) /\
    (forall i, (Z.to_nat (p_lastnz p) <= i)%nat -> nth i x 0 = 0) /\
    (Forall (fun e => e = 0) levs -> x = spec_lines p) /\
    (Forall (fun e => e = 0) (tl levs) -> len (res_source p) <= room -> x = spec_lines p) /\
    ((chk = true -> weighted_sum (firstn (Z.to_nat (ne c)) x) 0 <= i32_max) ->
     exists zero, read_frame chk c buf = Ok (mkFrame (spec_side p q)
      (mkArith (spec_orders p) (spec_tns_idx p) [] (spec_seed (firstn (Z.to_nat (ne c)) x)) zero (8 * L)) x)).
Proof. exact round_trip_lsb. Qed.
Print Assumptions C06_lsb_round_trip_partial.

Definition v_params1 : enc_params :=
  mkEnc 1 1 4 true 100 1 [0; 0] (repeat 0 16) 0 false false 0 0 0 2 0 0 0 0 512 3 ([1; -7; 2; -3] ++ repeat 0 156) [].
Example C06_case : let c := config_new Hz16000 TenMs in let l := payload (ne c) v_params1 in
  frame_legal c 80 v_params1 w_sns /\ payload_bits l <= 8 * 80 /\ ~ term_window (fin l) /\
  pair_levs 2 0 (p_xq v_params1) = [1; 0] /\ res_source v_params1 = [true; false; true] /\
  omap (fun f => firstn 4 (f_spec f)) (bind (encode_frame 160 v_params1 (repeat 0 80)) (read_frame true c)) = Ok [1; -7; 2; -3].
Proof.
  cbn zeta. split; [|split; [vm_compute; congruence|split; [|vm_compute; auto]]].
  - constructor; [apply w_side_legal; [lia|reflexivity]| |reflexivity|reflexivity|vm_compute; congruence| |vm_compute; congruence|intros; vm_compute; congruence].
    + unfold tns_params_ok. cbn [v_params1 p_rc_order p_rc_i repeat]. split; [reflexivity|]. split; [reflexivity|]. split; repeat constructor; lia.
    + apply mag_check. vm_compute. reflexivity.
  - vm_compute. intros [A B]. tauto.
Qed.

(* ---- C07 ---- *)
(* -32768 needs fourteen halvings, after which the decoder stops reading symbols: it is parsed as something else. The
   quantiser can produce it (a saturating cast to i16). *)
Definition u_params : enc_params :=
  mkEnc 1 1 2 false 100 1 [0; 0] (repeat 0 16) 1 false false 0 0 0 2 0 0 0 0 512 0 (-32768 :: repeat 0 159) [].
Theorem C07_every_i16_representable_refuted :
  exists c p q buf0 buf, legal_config c /\ side_legal c p q /\ p_lsb_mode p = false /\
    payload_bits (payload (ne c) p) + 60 <= 8 * len buf0 /\ encode_frame (ne c) p buf0 = Ok buf /\
    nth 0 (p_xq p) 0 = -32768 /\
    match read_frame true c buf with Ok f => nth 0 (f_spec f) 0 <> -32768 | Err _ => True | Panic => True end.
Proof.
  exists (config_new Hz16000 TenMs), u_params, w_sns, (repeat 0 50). eexists.
  split; [exact lc16|]. split; [apply w_side_legal; [lia|reflexivity]|]. split; [reflexivity|]. split; [vm_compute; congruence|].
  split; [vm_compute; reflexivity|]. split; [reflexivity|]. vm_compute. intuition congruence.
Qed.
Print Assumptions C07_every_i16_representable_refuted.

(* all other values are; the value may stand on any line of any frame *)
Theorem C07_every_i16_representable_partial :
  forall c p q buf0 i v, let L := len buf0 in let l := payload (ne c) p in
  -32767 <= v <= 32767 -> 0 <= i < p_lastnz p -> nth (Z.to_nat i) (p_xq p) 0 = v ->
  legal_config c -> L < 65536 -> frame_legal c L p q -> p_lsb_mode p = false -> payload_bits l <= 8 * L ->
  ~ term_window (fin l) \/ tbits l + Z.min (8 * L - payload_bits l) (len (p_res_bits p)) + 8 * iN (fin l) + 24 <= 8 * L ->
  exists buf f, encode_frame (ne c) p buf0 = Ok buf /\ read_frame false c buf = Ok f /\ nth (Z.to_nat i) (f_spec f) 0 = v.
Proof.
  intros c p q buf0 i v L l Hv Hi E Hc HL Hl Hm Hp Hs.
  destruct (round_trip_regular false c p q buf0 Hc HL Hl Hm Hp Hs ltac:(discriminate)) as (buf & room & got & E1 & _ & _ & _ & E2 & _).
  eexists buf, _. split; [exact E1|]. split; [exact E2|]. cbn [f_spec].
  rewrite spec_lines_nth; [exact E|exact (legal_writer _ _ _ _ Hl)|lia].
Qed.
Print Assumptions C07_every_i16_representable_partial.
Example C07_case : nth 0 (p_xq t_params) 0 = 102 /\ nth 8 (p_xq t_params) 0 = -417.
Proof. split; reflexivity. Qed.
(* the extreme values, in a frame meeting all hypotheses *)
Definition u_params1 : enc_params :=
  mkEnc 1 1 2 false 100 1 [0; 0] (repeat 0 16) 1 false false 0 0 0 2 0 0 0 0 512 0 (-32767 :: 32767 :: repeat 0 158) [].
Example C07_case_extreme : let c := config_new Hz16000 TenMs in
  frame_legal c 50 u_params1 w_sns /\ payload_bits (payload (ne c) u_params1) <= 8 * 50 /\ ~ term_window (fin (payload (ne c) u_params1)) /\
  omap (fun f => firstn 2 (f_spec f)) (bind (encode_frame 160 u_params1 (repeat 0 50)) (read_frame true c)) = Ok [-32767; 32767].
Proof.
  cbn zeta. split; [|split; [vm_compute; congruence|split; [|vm_compute; auto]]].
  - constructor; [apply w_side_legal; [lia|reflexivity]| |reflexivity|reflexivity|vm_compute; congruence| |vm_compute; congruence|discriminate].
    + unfold tns_params_ok. cbn [u_params1 p_rc_order p_rc_i repeat]. split; [reflexivity|]. split; [reflexivity|]. split; repeat constructor; lia.
    + apply mag_check. vm_compute. reflexivity.
  - vm_compute. intros [A B]. tauto.
Qed.

(* ---- C30 ---- *)
(* False as stated: while the encoder has not passed a byte out of its register (or only 0xff bytes, all pending) it charges
   8 bits too many, as its carry is never negative (bitstream_encoding.rs:64-75). 48 kHz, 10 ms, 20 bytes, silence. *)
Theorem C30_residual_count_refuted :
  exists c p q buf0 buf e d,
    legal_config c /\ len buf0 = 20 /\ frame_legal c (len buf0) p q /\ payload_bits (payload (ne c) p) <= 8 * len buf0 /\
    encode_frame (ne c) p buf0 = Ok buf /\ enc_residual_count (ne c) p buf0 = Ok e /\ dec_residual_count c buf = Ok d /\ d = e + 8.
Proof.
  exists (config_new Hz48000 TenMs), t_plain, (mkSnsVq 0 0 0 0 0 0 0 1 0), (repeat 0 20). eexists _, _, _.
  split; [exact lc48|]. split; [reflexivity|]. split.
  { constructor; [exact (proj1 C04_sharp)| |reflexivity|reflexivity|vm_compute; congruence| |vm_compute; congruence|discriminate].
    - unfold tns_params_ok. cbn [t_plain p_rc_order p_rc_i repeat]. split; [reflexivity|]. split; [reflexivity|]. split; repeat constructor; lia.
    - apply mag_check. vm_compute. reflexivity. }
  split; [vm_compute; congruence|]. split; [vm_compute; reflexivity|]. split; [vm_compute; reflexivity|]. split; [vm_compute; reflexivity|].
  vm_compute. reflexivity.
Qed.
Print Assumptions C30_residual_count_refuted.

(* the decoder expects exactly the bits not used by the payload; the encoder has room for as many, except in the case above *)
Theorem C30_residual_count_partial :
  forall c p q buf0, let L := len buf0 in let l := payload (ne c) p in
  legal_config c -> L < 65536 -> frame_legal c L p q -> payload_bits l <= 8 * L ->
  ~ term_window (fin l) \/ tbits l + Z.min (8 * L - payload_bits l) (len (res_source p)) + 8 * iN (fin l) + 24 <= 8 * L ->
  exists buf e d, encode_frame (ne c) p buf0 = Ok buf /\ enc_residual_count (ne c) p buf0 = Ok e /\ dec_residual_count c buf = Ok d /\
    d = 8 * L - payload_bits l /\ (e = d \/ (e = Z.max 0 (d - 8) /\ all_ff (fin l))).
Proof. exact residual_counts. Qed.
Print Assumptions C30_residual_count_partial.
Example C30_case : enc_residual_count 400 t_params (repeat 0 150) = Ok 42 /\ dec_residual_count (config_new Hz48000 TenMs) t_out = Ok 42 /\
  8 * 150 - payload_bits (payload 400 t_params) = 42.
Proof. vm_compute. auto. Qed.

(* ---- C31 ---- *)
(* The frame is a function of the parameters and the length; and the tail writer, which does not depend on the buffer having
   been cleared, leaves no trace of the old content in the bits it writes (see C03, C04: arbitrary buf0). *)
Theorem C31_stale_content :
  (forall ne p b1 b2, length b1 = length b2 -> encode_frame ne p b1 = encode_frame ne p b2) /\
  (forall L l w b1 b2, len b1 = L -> len b2 = L -> bytes b1 -> bytes b2 -> wpos L w 0 -> len l < 8 * L ->
     exists w' b1' b2', wbools (w, b1) l = Ok (w', b1') /\ wbools (w, b2) l = Ok (w', b2') /\
       be b1' mod 2 ^ len l = be b2' mod 2 ^ len l).
Proof.
  split.
  - intros ne p b1 b2 E. unfold encode_frame, len. rewrite E. reflexivity.
  - intros L l w b1 b2 E1 E2 B1 B2 Hw Hf.
    destruct (wbools_any L l w b1 0 E1 B1 Hw ltac:(lia) ltac:(lia)) as (w1 & c1 & A1 & _ & _ & A2 & A3).
    destruct (wbools_any L l w b2 0 E2 B2 Hw ltac:(lia) ltac:(lia)) as (w2 & c2 & C1 & _ & _ & C2 & C3).
    exists w1, c1, c2. split; [exact A1|]. split.
    + rewrite C1. f_equal. f_equal. apply (wbools_pos L) in A1. apply (wbools_pos L) in C1.
      destruct A2 as [Aa Ab], C2 as [Ca Cb]. destruct w1 as [x1 x2 x3], w2 as [y1 y2 y3]. cbn [w_bp w_bp_side w_mask fst] in *. congruence.
    + rewrite Z.add_0_l in A3, C3. rewrite A3, C3. change (2 ^ 0) with 1. now rewrite !Z.mod_1_r.
Qed.
Print Assumptions C31_stale_content.
Example C31_case : encode_frame 400 t_params (repeat 255 150) = Ok t_out.
Proof. vm_compute. reflexivity. Qed.
