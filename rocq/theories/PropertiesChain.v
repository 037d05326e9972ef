(* C53: one frame of audio through the encoder, the bit stream and the decoder's reconstruction of the spectrum, in exact arithmetic. *)
From Coq Require Import ZArith Lia List Bool Reals Lra.
From Flocq Require Import Core.
From Verif Require Import DecMdct.
From Verif Require Import Base Config Buffers SideInfo Reader Mpvq SnsIndex AcSpec Loops BufLemmas Scalar EncScalar RealOps EncF32 DecSignal DecTotal DecState ParseBase EncMdct EncDetect DetectSpec
  EncSns EncSnsOk EncTns TnsOk EncLtpf EncLtpfOk EncQuant QuantSpec QuantReal EstimateSpec ArithDec FrameDec TailSpec FrameEnc PayloadSpec DecSide EncPayload FrameProofs EncFrame FrameSpec RoundTrip LineSpec MdctSpec TdacSpec Tdac MdctFormula Decoder Encoder EncOk PayloadBound EncRun
  Lpc TnsStable ChainError LineError EncShape SnsShape PropertiesShape PropertiesStable TnsLinear TnsLpc TnsCorr EncKeep EncReal PropertiesLpc PropertiesReal Chain.
From Coq Require Import List.
Import ListNotations.
Local Open Scope Z_scope.

(* What the parameters that the analysis found must be like for the frame to reach the decoder; each line names the claim which shows that it can fail. *)
Record clean_frame (c : config) (N : Z) (p : enc_params) : Prop := mkClean {
  cf_gain : p_gg p < 256;                                                              (* C25 *)
  cf_range : Forall (fun v => v <> -32768) (p_xq p);                                   (* C07 *)
  cf_size : payload_bits (payload (ne c) p) <= 8 * N;                                  (* C43 *)
  cf_end : let l := payload (ne c) p in ~ term_window (fin l) \/ tbits l + Z.min (8 * N - payload_bits l) (len (res_source p)) + 8 * iN (fin l) + 24 <= 8 * N; (* C02 *)
  cf_bands : ~ (n_ms c = TenMs /\ p_bw p = 2);                                         (* C29 *)
  cf_index : forall f k, 0 <= f < p_num_tns p -> 0 <= k < getz 0 (p_rc_order p) f -> getz 0 (p_rc_i p) (f * 8 + k) <> 0 (* C28 *)
}.
Definition sent_bits_sure (c : config) (N : Z) (p : enc_params) : Z := Z.min (8 * N - payload_bits (payload (ne c) p) - 8) (len (p_res_bits p)).
(* the step of the quantiser *)
Definition step_size (c : config) (N : Z) (p : enc_params) : R := Rpower 10 (IZR (p_gg p + gg_off (fs_ind c) (8 * N)) / 28).
(* how far the lines which the decoder has before its noise shaping are from l, the lines that the encoder quantised, up to line j *)
Definition energy_gap (c : config) (N : Z) (p : enc_params) (l : list R) (j : Z) : R :=
  sm (S (Z.to_nat j)) (fun m => let e := line_gap (step_size c N p) (p_lsb_mode p) (p_lastnz p) (sent_bits_sure c N p) (p_xq p) l (Z.of_nat m) in (e * e)%R).

Lemma Rabs_mult_self a : (Rabs a * Rabs a = a * a)%R.
Proof. rewrite <- Rabs_mult. apply Rabs_pos_eq, Rle_0_sqr. Qed.
Lemma abs_sqrt a K : (a * a <= K)%R -> (Rabs a <= sqrt K)%R.
Proof. intros H. rewrite <- sqrt_Rsqr_abs. now apply sqrt_le_1_alt. Qed.

(* x: the audio, X: its MDCT, l: what the encoder's noise shaping made of X, sp: the spectrum in the decoder. Line j of band b is off by at most the gain of
   the scale factors in that band times the root of the gain of the temporal noise shaping times the energy of the quantisation errors up to line j. *)
Theorem C53_spectrum_error : forall t f d ch x buf, f <> Hz8000 -> let c := config_new f d in ech_wf c ch -> ec_index ch < t_umax t \/ t_chk t = false -> len x = nf c ->
  20 <= len buf <= 400 -> fs_ind c < 3 \/ 31 <= len buf -> audio (getz 0 (em_time (ec_mdct ch))) (2 * nf c) -> audio (getz 0 x) (nf c) -> frame_alive c ch x (len buf) ->
  exists ch' buf' p X l w edges,
    encode R_ops R_eops t c ch x buf = Ok (ch', buf') /\ len buf' = len buf /\ analyse R_ops R_eops t c ch x (len buf) = Ok (p, ch') /\
    mdct_window c = Ok w /\ band_table c = Ok edges /\ len X = nf c /\ len l = ne c /\ (forall k, 0 <= k < nf c -> getz 0%R X k = mdct_formula (nf c) (win w) (fun n => IZR (getz 0%Z (em_time (ec_mdct ch')) n)) k) /\
    (forall j, 0 <= j < 2 * nf c -> getz 0 (em_time (ec_mdct ch')) j = next_time (nf c) (zlead c) (getz 0 (em_time (ec_mdct ch))) (getz 0 x) j) /\
    (exists nn bands bw nbw a at' s l1 tr, emdct_run R_ops c (ec_mdct ch) x (ec_out ch) (ec_bands ch) = Ok (nn, X, bands, ec_mdct ch') /\ bw_run R_ops (ec_bw ch) bands = Ok (bw, nbw) /\ attack_run R_ops c (ec_attack ch) x (len buf) = Ok (a, at') /\
       sns_encode R_ops R_eops c (firstn (Z.to_nat (ne c)) X) bands a = Ok (s, l1) /\ tns_encode R_ops R_eops (t_chk t) c l1 bw (len buf * 8) nn = Ok (tr, l)) /\
    (forall i, 0 <= i < p_lastnz p -> getz 0 (p_xq p) i = quantise_line R_ops (step_size c (len buf) p) (getz 0%R l i)) /\
    (clean_frame c (len buf) p -> exists fr q v, bytes buf' /\ read_frame true c buf' = Ok fr /\ f_side fr = spec_side p q /\ sns_legal q /\ sns_vector q = Ok v /\
      forall t' lines0, len lines0 = ne c -> exists sp, decode_lines R_ops t' c fr lines0 = Ok sp /\ len sp = ne c /\
        forall b j, 0 <= b < 64 -> 0 <= j < ne c -> getz 0 edges b <= j < getz 0 edges (b + 1) ->
          (Rabs (getz 0 sp j - getz 0 X j) <= Rpower 2 (curve (scale_factor q v) b) * sqrt (frame_gain (p_num_tns p) (spec_orders p) (spec_tns_idx p) * energy_gap c (len buf) p l j))%R).
Proof.
  intros t f d ch x buf Hf c W Hi Lx HN H2 A1 A2 FA. set (N := len buf) in *. assert (Lc : legal_config c) by (eexists _, _; reflexivity).
  assert (Nb : nb c = 64 /\ 1 <= fs_ind c) by (unfold c; destruct f, d; try (exfalso; now apply Hf); split; (reflexivity || (vm_compute; discriminate))). destruct Nb as [Nb Hfs].
  pose proof (alive_regular t c ch x N Lc Nb W Lx HN A1 A2 FA) as FR. destruct (config_geom c Lc) as (G1 & G2 & G3 & G4 & G5 & G6 & G7).
  destruct (analyse_full R_ops R_eops t c ch x N R_elaws Lc Nb Hfs W Hi Lx HN H2 FR) as ([p ch'] & E & W' & bw & nbw & s & tr & lp & q & xq & rb & nfv & l1 & l2 & h & n & m & b & B & Ep & ST & HX & nn & out & bands & a & at' & E1 & E2 & E3 & E4 & E5).
  destruct (stages_written R_ops R_eops R_elaws c N bw nbw s tr lp q xq rb nfv l1 l2 h n m b B buf Lc HN H2 ST eq_refl) as (buf' & Eb & Lb). rewrite <- Ep in Eb.
  pose proof W as [W1 W2 W3 W4 W5 W6 W7].
  destruct (emdct_R c (ec_mdct ch) x (ec_out ch) (ec_bands ch) Lc W1 Lx W6 W5 A1 A2) as (nn' & out' & bands' & m' & w & E1' & Ew & Lo & Lbd & Mm & Nn & Am & Te & Tx & Bx). rewrite E1 in E1'. apply Ok_inj in E1'.
  assert (X0 : out' = out /\ bands' = bands /\ m' = ec_mdct ch') by (repeat split; congruence). destruct X0 as (-> & -> & ->). clear E1'.
  destruct (FA _ _ _ _ _ _ _ _ E1 E2 E3) as [F1 F2]. destruct (FR _ _ _ _ _ _ _ _ E1 E2 E3) as [_ R2]. destruct (R2 _ _ E4) as [CR R3]. specialize (R3 _ _ E5). clear R2.
  set (lines := firstn (Z.to_nat (ne c)) out) in *. assert (Ll : len lines = ne c) by (unfold lines, len in *; rewrite firstn_length; lia). assert (Le : len bands = 64) by lia.
  assert (Gl : forall j, 0 <= j < ne c -> getz 0%R lines j = getz 0%R out j).
  { intros j Hj. unfold lines, getz. apply nth_firstn_any. unfold lines, len in Ll. lia. }
  destruct (C48_scale_factors_bounded c bands a Lc Nb Le Nn) as (scf & Es & _ & _). specialize (F1 scf Es).
  destruct (shaping_error c lines bands a scf Lc Nb Ll Le Nn Es F1) as (s' & l1' & sv & v & edges & E4' & L1 & Dq & Qs & Ev & Et & U & T1 & Err). rewrite E4 in E4'. apply Ok_inj in E4'. assert (X0 : s' = s /\ l1' = l1) by (split; congruence). destruct X0 as [-> ->]. clear E4'.
  pose proof (st_bw _ _ _ _ _ _ _ _ _ _ _ _ _ _ _ _ _ _ _ _ ST) as Hbw. pose proof (st_tns _ _ _ _ _ _ _ _ _ _ _ _ _ _ _ _ _ _ _ _ ST) as TL.
  pose proof (tl_len _ _ _ _ _ _ _ _ TL) as L2. destruct (gain_value c N bw nbw s tr lp q xq rb nfv l1 l2 h n m b B ST) as [Gv Gp]. rewrite <- Ep in Gv. fold (step_size c N p) in Gv.
  exists ch', buf', p, out, l2, w, edges. split; [unfold encode; fold N; rewrite E; cbn [bind]; rewrite Eb; reflexivity|]. split; [exact Lb|]. split; [exact E|]. split; [exact Ew|]. split; [exact Et|]. split; [exact Lo|]. split; [lia|]. split; [exact Tx|]. split; [exact Te|]. split; [exists nn, bands, bw, nbw, a, at', s, l1, tr; auto|]. split.
  { intros i Hl. assert (Hl' : 0 <= i < qr_last q) by (rewrite Ep in Hl; exact Hl). pose proof (ro_len _ _ _ _ _ _ _ _ _ _ _ _ (st_run _ _ _ _ _ _ _ _ _ _ _ _ _ _ _ _ _ _ _ _ ST)) as Lq. pose proof (ro_last _ _ _ _ _ _ _ _ _ _ _ _ (st_run _ _ _ _ _ _ _ _ _ _ _ _ _ _ _ _ _ _ _ _ ST)) as La.
    destruct (es_pairs _ _ _ _ _ _ _ _ (ro_est _ _ _ _ _ _ _ _ _ _ _ _ (st_run _ _ _ _ _ _ _ _ _ _ _ _ _ _ _ _ _ _ _ _ ST))) as [Hm Hn]. pose proof (st_h _ _ _ _ _ _ _ _ _ _ _ _ _ _ _ _ _ _ _ _ ST) as Hh.
    destruct (quantised_lines c N bw nbw s tr lp q xq rb nfv l1 l2 h n m b B Lc HN ST R3 i ltac:(lia)) as [_ Q2]. rewrite <- Gv. rewrite Ep. cbn [frame_params p_xq]. apply Q2. lia. }
  intros CF. rewrite Ep in CF. destruct CF as [C1 C2 C3 C4 C5 C6].
  destruct (frame_lines c N bw nbw s tr lp q xq rb nfv l1 l2 h n m b B Lc HN ST R3 sv buf Dq Qs C1 C2 eq_refl C3 C4) as (buf2 & fr & Eb' & _ & By & Er & Efs & Eo & Ei & Dec). rewrite <- Ep in *. rewrite Eb in Eb'. apply Ok_inj in Eb'. subst buf2.
  exists fr, sv, v. split; [exact By|]. split; [exact Er|]. split; [exact Efs|]. split; [exact Qs|]. split; [exact Ev|]. intros t' lines0 L0. destruct (Dec t' lines0 L0) as (y & Ly & Ey & Gy). rewrite Ey.
  assert (PB : p_bw p = bw /\ p_num_tns p = tr_num tr /\ p_rc_order p = tr_order tr /\ p_rc_i p = tr_rc_i tr /\ p_xq p = xq /\ p_res_bits p = rb) by (rewrite Ep; cbn; auto 8). destruct PB as (PB1 & PB2 & PB3 & PB4 & PB5 & PB6).
  destruct (tns_error (t_chk t) c l1 bw (N * 8) nn Lc L1 Hbw CR ltac:(rewrite <- PB1; exact C5)) as (tr' & l2' & E5' & _ & TP & TN & TE). rewrite E5 in E5'. apply Ok_inj in E5'. assert (X0 : tr' = tr /\ l2' = l2) by (split; congruence). destruct X0 as [-> ->]. clear E5'.
  assert (N12 : 1 <= tr_num tr <= 2) by (destruct (coded_ne c bw Lc Hbw) as [Hb4 _]; rewrite TN; destruct (n_ms c), (bw_cases bw Hb4) as [->|[->|[->|[->| ->]]]]; cbn; lia).
  destruct TP as (P1 & P2 & P3 & P4). destruct (orders_read p ltac:(congruence) ltac:(congruence) ltac:(lia)) as (O1 & O2 & O3). destruct (indices_read p ltac:(congruence) ltac:(congruence)) as (I1 & I2 & I3).
  destruct (TE (spec_orders p) (spec_tns_idx p) y O1 O2) as (z & Ez & Lz & Gz); auto.
  { intros f0 Hf0. rewrite O3 by lia. congruence. }
  { intros f0 k Hf0 Hk. assert (K8 : getz 0 (tr_order tr) f0 <= 8) by (rewrite Forall_forall in P3; apply P3; unfold getz; apply nth_In; unfold len in P1; lia).
    rewrite I3 by (rewrite ?PB2, ?PB3; lia). split; [congruence|]. apply C6; rewrite ?PB2, ?PB3; lia. }
  rewrite Ez. cbn [bind]. destruct (Err z Lz) as (sp & Esp & Lsp & Gsp). exists sp. split; [exact Esp|]. split; [exact Lsp|]. intros b0 j Hb0 Hj Hbj.
  rewrite <- Gl by exact Hj. rewrite (Gsp b0 j Hb0 Hbj Hj), Rabs_mult, Rmult_comm. rewrite (Rabs_right (Rpower _ _)) by (apply Rle_ge, Rlt_le, exp_pos). apply Rmult_le_compat_l; [apply Rlt_le, exp_pos|].
  apply abs_sqrt. eapply Rle_trans; [apply Gz; exact Hj|]. rewrite PB2. apply Rmult_le_compat_l; [apply Rle_trans with 1%R; [lra|]; apply (C52_gain_bounded (tr_num tr) (spec_orders p) (spec_tns_idx p)); auto; lia|].
  unfold gap, energy_gap. apply sm_le. intros k Hk. specialize (Gy (Z.of_nat k) ltac:(lia)). rewrite Gv in Gy. unfold sure, sent_bits_sure in *. rewrite <- Ep in Gy. rewrite PB5, PB6.
  rewrite <- (Rabs_mult_self (getz 0%R y (Z.of_nat k) - getz 0%R l2 (Z.of_nat k))%R). apply Rmult_le_compat; try apply Rabs_pos; exact Gy.
Qed.
Print Assumptions C53_spectrum_error.

(* ---- silence is a clean frame: with frames of 7.5 ms the hypotheses of C53 hold for every size of the frame ---- *)
Lemma silent_order chk c l1 bw nbits nn r y : legal_config c -> len l1 = ne c -> 0 <= bw <= fs_ind c -> (forall j, getz 0%R l1 j = 0%R) -> tns_encode R_ops R_eops chk c l1 bw nbits nn = Ok (r, y) ->
  forall f, 0 <= f < tr_num r -> getz 0 (tr_order r) f = 0.
Proof.
  intros Hc L1 Hb Z1 E f Hf. pose proof (silent_bands c l1 bw Hc Hb Z1) as SB. pose proof (empty_definite c l1 bw Hc L1 Hb SB) as BD.
  destruct (C51_sent chk c l1 bw nbits nn Hc L1 Hb BD) as (params & r' & y' & EP & E' & TN & _ & S1 & S2). rewrite E in E'. apply Ok_inj in E'. assert (X : r' = r) by congruence. subst r'. clear E'.
  destruct (S2 f ltac:(lia)) as (O1 & _ & O3). destruct (Z.eq_dec (getz 0 (tr_order r) f) 0) as [|N0]; [assumption|]. exfalso. apply O3; [lia|]. clear O3.
  destruct (Loops.idx_ok params f ltac:(lia)) as (p & Ep). destruct (S1 f p Ep) as (ac & rc0 & rc & A1 & A2 & A3 & A4 & A5 & A6).
  assert (Hp : In p params). { unfold idx in Ep. destruct (f <? 0); [discriminate|]. destruct (nth_error params (Z.to_nat f)) eqn:En; [|discriminate]. apply nth_error_In in En. congruence. }
  destruct (coded_ne c bw Hc Hb) as [Hb4 Hn]. destruct (TnsOk.enc_params (n_ms c) bw Hb4) as (params' & EP' & _ & LP & Fit & _). rewrite EP in EP'. apply Ok_inj in EP'. subst params'.
  assert (WH : forall k, (k < 9)%nat -> fn ac k = if Nat.eqb k 0 then 3%R else 0%R).
  { rewrite Forall_forall in Fit. specialize (Fit p Hp). pose proof (SB params p EP Hp) as He. destruct p as [[a b] subs]. cbn [snd] in *. destruct Fit as (_ & _ & Fs).
    destruct (autocorr_R l1 subs) as (r' & E'' & _ & W & _); [eapply Forall_impl; [|exact Fs]; intros [u v] Huv; unfold fits; cbn [fst snd]; lia|]. rewrite A1 in E''. apply Ok_inj in E''. subst r'. exact (W He). }
  destruct (C51_best_predictor ac f nn (tr_weighting r) rc0 A2 A3 ltac:(lia) A4) as (a & rc' & E1 & _ & [Ba _] & P & _ & _ & _ & Z0). rewrite A5 in E1. apply Ok_inj in E1. subst rc'.
  assert (E9 : (3 <= energy (fn ac) 9 a)%R).
  { assert (Es : energy (fn ac) 9 a = sm 9 (fun i => 3 * (a i * a i))%R).
    { rewrite energy_rows. apply sm_ext. intros j Hj. rewrite (sm_delta 9 _ j Hj).
      - unfold toep. rewrite WH by (unfold apart; lia). replace (apart j j) with 0%nat by (unfold apart; lia). cbn [Nat.eqb]. ring.
      - intros n Hn' Hne. unfold toep. rewrite WH by (unfold apart; lia). destruct (Nat.eqb_spec (apart j n) 0) as [E0|]; [unfold apart in E0; lia|ring]. }
    rewrite Es. apply Rle_trans with (3 * (a 0%nat * a 0%nat))%R; [rewrite Ba; lra|]. apply (sm_ge 9 (fun i => 3 * (a i * a i))%R 0%nat); [|lia]. intros j _. assert (0 <= a j * a j)%R by apply Rle_0_sqr. lra. }
  assert (G : (fn ac 0 / energy (fn ac) 9 a <= 3 / 2)%R). { rewrite WH by lia. cbn [Nat.eqb]. apply Rmult_le_reg_r with (energy (fn ac) 9 a); [exact P|]. unfold Rdiv at 1. rewrite Rmult_assoc, Rinv_l, Rmult_1_r by lra. lra. }
  set (k := Z.to_nat (getz 0 (tr_order r) f - 1)). specialize (A6 k ltac:(unfold k; lia)). rewrite (Z0 (or_introl G) k ltac:(unfold k; lia)), asin_0 in A6. unfold Rdiv in A6. rewrite Rmult_0_l, Rminus_0_r in A6.
  replace (f * 8 + getz 0 (tr_order r) f - 1) with (f * 8 + Z.of_nat k) by (unfold k; lia). set (v := getz 0 (tr_rc_i r) (f * 8 + Z.of_nat k)) in *. clearbody v.
  apply Rabs_def2b in A6 || (assert (A7 : (- / 2 <= IZR (v - 8) <= / 2)%R) by (revert A6; unfold Rabs; destruct (Rcase_abs _); intros; lra)).
  destruct (Z.eq_dec v 8) as [|Nv]; [assumption|exfalso]. assert (v - 8 <= -1 \/ 1 <= v - 8) as [H|H] by lia; apply IZR_le in H; lra.
Qed.
Lemma first_pair_empty xq : (forall i, getz 0 xq i = 0) -> forall n, nz_pair xq n = true -> 0 <= n -> False.
Proof. intros H n. unfold nz_pair. intros E Hn. pose proof (H n) as H1. pose proof (H (n + 1)) as H2. unfold getz in H1, H2. rewrite ?H1, ?H2 in E. cbn in E. discriminate. Qed.
Theorem silent_clean t c ch x N p ch' : legal_config c -> nb c = 64 -> 1 <= fs_ind c -> n_ms c = SevenPointFiveMs -> ech_wf c ch -> ec_index ch < t_umax t \/ t_chk t = false -> len x = nf c -> 20 <= N <= 400 -> fs_ind c < 3 \/ 31 <= N ->
  buffers (fun v => v = 0) c ch -> Forall (fun v => v = 0) x -> analyse R_ops R_eops t c ch x N = Ok (p, ch') -> clean_frame c N p.
Proof.
  intros Lc Nb Hfs Hms W Hi Lx HN H2 HB HX E. pose proof (silent_alive c ch x N Lc Nb W Lx HB HX) as FA.
  assert (A1 : audio (getz 0 (em_time (ec_mdct ch))) (2 * nf c)) by (intros j Hj; rewrite (HB j Hj); unfold i16; lia). destruct (config_geom c Lc) as (G1 & G2 & G3 & G4 & G5 & G6 & G7).
  assert (A2 : audio (getz 0 x) (nf c)) by (intros j Hj; rewrite Forall_forall in HX; rewrite (HX (getz 0 x j)); [unfold i16; lia|]; unfold getz; apply nth_In; unfold len in Lx; lia).
  pose proof (alive_regular t c ch x N Lc Nb W Lx HN A1 A2 FA) as FR.
  destruct (analyse_full R_ops R_eops t c ch x N R_elaws Lc Nb Hfs W Hi Lx HN H2 FR) as ([p' ch2] & E' & W' & bw & nbw & s & tr & lp & q & xq & rb & nfv & l1 & l2 & h & n & m & b & B & Ep & ST & HX' & nn & out & bands & a & at' & E1 & E2 & E3 & E4 & E5).
  rewrite E in E'. apply Ok_inj in E'. assert (X0 : p' = p /\ ch2 = ch') by (split; congruence). destruct X0 as [-> ->]. clear E'.
  destruct (silent_spectrum c ch x _ _ _ _ Lc W Lx HB HX E1) as (Lo & Lb & O0 & B0). destruct (silent_shaped c out bands a s l1 Lc Nb Lo Lb O0 B0 E4) as [L1 Z1].
  destruct ST as [S1 S2 S3 S4 S5 S6 S7 S8 S9 S10 S11 S12].
  pose proof (silent_order _ c l1 bw _ nn tr l2 Lc L1 S3 Z1 E5) as OR.
  destruct (FR _ _ _ _ _ _ _ _ E1 E2 E3) as [_ R2]. destruct (R2 _ _ E4) as [CR _]. clear R2.
  assert (Z2 : forall j, getz 0%R l2 j = 0%R).
  { destruct (filtered_small 0 _ c l1 bw _ nn tr l2 ltac:(lra) Lc L1 S3 CR ltac:(intros; rewrite Z1, Rabs_R0; lra) E5) as [L2 B2]. apply zeros_get. intros j Hj. specialize (B2 j ltac:(lia)). rewrite Rmult_0_l in B2. pose proof (Rabs_pos (getz 0%R l2 j)). destruct (Req_dec (getz 0%R l2 j) 0) as [|N0]; [assumption|]. pose proof (Rabs_pos_lt _ N0). lra. }
  destruct (gain_value c N bw nbw s tr lp q xq rb nfv l1 l2 h n m b B (mkStages _ _ _ _ _ _ _ _ _ _ _ _ _ _ _ _ _ _ _ _ S1 S2 S3 S4 S5 S6 S7 S8 S9 S10 S11 S12)) as [_ Gp].
  assert (Q0 : quantise_line R_ops (qr_gg q) 0%R = 0).
  { pose proof (R_quantise_error (qr_gg q) 0 Gp) as Q. rewrite Rabs_R0 in Q. assert (0 <= top * qr_gg q)%R by (apply Rmult_le_pos; [unfold top|]; lra). specialize (Q H). set (v := quantise_line R_ops (qr_gg q) 0%R) in *. clearbody v.
    destruct (Z.eq_dec v 0) as [|Nv]; [assumption|exfalso]. rewrite Rminus_0_l, Rabs_Ropp, Rabs_mult, (Rabs_right (qr_gg q)) in Q by lra. apply Rmult_le_reg_r in Q; [|exact Gp].
    assert (1 <= Rabs (IZR v))%R by (rewrite <- abs_IZR; apply IZR_le; lia). lra. }
  destruct S10 as [R1 R2 R3 R4 R5 R6 R7 R8 R9 R10 R11].
  assert (X0 : forall i, getz 0 xq i = 0).
  { intros i. destruct (Z_lt_dec i 0) as [H|H]; [|destruct (Z_lt_dec i (2 * Z.of_nat h)) as [H'|H']].
    - replace (getz 0 xq i) with (getz 0 xq 0) by (unfold getz; now replace (Z.to_nat i) with (Z.to_nat 0) by lia). destruct (config_geom c Lc) as (K1 & K2 & K3 & _). rewrite R11 by lia. destruct (0 <? qr_last q); [|reflexivity]. change (fz R_ops 0) with 0%R. rewrite Z2. exact Q0.
    - rewrite R11 by lia. destruct (i <? qr_last q); [|reflexivity]. change (fz R_ops 0) with 0%R. rewrite Z2. exact Q0.
    - unfold getz. apply nth_overflow. unfold len in R10. lia. }
  assert (X1 : Forall (fun v => v = 0) xq) by (apply Forall_forall; intros v Hv; apply (In_nth _ _ 0) in Hv; destruct Hv as (k & Hk & <-); specialize (X0 (Z.of_nat k)); unfold getz in X0; now rewrite Nat2Z.id in X0).
  assert (M0 : forall k, getz 0 (map (quantise_line R_ops (qr_gg q)) l2) k = 0).
  { intros k. unfold getz. destruct (Nat.lt_ge_cases (Z.to_nat k) (length l2)) as [Hl|Hl]; [|apply nth_overflow; now rewrite map_length].
    rewrite (nth_indep _ 0 (quantise_line R_ops (qr_gg q) 0%R)) by (now rewrite map_length). rewrite map_nth. specialize (Z2 k). unfold getz in Z2. rewrite Z2. exact Q0. }
  destruct R1 as [_ _ _ [K1 K2] _ K3 _ _ _ _ _ _].
  assert (N1 : n = 1%nat). { destruct (Nat.eq_dec n 1) as [|Nn]; [assumption|exfalso]. exact (first_pair_empty _ M0 _ (K3 ltac:(lia)) ltac:(lia)). }
  assert (M1 : m = 1%nat) by lia. subst n m. change (2 * Z.of_nat 1) with 2 in R9.
  assert (P0 : gain_floor R_ops R_eops l2 (gg_off (fs_ind c) (N * 8)) = 0).
  { unfold gain_floor. destruct (R_peak l2) as (P1 & _ & P3). specialize (P3 0%R (Rle_refl 0)). assert (PK : (peak R_ops R_eops l2 <= 0)%R).
    { apply P3. apply Forall_forall. intros v Hv. apply (In_nth _ _ 0%R) in Hv. destruct Hv as (k & Hk & <-). specialize (Z2 (Z.of_nat k)). unfold getz in Z2. rewrite Nat2Z.id in Z2. rewrite Z2, Rabs_R0. lra. }
    change (flt R_ops (fz R_ops 0) (peak R_ops R_eops l2)) with (Rlt_bool 0 (peak R_ops R_eops l2)). rewrite Rlt_bool_false by exact PK. reflexivity. }
  assert (PB : p_gg p = qr_gg_ind q /\ p_bw p = bw /\ p_nbits_bw p = nbw /\ p_num_tns p = tr_num tr /\ p_rc_order p = tr_order tr /\ p_rc_i p = tr_rc_i tr /\ p_xq p = xq /\ p_lastnz p = 2 /\ p_rate_flag p = qr_rate q) by (rewrite Ep; cbn; auto 12).
  destruct PB as (PB0 & PB1 & PB2 & PB3 & PB4 & PB5 & PB6 & PB7 & PB8).
  pose proof S6 as [(T1 & T2 & T3 & T4) T5 _ _ _ _ _ _ _ _].
  assert (N12 : 1 <= tr_num tr <= 2) by (destruct (coded_ne c bw Lc S3) as [Hb4 _]; rewrite T5; destruct (n_ms c), (bw_cases bw Hb4) as [->|[->|[->|[->| ->]]]]; cbn; lia).
  assert (TE : tns_evs (p_num_tns p) (p_lpc_weighting p) (p_rc_order p) (p_rc_i p) = []).
  { assert (FM : forall (g : Z -> list ev) l, (forall v, In v l -> g v = []) -> flat_map g l = []) by (induction l as [|v l IH]; intros H; [reflexivity|]; cbn [flat_map]; rewrite (H v (or_introl eq_refl)), IH; [reflexivity|]; intros; apply H; now right).
    rewrite PB3, PB4, PB5. unfold tns_evs. apply FM. intros v Hv. unfold zseq in Hv. apply in_map_iff in Hv. destruct Hv as (k & <- & Hk). apply in_seq in Hk. pose proof (OR (Z.of_nat k) ltac:(lia)) as O1. unfold getz in O1. unfold tns_filter_evs. rewrite O1. reflexivity. }
  assert (SE : spec_evs (Z.to_nat (p_lastnz p / 2)) (p_lsb_mode p) (ne c) 0 0 (p_rate_flag p) (p_xq p) = [ESym (msym (lk (qr_rate q) 0) 0)]).
  { rewrite PB6, PB7, PB8. change (Z.to_nat (2 / 2)) with 1%nat. cbn [spec_evs]. pose proof (X0 0) as Y0. pose proof (X0 1) as Y1. unfold getz in Y0, Y1. change (0 + 1) with 1. rewrite Y0, Y1. unfold pair_evs, pair_ctx.
    destruct (Z.ltb_spec (ne c / 2) 0) as [H|H]; [assert (0 <= ne c / 2) by (apply Z.div_pos; lia); lia|]. cbn [app]. replace (0 + qr_rate q + 0) with (qr_rate q) by lia. unfold sent_mag, sign_evs. change (esc_lev 16 (Z.abs 0) (Z.abs 0)) with 0. rewrite andb_false_r. change (0 <? Z.abs 0) with false. cbn [app]. reflexivity. }
  assert (PL : payload (ne c) p = map EBit (side_bits (ne c) p) ++ [ESym (msym (lk (qr_rate q) 0) 0)]) by (unfold payload; rewrite TE, SE; reflexivity).
  assert (EB : forall l, ev_bits (map EBit l) = l) by (induction l as [|v l IH]; [reflexivity|]; cbn; f_equal; exact IH).
  assert (EY : forall l, ev_syms (map EBit l) = []) by (induction l as [|v l IH]; [reflexivity|]; exact IH).
  assert (TB : tbits (payload (ne c) p) = len (side_bits (ne c) p)) by (rewrite PL; unfold tbits, ev_bits; rewrite flat_map_app; fold (ev_bits (map EBit (side_bits (ne c) p))); rewrite EB; cbn [flat_map]; now rewrite app_nil_r).
  assert (FI : fin (payload (ne c) p) = fin [ESym (msym (lk (qr_rate q) 0) 0)]) by (rewrite PL; unfold fin; f_equal; unfold ev_syms; rewrite flat_map_app; fold (ev_syms (map EBit (side_bits (ne c) p))); rewrite EY; reflexivity).
  assert (FV : fin (payload (ne c) p) = mkIval 0 294894 0 \/ fin (payload (ne c) p) = mkIval 0 12582144 1).
  { rewrite FI, R8. destruct (160 + fs_ind c * 160 <? N * 8); [right|left]; vm_compute; reflexivity. }
  assert (NB : 0 <= nbw <= 3) by (unfold idx in S4; assert (H : fs_ind c = 0 \/ fs_ind c = 1 \/ fs_ind c = 2 \/ fs_ind c = 3 \/ fs_ind c = 4) by lia; destruct H as [H|[H|[H|[H|H]]]]; rewrite H in S4; cbn in S4; apply Ok_inj in S4; lia).
  assert (SL : len (side_bits (ne c) p) <= 80).
  { rewrite side_bits_count by (rewrite ?PB2, ?PB3, ?PB4; lia). rewrite PB2, PB3. assert (Z.log2_up (ne c / 2) <= 8) by (destruct Lc as (f & d & ->); destruct f, d; vm_compute; discriminate). destruct (p_pitch_present p); lia. }
  assert (AB : ari_bits (fin (payload (ne c) p)) <= 10) by (destruct FV as [-> | ->]; vm_compute; discriminate).
  constructor.
  - rewrite PB0. lia.
  - rewrite PB6. eapply Forall_impl; [|exact X1]. cbv beta. intros v ->. lia.
  - unfold payload_bits. rewrite TB. lia.
  - left. intros [TW _]. destruct FV as [EE|EE]; rewrite EE in TW; vm_compute in TW; now apply TW.
  - rewrite Hms. intros [H _]. discriminate.
  - rewrite PB3, PB4. intros f k Hf Hk. rewrite OR in Hk by lia. lia.
Qed.
(* the first frame of silence, 32 kHz, 7.5 ms, 60 bytes, from a new encoder: every hypothesis of C53 holds and its conclusion is about a frame that the decoder reads *)
Example C53_spectrum_error_case : let t := mkTarget true 4294967295 in let c := config_new Hz32000 SevenPointFiveMs in let x := repeat 0 240 in let buf := repeat 0 60 in
  exists en ch, encoder_new R_ops 1 SevenPointFiveMs Hz32000 (repeat 0 (Z.to_nat 3800)) (repeat 0%R (Z.to_nat 2212)) (repeat (0%R, 0%R) (Z.to_nat 1920)) = Ok en /\ idx (e_channels en) 0 = Ok ch /\
    ech_wf c ch /\ ec_index ch < t_umax t /\ len x = nf c /\ audio (getz 0 (em_time (ec_mdct ch))) (2 * nf c) /\ audio (getz 0 x) (nf c) /\ frame_alive c ch x (len buf) /\
    exists ch' buf' p fr sp, encode R_ops R_eops t c ch x buf = Ok (ch', buf') /\ analyse R_ops R_eops t c ch x (len buf) = Ok (p, ch') /\ clean_frame c (len buf) p /\
      read_frame true c buf' = Ok fr /\ decode_lines R_ops t c fr (repeat 0%R (Z.to_nat (ne c))) = Ok sp.
Proof.
  intros t c x buf. assert (Z0 : forall n, Forall (fun v => v = 0) (repeat 0 n)) by (intros n; apply Forall_forall; intros v Hv; now apply repeat_spec in Hv).
  assert (HL : exists ni ns nx, enc_lens 1 SevenPointFiveMs Hz32000 = Ok (ni, ns, nx) /\ ni <= 3800 /\ ns <= 2212 /\ nx <= 1920) by (eexists _, _, _; split; [vm_compute; reflexivity|repeat split; vm_compute; discriminate]). destruct HL as (ni & ns & nx & HL & H1 & H2 & H3).
  destruct (encoder_new_ok R_ops t 1 SevenPointFiveMs Hz32000 ni ns nx (repeat 0 (Z.to_nat 3800)) (repeat 0%R (Z.to_nat 2212)) (repeat (0%R, 0%R) (Z.to_nat 1920)) 1) as (en & E & K & Ec & El); try (rewrite ?len_repeat; lia); try discriminate; [exact HL|right; vm_compute; discriminate|].
  destruct (Loops.idx_ok (e_channels en) 0 ltac:(lia)) as (ch & Ech). exists en, ch. split; [exact E|]. split; [exact Ech|]. pose proof K as [_ KC]. destruct (DecRun.Forall_getz _ _ _ _ KC Ech) as [W Wi]. rewrite Ec in W. fold c in W.
  assert (Lx : len x = nf c) by reflexivity. assert (Lc : legal_config c) by (eexists _, _; reflexivity).
  assert (HB : buffers (fun v => v = 0) c ch).
  { pose proof (new_buffers R_ops (fun v => v = 0) 1 SevenPointFiveMs Hz32000 _ _ _ en E (Z0 _)) as NB. pose proof (DecRun.Forall_getz _ _ _ _ NB Ech) as NC. destruct W as [[W1 _ _] _ _ _ _ _ _]. intros j Hj. rewrite Forall_forall in NC. apply NC. unfold getz. apply nth_In. unfold len in W1. lia. }
  assert (Hi : ec_index ch < t_umax t) by (destruct Wi as [Wi|Wi]; [discriminate Wi|]; lia).
  assert (A1 : audio (getz 0 (em_time (ec_mdct ch))) (2 * nf c)) by (intros j Hj; rewrite (HB j Hj); unfold i16; lia).
  assert (X0 : Forall (fun v => v = 0) x) by apply Z0. assert (A2 : audio (getz 0 x) (nf c)) by (intros j Hj; unfold x, getz; rewrite nth_repeat; unfold i16; lia).
  assert (FA : frame_alive c ch x (len buf)) by (apply silent_alive; auto).
  split; [exact W|]. split; [exact Hi|]. split; [exact Lx|]. split; [exact A1|]. split; [exact A2|]. split; [exact FA|].
  destruct (C53_spectrum_error t Hz32000 SevenPointFiveMs ch x buf ltac:(discriminate) W (or_introl Hi) Lx ltac:(vm_compute; split; discriminate) ltac:(right; vm_compute; discriminate) A1 A2 FA) as (ch' & buf' & p & X & l & w & edges & Ee & _ & Ea & _ & _ & _ & _ & _ & _ & _ & _ & D).
  assert (CF : clean_frame c (len buf) p) by (apply (silent_clean t c ch x (len buf) p ch'); auto; try (vm_compute; split; discriminate); [vm_compute; discriminate|right; vm_compute; discriminate]).
  destruct (D CF) as (fr & q & v & _ & Er & _ & _ & _ & DL). destruct (DL t (repeat 0%R (Z.to_nat (ne c)))) as (sp & Es & _); [reflexivity|]. exists ch', buf', p, fr, sp. auto.
Qed.
