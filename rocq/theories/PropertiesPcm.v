(* C54: the samples that come out of the decoder against the samples that went into the encoder, in exact arithmetic, while the post filter is off. *)
From Coq Require Import ZArith Lia List Bool Reals Lra.
From Flocq Require Import Core.
From Verif Require Import DecMdct.
From Verif Require Import Base Config Buffers BuffersProofs SideInfo Reader Mpvq SnsIndex AcSpec Loops BufLemmas Scalar EncScalar RealOps EncF32 DecSignal DecTotal DecState DecLtpf ParseBase ParseTotal EncMdct EncDetect DetectSpec
  EncSns EncSnsOk EncTns TnsOk EncLtpf EncLtpfOk EncQuant QuantSpec QuantReal EstimateSpec ArithDec FrameDec TailSpec FrameEnc PayloadSpec DecSide EncPayload FrameProofs EncFrame FrameSpec RoundTrip LineSpec DctSpec MdctSpec TdacSpec Dct4Inv Tdac MdctFormula MdctStream Decoder DecRun DecHistory DecEquiv Encoder EncOk PayloadBound EncRun
  Lpc TnsStable ChainError LineError EncShape SnsShape PropertiesShape PropertiesStable TnsLinear TnsLpc TnsCorr EncKeep EncReal PropertiesLpc PropertiesReal Chain PropertiesChain PcmError.
From Coq Require Import List.
Import ListNotations.
Local Open Scope Z_scope.

(* ---- a decoder made on cleared buffers is at rest ---- *)
Lemma new_rested num d f ns nx (s : list R) (x : list (R * R)) dec i ch : 0 <= num -> dec_lens num d f = Ok (ns, nx) -> ns <= len s -> nx <= len x -> Forall (fun v => v = 0%R) s ->
  decoder_new R_ops num d f s x = Ok dec -> idx (d_channels dec) i = Ok ch -> rested (config_new f d) ch /\ ch_index ch = 0.
Proof.
  intros Hn HL Hs Hx H0 E Ei. set (c := config_new f d). assert (L : legal_config c) by (eexists _, _; reflexivity).
  destruct (decoder_new_zeros R_ops _ _ _ _ _ _ _ E (idx_In _ _ _ Ei)) as [l Hl].
  destruct (dec_new_ok f d num s x ns nx Hn HL Hs Hx) as (parts & s' & x' & E1 & K & A1 & _). pose proof E as E0. unfold decoder_new in E. rewrite E1 in E. cbn [bind] in E. unfold dec_new in E1.
  destruct (channels_ok R_ops c L _ _ _ _ _ _ E1) as (chs & E2 & _ & HF). rewrite E2 in E. cbn [bind] in E. apply Ok_inj in E. subst dec. cbn [d_channels] in Ei. pose proof (idx_In _ _ _ Ei) as HI.
  rewrite Forall_forall in HF. destruct (HF ch HI) as [Kc Ki]. split; [|exact Ki]. destruct (map_res_In _ _ _ _ E2 HI) as ([sps cps] & Hp & HC).
  assert (P0 : Forall (fun q => Forall (fun v => v = 0%R) q) sps).
  { rewrite Forall_forall in H0 |- *. intros q Hq. apply Forall_forall. intros v Hv. apply H0. rewrite <- A1. apply in_or_app. left. apply in_concat. exists q. split; [|exact Hv]. unfold dec_parts. apply in_concat. exists sps. split; [|exact Hq]. apply in_map_iff. exists (sps, cps). auto. }
  unfold channel_of_parts in HC. do 15 (destruct sps as [|? sps]; [discriminate HC|]). destruct sps; [|discriminate HC]. do 4 (destruct cps as [|? cps]; [discriminate HC|]). destruct cps; [|discriminate HC]. apply Ok_inj in HC. subst ch.
  constructor; cbn [ch_mdct ch_ltpf m_zeros m_ola t_active] in *; [exact Kc| | |reflexivity].
  - intros j. rewrite Hl. unfold getz. apply nth_repeat.
  - intros j. do 2 apply Forall_inv_tail in P0. apply Forall_inv in P0. now apply all_zero_get.
Qed.

(* Any samples, any received data as long as no good frame switches the post filter on, lost frames included: what comes out is the input, late by nf - 2 z samples, up to half a unit for the rounding, 4e-14 of the sample
   for the precision of the window, and the distance between the lines which the decoder has and the MDCT of the input, in this frame and the one before. *)
Theorem C54_output_error : forall t num d f ns nx (s : list R) (x : list (R * R)) dec i ch frames cs, let c := config_new f d in
  0 <= num -> dec_lens num d f = Ok (ns, nx) -> ns <= len s -> nx <= len x -> Forall (fun v => v = 0%R) s -> decoder_new R_ops num d f s x = Ok dec -> idx (d_channels dec) i = Ok ch ->
  Forall (Forall i16) frames -> len cs <= t_umax t -> Forall (quiet_call t c) cs ->
  exists w rs ch' ss, mdct_window c = Ok w /\ run_channel R_ops t c ch cs = Ok (rs, ch') /\ states R_ops t c ch cs = Ok ss /\ length rs = length cs /\ length ss = length cs /\
    forall n, (n < length cs)%nat -> len (snd (nth n rs (None, []))) = nf c /\ fst (nth n rs (None, [])) = None /\ forall j, 0 <= j < nf c ->
      let p := IZR (late c frames (Z.of_nat n * nf c + j)) in let dist k := spectrum_distance c w frames (Z.of_nat k) (nth k (map ch_lines ss) []) in
      (Rabs (IZR (getz 0%Z (snd (nth n rs (None, []))) j) - p) <= / 2 + 4 / IZR (10 ^ 14) * Rabs p + 107 / 50 / sqrt (2 * IZR (nf c)) * ((match n with O => 0 | S m => dist m end) + dist n))%R.
Proof.
  intros t num d f ns nx s x dec i ch frames cs c Hn HL Hs Hx H0 E Ei HF Hc HQ. assert (L : legal_config c) by (eexists _, _; reflexivity). destruct (mdct_window_ok c L) as (w & Ew & _).
  destruct (new_rested num d f ns nx s x dec i ch Hn HL Hs Hx H0 E Ei) as [[R1 R2 R3 R4] R5].
  assert (HS : forall j, i16 (signal frames j)).
  { intros j. unfold signal. destruct (j <? 0); [unfold i16; lia|]. unfold getz. destruct (nth_in_or_default (Z.to_nat j) (concat frames) 0) as [Hi| ->]; [|unfold i16; lia]. apply in_concat in Hi. destruct Hi as (q & H1 & H2). rewrite Forall_forall in HF. specialize (HF q H1). rewrite Forall_forall in HF. now apply HF. }
  destruct (stream_pcm t c w frames L Ew HS cs ch 0 0%R R1 R2 R4) as (rs & ch' & ss & Q1 & Q2 & Q3 & Q4 & Q5); auto; [|lra|lia|].
  { intros j Hj. rewrite (R3 j). change (0 - 1) with (-1). rewrite (before_silent c w L Ew frames j Hj), Rmult_0_r, Rminus_0_r, Rabs_R0. lra. }
  exists w, rs, ch', ss. split; [exact Ew|]. split; [exact Q1|]. split; [exact Q2|]. split; [exact Q3|]. split; [exact Q4|]. intros n Hk. destruct (Q5 n Hk) as (P1 & P2 & P3). split; [exact P1|]. split; [exact P2|]. intros j Hj. specialize (P3 j Hj). cbv zeta in *. rewrite !Z.add_0_l in P3.
  destruct (config_geom c L) as (G1 & _). replace (107 / 50 / sqrt (2 * IZR (nf c)))%R with (MdctStream.slack c) by (unfold MdctStream.slack; field; apply Rgt_not_eq, sqrt_lt_R0; rewrite <- mult_IZR; apply IZR_lt; lia). destruct n; exact P3.
Qed.
Print Assumptions C54_output_error.

(* ---- with the encoder in front ---- *)
(* the bound of C53 summed over the lines, and the lines above the coded bandwidth *)
Definition spectrum_bound (c : config) (edges : list Z) (N : Z) (p : enc_params) (X l : list R) (q : sns_vq) (v : list Z) : R :=
  (rsum 64 (fun b => rsum (Z.to_nat (getz 0%Z edges (b + 1)%Z - getz 0%Z edges b)) (fun i =>
     Rpower 2 (curve (scale_factor q v) b) * sqrt (frame_gain (p_num_tns p) (spec_orders p) (spec_tns_idx p) * energy_gap c N p l (getz 0%Z edges b + i)%Z))) +
   rsum (Z.to_nat (nf c - ne c)) (fun k => Rabs (getz 0 X (ne c + k))))%R.
(* B belongs to the encoder in state e with input x: X is the MDCT of the audio, l what is quantised, q the shape which the decoder reads *)
Definition frame_bound (t : target) (c : config) (e : echannel R) (x buf : list Z) (B : R) : Prop :=
  exists p e' buf' fr X l q v edges nn bands bw nbw a at' s l1 tr,
    analyse R_ops R_eops t c e x (len buf) = Ok (p, e') /\ encode R_ops R_eops t c e x buf = Ok (e', buf') /\ read_frame true c buf' = Ok fr /\ f_side fr = spec_side p q /\ sns_vector q = Ok v /\ band_table c = Ok edges /\
    emdct_run R_ops c (ec_mdct e) x (ec_out e) (ec_bands e) = Ok (nn, X, bands, ec_mdct e') /\ bw_run R_ops (ec_bw e) bands = Ok (bw, nbw) /\ attack_run R_ops c (ec_attack e) x (len buf) = Ok (a, at') /\
    sns_encode R_ops R_eops c (firstn (Z.to_nat (ne c)) X) bands a = Ok (s, l1) /\ tns_encode R_ops R_eops (t_chk t) c l1 bw (len buf * 8) nn = Ok (tr, l) /\
    B = spectrum_bound c edges (len buf) p X l q v.
Fixpoint frame_bounds (t : target) (c : config) (e : echannel R) (io : list (list Z * list Z)) (Bs : list R) : Prop :=
  match io, Bs with
  | [], [] => True
  | (x, buf) :: io, B :: Bs => frame_bound t c e x buf B /\ forall e' buf', encode R_ops R_eops t c e x buf = Ok (e', buf') -> frame_bounds t c e' io Bs
  | _, _ => False
  end.
(* every frame can be analysed, fits and leaves the post filter off *)
Fixpoint clean_run (t : target) (c : config) (e : echannel R) (io : list (list Z * list Z)) : Prop :=
  match io with
  | [] => True
  | (x, buf) :: io => frame_alive c e x (len buf) /\ forall p e', analyse R_ops R_eops t c e x (len buf) = Ok (p, e') ->
      clean_frame c (len buf) p /\ (p_pitch_present p = true -> p_ltpf_active p = false) /\ clean_run t c e' io
  end.
Fixpoint encode_run (t : target) (c : config) (e : echannel R) (io : list (list Z * list Z)) : res (list (list Z) * echannel R) :=
  match io with
  | [] => Ok ([], e)
  | (x, buf) :: io => '(e, buf) <- encode R_ops R_eops t c e x buf ;; '(bs, e) <- encode_run t c e io ;; Ok (buf :: bs, e)
  end.
Definition good_input (c : config) (f : list Z * list Z) : Prop := len (fst f) = nf c /\ Forall i16 (fst f) /\ 20 <= len (snd f) <= 400 /\ (fs_ind c < 3 \/ 31 <= len (snd f)).

Lemma rsum_bands (e : Z -> Z) (g : Z -> R) : e 0 = 0 -> forall n, (forall b, 0 <= b < Z.of_nat n -> e b <= e (b + 1)) -> (rsum n (fun b => rsum (Z.to_nat (e (b + 1)%Z - e b)) (fun i => g (e b + i)%Z)) = rsum (Z.to_nat (e (Z.of_nat n))) g)%R /\ 0 <= e (Z.of_nat n).
Proof.
  intros E0. induction n as [|n IH]; intros H; [cbn [rsum]; change (Z.of_nat 0) with 0; rewrite E0; split; [reflexivity|lia]|]. destruct IH as [IH P]; [intros; apply H; lia|]. cbn [rsum]. rewrite IH. specialize (H (Z.of_nat n) ltac:(lia)).
  replace (Z.of_nat (S n)) with (Z.of_nat n + 1) by lia. split; [|lia]. replace (Z.to_nat (e (Z.of_nat n + 1))) with (Nat.add (Z.to_nat (e (Z.of_nat n))) (Z.to_nat (e (Z.of_nat n + 1) - e (Z.of_nat n)))) by lia. rewrite rsum_split. rewrite Z2Nat.id by lia. reflexivity.
Qed.

Section Codec.
Variable t : target.
Variable f : freq.
Variable d : duration.
Hypothesis Hf : f <> Hz8000.
Notation c := (config_new f d).
Variable w : list (Z * Z).
Hypothesis Ew : mdct_window c = Ok w.
Variable frames : list (list Z).
Hypothesis HF : Forall (fun x => len x = nf c /\ Forall i16 x) frames.

Lemma frame_sample : forall (l : list (list Z)) n x j, Forall (fun x => len x = nf c) l -> nth_error l n = Some x -> 0 <= j < nf c -> getz 0 (concat l) (Z.of_nat n * nf c + j) = getz 0 x j.
Proof.
  induction l as [|a l IH]; intros [|n] x j H E Hj; try discriminate E.
  - cbn in E. assert (a = x) by congruence. subst a. apply Forall_inv in H. cbn [concat]. change (Z.of_nat 0) with 0. rewrite Z.mul_0_l, Z.add_0_l. rewrite getz_app by lia. destruct (Z.ltb_spec j (len x)); [reflexivity|lia].
  - cbn in E. pose proof (Forall_inv H) as Ha. cbv beta in Ha. apply Forall_inv_tail in H. cbn [concat]. replace (Z.of_nat (S n) * nf c + j) with (nf c + (Z.of_nat n * nf c + j)) by (rewrite Nat2Z.inj_succ; ring). assert (0 <= Z.of_nat n * nf c) by (apply Z.mul_nonneg_nonneg; lia).
    rewrite getz_app by lia. destruct (Z.ltb_spec (nf c + (Z.of_nat n * nf c + j)) (len a)); [lia|]. rewrite <- (IH n x j H E Hj). f_equal. lia.
Qed.
Definition sender_at (n : nat) (e : echannel R) : Prop := forall j, 0 <= j < nf c - zlead c -> getz 0 (em_time (ec_mdct e)) (nf c + j) = block c frames (Z.of_nat n - 1) (nf c + j).

Lemma signal_i16 j : i16 (signal frames j).
Proof.
  unfold signal. destruct (j <? 0); [unfold i16; lia|]. unfold getz. destruct (nth_in_or_default (Z.to_nat j) (concat frames) 0) as [Hi| ->]; [|unfold i16; lia].
  apply in_concat in Hi. destruct Hi as (q & H1 & H2). rewrite Forall_forall in HF. destruct (HF q H1) as [_ H3]. rewrite Forall_forall in H3. now apply H3.
Qed.

Lemma codec_frame n e x buf : nth_error frames n = Some x -> ech_wf c e -> ec_index e < t_umax t \/ t_chk t = false -> audio (getz 0 (em_time (ec_mdct e))) (2 * nf c) -> good_input c (x, buf) -> sender_at n e -> frame_alive c e x (len buf) ->
  exists p e' buf', analyse R_ops R_eops t c e x (len buf) = Ok (p, e') /\ encode R_ops R_eops t c e x buf = Ok (e', buf') /\ ech_wf c e' /\ (t_chk t = false \/ ec_index e' = ec_index e + 1) /\ audio (getz 0 (em_time (ec_mdct e'))) (2 * nf c) /\ sender_at (S n) e' /\
    (clean_frame c (len buf) p -> exists fr q v B, frame_bound t c e x buf B /\ bytes buf' /\ read_frame true c buf' = Ok fr /\ f_side fr = spec_side p q /\ sns_vector q = Ok v /\
      forall t' lines0, len lines0 = ne c -> exists sp, decode_lines R_ops t' c fr lines0 = Ok sp /\ len sp = ne c /\ (spectrum_distance c w frames (Z.of_nat n) sp <= B)%R).
Proof.
  intros Hx W Hi A1 (I1 & I2 & I3 & I4) SA FA. cbn [fst snd] in *. assert (L : legal_config c) by (eexists _, _; reflexivity). destruct (config_geom c L) as (G1 & G2 & G3 & G4 & G5 & G6 & G7).
  assert (Nb : nb c = 64 /\ 1 <= fs_ind c) by (clear - Hf; destruct f, d; try (exfalso; now apply Hf); split; (reflexivity || (vm_compute; discriminate))). destruct Nb as [Nb Hfs].
  assert (A2 : audio (getz 0 x) (nf c)) by (intros j Hj; rewrite Forall_forall in I2; apply I2; unfold getz; apply nth_In; unfold len in I1; lia).
  destruct (C53_spectrum_error t f d e x buf Hf W Hi I1 I3 I4 A1 A2 FA) as (e' & buf' & p & X & l & w' & edges & Ee & _ & Ea & Ew' & Et & LX & Ll & MX & Te & (nn & bands & bw & nbw & a & at' & s & l1 & tr & B1 & B2 & B3 & B4 & B5) & _ & D).
  rewrite Ew in Ew'. apply Ok_inj in Ew'. subst w'.
  pose proof (alive_regular t c e x (len buf) L Nb W I1 I3 A1 A2 FA) as FR.
  destruct (analyse_full R_ops R_eops t c e x (len buf) R_elaws L Nb Hfs W Hi I1 I3 I4 FR) as ([p2 e2] & E' & W' & AX). rewrite Ea in E'. apply Ok_inj in E'. assert (p2 = p /\ e2 = e') as [-> ->] by (split; congruence). clear E'.
  assert (IX : t_chk t = false \/ ec_index e' = ec_index e + 1).
  { destruct AX as (? & ? & ? & ? & ? & ? & ? & ? & ? & ? & ? & ? & ? & ? & ? & ? & _ & _ & IX & _). destruct Hi as [Hi|Hi]; [right|now left]. rewrite IX. destruct (Z.leb_spec (t_umax t) (ec_index e)); [lia|reflexivity]. }
  assert (TB : forall j, 0 <= j < 2 * nf c - zlead c -> getz 0 (em_time (ec_mdct e')) j = block c frames (Z.of_nat n) j).
  { intros j Hj. rewrite Te by lia. unfold next_time. destruct (Z.ltb_spec j (nf c - zlead c)).
    - rewrite SA by lia. unfold block. f_equal. lia.
    - destruct (Z.ltb_spec j (2 * nf c - zlead c)); [|lia]. unfold block, signal. destruct (Z.ltb_spec (Z.of_nat n * nf c + j - (nf c - zlead c)) 0); [nia|].
      replace (Z.of_nat n * nf c + j - (nf c - zlead c)) with (Z.of_nat n * nf c + (j - (nf c - zlead c))) by lia. symmetry. apply frame_sample; [|exact Hx|lia]. eapply Forall_impl; [|exact HF]. cbv beta. tauto. }
  exists p, e', buf'. split; [exact Ea|]. split; [exact Ee|]. split; [exact W'|]. split; [exact IX|]. split.
  { intros j Hj. rewrite Te by lia. unfold next_time. destruct (Z.ltb_spec j (nf c - zlead c)); [apply A1; lia|]. destruct (Z.ltb_spec j (2 * nf c - zlead c)); [apply A2; lia|apply A1; lia]. }
  split. { intros j Hj. rewrite TB by lia. replace (Z.of_nat (S n) - 1) with (Z.of_nat n) by lia. reflexivity. }
  intros CF. destruct (D CF) as (fr & q & v & By & Er & Es & Ql & Ev & DL). exists fr, q, v, (spectrum_bound c edges (len buf) p X l q v).
  split. { exists p, e', buf', fr, X, l, q, v, edges, nn, bands, bw, nbw, a, at', s, l1, tr. auto 20. }
  split; [exact By|]. split; [exact Er|]. split; [exact Es|]. split; [exact Ev|]. intros t' lines0 L0. destruct (DL t' lines0 L0) as (sp & Esp & Lsp & Gsp). exists sp. split; [exact Esp|]. split; [exact Lsp|].
  assert (XM : forall k, 0 <= k < nf c -> mdct_of c w frames (Z.of_nat n) k = getz 0%R X k).
  { intros k Hk. rewrite MX by exact Hk. unfold mdct_of, mdct_formula. f_equal. apply rsum_ext. intros j Hj. f_equal. destruct (Z_lt_le_dec j (2 * nf c - zlead c)); [rewrite TB by lia; reflexivity|]. rewrite (win_zero c w L Ew j) by lia. ring. }
  destruct (band_table_ok f d) as (ed & Et' & EO). rewrite Et in Et'. apply Ok_inj in Et'. subst ed. rewrite Nb in EO. pose proof (edges_mono _ _ _ EO) as Mo. destruct EO as (EL & E0 & E64 & _).
  unfold spectrum_distance, spectrum_bound. replace (Z.to_nat (nf c)) with (Nat.add (Z.to_nat (ne c)) (Z.to_nat (nf c - ne c))) by lia. rewrite rsum_split. rewrite Z2Nat.id by lia. apply Rplus_le_compat.
  - destruct (rsum_bands (getz 0 edges) (fun k => Rabs ((if k <? ne c then getz 0 sp k else 0) - mdct_of c w frames (Z.of_nat n) k))%R E0 64 ltac:(intros; apply Mo; lia)) as [SB _]. change (Z.of_nat 64) with 64 in SB. rewrite E64 in SB. rewrite <- SB.
    apply rsum_le. intros b Hb. apply rsum_le. intros i Hi'. pose proof (Mo b (b + 1) ltac:(lia) ltac:(lia)). pose proof (Mo (b + 1) 64 ltac:(lia) ltac:(lia)). pose proof (Mo 0 b ltac:(lia) ltac:(lia)). rewrite Z2Nat.id in Hi' by lia.
    destruct (Z.ltb_spec (getz 0 edges b + i) (ne c)); [|lia]. rewrite XM by lia. apply Gsp; lia.
  - apply rsum_le. intros k Hk. destruct (Z.ltb_spec (ne c + k) (ne c)); [lia|]. rewrite XM by lia. rewrite Rminus_0_l, Rabs_Ropp. lra.
Qed.

Definition readable (n : nat) (buf' : list Z) (B : R) : Prop := exists fr, bytes buf' /\ read_frame true c buf' = Ok fr /\ l_active (s_ltpf (f_side fr)) = false /\
  forall t' lines0, len lines0 = ne c -> exists sp, decode_lines R_ops t' c fr lines0 = Ok sp /\ len sp = ne c /\ (spectrum_distance c w frames (Z.of_nat n) sp <= B)%R.
Lemma sender_run : forall io e n, (forall m, nth_error (map fst io) m = nth_error frames (n + m)) -> ech_wf c e -> ec_index e + len io <= t_umax t \/ t_chk t = false -> audio (getz 0 (em_time (ec_mdct e))) (2 * nf c) -> Forall (good_input c) io -> sender_at n e -> clean_run t c e io ->
  exists bufs e' Bs, encode_run t c e io = Ok (bufs, e') /\ frame_bounds t c e io Bs /\ length bufs = length io /\ length Bs = length io /\ forall m, (m < length io)%nat -> readable (n + m) (nth m bufs []) (nth m Bs 0%R).
Proof.
  induction io as [|[x buf] io IH]; intros e n HX W Hi A1 HG SA CR; [exists [], e, []; repeat split; cbn; intros; lia|].
  assert (Li : len ((x, buf) :: io) = len io + 1) by (unfold len; cbn [length]; lia). pose proof (len_nonneg io). cbn [clean_run] in CR. destruct CR as [FA CR].
  pose proof (HX 0%nat) as HX0. cbn in HX0. rewrite Nat.add_0_r in HX0. pose proof (Forall_inv HG) as G1. apply Forall_inv_tail in HG.
  destruct (codec_frame n e x buf (eq_sym HX0) W ltac:(destruct Hi; [left; lia|now right]) A1 G1 SA FA) as (p & e1 & buf1 & Ea & Ee & W1 & I1 & A2 & SA1 & D). destruct (CR p e1 Ea) as (CF & PA & CR1).
  destruct (D CF) as (fr & q & v & B & FB & By & Er & Es & _ & DL).
  destruct (IH e1 (S n)) as (bufs & e' & Bs & R1 & R2 & R3 & R4 & R5); auto.
  { intros m. specialize (HX (S m)). cbn [map nth_error] in HX. rewrite HX. f_equal. lia. }
  { destruct Hi as [Hi|Hi]; [|now right]. destruct I1 as [I1|I1]; [now right|left; lia]. }
  exists (buf1 :: bufs), e', (B :: Bs). cbn [encode_run frame_bounds]. rewrite Ee. cbn [bind]. rewrite R1. cbn [bind]. split; [reflexivity|]. split.
  { split; [exact FB|]. intros e2 buf2 E2. apply Ok_inj in E2. assert (e2 = e1) by congruence. subst e2. exact R2. }
  cbn [length]. split; [lia|]. split; [lia|]. intros [|m] Hm.
  - rewrite Nat.add_0_r. cbn [nth]. exists fr. split; [exact By|]. split; [exact Er|]. split; [|exact DL]. rewrite Es. unfold spec_side. cbn [s_ltpf]. destruct (p_pitch_present p); cbn [l_active]; [now apply PA|reflexivity].
  - cbn [nth]. replace (n + S m)%nat with (S n + m)%nat by lia. apply R5. lia.
Qed.

(* the lines which the decoder has after each call are those of the frame that it reads *)
Lemma receiver_run : forall bufs (ch : channel R) n Bs, channel_ok c ch -> ch_index ch + len bufs <= t_umax t -> length Bs = length bufs -> (forall m, (m < length bufs)%nat -> readable (n + m) (nth m bufs []) (nth m Bs 0%R)) -> forall outs ss, length outs = length bufs ->
  states R_ops t c ch (map (fun p => mkCall 16 0 (fst p) (snd p)) (combine bufs outs)) = Ok ss -> forall m, (m < length bufs)%nat -> (spectrum_distance c w frames (Z.of_nat (n + m)) (nth m (map ch_lines ss) []) <= nth m Bs 0)%R.
Proof.
  assert (L : legal_config c) by (eexists _, _; reflexivity).
  induction bufs as [|b bufs IH]; intros ch n Bs K Hi LB HR outs ss Lo Hs m Hm; [cbn in Hm; lia|]. destruct outs as [|o outs]; [discriminate Lo|]. destruct Bs as [|B Bs]; [discriminate LB|].
  assert (Li : len (b :: bufs) = len bufs + 1) by (unfold len; cbn [length]; lia). pose proof (len_nonneg bufs). cbn [combine map states k_bits k_buf k_out fst snd] in Hs.
  destruct (HR 0%nat ltac:(cbn; lia)) as (fr & By & Er & _ & DL). cbn [nth] in By, Er, DL. rewrite Nat.add_0_r in DL.
  assert (Er' : read_frame (t_chk t) c b = Ok fr) by (destruct (t_chk t); [exact Er|now apply read_frame_unchecked]).
  destruct (decode_channel_ok R_ops t c ch b o L K By ltac:(congruence) ltac:(lia)) as ([[r ch1] out1] & E1 & _ & K1 & I1 & _ & _). rewrite E1 in Hs. cbn [bind] in Hs.
  destruct (states R_ops t c ch1 _) as [ss1| |] eqn:ES; cbn [bind] in Hs; try discriminate Hs. apply Ok_inj in Hs. subst ss. destruct m as [|m].
  - rewrite Nat.add_0_r. cbn [map nth]. destruct (decode_channel_lines R_ops t c ch b o r ch1 out1 E1) as (p & lines & info & ED & -> & _). unfold decode_spectrum in ED. rewrite Er' in ED.
    destruct (DL t (ch_lines ch) (co_lines _ _ K)) as (sp & Esp & _ & Hd). rewrite Esp in ED. cbn [bind] in ED. destruct (plc_save R_ops (ch_plc ch) sp); cbn [bind] in ED; try discriminate ED. apply Ok_inj in ED. assert (sp = lines) by congruence. subst sp. exact Hd.
  - cbn [map nth]. replace (n + S m)%nat with (S n + m)%nat by lia. apply (IH ch1 (S n) Bs K1 ltac:(lia) ltac:(cbn in LB; lia)) with (outs := outs); auto; [|cbn in Hm; lia].
    intros k Hk. specialize (HR (S k) ltac:(cbn; lia)). cbn [nth] in HR. replace (S n + k)%nat with (n + S k)%nat by lia. exact HR.
Qed.
End Codec.

(* Encoder and decoder, both new, on any number of frames of 16 bit audio, as long as each frame can be analysed, fits and leaves the post filter off. *)
Theorem C54_codec_error : forall t f d e ch io outs, f <> Hz8000 -> let c := config_new f d in
  ech_wf c e -> buffers (fun v => v = 0) c e -> ec_index e + len io <= t_umax t \/ t_chk t = false -> rested c ch -> ch_index ch + len io <= t_umax t -> Forall (good_input c) io -> length outs = length io -> Forall (fun o => len o = nf c) outs -> clean_run t c e io ->
  exists bufs e' Bs rs ch', encode_run t c e io = Ok (bufs, e') /\ frame_bounds t c e io Bs /\ length Bs = length io /\ run_channel R_ops t c ch (map (fun p => mkCall 16 0 (fst p) (snd p)) (combine bufs outs)) = Ok (rs, ch') /\ length rs = length io /\
    forall n j, (n < length io)%nat -> 0 <= j < nf c -> let p := IZR (late c (map fst io) (Z.of_nat n * nf c + j)) in fst (nth n rs (None, [])) = None /\
      (Rabs (IZR (getz 0%Z (snd (nth n rs (None, []))) j) - p) <= / 2 + 4 / IZR (10 ^ 14) * Rabs p + 107 / 50 / sqrt (2 * IZR (nf c)) * ((match n with O => 0 | S m => nth m Bs 0 end) + nth n Bs 0))%R.
Proof.
  intros t f d e ch io outs Hf c W HB Hi [R1 R2 R3 R4] Hc HG Lo HO CR. assert (L : legal_config c) by (eexists _, _; reflexivity). destruct (mdct_window_ok c L) as (w & Ew & _). destruct (config_geom c L) as (G1 & G2 & G3 & G4 & _).
  set (frames := map fst io). assert (HF : Forall (fun x => len x = nf c /\ Forall i16 x) frames) by (unfold frames; apply Forall_map; eapply Forall_impl; [|exact HG]; intros q (P1 & P2 & _); auto).
  destruct (sender_run t f d Hf w Ew frames HF io e 0) as (bufs & e' & Bs & E1 & E2 & E3 & E4 & E5); auto.
  { intros j Hj. rewrite (HB j Hj). unfold i16. lia. }
  { intros j Hj. assert (Hj' : 0 <= nf c + j < 2 * nf c) by (unfold c in *; lia). pose proof (HB (nf c + j) Hj') as E0. cbv beta in E0. transitivity 0; [exact E0|]. unfold block, signal. fold c. fold c in Hj. destruct (Z.ltb_spec ((Z.of_nat 0 - 1) * nf c + (nf c + j) - (nf c - zlead c)) 0); [reflexivity|unfold c in *; lia]. }
  set (cs := map (fun p => mkCall 16 0 (fst p) (snd p)) (combine bufs outs)). assert (Lc : length cs = length io) by (unfold cs; rewrite map_length, combine_length; lia).
  assert (HQ : Forall (quiet_call t c) cs).
  { apply Forall_forall. intros k Hk. unfold cs in Hk. apply in_map_iff in Hk. destruct Hk as ([b o] & <- & Hbo). pose proof (in_combine_l _ _ _ _ Hbo) as Hb. pose proof (in_combine_r _ _ _ _ Hbo) as Ho. apply (In_nth _ _ []) in Hb. destruct Hb as (m & Hm & <-).
    destruct (E5 m ltac:(lia)) as (fr & By & Er & La & _). unfold quiet_call. cbn [k_bits k_buf k_out fst snd]. split; [reflexivity|]. split; [exact By|]. split; [rewrite Forall_forall in HO; now apply HO|]. left. assert (Er' : read_frame (t_chk t) c (nth m bufs []) = Ok fr) by (destruct (t_chk t); [exact Er|exact (read_frame_unchecked _ _ _ Er)]). unfold plain_frame. rewrite Er'. exact La. }
  destruct (stream_pcm t c w frames L Ew (signal_i16 f d frames HF) cs ch 0 0%R R1 R2 R4) as (rs & ch' & ss & Q1 & Q2 & Q3 & Q4 & Q5); auto; [|lra|unfold len in *; lia|].
  { intros j Hj. rewrite (R3 j). change (0 - 1) with (-1). rewrite (before_silent c w L Ew frames j Hj), Rmult_0_r, Rminus_0_r, Rabs_R0. lra. }
  exists bufs, e', Bs, rs, ch'. split; [exact E1|]. split; [exact E2|]. split; [exact E4|]. split; [exact Q1|]. split; [lia|]. intros n j Hn Hj p.
  destruct (Q5 n ltac:(lia)) as (P1 & P2 & P3). split; [exact P2|]. specialize (P3 j Hj). cbv zeta in P3. rewrite !Z.add_0_l in P3. fold frames in p. fold p in P3. eapply Rle_trans; [exact P3|]. apply Rplus_le_compat_l.
  replace (107 / 50 / sqrt (2 * IZR (nf c)))%R with (MdctStream.slack c) by (unfold MdctStream.slack; field; apply Rgt_not_eq, sqrt_lt_R0; rewrite <- mult_IZR; apply IZR_lt; lia). pose proof (slack_pos c L) as Sp.
  assert (DB : forall m, (m < length io)%nat -> (spectrum_distance c w frames (Z.of_nat m) (nth m (map ch_lines ss) []) <= nth m Bs 0)%R).
  { intros m Hm. apply (receiver_run t f d w frames bufs ch 0 Bs R1) with (outs := outs); auto; try lia. unfold len in *. lia. intros k Hk. apply E5. lia. }
  apply Rmult_le_compat_l; [lra|]. apply Rplus_le_compat; [|now apply DB]. destruct n as [|n]; [lra|]. rewrite Z.add_0_l. apply DB. lia.
Qed.
Print Assumptions C54_codec_error.

(* From 560 + 80 fs_ind bits in 10 ms on the encoder never switches the post filter on, whatever the audio. *)
Lemma high_rate_plain t c e x N p e' : 560 + fs_ind c * 80 <= ltpf_nbits (n_ms c) (N * 8) -> analyse R_ops R_eops t c e x N = Ok (p, e') -> p_ltpf_active p = false.
Proof.
  intros HN E. unfold analyse in E. destruct (uincr t (ec_index e)) as [ix| |]; cbn [bind] in E; try discriminate E.
  destruct (emdct_run _ _ _ _ _ _) as [[[[nn out] bands] m]| |]; cbn [bind] in E; try discriminate E.
  destruct (split_at (ne c) out) as [[lines rest]| |]; cbn [bind] in E; try discriminate E.
  destruct (bw_run _ _ _) as [[bw nbw]| |]; cbn [bind] in E; try discriminate E.
  destruct (attack_run _ _ _ _ _) as [[a at']| |]; cbn [bind] in E; try discriminate E.
  destruct (sns_encode _ _ _ _ _ _) as [[s l1]| |]; cbn [bind] in E; try discriminate E.
  destruct (tns_encode _ _ _ _ _ _ _ _) as [[tn l2]| |]; cbn [bind] in E; try discriminate E.
  destruct (eltpf_run _ _ _ _ _ _ _) as [[lp lt']| |] eqn:EL; cbn [bind] in E; try discriminate E.
  destruct (quant_run _ _ _ _ _ _ _ _ _ _ _ _) as [[[q xq] qst]| |]; cbn [bind] in E; try discriminate E.
  destruct (residual_encode _ _ _ _ _ _ _) as [rb| |]; cbn [bind] in E; try discriminate E.
  destruct (noise_factor _ _ _ _ _ _ _ _) as [nfv| |]; cbn [bind] in E; try discriminate E. apply Ok_inj in E.
  assert (Ep : p = frame_params bw nbw s tn lp q rb nfv xq) by congruence. subst p. change (p_ltpf_active (frame_params bw nbw s tn lp q rb nfv xq)) with (lr_active lp). clear E.
  unfold eltpf_run in EL. destruct (assert _) as [[]| |]; cbn [bind] in EL; try discriminate EL. destruct (eltpf_lens (n_ms c)) as [[l12 l6] delay].
  destruct (eltpf_factors (fs c)) as [[[up rf] z]| |]; cbn [bind] in EL; try discriminate EL. destruct (shift_samples _ _ _ _ _) as [[[xs x12] x6]| |]; cbn [bind] in EL; try discriminate EL.
  destruct (resample _ _ _ _ _ _ _) as [y| |]; cbn [bind] in EL; try discriminate EL. destruct (highpass50 _ _ _ _) as [[[y1 h1] h2]| |]; cbn [bind] in EL; try discriminate EL.
  destruct (pitch_detect _ _ _ _ _) as [[[tt pr] y6]| |]; cbn [bind] in EL; try discriminate EL. destruct (pitch_lag _ _ _ _) as [[[ii pp] ff]| |]; cbn [bind] in EL; try discriminate EL.
  destruct (ltpf_nbits (n_ms c) (N * 8) <? 560 + fs_ind c * 80) eqn:G; [apply Z.ltb_lt in G; lia|]. unfold activation in EL. destruct (for_range _ _ _ _) as [[[n0 n1] n2]| |]; cbn [bind] in EL; try discriminate EL.
  apply Ok_inj in EL. inversion EL. reflexivity.
Qed.

(* any number of frames of silence at 7.5 ms: the hypotheses on the frames hold *)
Lemma silent_run t f : f <> Hz8000 -> let c := config_new f SevenPointFiveMs in forall io e, ech_wf c e -> ec_index e + len io <= t_umax t \/ t_chk t = false -> buffers (fun v => v = 0) c e ->
  Forall (fun q => good_input c q /\ Forall (fun v => v = 0) (fst q) /\ 560 + fs_ind c * 80 <= ltpf_nbits (n_ms c) (len (snd q) * 8)) io -> clean_run t c e io.
Proof.
  intros Hf c. assert (L : legal_config c) by (eexists _, _; reflexivity). assert (Nb : nb c = 64 /\ 1 <= fs_ind c) by (clear - Hf; subst c; destruct f; try (exfalso; now apply Hf); split; (reflexivity || (vm_compute; discriminate))). destruct Nb as [Nb Hfs].
  induction io as [|[x buf] io IH]; intros e W Hi HB HG; [exact I|]. assert (Li : len ((x, buf) :: io) = len io + 1) by (unfold len; cbn [length]; lia). pose proof (len_nonneg io).
  pose proof (Forall_inv HG) as ((I1 & I2 & I3 & I4) & X0 & HN). apply Forall_inv_tail in HG. cbn [fst snd] in *. cbn [clean_run].
  pose proof (silent_alive c e x (len buf) L Nb W I1 HB X0) as FA. split; [exact FA|]. intros p e' Ea. assert (Hi1 : ec_index e < t_umax t \/ t_chk t = false) by (destruct Hi; [left; lia|now right]).
  split; [apply (silent_clean t c e x (len buf) p e'); auto|]. split; [intros _; now apply (high_rate_plain t c e x (len buf) p e')|].
  assert (A1 : audio (getz 0 (em_time (ec_mdct e))) (2 * nf c)) by (intros j Hj; rewrite (HB j Hj); unfold i16; lia). destruct (config_geom c L) as (G1 & _).
  assert (A2 : audio (getz 0 x) (nf c)) by (intros j Hj; rewrite Forall_forall in X0; rewrite (X0 (getz 0 x j)); [unfold i16; lia|]; unfold getz; apply nth_In; unfold len in I1; lia).
  pose proof (alive_regular t c e x (len buf) L Nb W I1 I3 A1 A2 FA) as FR.
  destruct (analyse_full R_ops R_eops t c e x (len buf) R_elaws L Nb Hfs W Hi1 I1 I3 I4 FR) as ([p2 e2] & E' & W' & AX). rewrite Ea in E'. apply Ok_inj in E'. assert (p2 = p /\ e2 = e') as [-> ->] by (split; congruence).
  destruct AX as (? & ? & ? & ? & ? & ? & ? & ? & ? & ? & ? & ? & ? & ? & ? & ? & _ & _ & IX & nn & out & bands & a & at' & E1 & _). apply IH; auto.
  - destruct Hi as [Hi|Hi]; [left|now right]. rewrite IX. destruct (Z.leb_spec (t_umax t) (ec_index e)); lia.
  - destruct W as [W1 _ _ _ W5 W6 _]. exact (emdct_keeps R_ops (fun v => v = 0) c (ec_mdct e) x (ec_out e) (ec_bands e) nn out bands (ec_mdct e') L W1 I1 W6 W5 HB X0 E1).
Qed.

(* k frames of silence, 32 kHz, 7.5 ms, 150 bytes each, a new encoder and a new decoder: every hypothesis holds *)
Example C54_codec_error_case : forall k, Z.of_nat k <= 1000 -> let t := mkTarget true 4294967295 in let c := config_new Hz32000 SevenPointFiveMs in let io := repeat (repeat 0 240, repeat 0 150) k in let outs := repeat (repeat 0 240) k in
  exists en e dec ch, encoder_new R_ops 1 SevenPointFiveMs Hz32000 (repeat 0 (Z.to_nat 3800)) (repeat 0%R (Z.to_nat 2212)) (repeat (0%R, 0%R) (Z.to_nat 1920)) = Ok en /\ idx (e_channels en) 0 = Ok e /\
    decoder_new R_ops 1 SevenPointFiveMs Hz32000 (repeat 0%R (Z.to_nat 8000)) (repeat (0%R, 0%R) (Z.to_nat 4000)) = Ok dec /\ idx (d_channels dec) 0 = Ok ch /\
    ech_wf c e /\ buffers (fun v => v = 0) c e /\ ec_index e + len io <= t_umax t /\ rested c ch /\ ch_index ch + len io <= t_umax t /\ Forall (good_input c) io /\ length outs = length io /\ Forall (fun o => len o = nf c) outs /\ clean_run t c e io /\
    exists bufs e', encode_run t c e io = Ok (bufs, e') /\ length bufs = k.
Proof.
  intros k Hk t c io outs. assert (Z0 : forall n, Forall (fun v => v = 0) (repeat 0 n)) by (intros n; apply Forall_forall; intros v Hv; now apply repeat_spec in Hv). assert (R0 : forall n, Forall (fun v => v = 0%R) (repeat 0%R n)) by (intros n; apply Forall_forall; intros v Hv; now apply repeat_spec in Hv).
  assert (HL : exists ni ns nx, enc_lens 1 SevenPointFiveMs Hz32000 = Ok (ni, ns, nx) /\ ni <= 3800 /\ ns <= 2212 /\ nx <= 1920) by (eexists _, _, _; split; [vm_compute; reflexivity|repeat split; vm_compute; discriminate]). destruct HL as (ni & ns & nx & HL & H1 & H2 & H3).
  assert (DL : exists ms mx, dec_lens 1 SevenPointFiveMs Hz32000 = Ok (ms, mx) /\ ms <= 8000 /\ mx <= 4000) by (eexists _, _; split; [vm_compute; reflexivity|repeat split; vm_compute; discriminate]). destruct DL as (ms & mx & DL & D1 & D2).
  assert (Lio : len io = Z.of_nat k) by (unfold io, len; rewrite repeat_length; reflexivity).
  destruct (encoder_new_ok R_ops t 1 SevenPointFiveMs Hz32000 ni ns nx (repeat 0 (Z.to_nat 3800)) (repeat 0%R (Z.to_nat 2212)) (repeat (0%R, 0%R) (Z.to_nat 1920)) (len io)) as (en & E & K & Ec & El); try (rewrite ?len_repeat; lia); try discriminate; [exact HL|right; change (t_umax t) with 4294967295; lia|].
  destruct (Loops.idx_ok (e_channels en) 0 ltac:(lia)) as (e & Ech). destruct (decoder_new_ok R_ops t 1 SevenPointFiveMs Hz32000 ms mx (repeat 0%R (Z.to_nat 8000)) (repeat (0%R, 0%R) (Z.to_nat 4000)) (len io)) as (dec & ED & KD & EDc & EDl); try (rewrite ?len_repeat; lia); [exact DL|change (t_umax t) with 4294967295; lia|].
  destruct (Loops.idx_ok (d_channels dec) 0 ltac:(lia)) as (ch & Edc). exists en, e, dec, ch. split; [exact E|]. split; [exact Ech|]. split; [exact ED|]. split; [exact Edc|].
  pose proof K as [_ KC]. destruct (DecRun.Forall_getz _ _ _ _ KC Ech) as [W Wi]. rewrite Ec in W. fold c in W. split; [exact W|].
  assert (HB : buffers (fun v => v = 0) c e).
  { pose proof (new_buffers R_ops (fun v => v = 0) 1 SevenPointFiveMs Hz32000 _ _ _ en E (Z0 _)) as NB. pose proof (DecRun.Forall_getz _ _ _ _ NB Ech) as NC. destruct W as [[W1 _ _] _ _ _ _ _ _]. intros j Hj. rewrite Forall_forall in NC. apply NC. unfold getz. apply nth_In. unfold len in W1. lia. }
  split; [exact HB|]. assert (Hi : ec_index e + len io <= t_umax t) by (destruct Wi as [Wi|Wi]; [discriminate Wi|]; lia). split; [exact Hi|].
  destruct (new_rested 1 SevenPointFiveMs Hz32000 ms mx (repeat 0%R (Z.to_nat 8000)) (repeat (0%R, 0%R) (Z.to_nat 4000)) dec 0 ch ltac:(lia) DL ltac:(rewrite len_repeat; lia) ltac:(rewrite len_repeat; lia) (R0 _) ED Edc) as [Rs Ix]. split; [exact Rs|]. split; [rewrite Ix; change (t_umax t) with 4294967295; lia|].
  assert (HG : Forall (fun q => good_input c q /\ Forall (fun v => v = 0) (fst q) /\ 560 + fs_ind c * 80 <= ltpf_nbits (n_ms c) (len (snd q) * 8)) io).
  { apply Forall_forall. intros q Hq. apply repeat_spec in Hq. subst q. cbn [fst snd]. split; [|split; [apply Z0|vm_compute; discriminate]]. split; [reflexivity|]. split; [eapply Forall_impl; [|apply Z0]; cbv beta; intros v ->; unfold i16; lia|]. split; [vm_compute; split; discriminate|right; vm_compute; discriminate]. }
  assert (HG' : Forall (good_input c) io) by (eapply Forall_impl; [|exact HG]; cbv beta; tauto). split; [exact HG'|].
  assert (HO1 : length outs = length io) by (unfold outs, io; now rewrite !repeat_length). split; [exact HO1|]. assert (HO2 : Forall (fun o => len o = nf c) outs) by (apply Forall_forall; intros q Hq; apply repeat_spec in Hq; now subst q). split; [exact HO2|].
  assert (CR : clean_run t c e io) by (apply silent_run; auto; discriminate). split; [exact CR|].
  destruct (C54_codec_error t Hz32000 SevenPointFiveMs e ch io outs ltac:(discriminate) W HB (or_introl Hi) Rs ltac:(rewrite Ix; change (t_umax t) with 4294967295; lia) HG' HO1 HO2 CR) as (bufs & e' & Bs & rs & ch' & Q1 & _ & _ & Q4 & Q5 & _). exists bufs, e'. split; [exact Q1|].
  assert (LL : forall io e bufs e', encode_run t c e io = Ok (bufs, e') -> length bufs = length io).
  { clear. induction io as [|[x b] io IH]; intros e bufs e' H; cbn [encode_run] in H; [apply Ok_inj in H; assert (bufs = []) by congruence; now subst|].
    destruct (encode R_ops R_eops t c e x b) as [[e1 b1]| |]; cbn [bind] in H; try discriminate H. destruct (encode_run t c e1 io) as [[bs e2]| |] eqn:E2; cbn [bind] in H; try discriminate H. apply Ok_inj in H. assert (bufs = b1 :: bs) by congruence. subst bufs. cbn [length]. f_equal. exact (IH e1 bs e2 E2). }
  rewrite (LL _ _ _ _ Q1). unfold io. apply repeat_length.
Qed.

(* a good frame and a lost one, 48 kHz, 10 ms, against a ramp *)
Example C54_output_error_case : let t := mkTarget true 4294967295 in let c := config_new Hz48000 TenMs in let cs := [mkCall 16 0 (repeat 0 40) (repeat 0 480); mkCall 16 0 [] (repeat 0 480)] in let frames := [SnsIndex.zrange 0 480; repeat 7 480] in
  (exists ns nx dec ch, dec_lens 1 TenMs Hz48000 = Ok (ns, nx) /\ ns <= 8000 /\ nx <= 4000 /\ decoder_new R_ops 1 TenMs Hz48000 (repeat 0%R (Z.to_nat 8000)) (repeat (0%R, 0%R) (Z.to_nat 4000)) = Ok dec /\ idx (d_channels dec) 0 = Ok ch) /\
  Forall (Forall i16) frames /\ len cs <= t_umax t /\ Forall (quiet_call t c) cs /\ (exists fr, read_frame true c (repeat 0 40) = Ok fr).
Proof.
  intros t c cs frames. assert (DL : exists ms mx, dec_lens 1 TenMs Hz48000 = Ok (ms, mx) /\ ms <= 8000 /\ mx <= 4000) by (eexists _, _; split; [vm_compute; reflexivity|repeat split; vm_compute; discriminate]). destruct DL as (ms & mx & DL & D1 & D2).
  assert (B1 : exists fr, read_frame true c (repeat 0 40) = Ok fr /\ l_active (s_ltpf (f_side fr)) = false) by (eexists; split; [vm_compute; reflexivity|reflexivity]). destruct B1 as (fr & Er & La).
  split. { destruct (decoder_new_ok R_ops t 1 TenMs Hz48000 ms mx (repeat 0%R (Z.to_nat 8000)) (repeat (0%R, 0%R) (Z.to_nat 4000)) 2) as (dec & ED & KD & EDc & EDl); try (rewrite ?len_repeat; lia); [exact DL|vm_compute; discriminate|]. destruct (Loops.idx_ok (d_channels dec) 0 ltac:(lia)) as (ch & Edc). exists ms, mx, dec, ch. auto. }
  split. { unfold frames. apply Forall_cons; [|apply Forall_cons; [|apply Forall_nil]]; apply Forall_forall; intros v Hv; [apply in_map_iff in Hv; destruct Hv as (n & <- & Hn); apply in_seq in Hn; unfold i16; lia|apply repeat_spec in Hv; subst v; unfold i16; lia]. }
  split; [vm_compute; discriminate|]. split; [|eauto]. unfold cs. apply Forall_cons; [|apply Forall_cons; [|apply Forall_nil]]; (split; [reflexivity|]); cbn [k_bits k_buf k_out]; (split; [|split; [reflexivity|]]).
  - apply Forall_forall. intros v Hv. apply repeat_spec in Hv. subst v. split; [discriminate|reflexivity].
  - left. unfold plain_frame. cbn [t t_chk]. rewrite Er. exact La.
  - apply Forall_nil.
  - right. eexists. vm_compute. reflexivity.
Qed.
