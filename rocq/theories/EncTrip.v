(* From the encoder's stages to the parser: the frames of EncOk are legal in the sense of FrameSpec, so the round trip theorems apply. *)
From Coq Require Import ZArith Lia List Bool.
From Verif Require Import Base Config SideInfo Reader AcSpec Loops BufLemmas Scalar EncScalar EncF32 DecSignal DecTotal DecState ParseBase EncMdct EncDetect DetectSpec
  EncSns EncSnsOk EncTns TnsOk EncLtpf EncLtpfOk EncQuant QuantSpec EstimateSpec ArithDec FrameDec TailSpec FrameEnc PayloadSpec DecSide EncPayload FrameProofs EncFrame FrameSpec RoundTrip SeedBound ParseTotal Decoder Encoder EncOk PayloadBound EncRun
  PropertiesShaping.
Import ListNotations.
Local Open Scope Z_scope.

Section Trip.
Context {F : Type} (o : ops F) (e : eops F).
Variable EL : elaws o e.

Lemma stages_legal c N bw nbw s tr lp q xq rb nfv l1 l2 h n m b B : legal_config c -> stages o e c N bw nbw s tr lp q xq rb nfv l1 l2 h n m b B ->
  qr_gg_ind q < 256 -> (forall i, 0 <= i < qr_last q -> getz 0 xq i <> -32768) ->
  exists sv, frame_legal c N (frame_params bw nbw s tr lp q rb nfv xq) sv.
Proof.
  intros L ST HG HM. clear EL. pose proof (stages_writable o e c N bw nbw s tr lp q xq rb nfv l1 l2 h n m b B L ST) as W. destruct ST as [S1 Ll S2 S3 S4 S5 S6 S7 S8 S9 S10 S11].
  destruct S4 as [(sv & Q0 & Q1 & Q2 & Q3 & Q4 & Q5 & Q6)]. exists sv. destruct (config_geom c L) as (_ & _ & _ & _ & _ & G6 & _).
  pose proof (ro_est _ _ _ _ _ _ _ _ _ _ _ _ S9) as ES. destruct (es_pairs _ _ _ _ _ _ _ _ ES) as [Hm Hn]. pose proof (ro_last _ _ _ _ _ _ _ _ _ _ _ _ S9) as La. pose proof (ro_len _ _ _ _ _ _ _ _ _ _ _ _ S9) as Lq.
  constructor.
  - constructor; cbn [frame_params p_bw p_nbits_bw p_lastnz p_gg p_num_tns p_rc_order p_ind_lf p_ind_hf p_shape_j p_gind p_ls_inda p_index_joint p_pitch_index p_nf]; try assumption; try lia.
    + rewrite (idx_get 0) in S3 by (change (len NBITS_BW) with 5; lia). apply Ok_inj in S3. subst nbw. reflexivity.
    + exact (wp_even _ W).
    + pose proof (proj1 (ro_ind _ _ _ _ _ _ _ _ _ _ _ _ S9)). lia.
    + rewrite (tl_num _ _ _ _ _ _ _ _ S5). unfold spec_bands. destruct (match n_ms c with TenMs => _ | _ => _ end) as [u v]. destruct (bw <? 3); reflexivity.
    + exact (proj1 (tl_params _ _ _ _ _ _ _ _ S5)).
    + destruct S6 as (pitch & S6). unfold lr_legal in S6. destruct (lr_present lp).
      * destruct S6 as (_ & p & fr & Hs & -> & _). exact (proj1 (C26_every_lag p fr Hs)).
      * destruct S6 as (_ & ->). lia.
  - exact (wp_tns _ W).
  - cbn [frame_params p_lpc_weighting]. rewrite (tl_w _ _ _ _ _ _ _ _ S5), (Z.mul_comm 8 N). apply weighting_eq.
  - cbn [frame_params p_rate_flag]. rewrite (ro_rate _ _ _ _ _ _ _ _ _ _ _ _ S9), (Z.mul_comm 8 N). reflexivity.
  - exact (wp_len _ W).
  - cbn [frame_params p_lastnz p_xq]. intros i Hi. pose proof (wp_mag _ W i Hi) as A. cbn [frame_params p_xq] in A. specialize (HM i Hi). unfold getz in HM.
    pose proof (ro_lines _ _ _ _ _ _ _ _ _ _ _ _ S9 i ltac:(lia)) as P. destruct (Z.ltb_spec i (qr_last q)); [|lia]. unfold getz in P at 1.
    assert (K : -32768 <= quantise_line o (qr_gg q) (getz (fz o 0) l2 i) <= 32767) by (clear; unfold quantise_line, as_i16; destruct (fge o _ (fz o 0)); lia). lia.
  - exact (wp_nlsb _ W).
  - exact (wp_lsbs _ W).
Qed.

(* One call: the bytes it writes, read by the parser of the decoder. p: what the analysis of the call found. *)
Theorem encode_trip t f d ch x buf : f <> Hz8000 -> let c := config_new f d in ech_wf c ch -> ec_index ch < t_umax t \/ t_chk t = false -> len x = nf c ->
  20 <= len buf <= 400 -> fs_ind c < 3 \/ 31 <= len buf -> frame_regular o e t c ch x (len buf) ->
  exists ch' buf' p, analyse o e t c ch x (len buf) = Ok (p, ch') /\ encode o e t c ch x buf = Ok (ch', buf') /\ len buf' = len buf /\
    (p_gg p < 256 -> Forall (fun v => v <> -32768) (p_xq p) -> let l := payload (ne c) p in
     (2 < p_lastnz p -> 46 * len (ev_syms l) < 2048 * (slack (8 * len buf) - 2) -> payload_bits l <= 8 * len buf) /\
     (payload_bits l <= 8 * len buf -> exists q, frame_legal c (len buf) p q /\ bytes buf' /\
        read_side_info buf' reader_new (fs_ind c) (ne c) = Ok (spec_side p q, mkReader 0 (spec_side_len (ne c) p)) /\
        (~ term_window (fin l) \/ tbits l + Z.min (8 * len buf - payload_bits l) (len (res_source p)) + 8 * iN (fin l) + 24 <= 8 * len buf ->
         exists a xs, read_frame true c buf' = Ok (mkFrame (spec_side p q) a xs) /\ a_rc_order a = spec_orders p /\ a_rc_i a = spec_tns_idx p /\ len xs = 400 /\
           (p_lsb_mode p = false -> xs = spec_lines p) /\
           (forall i, 0 <= i < p_lastnz p -> Z.abs (getz 0 (p_xq p) i - getz 0 xs i) <= 2) /\ (forall i, p_lastnz p <= i -> getz 0 xs i = 0)))).
Proof.
  intros Hf c W Hi Lx HN H2 R. assert (Lc : legal_config c) by (eexists _, _; reflexivity). assert (Nb : nb c = 64 /\ 1 <= fs_ind c) by (unfold c; destruct f, d; try (exfalso; now apply Hf); split; (reflexivity || (vm_compute; discriminate))).
  destruct (analyse_ok o e t c ch x (len buf) EL Lc (proj1 Nb) (proj2 Nb) W Hi Lx HN H2 R) as ([p ch'] & E & W' & bw & nbw & s & tr & lp & q & xq & rb & nfv & l1 & l2 & h & n & m & b & B & Ep & ST & HX).
  destruct (stages_written o e EL c (len buf) bw nbw s tr lp q xq rb nfv l1 l2 h n m b B buf Lc HN H2 ST eq_refl) as (buf' & E2 & L2). rewrite <- Ep in E2.
  exists ch', buf', p. split; [exact E|]. split; [unfold encode; rewrite E; cbn [bind]; rewrite E2; reflexivity|]. split; [exact L2|]. intros HG HM l.
  destruct (stages_fit o e EL c (len buf) bw nbw s tr lp q xq rb nfv l1 l2 h n m b B Lc HN H2 ST) as (V & F1 & F2 & F3). rewrite <- Ep in *. fold l in V, F1, F2, F3.
  assert (M : forall i, 0 <= i < qr_last q -> getz 0 xq i <> -32768).
  { intros i Hl. replace xq with (p_xq p) by (rewrite Ep; reflexivity). rewrite Forall_forall in HM. unfold getz. destruct (Nat.lt_ge_cases (Z.to_nat i) (length (p_xq p))) as [K|K]; [apply HM, nth_In, K|rewrite nth_overflow by exact K; discriminate]. }
  destruct (stages_legal c (len buf) bw nbw s tr lp q xq rb nfv l1 l2 h n m b B Lc ST ltac:(rewrite Ep in HG; exact HG) M) as (sv & FL). rewrite <- Ep in FL.
  split.
  - intros K2 K. assert (Pl : qr_last q = p_lastnz p) by (rewrite Ep; reflexivity). destruct F3 as [[F3 _]|[_ F3]]; [lia|]. clear -F3 K. lia.
  - intros K. exists sv. split; [exact FL|].
    destruct (frame_side_info c p sv buf Lc ltac:(lia) FL K) as (b1 & E3 & L3 & B3 & R3). fold c in E2. rewrite E2 in E3. apply Ok_inj in E3. subst b1.
    split; [exact B3|]. split; [exact R3|]. intros T. destruct (p_lsb_mode p) eqn:Em.
    + destruct (round_trip_lsb false c p sv buf Lc ltac:(lia) FL Em K T) as (b1 & room & xs & E4 & _ & _ & _ & Lx4 & D4 & Z4 & _ & _ & R4).
      rewrite E2 in E4. apply Ok_inj in E4. subst b1. destruct (R4 ltac:(discriminate)) as (zero & R5). apply (read_frame_safe_len c buf' _ Lc B3 ltac:(unfold SAFE_LEN; lia)) in R5. destruct R5 as [R5 _].
      eexists _, xs. split; [exact R5|]. cbn [a_rc_order a_rc_i]. split; [reflexivity|]. split; [reflexivity|]. split; [unfold len; lia|]. split; [discriminate|]. split.
      * intros i Hl. exact (proj1 (D4 i Hl)).
      * intros i Hl. apply Z4. lia.
    + assert (T' := T). unfold res_source in T'. rewrite Em in T'.
      destruct (round_trip_regular false c p sv buf Lc ltac:(lia) FL Em K T' ltac:(discriminate)) as (b1 & room & got & E4 & _ & _ & _ & R5 & _).
      rewrite E2 in E4. apply Ok_inj in E4. subst b1. apply (read_frame_safe_len c buf' _ Lc B3 ltac:(unfold SAFE_LEN; lia)) in R5. destruct R5 as [R5 _].
      eexists _, _. split; [exact R5|]. cbn [a_rc_order a_rc_i]. split; [reflexivity|]. split; [reflexivity|].
      pose proof (legal_writer _ _ _ _ FL) as WP. assert (Pl : p_lastnz p = qr_last q) by (rewrite Ep; reflexivity). assert (PL : 0 <= p_lastnz p <= MAX_LEN_SPECTRAL) by (destruct ST as [S1 Ll S2 S3 S4 S5 S6 S7 S8 S9 S10 S11]; destruct (ne_half c Lc) as (h' & Hh & Eh); pose proof (ro_last _ _ _ _ _ _ _ _ _ _ _ _ S9) as La; destruct (es_pairs _ _ _ _ _ _ _ _ (ro_est _ _ _ _ _ _ _ _ _ _ _ _ S9)) as [Hm Hn]; unfold MAX_LEN_SPECTRAL; lia).
      pose proof (spec_lines_length p WP (proj2 PL)) as SL. split; [unfold len; lia|]. split; [reflexivity|]. split.
      * intros i Hl. unfold getz. rewrite (spec_lines_nth p (Z.to_nat i) WP) by (clear -Hl; lia). rewrite Z.sub_diag. cbn. lia.
      * intros i Hl. unfold getz, spec_lines. rewrite app_nth2; rewrite firstn_length; [apply nth_repeat|]. lia.
Qed.
End Trip.
