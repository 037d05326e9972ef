(* The whole analysis of a frame (Encoder.analyse): it never fails on regular frames, what it hands to the bit stream writer is
   legal, and the state it leaves is again a legal one *)
From Coq Require Import ZArith Lia List Bool.
From Verif Require Import Base Config SideInfo Buffers BufLemmas Loops Scalar EncScalar EncF32 DecSignal DecTotal DecState ParseBase MdctSpec EncMdct TdacSpec EncDetect DetectSpec PropertiesDetect
  EncSns EncSnsOk EncTns TnsBits EncPayload EncFrame TnsOk EncLtpf EncLtpfOk EncQuant EstimateSpec QuantSpec PropertiesQuant FrameEnc FrameSpec ArithDec Decoder Encoder.
Import ListNotations.
Local Open Scope Z_scope.

Lemma weighting_eq d n : EncTns.tns_weighting d n = ArithDec.tns_weighting d n.
Proof. unfold EncTns.tns_weighting, ArithDec.tns_weighting. destruct d; destruct (_ <? _); reflexivity. Qed.
Lemma pair_lsbs_len mode a b : len (pair_lsbs mode a b) <= 4.
Proof. unfold pair_lsbs, lsb_one. destruct (_ && _); [|cbn; lia]. rewrite !len_app, !len_cons. destruct (_ && _), (_ && _); cbn; lia. Qed.
Lemma spec_lsbs_len mode xq n : forall k, len (spec_lsbs n mode k xq) <= 4 * Z.of_nat n.
Proof. induction n as [|n IH]; intros k; cbn [spec_lsbs]; [cbn; lia|]. rewrite len_app. pose proof (pair_lsbs_len mode (nth (Z.to_nat k) xq 0) (nth (Z.to_nat (k + 1)) xq 0)). specialize (IH (k + 2)). lia. Qed.
Lemma spec_lsbs_mono mode xq n : forall m k, (m <= n)%nat -> len (spec_lsbs m mode k xq) <= len (spec_lsbs n mode k xq).
Proof. induction n as [|n IH]; intros [|m] k H; cbn [spec_lsbs]; try (cbn; unfold len; lia). rewrite !len_app. specialize (IH m (k + 2) ltac:(lia)). lia. Qed.

Section EncOk.
Context {F : Type} (o : ops F) (e : eops F) (t : target).

(* between frames: the buffer lengths fixed by the constructor, the detector of the sampling rate, a pitch lag in range *)
Record ech_wf (c : config) (ch : echannel F) : Prop := mkEchWf {
  cw_mdct : emdct_ok c (ec_mdct ch);
  cw_ind : bd_ind (ec_bw ch) = fs_ind c;
  cw_bw : bw_geom (ec_bw ch) (nb c);
  cw_ltpf : eltpf_wf c (ec_ltpf ch);
  cw_bands : len (ec_bands ch) = nb c;
  cw_out : len (ec_out ch) = nf c;
  cw_xq : len (ec_xq ch) = ne c
}.

(* the conditions on the numbers of a frame: a noise shaping residual that the pulse search can represent, reflection
   coefficients within the table, a spectrum small enough for 16 bit gain indices *)
Definition frame_regular (c : config) (ch : echannel F) (x : list Z) (nbytes : Z) : Prop :=
  forall nn out bands m bw nbw a at',
    emdct_run o c (ec_mdct ch) x (ec_out ch) (ec_bands ch) = Ok (nn, out, bands, m) ->
    bw_run o (ec_bw ch) bands = Ok (bw, nbw) -> attack_run o c (ec_attack ch) x nbytes = Ok (a, at') ->
    sns_regular o e c bands a /\
    forall s l1, sns_encode o e c (firstn (Z.to_nat (ne c)) out) bands a = Ok (s, l1) ->
      coefs_in_range o e c l1 bw (nbytes * 8) nn /\
      forall tr l2, tns_encode o e (t_chk t) c l1 bw (nbytes * 8) nn = Ok (tr, l2) -> gain_floor o e l2 (gg_off (fs_ind c) (nbytes * 8)) <= 32767.

(* what the stages of one frame found *)
Record stages (c : config) (N bw nbw : Z) (s : sns_result) (tr : tns_result F) (lp : ltpf_result) (q : quant_result F) (xq : list Z) (rb : list bool) (nfv : Z)
  (l1 l2 : list F) (h n m : nat) (b : consumption) (B : Z) : Prop := mkStages {
  st_h : ne c = 2 * Z.of_nat h;
  st_l1 : len l1 = ne c;
  st_bw : 0 <= bw <= fs_ind c;
  st_nbw : idx NBITS_BW (fs_ind c) = Ok nbw;
  st_sns : sr_legal s;
  st_tns : tns_legal o e c l1 bw (N * 8) tr l2;
  st_lp : exists pitch, lr_legal o lp pitch;
  st_budget : bit_budget (ne c) (N * 8) nbw (tr_nbits tr) (lr_nbits lp) = Ok B;
  st_B : 0 <= B < 3200;
  st_run : run_ok o e h (fs_ind c) (N * 8) B l2 q xq n m b;
  st_res : rb = firstn (Z.to_nat (qr_spec q - qr_trunc q + 4)) (directions o (qr_gg q) l2 xq);
  st_nf : 0 <= nfv < 8
}.

Lemma ne_half c : legal_config c -> exists h : nat, (1 <= h <= 200)%nat /\ ne c = 2 * Z.of_nat h.
Proof. intros (f & d & ->). exists (Z.to_nat (ne (config_new f d) / 2)). destruct f, d; vm_compute; repeat split; lia. Qed.

(* one frame, with what each stage was given *)
Theorem analyse_full c ch x N : elaws o e -> legal_config c -> nb c = 64 -> 1 <= fs_ind c -> ech_wf c ch -> ec_index ch < t_umax t \/ t_chk t = false -> len x = nf c ->
  20 <= N <= 400 -> fs_ind c < 3 \/ 31 <= N -> frame_regular c ch x N ->
  okp (analyse o e t c ch x N) (fun '(p, ch') => ech_wf c ch' /\ exists bw nbw s tr lp q xq rb nfv l1 l2 h n m b B,
    p = frame_params bw nbw s tr lp q rb nfv xq /\ stages c N bw nbw s tr lp q xq rb nfv l1 l2 h n m b B /\ ec_index ch' = (if t_umax t <=? ec_index ch then 0 else ec_index ch + 1) /\
    exists nn out bands a at', emdct_run o c (ec_mdct ch) x (ec_out ch) (ec_bands ch) = Ok (nn, out, bands, ec_mdct ch') /\ bw_run o (ec_bw ch) bands = Ok (bw, nbw) /\ attack_run o c (ec_attack ch) x N = Ok (a, at') /\
      sns_encode o e c (firstn (Z.to_nat (ne c)) out) bands a = Ok (s, l1) /\ tns_encode o e (t_chk t) c l1 bw (N * 8) nn = Ok (tr, l2)).
Proof.
  intros EL L Nb Hfs W Hidx Lx HN H2 R. pose proof W as [W1 W2 W3 W4 W5 W6 W7]. unfold analyse.
  assert (EI : uincr t (ec_index ch) = Ok (if t_umax t <=? ec_index ch then 0 else ec_index ch + 1)).
  { unfold uincr. destruct (Z.leb_spec (t_umax t) (ec_index ch)); [|reflexivity]. destruct Hidx as [Hi|Hi]; [lia|]. now rewrite Hi. }
  rewrite EI. cbn [bind]. cbv zeta.
  destruct (config_geom c L) as (G1 & G2 & G3 & G4 & G5 & G6 & G7).
  destruct (dct_factors_ok c L) as (fl & Ef & Ch & Sm & Nf). destruct (mdct_window_ok c L) as (w & Ew & _).
  assert (H2h : nf c = 2 * (nf c / 2)) by (clear -G2; Z.div_mod_to_equations; lia).
  destruct (emdct_run_spec o c (ec_mdct ch) x (ec_out ch) (ec_bands ch) (nf c / 2) fl w L W1 Lx W6 W5 H2h Ef Ch Sm Nf Ew) as (nn & out & bands & md & E1 & L1 & L2 & M1 & _).
  rewrite E1. cbn [bind].
  unfold split_at. destruct (Z.ltb_spec (ne c) 0); [lia|]. destruct (Z.ltb_spec (len out) (ne c)); [lia|]. cbn [orb bind].
  assert (Ll : len (firstn (Z.to_nat (ne c)) out) = ne c) by (unfold len in *; rewrite firstn_length; lia).
  assert (Hn : exists nbw, idx NBITS_BW (fs_ind c) = Ok nbw) by (eexists; apply (idx_get 0); change (len NBITS_BW) with 5; lia). destruct Hn as (nbw & N1).
  pose proof W3 as W3'. rewrite <- L2 in W3'. rewrite <- W2 in N1. pose proof (bw_run_spec o (ec_bw ch) bands nbw W3' N1) as E2.
  rewrite W2 in E2, N1. set (bw := if _ || _ then _ else _) in E2.
  assert (Hb : 0 <= bw <= fs_ind c).
  { pose proof (last_where_range (loud o (ec_bw ch) bands) (Z.to_nat (bd_ind (ec_bw ch)))) as Rl. assert (C : 0 <= candidate o (ec_bw ch) bands <= fs_ind c) by (unfold candidate; lia). unfold bw. destruct (_ || _); lia. }
  clearbody bw. rewrite E2. cbn [bind].
  destruct (attack_step o c (ec_attack ch) x N L Lx) as (a & at' & E3 & _). rewrite E3. cbn [bind].
  destruct (R _ _ _ _ _ _ _ _ E1 E2 E3) as [R1 R2]. clear R.
  destruct (sns_encode_ok o e c _ bands a L Nb Ll ltac:(lia) R1) as ([s l1] & E4 & S1 & S2). rewrite E4. cbn [bind]. destruct (R2 _ _ E4) as [R3 R4]. clear R2.
  destruct (tns_encode_ok o e (t_chk t) c l1 bw (N * 8) nn EL L S2 Hb R3) as ([tr l2] & E5 & T1). rewrite E5. cbn [bind]. specialize (R4 _ _ E5).
  destruct (eltpf_run_ok o e c (ec_ltpf ch) x nn (N * 8) L W4 Lx) as ([lp lt'] & E6 & P1 & P2). rewrite E6. cbn [bind].
  pose proof (tl_len _ _ _ _ _ _ _ _ T1) as T2. pose proof (tl_num _ _ _ _ _ _ _ _ T1) as T3. pose proof (tl_w _ _ _ _ _ _ _ _ T1) as T4. pose proof (tl_bits _ _ _ _ _ _ _ _ T1) as T5. pose proof (tl_params _ _ _ _ _ _ _ _ T1) as T6.
  assert (Hw : 0 <= tr_weighting tr < 2) by (rewrite T4; unfold EncTns.tns_weighting; destruct (n_ms c); destruct (_ <? _); lia).
  assert (Hlp : lr_nbits lp = 1 \/ lr_nbits lp = 11) by (unfold lr_legal in P2; destruct (lr_present lp); destruct P2 as [P3 _]; auto).
  assert (Hnum : tr_num tr = 1 \/ (tr_num tr = 2 /\ 31 <= N)).
  { rewrite T3. unfold spec_bands. destruct (match n_ms c with TenMs => _ | _ => _ end) as [u v]. destruct (Z.ltb_spec bw 3); [left; reflexivity|]. right. split; [reflexivity|]. lia. }
  destruct (C24_budget_partial F o e EL c N nbw (tr_weighting tr) (tr_rc_i tr) (tr_order tr) (tr_num tr) (lr_nbits lp) L HN N1 Hw T6 Hlp Hnum) as (tb & B & B1 & B2 & B3).
  rewrite T5 in B1. apply Ok_inj in B1. subst tb. rewrite (Z.mul_comm 8 N) in B2.
  destruct (ne_half c L) as (h & Hh & Eh). pose proof B2 as B2'. rewrite Eh in B2.
  destruct (quant_run_spec o e EL (t_chk t) h (fs_ind c) (ec_quant ch) l2 (ec_xq ch) (N * 8) nbw (tr_nbits tr) (lr_nbits lp) B Hh ltac:(lia) ltac:(lia) ltac:(lia) ltac:(lia) B2 ltac:(lia) R4)
    as (q & xq & q' & n & m & b & E7 & RO).
  rewrite Eh at 1. rewrite E7. cbn [bind].
  pose proof (ro_len _ _ _ _ _ _ _ _ _ _ _ _ RO) as Q1.
  rewrite (residual_encode_spec o (qr_spec q) (qr_trunc q) (ne c) (qr_gg q) l2 xq) by lia. cbn [bind].
  destruct (C46_noise_factor F o e c l2 xq bw (qr_gg q) EL L ltac:(lia) ltac:(lia) Hb) as (nfv & E8 & V1 & _). rewrite E8. cbn [bind].
  eexists. split; [reflexivity|]. split.
  - constructor; cbn [ec_mdct ec_bw ec_ltpf ec_bands ec_out ec_xq]; try assumption; try lia. rewrite len_app. unfold len in *. rewrite skipn_length. lia.
  - exists bw, nbw, s, tr, lp, q, xq. eexists. exists nfv, l1, l2, h, n, m, b, B. split; [reflexivity|]. split; [|split; [reflexivity|]]; [constructor; try assumption; try reflexivity; try lia; now exists (el_pitch lt')|]. exists nn, out, bands, a, at'. cbn [ec_mdct]. auto.
Qed.
Theorem analyse_ok c ch x N : elaws o e -> legal_config c -> nb c = 64 -> 1 <= fs_ind c -> ech_wf c ch -> ec_index ch < t_umax t \/ t_chk t = false -> len x = nf c ->
  20 <= N <= 400 -> fs_ind c < 3 \/ 31 <= N -> frame_regular c ch x N ->
  okp (analyse o e t c ch x N) (fun '(p, ch') => ech_wf c ch' /\ exists bw nbw s tr lp q xq rb nfv l1 l2 h n m b B,
    p = frame_params bw nbw s tr lp q rb nfv xq /\ stages c N bw nbw s tr lp q xq rb nfv l1 l2 h n m b B /\ ec_index ch' = (if t_umax t <=? ec_index ch then 0 else ec_index ch + 1)).
Proof.
  intros. destruct (analyse_full c ch x N) as ([p ch'] & E & W & bw & nbw & s & tr & lp & q & xq & rb & nfv & l1 & l2 & h & n & m & b & B & E1 & E2 & E3 & _); auto.
  exists (p, ch'). split; [exact E|]. split; [exact W|]. exists bw, nbw, s, tr, lp, q, xq, rb, nfv, l1, l2, h, n, m, b, B. auto.
Qed.

(* the writer can write it *)
Lemma run_lsbs h fs_ind nbits B x q xq n m b : run_ok o e h fs_ind nbits B x q xq n m b -> (1 <= h <= 200)%nat -> len x = 2 * Z.of_nat h ->
  qr_lsb q <= MAX_NBITS_LSB /\ (qr_lsb_mode q = true -> len (spec_lsbs (Z.to_nat (qr_last q / 2)) true 0 xq) <= qr_lsb q).
Proof.
  intros RO Hh Lx. pose proof (ro_est _ _ _ _ _ _ _ _ _ _ _ _ RO) as ES. destruct (es_pairs _ _ _ _ _ _ _ _ ES) as [Hm Hn]. pose proof (es_lsb _ _ _ _ _ _ _ _ ES) as Lb.
  rewrite (ro_lsb _ _ _ _ _ _ _ _ _ _ _ _ RO), Lb. split.
  - pose proof (spec_lsbs_len (480 + fs_ind * 160 <=? nbits) (map (quantise_line o (qr_gg q)) x) n 0) as B1. unfold MAX_NBITS_LSB. lia.
  - rewrite (ro_mode _ _ _ _ _ _ _ _ _ _ _ _ RO). intros M. apply andb_true_iff in M. destruct M as [M _]. rewrite M in *. rewrite (ro_last _ _ _ _ _ _ _ _ _ _ _ _ RO).
    replace (Z.to_nat (2 * Z.of_nat m / 2)) with m by (rewrite (Z.mul_comm 2), Z.div_mul by lia; lia).
    rewrite (spec_lsbs_ext m true xq (map (quantise_line o (qr_gg q)) x) 0).
    + apply spec_lsbs_mono. lia.
    + intros i Hi. pose proof (ro_lines _ _ _ _ _ _ _ _ _ _ _ _ RO i ltac:(lia)) as P. rewrite (ro_last _ _ _ _ _ _ _ _ _ _ _ _ RO) in P. destruct (Z.ltb_spec i (2 * Z.of_nat m)); [|lia].
      unfold getz in P at 1. rewrite P. symmetry. apply (getz_map (quantise_line o (qr_gg q)) (fz o 0) 0). lia.
Qed.

Lemma stages_writable c N bw nbw s tr lp q xq rb nfv l1 l2 h n m b B : legal_config c -> stages c N bw nbw s tr lp q xq rb nfv l1 l2 h n m b B ->
  writer_params_ok (frame_params bw nbw s tr lp q rb nfv xq).
Proof.
  intros L [S1 Ll S2 S3 S4 S5 S6 S7 S8 S9 S10 S11]. destruct (ne_half c L) as (h' & Hh & Eh). assert (h' = h) by lia. subst h'.
  pose proof (tl_len _ _ _ _ _ _ _ _ S5) as T2. destruct (run_lsbs _ _ _ _ _ _ _ _ _ _ S9 Hh ltac:(lia)) as [A1 A2].
  pose proof (ro_est _ _ _ _ _ _ _ _ _ _ _ _ S9) as ES. destruct (es_pairs _ _ _ _ _ _ _ _ ES) as [Hm Hn]. pose proof (ro_last _ _ _ _ _ _ _ _ _ _ _ _ S9) as La. pose proof (ro_len _ _ _ _ _ _ _ _ _ _ _ _ S9) as Lq.
  destruct S4 as [(qv & Q & _ & _ & Q3 & _)]. destruct Q as [].
  constructor; cbn [frame_params p_shape_j p_lastnz p_num_tns p_nbits_bw p_rc_order p_rc_i p_lpc_weighting p_rate_flag p_xq p_nbits_lsb p_lsb_mode]; try assumption; try lia.
  all: try (rewrite La; now rewrite Z.even_mul).
  - rewrite (tl_num _ _ _ _ _ _ _ _ S5). unfold spec_bands. destruct (match n_ms c with TenMs => _ | _ => _ end) as [u v]. destruct (bw <? 3); cbn; lia.
  - destruct (config_geom c L) as (_ & _ & _ & _ & _ & G6 & _). rewrite (idx_get 0) in S3 by (change (len NBITS_BW) with 5; lia). apply Ok_inj in S3. subst nbw.
    assert (C : fs_ind c = 0 \/ fs_ind c = 1 \/ fs_ind c = 2 \/ fs_ind c = 3 \/ fs_ind c = 4) by lia. destruct C as [-> | [-> | [-> | [-> | ->]]]]; vm_compute; discriminate.
  - exact (tl_params _ _ _ _ _ _ _ _ S5).
  - rewrite (tl_w _ _ _ _ _ _ _ _ S5). clear. unfold EncTns.tns_weighting. destruct (n_ms c); destruct (_ <? _); lia.
  - rewrite (ro_rate _ _ _ _ _ _ _ _ _ _ _ _ S9). destruct (_ <? _); auto.
  - intros i Hi. pose proof (ro_lines _ _ _ _ _ _ _ _ _ _ _ _ S9 i ltac:(lia)) as P. destruct (Z.ltb_spec i (qr_last q)); [|lia]. unfold getz in P at 1. rewrite P.
    pose proof (quantise_line_ok o (qr_gg q) (getz (fz o 0) l2 i)) as K. unfold bits_ok in K. lia.
Qed.
End EncOk.
