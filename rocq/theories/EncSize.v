(* The encoder's analysis in binary32 on 16 bit samples: the spectrum stays finite through every stage, and the only frames that can fail are those
   for which shape 0 is chosen with nothing in set B of the noise shaping residual, or that have a reflection coefficient of exactly 1 or -1. *)
From Coq Require Import ZArith List Bool Lia Reals Lra.
From Coquelicot Require Import Complex.
From Flocq Require Import Core BinarySingleNaN.
From Verif Require Import Base Config FrameSpec FftFactor FactorProofs Buffers Loops Scalar EncScalar Fft DecSignal DecMdct DecTotal DecState FftSpec RealOps Dft DctSpec ParseBase ParseTotal MdctSpec EncMdct TdacSpec Dct4Inv Tdac MdctFormula MdctStream PropertiesMdct Norm2 F32 F32Round F32Lines EncF32 F32Err FftErr FftErrRun DctErr MdctErr MdctErrRun.
From Verif Require Import EncSns EncSnsOk EncTns TnsOk DetectSpec QuantSpec EncQuant EncDetect Decoder Encoder EncOk EncRun EncKeep F32Size SnsSize TnsSize DecSize ProjF32 EncSnsSize EncTnsSize.
From Verif Require SnsGrid.
From Coq Require Import List.
Import ListNotations.
Local Open Scope R_scope.
Local Notation f0 := (f32_of_Z 0).

Definition i16 (v : Z) : Prop := (-32768 <= v <= 32767)%Z.
(* what the analysis needs of the library: sin(i pi/17), 2^x, arcsine and logarithm within their tolerances, and the roots of unity of the transform *)
Definition encoder_library (lm : libm) (el : elibm) : Prop := sines_near lm /\ eexp2_near el /\ asin_near el /\ log10_near el.

(* the conditions that rounding does not settle *)
Definition frame_live (lm : libm) (el : elibm) (c : config) (ch : echannel f32) (x : list Z) (nbytes : Z) : Prop :=
  let o := f32_ops lm in let e := f32_eops el in
  forall nn out bands m bw nbw a at',
    emdct_run o c (ec_mdct ch) x (ec_out ch) (ec_bands ch) = Ok (nn, out, bands, m) -> bw_run o (ec_bw ch) bands = Ok (bw, nbw) -> attack_run o c (ec_attack ch) x nbytes = Ok (a, at') ->
    (forall scf lf hf st1 r1, sns_scale_factors o e c bands a = Ok scf -> sns_stage1 o e scf = Ok (lf, hf, st1, r1) -> set_b o e (sns_rotate o r1) \/ ~ shape_0 o e (sns_rotate o r1)) /\
    (forall s l1 rc, sns_encode o e c (firstn (Z.to_nat (ne c)) out) bands a = Ok (s, l1) -> tns_coefs o e c l1 bw (nbytes * 8) nn = Ok rc ->
       Forall (fun v : f32 => B2R v <> 1 /\ B2R v <> -1) rc).

Lemma emdct_size lm c e x out0 bands0 nn out bands m : legal_config c -> twiddles_near lm (nf c / 2) -> emdct_ok c e -> len x = nf c -> len out0 = nf c -> len bands0 = nb c ->
  holds_all i16 (getz 0%Z (em_time e)) (2 * nf c) -> Forall i16 x -> emdct_run (f32_ops lm) c e x out0 bands0 = Ok (nn, out, bands, m) ->
  len out = nf c /\ len bands = nb c /\ Forall (bd 3200000) out.
Proof.
  intros L Htw Me Li Lo Lb Ht Hs E. destruct (mdct_window_ok c L) as (w & Ew & _). destruct (dct_factors_ok c L) as (fl & Ef & Ch & Sm & Ne). destruct (config_geom c L) as (_ & GM & _).
  set (h := (nf c / 2)%Z) in *. assert (Hh : nf c = (2 * h)%Z) by (unfold h; Z.div_mod_to_equations; lia).
  destruct (emdct_run_spec (f32_ops lm) c e x out0 bands0 h fl w L Me Li Lo Lb Hh Ef Ch Sm Ne Ew) as (nn' & out' & b' & e' & E' & Lx & Lb' & _ & Te & Tx).
  rewrite E in E'. apply Ok_inj in E'. assert (Q : out' = out /\ b' = bands /\ e' = m) by (repeat split; congruence). destruct Q as (-> & -> & ->). split; [exact Lx|]. split; [exact Lb'|].
  pose proof (emdct_keeps (f32_ops lm) i16 c e x out0 bands0 nn out bands m L Me Li Lo Lb Ht Hs E) as K.
  assert (HT : forall j, (0 <= j < 2 * nf c)%Z -> (Z.abs (getz 0%Z (em_time m) j) <= 32768)%Z) by (intros j Hj; specialize (K j Hj); unfold i16 in K; lia).
  destruct (forward_err lm c w h fl L Ew Hh Ef Ch Sm Ne Htw (getz 0%Z (em_time m)) HT) as (F1 & _ & F3 & _). pose proof (nT_big c w h fl L Ew Hh Ef (getz 0%Z (em_time m)) HT) as B.
  change (getz (fz (f32_ops lm) 0%Z)) with (getz f0) in Tx. apply Forall_of_getz. intros k Hk. rewrite Lx in Hk. rewrite Tx by lia. split; [apply F1; lia|].
  eapply Rle_trans; [refine (nrm_get (Z.to_nat (nf c)) (fun k => B2R (line lm w h fl (getz 0%Z (em_time m)) k)) k _); lia|].
  eapply Rle_trans; [exact F3|]. assert (TS : tt <= 1) by (rewrite tt_bpow; change 1 with (bpow radix2 0); apply bpow_le; lia). lra.
Qed.

(* the spectrum after each stage *)
Theorem spectra_size lm el t c ch x N : encoder_library lm el -> legal_config c -> twiddles_near lm (nf c / 2) -> nb c = 64%Z -> ech_wf c ch -> len x = nf c -> (20 <= N <= 400)%Z -> buffers i16 c ch -> Forall i16 x -> frame_live lm el c ch x N ->
  let o := f32_ops lm in let e := f32_eops el in
  forall nn out bands m bw nbw a at', emdct_run o c (ec_mdct ch) x (ec_out ch) (ec_bands ch) = Ok (nn, out, bands, m) -> bw_run o (ec_bw ch) bands = Ok (bw, nbw) -> attack_run o c (ec_attack ch) x N = Ok (a, at') ->
    Forall (bd 3200000) out /\ sns_regular o e c bands a /\
    forall s l1, sns_encode o e c (firstn (Z.to_nat (ne c)) out) bands a = Ok (s, l1) -> Forall (bd (34 * 10 ^ 11)) l1 /\ coefs_in_range o e c l1 bw (N * 8) nn /\
    forall tr l2, tns_encode o e (t_chk t) c l1 bw (N * 8) nn = Ok (tr, l2) -> Forall (bd (10 ^ 15)) l2 /\ (gain_floor o e l2 (gg_off (fs_ind c) (N * 8)) <= 3000)%Z.
Proof.
  intros (SN & EN & AN & LN) L Htw Nb W Lx HN HB HX FL o e nn out bands m bw nbw a at' E1 E2 E3. destruct W as [W1 W2 W3 W4 W5 W6 W7]. destruct (config_geom c L) as (G1 & G2 & G3 & G4 & G5 & G6 & G7).
  destruct (emdct_size lm c (ec_mdct ch) x (ec_out ch) (ec_bands ch) nn out bands m L Htw W1 Lx W6 W5 HB HX E1) as (Lo & Lb & B0). destruct (FL nn out bands m bw nbw a at' E1 E2 E3) as [F1 F2]. fold o e in F1, F2.
  pose proof (bw_in_range o (ec_bw ch) bands bw nbw c Lb W3 W2 G6 E2) as Hbw. split; [exact B0|].
  assert (SR : sns_regular o e c bands a) by (intros scf lf hf st1 r1 Es Er; destruct (SnsGrid.proj_always lm el (sns_rotate o r1) (rotate_len _ r1) (SnsGrid.rotated_grid lm r1 (SnsGrid.residual_grid lm el scf lf hf st1 r1 Er))) as [A1 A2]; constructor; [exact A1|exact A2|exact (F1 scf lf hf st1 r1 Es Er)]). split; [exact SR|].
  intros s l1 E4. assert (Ll : len (firstn (Z.to_nat (ne c)) out) = ne c) by (unfold len in *; rewrite firstn_length; lia).
  assert (Bl : Forall (bd 3200000) (firstn (Z.to_nat (ne c)) out)) by (rewrite <- (firstn_skipn (Z.to_nat (ne c)) out) in B0; now apply Forall_app in B0).
  assert (BB : 34 * 10 ^ 11 <= big) by (apply Rle_trans with (bpow radix2 60); [cbn; lra|apply bpow_le; lia]).
  destruct (shaped_size lm el c _ bands a s l1 3200000 (34 * 10 ^ 11) EN L Nb Ll ltac:(lia) SR ltac:(lra) Bl ltac:(split; lra) E4) as [B1 L1]. split; [exact B1|].
  assert (CR : coefs_in_range o e c l1 bw (N * 8) nn).
  { intros rc Er. eapply Forall_impl; [|exact (F2 s l1 rc E4 Er)]. intros v [V1 V2]. now apply index_range. }
  split; [exact CR|]. intros tr l2 E5.
  assert (P90 : 34 * 10 ^ 11 <= bpow radix2 90) by (apply Rle_trans with (bpow radix2 60); [cbn; lra|apply bpow_le; lia]).
  destruct (filtered_size lm (34 * 10 ^ 11) ltac:(lra) P90 el (t_chk t) c l1 bw (N * 8) nn tr l2 SN L L1 Hbw CR B1 E5) as [L2 B2].
  assert (B3 : Forall (bd (10 ^ 15)) l2) by (eapply Forall_impl; [|exact B2]; intros v Hv; eapply bd_weaken; [exact Hv|lra]). split; [exact B3|].
  pose proof (gg_off_range (fs_ind c) (N * 8) G6 ltac:(lia)) as GO. apply (gain_floor_size lm el l2 _ (10 ^ 15) LN); [|exact B3|lia]. split; [lra|]. apply Rle_trans with (bpow radix2 60); [cbn; lra|apply bpow_le; lia].
Qed.
Theorem live_regular lm el t c ch x N : encoder_library lm el -> legal_config c -> twiddles_near lm (nf c / 2) -> nb c = 64%Z -> ech_wf c ch -> len x = nf c -> (20 <= N <= 400)%Z -> buffers i16 c ch -> Forall i16 x -> frame_live lm el c ch x N ->
  frame_regular (f32_ops lm) (f32_eops el) t c ch x N.
Proof.
  intros LB L Htw Nb W Lx HN HB HX FL nn out bands m bw nbw a at' E1 E2 E3. destruct (spectra_size lm el t c ch x N LB L Htw Nb W Lx HN HB HX FL nn out bands m bw nbw a at' E1 E2 E3) as (_ & SR & H). split; [exact SR|].
  intros s l1 E4. destruct (H s l1 E4) as (_ & CR & H2). split; [exact CR|]. intros tr l2 E5. destruct (H2 tr l2 E5) as [_ G]. lia.
Qed.
