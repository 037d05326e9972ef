(* C60: in binary32 the decoder never makes an infinity or a NaN, whatever frames it is given. *)
From Coq Require Import ZArith List Bool Lia Reals Lra.
From Coquelicot Require Import Complex.
From Flocq Require Import Core BinarySingleNaN Relative.
From Verif Require Import Base Config FrameSpec SideInfo ArithDec FrameDec Buffers Loops ParseBase ParseTotal Scalar DecSignal DecMdct DecLtpf DecTotal DecState DecRun DecRelease Decoder LtpfSpec MdctSpec RealOps Dft DctErr F32 F32Round F32Lines EncF32 F32Err F32Size MdctErr TnsSize SnsSize LtpfSize LineSize DecSize PropertiesRounding PropertiesDecoder.
From Coq Require Import List.
Import ListNotations.
Local Open Scope R_scope.

Definition sane (bound : R) (v : f32) : Prop := is_finite v = true /\ Rabs (B2R v) <= bound.
(* everything a channel carries from one frame to the next (the transform's work areas are overwritten before they are read) *)
Definition kept (ch : channel f32) : list f32 :=
  ch_lines ch ++ ch_freq ch ++ pl_last (ch_plc ch) ++ [pl_alpha (ch_plc ch)] ++ m_ola (ch_mdct ch) ++ m_zeros (ch_mdct ch) ++ t_x (ch_ltpf ch) ++ t_xl (ch_ltpf ch) ++
  (if t_active (ch_ltpf ch) then t_num (ch_ltpf ch) ++ t_den (ch_ltpf ch) else []).
Definition clampR (x : R) : R := Rmax (Rmin x 32767) (-32768).

Lemma csum_sane S cs : csum S cs -> S <= 1 -> Forall (sane 1) cs.
Proof.
  intros (F & A & _) HS. revert S A HS. induction F as [|x l Hx F IH]; intros S A HS; constructor.
  - split; [exact Hx|]. change (asum (x :: l)) with (Rabs (B2R x) + asum l) in A. pose proof (asum_pos l). lra.
  - apply (IH S); [|exact HS]. change (asum (x :: l)) with (Rabs (B2R x) + asum l) in A. pose proof (Rabs_pos (B2R x)). lra.
Qed.
Lemma top97 : OUT <= bpow radix2 97. Proof. unfold OUT, SAMPLE. cbn. lra. Qed.
Lemma kept_sane ch : channel_sized ch -> Forall (sane (bpow radix2 97)) (kept ch).
Proof.
  pose proof top97 as T. intros ((P1 & P2) & (M1 & M2) & (L1 & L2 & L3) & S1 & S2).
  assert (W : forall B l, B <= OUT -> Forall (bd B) l -> Forall (sane (bpow radix2 97)) l) by (intros B l HB HF; eapply Forall_impl; [|exact HF]; intros a [A1 A2]; split; [exact A1|lra]).
  assert (O1 : 1 <= OUT) by (unfold OUT, SAMPLE; lra).
  unfold kept. repeat (apply Forall_app; split).
  - apply (W LINE); [unfold LINE, OUT, SAMPLE; lra|exact S1].
  - apply (W OUT); [lra|exact S2].
  - apply (W LINE); [unfold LINE, OUT, SAMPLE; lra|exact P1].
  - apply (W 1); [lra|]. constructor; [exact P2|constructor].
  - apply (W TDA); [unfold TDA, OUT, SAMPLE; lra|exact M1].
  - eapply Forall_impl; [|exact M2]. intros a [A1 A2]. split; [exact A1|]. rewrite A2, Rabs_R0. apply bpow_ge_0.
  - apply (W SAMPLE); [unfold OUT, SAMPLE; lra|exact L1].
  - apply (W (8 * SAMPLE)); [unfold OUT; lra|exact L2].
  - destruct (t_active (ch_ltpf ch)); [|constructor]. destruct (L3 eq_refl) as [N D]. apply Forall_app. split; [eapply Forall_impl; [|apply (csum_sane _ _ N); lra]|eapply Forall_impl; [|apply (csum_sane _ _ D); lra]]; intros a [A1 A2]; (split; [exact A1|lra]).
Qed.
(* the output conversion, for every finite sample *)
Lemma clamp_Z_R z : IZR (clamp16 z) = clampR (IZR z).
Proof.
  unfold clamp16, clampR, Rmax, Rmin. destruct (Rle_dec (IZR z) 32767) as [A|A].
  - assert (z <= 32767)%Z by (apply le_IZR; exact A). rewrite Z.min_l by assumption. destruct (Rle_dec (IZR z) (-32768)) as [B|B]; [assert (z <= -32768)%Z by (apply le_IZR; exact B); rewrite Z.max_r by assumption; reflexivity|]. rewrite Z.max_l; [reflexivity|]. assert (~ (z <= -32768)%Z) by (intros Q; apply B; now apply IZR_le in Q). lia.
  - assert (~ (z <= 32767)%Z) by (intros Q; apply A; now apply IZR_le in Q). rewrite Z.min_r by lia. destruct (Rle_dec 32767 (-32768)); [lra|]. rewrite Z.max_l by lia. reflexivity.
Qed.
Lemma clampR_lip x y e : Rabs (x - y) <= e -> Rabs (clampR x - clampR y) <= e.
Proof. intros H. assert (0 <= e) by (eapply Rle_trans; [apply Rabs_pos|exact H]). apply Rabs_le_inv in H. unfold clampR, Rmax, Rmin. repeat destruct (Rle_dec _ _); apply Rabs_le; lra. Qed.
Lemma pcm_near lm (x : f32) : is_finite x = true -> Rabs (IZR (to_i16 (f32_ops lm) x) - clampR (B2R x)) <= / 2 + bpow radix2 (-25).
Proof.
  intros F. assert (P25 : 0 < bpow radix2 (-25)) by apply bpow_gt_0. destruct (norm_val 16777215 (-25) ltac:(lia) ltac:(lia)) as [V VF]. set (y := f32_norm 16777215 (-25)) in *.
  assert (VY : B2R y = pred_half). { rewrite V. unfold pred_half, F2R. cbn [Fnum Fexp]. cbn. lra. }
  assert (PH : 0 < pred_half) by (unfold pred_half; cbn; lra). assert (PS : pred_half < 1) by (unfold pred_half; cbn; lra). assert (CL : forall r, Rabs r <= 1 -> clampR r = r) by (intros r Hr; apply Rabs_le_inv in Hr; unfold clampR, Rmax, Rmin; repeat destruct (Rle_dec _ _); lra).
  destruct (Req_dec (B2R x) pred_half) as [Q|Q]; [|destruct (Req_dec (B2R x) (- pred_half)) as [Q2|Q2]].
  - assert (x = y). { apply B2R_inj; [destruct x; try discriminate F; try reflexivity; cbn [B2R] in Q; lra|unfold y in *; destruct (f32_norm 16777215 (-25)); try discriminate VF; try reflexivity; cbn [B2R] in VY; lra|congruence]. }
    subst x. assert (T : to_i16 (f32_ops lm) y = 1%Z) by (vm_compute; reflexivity). rewrite T, VY, CL by (apply Rabs_le; lra). unfold pred_half. apply Rabs_le. lra.
  - assert (x = Bopp y). { apply B2R_inj; [destruct x; try discriminate F; try reflexivity; cbn [B2R] in Q2; lra|rewrite is_finite_strict_Bopp; unfold y in *; destruct (f32_norm 16777215 (-25)); try discriminate VF; try reflexivity; cbn [B2R] in VY; lra|rewrite B2R_Bopp; congruence]. }
    subst x. assert (T : to_i16 (f32_ops lm) (Bopp y) = (-1)%Z) by (vm_compute; reflexivity). rewrite T, B2R_Bopp, VY, CL by (apply Rabs_le; lra). unfold pred_half. apply Rabs_le. lra.
  - rewrite (to_i16_correct lm x Q Q2). assert (ES : sample_spec x = clamp16 (round_away (B2R x))) by (destruct x; try discriminate F; reflexivity). rewrite ES, clamp_Z_R. apply clampR_lip. pose proof (proj1 (round_away_nearest (B2R x))). lra.
Qed.

(* A new decoder on any buffers of the advertised lengths holding finite values up to 1e26 (zeros, in practice); then any calls at all, of any number: good frames, garbage, frames of any length, in any order and on any channel.
   After every call that returns everything the decoder keeps is finite and at most 2^97, so no operation has overflowed or made a NaN.
   If the call was one with 16 bits, the samples before the conversion are finite and the samples written are those, limited to 16 bits, within a half and 2^-25.
   C10_decode_never_fails_partial and C10_release_any_history say which calls return. *)
Theorem C60_decoder_stays_finite lm t num d f (s : list f32) (x : list (f32 * f32)) ns nx :
  decoder_library lm -> twiddles_near lm (nf (config_new f d) / 2) -> (0 <= num)%Z -> dec_lens num d f = Ok (ns, nx) -> (ns <= len s)%Z -> (nx <= len x)%Z -> Forall (sane (10 ^ 26)) s ->
  exists dec, decoder_new (f32_ops lm) num d f s x = Ok dec /\ forall cs k rs dec1 r dec2 out, Forall (fun k => bytes (k_buf k)) (cs ++ [k]) ->
    run_calls (f32_ops lm) t dec cs = Ok (rs, dec1) -> decode_frame (f32_ops lm) t dec1 (k_bits k) (k_ch k) (k_buf k) (k_out k) = Ok (r, dec2, out) ->
    (forall ch, In ch (d_channels dec2) -> Forall (sane (bpow radix2 97)) (kept ch)) /\
    (k_bits k = 16%Z -> exists ch, idx (d_channels dec2) (k_ch k) = Ok ch /\ len (ch_freq ch) = nf (config_new f d) /\ len out = len (k_out k) /\
       (forall j, (0 <= j < len out)%Z -> (j < nf (config_new f d))%Z -> let v := getz B754_nan (ch_freq ch) j in
          is_finite v = true /\ Rabs (B2R v) <= bpow radix2 97 /\ Rabs (IZR (getz 0%Z out j) - clampR (B2R v)) <= / 2 + bpow radix2 (-25)) /\
       (forall j, (nf (config_new f d) <= j)%Z -> getz 0%Z out j = getz 0%Z (k_out k) j)).
Proof.
  intros Lib Htw Hn HL Hs Hx HS. destruct (new_lens (f32_ops lm) t num d f ns nx s x Hn HL Hs Hx) as (dec & E & D1 & D2 & D3). exists dec. split; [exact E|].
  assert (Z0 : decoder_sized dec). { apply (new_size lm num d f s x dec); [|exact E]. eapply Forall_impl; [|exact HS]. intros a [A1 A2]. split; [exact A1|]. unfold START. lra. }
  intros cs k rs dec1 r dec2 out HF R1 EQ. apply Forall_app in HF. destruct HF as [HF HK]. apply Forall_inv in HK.
  assert (Run : decoder_lens dec1 /\ decoder_sized dec1 /\ d_config dec1 = config_new f d).
  { clear E D3 EQ. revert rs dec D1 D2 Z0 R1. induction cs as [|q cs IH]; intros rs dec D1 D2 Z0 R1; cbn [run_calls] in R1.
    - apply Ok_inj in R1. apply pair_equal_spec in R1. destruct R1 as [_ <-]. split; [exact D1|]. split; assumption.
    - apply Forall_cons_iff in HF. destruct HF as [Q HF]. apply bind_Ok in R1. destruct R1 as ([[r0 dq] o0] & EQ & R1). apply bind_Ok in R1. destruct R1 as ([rs1 d1] & E1 & R1). apply Ok_inj in R1. apply pair_equal_spec in R1. destruct R1 as [_ ->].
      rewrite <- D2 in Htw. destruct (frame_step lm t dec q r0 dq o0 Lib Htw D1 Z0 Q EQ) as (S0 & S1 & S2 & _). rewrite D2 in Htw. exact (IH HF rs1 dq S0 (eq_trans S2 D2) S1 E1). }
  destruct Run as (R2 & R3 & R4). rewrite <- R4 in Htw. destruct (frame_step lm t dec1 k r dec2 out Lib Htw R2 R3 HK EQ) as (S0 & S1 & S2 & S3). split.
  - intros ch Hch. apply kept_sane. unfold decoder_sized in S1. rewrite Forall_forall in S1. now apply S1.
  - intros E16. destruct (S3 E16) as (ch & I1 & I2 & I3). exists ch. split; [exact I1|]. destruct (Forall_idx _ _ _ _ I1 (proj2 S0)) as [_ C2 _ _ _]. rewrite S2, R4 in C2. split; [exact C2|]. assert (LO : len out = len (k_out k)) by (rewrite I3; apply len_zipmod). split; [exact LO|]. pose proof top97 as T. split.
    + intros j Hj Hf v. assert (BV : bd OUT v) by (unfold v; rewrite Forall_forall in I2; apply I2; unfold getz; apply nth_In; apply Nat2Z.inj_lt; rewrite Z2Nat.id by lia; eapply Z.lt_le_trans; [exact Hf|]; rewrite <- C2; apply Z.le_refl). destruct BV as [V1 V2]. split; [exact V1|]. split; [lra|].
      rewrite I3. unfold scale_and_round. rewrite (zipmod_get (fun _ v => to_i16 (f32_ops lm) v) 0%Z (B754_nan : f32)); [apply pcm_near; exact V1|lia|rewrite C2; exact Hf].
    + intros j Hj. rewrite I3. unfold scale_and_round. apply zipmod_get_over. rewrite C2. exact Hj.
Qed.
Print Assumptions C60_decoder_stays_finite.

(* The post filter on its own: from samples up to X it never makes one above 8 X, through any number of frames, activations, changes of lag and gain. *)
Theorem C60_post_filter_bounded lm c n s X frames : legal_config c -> ltpf_lengths c = Ok n -> ltpf_ok c n s -> t_active s = false -> 1 <= X <= bpow radix2 102 ->
  Forall (sane X) (t_x s) -> Forall (sane (8 * X)) (t_xl s) -> Forall (fun f => (0 <= l_pitch (li_info f) < 512)%Z /\ len (li_x f) = nf c /\ Forall (sane X) (li_x f)) frames ->
  exists ys s', ltpf_frames (f32_ops lm) c s frames = Ok (ys, s') /\ length ys = length frames /\ Forall (fun y => len y = nf c /\ Forall (sane (8 * X)) y) ys.
Proof.
  intros L En S NA [X1 X2] FX FL HF. assert (XH : 8 * X <= bpow radix2 105) by (replace (bpow radix2 105) with (8 * bpow radix2 102) by (change 8 with (bpow radix2 3); rewrite <- bpow_plus; reflexivity); lra).
  assert (Z : ltpf_sized X s) by (split; [exact FX|split; [exact FL|rewrite NA; discriminate]]). clear FX FL NA. revert s S Z. induction HF as [|f frames (H1 & H2 & H3) HF IH]; intros s S Z; cbn [ltpf_frames].
  - exists [], s. split; [reflexivity|]. split; [reflexivity|constructor].
  - destruct (ltpf_run_ok (f32_ops lm) c n s (li_info f) (li_bits f) (li_x f) L En S H1 H2) as ([y s1] & E1 & L1 & S1). destruct (ltpf_size lm c n s (li_info f) (li_bits f) (li_x f) X y s1 L En S H1 X1 XH Z H3 E1) as [B1 Z1].
    destruct (IH s1 S1 Z1) as (ys & s2 & E2 & L2 & B2). rewrite E1. cbn [bind]. rewrite E2. cbn [bind]. exists (y :: ys), s2. split; [reflexivity|]. split; [cbn [length]; now rewrite L2|]. constructor; [split; assumption|exact B2].
Qed.
Print Assumptions C60_post_filter_bounded.
(* 16 kHz: the filter starts, changes its lag and stops *)
Example C60_filter_case : exists n, ltpf_lengths (config_new Hz16000 TenMs) = Ok n /\
  let z k := repeat (f32_of_Z 0) (Z.to_nat k) in let s := mkLtpfSt (z (l_cden n)) false 0 (z (l_cnum n)) (z (l_cden n)) (z (l_cnum n)) (z (l_cden n)) 0 0 (z (l_xltpf n)) (z (l_x n)) (z (l_scratch n)) in
  let x := repeat (f32_of_Z 20000) 160 in let frames := [mkLtIn (mkLtpf true true 100) 320 x; mkLtIn (mkLtpf true true 300) 320 x; mkLtIn (mkLtpf true false 300) 320 x] in
  ltpf_ok (config_new Hz16000 TenMs) n s /\ Forall (sane 20000) (t_x s) /\ Forall (sane (8 * 20000)) (t_xl s) /\ Forall (fun f => (0 <= l_pitch (li_info f) < 512)%Z /\ len (li_x f) = nf (config_new Hz16000 TenMs) /\ Forall (sane 20000) (li_x f)) frames.
Proof.
  assert (L : legal_config (config_new Hz16000 TenMs)) by (eexists _, _; reflexivity). destruct (lengths_ok _ L) as (n & En & G). exists n. split; [exact En|]. destruct G as [Gb [Gx Gxl] [Gc1 Gc2] [Gn1 Gn2] Gs]. cbv zeta.
  assert (LR : forall (v : f32) k, (0 <= k)%Z -> len (repeat v (Z.to_nat k)) = k) by (intros v k Hk; unfold len; rewrite repeat_length; lia). assert (N1 : nf (config_new Hz16000 TenMs) = 160%Z) by reflexivity.
  assert (SR : forall v k B, sane B v -> Forall (sane B) (repeat v k)) by (intros v k B HB; apply Forall_forall; intros w Hw; apply repeat_spec in Hw; now subst). assert (S0 : forall B, 0 <= B -> sane B (f32_of_Z 0)) by (intros B HB; destruct (fz_val 0 ltac:(lia)) as [V F]; split; [exact F|rewrite V, Rabs_R0; exact HB]).
  assert (S2 : sane 20000 (f32_of_Z 20000)) by (destruct (fz_val 20000 ltac:(lia)) as [V F]; split; [exact F|rewrite V; apply Rabs_le; lra]).
  split; [|split; [apply SR, S0; lra|split; [apply SR, S0; lra|]]].
  - constructor; cbn [t_zeros t_num t_den t_num_mem t_den_mem t_xl t_x t_scratch t_blk t_active]; try (apply LR; lia); [exists 0%Z; lia|discriminate].
  - assert (LX : len (repeat (f32_of_Z 20000) 160) = nf (config_new Hz16000 TenMs)) by (unfold len; rewrite repeat_length; reflexivity). repeat (constructor; [cbn [li_info li_x l_pitch]; split; [lia|split; [exact LX|apply SR, S2]]|]). constructor.
Qed.

(* ---- the hypotheses can be met: a library that rounds the exact functions ---- *)
Lemma f32_of_R_any r : Rabs r <= bpow radix2 100 -> is_finite (f32_of_R r) = true /\ Rabs (B2R (f32_of_R r) - r) <= uu * Rabs r + bpow radix2 (-150).
Proof.
  intros H. unfold f32_of_R, f32_norm. set (m := ZnearestE _). set (e := cexp _ _ _). pose proof (binary_normalize_correct 24 128 f32_prec f32_emax mode_NE m e false) as B. fold fexp32 in B. change (round_mode mode_NE) with ZnearestE in B. cbv zeta in B. fold (rnd32 (F2R (Float radix2 m e))) in B. change (F2R (Float radix2 m e)) with (rnd32 r) in B.
  rewrite (rnd_id (rnd32 r)) in B by (apply generic_format_round; auto with typeclass_instances; apply FLT_exp_valid; reflexivity). pose proof (rnd_err r) as Er. pose proof tiny150 as T. rewrite Rlt_bool_true in B.
  - destruct B as (V & F & _). split; [exact F|]. rewrite V. exact Er.
  - replace (rnd32 r) with (rnd32 r - r + r) by ring. eapply Rle_lt_trans; [apply Rabs_triang|]. apply Rle_lt_trans with (bpow radix2 102); [|apply bpow_lt; lia]. replace (bpow radix2 102) with (4 * bpow radix2 100) by (change 4 with (bpow radix2 2); rewrite <- bpow_plus; reflexivity). assert (1 <= bpow radix2 100) by (change 1 with (bpow radix2 0); apply bpow_le; lia). unfold uu in Er. lra.
Qed.
Definition exact_library : libm :=
  let r z := (f32_of_R (fst z), f32_of_R (snd z)) in
  {| lm_gain e := f32_of_R (Rpower 10 (IZR e / 28)); lm_exp2 x := f32_of_R (Rpower 2 (B2R x)); lm_sin17 i := f32_of_R (sin (IZR i * (PI / 17))); lm_tw n i := r (ftw R_ops n i); lm_tw4 n i := r (ftw4 R_ops n i) |}.
Lemma percent r : / 1000000000000 <= r -> r <= bpow radix2 100 -> is_finite (f32_of_R r) = true /\ Rabs (B2R (f32_of_R r) - r) <= r / 100.
Proof. intros H1 H2. destruct (f32_of_R_any r) as [F E]; [rewrite Rabs_pos_eq; lra|]. split; [exact F|]. eapply Rle_trans; [exact E|]. rewrite Rabs_pos_eq by lra. pose proof tiny150. unfold uu. lra. Qed.
Example C60_library : decoder_library exact_library /\ forall n, twiddles_near exact_library n.
Proof.
  assert (B100 : 1000000 * 1000000 <= bpow radix2 100) by (apply Rle_trans with (bpow radix2 40); [cbn; lra|apply bpow_le; lia]).
  assert (P10 : forall k, Rpower 10 (INR k) = 10 ^ k) by (intros k; apply Rpower_pow; lra). assert (P2 : forall k, Rpower 2 (INR k) = 2 ^ k) by (intros k; apply Rpower_pow; lra).
  split; [split; [|split]|].
  - intros e He. cbn [exact_library lm_gain]. apply percent.
    + apply Rle_trans with (Rpower 10 (- INR 9)); [rewrite Rpower_Ropp, P10; lra|]. apply Rle_Rpower; [lra|]. assert (-245 <= IZR e) by (apply (IZR_le (-245)); lia). cbn. lra.
    + eapply Rle_trans; [|exact B100]. apply Rle_trans with (Rpower 10 (INR 6)); [|rewrite P10; lra]. apply Rle_Rpower; [lra|]. assert (IZR e <= 145) by (apply IZR_le; lia). cbn. lra.
  - intros i Hi. cbn [exact_library lm_sin17]. destruct (f32_of_R_any (sin (IZR i * (PI / 17)))) as [F E]. { apply Rle_trans with 1; [apply Rabs_le; apply SIN_bound|lra]. } split; [exact F|]. eapply Rle_trans; [exact E|]. assert (Rabs (sin (IZR i * (PI / 17))) <= 1) by (apply Rabs_le; apply SIN_bound). pose proof tiny150. unfold uu. cbn. lra.
  - intros y Fy Hy. cbn [exact_library lm_exp2]. apply Rabs_le_inv in Hy. apply percent.
    + apply Rle_trans with (Rpower 2 (- INR 20)); [rewrite Rpower_Ropp, P2; lra|]. apply Rle_Rpower; [lra|]. cbn. lra.
    + eapply Rle_trans; [|exact B100]. apply Rle_trans with (Rpower 2 (INR 20)); [|rewrite P2; lra]. apply Rle_Rpower; [lra|]. cbn. lra.
  - intros n i _. cbn [exact_library lm_tw lm_tw4 R_ops ftw ftw4]. split; split; cbn [fst snd]; apply f32_of_R_near; apply Rabs_le; apply COS_bound || apply SIN_bound.
Qed.
(* two channels on zeroed buffers, a good frame, then garbage, then a good frame on the other channel *)
Example C60_case : exists dec rs dec1 r dec2 out, decoder_new (f32_ops exact_library) 2 SevenPointFiveMs Hz8000 (repeat (f32_of_Z 0) 2000) (repeat (f32_of_Z 0, f32_of_Z 0) 500) = Ok dec /\
  run_calls (f32_ops exact_library) t32 dec [mkCall 16 0 x_good (repeat 5%Z 60); mkCall 16 0 x_bad (repeat 5%Z 60)] = Ok (rs, dec1) /\ decode_frame (f32_ops exact_library) t32 dec1 16 1 x_good (repeat 5%Z 70) = Ok (r, dec2, out) /\
  len out = 70%Z /\ forall ch, In ch (d_channels dec2) -> Forall (sane (bpow radix2 97)) (kept ch).
Proof.
  destruct C60_library as [L T]. destruct (dec_lens 2 SevenPointFiveMs Hz8000) as [[ns nx]| |] eqn:EL; [|vm_compute in EL; discriminate EL|vm_compute in EL; discriminate EL].
  assert (Q : (ns <= 2000 /\ nx <= 500)%Z) by (vm_compute in EL; apply Ok_inj in EL; apply pair_equal_spec in EL; destruct EL as [<- <-]; lia).
  set (S0 := repeat (f32_of_Z 0) 2000). set (X0 := repeat (f32_of_Z 0, f32_of_Z 0) 500). assert (LS : (ns <= len S0)%Z) by (unfold S0, len; rewrite repeat_length; lia). assert (LX : (nx <= len X0)%Z) by (unfold X0, len; rewrite repeat_length; lia).
  destruct (C60_decoder_stays_finite exact_library t32 2 SevenPointFiveMs Hz8000 S0 X0 ns nx L (T _) ltac:(lia) EL LS LX) as (dec & E1 & E2).
  { apply Forall_forall. intros v Hv. apply repeat_spec in Hv. subst v. destruct (fz_val 0 ltac:(lia)) as [V F]. split; [exact F|]. rewrite V, Rabs_R0. lra. }
  set (cs := [mkCall 16 0 x_good (repeat 5%Z 60); mkCall 16 0 x_bad (repeat 5%Z 60)]). set (k := mkCall 16 1 x_good (repeat 5%Z 70)).
  destruct (C10_decode_never_fails_partial f32 (f32_ops exact_library) t32 2 SevenPointFiveMs Hz8000 S0 X0 ns nx (cs ++ [k]) ltac:(lia) EL LS LX) as (dec' & rs & dec2 & E1' & E3 & F2).
  - vm_compute. discriminate.
  - assert (G : read_frame true (config_new Hz8000 SevenPointFiveMs) x_good <> Panic) by (vm_compute; discriminate). assert (B : read_frame true (config_new Hz8000 SevenPointFiveMs) x_bad <> Panic) by (vm_compute; discriminate).
    unfold cs, k. repeat (apply Forall_cons; [cbn [k_ch k_buf app]; split; [lia|split; [apply bytes_repeat; lia|assumption]]|]). constructor.
  - rewrite E1 in E1'. apply Ok_inj in E1'. subst dec'. exists dec. unfold cs in E3. cbn [app run_calls] in E3. apply bind_Ok in E3. destruct E3 as ([[r1 d1] o1] & Q1 & E3). apply bind_Ok in E3. destruct E3 as ([rs2 d2'] & E3 & E4). apply bind_Ok in E3. destruct E3 as ([[r2 d2] o2] & Q2 & E3). apply bind_Ok in E3. destruct E3 as ([rs3 d3'] & E3 & E5). apply bind_Ok in E3. destruct E3 as ([[r3 d3] o3] & Q3 & _).
    assert (RC : run_calls (f32_ops exact_library) t32 dec cs = Ok ([(r1, o1); (r2, o2)], d2)) by (unfold cs; cbn [run_calls]; rewrite Q1; cbn [bind]; rewrite Q2; reflexivity).
    destruct (E2 cs k _ d2 r3 d3 o3 ltac:(unfold cs, k; repeat (apply Forall_cons; [apply bytes_repeat; lia|]); constructor) RC Q3) as [H1 H2]. exists [(r1, o1); (r2, o2)], d2, r3, d3, o3. split; [exact E1|]. split; [exact RC|]. split; [exact Q3|]. destruct (H2 eq_refl) as (ch & _ & _ & LO & _). split; [exact LO|exact H1].
Qed.
