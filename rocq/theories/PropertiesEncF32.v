(* The encoder in binary32: what 16 bit audio leaves to be checked per frame (C44, C49), and that the spectrum stays finite through the analysis (C61). *)
From Coq Require Import ZArith List Bool Lia Reals Lra.
From Coquelicot Require Import Complex.
From Flocq Require Import Core BinarySingleNaN.
From Verif Require Import Base Config DecSignal DecState EncShape SideInfo Reader Buffers AcSpec FrameSpec Loops Scalar EncScalar RealOps F32 F32Round EncF32 FrameDec ArithDec FrameEnc EncPayload EncFrame TailSpec PayloadSpec DecSide DctErr EncSns EncSnsOk EncTns TnsOk DecTotal DetectSpec QuantSpec EncQuant EncMdct EncDetect Decoder Encoder EncOk PayloadBound EncRun EncTrip EncKeep F32Err F32Size TnsSize ProjF32 EncSnsSize EncTnsSize EncSize PropertiesRounding F32Size PropertiesEncoder PropertiesFinite.
From Coq Require Import List.
Import ListNotations.
Local Open Scope Z_scope.

(* Missing for the full claim: every frame has to be live (EncSize.frame_live) at the time it is encoded: set B of the rotated noise shaping residual is not empty or shape 0 is not
   chosen, and no reflection coefficient is exactly 1 or -1. Infinities and NaNs need not be excluded: they do not occur in the spectrum, and elsewhere do no harm. *)
Theorem C44_encoder_total_f32_live_partial :
  forall (lm : libm) (el : elibm) t num d f ni ns nx (i : list Z) (s : list f32) (x : list (f32 * f32)) cs,
    encoder_library lm el -> twiddles_near lm (nf (config_new f d) / 2) ->
    f <> Hz8000 -> 0 <= num -> enc_lens num d f = Ok (ni, ns, nx) -> ni <= len i -> ns <= len s -> nx <= len x -> t_chk t = false \/ len cs <= t_umax t -> Forall i16 i ->
  exists en, encoder_new (f32_ops lm) num d f i s x = Ok en /\ e_config en = config_new f d /\ len (e_channels en) = num /\
    (Forall (call_ok en) cs -> Forall (fun k => Forall i16 (g_x k)) cs -> calls_meet (f32_ops lm) (f32_eops el) (frame_live lm el) t en cs ->
     exists rs en', run_ecalls (f32_ops lm) (f32_eops el) t en cs = Ok (rs, en') /\ Forall2 (fun k buf => len buf = len (g_buf k)) cs rs).
Proof.
  intros lm el t num d f ni ns nx i s x cs LB TW Hf Hn HL Hi Hs Hx Hb HQ.
  destruct (encoder_new_ok (f32_ops lm) t num d f ni ns nx i s x (len cs) Hf Hn HL Hi Hs Hx Hb) as (en & E & K & Ec & El). exists en. split; [exact E|]. split; [exact Ec|]. split; [exact El|].
  intros HC HX HA. pose proof (fresh_buffers (f32_ops lm) i16 t num d f i s x en (len cs) E K HQ) as HB.
  assert (CR : calls_regular (f32_ops lm) (f32_eops el) t en cs).
  { apply (meet_regular (f32_ops lm) (f32_eops el) (f32_elaws lm el) (frame_live lm el) i16 t (config_new f d)); auto. intros ch y N L Nb W Ly HN HBf HY FL. now apply live_regular. }
  destruct (run_ecalls_ok (f32_ops lm) (f32_eops el) t (f32_elaws lm el) cs en K HC CR) as ([rs en'] & R & _ & _ & _ & R2). exists rs, en'. auto.
Qed.
Print Assumptions C44_encoder_total_f32_live_partial.

(* Any history of live frames, then one more: every spectral value of the analysis is finite. The bounds are those of the transform (1.52 times the size of the block), of the largest
   noise shaping gain (2^19.3) and of the lattice filters (257.1). The gain index of the loudest such spectrum is far from the ends of 16 bits. *)
Theorem C61_encoder_spectrum_finite :
  forall (lm : libm) (el : elibm) t num d f ni ns nx (i : list Z) (s : list f32) (x : list (f32 * f32)) cs k,
    encoder_library lm el -> twiddles_near lm (nf (config_new f d) / 2) ->
    f <> Hz8000 -> 0 <= num -> enc_lens num d f = Ok (ni, ns, nx) -> ni <= len i -> ns <= len s -> nx <= len x -> t_chk t = false \/ len cs + 1 <= t_umax t -> Forall i16 i ->
  exists en, encoder_new (f32_ops lm) num d f i s x = Ok en /\
    (Forall (call_ok en) (cs ++ [k]) -> Forall (fun k => Forall i16 (g_x k)) (cs ++ [k]) -> calls_meet (f32_ops lm) (f32_eops el) (frame_live lm el) t en (cs ++ [k]) ->
     exists rs en1 ch ch' p, run_ecalls (f32_ops lm) (f32_eops el) t en cs = Ok (rs, en1) /\ idx (e_channels en1) (g_ch k) = Ok ch /\
       analyse (f32_ops lm) (f32_eops el) t (config_new f d) ch (g_x k) (len (g_buf k)) = Ok (p, ch') /\
       exists nn lines bands bw nbw a at' sns shaped tns filtered,
         emdct_run (f32_ops lm) (config_new f d) (ec_mdct ch) (g_x k) (ec_out ch) (ec_bands ch) = Ok (nn, lines, bands, ec_mdct ch') /\
         bw_run (f32_ops lm) (ec_bw ch) bands = Ok (bw, nbw) /\ attack_run (f32_ops lm) (config_new f d) (ec_attack ch) (g_x k) (len (g_buf k)) = Ok (a, at') /\
         sns_encode (f32_ops lm) (f32_eops el) (config_new f d) (firstn (Z.to_nat (ne (config_new f d))) lines) bands a = Ok (sns, shaped) /\
         tns_encode (f32_ops lm) (f32_eops el) (t_chk t) (config_new f d) shaped bw (len (g_buf k) * 8) nn = Ok (tns, filtered) /\
         let within B := Forall (fun v : f32 => is_finite v = true /\ (Rabs (B2R v) <= B)%R) in
         within 3200000%R lines /\ within (34 * 10 ^ 11)%R shaped /\ within (10 ^ 15)%R filtered /\
         gain_floor (f32_ops lm) (f32_eops el) filtered (gg_off (fs_ind (config_new f d)) (len (g_buf k) * 8)) <= 3000).
Proof.
  intros lm el t num d f ni ns nx i s x cs k LB TW Hf Hn HL Hi Hs Hx Hb HQ.
  destruct (encoder_new_ok (f32_ops lm) t num d f ni ns nx i s x (len cs + 1) Hf Hn HL Hi Hs Hx Hb) as (en & E & K & Ec & El). exists en. split; [exact E|].
  intros HC HX HA. pose proof (fresh_buffers (f32_ops lm) i16 t num d f i s x en (len cs + 1) E K HQ) as HB. set (c := config_new f d) in *.
  assert (HR : forall ch y N, legal_config c -> nb c = 64 -> ech_wf c ch -> len y = nf c -> 20 <= N <= 400 -> buffers i16 c ch -> Forall i16 y -> frame_live lm el c ch y N -> frame_regular (f32_ops lm) (f32_eops el) t c ch y N) by (intros; now apply live_regular).
  assert (L1 : len (cs ++ [k]) = len cs + 1) by (unfold len; rewrite app_length; cbn [length]; lia).
  pose proof (meet_regular (f32_ops lm) (f32_eops el) (f32_elaws lm el) (frame_live lm el) i16 t c HR (cs ++ [k]) en Ec ltac:(now rewrite L1) HC HX HB HA) as CR.
  destruct (run_ecalls_ok (f32_ops lm) (f32_eops el) t (f32_elaws lm el) (cs ++ [k]) en ltac:(now rewrite L1) HC CR) as ([rs en'] & R & _ & _ & Lc & _).
  assert (R1 : exists rs1 en1, run_ecalls (f32_ops lm) (f32_eops el) t en cs = Ok (rs1, en1) /\ len (e_channels en1) = len (e_channels en)).
  { clear -HC CR K Ec El HB. apply Forall_app in HC. destruct HC as [HC _]. assert (CR' : calls_regular (f32_ops lm) (f32_eops el) t en cs).
    { clear -CR. revert en CR. induction cs as [|k0 cs IH]; intros en CR; [exact I|]. cbn [app calls_regular] in *. destruct CR as [A B]. split; [exact A|]. intros en' buf E. apply IH, (B en' buf E). }
    assert (K' : encoder_ok t en (len cs)). { destruct K as [K1 K2]. split; [exact K1|]. eapply Forall_impl; [|exact K2]. cbv beta. intros ch [A [B|B]]; (split; [exact A|]); [now left|right; lia]. }
    destruct (run_ecalls_ok (f32_ops lm) (f32_eops el) t (f32_elaws lm el) cs en K' HC CR') as ([rs1 en1] & R & _ & _ & Lc & _). exists rs1, en1. auto. }
  destruct R1 as (rs1 & en1 & R1 & Lc1). pose proof HC as HCk. apply Forall_app in HCk. destruct HCk as [_ HCk]. inversion_clear HCk as [|? ? Ck _]. pose proof Ck as (Q1 & Q2 & Q3 & Q4).
  destruct (Loops.idx_ok (e_channels en1) (g_ch k)) as (ch & Ech); [lia|].
  destruct (meet_state (f32_ops lm) (f32_eops el) (f32_elaws lm el) (frame_live lm el) i16 t c HR cs k en rs1 en1 Ec K HC HX HB HA R1 ch Ech) as (_ & W & Ix & Bf & Lv & _).
  apply Forall_app in HX. destruct HX as [_ HX]. inversion_clear HX as [|? ? Xk _]. rewrite Ec in *. destruct (not_8k c ltac:(exists f, d; auto)) as [L Nb].
  assert (Hfs : 1 <= fs_ind c) by (unfold c; destruct f, d; try (exfalso; now apply Hf); vm_compute; discriminate).
  destruct (analyse_full (f32_ops lm) (f32_eops el) t c ch (g_x k) (len (g_buf k)) (f32_elaws lm el) L Nb Hfs W Ix Q2 Q3 Q4 (HR ch (g_x k) (len (g_buf k)) L Nb W Q2 Q3 Bf Xk Lv)) as ([p ch'] & EA & _ & bw & nbw & sr & tr & lp & q & xq & rb & nfv & l1 & l2 & h & n & m & b & B & _ & _ & _ & nn & out & bands & a & at' & S1 & S2 & S3 & S4 & S5).
  exists rs1, en1, ch, ch', p. split; [exact R1|]. split; [exact Ech|]. split; [exact EA|]. exists nn, out, bands, bw, nbw, a, at', sr, l1, tr, l2. split; [exact S1|]. split; [exact S2|]. split; [exact S3|]. split; [exact S4|]. split; [exact S5|].
  destruct (spectra_size lm el t c ch (g_x k) (len (g_buf k)) LB L TW Nb W Q2 Q3 Bf Xk Lv nn out bands (ec_mdct ch') bw nbw a at' S1 S2 S3) as (B0 & _ & H). destruct (H sr l1 S4) as (B1 & _ & H2). destruct (H2 tr l2 S5) as [B2 G]. split; [exact B0|]. split; [exact B1|]. split; [exact B2|exact G].
Qed.
Print Assumptions C61_encoder_spectrum_finite.

(* the values of the exact functions rounded to binary32 make such a library *)
Definition exact_elibrary : elibm :=
  {| lm_log10 x := match x with B754_zero _ => B754_infinity true | _ => f32_of_R (ln (B2R x) / ln 10) end;
     lm_log2 x := match x with B754_zero _ => B754_infinity true | _ => f32_of_R (ln (B2R x) / ln 2) end;
     lm_eexp2 x := f32_of_R (Rpower 2 (B2R x));
     lm_asin x := if is_finite x then (if Rle_dec (Rabs (B2R x)) 1 then f32_of_R (asin (B2R x)) else B754_nan) else B754_nan;
     lm_pow10 x := f32_of_R (Rpower 10 (B2R x)); lm_powi x n := f32_of_R (powerRZ (B2R x) n) |}.
Example C61_library : encoder_library exact_library exact_elibrary /\ forall n, twiddles_near exact_library n.
Proof.
  destruct C60_library as [(_ & SN & EN) TW]. split; [|exact TW]. split; [exact SN|]. split; [exact EN|]. split; [split|split].
  - intros x F H. cbn [exact_elibrary lm_asin]. rewrite F. destruct (Rle_dec _ _) as [D|D]; [|lra]. pose proof (asin_bound (B2R x)) as AB. pose proof pi_3142 as P.
    destruct (f32_of_R_any (asin (B2R x))) as [G E]; [apply Rle_trans with 2%R; [apply Rabs_le; lra|change 2%R with (bpow radix2 1); apply bpow_le; lia]|]. split; [exact G|]. eapply Rle_trans; [exact E|].
    assert (Rabs (asin (B2R x)) <= 2)%R by (apply Rabs_le; lra). pose proof tiny150. unfold uu. cbn. lra.
  - intros x [F|H]; cbn [exact_elibrary lm_asin]; [now rewrite F|]. destruct (is_finite x); [|reflexivity]. destruct (Rle_dec _ _); [lra|reflexivity].
  - intros x F P. assert (E0 : lm_log10 exact_elibrary x = f32_of_R (ln (B2R x) / ln 10)) by (destruct x; try reflexivity; cbn in P; lra). rewrite E0.
    assert (LB : (Rabs (ln (B2R x) / ln 10) <= 150)%R).
    { pose proof ln10_low as L10. assert (L2 : (0 < ln 2 <= 1)%R) by (split; [pose proof ln_lt_2; lra|apply Rle_trans with (ln (exp 1)); [apply Rlt_le, ln_increasing; [lra|]; pose proof (exp_ineq1 1 ltac:(lra)); lra|rewrite ln_exp; lra]]).
      assert (U : (B2R x <= bpow radix2 128)%R) by (pose proof (abs_B2R_lt_emax 24 128 x) as Q; rewrite Rabs_pos_eq in Q by lra; lra).
      assert (Lo : (bpow radix2 (-149) <= B2R x)%R) by (assert (SF : is_finite_strict x = true) by (destruct x as [s|s| |s m e He]; try discriminate F; [cbn in P; lra|reflexivity]); pose proof (abs_B2R_ge_emin 24 128 x SF) as Q; rewrite Rabs_pos_eq in Q by lra; exact Q).
      assert (LU : (ln (B2R x) <= 128 * ln 2)%R) by (rewrite <- (ln_power 128); destruct U as [U| ->]; [apply Rlt_le, ln_increasing; lra|lra]). pose proof (bpow_gt_0 radix2 (-149)) as PP.
      assert (LL : (-149 * ln 2 <= ln (B2R x))%R) by (change (-149)%R with (IZR (-149)); rewrite <- (ln_power (-149)); destruct Lo as [Lo|Lo]; [apply Rlt_le, ln_increasing; lra|rewrite Lo; lra]).
      unfold Rdiv. rewrite Rabs_mult, (Rabs_pos_eq (/ ln 10)) by (apply Rlt_le, Rinv_0_lt_compat; lra). assert (I : (/ ln 10 <= 1)%R) by (rewrite <- Rinv_1; apply Rinv_le_contravar; lra). assert (I0 : (0 < / ln 10)%R) by (apply Rinv_0_lt_compat; lra).
      assert (A : (Rabs (ln (B2R x)) <= 150)%R) by (apply Rabs_le; lra). pose proof (Rabs_pos (ln (B2R x))). nra. }
    destruct (f32_of_R_any (ln (B2R x) / ln 10)) as [G E]; [apply Rle_trans with (bpow radix2 10); [cbn; lra|apply bpow_le; lia]|]. split; [exact G|]. eapply Rle_trans; [exact E|]. pose proof tiny150. unfold uu. lra.
  - intros s. reflexivity.
Qed.
