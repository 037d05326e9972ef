(* C49 and C61 in binary32 for every call that succeeds after calls that succeeded: liveness is no longer a hypothesis, success implies it (C44).
   Success is that of the model: without overflow checks the code also returns where noise shaping chooses shape 0 with nothing in set B (SnsIndex.joint_index panics there), and such calls are not covered. *)
From Coq Require Import ZArith List Bool Lia Reals Lra.
From Coquelicot Require Import Complex.
From Flocq Require Import Core BinarySingleNaN.
From Verif Require Import Base Config DecSignal DecState EncShape SideInfo Reader Buffers AcSpec FrameSpec Loops Scalar EncScalar RealOps F32 F32Round F32Lines EncF32 FrameDec ArithDec FrameEnc EncPayload EncFrame TailSpec PayloadSpec DecSide DctErr EncSns EncSnsOk EncTns TnsOk DecTotal DetectSpec QuantSpec EncQuant EncMdct EncDetect Decoder Encoder EncOk PayloadBound EncRun EncTrip EncKeep EncAny F32Err F32Size SnsSize TnsSize ProjF32 EncSnsSize EncTnsSize EncSize TnsIndex PropertiesRounding PropertiesEncoder PropertiesFinite PropertiesEncF32 PropertiesTns PropertiesLive PropertiesAny.
From Coq Require Import List.
Import ListNotations.
Local Open Scope Z_scope.

(* the channel a successful call works on *)
Lemma reached lm el t num d f ni ns nx i s x cs k : encoder_library lm el -> asin_ends el ->
  f <> Hz8000 -> 0 <= num -> enc_lens num d f = Ok (ni, ns, nx) -> ni <= len i -> ns <= len s -> nx <= len x -> t_chk t = false \/ len cs + 1 <= t_umax t -> Forall i16 i ->
  exists en, encoder_new (f32_ops lm) num d f i s x = Ok en /\
    (Forall (call_ok en) (cs ++ [k]) -> Forall (fun k => Forall i16 (g_x k)) (cs ++ [k]) ->
     forall rs en1 en2 buf, run_ecalls (f32_ops lm) (f32_eops el) t en cs = Ok (rs, en1) -> encode_call (f32_ops lm) (f32_eops el) t en1 (g_ch k) (g_x k) (g_buf k) = Ok (en2, buf) ->
     let c := config_new f d in exists ch ch', idx (e_channels en1) (g_ch k) = Ok ch /\ encode (f32_ops lm) (f32_eops el) t c ch (g_x k) (g_buf k) = Ok (ch', buf) /\
       ech_wf c ch /\ buffers i16 c ch /\ (ec_index ch < t_umax t \/ t_chk t = false) /\ len (g_x k) = nf c /\ Forall i16 (g_x k) /\ 20 <= len (g_buf k) <= 400 /\ (fs_ind c < 3 \/ 31 <= len (g_buf k)) /\
       frame_live lm el c ch (g_x k) (len (g_buf k))).
Proof.
  intros LB AE Hf Hn HL Hi Hs Hx Hb HQ.
  destruct (encoder_new_ok (f32_ops lm) t num d f ni ns nx i s x (len cs + 1) Hf Hn HL Hi Hs Hx Hb) as (en & E & K & Ec & El). exists en. split; [exact E|]. intros HC HX rs en1 en2 buf R EC c.
  pose proof (fresh_buffers (f32_ops lm) i16 t num d f i s x en (len cs + 1) E K HQ) as HB. apply Forall_app in HC. destruct HC as [HC HCk]. apply Forall_app in HX. destruct HX as [HX HXk]. inversion_clear HCk as [|? ? Ck _]. inversion_clear HXk as [|? ? Xk _].
  destruct (run_any (f32_ops lm) (f32_eops el) i16 t cs en rs en1 1 K ltac:(lia) HC HX HB R) as (K1 & Ec1 & El1 & HB1). destruct Ck as (Q1 & Q2 & Q3 & Q4). rewrite Ec in Q2, Q4. fold c in Q2, Q4.
  destruct (Loops.idx_ok (e_channels en1) (g_ch k)) as (ch & Ech); [lia|]. destruct K1 as [_ KC]. destruct (DecRun.Forall_getz _ _ _ _ KC Ech) as [W Ix]. pose proof (DecRun.Forall_getz _ _ _ _ HB1 Ech) as Kb. rewrite Ec1, Ec in W, Kb. fold c in W, Kb.
  destruct (not_8k c ltac:(exists f, d; auto)) as [L Nb].
  unfold encode_call in EC. rewrite Ech in EC. cbn [bind] in EC. apply bind_Ok in EC. destruct EC as ([ch' buf'] & Er & EC). rewrite Ec1, Ec in Er. fold c in Er. apply bind_Ok in EC. destruct EC as (chs & _ & EC). apply ParseBase.Ok_inj in EC. assert (buf' = buf) by congruence. subst buf'. destruct LB as (_ & _ & AN & _).
  exists ch, ch'. repeat (split; [first [assumption|destruct Ix; [now right|left; lia]]|]).
  apply live_iff. split; [exact (success_shaped lm el t c ch (g_x k) (g_buf k) _ Er)|exact (success_steady lm el t c ch (g_x k) (g_buf k) _ AN AE L W Q2 Er)].
Qed.

(* Missing: the restrictions on the payload (C05, C06, C07, C25, C43), as in C49_encoded_frame_is_read_back_partial. *)
Theorem C49_read_back_f32_partial :
  forall (lm : libm) (el : elibm) t num d f ni ns nx (i : list Z) (s : list f32) (x : list (f32 * f32)) cs k,
    encoder_library lm el -> asin_ends el -> twiddles_near lm (nf (config_new f d) / 2) ->
    f <> Hz8000 -> 0 <= num -> enc_lens num d f = Ok (ni, ns, nx) -> ni <= len i -> ns <= len s -> nx <= len x -> t_chk t = false \/ len cs + 1 <= t_umax t -> Forall i16 i ->
  exists en, encoder_new (f32_ops lm) num d f i s x = Ok en /\
    (Forall (call_ok en) (cs ++ [k]) -> Forall (fun k => Forall i16 (g_x k)) (cs ++ [k]) ->
     forall rs en1 en2 buf, run_ecalls (f32_ops lm) (f32_eops el) t en cs = Ok (rs, en1) -> encode_call (f32_ops lm) (f32_eops el) t en1 (g_ch k) (g_x k) (g_buf k) = Ok (en2, buf) ->
     let c := config_new f d in len buf = len (g_buf k) /\ exists ch ch' p, idx (e_channels en1) (g_ch k) = Ok ch /\ analyse (f32_ops lm) (f32_eops el) t c ch (g_x k) (len buf) = Ok (p, ch') /\
    (p_gg p < 256 -> Forall (fun v => v <> -32768) (p_xq p) -> let l := payload (ne c) p in
     (2 < p_lastnz p -> 46 * len (ev_syms l) < 2048 * (slack (8 * len buf) - 2) -> payload_bits l <= 8 * len buf) /\
     (payload_bits l <= 8 * len buf -> exists q, frame_legal c (len buf) p q /\ bytes buf /\
        read_side_info buf reader_new (fs_ind c) (ne c) = Ok (spec_side p q, mkReader 0 (spec_side_len (ne c) p)) /\
        (~ term_window (fin l) \/ tbits l + Z.min (8 * len buf - payload_bits l) (len (res_source p)) + 8 * iN (fin l) + 24 <= 8 * len buf ->
         exists a xs, read_frame true c buf = Ok (mkFrame (spec_side p q) a xs) /\ a_rc_order a = spec_orders p /\ a_rc_i a = spec_tns_idx p /\ len xs = 400 /\
           (p_lsb_mode p = false -> xs = spec_lines p) /\
           (forall i, 0 <= i < p_lastnz p -> Z.abs (getz 0 (p_xq p) i - getz 0 xs i) <= 2) /\ (forall i, p_lastnz p <= i -> getz 0 xs i = 0))))).
Proof.
  intros lm el t num d f ni ns nx i s x cs k LB AE TW Hf Hn HL Hi Hs Hx Hb HQ. destruct (reached lm el t num d f ni ns nx i s x cs k LB AE Hf Hn HL Hi Hs Hx Hb HQ) as (en & E & H). exists en. split; [exact E|]. intros HC HX rs en1 en2 buf R EC c.
  destruct (H HC HX rs en1 en2 buf R EC) as (ch & ch' & Ech & Er & W & Kb & Ix & Lx & Xk & HN & H2 & FL). fold c in Er, W, Kb, Lx, H2, FL.
  destruct (C49_read_back_f32_live_partial lm el t f d ch (g_x k) (g_buf k) LB Hf TW W Kb Ix Lx Xk HN H2 FL) as (ch1 & buf1 & p & A1 & A2 & A3 & _ & _ & A4). fold c in A1, A2, A4. rewrite Er in A2. apply ParseBase.Ok_inj in A2. apply pair_equal_spec in A2. destruct A2 as [<- <-].
  split; [exact A3|]. exists ch, ch', p. rewrite A3. split; [exact Ech|]. split; [exact A1|exact A4].
Qed.
Print Assumptions C49_read_back_f32_partial.

Theorem C61_spectrum_finite_any_run :
  forall (lm : libm) (el : elibm) t num d f ni ns nx (i : list Z) (s : list f32) (x : list (f32 * f32)) cs k,
    encoder_library lm el -> asin_ends el -> twiddles_near lm (nf (config_new f d) / 2) ->
    f <> Hz8000 -> 0 <= num -> enc_lens num d f = Ok (ni, ns, nx) -> ni <= len i -> ns <= len s -> nx <= len x -> t_chk t = false \/ len cs + 1 <= t_umax t -> Forall i16 i ->
  exists en, encoder_new (f32_ops lm) num d f i s x = Ok en /\
    (Forall (call_ok en) (cs ++ [k]) -> Forall (fun k => Forall i16 (g_x k)) (cs ++ [k]) ->
     forall rs en1 en2 buf, run_ecalls (f32_ops lm) (f32_eops el) t en cs = Ok (rs, en1) -> encode_call (f32_ops lm) (f32_eops el) t en1 (g_ch k) (g_x k) (g_buf k) = Ok (en2, buf) ->
     let c := config_new f d in exists ch, idx (e_channels en1) (g_ch k) = Ok ch /\
       exists nn lines bands m bw nbw a at' sns shaped tns filtered,
         emdct_run (f32_ops lm) c (ec_mdct ch) (g_x k) (ec_out ch) (ec_bands ch) = Ok (nn, lines, bands, m) /\
         bw_run (f32_ops lm) (ec_bw ch) bands = Ok (bw, nbw) /\ attack_run (f32_ops lm) c (ec_attack ch) (g_x k) (len (g_buf k)) = Ok (a, at') /\
         sns_encode (f32_ops lm) (f32_eops el) c (firstn (Z.to_nat (ne c)) lines) bands a = Ok (sns, shaped) /\
         tns_encode (f32_ops lm) (f32_eops el) (t_chk t) c shaped bw (len (g_buf k) * 8) nn = Ok (tns, filtered) /\
         let within B := Forall (fun v : f32 => is_finite v = true /\ (Rabs (B2R v) <= B)%R) in
         within 3200000%R lines /\ within (34 * 10 ^ 11)%R shaped /\ within (10 ^ 15)%R filtered /\
         gain_floor (f32_ops lm) (f32_eops el) filtered (gg_off (fs_ind c) (len (g_buf k) * 8)) <= 3000).
Proof.
  intros lm el t num d f ni ns nx i s x cs k LB AE TW Hf Hn HL Hi Hs Hx Hb HQ. destruct (reached lm el t num d f ni ns nx i s x cs k LB AE Hf Hn HL Hi Hs Hx Hb HQ) as (en & E & H). exists en. split; [exact E|]. intros HC HX rs en1 en2 buf R EC c.
  destruct (H HC HX rs en1 en2 buf R EC) as (ch & ch' & Ech & Er & W & Kb & Ix & Lx & Xk & HN & H2 & FL). fold c in Er, W, Kb, Lx, H2, FL. exists ch. split; [exact Ech|]. destruct (not_8k c ltac:(exists f, d; auto)) as [L Nb].
  unfold encode in Er. apply bind_Ok in Er. destruct Er as ([p ch1] & EA & _). unfold analyse in EA. apply bind_Ok in EA. destruct EA as (ix & _ & EA). cbv zeta in EA. apply bind_Ok in EA. destruct EA as ([[[nn out] bands] m] & E1 & EA).
  unfold split_at in EA. destruct (_ || _); [discriminate EA|]. cbn [bind] in EA. apply bind_Ok in EA. destruct EA as ([bw nbw] & E2 & EA). apply bind_Ok in EA. destruct EA as ([a at'] & E3 & EA). apply bind_Ok in EA. destruct EA as ([sn l1] & E4 & EA). apply bind_Ok in EA. destruct EA as ([tr l2] & E5 & _).
  destruct (spectra_size lm el t c ch (g_x k) (len (g_buf k)) LB L TW Nb W Lx HN Kb Xk FL nn out bands m bw nbw a at' E1 E2 E3) as (S1 & _ & S2). destruct (S2 sn l1 E4) as (S3 & _ & S4). destruct (S4 tr l2 E5) as (S5 & S6).
  exists nn, out, bands, m, bw, nbw, a, at', sn, l1, tr, l2. do 5 (split; [assumption|]). intros within. split; [exact S1|]. split; [exact S3|]. split; [exact S5|exact S6].
Qed.
Print Assumptions C61_spectrum_finite_any_run.

(* the hypotheses are met: a silent call on another channel, then a silent call that succeeds *)
From Verif Require PropertiesQuiet.
Example C61_any_run_case :
  let lm := exact_library in let el := exact_elibrary in let k := mkEcall 0 (repeat 0 480) (repeat 0 100) in let k0 := mkEcall 1 (repeat 0 480) (repeat 0 40) in let t := mkTarget true 4294967295 in
  exists en rs en1 en2 buf, encoder_new (f32_ops lm) 2 TenMs Hz48000 (repeat 0 (Z.to_nat 3800)) (repeat (f32_of_Z 0) (Z.to_nat 2212)) (repeat (f32_of_Z 0, f32_of_Z 0) (Z.to_nat 1920)) = Ok en /\
    encoder_library lm el /\ asin_ends el /\ Forall (call_ok en) ([k0] ++ [k]) /\ run_ecalls (f32_ops lm) (f32_eops el) t en [k0] = Ok (rs, en1) /\ encode_call (f32_ops lm) (f32_eops el) t en1 (g_ch k) (g_x k) (g_buf k) = Ok (en2, buf).
Proof.
  intros lm el k k0 t. destruct PropertiesQuiet.C61_case as (en & rs & en' & E & LB & _ & HC & _ & M & R). fold lm el k k0 t in E, LB, HC, M, R. cbn [app] in HC, M, R. cbn [run_ecalls] in R. apply bind_Ok in R. destruct R as ([en1 b1] & E1 & R). apply bind_Ok in R. destruct R as ([rs2 en2] & R & _). apply bind_Ok in R. destruct R as ([en3 b3] & E3 & _).
  exists en, [b1], en1, en3, b3. split; [exact E|]. split; [exact LB|]. split; [exact (proj1 (proj2 C62_library))|]. split; [exact HC|]. split; [cbn [run_ecalls]; rewrite E1; reflexivity|exact E3].
Qed.
