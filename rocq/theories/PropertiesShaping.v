(* C26, C28, C29: the encoder's pitch lag and temporal noise shaping against the decoder's *)
From Coq Require Import ZArith Lia List Bool Reals Lra.
From Flocq Require Import Core.
From Verif Require Import Base Config Loops Scalar F32 RealOps EncScalar EncF32 BufLemmas DecSignal DecLtpf DecTotal DetectSpec MdctSpec ParseBase EncLtpf EncLtpfOk EncTns EncPayload TnsInverse TnsOk FrameSpec.
Import ListNotations.
Local Open Scope Z_scope.

(* ---------- C26 ---------- *)
(* every lag the encoder can select (`selectable`): the index is below 512, and the decoder reads the same lag in quarter
   samples exactly when the lag is below 127 or from 157 on *)
Theorem C26_every_lag :
  forall p fr, selectable p fr ->
    0 <= lag_index p fr < 512 /\
    exists q, ltpf_quarter_lag (lag_index p fr) = Ok q /\ (q = 4 * p + fr <-> p < 127 \/ 157 <= p) /\ (127 <= p < 157 -> q = 2 * p + fr / 2 + 2).
Proof.
  intros p fr H. unfold selectable in H. unfold lag_index, ltpf_quarter_lag.
  destruct (Z.ltb_spec p 127).
  - split; [lia|]. destruct (Z.leb_spec 440 (4 * p + fr - 128)); [lia|]. destruct (Z.leb_spec 380 (4 * p + fr - 128)); [lia|]. cbv zeta.
    assert (D : (4 * p + fr - 128) / 4 = p - 32) by (symmetry; apply Z.div_unique with fr; lia). rewrite D.
    unfold usub. match goal with |- context [?a <? ?b] => destruct (Z.ltb_spec a b); [lia|] end. cbn [bind]. eexists. split; [reflexivity|]. lia.
  - destruct (Z.ltb_spec p 157).
    + assert (F2 : fr / 2 = 0 \/ fr / 2 = 1) by (destruct H as [H|[H|H]]; [lia|destruct H as [_ [-> | ->]]; [left|right]; reflexivity|lia]).
      split; [lia|]. set (i := 2 * p + fr / 2 - 126) in *. assert (Hi : 128 <= i <= 187) by lia.
      destruct (Z.leb_spec 440 i); [lia|]. destruct (Z.leb_spec 380 i); [lia|]. cbv zeta. pose proof (Z.mul_div_le i 4 ltac:(lia)). unfold usub.
      match goal with |- context [?a <? ?b] => destruct (Z.ltb_spec a b); [lia|] end. cbn [bind]. eexists. split; [reflexivity|]. lia.
    + split; [lia|]. destruct (Z.leb_spec 440 (p + 283)); [|lia]. unfold usub. destruct (Z.ltb_spec (p + 283) 283); [lia|]. cbn [bind]. eexists. split; [reflexivity|]. lia.
Qed.
Print Assumptions C26_every_lag.

(* whole runs of the detector, any arithmetic, any number of frames: each frame with a pitch sends an index below 512, and the lag
   the encoder keeps for the next frame is the one the decoder reconstructs.
   Missing: the lags 127 to 156, where the claim is false (below). *)
Theorem C26_lag_round_trip_partial :
  forall (F : Type) (o : ops F) (e : eops F) c xs x12 x6 frames, legal_config c ->
    len xs = ext c + nf c -> len x12 = (let '(l12, _, delay) := eltpf_lens (n_ms c) in l12 + delay + NMEM) -> len x6 = 64 + K_MAX ->
    Forall (fun '(x, _, _) => len x = nf c) frames ->
    exists rs, eltpf_frames o e c (eltpf_new o xs x12 x6) frames = Ok rs /\ length rs = length frames /\
      Forall (fun '(r, pitch) => if lr_present r
        then lr_nbits r = 11 /\ 0 <= lr_index r < 512 /\
             exists p fr q, selectable p fr /\ pitch = fadd o (fz o p) (fdiv o (fz o fr) (fz o 4)) /\ ltpf_quarter_lag (lr_index r) = Ok q /\ (q = 4 * p + fr <-> p < 127 \/ 157 <= p)
        else lr_nbits r = 1 /\ lr_index r = 0) rs.
Proof.
  intros F o e c xs x12 x6 frames Hc H1 H2 H3 HF.
  destruct (eltpf_frames_ok o e c Hc frames (eltpf_new o xs x12 x6) (eltpf_new_wf o c xs x12 x6 H1 H2 H3) HF) as (rs & E & L & K).
  exists rs. split; [exact E|]. split; [exact L|]. eapply Forall_impl; [|exact K]. intros [r pitch]. unfold lr_legal. destruct (lr_present r); [|tauto].
  intros (N & p & fr & S1 & S2 & S3). destruct (C26_every_lag p fr S1) as (A & q & B & C & _). rewrite S2. split; [assumption|]. split; [assumption|]. exists p, fr, q. auto.
Qed.
Print Assumptions C26_lag_round_trip_partial.

(* two frames of pulses 170 samples apart at 16 kHz (lag 136 at 12.8 kHz): the encoder of f32 keeps the lag 136.0 and sends the
   index 146, which the decoder reads as 274 quarter samples = 68.5; the LC3 index of this lag is 398 *)
Definition pulses (n from : Z) : list Z := map (fun i => if (from + i) mod 170 =? 100 then 12000 else 0) (iota n).
Definition pulse_frames : list (list Z * bool * Z) := [(pulses 160 0, false, 320); (pulses 160 160, false, 320)].
Theorem C26_lag_round_trip_refuted :
  let c := config_new Hz16000 TenMs in
  forall lm el, exists r1 r2 p1,
    eltpf_frames (f32_ops lm) (f32_eops el) c (eltpf_new (f32_ops lm) (repeat 0 180) (repeat (fz (f32_ops lm) 0) 384) (repeat (fz (f32_ops lm) 0) 178)) pulse_frames =
      Ok [(r1, p1); (r2, fz (f32_ops lm) 136)] /\
    lr_present r2 = true /\ lr_index r2 = 146 /\ ltpf_quarter_lag 146 = Ok 274 /\ 274 <> 4 * 136 /\ ltpf_quarter_lag 398 = Ok (4 * 136).
Proof.
  intros c lm el. exists (mkLr 0 false false 1), (mkLr 146 true false 11), (fz (f32_ops lm) 0). split; [vm_cast_no_check (eq_refl (Ok [(mkLr 0 false false 1, fz (f32_ops lm) 0); (mkLr 146 true false 11, fz (f32_ops lm) 136)]))|].
  repeat (split; [reflexivity|]). split; [discriminate|reflexivity].
Qed.
Print Assumptions C26_lag_round_trip_refuted.

(* the lag at the sampling rate of the decoder: the nearest quarter sample, halves up; the rate counts in steps of 8 kHz *)
Theorem C27_resampled_lag :
  forall f d q, 0 <= q -> let c := config_new f d in let k := match f with Hz8000 => 1 | Hz16000 => 2 | Hz24000 => 3 | Hz32000 => 4 | Hz44100 | Hz48000 => 6 end in
    let p := ltpf_p_up (fs c) q in
    (* p quarter samples at 8000 k Hz against q quarter samples at 12800 Hz *)
    2 * 12800 * p - 12800 <= 2 * q * (8000 * k) < 2 * 12800 * p + 12800.
Proof.
  intros f d q Hq c k p. assert (E : p = (q * k * 10 + 8) / 16) by (unfold p, ltpf_p_up, c, k; destruct f, d; reflexivity).
  pose proof (Z.div_mod (q * k * 10 + 8) 16 ltac:(lia)). pose proof (Z.mod_pos_bound (q * k * 10 + 8) 16 ltac:(lia)). rewrite <- E in *. lia.
Qed.
Print Assumptions C27_resampled_lag.

(* ---------- C29 ---------- *)
Theorem C29_decoder_bands : forall d bw, 0 <= bw <= 4 -> tns_dec_bands d bw = Ok (spec_bands d bw).
Proof. exact dec_bands_spec. Qed.
(* Missing: bandwidth 2 at 10 ms, where the encoder's filter stops at line 200 (below) *)
Theorem C29_bands_partial :
  forall d bw, 0 <= bw <= 4 -> ~ (d = TenMs /\ bw = 2) ->
    exists params, tns_enc_params d bw = Ok params /\ tns_dec_bands d bw = Ok (map fst params) /\ Forall (fun '(a, b, subs) => tiles a b subs) params.
Proof.
  intros d bw H N. destruct (enc_params d bw H) as (params & E & _ & _ & _ & _ & [B|[B T]]); [contradiction|]. exists params. split; [exact E|]. split; [|exact T].
  rewrite dec_bands_spec by assumption. unfold bands_of in B. now rewrite B.
Qed.
Print Assumptions C29_bands_partial.
Theorem C29_bands_refuted :
  exists params, tns_enc_params TenMs 2 = Ok params /\ map fst params = [(12, 200)] /\ tns_dec_bands TenMs 2 = Ok [(12, 240)].
Proof. eexists. repeat split. Qed.
Print Assumptions C29_bands_refuted.
Example C29_case : 0 <= 4 <= 4 /\ ~ (SevenPointFiveMs = TenMs /\ 4 = 2) /\ spec_bands SevenPointFiveMs 4 = [(9, 150); (150, 300)].
Proof. split; [lia|]. split; [intros [H _]; discriminate|reflexivity]. Qed.

(* ---------- C28 ---------- *)
(* any coefficients, orders and bands (in increasing order inside the spectrum): synthesis undoes analysis *)
Theorem C28_synthesis_inverts_analysis :
  forall (rc : list R) orders params x, len orders = len params -> Forall (fun n => 0 <= n <= 8) orders -> 8 * len params <= len rc -> ordered 0 (len x) (map fst params) ->
    exists y, tns_enc_filters R_ops rc 0 params orders (repeat 0%R 8) x = Ok y /\ len y = len x /\
      tns_filters R_ops rc 0 (map fst params) orders (repeat 0%R 8) y = Ok x.
Proof.
  intros rc orders params x LO HO LR B.
  assert (EX : forall a b : R, fsub R_ops (fadd R_ops a b) b = a) by (intros; cbn [R_ops fsub fadd]; ring).
  destruct (filters_inverse R_ops EX rc rc orders params 0 (repeat 0%R 8) x 0) with (dorders := orders) as (y & E & L & _ & Back); try lia; try assumption; try reflexivity.
  - intros i Hi. split; [|intros k _; reflexivity]. rewrite Forall_forall in HO. apply HO. unfold getz. apply nth_In. unfold len in *. lia.
  - exists y. split; [exact E|]. split; [exact L|]. destruct (Back y L) as (z & Ez & Lz & Kz); [reflexivity|]. unfold bands_of in Ez. rewrite Ez. f_equal.
    apply (list_eq_getz (fz R_ops 0)); [assumption|]. intros j Hj. rewrite Kz by lia. destruct (Z.leb_spec 0 j); [reflexivity|lia].
Qed.
Print Assumptions C28_synthesis_inverts_analysis.
Example C28_case : let params := [(12, 200, []); (200, 400, [])] : list (Z * Z * list (Z * Z)) in
  len [8; 3] = len params /\ Forall (fun n => 0 <= n <= 8) [8; 3] /\ 8 * len params <= len (repeat (1 / 2)%R 16) /\ ordered 0 (len (repeat 1%R 400)) (map fst params).
Proof. cbv zeta. split; [reflexivity|]. split; [repeat constructor; lia|]. split; [cbn; lia|]. rewrite <- (repeat_length 1%R 400) at 1. unfold len. rewrite !repeat_length. cbn [map fst ordered]. lia. Qed.

(* what is sent: the decoder gives back the spectrum that entered the encoder's temporal noise shaping.  `di` are the indices the
   decoder reads (zero where no coefficient is sent).
   Missing: bandwidth 2 at 10 ms (C29) and coefficients with index 0 (below); that the coefficients quantise to the indices
   0 to 16 is a hypothesis (C44). *)
Theorem C28_transmitted_filter_partial :
  forall chk c x bw nbits nn, legal_config c -> len x = ne c -> 0 <= bw <= fs_ind c -> coefs_in_range R_ops R_eops c x bw nbits nn -> ~ (n_ms c = TenMs /\ bw = 2) ->
    exists r y, tns_encode R_ops R_eops chk c x bw nbits nn = Ok (r, y) /\ tns_params_ok (tr_order r) (tr_rc_i r) /\
      forall di, len di = 16 ->
        (forall f k, 0 <= f < tr_num r -> 0 <= k < getz 0 (tr_order r) f -> getz 0 di (f * 8 + k) = getz 0 (tr_rc_i r) (f * 8 + k) /\ getz 0 di (f * 8 + k) <> 0) ->
        tns_decode R_ops (n_ms c) bw (tr_num r) (tr_order r) di y = Ok x.
Proof.
  intros chk c x bw nbits nn Hc Lx Hb CR NB. destruct (tns_encode_ok R_ops R_eops chk c x bw nbits nn R_elaws Hc Lx Hb CR) as ([r y] & E & TL).
  exists r, y. split; [exact E|]. destruct TL as [TP TN TW TLn _ _ TRl TC _ (params & EP & EY)]. split; [exact TP|]. intros di Ld Hdi.
  destruct (coded_ne c bw Hc Hb) as [Hb4 Hn]. destruct (enc_params (n_ms c) bw Hb4) as (params' & EP' & LS & LP & _ & Ord & Bands). rewrite EP in EP'. apply Ok_inj in EP'. subst params'.
  destruct Bands as [B|[B _]]; [contradiction|]. unfold tns_decode. rewrite dec_bands_spec by assumption. cbn [bind].
  assert (EX : forall a b : R, fsub R_ops (fadd R_ops a b) b = a) by (intros; cbn [R_ops fsub fadd]; ring).
  assert (AS : forallb (fun '(_, hi) => hi <=? len y) (spec_bands (n_ms c) bw) = true).
  { rewrite TLn, Lx. clear -Hn Hb4. unfold coded in Hn. unfold spec_bands. apply forallb_forall. intros [a b] Hin. apply Z.leb_le.
    destruct (n_ms c), (bw_cases bw Hb4) as [->|[->|[->|[->| ->]]]]; cbn in Hin; repeat (destruct Hin as [Hin|Hin]; [injection Hin; intros; subst; lia|]); contradiction. }
  rewrite AS. cbn [assert bind]. destruct TP as (P1 & P2 & P3 & P4).
  assert (LN : tr_num r = len params) by lia.
  destruct (sub_ok (tr_order r) 0 (tr_num r)) as (ord & -> & LOrd & KO); [lia|lia|]. cbn [bind].
  assert (PO : forall i, 0 <= i < 2 -> 0 <= getz 0 (tr_order r) i <= 8).
  { intros i Hi. rewrite Forall_forall in P3. apply P3. unfold getz. apply nth_In. unfold len in P1. lia. }
  rewrite <- B.
  assert (LT : len (tns_rc R_ops di) = 16) by (unfold tns_rc; rewrite len_zipmod; reflexivity).
  destruct (filters_inverse R_ops EX (tr_rc_q r) (tns_rc R_ops di) (tr_order r) params 0 (repeat 0%R 8) x 0) with (dorders := ord) as (y' & E' & L' & _ & Back); try lia; try reflexivity.
  - eapply ordered_weaken; [exact Ord|]. lia.
  - intros i Hi. split; [apply PO; lia|]. intros k Hk. destruct (Hdi i k ltac:(lia) Hk) as [D1 D2]. specialize (PO i ltac:(lia)). rewrite TC by lia. unfold tns_rc.
    rewrite (zipmod_get _ _ 0) by (change (len (repeat (fz R_ops 0) 16)) with 16; lia). rewrite (proj2 (Z.eqb_neq _ 0) D2). now rewrite D1.
  - intros i Hi. rewrite KO by lia. reflexivity.
  - change (repeat 0%R 8) with (repeat (fz R_ops 0) 8) in E'. rewrite E' in EY. apply Ok_inj in EY. subst y'. destruct (Back y L') as (z & Ez & Lz & Kz); [reflexivity|].
    change (repeat (fz R_ops 0) 8) with (repeat 0%R 8). rewrite Ez. f_equal. apply (list_eq_getz (fz R_ops 0)); [assumption|]. intros j Hj. rewrite Kz by lia. destruct (Z.leb_spec 0 j); [reflexivity|lia].
Qed.
Print Assumptions C28_transmitted_filter_partial.

(* frames with energy next to the Nyquist frequency are not filtered: every coefficient is zero *)
Lemma nyquist_coefs F (o : ops F) e c x bw nbits rc : tns_coefs o e c x bw nbits true = Ok rc -> legal_config c -> len x = ne c -> 0 <= bw <= fs_ind c -> Forall (fun v => v = fz o 0) rc.
Proof.
  intros E Hc Lx Hb. destruct (coded_ne c bw Hc Hb) as [Hb4 Hn]. destruct (enc_params (n_ms c) bw Hb4) as (params & EP & _ & LP & Fit & _). unfold tns_coefs in E. rewrite EP in E. cbn [bind] in E.
  match type of E with for_range _ _ ?b _ = _ => set (body := b) in E end.
  destruct (for_inv (fun _ rc => len rc = 16 /\ Forall (fun v => v = fz o 0) rc) 0 (len params) body (repeat (fz o 0) 16)) as (rc' & E' & _ & P); [lia| | |].
  - split; [reflexivity|]. apply Forall_forall. intros v Hv. apply repeat_spec in Hv. exact Hv.
  - intros f r0 Hf [Lr Fr]. unfold body. destruct (Loops.idx_ok params f Hf) as (p & Ep). rewrite Ep. cbn [bind].
    assert (Fp : params_fit (coded (n_ms c) bw) p).
    { rewrite Forall_forall in Fit. apply Fit. unfold idx in Ep. destruct (f <? 0); [discriminate|]. destruct (nth_error params (Z.to_nat f)) eqn:En; [|discriminate]. apply nth_error_In in En. congruence. }
    destruct p as [[a b] subs]. destruct Fp as (_ & _ & Fs). cbn [snd]. destruct (autocorr_ok o x subs) as (r & -> & L9).
    { eapply Forall_impl; [|exact Fs]. intros [u v] H. lia. }
    cbn [bind]. destruct (tns_analysis_ok o e r f true (tns_weighting (n_ms c) nbits) r0 ltac:(lia) L9 Lr) as (r1 & E1 & L1). exists r1. split; [exact E1|]. split; [exact L1|].
    revert E1. unfold tns_analysis. rewrite (idx_get (fz o 0) r) by lia. cbn [bind].
    destruct (put (repeat (fz o 0) 9) 0 (fz o 1)) as [a0| |]; cbn [bind]; try discriminate.
    destruct (for_range 1 9 (levinson_step o r) _) as [[[a1 al] er]| |]; cbn [bind]; try discriminate. cbv zeta. rewrite andb_false_r.
    destruct (sub r0 (f * 8) (f * 8 + 8)); cbn [bind]; try discriminate.
    destruct (for_put (fz o 0) (f * 8) (f * 8 + 8) (fun k rc => put rc k (fz o 0)) (fun _ => fz o 0) r0) as (r2 & E2 & L2 & K2); [lia|lia|reflexivity|]. rewrite E2. intros E1. apply Ok_inj in E1. subst r2.
    apply Forall_forall. intros v Hv. apply (In_nth _ _ (fz o 0)) in Hv. destruct Hv as (n & Hn' & <-). specialize (K2 (Z.of_nat n) ltac:(lia)). unfold getz in K2 at 1. rewrite Nat2Z.id in K2. rewrite K2.
    destruct (_ && _); [reflexivity|]. unfold getz. rewrite Nat2Z.id. rewrite Forall_forall in Fr. apply Fr. apply nth_In. unfold len in *. lia.
  - rewrite E in E'. apply Ok_inj in E'. now subst.
Qed.
Example C28_transmitted_case :
  let c := config_new Hz48000 TenMs in let x := repeat 7%R 400 in
  legal_config c /\ len x = ne c /\ 0 <= 4 <= fs_ind c /\ coefs_in_range R_ops R_eops c x 4 320 true /\ ~ (n_ms c = TenMs /\ 4 = 2).
Proof.
  intros c x. assert (L : legal_config c) by (exists Hz48000, TenMs; reflexivity). assert (Lx : len x = ne c) by (unfold x, len; rewrite repeat_length; reflexivity).
  split; [exact L|]. split; [exact Lx|]. split; [cbn; lia|]. split; [|intros [_ H]; discriminate].
  intros rc E. eapply Forall_impl; [|apply (nyquist_coefs R R_ops R_eops c x 4 320 rc E L Lx); cbn; lia]. intros v ->. unfold coef_index, to_int. cbn [R_ops R_eops fz fdiv e_asin e_step17 fadd fneg flit].
  rewrite asin_0. replace (0 / (PI / 17))%R with 0%R by (unfold Rdiv; ring). unfold fge, as_i8. cbn [R_ops flt feq f_i32 fz]. rewrite Req_bool_true by reflexivity. rewrite orb_true_r.
  change (R_lit (5, -1)) with (flit R_ops (5, -1)). rewrite R_half. rewrite Rplus_0_l. rewrite Ztrunc_floor by lra. rewrite (Zfloor_imp 0) by (cbn; lra). lia.
Qed.

(* the coefficient with index 0 (sine of -8 pi / 17, about -0.996): the encoder filters with it, the decoder takes it as 0.
   One line of value 1 in a spectrum of zeros at 8 kHz, order 1: the decoder leaves a second line behind. *)
Theorem C28_index_zero_refuted :
  let x := repeat 0%R 20 ++ [1%R] ++ repeat 0%R 59 in let rc := [fsin17 R_ops (0 - 8)] in
  exists y z, tns_enc_filters R_ops rc 0 [(12, 80, [])] [1] (repeat 0%R 8) x = Ok y /\ tns_decode R_ops TenMs 0 1 [1; 0] (repeat 0 16) y = Ok z /\ getz 0%R z 21 = sin (PI / 17 * -8) /\ z <> x.
Proof.
  intros x rc. assert (N : sin (PI / 17 * -8) <> 0%R).
  { replace (PI / 17 * -8)%R with (- (PI * 8 / 17))%R by field. rewrite sin_neg. pose proof PI_RGT_0. pose proof (sin_gt_0 (PI * 8 / 17)). lra. }
  assert (EX : exists y z, tns_enc_filters R_ops rc 0 [(12, 80, [])] [1] (repeat 0%R 8) x = Ok y /\ tns_decode R_ops TenMs 0 1 [1; 0] (repeat 0 16) y = Ok z /\ getz 0%R z 21 = sin (PI / 17 * -8)).
  { eexists _, _. split; [|split].
    - cbv -[Rplus Rminus Rmult sin PI IZR Rdiv]. reflexivity.
    - cbv -[Rplus Rminus Rmult sin PI IZR Rdiv]. reflexivity.
    - cbv -[Rplus Rminus Rmult sin PI IZR Rdiv]. ring. }
  destruct EX as (y & z & E1 & E2 & E3). exists y, z. split; [exact E1|]. split; [exact E2|]. split; [exact E3|]. intros ->. apply N. rewrite <- E3. reflexivity.
Qed.
Print Assumptions C28_index_zero_refuted.
