(* What the encoder keeps from frame to frame, for any arithmetic: a property of the input samples and of the initial buffer holds of the analysis buffers for ever. *)
From Coq Require Import ZArith Lia List Bool.
From Verif Require Import Base Config FrameSpec FftFactor FactorProofs Buffers Loops ParseBase Scalar EncScalar EncF32 DecSignal DecMdct DecTotal DecState Dft DctSpec MdctSpec EncMdct TdacSpec.
From Verif Require Import SideInfo SnsIndex EncSns EncSnsOk EncTns EncPayload TnsOk DetectSpec QuantSpec EncQuant EncDetect Decoder Encoder EncOk EncRun.
From Coq Require Import List.
Import ListNotations.
Local Open Scope Z_scope.

Section Keep.
Context {F : Type} (o : ops F) (e : eops F) (EL : elaws o e).

Lemma bw_in_range (bd : bwdet) bands bw nbw c : len bands = nb c -> bw_geom bd (nb c) -> bd_ind bd = fs_ind c -> 0 <= fs_ind c <= 4 -> bw_run o bd bands = Ok (bw, nbw) -> 0 <= bw <= fs_ind c.
Proof.
  intros Lb Hg Hi Hf E. rewrite <- Lb in Hg. assert (Hn : exists nbw', idx NBITS_BW (bd_ind bd) = Ok nbw') by (eexists; apply (idx_get 0); change (len NBITS_BW) with 5; lia). destruct Hn as (nbw' & N1).
  pose proof (bw_run_spec o bd bands nbw' Hg N1) as E2. rewrite E in E2. apply Ok_inj in E2. set (b := if _ || _ then _ else _) in E2. assert (bw = b) by congruence. subst bw. unfold b.
  pose proof (last_where_range (loud o bd bands) (Z.to_nat (bd_ind bd))) as Rl. assert (C : 0 <= candidate o bd bands <= fs_ind c) by (unfold candidate; lia). destruct (_ || _); lia.
Qed.
(* ---- what the analysis buffer holds ---- *)
Definition holds_all (Q : Z -> Prop) (T : Z -> Z) (n : Z) : Prop := forall j, 0 <= j < n -> Q (T j).
Definition buffers (Q : Z -> Prop) (c : config) (ch : echannel F) : Prop := holds_all Q (getz 0 (em_time (ec_mdct ch))) (2 * nf c).
Lemma emdct_keeps Q c m0 x out0 bands0 nn out bands m : legal_config c -> emdct_ok c m0 -> len x = nf c -> len out0 = nf c -> len bands0 = nb c -> holds_all Q (getz 0 (em_time m0)) (2 * nf c) -> Forall Q x ->
  emdct_run o c m0 x out0 bands0 = Ok (nn, out, bands, m) -> holds_all Q (getz 0 (em_time m)) (2 * nf c).
Proof.
  intros L M Lx Lo Lb A1 A2 E. destruct (config_geom c L) as (G1 & G2 & G3 & G4 & G5 & G6 & G7). destruct (dct_factors_ok c L) as (fl & Ef & Ch & Sm & Nf). destruct (mdct_window_ok c L) as (w & Ew & _).
  assert (Hh : nf c = 2 * (nf c / 2)) by (clear -G2; Z.div_mod_to_equations; lia).
  destruct (emdct_run_spec o c m0 x out0 bands0 (nf c / 2) fl w L M Lx Lo Lb Hh Ef Ch Sm Nf Ew) as (nn' & out' & bands' & m' & E' & _ & _ & _ & Te & _). rewrite E in E'. apply Ok_inj in E'. assert (m' = m) by congruence. subst m'.
  intros j Hj. rewrite Te by exact Hj. unfold next_time. destruct (Z.ltb_spec j (nf c - zlead c)); [apply A1; lia|]. destruct (Z.ltb_spec j (2 * nf c - zlead c)); [|apply A1; lia].
  rewrite Forall_forall in A2. apply A2. unfold getz. apply nth_In. unfold len in Lx. lia.
Qed.
Lemma encode_keeps Q t c ch x buf ch' buf' : legal_config c -> ech_wf c ch -> len x = nf c -> buffers Q c ch -> Forall Q x -> encode o e t c ch x buf = Ok (ch', buf') -> buffers Q c ch'.
Proof.
  intros L W Lx A1 A2 E. destruct W as [W1 W2 W3 W4 W5 W6 W7]. unfold encode in E. destruct (analyse o e t c ch x (len buf)) as [[p ch1]| |] eqn:EA; cbn [bind] in E; try discriminate E.
  destruct (FrameEnc.encode_frame (ne c) p buf) as [b1| |]; cbn [bind] in E; try discriminate E. apply Ok_inj in E. assert (ch1 = ch') by congruence. subst ch1. clear E.
  unfold analyse in EA. destruct (uincr _ _) as [ix| |]; cbn [bind] in EA; try discriminate EA. cbv zeta in EA. destruct (emdct_run o c (ec_mdct ch) x (ec_out ch) (ec_bands ch)) as [[[[nn out] bands] m]| |] eqn:E1; cbn [bind] in EA; try discriminate EA.
  pose proof (emdct_keeps Q c _ x _ _ nn out bands m L W1 Lx W6 W5 A1 A2 E1) as K. clear E1.
  destruct (split_at _ _) as [[lines rest]| |]; cbn [bind] in EA; try discriminate EA. destruct (bw_run _ _ _) as [[bw nbw]| |]; cbn [bind] in EA; try discriminate EA. destruct (attack_run _ _ _ _ _) as [[a at']| |]; cbn [bind] in EA; try discriminate EA.
  destruct (sns_encode _ _ _ _ _ _) as [[s l1]| |]; cbn [bind] in EA; try discriminate EA. destruct (tns_encode _ _ _ _ _ _ _ _) as [[tr l2]| |]; cbn [bind] in EA; try discriminate EA. destruct (EncLtpf.eltpf_run _ _ _ _ _ _ _) as [[lp lt']| |]; cbn [bind] in EA; try discriminate EA.
  destruct (quant_run _ _ _ _ _ _ _ _ _ _ _ _) as [[[q xq] qst]| |]; cbn [bind] in EA; try discriminate EA. destruct (residual_encode _ _ _ _ _ _ _) as [rb| |]; cbn [bind] in EA; try discriminate EA. destruct (noise_factor _ _ _ _ _ _ _ _) as [nf'| |]; cbn [bind] in EA; try discriminate EA.
  apply Ok_inj in EA. assert (H : ec_mdct ch' = m) by (assert (X : mkEch m (ec_bw ch) at' lt' qst ix bands (l2 ++ rest) xq = ch') by congruence; rewrite <- X; reflexivity). unfold buffers. rewrite H. exact K.
Qed.

(* ---- runs ---- *)
Lemma call_step Q t en k n en' buf' : encoder_ok t en (n + 1) -> 0 <= n -> call_ok en k -> (forall ch, idx (e_channels en) (g_ch k) = Ok ch -> frame_regular o e t (e_config en) ch (g_x k) (len (g_buf k))) ->
  Forall (buffers Q (e_config en)) (e_channels en) -> Forall Q (g_x k) -> encode_call o e t en (g_ch k) (g_x k) (g_buf k) = Ok (en', buf') ->
  encoder_ok t en' n /\ e_config en' = e_config en /\ len (e_channels en') = len (e_channels en) /\ Forall (buffers Q (e_config en')) (e_channels en').
Proof.
  intros [(f & d & Hf & Ec) HC] Hn (Q1 & Q2 & Q3 & Q4) R1 HB HX E. unfold encode_call in E. destruct (Loops.idx_ok (e_channels en) (g_ch k) Q1) as (ch & Ech). specialize (R1 _ Ech). rewrite Ech in E. cbn [bind] in E.
  destruct (DecRun.Forall_getz _ _ _ _ HC Ech) as [Kch Kix]. pose proof (DecRun.Forall_getz _ _ _ _ HB Ech) as Kb. rewrite Ec in *.
  destruct (encode_ok o e t f d ch (g_x k) (g_buf k) EL Hf Kch ltac:(lia) Q2 Q3 Q4 R1) as ([ch' buf1] & E1 & W' & L' & I'). pose proof (encode_keeps Q t _ ch (g_x k) (g_buf k) ch' buf1 ltac:(eexists _, _; reflexivity) Kch Q2 Kb HX E1) as Kb'.
  rewrite E1 in E. cbn [bind] in E. destruct (Loops.put_len (e_channels en) (g_ch k) ch' Q1) as (chs & Ep & Lp). rewrite Ep in E. cbn [bind] in E. apply Ok_inj in E. assert (en' = mkEncoder (config_new f d) chs) by congruence. subst en'. clear E.
  cbn [e_config e_channels]. split; [|split; [reflexivity|split; [exact Lp|eapply DecRun.put_Forall; [exact HB|exact Kb'|exact Ep]]]].
  split; [exists f, d; auto|]. cbn [e_config e_channels]. eapply DecRun.put_Forall; [| |exact Ep].
  - eapply Forall_impl; [|exact HC]. cbv beta. intros a [A1 A2]. split; [assumption|lia].
  - split; [exact W'|]. destruct Kix as [|Kix]; [now left|right]. rewrite I'. destruct (Z.leb_spec (t_umax t) (ec_index ch)); lia.
Qed.
Lemma call_ok_keeps (en en' : encoder F) k : e_config en' = e_config en -> len (e_channels en') = len (e_channels en) -> call_ok en k -> call_ok en' k.
Proof. intros E1 E2. unfold call_ok. rewrite E1, E2. auto. Qed.
Lemma not_8k c : (exists f d, f <> Hz8000 /\ c = config_new f d) -> legal_config c /\ nb c = 64.
Proof. intros (f & d & Hf & ->). split; [eexists _, _; reflexivity|]. destruct f, d; try reflexivity; now elim Hf. Qed.
(* ---- the constructor ---- *)
Lemma split_all {A} (Q : A -> Prop) n l a b : split_at n l = Ok (a, b) -> Forall Q l -> Forall Q a /\ Forall Q b.
Proof. unfold split_at. destruct (_ || _); [discriminate|]. intros E H. apply Ok_inj in E. assert (a = firstn (Z.to_nat n) l /\ b = skipn (Z.to_nat n) l) by (split; congruence). destruct H0; subst. rewrite <- (firstn_skipn (Z.to_nat n) l) in H. now apply Forall_app. Qed.
Lemma channel_parts (Q : Z -> Prop) c (i : list Z) (s : list F) (x : list (F * F)) ips sps cps i' s' x' ch : enc_channel_new c i s x = Ok (ips, sps, cps, i', s', x') -> Forall Q i ->
  echannel_of_parts o c ips sps cps = Ok ch -> Forall Q (em_time (ec_mdct ch)) /\ Forall Q i'.
Proof.
  intros H HQ HP. unfold enc_channel_new in H. destruct (enc_mdct_new c i x) as [[[[[frq cps0] bands] i1] x1]| |] eqn:E1; cbn [bind] in H; try discriminate H.
  destruct (Buffers.bw_new (n_ms c) (fs_ind c)); cbn [bind] in H; try discriminate H. destruct (idx Buffers.G_TILT (fs_ind c)); cbn [bind] in H; try discriminate H.
  destruct (enc_ltpf_new c s i1) as [[[[xs sps1] s1] i2]| |] eqn:E2; cbn [bind] in H; try discriminate H. destruct (splits [nf c; nb c] s1) as [[ops s2]| |]; cbn [bind] in H; try discriminate H.
  destruct (split_at (ne c) i2) as [[xq i3]| |] eqn:E4; cbn [bind] in H; try discriminate H. apply Ok_inj in H. assert (H1 : [frq; xs; xq] = ips /\ i3 = i') by (split; congruence). destruct H1 as [<- <-]. clear H.
  unfold enc_mdct_new in E1. destruct (split_at (nf c * 2) i) as [[f1 j1]| |] eqn:S1; cbn [bind] in E1; try discriminate E1. destruct (dct_new _ _) as [[c1 x2]| |]; cbn [bind] in E1; try discriminate E1. destruct (band_table c) as [bt| |]; cbn [bind] in E1; try discriminate E1.
  apply Ok_inj in E1. assert (H1 : f1 = frq /\ j1 = i1) by (split; congruence). destruct H1; subst f1 j1. destruct (split_all Q _ _ _ _ S1 HQ) as [F1 F2].
  unfold enc_ltpf_new in E2. destruct (enc_ltpf_lengths c) as [[[n1 n2] n3]| |]; cbn [bind] in E2; try discriminate E2. destruct (split_at n1 i1) as [[x3 j2]| |] eqn:S2; cbn [bind] in E2; try discriminate E2. destruct (splits _ s) as [[p1 p2]| |]; cbn [bind] in E2; try discriminate E2.
  apply Ok_inj in E2. assert (j2 = i2) by congruence. subst j2. destruct (split_all Q _ _ _ _ S2 F2) as [_ F3]. destruct (split_all Q _ _ _ _ E4 F3) as [_ F4]. split; [|exact F4].
  unfold echannel_of_parts in HP. destruct sps as [|s1' [|s2' [|s3' [|s4' [|? ?]]]]]; try discriminate HP. destruct cps as [|c1' [|c2' [|c3' [|c4' [|? ?]]]]]; try discriminate HP.
  destruct (bwdet_new _ _) as [bd| |]; cbn [bind] in HP; try discriminate HP. apply Ok_inj in HP. subst ch. exact F1.
Qed.
Lemma new_buffers (Q : Z -> Prop) num d f (i : list Z) (s : list F) (x : list (F * F)) en : encoder_new o num d f i s x = Ok en -> Forall Q i -> Forall (fun ch => Forall Q (em_time (ec_mdct ch))) (e_channels en).
Proof.
  unfold encoder_new, enc_new. set (c := config_new f d). intros H HQ. destruct (enc_channels _ c i s x) as [[[[parts i'] s'] x']| |] eqn:E; cbn [bind] in H; try discriminate H.
  destruct (map_res _ parts) as [chs| |] eqn:EM; cbn [bind] in H; try discriminate H. apply Ok_inj in H. subst en. cbn [e_channels]. revert i s x parts i' s' x' chs E EM HQ. generalize (Z.to_nat num). intros k.
  induction k as [|k IH]; intros i s x parts i' s' x' chs E EM HQ; cbn [enc_channels] in E.
  - apply Ok_inj in E. assert (parts = []) by congruence. subst parts. cbn [map_res] in EM. apply Ok_inj in EM. subst chs. constructor.
  - destruct (enc_channel_new c i s x) as [[[[[[ips sps] cps] i1] s1] x1]| |] eqn:E1; cbn [bind] in E; try discriminate E. destruct (enc_channels k c i1 s1 x1) as [[[[ps i2] s2] x2]| |] eqn:E2; cbn [bind] in E; try discriminate E.
    apply Ok_inj in E. assert (parts = (ips, sps, cps) :: ps) by congruence. subst parts. cbn [map_res] in EM. destruct (echannel_of_parts o c ips sps cps) as [ch| |] eqn:E3; cbn [bind] in EM; try discriminate EM.
    destruct (map_res _ ps) as [chs'| |] eqn:E4; cbn [bind] in EM; try discriminate EM. apply Ok_inj in EM. subst chs. destruct (channel_parts Q c i s x ips sps cps i1 s1 x1 ch E1 HQ E3) as [A1 A2]. constructor; [exact A1|].
    eapply IH; eassumption.
Qed.
(* ---- runs whose frames each meet a condition that makes them regular ---- *)
Fixpoint calls_meet (A : config -> echannel F -> list Z -> Z -> Prop) (t : target) (en : encoder F) (cs : list ecall) : Prop :=
  match cs with
  | [] => True
  | k :: cs => (forall ch, idx (e_channels en) (g_ch k) = Ok ch -> A (e_config en) ch (g_x k) (len (g_buf k))) /\
               (forall en' buf, encode_call o e t en (g_ch k) (g_x k) (g_buf k) = Ok (en', buf) -> calls_meet A t en' cs)
  end.
Lemma meet_regular (A : config -> echannel F -> list Z -> Z -> Prop) (Q : Z -> Prop) t c :
  (forall ch x N, legal_config c -> nb c = 64 -> ech_wf c ch -> len x = nf c -> 20 <= N <= 400 -> buffers Q c ch -> Forall Q x -> A c ch x N -> frame_regular o e t c ch x N) ->
  forall cs en, e_config en = c -> encoder_ok t en (len cs) -> Forall (call_ok en) cs -> Forall (fun k => Forall Q (g_x k)) cs -> Forall (buffers Q (e_config en)) (e_channels en) -> calls_meet A t en cs ->
  calls_regular o e t en cs.
Proof.
  intros HR. induction cs as [|k cs IH]; intros en Cn HE HC HX HB HA; cbn [calls_regular]; [exact I|]. cbn [calls_meet] in HA. destruct HA as [HA1 HA2]. inversion_clear HC as [|? ? C1 C2]. inversion_clear HX as [|? ? X1 X2].
  replace (len (k :: cs)) with (len cs + 1) in HE by (unfold len; cbn [length]; lia).
  assert (R : forall ch, idx (e_channels en) (g_ch k) = Ok ch -> frame_regular o e t (e_config en) ch (g_x k) (len (g_buf k))).
  { intros ch Ech. pose proof HE as [Hc KC]. pose proof C1 as (Q1 & Q2 & Q3 & Q4). destruct (not_8k _ Hc) as [L Nb]. destruct (DecRun.Forall_getz _ _ _ _ KC Ech) as [Kch _]. pose proof (DecRun.Forall_getz _ _ _ _ HB Ech) as Kb. rewrite Cn in *. apply HR; auto. }
  split; [exact R|].
  intros en' buf E. destruct (call_step Q t en k (len cs) en' buf HE ltac:(unfold len; lia) C1 R HB X1 E) as (HE' & Ec & El & HB'). apply IH; auto; [congruence| |exact (HA2 en' buf E)].
  eapply Forall_impl; [|exact C2]. intros k'. now apply call_ok_keeps.
Qed.
(* the state after a run *)
Theorem meet_state (A : config -> echannel F -> list Z -> Z -> Prop) (Q : Z -> Prop) t c :
  (forall ch x N, legal_config c -> nb c = 64 -> ech_wf c ch -> len x = nf c -> 20 <= N <= 400 -> buffers Q c ch -> Forall Q x -> A c ch x N -> frame_regular o e t c ch x N) ->
  forall cs k en rs en1, e_config en = c -> encoder_ok t en (len cs + 1) -> Forall (call_ok en) (cs ++ [k]) -> Forall (fun k => Forall Q (g_x k)) (cs ++ [k]) -> Forall (buffers Q (e_config en)) (e_channels en) -> calls_meet A t en (cs ++ [k]) ->
  run_ecalls o e t en cs = Ok (rs, en1) -> forall ch, idx (e_channels en1) (g_ch k) = Ok ch ->
  e_config en1 = e_config en /\ ech_wf (e_config en) ch /\ (ec_index ch < t_umax t \/ t_chk t = false) /\ buffers Q (e_config en) ch /\ A (e_config en) ch (g_x k) (len (g_buf k)) /\ call_ok en k.
Proof.
  intros HR. induction cs as [|k0 cs IH]; intros k en rs en1 Cn HE HC HX HB HA E ch Ech; cbn [app] in *.
  - cbn [run_ecalls] in E. apply Ok_inj in E. assert (en1 = en) by congruence. subst en1. clear E. cbn [calls_meet] in HA. destruct HA as [HA _]. pose proof (Forall_inv HC) as C1. pose proof HE as [Hc KC].
    destruct (DecRun.Forall_getz _ _ _ _ KC Ech) as [Kch Ki]. pose proof (DecRun.Forall_getz _ _ _ _ HB Ech) as Kb. split; [reflexivity|]. split; [exact Kch|]. split; [unfold len in Ki; cbn in Ki; destruct Ki; [now right|left; lia]|]. split; [exact Kb|]. split; [exact (HA ch Ech)|exact C1].
  - cbn [calls_meet] in HA. destruct HA as [HA1 HA2]. inversion_clear HC as [|? ? C1 C2]. inversion_clear HX as [|? ? X1 X2]. cbn [run_ecalls] in E. destruct (encode_call o e t en (g_ch k0) (g_x k0) (g_buf k0)) as [[en2 b2]| |] eqn:E1; cbn [bind] in E; try discriminate E.
    destruct (run_ecalls o e t en2 cs) as [[rs2 en3]| |] eqn:E2; cbn [bind] in E; try discriminate E. apply Ok_inj in E. assert (en3 = en1) by congruence. subst en3. clear E.
    replace (len (k0 :: cs) + 1) with ((len cs + 1) + 1) in HE by (unfold len; cbn [length]; lia).
    assert (R : forall ch, idx (e_channels en) (g_ch k0) = Ok ch -> frame_regular o e t (e_config en) ch (g_x k0) (len (g_buf k0))).
    { intros ch0 Ech0. pose proof HE as [Hc KC]. pose proof C1 as (Q1 & Q2 & Q3 & Q4). destruct (not_8k _ Hc) as [L Nb]. destruct (DecRun.Forall_getz _ _ _ _ KC Ech0) as [Kch _]. pose proof (DecRun.Forall_getz _ _ _ _ HB Ech0) as Kb. rewrite Cn in *. apply HR; auto. }
    destruct (call_step Q t en k0 (len cs + 1) en2 b2 HE ltac:(unfold len; lia) C1 R HB X1 E1) as (HE' & Ec & El & HB').
    destruct (IH k en2 rs2 en1 ltac:(congruence) HE') with (ch := ch) as (I1 & I2 & I0 & I3 & I4 & I5); auto; [eapply Forall_impl; [|exact C2]; intros k'; now apply call_ok_keeps|exact (HA2 en2 b2 eq_refl)|].
    rewrite Ec in *. split; [exact I1|]. split; [exact I2|]. split; [exact I0|]. split; [exact I3|]. split; [exact I4|]. eapply call_ok_keeps; [| |exact I5]; congruence.
Qed.
Lemma fresh_buffers (Q : Z -> Prop) t num d f (i : list Z) (s : list F) (x : list (F * F)) en n : encoder_new o num d f i s x = Ok en -> encoder_ok t en n -> Forall Q i -> Forall (buffers Q (e_config en)) (e_channels en).
Proof.
  intros E K HQ. pose proof (new_buffers Q num d f i s x en E HQ) as NB. pose proof K as [_ KC]. rewrite Forall_forall in *. intros ch Hch. specialize (NB ch Hch). destruct (KC ch Hch) as [[[W1 _ _] _ _ _ _ _ _] _].
  intros j Hj. rewrite Forall_forall in NB. apply NB. unfold getz. apply nth_In. unfold len in W1. lia.
Qed.
End Keep.
