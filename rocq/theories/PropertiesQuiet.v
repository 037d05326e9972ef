(* Silence through the binary32 encoder: no condition per frame is left (C44), and the hypotheses of C44_encoder_total_f32_live_partial and C61 are met by histories of any length. *)
From Coq Require Import ZArith List Bool Lia Reals Lra.
From Coquelicot Require Import Complex.
From Flocq Require Import Core BinarySingleNaN.
From Verif Require Import Base Config DecSignal DecState EncShape SideInfo Reader Buffers AcSpec FrameSpec Loops Scalar EncScalar RealOps F32 F32Round F32Lines EncF32 FrameDec ArithDec FrameEnc EncPayload EncFrame TailSpec PayloadSpec DecSide DctErr EncSns EncSnsOk EncTns TnsOk DecTotal DetectSpec QuantSpec EncQuant EncMdct EncDetect Decoder Encoder EncOk PayloadBound EncRun EncTrip EncKeep F32Err F32Size TnsSize ProjF32 EncSnsSize EncTnsSize EncSize PropertiesRounding PropertiesEncoder PropertiesFinite QuietF32 PropertiesEncF32.
From Coq Require Import List.
Import ListNotations.
Local Open Scope Z_scope.
Local Notation quiet := (Forall (fun v => v = 0)).

Lemma quiet_i16 l : quiet l -> Forall i16 l.
Proof. intros H. eapply Forall_impl; [|exact H]. cbv beta. intros v ->. unfold i16. lia. Qed.
Theorem quiet_calls lm el t c : encoder_library lm el -> quiet_library el -> twiddles_near lm (nf c / 2) ->
  forall cs en, e_config en = c -> encoder_ok t en (len cs) -> Forall (call_ok en) cs -> Forall (fun k => quiet (g_x k)) cs -> Forall (buffers (fun v => v = 0) c) (e_channels en) -> calls_meet (f32_ops lm) (f32_eops el) (frame_live lm el) t en cs.
Proof.
  intros LB QL TW. induction cs as [|k cs IH]; intros en Ec HE HC HX HB; cbn [calls_meet]; [exact I|]. inversion_clear HC as [|? ? C1 C2]. inversion_clear HX as [|? ? X1 X2].
  replace (len (k :: cs)) with (len cs + 1) in HE by (unfold len; cbn [length]; lia).
  assert (A : forall ch, idx (e_channels en) (g_ch k) = Ok ch -> frame_live lm el (e_config en) ch (g_x k) (len (g_buf k))).
  { intros ch Ech. pose proof HE as [Hc HC']. destruct (not_8k _ Hc) as [L Nb]. destruct (DecRun.Forall_getz _ _ _ _ HC' Ech) as [Kch _]. pose proof (DecRun.Forall_getz _ _ _ _ HB Ech) as Kb. destruct C1 as (Q1 & Q2 & Q3 & Q4). rewrite Ec in *. now apply quiet_live. }
  split; [exact A|]. intros en' buf E.
  assert (R : forall ch, idx (e_channels en) (g_ch k) = Ok ch -> frame_regular (f32_ops lm) (f32_eops el) t (e_config en) ch (g_x k) (len (g_buf k))).
  { intros ch Ech. pose proof HE as [Hc HC']. destruct (not_8k _ Hc) as [L Nb]. destruct (DecRun.Forall_getz _ _ _ _ HC' Ech) as [Kch _]. pose proof (DecRun.Forall_getz _ _ _ _ HB Ech) as Kb. destruct C1 as (Q1 & Q2 & Q3 & Q4). specialize (A ch Ech). rewrite Ec in *. apply live_regular; auto using quiet_i16. intros j Hj. rewrite (Kb j Hj). unfold i16. lia. }
  rewrite <- Ec in HB.
  destruct (call_step (f32_ops lm) (f32_eops el) (f32_elaws lm el) (fun v => v = 0) t en k (len cs) en' buf HE ltac:(unfold len; lia) C1 R HB X1 E) as (HE' & Ec' & El & HB'). apply IH; auto; [congruence| |].
  - eapply Forall_impl; [|exact C2]. intros k'. now apply call_ok_keeps.
  - congruence.
Qed.
(* silence on cleared buffers: the binary32 encoder never fails, whatever the number of channels and calls *)
Theorem C44_silence_f32 : forall (lm : libm) (el : elibm) t num d f ni ns nx (i : list Z) (s : list f32) (x : list (f32 * f32)) cs,
  encoder_library lm el -> quiet_library el -> twiddles_near lm (nf (config_new f d) / 2) ->
  f <> Hz8000 -> 0 <= num -> enc_lens num d f = Ok (ni, ns, nx) -> ni <= len i -> ns <= len s -> nx <= len x -> t_chk t = false \/ len cs <= t_umax t -> quiet i ->
  exists en, encoder_new (f32_ops lm) num d f i s x = Ok en /\ e_config en = config_new f d /\ len (e_channels en) = num /\
    (Forall (call_ok en) cs -> Forall (fun k => quiet (g_x k)) cs ->
     calls_meet (f32_ops lm) (f32_eops el) (frame_live lm el) t en cs /\
     exists rs en', run_ecalls (f32_ops lm) (f32_eops el) t en cs = Ok (rs, en') /\ Forall2 (fun k buf => len buf = len (g_buf k)) cs rs).
Proof.
  intros lm el t num d f ni ns nx i s x cs LB QL TW Hf Hn HL Hi Hs Hx Hb HQ.
  destruct (C44_encoder_total_f32_live_partial lm el t num d f ni ns nx i s x cs LB TW Hf Hn HL Hi Hs Hx Hb (quiet_i16 i HQ)) as (en & E & Ec & El & R). exists en. split; [exact E|]. split; [exact Ec|]. split; [exact El|]. intros HC HX.
  destruct (encoder_new_ok (f32_ops lm) t num d f ni ns nx i s x (len cs) Hf Hn HL Hi Hs Hx Hb) as (en' & E' & K & _). rewrite E in E'. apply ParseBase.Ok_inj in E'. subst en'.
  pose proof (fresh_buffers (f32_ops lm) (fun v => v = 0) t num d f i s x en (len cs) E K HQ) as HB. rewrite Ec in HB.
  pose proof (quiet_calls lm el t (config_new f d) LB QL TW cs en Ec K HC HX HB) as M. split; [exact M|]. apply R; auto. eapply Forall_impl; [|exact HX]. intros k. apply quiet_i16.
Qed.
Print Assumptions C44_silence_f32.

(* ---- the exact functions, rounded, are such a library ---- *)
Lemma log_513 : (4 / 1421 + 9 <= ln 513 / ln 2 <= 5 / 1776 + 9)%R.
Proof.
  assert (P : (0 < ln 2)%R) by (pose proof ln_lt_2; lra).
  assert (LE : forall a b : Z, 0 < a <= b -> (ln (IZR a) <= ln (IZR b))%R) by (intros a b [A [B|B]%Z.le_lteq]; [apply Rlt_le, ln_increasing; apply IZR_lt; lia|subst; apply Rle_refl]).
  assert (PW : forall (a : Z) n, 0 < a -> ln (IZR (a ^ Z.of_nat n)) = (INR n * ln (IZR a))%R) by (intros a n Ha; rewrite <- pow_IZR; apply ln_pow, IZR_lt, Ha).
  assert (H1 : (INR (Z.to_nat 12793) * ln 2 <= INR (Z.to_nat 1421) * ln 513)%R) by (rewrite <- (PW 2), <- (PW 513) by lia; apply LE; split; [apply Z.pow_pos_nonneg; lia|]; apply Z.leb_le; vm_compute; reflexivity).
  assert (H2 : (INR (Z.to_nat 1776) * ln 513 <= INR (Z.to_nat 15989) * ln 2)%R) by (rewrite <- (PW 2), <- (PW 513) by lia; apply LE; split; [apply Z.pow_pos_nonneg; lia|]; apply Z.leb_le; vm_compute; reflexivity).
  rewrite !INR_IZR_INZ, !Z2Nat.id in H1, H2 by lia. assert (V : (ln 513 = ln 513 / ln 2 * ln 2)%R) by (field; lra). set (v := (ln 513 / ln 2)%R) in *. rewrite V in H1, H2. split; apply (Rmult_le_reg_r (ln 2)); try exact P; lra.
Qed.
Lemma of_R_at r m e : (bpow radix2 (e + 23) <= Rabs r < bpow radix2 (e + 24))%R -> -149 <= e -> (Rabs (r * bpow radix2 (- e) - IZR m) < / 2)%R -> f32_of_R r = f32_norm m e.
Proof.
  intros H He N. assert (C : cexp radix2 fexp32 r = e). { unfold cexp. rewrite (mag_unique radix2 r (e + 24)) by (replace (e + 24 - 1) with (e + 23) by lia; exact H). change (Z.max (e + 24 - 24) (-149) = e). lia. }
  unfold f32_of_R, scaled_mantissa. rewrite C. f_equal. now apply Znearest_imp.
Qed.
Lemma quiet_val : B2R quiet_arg = (513 * bpow radix2 (-32))%R /\ is_finite_strict quiet_arg = true.
Proof. destruct (lit_val quiet_arg 8404992 (-46)) as [A B]; [vm_compute; reflexivity|]. split; [rewrite A; unfold F2R; cbn; lra|reflexivity]. Qed.
Example C44_quiet_library : quiet_library exact_elibrary.
Proof.
  split; [|split; [|split]].
  - cbn [exact_elibrary lm_powi]. destruct (fz_val 2 ltac:(lia)) as [-> _]. change 2%R with (IZR radix2). rewrite <- bpow_powerRZ. rewrite (of_R_at _ 8388608 (-55)); [apply (bits_eq _ _ 8388608 (-55)); vm_compute; reflexivity| |lia|].
    + rewrite Rabs_pos_eq by apply bpow_ge_0. split; [apply Rle_refl|apply bpow_lt; lia].
    + rewrite <- bpow_plus. change (bpow radix2 (-32 + - -55)) with 8388608%R. rewrite Rminus_diag_eq by reflexivity. rewrite Rabs_R0. lra.
  - cbn [exact_elibrary lm_powi]. destruct (fz_val 10 ltac:(lia)) as [-> _]. assert (V : powerRZ 10 (-4) = (/ 10000)%R) by (change (powerRZ 10 (-4)) with (/ 10 ^ 4)%R; lra). rewrite V. destruct (percent (/ 10000)) as [F E]; [lra|apply Rle_trans with (bpow radix2 1); [cbn; lra|apply bpow_le; lia]|]. split; [exact F|]. apply Rabs_le_inv in E. lra.
  - intros x [Fx Hx]. cbn [exact_elibrary lm_pow10]. apply Rabs_le_inv in Hx. assert (P4 : Rpower 10 4 = 10000%R) by (replace 4%R with (INR 4) by (cbn; lra); rewrite Rpower_pow by lra; cbn; lra).
    assert (Lo : (/ 10000 <= Rpower 10 (B2R x))%R) by (rewrite <- P4, <- Rpower_Ropp; apply Rle_Rpower; lra). assert (Hi : (Rpower 10 (B2R x) <= 10000)%R) by (rewrite <- P4; apply Rle_Rpower; lra).
    destruct (percent (Rpower 10 (B2R x))) as [F E]; [lra|apply Rle_trans with (bpow radix2 20); [cbn; lra|apply bpow_le; lia]|]. split; [exact F|]. apply Rabs_le_inv in E. lra.
  - destruct quiet_val as [V S]. assert (E : lm_log2 exact_elibrary quiet_arg = f32_of_R (ln (B2R quiet_arg) / ln 2)) by (cbn [exact_elibrary lm_log2]; destruct quiet_arg; try discriminate S; reflexivity). rewrite E, V. clear E V S.
    pose proof (bpow_gt_0 radix2 (-32)) as P. rewrite ln_mult, ln_power by (assumption || lra). pose proof log_513 as L. assert (P2 : (0 < ln 2)%R) by (pose proof ln_lt_2; lra).
    replace ((ln 513 + -32 * ln 2) / ln 2)%R with (ln 513 / ln 2 - 32)%R by (field; lra). set (v := (ln 513 / ln 2)%R) in *. unfold quiet_log. apply of_R_at; [|lia|].
    + rewrite Rabs_left by lra. cbn. lra.
    + cbn. apply Rabs_lt. lra.
Qed.
(* two frames of silence on the two channels of a 48 kHz encoder: every hypothesis of the live theorem and of C61 holds *)
Example C61_case :
  let lm := exact_library in let el := exact_elibrary in let k := mkEcall 0 (repeat 0 480) (repeat 0 100) in let cs := [mkEcall 1 (repeat 0 480) (repeat 0 40)] in let t := mkTarget true 4294967295 in
  exists en rs en', encoder_new (f32_ops lm) 2 TenMs Hz48000 (repeat 0 (Z.to_nat 3800)) (repeat (f32_of_Z 0) (Z.to_nat 2212)) (repeat (f32_of_Z 0, f32_of_Z 0) (Z.to_nat 1920)) = Ok en /\
    encoder_library lm el /\ twiddles_near lm (nf (config_new Hz48000 TenMs) / 2) /\
    Forall (call_ok en) (cs ++ [k]) /\ Forall (fun k => Forall i16 (g_x k)) (cs ++ [k]) /\ calls_meet (f32_ops lm) (f32_eops el) (frame_live lm el) t en (cs ++ [k]) /\ run_ecalls (f32_ops lm) (f32_eops el) t en (cs ++ [k]) = Ok (rs, en').
Proof.
  intros lm el k cs t. assert (HL : enc_lens 2 TenMs Hz48000 = Ok (3800, 2212, 1920)) by reflexivity. destruct C61_library as [LB TW].
  assert (Z0 : forall n, quiet (repeat 0 n)) by (intros n; apply Forall_forall; intros v Hv; now apply repeat_spec in Hv).
  assert (C0 : Forall (fun k => quiet (g_x k)) (cs ++ [k])) by (unfold cs, k; cbn [app]; repeat constructor; cbn [g_x]; apply Z0).
  set (i := repeat 0 (Z.to_nat 3800)). set (s := repeat (f32_of_Z 0) (Z.to_nat 2212)). set (x := repeat (f32_of_Z 0, f32_of_Z 0) (Z.to_nat 1920)).
  assert (Li : 3800 <= len i) by (unfold i; rewrite len_repeat; lia). assert (Ls : 2212 <= len s) by (unfold s; rewrite len_repeat; lia). assert (Lx : 1920 <= len x) by (unfold x; rewrite len_repeat; lia).
  assert (Hb : t_chk t = false \/ len (cs ++ [k]) <= t_umax t) by (right; vm_compute; discriminate).
  destruct (C44_silence_f32 lm el t 2 TenMs Hz48000 3800 2212 1920 i s x (cs ++ [k]) LB C44_quiet_library (TW _) ltac:(discriminate) ltac:(lia) HL Li Ls Lx Hb (Z0 _)) as (en & E & Ec & El & R).
  assert (HC : Forall (call_ok en) (cs ++ [k])).
  { unfold cs, k. cbn [app]. repeat constructor; unfold call_ok; cbn [g_ch g_x g_buf]; rewrite ?El, ?Ec, ?len_repeat; try (vm_compute; intuition congruence); lia. }
  destruct (R HC C0) as (M & rs & en' & E2 & _). exists en, rs, en'. split; [exact E|]. split; [exact LB|]. split; [apply TW|]. split; [exact HC|]. split; [eapply Forall_impl; [|exact C0]; intros k'; apply quiet_i16|]. split; [exact M|exact E2].
Qed.
