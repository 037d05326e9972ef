(* The decoder in binary32, any history: every value it keeps from frame to frame is finite and below an explicit constant. *)
From Coq Require Import ZArith List Bool Lia Reals Lra.
From Coquelicot Require Import Complex.
From Flocq Require Import Core BinarySingleNaN Relative.
From Verif Require Import Base Config FrameSpec SideInfo ArithDec FrameDec FftFactor FactorProofs Buffers Loops ParseBase ParseTotal Scalar Fft DecSignal DecMdct DecLtpf DecTotal DecState DecRun DecRelease Decoder FftSpec DctSpec MdctSpec RealOps Dft Dct4Inv Tdac MdctFormula MdctStream Norm2 F32 F32Round F32Lines EncF32 F32Err FftErr FftErrRun DctErr MdctErr MdctErrRun MdctErrStream F32Size TnsSize SnsSize LtpfSize LineSize.
From Coq Require Import List.
Import ListNotations.
Local Open Scope R_scope.
Local Notation f0 := (f32_of_Z 0).

Definition TDA : R := 6800000000000000000000000000.      (* 6.8e27: half a block after the window *)
Definition SAMPLE : R := 13700000000000000000000000000.  (* 1.37e28: samples before the post filter *)
Definition OUT : R := 8 * SAMPLE.

Lemma Forall_of_getz (P : f32 -> Prop) (l : list f32) : (forall j, (0 <= j < len l)%Z -> P (getz f0 l j)) -> Forall P l.
Proof. intros H. apply Forall_forall. intros x Hx. destruct (In_nth l x f0 Hx) as (n & Hn & <-). specialize (H (Z.of_nat n)). unfold getz in H. rewrite Nat2Z.id in H. apply H. unfold len. lia. Qed.
Lemma getz_of_Forall (P : f32 -> Prop) (l : list f32) j : Forall P l -> (0 <= j < len l)%Z -> P (getz f0 l j).
Proof. intros H Hj. rewrite Forall_forall in H. apply H. unfold getz. apply nth_In. unfold len in Hj. lia. Qed.

Definition zero_val (x : f32) : Prop := is_finite x = true /\ B2R x = 0.
Definition mdct_sized (m : mdct f32) : Prop := Forall (bd TDA) (m_ola m) /\ Forall zero_val (m_zeros m).
Lemma mdct_size lm c m lines freq y m' : legal_config c -> twiddles_near lm (nf c / 2) -> mdct_ok c m -> len lines = ne c -> len freq = nf c -> Forall (bd LINE) lines -> mdct_sized m ->
  mdct_run (f32_ops lm) c m lines freq = Ok (y, m') -> Forall (bd SAMPLE) y /\ mdct_sized m'.
Proof.
  intros L Htw Mm Ll Lf Fl [Fo Fz] EM. destruct (dct_factors_ok c L) as (fl & Ef & Ch & Sm & Ne). destruct (geo c L) as (G1 & G2 & G2b & G3). destruct (config_geom c L) as (_ & GM & _ & GE & GE4 & _). destruct (mdct_window_ok c L) as (w & Ew & _).
  set (h := (nf c / 2)%Z) in *. assert (Hh : nf c = (2 * h)%Z) by (unfold h; Z.div_mod_to_equations; lia).
  destruct (mdct_run_spec (f32_ops lm) c m lines freq h fl w L Mm Ll Lf Hh Ef Ch Sm Ne Ew) as (y' & m1 & E & Ly & [Mo _] & Mz & Ty & To). rewrite EM in E. apply Ok_inj in E. apply pair_equal_spec in E. destruct E as [<- <-].
  change (getz (fz (f32_ops lm) 0%Z)) with (getz f0) in *. set (p := padded (f32_ops lm) (ne c) lines (m_zeros m)) in *. pose proof Mm as [Mq _ Mqz _ _ _]. pose proof big_big' as BB.
  assert (Hp : forall k, (0 <= k < nf c)%Z -> is_finite (p k) = true /\ Rabs (B2R (p k)) <= if (k <? Z.of_nat (Z.to_nat (ne c)))%Z then LINE else 0).
  { intros k Hk. rewrite Z2Nat.id by lia. unfold p, padded. change (getz (fz (f32_ops lm) 0%Z)) with (getz f0). destruct (Z.ltb_spec k (ne c)); [apply (getz_of_Forall (bd LINE)); [exact Fl|lia]|]. destruct (getz_of_Forall zero_val (m_zeros m) (k - ne c) Fz ltac:(lia)) as [ZF ZV]. split; [exact ZF|]. rewrite ZV, Rabs_R0. lra. }
  set (size := nrm (Z.to_nat (nf c)) (fun k => B2R (p k))). assert (Sz : size <= 20 * LINE).
  { unfold size. apply Rle_trans with (nrm (Z.to_nat (nf c)) (fun t => if (t <? Z.of_nat (Z.to_nat (ne c)))%Z then LINE else 0)); [apply nrm_le; intros t Ht; apply Hp; lia|]. rewrite (nrm_head (Z.to_nat (ne c)) (Z.to_nat (nf c)) (fun _ => LINE)) by lia. rewrite nrm_const by (unfold LINE; lra).
    apply Rmult_le_compat_r; [unfold LINE; lra|]. replace 20 with (sqrt (20 * 20)) by (apply sqrt_square; lra). apply sqrt_le_1_alt. rewrite INR_IZR_INZ, Z2Nat.id by lia. apply Rle_trans with (IZR 400); [apply IZR_le; lia|lra]. }
  assert (S0 : 0 <= size) by apply nrm_pos. assert (S94 : size <= bpow radix2 94). { eapply Rle_trans; [exact Sz|]. unfold LINE. cbn. lra. }
  destruct (inverse_err lm c w h fl L Ew Hh Ef Ch Sm Ne Htw p (fun k Hk => proj1 (Hp k Hk)) S94) as [I1 I2]. fold size in I2.
  set (t := tda_win (f32_ops lm) h fl (getz (0, 0)%Z w) p) in *. set (tr := tda_win R_ops h fl (getz (0, 0)%Z w) (fun k => B2R (p k))) in *.
  assert (TS : tt <= 1) by (rewrite tt_bpow; change 1 with (bpow radix2 0); apply bpow_le; lia). assert (T0 : 0 < tt) by (rewrite tt_bpow; apply bpow_gt_0).
  assert (Nt : nrm (Z.to_nat (2 * nf c)) (fun n => B2R (t n)) <= TDA).
  { apply Rle_trans with (1514 / 1000 * size + tt); [|unfold TDA; unfold LINE in Sz; lra]. pose proof (synth_nrm c w h fl L Ew Hh Ef Ch Sm Ne (fun k => B2R (p k)) (fun _ => 0)) as Sn. cbv beta in Sn. rewrite (nrm_ext (Z.to_nat (nf c)) (fun k => B2R (p k) - 0) (fun k => B2R (p k))) in Sn by (intros; ring). fold size in Sn.
    eapply Rle_trans; [apply (nrm_sub _ _ (fun n => B2R (t n) - tr n) (fun n => tr n - tda_win R_ops h fl (getz (0, 0)%Z w) (fun _ => 0) n))|fold tr in Sn; lra].
    intros n Hn. rewrite (synth_tj c w h fl L Hh Ch Sm Ne (fun _ => 0)) by lia. assert (Z0 : dct4 (2 * h) (fun _ => 0) (tj h n) = 0) by (unfold dct4; rewrite rsum_zero; [ring|intros; ring]). rewrite Z0.
    eapply Rle_trans; [|apply Rabs_triang]. right. f_equal. destruct (n <? h)%Z; ring. }
  assert (Bt : forall n, (0 <= n < 2 * nf c)%Z -> bd TDA (t n)). { intros n Hn. split; [apply I1; lia|]. eapply Rle_trans; [apply (nrm_get (Z.to_nat (2 * nf c)) (fun n => B2R (t n)) n); lia|exact Nt]. }
  split; [|split; [|rewrite Mz; exact Fz]].
  - apply Forall_of_getz. intros j Hj. rewrite Ty by lia. cbv zeta. fold t. destruct (Z.ltb_spec j (nf c - zlead c)).
    + cbn [f32_ops fadd]. eapply bd_add; [apply (getz_of_Forall (bd TDA)); [exact Fo|lia]|apply Bt; lia|unfold TDA, SAMPLE; split; lra].
    + eapply bd_weaken; [apply Bt; lia|unfold TDA, SAMPLE; lra].
  - apply Forall_of_getz. intros j Hj. rewrite To by lia. apply Bt. lia.
Qed.

(* the library functions called by the decoder are near the functions they are named after *)
Definition decoder_library (lm : libm) : Prop := gains_near lm /\ sines_near lm /\ exp2_near lm.
Definition channel_sized (ch : channel f32) : Prop := plc_sized (ch_plc ch) /\ mdct_sized (ch_mdct ch) /\ ltpf_sized SAMPLE (ch_ltpf ch) /\ Forall (bd LINE) (ch_lines ch) /\ Forall (bd OUT) (ch_freq ch).
Lemma sample_room : 1 <= SAMPLE /\ 8 * SAMPLE <= bpow radix2 105.
Proof. unfold SAMPLE. split; [lra|]. cbn. lra. Qed.
Lemma channel_step lm t c ch buf out r ch' out' : legal_config c -> decoder_library lm -> twiddles_near lm (nf c / 2) -> channel_lens c ch -> channel_sized ch -> bytes buf ->
  decode_channel (f32_ops lm) t c ch 16 buf out = Ok (r, ch', out') -> channel_sized ch' /\ out' = scale_and_round (f32_ops lm) (ch_freq ch') out.
Proof.
  intros Lc (LG & LS & LE) Htw K (Z1 & Z2 & Z3 & _) Hb E. pose proof K as [C1 C2 C3 C5 C6]. unfold decode_channel in E. cbn [Z.eqb Pos.eqb negb] in E.
  apply bind_Ok in E. destruct E as (ix & _ & E). apply bind_Ok in E. destruct E as ([[p lines] info] & ES & E). apply bind_Ok in E. destruct E as ([fr m] & EM & E). apply bind_Ok in E. destruct E as ([fo s] & EL & E).
  destruct (spectrum_inv (f32_ops lm) t c ch buf p lines info Lc K Hb ES) as (D1 & _ & D4).
  assert (SP : plc_sized p /\ Forall (bd LINE) lines).
  { clear D1 D4 EM EL. unfold decode_spectrum in ES. destruct (read_frame (t_chk t) c buf) as [f|e|] eqn:ER; [| |discriminate ES].
    - apply bind_Ok in ES. destruct ES as (l & E1 & ES). apply bind_Ok in ES. destruct ES as (p1 & E2 & ES). apply Ok_inj in ES. apply pair_equal_spec in ES. destruct ES as [ES _]. apply pair_equal_spec in ES. destruct ES as [<- <-].
      assert (FL : Forall (bd LINE) l) by (eapply (lines_size lm t c f (len buf) (ch_lines ch) l LG LS LE Lc); [apply len_nonneg|eapply read_frame_wf; eassumption|exact C1|exact E1]). split; [exact (plc_save_size lm _ _ _ FL E2)|exact FL].
    - apply bind_Ok in ES. destruct ES as ([p1 l] & E1 & ES). apply Ok_inj in ES. apply pair_equal_spec in ES. destruct ES as [ES _]. apply pair_equal_spec in ES. destruct ES as [<- <-]. exact (plc_load_size lm t _ _ _ _ Z1 (eq_trans C1 (eq_sym C3)) E1). }
  destruct SP as [SP SL]. destruct (mdct_size lm c _ lines (ch_freq ch) fr m Lc Htw C5 D1 C2 SL Z2 EM) as [SF SM]. destruct sample_room as [R1 R2].
  destruct (ltpf_size lm c (cfg_lens c) _ info _ fr SAMPLE fo s Lc (cfg_lens_eq c Lc) C6 D4 R1 R2 Z3 SF EL) as [SO SS].
  apply Ok_inj in E. apply pair_equal_spec in E. destruct E as [E <-]. apply pair_equal_spec in E. destruct E as [_ <-]. cbn [ch_freq ch_plc ch_mdct ch_ltpf ch_lines]. split; [|reflexivity]. split; [exact SP|]. split; [exact SM|]. split; [exact SS|]. split; [exact SL|exact SO].
Qed.

(* ---- construction ---- *)
Definition START : R := 100000000000000000000000000.   (* 1e26: what the caller's scaler buffer may hold *)
Lemma split_at_Forall {A} (P : A -> Prop) n (l a b : list A) : split_at n l = Ok (a, b) -> Forall P l -> Forall P a /\ Forall P b.
Proof. unfold split_at. match goal with |- context [if ?q then _ else _] => destruct q end; [discriminate|]. intros E H. apply Ok_inj in E. apply pair_equal_spec in E. destruct E as [<- <-]. split; [now apply Forall_firstn|now apply Forall_skipn]. Qed.
Lemma splits_Forall {A} (P : A -> Prop) ns : forall (l : list A) ps r, splits ns l = Ok (ps, r) -> Forall P l -> Forall (Forall P) ps /\ Forall P r.
Proof.
  induction ns as [|n ns IH]; intros l ps r E H; cbn [splits] in E; [apply Ok_inj in E; apply pair_equal_spec in E; destruct E as [<- <-]; auto|]. apply bind_Ok in E. destruct E as ([a b] & E1 & E). destruct (split_at_Forall P _ _ _ _ E1 H) as [A1 A2].
  apply bind_Ok in E. destruct E as ([ps' r'] & E2 & E). destruct (IH _ _ _ E2 A2) as [B1 B2]. apply Ok_inj in E. apply pair_equal_spec in E. destruct E as [<- <-]. auto.
Qed.
Lemma dec_channel_Forall (P : f32 -> Prop) c s (x : list (f32 * f32)) sps cps s' x' : dec_channel_new c s x = Ok (sps, cps, s', x') -> Forall P s -> Forall (Forall P) sps /\ Forall P s'.
Proof.
  intros H HP. unfold dec_channel_new in H. apply bind_Ok in H. destruct H as ([a1 s1] & E1 & H). destruct (split_at_Forall P _ _ _ _ E1 HP) as [A1 A2]. apply bind_Ok in H. destruct H as ([a2 s2] & E2 & H). destruct (split_at_Forall P _ _ _ _ E2 A2) as [B1 B2].
  apply bind_Ok in H. destruct H as ([[[p3 q3] s3] x3] & E3 & H). assert (C : Forall (Forall P) p3 /\ Forall P s3).
  { unfold dec_mdct_new in E3. repeat match type of E3 with
      | bind (splits _ _) _ = Ok _ => let q := fresh in apply bind_Ok in E3; destruct E3 as ([? ?] & q & E3); apply (splits_Forall P) in q; [|exact B2]
      | bind _ _ = Ok _ => apply bind_Ok in E3; destruct E3 as (? & _ & E3)
      | (let '(_, _) := ?a in _) = _ => destruct a end.
    apply Ok_inj in E3. apply pair_equal_spec in E3. destruct E3 as [E3 _]. apply pair_equal_spec in E3. destruct E3 as [E3 <-]. apply pair_equal_spec in E3. destruct E3 as [<- _]. assumption. }
  apply bind_Ok in H. destruct H as ([p4 s4] & E4 & H). assert (D : Forall (Forall P) p4 /\ Forall P s4) by (unfold dec_ltpf_new in E4; apply bind_Ok in E4; destruct E4 as (n & _ & E4); eapply splits_Forall; [exact E4|apply C]).
  apply bind_Ok in H. destruct H as ([a5 s5] & E5 & H). destruct (split_at_Forall P _ _ _ _ E5 (proj2 D)) as [F1 F2]. apply Ok_inj in H. apply pair_equal_spec in H. destruct H as [H _]. apply pair_equal_spec in H. destruct H as [H <-]. apply pair_equal_spec in H. destruct H as [<- _].
  split; [|exact F2]. repeat (constructor; [assumption|]). apply Forall_app. split; [apply C|]. apply Forall_app. split; [apply D|]. repeat constructor. assumption.
Qed.
Lemma parts_size lm sps cps ch : Forall (Forall (bd START)) sps -> channel_of_parts (f32_ops lm) sps cps = Ok ch -> channel_sized ch.
Proof.
  intros H E. do 15 (destruct sps as [|? sps]; [discriminate E|]). destruct sps; [|discriminate E]. do 4 (destruct cps as [|? cps]; [discriminate E|]). destruct cps; [|discriminate E]. cbn [channel_of_parts] in E. apply Ok_inj in E. subst ch.
  assert (W : forall B l, START <= B -> Forall (bd START) l -> Forall (bd B) l) by (intros B l' HB HF; eapply Forall_impl; [|exact HF]; intros a Ha; eapply bd_weaken; eassumption).
  repeat match goal with q : Forall (Forall _) (_ :: _) |- _ => apply Forall_cons_iff in q; destruct q end.
  assert (MZ : forall l' : list f32, Forall zero_val (map (fun _ => f32_of_Z 0) l')) by (intros l'; apply Forall_forall; intros v Hv; apply in_map_iff in Hv; destruct Hv as (q & <- & _); destruct (fz_val 0 ltac:(lia)) as [V F]; split; assumption).
  unfold channel_sized, plc_sized, mdct_sized, ltpf_sized, plc_new, OUT. cbn [ch_plc ch_mdct ch_ltpf ch_lines ch_freq pl_last pl_alpha m_ola m_zeros t_x t_xl t_active].
  split; [split; [apply W; [unfold START, LINE; lra|assumption]|exact one_bd]|]. split; [split; [apply W; [unfold START, TDA; lra|assumption]|apply MZ]|].
  split; [split; [apply W; [unfold START, SAMPLE; lra|assumption]|split; [apply W; [unfold START, SAMPLE; lra|assumption]|discriminate]]|].
  split; apply W; (unfold START, LINE, SAMPLE; lra) || assumption.
Qed.
Definition decoder_sized (d : decoder f32) : Prop := Forall channel_sized (d_channels d).
Lemma new_size lm num d f s x dec : Forall (bd START) s -> decoder_new (f32_ops lm) num d f s x = Ok dec -> decoder_sized dec.
Proof.
  intros H E. unfold decoder_new in E. apply bind_Ok in E. destruct E as ([[parts s'] x'] & E1 & E). apply bind_Ok in E. destruct E as (chs & E2 & E). apply Ok_inj in E. subst dec. unfold decoder_sized. cbn [d_channels]. unfold dec_new in E1.
  revert E1 E2 H. generalize (Z.to_nat num). intros k. revert s x parts s' x' chs. induction k as [|k IH]; intros s x parts s' x' chs E1 E2 H; cbn [dec_channels] in E1.
  - apply Ok_inj in E1. apply pair_equal_spec in E1. destruct E1 as [E1 _]. apply pair_equal_spec in E1. destruct E1 as [<- _]. cbn [map_res] in E2. apply Ok_inj in E2. subst chs. constructor.
  - apply bind_Ok in E1. destruct E1 as ([[[sps cps] s1] x1] & A1 & E1). apply bind_Ok in E1. destruct E1 as ([[ps s2] x2] & A2 & E1). apply Ok_inj in E1. apply pair_equal_spec in E1. destruct E1 as [E1 _]. apply pair_equal_spec in E1. destruct E1 as [<- _].
    destruct (dec_channel_Forall _ _ _ _ _ _ _ _ A1 H) as [B1 B2]. cbn [map_res] in E2. apply bind_Ok in E2. destruct E2 as (ch & C1 & E2). apply bind_Ok in E2. destruct E2 as (bs & C2 & E2). apply Ok_inj in E2. subst chs. constructor; [exact (parts_size lm _ _ _ B1 C1)|]. exact (IH _ _ _ _ _ _ A2 C2 B2).
Qed.

(* ---- histories ---- *)
Lemma frame_step lm t d k r d' out' : decoder_library lm -> twiddles_near lm (nf (d_config d) / 2) -> decoder_lens d -> decoder_sized d -> bytes (k_buf k) ->
  decode_frame (f32_ops lm) t d (k_bits k) (k_ch k) (k_buf k) (k_out k) = Ok (r, d', out') -> decoder_lens d' /\ decoder_sized d' /\ d_config d' = d_config d /\
  (k_bits k = 16%Z -> exists ch, idx (d_channels d') (k_ch k) = Ok ch /\ Forall (bd OUT) (ch_freq ch) /\ out' = scale_and_round (f32_ops lm) (ch_freq ch) (k_out k)).
Proof.
  intros Lib Htw D DS Hb E. destruct (frame_inv (f32_ops lm) t d _ _ _ _ _ _ _ D Hb E) as (D1 & D2 & _ & _ & _ & ch & ch1 & Ech & Ech1 & Ed & Ep). split; [exact D1|].
  pose proof (Forall_idx _ _ _ _ Ech DS) as S1. pose proof (Forall_idx _ _ _ _ Ech (proj2 D)) as K1. unfold decoder_sized. destruct (Z.eq_dec (k_bits k) 16) as [E16|E16].
  - rewrite E16 in Ed. destruct (channel_step lm t (d_config d) ch (k_buf k) (k_out k) r ch1 out' (proj1 D) Lib Htw K1 S1 Hb Ed) as [T1 T2]. split; [exact (Forall_put _ _ _ _ _ Ep DS T1)|]. split; [exact D2|]. intros _. exists ch1. split; [exact Ech1|split; [apply T1|exact T2]].
  - rewrite (decode_channel_other (f32_ops lm) t (d_config d) ch (k_bits k) (k_buf k) (k_out k) E16) in Ed. apply Ok_inj in Ed. apply pair_equal_spec in Ed. destruct Ed as [Ed _]. apply pair_equal_spec in Ed. destruct Ed as [_ <-]. split; [exact (Forall_put _ _ _ _ _ Ep DS S1)|]. split; [exact D2|]. intros Q. congruence.
Qed.
