(* Sizes of the decoder's spectral lines in binary32, from the parsed frame (any frame the parser lets through) to the shaped lines, and of the lines made for a lost frame. *)
From Coq Require Import ZArith List Bool Lia Reals Lra.
From Coquelicot Require Import Complex.
From Flocq Require Import Core BinarySingleNaN Relative.
From Verif Require Import Base Config FrameSpec SideInfo ArithDec FrameDec Buffers Loops ParseBase ParseTotal Scalar DecSignal DecTotal DecState DecRun Decoder TnsOk RealOps Tdac F32 F32Round F32Lines EncF32 F32Err F32Size MdctErr TnsSize SnsSize.
From Coq Require Import List.
Import ListNotations.
Local Open Scope R_scope.
Local Notation f0 := (f32_of_Z 0).

(* every exponent a frame can ask for: the gain index is a byte, the offset at most 115 + 105 + 25 *)
Definition gains_near (lm : libm) : Prop :=
  forall e, (-245 <= e <= 145)%Z -> is_finite (lm_gain lm e) = true /\ Rabs (B2R (lm_gain lm e) - Rpower 10 (IZR e / 28)) <= Rpower 10 (IZR e / 28) / 100.
Lemma ten_top : Rpower 10 (21 / 4) <= 178000.
Proof.
  apply Rnot_lt_le. intros H. assert (Q : (Rpower 10 (21 / 4)) ^ 4 = 10 ^ 21). { rewrite <- !Rpower_pow by (try apply exp_pos; lra). rewrite Rpower_mult. f_equal. cbn. lra. }
  set (y := Rpower 10 (21 / 4)) in *. assert (S : 178000 * 178000 < y * y) by (apply Rmult_le_0_lt_compat; lra). assert (S2 : (178000 * 178000) * (178000 * 178000) < (y * y) * (y * y)) by (apply Rmult_le_0_lt_compat; lra). replace (y ^ 4) with ((y * y) * (y * y)) in Q by ring. lra.
Qed.
Lemma gain_size lm e : gains_near lm -> (-245 <= e <= 145)%Z -> bd 180000 (lm_gain lm e).
Proof.
  intros G He. destruct (G e He) as [F A]. split; [exact F|]. assert (P : 0 < Rpower 10 (IZR e / 28)) by apply exp_pos. assert (U : Rpower 10 (IZR e / 28) <= 178000).
  { eapply Rle_trans; [|exact ten_top]. apply Rle_Rpower; [lra|]. assert (IZR e <= 145) by (apply IZR_le; lia). lra. }
  replace (B2R (lm_gain lm e)) with (B2R (lm_gain lm e) - Rpower 10 (IZR e / 28) + Rpower 10 (IZR e / 28)) by ring. eapply Rle_trans; [apply Rabs_triang|]. rewrite (Rabs_pos_eq (Rpower _ _)) by lra. lra.
Qed.
Lemma gain_range nbits fsi gg : (0 <= nbits)%Z -> (0 <= fsi <= 4)%Z -> (0 <= gg < 256)%Z -> (-245 <= gg + gain_off nbits fsi <= 145)%Z.
Proof. intros H1 H2 H3. unfold gain_off. assert (0 <= nbits / (10 * (fsi + 1)))%Z by (apply Z.div_pos; lia). lia. Qed.

Lemma big_big' : 1000000000000000000000000000000 <= big.
Proof. unfold big. apply Rle_trans with (bpow radix2 100); [cbn; lra|apply bpow_le; lia]. Qed.
Lemma residual_size lm bits : forall lines, Forall (bd 81920) lines -> Forall (bd 81921) (residual_lines (f32_ops lm) bits lines).
Proof.
  pose proof big_big' as BB. intros lines H. revert bits. induction H as [|x lines Hx H IH]; intros bits; cbn [residual_lines]; [constructor|].
  assert (W : bd 81921 x) by (eapply bd_weaken; [exact Hx|lra]). assert (Rest : Forall (bd 81921) lines) by (eapply Forall_impl; [|exact H]; intros; eapply bd_weaken; [eassumption|lra]).
  destruct c3125_val as [V1 F1]. destruct c1875_val as [V2 F2]. assert (B1 : bd (5 / 16) (f32_lit (3125, -4)%Z)) by (split; [exact F1|rewrite V1; apply Rabs_le; lra]). assert (B2 : bd (5 / 16) (f32_lit (1875, -4)%Z)) by (split; [exact F2|rewrite V2; apply Rabs_le; lra]).
  destruct (feq _ x _); [constructor; auto|]. destruct bits as [|[|] bs]; [constructor; auto| |]; (constructor; [|apply IH]); destruct (flt _ _ x); cbn [f32_ops fadd fsub flit]; first [apply (bd_add 81920 (5 / 16))|apply (bd_sub 81920 (5 / 16))]; try exact Hx; try exact B1; try exact B2; split; lra.
Qed.
Lemma level_size lm k : (0 <= k < 8)%Z -> bd 81921 (fdiv (f32_ops lm) (fsub (f32_ops lm) (fz (f32_ops lm) 8) (fz (f32_ops lm) k)) (fz (f32_ops lm) 16)).
Proof.
  intros Hk. pose proof big_big' as BB. cbn [f32_ops fdiv fsub fz]. destruct (fz_val 16 ltac:(lia)) as [V F]. eapply bd_div with (m := 16) (A := 17); [|exact F|lra|rewrite V; apply Rle_abs|split; lra].
  eapply bd_sub; [apply (bd_fz 8 8); [lia|cbn; lra]|apply (bd_fz k 8); [lia|apply IZR_le; lia]|split; lra].
Qed.
Lemma noise_size lm chk zf seed bw d k spec lines out : (0 <= k < 8)%Z -> Forall (bd 81921) lines -> noise_fill (f32_ops lm) chk zf seed bw d k spec lines = Ok out -> Forall (bd 81921) out.
Proof.
  intros Hk H E. unfold noise_fill in E. destruct zf; [apply Ok_inj in E; now subst|]. apply bind_Ok in E. destruct E as ([[stop start] width] & _ & E). cbv zeta in E. apply bind_Ok in E. destruct E as ([sd l] & E1 & E). apply Ok_inj in E. subst l.
  apply (for_keep (fun st => Forall (bd 81921) (snd st)) _ _ _ _ _ E1 H). intros j [s1 l1] [s2 l2] _ El Hl. cbn [snd] in *. unfold nf_line in El. apply bind_Ok in El. destruct El as (fr & _ & El). cbv zeta in El. apply bind_Ok in El. destruct El as (w & _ & El).
  destruct (forallb (Z.eqb 0) w); [|apply Ok_inj in El; apply pair_equal_spec in El; destruct El as [_ <-]; exact Hl]. apply bind_Ok in El. destruct El as (sd2 & _ & El). apply bind_Ok in El. destruct El as (l3 & E3 & El). apply Ok_inj in El. apply pair_equal_spec in El. destruct El as [_ <-].
  apply (Forall_put _ _ _ _ _ E3 Hl). pose proof (level_size lm k Hk) as LS. destruct (sd2 <? 32768)%Z; [exact LS|]. cbn [f32_ops fneg]. apply bd_opp. exact LS.
Qed.
Definition LINE : R := 223000000000000000000000000.   (* 2.23e26 *)
Lemma lines_size lm t c f L lines out : gains_near lm -> sines_near lm -> exp2_near lm -> legal_config c -> (0 <= L)%Z -> frame_wf c L f -> len lines = ne c -> decode_lines (f32_ops lm) t c f lines = Ok out -> Forall (bd LINE) out.
Proof.
  intros HG HS HE Lc L0 W Hl E. pose proof big_big' as BB. destruct (config_geom c Lc) as (G1 & G2 & G3 & G4 & G5 & G6 & G7). pose proof W as [W1 W2 _ WM [W5 W5'] [W6 W6'] _ W8 WN _]. destruct W1 as [Sb Sl Se Sg Sn Sf Ss Sp Slt Snf].
  unfold decode_lines in E. apply bind_Ok in E. destruct E as (spec & E1 & E). cbv zeta in E. unfold MAX_LEN_SPECTRAL in W2.
  assert (LS : len spec = ne c). { destruct (sub_ok (f_spec f) 0 (ne c) ltac:(lia) ltac:(lia)) as (s & Es & Ls & _). rewrite E1 in Es. apply Ok_inj in Es. subst s. lia. }
  assert (A1 : Forall (bd 81920) (zipmod (fun _ v => fz (f32_ops lm) v) lines spec)).
  { apply (zipmod_all _ (fun v => (Z.abs v <= LINE_MAX + 1)%Z)); [unfold len in *; lia|exact (Forall_sub _ _ _ _ _ E1 WM)|]. intros a b Hb. unfold LINE_MAX in Hb. cbn [f32_ops fz]. apply bd_fz; [lia|]. apply IZR_le. lia. }
  apply bind_Ok in E. destruct E as (l2 & E2 & E). assert (A2 : Forall (bd 81921) l2).
  { eapply noise_size; [|  |exact E2]; [exact Snf|]. unfold residual_decode. destruct (s_lsb_mode _); [eapply Forall_impl; [|exact A1]; intros; eapply bd_weaken; [eassumption|lra]|]. apply residual_size, A1. }
  assert (L2 : len l2 = ne c). { destruct (noise_fill_ok (f32_ops lm) (t_chk t) (a_zero_frame (f_arith f)) (a_seed (f_arith f)) (s_bw (f_side f)) (n_ms c) (s_nf (f_side f)) (f_spec f) (residual_decode (f32_ops lm) (s_lsb_mode (f_side f)) (a_residual (f_arith f)) (zipmod (fun _ v => fz (f32_ops lm) v) lines spec))) as (l & El & Ll); [rewrite W8; unfold spec_seed; apply Z.mod_pos_bound; reflexivity|lia|exact W2|]. rewrite E2 in El. apply Ok_inj in El. subst l. rewrite Ll, residual_decode_len, len_zipmod. exact Hl. }
  set (l3 := global_gain _ _ _ _ l2) in E. assert (A3 : Forall (bd 15000000000) l3).
  { unfold l3, global_gain. cbn [f32_ops fgain fmul]. assert (GB : bd 180000 (lm_gain lm (s_gg (f_side f) + gain_off (a_nbits (f_arith f)) (fs_ind c)))) by (apply gain_size; [exact HG|apply gain_range; [rewrite WN; lia|lia|lia]]).
    apply Forall_forall. intros y Hy. apply in_map_iff in Hy. destruct Hy as (x & <- & Hx). rewrite Forall_forall in A2. eapply bd_mul; [exact (A2 x Hx)|exact GB|split; lra]. }
  assert (L3 : len l3 = ne c) by (unfold l3; rewrite global_gain_len; exact L2). apply bind_Ok in E. destruct E as (l4 & E4 & E). destruct (coded_ne c (s_bw (f_side f)) Lc Sb) as [B4 CN].
  destruct (tns_size lm (n_ms c) (s_bw (f_side f)) (a_rc_order (f_arith f)) (a_rc_i (f_arith f)) l3 15000000000 HS B4 W5) with (num := s_num_tns (f_side f)) as (l4' & E4' & L4 & A4).
  - exact W5'.
  - exact W6'.
  - rewrite L3. lia.
  - split; [lra|]. apply Rle_trans with (bpow radix2 40); [cbn; lra|cbn; lra].
  - exact A3.
  - rewrite Sn. clear - B4. destruct (n_ms c), (bw_cases _ B4) as [->|[->|[->|[->| ->]]]]; reflexivity.
  - rewrite E4 in E4'. apply Ok_inj in E4'. subst l4'. eapply (sns_size lm c (s_sns (f_side f)) l4 out (14000000000 * 15000000000) LINE HE Lc Ss); [lia|exact A4|lra|unfold LINE; split; lra|exact E].
Qed.
(* concealment: no line grows *)
Lemma bd_shrink A x y : bd A x -> bd 1 y -> bd A (Bmult mode_NE x y).
Proof.
  intros [Fx Hx] [Fy Hy]. destruct (bmul_val x y Fx Fy Hy) as [V F]. split; [exact F|]. rewrite V. unfold rnd32. rewrite <- round_NE_abs by typeclasses eauto. eapply Rle_trans; [|exact Hx]. assert (FA : generic_format radix2 fexp32 (Rabs (B2R x))) by (apply generic_format_abs, generic_format_B2R).
  rewrite <- (rnd_id (Rabs (B2R x)) FA). apply rnd_le. rewrite Rabs_mult. pose proof (Rabs_pos (B2R x)). rewrite <- (Rmult_1_r (Rabs (B2R x))) at 2. apply Rmult_le_compat_l; assumption.
Qed.
Definition plc_sized (p : plc f32) : Prop := Forall (bd LINE) (pl_last p) /\ bd 1 (pl_alpha p).
Lemma one_bd : bd 1 (f32_of_Z 1). Proof. apply bd_fz; [lia|cbn; lra]. Qed.
Lemma plc_lines_size lm alpha : bd 1 alpha -> forall lines last seed, Forall (bd LINE) last -> (length lines <= length last)%nat -> Forall (bd LINE) (snd (plc_lines (f32_ops lm) alpha seed lines last)).
Proof.
  intros HA. induction lines as [|x lines IH]; intros last seed H LL; cbn [plc_lines]; [constructor|]. destruct last as [|g last]; [cbn in LL; lia|]. inversion_clear H. cbv zeta. cbn [length] in LL. specialize (IH last (plc_next seed) H1 ltac:(lia)).
  destruct (plc_lines _ alpha (plc_next seed) lines last) as [s r]. cbn [snd] in *. constructor; [|exact IH]. cbn [f32_ops fmul fneg]. destruct (plc_next seed <? 32768)%Z; apply bd_shrink; auto. now apply bd_opp.
Qed.
Lemma plc_load_size lm t p lines p' out : plc_sized p -> len lines = len (pl_last p) -> plc_load (f32_ops lm) t p lines = Ok (p', out) -> plc_sized p' /\ Forall (bd LINE) out.
Proof.
  intros [P1 P2] LL E. unfold plc_load in E. cbv zeta in E. set (alpha := if (4 <=? pl_lost p)%Z then _ else _) in E. assert (HA : bd 1 alpha).
  { unfold alpha. destruct (4 <=? pl_lost p)%Z; [|exact P2]. cbn [f32_ops fmul flit]. apply bd_shrink; [exact P2|]. destruct c90_val as [V9 F9]. destruct c85_val as [V8 F8]. destruct (pl_lost p <? 8)%Z; [change (bd 1 c90); split; [exact F9|rewrite V9]|change (bd 1 c85); split; [exact F8|rewrite V8]]; apply Rabs_le; lra. }
  apply bind_Ok in E. destruct E as (lost & _ & E). pose proof (plc_lines_size lm alpha HA lines (pl_last p) (pl_seed p) P1 ltac:(unfold len in LL; lia)) as PL. destruct (plc_lines _ alpha _ lines _) as [sd l]. apply Ok_inj in E. apply pair_equal_spec in E. destruct E as [<- <-]. split; [split; assumption|exact PL].
Qed.
Lemma plc_save_size lm p lines p' : Forall (bd LINE) lines -> plc_save (f32_ops lm) p lines = Ok p' -> plc_sized p'.
Proof. intros H E. unfold plc_save in E. apply bind_Ok in E. destruct E as (l & El & E). apply Ok_inj in E. subst p'. split; [exact (Forall_sub _ _ _ _ _ El H)|exact one_bd]. Qed.
