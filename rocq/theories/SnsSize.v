(* Sizes of the decoder's scale factors and shaped lines in binary32. *)
From Coq Require Import ZArith List Bool Lia Reals Lra.
From Coquelicot Require Import Complex.
From Flocq Require Import Core BinarySingleNaN Relative.
From Verif Require Import Base Config Loops Scalar SideInfo SnsIndex MpvqProofs SnsProofs FrameSpec TablesSnsF DecSignal DecTotal RealOps Tdac F32 F32Round F32Lines EncF32 F32Err F32Size MdctErr.
From Coq Require Import List.
Import ListNotations.
Local Open Scope R_scope.
Local Notation f0 := (f32_of_Z 0).

Lemma bind_Ok {A B} (m : res A) (k : A -> res B) b : bind m k = Ok b -> exists a, m = Ok a /\ k a = Ok b.
Proof. destruct m; cbn [bind]; try discriminate. intros H. eauto. Qed.
Lemma big_big : 1000000 <= big.
Proof. apply Rle_trans with (bpow radix2 20); [cbn; lra|]. apply bpow_le. lia. Qed.

(* ---- table entries ---- *)
Definition lit_small (B : Z) (d : Z * Z) : bool := lit_ok d && (10000 * Z.abs (fst d) <=? B * 10 ^ (- snd d))%Z.
Lemma lit_small_bd B d : lit_small B d = true -> (2500 <= B <= 500000)%Z -> bd (IZR B / 10000 * (1000001 / 1000000)) (f32_lit d).
Proof.
  intros H HB. apply andb_true_iff in H. destruct H as [Ok L]. apply Z.leb_le in L. assert (BR : 2500 <= IZR B <= 500000) by (split; apply IZR_le; lia).
  assert (A : Rabs (R_lit d) <= IZR B / 10000).
  { unfold R_lit. assert (E : (-20 <= snd d <= 0)%Z) by (unfold lit_ok in Ok; apply andb_true_iff in Ok; destruct Ok as [O1 O2]; apply Z.leb_le in O1, O2; lia). set (D := (10 ^ (- snd d))%Z) in *. assert (D0 : (0 < D)%Z) by (apply Z.pow_pos_nonneg; lia).
    assert (P : powerRZ 10 (snd d) = / IZR D). { unfold D. replace (snd d) with (- (- snd d))%Z at 1 by lia. rewrite powerRZ_neg'. f_equal. rewrite <- (Z2Nat.id (- snd d)) by lia. rewrite <- pow_powerRZ, <- pow_IZR. reflexivity. }
    rewrite P, Rabs_mult, <- abs_IZR. assert (DR : 0 < IZR D) by (apply IZR_lt; exact D0). rewrite (Rabs_pos_eq (/ IZR D)) by (left; now apply Rinv_0_lt_compat). apply Rmult_le_reg_r with (IZR D); [exact DR|]. rewrite Rmult_assoc, Rinv_l, Rmult_1_r by lra.
    apply IZR_le in L. rewrite !mult_IZR in L. lra. }
  apply (bd_of_ap 1 (IZR B / 10000) _ (R_lit d)); [apply lit_ap_gen; [exact Ok|lra|exact A]|]. unfold gp. cbn [pow]. unfold vv, uu. lra.
Qed.
Lemma codebooks_small : forallb (forallb (lit_small 48270)) LFCB && forallb (forallb (lit_small 48270)) HFCB && forallb (forallb (lit_small 3519)) D &&
  forallb (forallb (lit_small 51304)) [SNS_VQ_REG_ADJ_GAINS; SNS_VQ_REG_LF_ADJ_GAINS; SNS_VQ_NEAR_ADJ_GAINS; SNS_VQ_FAR_ADJ_GAINS] = true.
Proof. vm_compute. reflexivity. Qed.
Lemma row_small B t i r : forallb (forallb (lit_small B)) t = true -> idx t i = Ok r -> Forall (fun d => lit_small B d = true) r.
Proof. intros H E. rewrite forallb_forall in H. apply Forall_forall. intros d Hd. assert (I : In r t) by (unfold idx in E; destruct (i <? 0)%Z; [discriminate|]; destruct (nth_error t (Z.to_nat i)) eqn:N; [|discriminate]; injection E as <-; eapply nth_error_In, N). specialize (H r I). rewrite forallb_forall in H. now apply H. Qed.

(* ---- the pulse vector ---- *)
Definition squares (y : list Z) : Z := fold_right (fun v a => v * v + a)%Z 0%Z y.
Lemma squares_pulses y : (0 <= pulses y /\ pulses y <= squares y <= pulses y * pulses y)%Z.
Proof.
  induction y as [|v y (P0 & P1 & P2)]; cbn [squares pulses fold_right]; [lia|]. fold (squares y). fold (pulses y). assert (V : (v * v = Z.abs v * Z.abs v)%Z) by (destruct (Z.abs_spec v) as [[_ ->]|[_ ->]]; ring). rewrite V. pose proof (Z.abs_nonneg v). nia.
Qed.
Lemma pulses_shape j y : shape_vec j y -> len y = 16%Z /\ (pulses y <= 11)%Z.
Proof.
  intros [L H]. split; [exact L|]. assert (A : forall a b, pulses (a ++ b) = (pulses a + pulses b)%Z) by (induction a as [|x a IH]; intros b; cbn [pulses fold_right app]; [reflexivity|]; fold (pulses (a ++ b)); fold (pulses a); rewrite IH; lia).
  destruct H as [(_ & H1 & H2)|[(_ & H1 & H2)|[(_ & H)|(_ & H)]]]; try lia; rewrite <- (firstn_skipn 10 y), A.
  - lia.
  - rewrite H2. change (pulses (repeat 0%Z 6)) with 0%Z. lia.
Qed.
Lemma int_fmt v : (Z.abs v < 2 ^ 24)%Z -> rnd32 (IZR v) = IZR v.
Proof. intros H. apply rnd_id. replace (IZR v) with (F2R (Float radix2 v 0)) by (unfold F2R; cbn [Fnum Fexp bpow]; ring). apply fmt_F2R; lia. Qed.
Lemma int_lt v : (Z.abs v < 2 ^ 24)%Z -> Rlt_bool (Rabs (IZR v)) (bpow radix2 128) = true.
Proof. intros H. apply Rlt_bool_true. rewrite <- abs_IZR. apply Rlt_trans with (bpow radix2 24); [|apply bpow_lt; lia]. change (bpow radix2 24) with (IZR (2 ^ 24)). apply IZR_lt, H. Qed.
Definition is_int (x : f32) (v : Z) : Prop := B2R x = IZR v /\ is_finite x = true.
Lemma int_mul x y a b : is_int x a -> is_int y b -> (Z.abs (a * b) < 2 ^ 24)%Z -> is_int (Bmult mode_NE x y) (a * b).
Proof.
  intros [VX FX] [VY FY] H. pose proof (Bmult_correct 24 128 f32_prec f32_emax mode_NE x y) as B. fold fexp32 in B. change (round_mode mode_NE) with ZnearestE in B. fold (rnd32 (B2R x * B2R y)) in B.
  rewrite VX, VY, <- mult_IZR, int_fmt, int_lt in B by exact H. destruct B as (V & F & _). split; [exact V|]. now rewrite F, FX, FY.
Qed.
Lemma int_add x y a b : is_int x a -> is_int y b -> (Z.abs (a + b) < 2 ^ 24)%Z -> is_int (Bplus mode_NE x y) (a + b).
Proof.
  intros [VX FX] [VY FY] H. pose proof (Bplus_correct 24 128 f32_prec f32_emax mode_NE x y FX FY) as B. fold fexp32 in B. change (round_mode mode_NE) with ZnearestE in B. fold (rnd32 (B2R x + B2R y)) in B.
  rewrite VX, VY, <- plus_IZR, int_fmt, int_lt in B by exact H. destruct B as (V & F & _). split; [exact V|exact F].
Qed.
Lemma squares_f32 lm y : forall acc a, is_int acc a -> (0 <= a)%Z -> (a + squares y < 2 ^ 20)%Z -> is_int (fold_left (fun acc v => fadd (f32_ops lm) acc (fmul (f32_ops lm) (fz (f32_ops lm) v) (fz (f32_ops lm) v))) y acc) (a + squares y).
Proof.
  induction y as [|v y IH]; intros acc a I A H; cbn [fold_left squares fold_right]; [now rewrite Z.add_0_r|]. cbn [squares fold_right] in H. fold (squares y) in *. pose proof (squares_pulses y) as (S0 & S1 & _). assert (V : (0 <= v * v)%Z) by nia. assert (V2 : (Z.abs v < 2 ^ 10)%Z) by (apply Z.square_lt_simpl_nonneg; nia).
  rewrite Z.add_assoc. apply IH; [|lia|lia]. cbn [f32_ops fadd fmul fz]. assert (IV : is_int (f32_of_Z v) v) by (apply fz_val; lia). apply int_add; [exact I| |lia]. apply int_mul; [exact IV|exact IV|lia].
Qed.
Lemma row_bd lm y : forall row acc a, bd a acc -> Forall (fun d => lit_small 3519 d = true) row -> a + 3521 / 10000 * IZR (pulses y) + 3 / 1000000 * INR (length y) <= 5 ->
  bd (a + 3521 / 10000 * IZR (pulses y) + 3 / 1000000 * INR (length y)) (fold_left (fun acc '(yc, d) => fadd (f32_ops lm) acc (fmul (f32_ops lm) (fz (f32_ops lm) yc) (flit (f32_ops lm) d))) (combine y row) acc).
Proof.
  induction y as [|v y IH]; intros row acc a Ha HR HB.
  - cbn [combine fold_left pulses fold_right length INR]. eapply bd_weaken; [exact Ha|]. lra.
  - destruct row as [|d row]; cbn [combine fold_left].
    + eapply bd_weaken; [exact Ha|]. pose proof (proj1 (squares_pulses (v :: y))) as P. apply IZR_le in P. pose proof (pos_INR (length (v :: y))). lra.
    + change (pulses (v :: y)) with (Z.abs v + pulses y)%Z in *. change (length (v :: y)) with (S (length y)) in *. rewrite S_INR, plus_IZR in *. pose proof (proj1 (squares_pulses y)) as P. apply IZR_le in P. pose proof (pos_INR (length y)) as L0. pose proof (bd_nonneg _ _ Ha) as A0. pose proof big_big as BB.
      inversion_clear HR as [|x1 x2 Hd HR']. assert (V0 : 0 <= IZR (Z.abs v)) by (apply IZR_le; lia). assert (V15 : (Z.abs v < 15)%Z) by (apply lt_IZR; lra).
      assert (T : bd (3521 / 10000 * IZR (Z.abs v) + / 1000000) (Bmult mode_NE (f32_of_Z v) (f32_lit d))).
      { eapply bd_mul; [apply (bd_fz v (IZR (Z.abs v))); [lia|lra]|exact (lit_small_bd 3519 d Hd ltac:(lia))|]. split; [|apply lt_IZR in V15 || idtac; lra]. lra. }
      assert (N : bd (a + 3521 / 10000 * IZR (Z.abs v) + 3 / 1000000) (Bplus mode_NE acc (Bmult mode_NE (f32_of_Z v) (f32_lit d)))) by (eapply bd_add; [exact Ha|exact T|]; split; lra).
      cbn [f32_ops fadd fmul fz flit]. eapply bd_weaken; [apply (IH row _ (a + 3521 / 10000 * IZR (Z.abs v) + 3 / 1000000) N HR'); lra|lra].
Qed.

(* ---- the sixteen scale factors ---- *)
Lemma sqrt_f32 x v : is_int x v -> (0 <= v)%Z -> B2R (Bsqrt mode_NE x) = rnd32 (sqrt (IZR v)) /\ is_finite (Bsqrt mode_NE x) = true.
Proof.
  intros [VX FX] H. pose proof (Bsqrt_correct 24 128 f32_prec f32_emax mode_NE x) as S. fold fexp32 in S. change (round_mode mode_NE) with ZnearestE in S. fold (rnd32 (sqrt (B2R x))) in S. rewrite VX in S. destruct S as (V & F & _). split; [exact V|]. rewrite F.
  destruct x as [s|s| |s m e Hm]; try discriminate FX; [reflexivity|]. destruct s; [|reflexivity]. exfalso. apply IZR_le in H. rewrite <- VX in H. cbn [B2R] in H. unfold F2R in H. cbn [Fnum Fexp cond_Zopp] in H. pose proof (bpow_gt_0 radix2 e). assert (IZR (Z.neg m) < 0) by (apply IZR_lt; lia). assert (IZR (Z.neg m) * bpow radix2 e < 0) by (apply Rmult_neg_pos || nra; assumption). cbn in H. lra.
Qed.
Lemma factors_size lm q scf : sns_legal q -> sns_factors (f32_ops lm) q = Ok scf -> Forall (bd 11) scf.
Proof.
  intros Q E. pose proof codebooks_small as CB. apply andb_true_iff in CB. destruct CB as [CB CG]. apply andb_true_iff in CB. destruct CB as [CB CD]. apply andb_true_iff in CB. destruct CB as [CL CH]. pose proof big_big as BB.
  destruct (shape_of_legal q Q) as (y & Ey & Sy & _). destruct (pulses_shape _ y Sy) as [Ly Py]. destruct (squares_pulses y) as (P0 & P1 & P2).
  unfold sns_factors in E. apply bind_Ok in E. destruct E as (lf & Elf & E). apply bind_Ok in E. destruct E as (hf & Ehf & E). cbv zeta in E. rewrite Ey in E. cbn [bind] in E.
  apply bind_Ok in E. destruct E as (gs & Egs & E). apply bind_Ok in E. destruct E as (g & Eg & E). apply ParseBase.Ok_inj in E. subst scf.
  pose proof (row_small _ _ _ _ CL Elf) as RL. pose proof (row_small _ _ _ _ CH Ehf) as RH. unfold sns_gains in Egs. pose proof (row_small _ _ _ _ CG Egs) as RG. pose proof (Forall_idx _ _ _ _ Eg RG) as SG. cbv beta in SG.
  pose proof (lit_small_bd 51304 g SG ltac:(lia)) as BG.
  assert (I0 : is_int f0 0) by exact zero_val. pose proof (squares_f32 lm y f0 0 I0 ltac:(lia) ltac:(nia)) as SQ. rewrite Z.add_0_l in SQ.
  change (fz (f32_ops lm) 0) with f0. set (sum := fold_left _ y f0) in *. destruct (sqrt_f32 _ _ SQ ltac:(lia)) as [VN FN]. change (fsqrt (f32_ops lm) sum) with (Bsqrt mode_NE sum). set (norm := Bsqrt mode_NE sum) in *.
  change (feq (f32_ops lm) norm f0) with (Beqb norm f0). rewrite Beqb_correct by first [exact FN|reflexivity]. change (B2R f0) with 0.
  set (g' := if Req_bool (B2R norm) 0 then flit (f32_ops lm) g else fdiv (f32_ops lm) (flit (f32_ops lm) g) norm).
  assert (ROW : forall row, Forall (fun d => lit_small 3519 d = true) row -> bd 6.01 (Bmult mode_NE g' (sns_row (f32_ops lm) y row))).
  { intros row HR. assert (LY : INR (length y) = 16) by (unfold len in Ly; rewrite INR_IZR_INZ, Ly; reflexivity). assert (PR : IZR (pulses y) <= 11) by (apply IZR_le; lia). assert (PR0 : 0 <= IZR (pulses y)) by (apply IZR_le; lia).
    assert (Z0 : bd 0 f0) by (split; [reflexivity|]; change (B2R f0) with 0; rewrite Rabs_R0; lra). pose proof (row_bd lm y row f0 0 Z0 HR ltac:(rewrite LY; lra)) as RB. rewrite LY in RB. change (fold_left _ (combine y row) f0) with (sns_row (f32_ops lm) y row) in RB. set (rw := sns_row (f32_ops lm) y row) in *.
    unfold g'. cbn [f32_ops flit fdiv]. destruct (Req_bool_spec (B2R norm) 0) as [C|C].
    - assert (N0 : squares y = 0%Z). { destruct (Z.eq_dec (squares y) 0) as [|NZ]; [assumption|exfalso]. assert (1 <= sqrt (IZR (squares y))) by (rewrite <- sqrt_1; apply sqrt_le_1_alt, IZR_le; lia). apply rnd_le in H. rewrite <- VN, C in H. change 1 with (IZR 1) in H. rewrite int_fmt in H by lia. lra. }
      assert (A0 : pulses y = 0%Z) by lia. rewrite A0 in RB. eapply bd_mul; [exact BG|exact RB|]. split; [lra|lra].
    - set (r := sqrt (IZR (squares y))) in *. assert (N1 : (1 <= squares y)%Z). { destruct (Z.eq_dec (squares y) 0) as [Z1|]; [|lia]. exfalso. apply C. rewrite VN. unfold r. rewrite Z1, sqrt_0. apply (int_fmt 0). lia. }
      assert (r1 : 1 <= r) by (unfold r; rewrite <- sqrt_1; apply sqrt_le_1_alt, IZR_le; lia). assert (rr : r * r = IZR (squares y)) by (unfold r; apply sqrt_def, IZR_le; lia).
      assert (r11 : r <= 11) by (apply Rsqr_incr_0_var; [|lra]; unfold Rsqr; rewrite rr, <- mult_IZR; apply IZR_le; nia).
      assert (AR : IZR (pulses y) <= r * r) by (rewrite rr; apply IZR_le; lia). assert (A332 : IZR (pulses y) <= 332 / 100 * r). { destruct (Rle_dec (332 / 100) r) as [R1|R1]; [lra|]. apply Rle_trans with (1 := AR). apply Rmult_le_compat_r; lra. }
      assert (NL : 9999 / 10000 * r <= Rabs (B2R norm)). { rewrite VN. pose proof (rnd_err r) as RE. pose proof tiny150. rewrite (Rabs_pos_eq r) in RE by lra. apply Rabs_le_inv in RE. unfold uu in RE. apply Rle_trans with (rnd32 r); [lra|apply Rle_abs]. }
      assert (q1 : / 11 <= / r <= 1) by (split; [apply Rinv_le; lra|rewrite <- Rinv_1; apply Rinv_le; lra]). assert (qr : / r * r = 1) by (apply Rinv_l; lra).
      assert (BD : bd (51312 / 10000 * / r) (Bdiv mode_NE (f32_lit g) norm)).
      { eapply (bd_div _ (9999 / 10000 * r)); [exact BG|exact FN|lra|exact NL|]. split; [|lra]. replace (IZR 51304 / 10000 * (1000001 / 1000000) / (9999 / 10000 * r)) with (IZR 51304 / 9999 * (1000001 / 1000000) * / r) by (field; lra). lra. }
      eapply bd_mul; [exact BD|exact RB|]. split; [|lra].
      assert (K : / r * (0 + 3521 / 10000 * IZR (pulses y) + 3 / 1000000 * 16) <= 3521 / 10000 * (332 / 100) + 3 / 1000000 * 16). { apply Rle_trans with (/ r * (3521 / 10000 * (332 / 100 * r)) + / r * (3 / 1000000 * 16)); [rewrite <- Rmult_plus_distr_l; apply Rmult_le_compat_l; lra|]. replace (/ r * (3521 / 10000 * (332 / 100 * r))) with (3521 / 10000 * (332 / 100) * (/ r * r)) by ring. rewrite qr. lra. }
      rewrite Rmult_assoc. set (k := / r * _) in *. lra. }
  apply Forall_forall. intros x Hx. apply in_map_iff in Hx. destruct Hx as ((st1, row) & <- & Hin). pose proof (in_combine_l _ _ _ _ Hin) as I1. pose proof (in_combine_r _ _ _ _ Hin) as I2.
  assert (S1 : lit_small 48270 st1 = true) by (apply in_app_or in I1; rewrite Forall_forall in RL, RH; destruct I1 as [I1|I1]; [now apply RL|now apply RH]).
  assert (S2 : Forall (fun d => lit_small 3519 d = true) row) by (rewrite forallb_forall in CD; specialize (CD _ I2); rewrite forallb_forall in CD; apply Forall_forall; exact CD).
  cbn [f32_ops fadd fmul flit]. eapply bd_add; [exact (lit_small_bd 48270 st1 S1 ltac:(lia))|exact (ROW row S2)|]. split; lra.
Qed.

(* ---- interpolation, reduction, gains ---- *)
Lemma eighth_val lm n : (0 < n < 8)%Z -> B2R (eighth (f32_ops lm) n) = IZR n / 8 /\ is_finite (eighth (f32_ops lm) n) = true.
Proof.
  intros H. unfold eighth. cbn [f32_ops fdiv fz]. destruct (fz_val n ltac:(lia)) as [Vn Fn]. destruct (fz_val 8 ltac:(lia)) as [V8 F8]. pose proof (Bdiv_correct 24 128 f32_prec f32_emax mode_NE (f32_of_Z n) (f32_of_Z 8)) as B. rewrite V8 in B. specialize (B ltac:(lra)). fold fexp32 in B. change (round_mode mode_NE) with ZnearestE in B. rewrite Vn in B. fold (rnd32 (IZR n / 8)) in B.
  assert (E : rnd32 (IZR n / 8) = IZR n / 8). { apply rnd_id. replace (IZR n / 8) with (F2R (Float radix2 n (-3))) by (unfold F2R; cbn; lra). apply fmt_F2R; lia. }
  rewrite E in B. assert (NR : 0 < IZR n < 8) by (split; apply IZR_lt; lia). rewrite Rlt_bool_true in B. 2:{ rewrite Rabs_pos_eq by lra. apply Rlt_trans with (bpow radix2 3); [cbn; lra|apply bpow_lt; lia]. }
  destruct B as (V & F & _). split; [exact V|]. now rewrite F.
Qed.
Lemma mix_bd (w x a b : f32) wr T : bd 11 x -> bd 11 a -> bd 11 b -> is_finite w = true -> B2R w = wr -> 0 <= wr <= 1 -> Rabs (B2R x + wr * (B2R b - B2R a)) <= T -> bd (T + / 1000) (Bplus mode_NE x (Bmult mode_NE w (Bminus mode_NE b a))).
Proof.
  intros [Fx Hx] [Fa Ha] [Fb Hb] Fw Vw W HT. assert (T1 : th <= / 4) by (change (/ 4) with (bpow radix2 (-2)); apply bpow_le; lia). pose proof th_pos. pose proof big_big.
  assert (AX : forall z, is_finite z = true -> Rabs (B2R z) <= 11 -> ap 0 12 z (B2R z)) by (intros z Fz Hz; apply (ap_weaken 0 (Rabs (B2R z) + th)); [now apply ap_exact|lia|lra]).
  pose proof (ap_minus 0 12 0 12 b a _ _ (AX b Fb Hb) (AX a Fa Ha) ltac:(cbn; lia) ltac:(lra)) as M1. cbn [Nat.max Nat.add] in M1.
  assert (AW : ap 0 2 w wr) by (apply ap_const; [exact Fw|exact Vw|rewrite Rabs_pos_eq; lra|lra]).
  pose proof (ap_mult 0 2 1 (12 + 12) w _ _ _ AW M1 ltac:(lia) ltac:(lra) ltac:(lra)) as M2. cbn [Nat.add] in M2. pose proof (ap_plus 0 12 2 (2 * (12 + 12)) x _ _ _ (AX x Fx Hx) M2 ltac:(cbn; lia) ltac:(lra)) as [F [E _]]. cbn [Nat.max Nat.add] in E.
  split; [exact F|]. replace (B2R (Bplus mode_NE x (Bmult mode_NE w (Bminus mode_NE b a)))) with (B2R (Bplus mode_NE x (Bmult mode_NE w (Bminus mode_NE b a))) - (B2R x + wr * (B2R b - B2R a)) + (B2R x + wr * (B2R b - B2R a))) by ring. eapply Rle_trans; [apply Rabs_triang|].
  assert (G : gp 3 - 1 <= / 1000000) by (unfold gp; cbn [pow]; unfold vv, uu; lra). assert ((gp 3 - 1) * (12 + 2 * (12 + 12)) <= / 1000000 * 60) by (apply Rmult_le_compat; try lra; pose proof (gp_1 3); lra). lra.
Qed.
Lemma interp_size lm scf s : Forall (bd 11) scf -> sns_interp (f32_ops lm) scf = Ok s -> Forall (bd (193 / 10)) s.
Proof.
  intros H E. unfold sns_interp in E. cbn [f32_ops fadd fmul fsub fz] in E.
  assert (W11 : forall x, bd 11 x -> bd (193 / 10) x) by (intros x Hx; eapply bd_weaken; [exact Hx|lra]).
  assert (IN : forall k a b, (0 < k < 8)%Z -> bd 11 a -> bd 11 b -> bd (193 / 10) (Bplus mode_NE a (Bmult mode_NE (eighth (f32_ops lm) k) (Bminus mode_NE b a)))).
  { intros k a b Hk Ha Hb. destruct (eighth_val lm k Hk) as [V F]. assert (KR : 0 < IZR k < 8) by (split; apply IZR_lt; lia). eapply bd_weaken; [eapply (mix_bd _ a a b _ 11); [exact Ha|exact Ha|exact Hb|exact F|exact V|lra|]|lra].
    destruct Ha as [_ Ha], Hb as [_ Hb]. apply Rabs_le_inv in Ha, Hb. set (w := IZR k / 8) in *. assert (0 < w < 1) by (unfold w; lra). replace (B2R a + w * (B2R b - B2R a)) with ((1 - w) * B2R a + w * B2R b) by ring. apply Rabs_le. split; nra. }
  assert (EX : forall k a b, (0 < k <= 3)%Z -> bd 11 a -> bd 11 b -> bd (193 / 10) (Bplus mode_NE b (Bmult mode_NE (eighth (f32_ops lm) k) (Bminus mode_NE b a)))).
  { intros k a b Hk Ha Hb. destruct (eighth_val lm k ltac:(lia)) as [V F]. assert (KR : 0 < IZR k <= 3) by (split; [apply IZR_lt|apply IZR_le]; lia). eapply bd_weaken; [eapply (mix_bd _ b a b _ (77 / 4)); [exact Hb|exact Ha|exact Hb|exact F|exact V|lra|]|lra].
    destruct Ha as [_ Ha], Hb as [_ Hb]. eapply Rle_trans; [apply Rabs_triang|]. rewrite Rabs_mult. assert (Rabs (IZR k / 8) <= 3 / 8) by (rewrite Rabs_pos_eq; lra). assert (Rabs (B2R b - B2R a) <= 22) by (eapply Rle_trans; [apply Rabs_triang|]; rewrite Rabs_Ropp; lra). assert (Rabs (IZR k / 8) * Rabs (B2R b - B2R a) <= 3 / 8 * 22) by (apply Rmult_le_compat; try apply Rabs_pos; assumption). lra. }
  apply bind_Ok in E. destruct E as (q0 & E0 & E). apply bind_Ok in E. destruct E as (s1 & E1 & E). apply bind_Ok in E. destruct E as (s2 & E2 & E). apply bind_Ok in E. destruct E as (s3 & E3 & E).
  apply bind_Ok in E. destruct E as (a & Ea & E). apply bind_Ok in E. destruct E as (b & Eb & E). apply bind_Ok in E. destruct E as (s4 & E4 & E).
  pose proof (Forall_idx _ _ _ _ E0 H) as B0. pose proof (Forall_idx _ _ _ _ Ea H) as Ba. pose proof (Forall_idx _ _ _ _ Eb H) as Bb.
  assert (Z0 : Forall (bd (193 / 10)) (repeat f0 64)). { apply Forall_forall. intros x Hx. apply repeat_spec in Hx. subst x. split; [reflexivity|]. change (B2R f0) with 0. rewrite Rabs_R0. lra. }
  apply (Forall_put _ _ _ _ _ E); [|apply EX; [lia|exact Ba|exact Bb]]. apply (Forall_put _ _ _ _ _ E4); [|apply EX; [lia|exact Ba|exact Bb]].
  eapply (for_keep (Forall (bd (193 / 10)))); [exact E3|apply (Forall_put _ _ _ _ _ E2); [apply (Forall_put _ _ _ _ _ E1); [exact Z0|now apply W11]|now apply W11]|].
  intros j t t' _ Et Ht. apply bind_Ok in Et. destruct Et as (x & Ex & Et). apply bind_Ok in Et. destruct Et as (y & Ey & Et). cbv zeta in Et. pose proof (Forall_idx _ _ _ _ Ex H) as Bx. pose proof (Forall_idx _ _ _ _ Ey H) as By.
  apply bind_Ok in Et. destruct Et as (t1 & T1 & Et). apply bind_Ok in Et. destruct Et as (t2 & T2 & Et). apply bind_Ok in Et. destruct Et as (t3 & T3 & Et).
  apply (Forall_put _ _ _ _ _ Et); [|apply IN; [lia|exact Bx|exact By]]. apply (Forall_put _ _ _ _ _ T3); [|apply IN; [lia|exact Bx|exact By]]. apply (Forall_put _ _ _ _ _ T2); [|apply IN; [lia|exact Bx|exact By]]. apply (Forall_put _ _ _ _ _ T1); [exact Ht|apply IN; [lia|exact Bx|exact By]].
Qed.
Lemma reduce_size lm nb s s' : (32 <= nb <= 64)%Z -> Forall (bd (193 / 10)) s -> sns_reduce (f32_ops lm) nb s = Ok s' -> Forall (bd 20) s'.
Proof.
  intros Hn H E. unfold sns_reduce in E. apply bind_Ok in E. destruct E as (n2 & E2 & E). assert (n2 = 64 - nb)%Z as -> by (unfold usub in E2; destruct (64 <? nb)%Z; [discriminate|]; now injection E2). pose proof big_big as BB.
  assert (W : forall B l, B <= 20 -> Forall (bd B) l -> Forall (bd 20) l) by (intros B l HB HF; eapply Forall_impl; [|exact HF]; intros x Hx; eapply bd_weaken; [exact Hx|exact HB]).
  destruct (64 - nb =? 0)%Z; [injection E as <-; apply (W (193 / 10)); [lra|exact H]|]. apply bind_Ok in E. destruct E as (s1 & E1 & E).
  assert (H1 : Forall (bd 20) s1).
  {
    assert (K : forall n i t t', (0 <= i)%Z -> (i + Z.of_nat n <= 32)%Z -> forn n i (fun i s => a <- idx s (2 * i) ;; b <- idx s (2 * i + 1) ;; put s i (fdiv (f32_ops lm) (fadd (f32_ops lm) a b) (fz (f32_ops lm) 2))) t = Ok t' -> Forall (bd (193 / 10 + IZR i / 1000)) t -> Forall (bd 20) t').
    { induction n as [|n IH]; intros i t t' I0 I32 Et Ht.
      - cbn [forn] in Et. injection Et as <-. assert (IZR i <= 32) by (apply IZR_le; lia). apply (W (193 / 10 + IZR i / 1000)); [lra|exact Ht].
      - cbn [forn] in Et. apply bind_Ok in Et. destruct Et as (t1 & T1 & Et). apply (IH (i + 1)%Z t1 t'); [lia|lia|exact Et|]. apply bind_Ok in T1. destruct T1 as (a & Ea & T1). apply bind_Ok in T1. destruct T1 as (b & Eb & T1). pose proof (Forall_idx _ _ _ _ Ea Ht) as Ba. pose proof (Forall_idx _ _ _ _ Eb Ht) as Bb.
        assert (IR : 0 <= IZR i <= 32) by (split; apply IZR_le; lia). rewrite plus_IZR. apply (Forall_put _ _ _ _ _ T1); [eapply Forall_impl; [|exact Ht]; intros x Hx; eapply bd_weaken; [exact Hx|lra]|]. cbn [f32_ops fdiv fadd fz].
        destruct (fz_val 2 ltac:(lia)) as [V2 F2]. eapply (bd_div (2 * (193 / 10 + IZR i / 1000) + / 10000) 2); [eapply bd_add; [exact Ba|exact Bb|split; lra]|exact F2|lra|rewrite V2, Rabs_pos_eq; lra|]. split; lra. }
    unfold for_range in E1. apply (K (Z.to_nat (64 - nb - 0)) 0%Z s s1); [lia|lia|exact E1|]. eapply Forall_impl; [|exact H]. intros x Hx. eapply bd_weaken; [exact Hx|]. lra. }
  eapply (for_keep (Forall (bd 20))); [exact E|exact H1|]. intros j t t' _ Et Ht. apply bind_Ok in Et. destruct Et as (a & Ea & Et). apply (Forall_put _ _ _ _ _ Et Ht). exact (Forall_idx _ _ _ _ Ea Ht).
Qed.

(* the library's powers of two for scale factors: within one percent *)
Definition exp2_near (lm : libm) : Prop := forall x, is_finite x = true -> Rabs (B2R x) <= 20 -> is_finite (lm_exp2 lm x) = true /\ Rabs (B2R (lm_exp2 lm x) - Rpower 2 (B2R x)) <= Rpower 2 (B2R x) / 100.
Lemma exp2_bd lm x : exp2_near lm -> bd 20 x -> bd 1060000 (lm_exp2 lm x).
Proof.
  intros N [F H]. destruct (N x F H) as [F2 E]. split; [exact F2|]. apply Rabs_le_inv in H. assert (P : Rpower 2 (B2R x) <= 1048576). { apply Rle_trans with (Rpower 2 20); [apply Rle_Rpower; lra|]. replace 20 with (INR 20) by (cbn; lra). rewrite Rpower_pow by lra. cbn. lra. }
  assert (0 < Rpower 2 (B2R x)) by apply exp_pos. apply Rabs_le_inv in E. apply Rabs_le. lra.
Qed.
Lemma shape_size lm edges gains lines out last Y Z : 0 <= Y -> edges_ok edges (len gains) last -> (last <= len lines)%Z -> Forall (bd 1060000) gains -> Forall (bd Y) lines -> grow (Y * 1060000) Z -> sns_shape (f32_ops lm) edges gains lines = Ok out -> Forall (bd Z) out.
Proof.
  intros Y0 EO HL HG HY G E. assert (YZ : Y <= Z) by (destruct G as [G _]; lra). pose proof (edges_mono _ _ _ EO) as Mono. destruct EO as (Le & Z0 & ZL & Inc).
  assert (K : exists out', sns_shape (f32_ops lm) edges gains lines = Ok out' /\ len out' = len lines /\ forall i, (0 <= i < len lines)%Z -> bd Z (getz f0 out' i)).
  { unfold sns_shape. destruct (for_inv (fun b l => len l = len lines /\ (forall i, (0 <= i < getz 0%Z edges b)%Z -> bd Z (getz f0 l i)) /\ (forall i, (getz 0%Z edges b <= i < len lines)%Z -> getz f0 l i = getz f0 lines i)) 0 (len gains)
      (fun b lines => g <- idx gains b ;; lo <- idx edges b ;; hi <- idx edges (b + 1) ;; _ <- sub lines lo hi ;; for_range lo hi (fun n lines => x <- idx lines n ;; put lines n (fmul (f32_ops lm) x g)) lines) lines) as (o' & Eo & L' & B1 & B2).
    - apply len_nonneg.
    - split; [reflexivity|]. split; [intros i Hi; rewrite Z0 in Hi; lia|reflexivity].
    - intros b l Hb (L1 & P1 & P2). rewrite (idx_get f0 gains b) by lia. rewrite (idx_get 0%Z edges b), (idx_get 0%Z edges (b + 1)%Z) by lia. cbn [bind]. set (lo := getz 0%Z edges b) in *. set (hi := getz 0%Z edges (b + 1)) in *. pose proof (Inc b Hb) as I1. fold lo hi in I1. pose proof (Mono 0%Z b ltac:(lia) ltac:(lia)) as M0. rewrite Z0 in M0. fold lo in M0. pose proof (Mono (b + 1)%Z (len gains) ltac:(lia) ltac:(lia)) as M1. rewrite ZL in M1. fold hi in M1.
      destruct (sub_ok l lo hi ltac:(lia) ltac:(lia)) as (sl & -> & _). cbn [bind]. set (g := getz f0 gains b). assert (Bg : bd 1060000 g) by (rewrite Forall_forall in HG; apply HG; unfold g, getz; apply nth_In; unfold len in Hb; lia).
      destruct (for_inv (fun n l' => len l' = len lines /\ (forall i, (0 <= i < n)%Z -> bd Z (getz f0 l' i)) /\ (forall i, (n <= i < len lines)%Z -> getz f0 l' i = getz f0 lines i)) lo hi (fun n lines => x <- idx lines n ;; put lines n (fmul (f32_ops lm) x g)) l) as (l2 & El2 & R).
      + lia.
      + auto.
      + intros n t Hn (Q1 & Q2 & Q3). rewrite (idx_get f0 t n) by lia. cbn [bind]. destruct (put_ok f0 t n (fmul (f32_ops lm) (getz f0 t n) g) ltac:(lia)) as (t' & Ep & Lt & Tp). exists t'. split; [exact Ep|]. split; [lia|]. split.
        * intros i Hi. rewrite Tp by lia. destruct (Z.eqb_spec i n) as [->|NE]; [|apply Q2; lia]. cbn [f32_ops fmul]. rewrite Q3 by lia. eapply bd_mul; [rewrite Forall_forall in HY; apply HY; unfold getz; apply nth_In; unfold len in *; lia|exact Bg|exact G].
        * intros i Hi. rewrite Tp by lia. destruct (Z.eqb_spec i n) as [->|NE]; [lia|]. apply Q3. lia.
      + exists l2. split; [exact El2|exact R].
    - exists o'. split; [exact Eo|]. split; [exact L'|]. intros i Hi. destruct (Z.lt_ge_cases i (getz 0%Z edges (len gains))) as [C|C]; [apply B1; lia|]. rewrite B2 by lia. eapply bd_weaken; [|exact YZ]. rewrite Forall_forall in HY. apply HY. unfold getz. apply nth_In. unfold len in *. lia. }
  destruct K as (out' & Eo & L' & B'). rewrite Eo in E. injection E as <-. apply Forall_forall. intros x Hx. destruct (In_nth out' x f0 Hx) as (i & Hi & <-). specialize (B' (Z.of_nat i)). unfold getz in B'. rewrite Nat2Z.id in B'. apply B'. unfold len in *. lia.
Qed.
Lemma sns_size lm c q lines out Y Z : exp2_near lm -> legal_config c -> sns_legal q -> len lines = ne c -> Forall (bd Y) lines -> 0 <= Y -> grow (Y * 1060000) Z -> sns_decode (f32_ops lm) c q lines = Ok out -> Forall (bd Z) out.
Proof.
  intros N Lc Q Ll HY Y0 G E. unfold sns_decode in E. apply bind_Ok in E. destruct E as (scf & E1 & E). apply bind_Ok in E. destruct E as (s & E2 & E). apply bind_Ok in E. destruct E as (s' & E3 & E). apply bind_Ok in E. destruct E as (g & E4 & E). apply bind_Ok in E. destruct E as (edges & E5 & E).
  pose proof (factors_size lm q scf Q E1) as S1. pose proof (interp_size lm scf s S1 E2) as S2. assert (NB : (32 <= nb c <= 64)%Z) by (destruct Lc as (f & d & ->); destruct f, d; cbn; lia). pose proof (reduce_size lm (nb c) s s' NB S2 E3) as S3.
  unfold sns_linear in E4. apply bind_Ok in E4. destruct E4 as (s4 & E6 & E4). injection E4 as <-. pose proof (Forall_sub _ _ _ _ _ E6 S3) as S4. assert (L4 : len s4 = nb c) by (unfold sub in E6; match type of E6 with context [if ?b then _ else _] => destruct b eqn:EB end; [discriminate|]; apply ParseBase.Ok_inj in E6; subst s4; rewrite !orb_false_iff in EB; destruct EB as [[EB1 EB2] EB3]; apply Z.ltb_ge in EB1, EB2, EB3; unfold len in *; rewrite firstn_length, skipn_length; lia).
  destruct Lc as (f & d & ->). destruct (band_table_ok f d) as (e' & Eb & Ok'). rewrite Eb in E5. injection E5 as <-. eapply (shape_size lm e' (map (fexp2 (f32_ops lm)) s4) lines out (ne (config_new f d)) Y Z); [exact Y0|rewrite len_map, L4; exact Ok'|lia| |exact HY|exact G|exact E].
  apply Forall_forall. intros x Hx. apply in_map_iff in Hx. destruct Hx as (v & <- & Hv). rewrite Forall_forall in S4. apply exp2_bd; [exact N|now apply S4].
Qed.
