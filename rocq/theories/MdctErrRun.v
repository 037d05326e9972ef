(* Rounding errors of the encoder's MDCT and of the decoder's inverse MDCT. *)
From Coq Require Import ZArith List Bool Lia Reals Lra.
From Coquelicot Require Import Complex.
From Flocq Require Import Core BinarySingleNaN.
From Verif Require Import Base Config FrameSpec FftFactor FactorProofs Buffers Loops Scalar Fft DecSignal DecMdct DecTotal DecState FftSpec RealOps Dft DctSpec ParseBase ParseTotal MdctSpec EncMdct TdacSpec Dct4Inv Tdac MdctFormula Norm2 F32 F32Round F32Lines EncF32 F32Err FftErr FftErrRun DctErr MdctErr.
From Coq Require Import List.
Import ListNotations.
Local Open Scope R_scope.

Definition fold_a (h n : Z) : Z := if (n <? h)%Z then (3 * h - 1 - n)%Z else (n - h)%Z.
Definition fold_b (h n : Z) : Z := if (n <? h)%Z then (3 * h + n)%Z else (3 * h - 1 - n)%Z.
(* every sample of the block is used once *)
Lemma fold_sum h (F : Z -> R) : (0 <= h)%Z -> rsum (Z.to_nat (2 * h)) (fun n => F (fold_a h n) + F (fold_b h n)) = rsum (Z.to_nat (4 * h)) F.
Proof.
  intros Hh. set (H := Z.to_nat h). assert (Hz : Z.of_nat H = h) by (unfold H; lia). replace (Z.to_nat (2 * h)) with (H + H)%nat by lia. replace (Z.to_nat (4 * h)) with (H + H + (H + H))%nat by lia. rewrite !rsum_split. rewrite !Nat2Z.inj_add, Hz.
  rewrite !rsum_add. rewrite (rsum_rev H (fun k => F (h + k)%Z)). rewrite (rsum_rev H (fun k => F (h + h + k)%Z)). rewrite Hz.
  rewrite (rsum_ext H (fun t => F (fold_a h t)) (fun k => F (h + h + (h - 1 - k))%Z)), (rsum_ext H (fun t => F (fold_b h t)) (fun k => F (h + h + (h + k))%Z)), (rsum_ext H (fun t => F (fold_a h (h + t))) F), (rsum_ext H (fun t => F (fold_b h (h + t))) (fun k => F (h + (h - 1 - k))%Z)); [ring| | | |];
    intros n Hn; unfold fold_a, fold_b; rewrite Hz in Hn; (destruct (Z.ltb_spec n h); [|lia]) || idtac; (destruct (Z.ltb_spec (h + n) h); [lia|]) || idtac; f_equal; lia.
Qed.
Lemma fold_nrm h (F : Z -> R) : (0 <= h)%Z -> nrm (Z.to_nat (2 * h)) (fun n => Rabs (F (fold_a h n)) + Rabs (F (fold_b h n))) <= sqrt 2 * nrm (Z.to_nat (4 * h)) F.
Proof.
  intros Hh. unfold nrm. rewrite <- sqrt_mult by (try lra; apply rsum_pos; intros; apply sq_pos). apply sqrt_le_1_alt. rewrite <- (fold_sum h (fun t => F t * F t) Hh), <- rsum_mul. apply rsum_le. intros n _.
  set (a := F (fold_a h n)). set (b := F (fold_b h n)). assert (A : Rabs a * Rabs a = a * a) by (rewrite <- Rabs_mult; apply Rabs_pos_eq, sq_pos). assert (B : Rabs b * Rabs b = b * b) by (rewrite <- Rabs_mult; apply Rabs_pos_eq, sq_pos).
  pose proof (sq_pos (Rabs a - Rabs b)). nra.
Qed.
Lemma sqrt2_num : 1 <= sqrt 2 <= 141422 / 100000.
Proof. split; [rewrite <- sqrt_1 at 1; apply sqrt_le_1_alt; lra|]. rewrite <- (sqrt_square (141422 / 100000)) by lra. apply sqrt_le_1_alt. lra. Qed.

Section Err.
Variables (lm : libm) (c : config) (w : list (Z * Z)) (h : Z) (fl : list Z).
Hypotheses (L : legal_config c) (Ew : mdct_window c = Ok w) (Hh : nf c = (2 * h)%Z) (Ef : dct_factors (nf c) = Ok fl) (Ch : chain h fl) (Sm : small_factors fl) (Ne : fl <> []) (Htw : twiddles_near lm h).
Local Notation o := (f32_ops lm).
Local Notation wf := (getz (0, 0)%Z w).
Local Notation N := (Z.to_nat (nf c)).
Local Notation N2 := (Z.to_nat (2 * nf c)).
Local Notation g := (1 / sqrt (2 * IZR (2 * h))).
Lemma eh : (30 <= h <= 240)%Z.
Proof. assert (B : (60 <= nf c <= 480)%Z) by (destruct L as (f & d & ->); destruct f, d; vm_compute; intuition discriminate). lia. Qed.
Lemma win_ap n : (0 <= n < 2 * nf c)%Z -> ap 1 (107 / 100) (f32_lit (wf n)) (win w n).
Proof.
  intros Hn. apply lit_ap; [|now apply (win_abs c w L Ew)]. destruct (win_parts c w L Ew) as (P & _). rewrite Forall_forall in P. apply (P (wf n)). apply getz_In. rewrite (win_len c w L Ew). exact Hn.
Qed.
Lemma erho : rho fl <= 256 * vv. Proof. exact (rho_num c fl L Ef). Qed.

(* ---- analysis ---- *)
Section Forward.
Variable T : Z -> Z.
Hypothesis HT : forall j, (0 <= j < 2 * nf c)%Z -> (Z.abs (T j) <= 32768)%Z.
Let tr (j : Z) : R := IZR (T j).
Let nT : R := nrm N2 tr.
Let fsz (n : Z) : R := 107 / 100 * (Rabs (tr (fold_a h n)) + th + (Rabs (tr (fold_b h n)) + th)).
Let fh (n : Z) : f32 := mfold o h wf T n.
Let fr (n : Z) : R := mfold R_ops h wf T n.
Lemma tr_abs j : (0 <= j < 2 * nf c)%Z -> Rabs (tr j) <= 32768.
Proof. intros Hj. unfold tr. rewrite <- abs_IZR. apply IZR_le. now apply HT. Qed.
Lemma wprod_ap j : (0 <= j < 2 * nf c)%Z -> ap 2 (107 / 100 * (Rabs (tr j) + th)) (wprod o wf T j) (wprod R_ops wf T j).
Proof.
  intros Hj. unfold wprod. cbn [f32_ops R_ops fmul fz flit]. pose proof (HT j Hj) as B. destruct (fz_val (T j) ltac:(lia)) as [V F]. pose proof (ap_exact _ F) as A. rewrite V in A. fold (tr j) in A. pose proof (win_ap j Hj) as W. pose proof (tr_abs j Hj) as Tj. pose proof th_pos. pose proof th_small. pose proof (Rabs_pos (tr j)).
  rewrite Rmult_comm. apply (ap_mult 0 _ 1 (107 / 100) _ _ (tr j) (win w j) A W); [lia|lra|]. apply Rle_trans with (bpow radix2 20); [change (bpow radix2 20) with 1048576; lra|]. apply bpow_le. lia.
Qed.
Lemma fold_rng n : (0 <= n < nf c)%Z -> (0 <= fold_a h n < 2 * nf c)%Z /\ (0 <= fold_b h n < 2 * nf c)%Z.
Proof. intros Hn. unfold fold_a, fold_b. destruct (Z.ltb_spec n h); lia. Qed.
Lemma fold_ap n : (0 <= n < nf c)%Z -> ap 3 (fsz n) (fh n) (fr n).
Proof.
  intros Hn. destruct (fold_rng n Hn) as [Ra Rb]. pose proof (wprod_ap _ Ra) as A. pose proof (wprod_ap _ Rb) as B. pose proof (tr_abs _ Ra) as Ta. pose proof (tr_abs _ Rb) as Tb. pose proof th_pos. pose proof th_small. pose proof (Rabs_pos (tr (fold_a h n))). pose proof (Rabs_pos (tr (fold_b h n))).
  assert (Bg : 107 / 100 * (Rabs (tr (fold_a h n)) + th) + 107 / 100 * (Rabs (tr (fold_b h n)) + th) <= big). { apply Rle_trans with (bpow radix2 20); [change (bpow radix2 20) with 1048576; lra|]. apply bpow_le. lia. }
  replace (fsz n) with (107 / 100 * (Rabs (tr (fold_a h n)) + th) + 107 / 100 * (Rabs (tr (fold_b h n)) + th)) by (unfold fsz; ring).
  unfold fh, fr, mfold, fold_a, fold_b in *. replace (2 * h - 1 - (n - h))%Z with (3 * h - 1 - n)%Z by lia. destruct (Z.ltb_spec n h); cbn [f32_ops R_ops fsub fneg].
  - exact (ap_minus 2 _ 2 _ _ _ _ _ (ap_neg _ _ _ _ A) B ltac:(lia) Bg).
  - exact (ap_minus 2 _ 2 _ _ _ _ _ A B ltac:(lia) Bg).
Qed.
Lemma fsz_nrm : nrm N fsz <= 15133 / 10000 * nT + 64 * th.
Proof.
  pose proof eh as H. pose proof th_pos as T0. pose proof sqrt2_num as S2. unfold fsz. rewrite nrm_scale by lra. pose proof (nrm_pos N2 tr) as X0. fold nT in X0.
  assert (E : nrm N (fun n => Rabs (tr (fold_a h n)) + th + (Rabs (tr (fold_b h n)) + th)) <= sqrt 2 * nT + sqrt (INR N) * (2 * th)).
  { rewrite (nrm_ext N _ (fun n => (Rabs (tr (fold_a h n)) + Rabs (tr (fold_b h n))) + 2 * th)) by (intros; ring). eapply Rle_trans; [apply nrm_tri|]. rewrite (nrm_const N (2 * th)) by lra. apply Rplus_le_compat_r. rewrite Hh. unfold nT. rewrite Hh. replace (2 * (2 * h))%Z with (4 * h)%Z by lia. apply fold_nrm. lia. }
  assert (SN : sqrt (INR N) <= 22). { rewrite <- (sqrt_square 22) by lra. apply sqrt_le_1_alt. rewrite INR_IZR_INZ, Z2Nat.id by lia. rewrite <- mult_IZR. apply IZR_le. lia. }
  assert (sqrt 2 * nT <= 141422 / 100000 * nT) by (apply Rmult_le_compat_r; lra). assert (sqrt (INR N) * (2 * th) <= 22 * (2 * th)) by (apply Rmult_le_compat_r; lra). lra.
Qed.
Lemma nT_big : nT <= 2097152.
Proof.
  pose proof eh as H. apply Rle_trans with (nrm N2 (fun _ => 32768)); [apply nrm_le; intros t Ht; apply tr_abs; lia|]. rewrite nrm_const by lra.
  assert (SN : sqrt (INR N2) <= 64). { rewrite <- (sqrt_square 64) by lra. apply sqrt_le_1_alt. rewrite INR_IZR_INZ, Z2Nat.id by lia. rewrite <- mult_IZR. apply IZR_le. lia. } lra.
Qed.
Lemma fr_nrm : nrm N fr <= 15133 / 10000 * nT + 64 * th.
Proof. eapply Rle_trans; [|exact fsz_nrm]. apply nrm_le. intros n Hn. destruct (fold_ap n ltac:(lia)) as (_ & _ & R & _). exact R. Qed.
Lemma fh_err : nrm N (fun n => B2R (fh n) - fr n) <= (gp 3 - 1) * (15133 / 10000 * nT + 64 * th).
Proof.
  pose proof (gp_1 3). eapply Rle_trans; [|apply Rmult_le_compat_l; [lra|exact fsz_nrm]]. rewrite <- nrm_scale by lra. apply nrm_le. intros n Hn. destruct (fold_ap n ltac:(lia)) as (_ & E & _). exact E.
Qed.
Lemma gp3_num : gp 3 - 1 <= 2 / 10000000. Proof. pose proof (gp_lin 3 ltac:(lia)) as G. cbn [INR] in G. pose proof vv_num. lra. Qed.
Lemma fh_nrm : nrm N (fun n => B2R (fh n)) <= 15134 / 10000 * nT + 65 * th.
Proof.
  eapply Rle_trans; [apply (nrm_sub N _ fr (fun n => B2R (fh n) - fr n))|].
  - intros n _. replace (B2R (fh n)) with (fr n + (B2R (fh n) - fr n)) at 1 by ring. apply Rabs_triang.
  - pose proof fr_nrm. pose proof fh_err. pose proof gp3_num. pose proof (gp_1 3). pose proof th_pos. pose proof (nrm_pos N2 tr) as X0. fold nT in X0. assert ((gp 3 - 1) * (15133 / 10000 * nT + 64 * th) <= 2 / 10000000 * (15133 / 10000 * nT + 64 * th)) by (apply Rmult_le_compat_r; lra). lra.
Qed.
Lemma fh_big : nrm N (fun n => B2R (fh n)) <= bpow radix2 94.
Proof.
  pose proof fh_nrm. pose proof nT_big. pose proof th_small. apply Rle_trans with (bpow radix2 22); [change (bpow radix2 22) with 4194304; lra|apply bpow_le; lia].
Qed.
Definition line (k : Z) : f32 := fmul o (dct_val o h fl fh k) (mdct_gain o (2 * h)).
Theorem forward_err : (forall k, (0 <= k < nf c)%Z -> is_finite (line k) = true) /\
  nrm N (fun k => B2R (line k) - coef c w h T k) <= 27 / 1000000 * (nT + tt) /\ nrm N (fun k => B2R (line k)) <= 152 / 100 * (nT + tt) /\ nrm N (coef c w h T) <= 152 / 100 * (nT + tt).
Proof.
  pose proof eh as H. assert (Fh : forall t, (0 <= t < 2 * h)%Z -> is_finite (fh t) = true) by (intros t Ht; apply (fold_ap t); lia). pose proof fh_big as Bg. rewrite Hh in Bg.
  pose proof (sq_nrm lm h fl fh ltac:(lia) Ch Sm Ne Htw erho Fh Bg) as Q. pose proof (sd_line lm h fl fh ltac:(lia) Ch Sm Ne Htw erho Fh Bg) as Sl. fold line in Sl.
  pose proof fh_nrm as F1. pose proof fh_err as F2. pose proof fr_nrm as F3. pose proof gp3_num as G3. pose proof (gp_1 3) as G1. pose proof th_pos as T0. pose proof (nrm_pos N2 tr) as X0. fold nT in X0.
  destruct (sg_g h ltac:(lia)) as [Gg G2]. pose proof (sg_h h ltac:(lia)) as Sh.
  assert (E : forall k, coef c w h T k = dct4 (2 * h) fr k * g) by (intros k; unfold coef, gain; rewrite Hh; reflexivity).
  assert (GN : g * sqrt (2 * IZR (nf c)) = 1). { rewrite Hh. field. apply Rgt_not_eq, sqrt_lt_R0. rewrite <- mult_IZR. apply IZR_lt. lia. }
  assert (NC : nrm N (coef c w h T) <= 15133 / 10000 * nT + 64 * th).
  { rewrite (nrm_ext N _ (fun k => g * dct4 (nf c) fr k)) by (intros k _; rewrite E, Hh; ring). rewrite nrm_scale by lra. rewrite dct4_parseval by lia. rewrite <- Rmult_assoc, GN. lra. }
  assert (D1 : nrm N (fun k => B2R (line k) - coef c w h T k) <= eps_dct * (nrm N (fun n => B2R (fh n)) + tt) + nrm N (fun n => B2R (fh n) - fr n)).
  { eapply Rle_trans; [apply (nrm_sub N _ (sq lm h fl fh) (fun k => g * dct4 (nf c) (fun n => B2R (fh n) - fr n) k))|].
    - intros k Hk. rewrite E. destruct (Sl k ltac:(lia)) as [_ S2]. rewrite (Rabs_pos_eq (sq _ _ _ _ _)) by (apply sq_pos'; lia).
      replace (B2R (line k) - dct4 (2 * h) fr k * g) with ((B2R (line k) - dct4 (2 * h) (fun t => B2R (fh t)) k * g) + g * dct4 (nf c) (fun n => B2R (fh n) - fr n) k).
      + eapply Rle_trans; [apply Rabs_triang|]. apply Rplus_le_compat_r. exact S2.
      + rewrite Hh. unfold dct4. rewrite (rsum_ext _ (fun n => (B2R (fh n) - fr n) * _) (fun n => B2R (fh n) * cos (PI / IZR (2 * h) * (IZR n + / 2) * (IZR k + / 2)) + -1 * (fr n * cos (PI / IZR (2 * h) * (IZR n + / 2) * (IZR k + / 2))))) by (intros; ring).
        rewrite rsum_add, rsum_mul. ring.
    - apply Rplus_le_compat; [rewrite Hh; exact Q|]. rewrite nrm_scale by lra. rewrite dct4_parseval by lia. rewrite <- Rmult_assoc, GN. lra. }
  assert (D2 : (gp 3 - 1) * (15133 / 10000 * nT + 64 * th) <= 2 / 10000000 * (15133 / 10000 * nT + 64 * th)) by (apply Rmult_le_compat_r; lra).
  assert (D3 : nrm N (fun k => B2R (line k) - coef c w h T k) <= 27 / 1000000 * (nT + tt)) by (unfold eps_dct, tt in *; lra).
  split; [intros k Hk; apply Sl; lia|]. split; [exact D3|]. split; [|unfold tt; lra].
  eapply Rle_trans; [apply (nrm_sub N _ (coef c w h T) (fun k => B2R (line k) - coef c w h T k))|unfold tt in *; lra].
  intros k _. replace (B2R (line k)) with (coef c w h T k + (B2R (line k) - coef c w h T k)) at 1 by ring. apply Rabs_triang.
Qed.
End Forward.

(* ---- synthesis ---- *)
Definition tj (n : Z) : Z := if (n <? h)%Z then (h + n)%Z else if (n <? 3 * h)%Z then (3 * h - 1 - n)%Z else (n - 3 * h)%Z.
Lemma tj_rng n : (0 <= n < 4 * h)%Z -> (0 <= tj n < 2 * h)%Z.
Proof. unfold tj. destruct (Z.ltb_spec n h); [lia|]. destruct (Z.ltb_spec n (3 * h)); lia. Qed.
Lemma tda_tj {F} (p : ops F) u n : (0 <= n < 4 * h)%Z -> tda p h u n = if (n <? h)%Z then u (tj n) else fneg p (u (tj n)).
Proof.
  intros Hn. unfold tda, tj. destruct (Z.ltb_spec n h); [reflexivity|]. destruct (Z.ltb_spec n (2 * h)); [destruct (Z.ltb_spec n (3 * h)); [|lia]; do 2 f_equal; lia|]. destruct (Z.ltb_spec n (3 * h)); do 2 f_equal; lia.
Qed.
(* every coefficient is used twice *)
Lemma tj_nrm q : nrm N2 (fun n => q (tj n)) = sqrt 2 * nrm N q.
Proof.
  pose proof eh as He. unfold nrm. rewrite <- sqrt_mult by (try lra; apply rsum_pos; intros; apply sq_pos). f_equal. set (F := fun t => q t * q t). change (rsum N2 (fun t => q (tj t) * q (tj t))) with (rsum N2 (fun t => F (tj t))).
  set (H := Z.to_nat h). assert (Hz : Z.of_nat H = h) by (unfold H; lia). replace N2 with (H + (H + H) + H)%nat by lia. replace N with (H + H)%nat by lia. rewrite (rsum_split (H + (H + H))), (rsum_split H (H + H)). rewrite !Nat2Z.inj_add, Hz.
  rewrite (rsum_rev (H + H) (fun k => F (tj (h + k)))). rewrite Nat2Z.inj_add, Hz.
  rewrite (rsum_ext H (fun t => F (tj t)) (fun k => F (h + k)%Z)), (rsum_ext (H + H) (fun t => F (tj (h + (h + h - 1 - t)))) F), (rsum_ext H (fun t => F (tj (h + (h + h) + t))) F).
  - rewrite (rsum_split H H F), Hz. ring.
  - intros n Hn. rewrite Hz in Hn. f_equal. unfold tj. destruct (Z.ltb_spec (h + (h + h) + n) h); [lia|]. destruct (Z.ltb_spec (h + (h + h) + n) (3 * h)); lia.
  - intros n Hn. rewrite Nat2Z.inj_add, Hz in Hn. f_equal. unfold tj. destruct (Z.ltb_spec (h + (h + h - 1 - n)) h); [lia|]. destruct (Z.ltb_spec (h + (h + h - 1 - n)) (3 * h)); lia.
  - intros n Hn. rewrite Hz in Hn. f_equal. unfold tj. destruct (Z.ltb_spec n h); lia.
Qed.
Lemma synth_tj x n : (0 <= n < 4 * h)%Z -> tda_win R_ops h fl wf x n = (if (n <? h)%Z then dct4 (2 * h) x (tj n) else - dct4 (2 * h) x (tj n)) * g * win w (4 * h - 1 - n).
Proof.
  intros Hn. rewrite (synth_val c w L h fl Hh Ch Sm Ne x n) by lia. unfold gain. rewrite tda_tj by exact Hn. rewrite Hh. replace (2 * (2 * h) - 1 - n)%Z with (4 * h - 1 - n)%Z by lia. reflexivity.
Qed.
Lemma synth_nrm x y : nrm N2 (fun n => tda_win R_ops h fl wf x n - tda_win R_ops h fl wf y n) <= 15133 / 10000 * nrm N (fun k => x k - y k).
Proof.
  pose proof eh as He. destruct (sg_g h ltac:(lia)) as [Gg G2]. pose proof sqrt2_num as S2.
  assert (E : forall j, dct4 (2 * h) x j - dct4 (2 * h) y j = dct4 (nf c) (fun k => x k - y k) j).
  { intros j. rewrite Hh. unfold dct4. rewrite (rsum_ext _ (fun n => (x n - y n) * _) (fun n => x n * cos (PI / IZR (2 * h) * (IZR n + / 2) * (IZR j + / 2)) + -1 * (y n * cos (PI / IZR (2 * h) * (IZR n + / 2) * (IZR j + / 2))))) by (intros; ring). rewrite rsum_add, rsum_mul. ring. }
  assert (GN : g * sqrt (2 * IZR (nf c)) = 1). { rewrite Hh. field. apply Rgt_not_eq, sqrt_lt_R0. rewrite <- mult_IZR. apply IZR_lt. lia. }
  eapply Rle_trans; [apply (nrm_le N2 _ (fun n => 107 / 100 * (g * Rabs (dct4 (nf c) (fun k => x k - y k) (tj n)))))|].
  - intros n Hn. rewrite !synth_tj by lia. rewrite <- E. set (a := dct4 (2 * h) x (tj n)). set (b := dct4 (2 * h) y (tj n)). pose proof (win_abs c w L Ew (4 * h - 1 - n) ltac:(lia)) as Wb. set (v := win w (4 * h - 1 - n)) in *.
    replace ((if (n <? h)%Z then a else - a) * g * v - (if (n <? h)%Z then b else - b) * g * v) with (((if (n <? h)%Z then 1 else -1) * (a - b)) * g * v) by (destruct (n <? h)%Z; ring).
    rewrite !Rabs_mult, (Rabs_pos_eq g) by lra. replace (Rabs (if (n <? h)%Z then 1 else -1)) with 1 by (destruct (n <? h)%Z; [rewrite Rabs_R1|rewrite Rabs_left]; lra). rewrite Rmult_1_l, (Rmult_comm (107 / 100)), (Rmult_comm g). apply Rmult_le_compat_l; [|exact Wb]. apply Rmult_le_pos; [apply Rabs_pos|lra].
  - rewrite (tj_nrm (fun j => 107 / 100 * (g * Rabs (dct4 (nf c) (fun k => x k - y k) j)))). rewrite nrm_scale by lra. rewrite nrm_scale by lra.
    assert (A : nrm N (fun j => Rabs (dct4 (nf c) (fun k => x k - y k) j)) <= sqrt (2 * IZR (nf c)) * nrm N (fun k => x k - y k)). { rewrite <- dct4_parseval by lia. apply nrm_sub0. intros t _. rewrite Rabs_Rabsolu. apply Rle_refl. }
    pose proof (nrm_pos N (fun k => x k - y k)) as P. apply Rle_trans with (sqrt 2 * (107 / 100 * (g * (sqrt (2 * IZR (nf c)) * nrm N (fun k => x k - y k))))).
    + apply Rmult_le_compat_l; [lra|]. apply Rmult_le_compat_l; [lra|]. apply Rmult_le_compat_l; [lra|exact A].
    + rewrite <- (Rmult_assoc g), GN, Rmult_1_l, <- Rmult_assoc. apply Rmult_le_compat_r; [exact P|lra].
Qed.
Section Inverse.
Variable x : Z -> f32.
Hypothesis Fx : forall k, (0 <= k < nf c)%Z -> is_finite (x k) = true.
Let xr (k : Z) : R := B2R (x k).
Hypothesis HX : nrm N xr <= bpow radix2 94.
Theorem inverse_err : (forall n, (0 <= n < 2 * nf c)%Z -> is_finite (tda_win o h fl wf x n) = true) /\
  nrm N2 (fun n => B2R (tda_win o h fl wf x n) - tda_win R_ops h fl wf xr n) <= 26 / 1000000 * (nrm N xr + tt).
Proof.
  pose proof eh as He. rewrite Hh in Fx. assert (HX' : nrm (Z.to_nat (2 * h)) (fun t => B2R (x t)) <= bpow radix2 94) by (rewrite <- Hh; exact HX).
  assert (P : forall n, (0 <= n < 2 * nf c)%Z -> is_finite (tda_win o h fl wf x n) = true /\ Rabs (B2R (tda_win o h fl wf x n) - tda_win R_ops h fl wf xr n) <= 107 / 100 * sq lm h fl x (tj n)).
  { intros n Hn. rewrite synth_tj by lia. unfold tda_win. rewrite tda_tj by lia.
    apply (sd_out lm h fl x ltac:(lia) Ch Sm Ne Htw erho Fx HX' (tj n) (n <? h)%Z _ (wf (4 * h - 1 - n)%Z) (win w (4 * h - 1 - n))); [apply tj_rng; lia|destruct (n <? h)%Z; reflexivity|apply win_ap; lia]. }
  split; [intros n Hn; now apply P|]. eapply Rle_trans; [apply (nrm_le N2 _ (fun n => 107 / 100 * sq lm h fl x (tj n)))|].
  - intros n Hn. apply P. lia.
  - rewrite (tj_nrm (fun j => 107 / 100 * sq lm h fl x j)). rewrite nrm_scale by lra. pose proof (sq_nrm lm h fl x ltac:(lia) Ch Sm Ne Htw erho Fx HX') as Q. rewrite <- Hh in Q. fold xr in Q. change (nrm N (fun t => B2R (x t))) with (nrm N xr) in Q.
    pose proof sqrt2_num as S2. pose proof (nrm_pos N xr) as X0. pose proof th_pos as T0. pose proof (nrm_pos N (sq lm h fl x)) as Q0. assert (T1 : 0 < tt) by (unfold tt; lra).
    assert (sqrt 2 * (107 / 100 * nrm N (sq lm h fl x)) <= 141422 / 100000 * (107 / 100 * nrm N (sq lm h fl x))) by (apply Rmult_le_compat_r; lra). unfold eps_dct in Q. lra.
Qed.
End Inverse.

(* ---- one frame through both ---- *)
Section Block.
Variable T : Z -> Z.
Hypothesis HT : forall j, (0 <= j < 2 * nf c)%Z -> (Z.abs (T j) <= 32768)%Z.
Variables x p : Z -> f32.
Hypothesis Hx : forall k, (0 <= k < nf c)%Z -> x k = line T k.
Hypothesis Hp : forall k, (0 <= k < nf c)%Z -> is_finite (p k) = true /\ B2R (p k) = if (k <? ne c)%Z then B2R (x k) else 0.
Let nT : R := nrm N2 (fun j => IZR (T j)).
Let drop : R := nrm N (fun k => if (k <? ne c)%Z then 0 else B2R (x k)).
Theorem block_err : (forall n, (0 <= n < 2 * nf c)%Z -> is_finite (tda_win o h fl wf p n) = true) /\
  nrm N2 (fun n => B2R (tda_win o h fl wf p n) - alias c w T n) <= 81 / 1000000 * (nT + 2 * tt) + 1514 / 1000 * drop /\
  nrm N2 (alias c w T) <= 231 / 100 * (nT + tt) /\ nrm N2 (fun n => B2R (tda_win o h fl wf p n)) <= 232 / 100 * (nT + 2 * tt).
Proof.
  pose proof eh as He. destruct (forward_err T HT) as (F1 & F2 & F3 & F4). fold nT in F2, F3, F4. pose proof th_pos as T0. assert (T1 : 0 < tt) by (unfold tt; lra). pose proof (nrm_pos N2 (fun j => IZR (T j))) as X0. fold nT in X0.
  assert (Np : nrm N (fun k => B2R (p k)) <= 152 / 100 * (nT + tt)).
  { eapply Rle_trans; [|exact F3]. apply nrm_sub0. intros k Hk. destruct (Hp k ltac:(lia)) as [_ ->]. rewrite <- Hx by lia. destruct (k <? ne c)%Z; [apply Rle_refl|rewrite Rabs_R0; apply Rabs_pos]. }
  assert (Bp : nrm N (fun k => B2R (p k)) <= bpow radix2 94).
  { eapply Rle_trans; [exact Np|]. pose proof (nT_big T HT) as B. fold nT in B. assert (TS : tt <= 1) by (rewrite tt_bpow; change 1 with (bpow radix2 0); apply bpow_le; lia). apply Rle_trans with (bpow radix2 22); [change (bpow radix2 22) with 4194304; lra|apply bpow_le; lia]. }
  destruct (inverse_err p (fun k Hk => proj1 (Hp k Hk)) Bp) as [I1 I2].
  assert (Dp : nrm N (fun k => B2R (p k) - coef c w h T k) <= 27 / 1000000 * (nT + tt) + drop).
  { eapply Rle_trans; [apply (nrm_sub N _ (fun k => B2R (line T k) - coef c w h T k) (fun k => if (k <? ne c)%Z then 0 else B2R (x k)))|apply Rplus_le_compat; [exact F2|apply Rle_refl]].
    intros k Hk. destruct (Hp k ltac:(lia)) as [_ ->]. rewrite <- Hx by lia. destruct (k <? ne c)%Z; [rewrite Rabs_R0; lra|].
    replace (0 - coef c w h T k) with ((B2R (x k) - coef c w h T k) + - B2R (x k)) by ring. eapply Rle_trans; [apply Rabs_triang|]. rewrite Rabs_Ropp. apply Rle_refl. }
  pose proof (synth_nrm (fun k => B2R (p k)) (coef c w h T)) as Sn.
  assert (A : nrm N2 (fun n => B2R (tda_win o h fl wf p n) - alias c w T n) <= 81 / 1000000 * (nT + 2 * tt) + 1514 / 1000 * drop).
  { pose proof (nrm_pos N (fun k => if (k <? ne c)%Z then 0 else B2R (x k))) as D0. fold drop in D0.
    eapply Rle_trans; [apply (nrm_sub N2 _ (fun n => B2R (tda_win o h fl wf p n) - tda_win R_ops h fl wf (fun k => B2R (p k)) n) (fun n => tda_win R_ops h fl wf (fun k => B2R (p k)) n - tda_win R_ops h fl wf (coef c w h T) n))|lra].
    intros n Hn. rewrite <- (synth_full c w L h fl Hh Ch Sm Ne T n) by lia. eapply Rle_trans; [|apply Rabs_triang]. right. f_equal. ring. }
  split; [exact I1|]. split; [exact A|]. split.
  - pose proof (synth_nrm (coef c w h T) (fun _ => 0)) as S0. cbv beta in S0. rewrite (nrm_ext N (fun k => coef c w h T k - 0) (coef c w h T)) in S0 by (intros; ring).
    rewrite (nrm_ext N2 (fun n => tda_win R_ops h fl wf (coef c w h T) n - tda_win R_ops h fl wf (fun _ => 0) n) (alias c w T)) in S0; [lra|].
    intros n Hn. rewrite (synth_full c w L h fl Hh Ch Sm Ne T n) by lia. rewrite synth_tj by lia. assert (Z0 : dct4 (2 * h) (fun _ => 0) (tj n) = 0) by (unfold dct4; rewrite rsum_zero; [ring|intros; ring]). rewrite Z0. destruct (n <? h)%Z; ring.
  - pose proof (synth_nrm (fun k => B2R (p k)) (fun _ => 0)) as S0. cbv beta in S0. rewrite (nrm_ext N (fun k => B2R (p k) - 0) (fun k => B2R (p k))) in S0 by (intros; ring).
    eapply Rle_trans; [apply (nrm_sub N2 _ (fun n => B2R (tda_win o h fl wf p n) - tda_win R_ops h fl wf (fun k => B2R (p k)) n) (fun n => tda_win R_ops h fl wf (fun k => B2R (p k)) n - tda_win R_ops h fl wf (fun _ => 0) n))|lra].
    intros n Hn. rewrite (synth_tj (fun _ => 0)) by lia. assert (Z0 : dct4 (2 * h) (fun _ => 0) (tj n) = 0) by (unfold dct4; rewrite rsum_zero; [ring|intros; ring]). rewrite Z0.
    eapply Rle_trans; [|apply Rabs_triang]. right. f_equal. destruct (n <? h)%Z; ring.
Qed.
End Block.
End Err.
