(* Rounding errors of the DCT-IV in binary32. *)
From Coq Require Import ZArith List Bool Lia Reals Lra.
From Coquelicot Require Import Complex.
From Flocq Require Import Core BinarySingleNaN.
From Verif Require Import Base FftFactor FactorProofs Loops Scalar Fft DecTotal DecState FftSpec RealOps Dft DctSpec Dct4Inv Norm2 F32 F32Round F32Lines F32Err FftErr FftErrRun.
From Coq Require Import List.
Import ListNotations.
Local Open Scope R_scope.

(* the library's sine and cosine are within 2^-23 for the twiddle factors of a transform of n points *)
Definition near (w : f32) (c : R) : Prop := is_finite w = true /\ Rabs (B2R w - c) <= bpow radix2 (-23).
Definition near2 (w : f32 * f32) (c : C) : Prop := near (fst w) (fst c) /\ near (snd w) (snd c).
Definition twiddles_near (lm : libm) (n : Z) : Prop := forall i, (0 <= i < n)%Z -> near2 (lm_tw lm n i) (ftw R_ops n i) /\ near2 (lm_tw4 lm n i) (ftw4 R_ops n i).
Lemma near_ap w c : near w c -> Rabs c <= 1 -> ap 2 1 w c.
Proof. intros [F H] C. apply ap_tw; [exact F| |exact C]. eapply Rle_trans; [exact H|]. unfold uu. cbn. lra. Qed.
Lemma near2_ap t w : near2 w (cos t, sin t) -> apc 2 1 w (cos t, sin t).
Proof. intros [A B]. cbn [fst snd] in *. split; cbn [fst snd]; (apply near_ap; [assumption|]); apply Rabs_le; [apply COS_bound|apply SIN_bound]. Qed.

Definition cc : R := 2 * (gp 4 - 1).
Lemma cc_pos : 0 <= cc <= / 1000.
Proof. unfold cc. pose proof (gp_1 4). pose proof (gp_lin 4 ltac:(lia)) as H1. cbn [INR] in H1. assert (vv < 6 / 100000000) by (unfold vv, uu; lra). lra. Qed.
Lemma rot_err lm tw c z : apc 2 1 tw c -> cfin z -> 4 * (Cmod (cB z) + phi) <= big -> cfin (cmul (f32_ops lm) tw z) /\ Cmod (Cminus (cB (cmul (f32_ops lm) tw z)) (Cmult c (cB z))) <= cc * (Cmod (cB z) + phi).
Proof.
  intros [T1 T2] [F1 F2] Hb. pose proof (ap_exact _ F1) as Z1. pose proof (ap_exact _ F2) as Z2. pose proof th_pos as T0. pose proof (l1_Cmod (cB z)) as L1. pose proof sqrt2_le as S2. pose proof sqrt2_sq as S3. pose proof (Cmod_ge_0 (cB z)) as C0.
  pose proof (Rabs_pos (B2R (fst z))) as A1. pose proof (Rabs_pos (B2R (snd z))) as A2. cbn [cB fst snd] in L1.
  set (a := Rabs (B2R (fst z))) in *. set (b := Rabs (B2R (snd z))) in *. set (m := Cmod (cB z)) in *. unfold phi in *.
  assert (Q1 : sqrt 2 * m <= 2 * m) by (apply Rmult_le_compat_r; lra). assert (Q2 : sqrt 2 * th <= 2 * th) by (apply Rmult_le_compat_r; lra).
  assert (A : apc 4 (a + th + (b + th)) (cmul (f32_ops lm) tw z) (cmul R_ops c (cB z))).
  { unfold apc, cmul. cbn [fst snd f32_ops R_ops fadd fsub fmul cB]. split; (eapply ap_weaken; [ap_go|cbn; lia|lra]). }
  destruct A as [(G1 & E1 & _) (G2 & E2 & _)]. split; [split; assumption|].
  eapply Rle_trans; [apply (Cmod_two _ ((gp 4 - 1) * (a + th + (b + th))))|].
  { change (Cmult c (cB z)) with (cmul R_ops c (cB z)). unfold Cminus, Cplus, Copp, cB. cbn [fst snd]. exact E1. } { change (Cmult c (cB z)) with (cmul R_ops c (cB z)). unfold Cminus, Cplus, Copp, cB. cbn [fst snd]. exact E2. }
  unfold cc. pose proof (gp_1 4) as G. replace (sqrt 2 * ((gp 4 - 1) * (a + th + (b + th)))) with ((gp 4 - 1) * (sqrt 2 * (a + b) + 2 * (sqrt 2 * th))) by ring.
  replace (2 * (gp 4 - 1) * (m + 2 * th)) with ((gp 4 - 1) * (2 * m + 4 * th)) by ring. apply Rmult_le_compat_l; [lra|].
  assert (sqrt 2 * (a + b) <= sqrt 2 * (sqrt 2 * m)) by (apply Rmult_le_compat_l; lra). rewrite <- Rmult_assoc, S3 in H. lra.
Qed.
Lemma pairs_nrm h (f : Z -> R) (g : Z -> C) : (forall n, (0 <= n < Z.of_nat h)%Z -> Rabs (f (2 * n)%Z) = Rabs (fst (g n)) /\ Rabs (f (2 * Z.of_nat h - (2 * n + 1))%Z) = Rabs (snd (g n))) -> nrm (2 * h) f = nrm h (fun n => Cmod (g n)).
Proof.
  intros H. unfold nrm. f_equal. rewrite rsum_pairs. apply rsum_ext. intros n Hn. rewrite Cmod_sq. destruct (H n Hn) as [A B].
  assert (Q : forall u v, Rabs u = Rabs v -> u * u = v * v) by (intros u v E; apply Rsqr_eq_asb_1; exact E). now rewrite (Q _ _ A), (Q _ _ B).
Qed.

Section Dct.
Variables (lm : libm) (h : Z) (fl : list Z) (x : Z -> f32).
Local Notation o := (f32_ops lm).
Hypotheses (Hh : (1 <= h)%Z) (Ch : chain h fl) (S : small_factors fl) (Ne : fl <> []) (Htw : twiddles_near lm h).
Hypothesis Fx : forall t, (0 <= t < 2 * h)%Z -> is_finite (x t) = true.
Hypothesis Hrho : rho fl <= / 2.
Let xr (t : Z) : R := B2R (x t).
Let X : R := nrm (Z.to_nat (2 * h)) xr.
Let Y : R := X + sqrt (IZR h) * phi.
Hypothesis Hbig : 64 * sqrt (IZR h) * Y <= big.
Local Notation H := (Z.to_nat h).
Let z (n : Z) : f32 * f32 := (x (2 * n)%Z, x (2 * h - (2 * n + 1))%Z).
Let zr (n : Z) : C := (xr (2 * n)%Z, xr (2 * h - (2 * n + 1))%Z).
Lemma dz n : cB (z n) = zr n. Proof. reflexivity. Qed.
Lemma dX : nrm H (fun n => Cmod (zr n)) = X.
Proof. unfold X. rewrite Z2Nat.inj_mul by lia. change (Z.to_nat 2) with 2%nat. symmetry. apply pairs_nrm. intros n Hn. unfold zr. cbn [fst snd]. rewrite Z2Nat.id by lia. split; reflexivity. Qed.
Lemma dnh : INR H = IZR h. Proof. rewrite INR_IZR_INZ, Z2Nat.id by lia. reflexivity. Qed.
Lemma dsh : 1 <= sqrt (IZR h). Proof. apply sqrtn_ge. exact Hh. Qed.
Lemma dX0 : 0 <= X. Proof. apply nrm_pos. Qed.
Lemma dY0 : 0 <= Y. Proof. unfold Y. pose proof dX0. pose proof dsh. pose proof phi_pos. nra. Qed.
Lemma dtw n : (0 <= n < h)%Z -> apc 2 1 (lm_tw4 lm h n) (ftw4 R_ops h n) /\ Cmod (ftw4 R_ops h n) = 1.
Proof.
  intros Hn. destruct (Htw n Hn) as [_ A]. cbn [R_ops ftw4] in *. split; [apply near2_ap; exact A|]. unfold Cmod. cbn [fst snd]. set (a := - _).
  replace (cos a ^ 2 + sin a ^ 2) with 1; [apply sqrt_1|]. pose proof (sin2_cos2 a) as Q. unfold Rsqr in Q. cbn [pow]. lra.
Qed.
Lemma d_bnd n : (0 <= n < h)%Z -> Cmod (zr n) <= X.
Proof. intros Hn. rewrite <- dX. rewrite <- (Rabs_pos_eq (Cmod (zr n))) by apply Cmod_ge_0. apply (nrm_get H (fun n => Cmod (zr n)) n). lia. Qed.
Lemma d_pY : X + phi <= Y. Proof. unfold Y. pose proof dsh. pose proof phi_pos. nra. Qed.
Lemma d_bY : 64 * Y <= big. Proof. eapply Rle_trans; [|exact Hbig]. pose proof dsh. pose proof dY0. nra. Qed.

(* first rotation *)
Lemma d_in : (forall n, (0 <= n < h)%Z -> cfin (dct_in o h x n)) /\ nrm H (fun n => Cmod (Cminus (cB (dct_in o h x n)) (dct_in R_ops h xr n))) <= cc * Y.
Proof.
  pose proof cc_pos as C0. assert (R : forall n, (0 <= n < h)%Z -> cfin (dct_in o h x n) /\ Cmod (Cminus (cB (dct_in o h x n)) (dct_in R_ops h xr n)) <= cc * (Cmod (zr n) + phi)).
  { intros n Hn. destruct (dtw n Hn) as [T _]. apply (rot_err lm (lm_tw4 lm h n) (ftw4 R_ops h n) (z n) T); [split; apply Fx; lia|].
    rewrite dz. pose proof (d_bnd n Hn). pose proof d_pY. pose proof d_bY. pose proof dY0. lra. }
  split; [intros n Hn; apply R, Hn|]. eapply Rle_trans; [apply (nrm_le H _ (fun n => cc * (Cmod (zr n) + phi)))|].
  - intros n Hn. rewrite Rabs_pos_eq by apply Cmod_ge_0. apply R. lia.
  - rewrite nrm_scale by lra. apply Rmult_le_compat_l; [lra|]. eapply Rle_trans; [apply nrm_tri|]. rewrite dX, nrm_const, dnh by (pose proof phi_pos; lra). apply Rle_refl.
Qed.
Lemma dct_in_R_nrm : nrm H (fun n => Cmod (dct_in R_ops h xr n)) = X.
Proof. rewrite <- dX. apply nrm_ext. intros n Hn. unfold dct_in. change (cmul R_ops) with Cmult. rewrite Cmod_mult. destruct (dtw n ltac:(lia)) as [_ ->]. rewrite Rmult_1_l. reflexivity. Qed.
Lemma d_in_nrm : nrm H (fun n => Cmod (cB (dct_in o h x n))) + sqrt (IZR h) * phi <= (1 + cc) * Y.
Proof.
  destruct d_in as [_ D]. assert (A : nrm H (fun n => Cmod (cB (dct_in o h x n))) <= X + cc * Y).
  { eapply Rle_trans; [apply (nrm_sub H _ (fun n => Cmod (dct_in R_ops h xr n)) (fun n => Cmod (Cminus (cB (dct_in o h x n)) (dct_in R_ops h xr n))))|rewrite dct_in_R_nrm; lra].
    intros n Hn. rewrite !Rabs_pos_eq by apply Cmod_ge_0. eapply Rle_trans; [|apply Cmod_triangle]. right. f_equal. generalize (cB (dct_in o h x n)) (dct_in R_ops h xr n). intros a b. ring. }
  unfold Y in *. lra.
Qed.
(* the transform *)
Lemma dct_mid_R n : (0 <= n < h)%Z -> dct_mid R_ops h fl xr n = dft h (dct_in R_ops h xr) n.
Proof.
  intros Hn. unfold dct_mid. rewrite (fft_val_tw _ (W h) h) with (k := length fl) (n := h); auto; try lia; [|intros; now apply fft_twiddles_W]. apply (fft_val_dft h) with (k := length fl); auto; lia.
Qed.
Lemma fft_twiddles_get i : (0 <= i < h)%Z -> getz (d0 o) (fft_twiddles o h) i = lm_tw lm h i.
Proof.
  intros Hi. unfold getz, fft_twiddles. rewrite (nth_indep _ _ (ftw o h (Z.of_nat 0))) by (rewrite map_length, seq_length; lia).
  rewrite (map_nth (fun i => ftw o h (Z.of_nat i)) (seq 0 (Z.to_nat h)) 0%nat). rewrite seq_nth by lia. rewrite Nat.add_0_l, Z2Nat.id by lia. reflexivity.
Qed.
Let mu : R := (1 + rho fl) * (1 + cc) - 1.
Lemma mu_pos : 0 <= mu <= 1.
Proof. unfold mu. pose proof (rho_pos (length fl) fl ltac:(lia)). pose proof cc_pos. split; nra. Qed.
Lemma d_mid : (forall n, (0 <= n < h)%Z -> cfin (dct_mid o h fl x n)) /\ nrm H (fun n => Cmod (Cminus (cB (dct_mid o h fl x n)) (dct_mid R_ops h fl xr n))) <= mu * sqrt (IZR h) * Y.
Proof.
  destruct d_in as [Fi Di]. pose proof d_in_nrm as Ni. pose proof cc_pos as C0. pose proof dsh as Sh. pose proof dY0 as Y0. pose proof (rho_pos (length fl) fl ltac:(lia)) as R0.
  destruct (fft_err lm h (getz (d0 o) (fft_twiddles o h)) ltac:(lia)) with (k := length fl) (fl := fl) (n := h) (fstride := 1%Z) (x := dct_in o h x) as [F E]; auto; try lia; try lra.
  { intros i Hi. rewrite fft_twiddles_get by exact Hi. destruct (Htw i Hi) as [A _]. apply near2_ap. exact A. }
  { eapply Rle_trans; [|exact Hbig]. apply Rle_trans with (8 * sqrt (IZR h) * ((1 + cc) * Y)); [apply Rmult_le_compat_l; lra|]. assert (0 <= sqrt (IZR h) * Y) by (apply Rmult_le_pos; lra). nra. }
  split; [exact F|].
  eapply Rle_trans; [apply (nrm_sub H _ (fun j => Cmod (Cminus (cB (fft_val o (getz (d0 o) (fft_twiddles o h)) fl 1 (dct_in o h x) j)) (dft h (fun t => cB (dct_in o h x t)) j))) (fun j => Cmod (dft h (fun t => Cminus (cB (dct_in o h x t)) (dct_in R_ops h xr t)) j)))|].
  { intros n Hn. rewrite !Rabs_pos_eq by apply Cmod_ge_0. rewrite dct_mid_R by lia. rewrite dft_sub. eapply Rle_trans; [|apply Cmod_triangle]. right. f_equal. unfold dct_mid.
    generalize (cB (fft_val o (getz (d0 o) (fft_twiddles o h)) fl 1 (dct_in o h x) n)) (dft h (fun t => cB (dct_in o h x t)) n) (dft h (dct_in R_ops h xr) n). intros a b c. ring. }
  rewrite parseval by lia. assert (K1 : rho fl * sqrt (IZR h) * (nrm H (fun t => Cmod (cB (dct_in o h x t))) + sqrt (IZR h) * phi) <= rho fl * sqrt (IZR h) * ((1 + cc) * Y)) by (apply Rmult_le_compat_l; [apply Rmult_le_pos; lra|exact Ni]).
  assert (K2 : sqrt (IZR h) * nrm H (fun n => Cmod (Cminus (cB (dct_in o h x n)) (dct_in R_ops h xr n))) <= sqrt (IZR h) * (cc * Y)) by (apply Rmult_le_compat_l; lra).
  unfold mu. lra.
Qed.
Lemma dct_mid_R_nrm : nrm H (fun n => Cmod (dct_mid R_ops h fl xr n)) = sqrt (IZR h) * X.
Proof. rewrite (nrm_ext H _ (fun n => Cmod (dft h (dct_in R_ops h xr) n))); [rewrite parseval by lia; now rewrite dct_in_R_nrm|]. intros n Hn. rewrite dct_mid_R by lia. reflexivity. Qed.
Lemma d_mid_nrm : nrm H (fun n => Cmod (cB (dct_mid o h fl x n))) + sqrt (IZR h) * phi <= (1 + mu) * sqrt (IZR h) * Y.
Proof.
  destruct d_mid as [_ D]. pose proof dsh as Sh. pose proof phi_pos as Ph. assert (A : nrm H (fun n => Cmod (cB (dct_mid o h fl x n))) <= sqrt (IZR h) * X + mu * sqrt (IZR h) * Y).
  { eapply Rle_trans; [apply (nrm_sub H _ (fun n => Cmod (dct_mid R_ops h fl xr n)) (fun n => Cmod (Cminus (cB (dct_mid o h fl x n)) (dct_mid R_ops h fl xr n))))|rewrite dct_mid_R_nrm; lra].
    intros n Hn. rewrite !Rabs_pos_eq by apply Cmod_ge_0. eapply Rle_trans; [|apply Cmod_triangle]. right. f_equal. generalize (cB (dct_mid o h fl x n)) (dct_mid R_ops h fl xr n). intros a b. ring. }
  assert (sqrt (IZR h) * phi <= sqrt (IZR h) * (sqrt (IZR h) * phi)) by (apply Rmult_le_compat_l; nra). unfold Y in *. lra.
Qed.
(* second rotation *)
Let nu : R := (1 + mu) * (1 + cc) - 1.
Lemma nu_pos : 0 <= nu <= 3 / 2.
Proof. unfold nu. pose proof mu_pos. pose proof cc_pos. split; nra. Qed.
Lemma d_out : (forall n, (0 <= n < h)%Z -> cfin (dct_out o h fl x n)) /\ nrm H (fun n => Cmod (Cminus (cB (dct_out o h fl x n)) (dct_out R_ops h fl xr n))) <= nu * sqrt (IZR h) * Y.
Proof.
  destruct d_mid as [Fm Dm]. pose proof d_mid_nrm as Nm. pose proof cc_pos as C0. pose proof dsh as Sh. pose proof dY0 as Y0. pose proof mu_pos as M0. pose proof phi_pos as Ph.
  assert (R : forall n, (0 <= n < h)%Z -> cfin (dct_out o h fl x n) /\ Cmod (Cminus (cB (dct_out o h fl x n)) (Cmult (ftw4 R_ops h n) (cB (dct_mid o h fl x n)))) <= cc * (Cmod (cB (dct_mid o h fl x n)) + phi)).
  { intros n Hn. destruct (dtw n Hn) as [T _]. apply (rot_err lm (lm_tw4 lm h n) (ftw4 R_ops h n) (dct_mid o h fl x n) T); [now apply Fm|].
    assert (B : Cmod (cB (dct_mid o h fl x n)) <= nrm H (fun n => Cmod (cB (dct_mid o h fl x n)))). { rewrite <- (Rabs_pos_eq (Cmod (cB (dct_mid o h fl x n)))) by apply Cmod_ge_0. apply (nrm_get H (fun n => Cmod (cB (dct_mid o h fl x n))) n). lia. }
    eapply Rle_trans; [|exact Hbig]. assert (0 <= sqrt (IZR h) * Y) by (apply Rmult_le_pos; lra). assert (phi <= sqrt (IZR h) * phi) by nra. assert ((1 + mu) * sqrt (IZR h) * Y <= 2 * (sqrt (IZR h) * Y)) by nra. lra. }
  split; [intros n Hn; apply R, Hn|].
  eapply Rle_trans; [apply (nrm_sub H _ (fun n => cc * (Cmod (cB (dct_mid o h fl x n)) + phi)) (fun n => Cmod (Cminus (cB (dct_mid o h fl x n)) (dct_mid R_ops h fl xr n))))|].
  { intros n Hn. destruct (R n ltac:(lia)) as [_ E]. rewrite !Rabs_pos_eq; try apply Cmod_ge_0. 2:{ eapply Rle_trans; [apply Cmod_ge_0|exact E]. }
    replace (Cminus (cB (dct_out o h fl x n)) (dct_out R_ops h fl xr n)) with (Cplus (Cminus (cB (dct_out o h fl x n)) (Cmult (ftw4 R_ops h n) (cB (dct_mid o h fl x n)))) (Cmult (ftw4 R_ops h n) (Cminus (cB (dct_mid o h fl x n)) (dct_mid R_ops h fl xr n)))).
    - eapply Rle_trans; [apply Cmod_triangle|]. rewrite Cmod_mult. destruct (dtw n ltac:(lia)) as [_ ->]. lra.
    - unfold dct_out at 3. change (cmul R_ops) with Cmult. generalize (cB (dct_out o h fl x n)) (cB (dct_mid o h fl x n)) (dct_mid R_ops h fl xr n) (ftw4 R_ops h n). intros a b c d. cring. }
  rewrite nrm_scale by lra.
  assert (K : nrm H (fun n => Cmod (cB (dct_mid o h fl x n)) + phi) <= (1 + mu) * sqrt (IZR h) * Y). { eapply Rle_trans; [apply nrm_tri|]. rewrite nrm_const, dnh by lra. exact Nm. }
  assert (K2 : cc * nrm H (fun n => Cmod (cB (dct_mid o h fl x n)) + phi) <= cc * ((1 + mu) * sqrt (IZR h) * Y)) by (apply Rmult_le_compat_l; lra). unfold nu. lra.
Qed.
Lemma d_out_nrm : nrm H (fun n => Cmod (cB (dct_out o h fl x n))) + sqrt (IZR h) * phi <= (1 + nu) * sqrt (IZR h) * Y.
Proof.
  destruct d_out as [_ D]. pose proof dsh as Sh. pose proof phi_pos as Ph. assert (A : nrm H (fun n => Cmod (cB (dct_out o h fl x n))) <= sqrt (IZR h) * X + nu * sqrt (IZR h) * Y).
  { eapply Rle_trans; [apply (nrm_sub H _ (fun n => Cmod (dct_mid R_ops h fl xr n)) (fun n => Cmod (Cminus (cB (dct_out o h fl x n)) (dct_out R_ops h fl xr n))))|rewrite dct_mid_R_nrm; lra].
    intros n Hn. rewrite !Rabs_pos_eq by apply Cmod_ge_0. assert (E : Cmod (dct_mid R_ops h fl xr n) = Cmod (dct_out R_ops h fl xr n)).
    { unfold dct_out. change (cmul R_ops) with Cmult. rewrite Cmod_mult. destruct (dtw n ltac:(lia)) as [_ ->]. now rewrite Rmult_1_l. }
    rewrite E. eapply Rle_trans; [|apply Cmod_triangle]. right. f_equal. generalize (cB (dct_out o h fl x n)) (dct_out R_ops h fl xr n). intros a b. ring. }
  assert (sqrt (IZR h) * phi <= sqrt (IZR h) * (sqrt (IZR h) * phi)) by (apply Rmult_le_compat_l; nra). unfold Y in *. lra.
Qed.
(* doubling *)
Lemma two_ap : ap 0 2 (f32_of_Z 2) 2.
Proof. destruct (fz_val 2 ltac:(lia)) as [V F]. apply ap_const; [exact F|exact V|rewrite Rabs_pos_eq; lra|pose proof th_small; lra]. Qed.
Lemma double_err (v : f32) : is_finite v = true -> 4 * (Rabs (B2R v) + phi) <= big -> is_finite (Bmult mode_NE v (f32_of_Z 2)) = true /\ Rabs (B2R (Bmult mode_NE v (f32_of_Z 2)) - B2R v * 2) <= 2 * vv * (Rabs (B2R v) + th).
Proof.
  intros F B. pose proof th_pos as T0. unfold phi in B. pose proof (Rabs_pos (B2R v)) as V0. destruct (ap_mult 0 (Rabs (B2R v) + th) 0 2 v (f32_of_Z 2) (B2R v) 2 (ap_exact v F) two_ap ltac:(lia) ltac:(lra) ltac:(lra)) as (G & E & _).
  split; [exact G|]. eapply Rle_trans; [exact E|]. change (0 + 0 + 1)%nat with 1%nat. unfold gp. cbn [pow]. right. ring.
Qed.
Definition dct_eps (fl : list Z) : R := (1 + vv) * (1 + cc) * (1 + cc) * (1 + rho fl) - 1.
Theorem dct_err : (forall j, (0 <= j < 2 * h)%Z -> is_finite (dct_val o h fl x j) = true) /\
  nrm (Z.to_nat (2 * h)) (fun j => B2R (dct_val o h fl x j) - dct4 (2 * h) xr j) <= dct_eps fl * (2 * sqrt (IZR h)) * Y.
Proof.
  destruct d_out as [Fo Do]. pose proof d_out_nrm as No. pose proof dsh as Sh. pose proof dY0 as Y0. pose proof nu_pos as M0. pose proof phi_pos as Ph. pose proof th_pos as T0. pose proof vv_pos as V0. pose proof uu_pos as U0.
  assert (Bd : forall n, (0 <= n < h)%Z -> 4 * (Cmod (cB (dct_out o h fl x n)) + phi) <= big).
  { intros n Hn. assert (B : Cmod (cB (dct_out o h fl x n)) <= nrm H (fun n => Cmod (cB (dct_out o h fl x n)))). { rewrite <- (Rabs_pos_eq (Cmod (cB (dct_out o h fl x n)))) by apply Cmod_ge_0. apply (nrm_get H (fun n => Cmod (cB (dct_out o h fl x n))) n). lia. }
    eapply Rle_trans; [|exact Hbig]. assert (0 <= sqrt (IZR h) * Y) by (apply Rmult_le_pos; lra). assert (phi <= sqrt (IZR h) * phi) by nra. assert ((1 + nu) * sqrt (IZR h) * Y <= 3 * (sqrt (IZR h) * Y)) by nra. lra. }
  assert (C1 : forall w : C, Rabs (fst w) <= Cmod w /\ Rabs (snd w) <= Cmod w). { intros w. pose proof (Rmax_Cmod w) as M. split; eapply Rle_trans; try exact M; [apply Rmax_l|apply Rmax_r]. }
  assert (Ev : forall n, (0 <= n < h)%Z -> dct_val o h fl x (2 * n) = Bmult mode_NE (fst (dct_out o h fl x n)) (f32_of_Z 2)).
  { intros n Hn. unfold dct_val. rewrite even_2n. replace (2 * n / 2)%Z with n by (rewrite Z.mul_comm, Z.div_mul; lia). reflexivity. }
  assert (Od : forall n, (0 <= n < h)%Z -> dct_val o h fl x (2 * h - (2 * n + 1)) = Bmult mode_NE (Bopp (snd (dct_out o h fl x n))) (f32_of_Z 2)).
  { intros n Hn. unfold dct_val. rewrite odd_end. replace ((2 * h - 1 - (2 * h - (2 * n + 1))) / 2)%Z with n by (replace (2 * h - 1 - (2 * h - (2 * n + 1)))%Z with (n * 2)%Z by ring; now rewrite Z.div_mul). reflexivity. }
  assert (EvR : forall n, (0 <= n < h)%Z -> dct4 (2 * h) xr (2 * n) = fst (dct_out R_ops h fl xr n) * 2).
  { intros n Hn. rewrite <- (dct_val_dct4 h fl xr (2 * n)) by (auto; lia). unfold dct_val. rewrite even_2n. replace (2 * n / 2)%Z with n by (rewrite Z.mul_comm, Z.div_mul; lia). reflexivity. }
  assert (OdR : forall n, (0 <= n < h)%Z -> dct4 (2 * h) xr (2 * h - (2 * n + 1)) = - snd (dct_out R_ops h fl xr n) * 2).
  { intros n Hn. rewrite <- (dct_val_dct4 h fl xr (2 * h - (2 * n + 1))) by (auto; lia). unfold dct_val. rewrite odd_end. replace ((2 * h - 1 - (2 * h - (2 * n + 1))) / 2)%Z with n by (replace (2 * h - 1 - (2 * h - (2 * n + 1)))%Z with (n * 2)%Z by ring; now rewrite Z.div_mul). reflexivity. }
  assert (D1 : forall n, (0 <= n < h)%Z -> is_finite (Bmult mode_NE (fst (dct_out o h fl x n)) (f32_of_Z 2)) = true /\ Rabs (B2R (Bmult mode_NE (fst (dct_out o h fl x n)) (f32_of_Z 2)) - B2R (fst (dct_out o h fl x n)) * 2) <= 2 * vv * (Rabs (B2R (fst (dct_out o h fl x n))) + th)).
  { intros n Hn. apply double_err; [apply Fo, Hn|]. specialize (Bd n Hn). pose proof (proj1 (C1 (cB (dct_out o h fl x n)))) as Q. cbn [cB fst] in Q. lra. }
  assert (D2 : forall n, (0 <= n < h)%Z -> is_finite (Bmult mode_NE (Bopp (snd (dct_out o h fl x n))) (f32_of_Z 2)) = true /\ Rabs (B2R (Bmult mode_NE (Bopp (snd (dct_out o h fl x n))) (f32_of_Z 2)) - - B2R (snd (dct_out o h fl x n)) * 2) <= 2 * vv * (Rabs (B2R (snd (dct_out o h fl x n))) + th)).
  { intros n Hn. destruct (double_err (Bopp (snd (dct_out o h fl x n)))) as [G1 G2].
    - rewrite is_finite_Bopp. apply Fo, Hn.
    - rewrite B2R_Bopp, Rabs_Ropp. specialize (Bd n Hn). pose proof (proj2 (C1 (cB (dct_out o h fl x n)))) as Q. cbn [cB snd] in Q. lra.
    - rewrite B2R_Bopp, Rabs_Ropp in G2. split; assumption. }
  assert (Cases : forall j, (0 <= j < 2 * h)%Z -> exists n, (0 <= n < h)%Z /\ (j = 2 * n \/ j = 2 * h - (2 * n + 1))%Z).
  { intros j Hj. destruct (Z.even j) eqn:E.
    - apply Z.even_spec in E as (k & ->). exists k. lia.
    - assert (O1 : Z.odd j = true) by (rewrite <- Z.negb_even, E; reflexivity). apply Z.odd_spec in O1 as (k & ->). exists (h - 1 - k)%Z. lia. }
  split. { intros j Hj. destruct (Cases j Hj) as (n & Hn & [-> | ->]); [rewrite Ev by exact Hn; apply D1, Hn|rewrite Od by exact Hn; apply D2, Hn]. }
  rewrite Z2Nat.inj_mul by lia. change (Z.to_nat 2) with 2%nat.
  rewrite (pairs_nrm H _ (fun n => (B2R (dct_val o h fl x (2 * n)) - dct4 (2 * h) xr (2 * n), B2R (dct_val o h fl x (2 * h - (2 * n + 1))) - dct4 (2 * h) xr (2 * h - (2 * n + 1))))).
  2:{ intros n Hn. rewrite Z2Nat.id by lia. cbn [fst snd]. split; reflexivity. }
  (* split off the doubling *)
  set (e := fun n => (B2R (Bmult mode_NE (fst (dct_out o h fl x n)) (f32_of_Z 2)) - B2R (fst (dct_out o h fl x n)) * 2, B2R (Bmult mode_NE (Bopp (snd (dct_out o h fl x n))) (f32_of_Z 2)) - - B2R (snd (dct_out o h fl x n)) * 2) : C).
  eapply Rle_trans; [apply (nrm_sub H _ (fun n => Cmod (e n)) (fun n => 2 * Cmod (Cminus (cB (dct_out o h fl x n)) (dct_out R_ops h fl xr n))))|].
  { intros n Hn. rewrite Z2Nat.id in Hn by lia. rewrite !Rabs_pos_eq; try apply Cmod_ge_0. 2:{ pose proof (Cmod_ge_0 (Cminus (cB (dct_out o h fl x n)) (dct_out R_ops h fl xr n))). lra. }
    rewrite Ev, Od, EvR, OdR by exact Hn. set (p := dct_out o h fl x n). set (q := dct_out R_ops h fl xr n).
    set (d := (2 * (B2R (fst p) - fst q), - (2 * (B2R (snd p) - snd q))) : C).
    assert (Ed : Cmod d = 2 * Cmod (Cminus (cB p) q)).
    { rewrite <- (sqrt_square (Cmod d)) by apply Cmod_ge_0. rewrite <- (sqrt_square (2 * Cmod (Cminus (cB p) q))) by (pose proof (Cmod_ge_0 (Cminus (cB p) q)); lra). f_equal.
      replace (2 * Cmod (Cminus (cB p) q) * (2 * Cmod (Cminus (cB p) q))) with (4 * (Cmod (Cminus (cB p) q) * Cmod (Cminus (cB p) q))) by ring. rewrite !Cmod_sq. unfold d, Cminus, Cplus, Copp, cB. cbn [fst snd]. ring. }
    rewrite <- Ed. eapply Rle_trans; [|apply Cmod_triangle]. right. f_equal. unfold e, d, Cplus. cbn [fst snd]. fold p. apply injective_projections; cbn [fst snd]; ring. }
  rewrite nrm_scale by lra.
  assert (K1 : nrm H (fun n => Cmod (e n)) <= 2 * vv * ((1 + nu) * sqrt (IZR h) * Y)).
  { eapply Rle_trans; [|apply Rmult_le_compat_l; [lra|exact No]].
    eapply Rle_trans; [apply (nrm_le H _ (fun n => 2 * vv * (Cmod (cB (dct_out o h fl x n)) + phi)))|].
    - intros n Hn. rewrite Z2Nat.id in Hn by lia. rewrite Rabs_pos_eq by apply Cmod_ge_0. destruct (D1 n Hn) as [_ A1]. destruct (D2 n Hn) as [_ A2].
      set (p := dct_out o h fl x n) in *. pose proof sqrt2_le as S2.
      assert (M1 : Cmod (e n) <= Cmod (2 * vv * (Rabs (B2R (fst p)) + th), 2 * vv * (Rabs (B2R (snd p)) + th))).
      { rewrite <- (sqrt_square (Cmod (e n))), <- (sqrt_square (Cmod (2 * vv * _, _))) by apply Cmod_ge_0. apply sqrt_le_1_alt. rewrite !Cmod_sq. unfold e. fold p. cbn [fst snd].
        apply Rplus_le_compat; apply Rsqr_le_abs_1; eapply Rle_trans; try eassumption; apply Rle_abs. }
      eapply Rle_trans; [exact M1|].
      replace (2 * vv * (Rabs (B2R (fst p)) + th), 2 * vv * (Rabs (B2R (snd p)) + th)) with (Cmult (RtoC (2 * vv)) (Cplus (Rabs (B2R (fst p)), Rabs (B2R (snd p))) (th, th))) by (unfold Cmult, Cplus, RtoC; cbn [fst snd]; f_equal; ring).
      rewrite Cmod_mult, Cmod_R, Rabs_pos_eq by lra. apply Rmult_le_compat_l; [lra|]. eapply Rle_trans; [apply Cmod_triangle|]. apply Rplus_le_compat.
      + right. unfold Cmod, cB. cbn [fst snd]. now rewrite !pow2_abs.
      + eapply Rle_trans; [apply (Cmod_two _ th); cbn [fst snd]; rewrite Rabs_pos_eq; lra|]. unfold phi. nra.
    - rewrite nrm_scale by lra. apply Rmult_le_compat_l; [lra|]. eapply Rle_trans; [apply nrm_tri|]. rewrite nrm_const, dnh by lra. apply Rle_refl. }
  unfold dct_eps. replace ((1 + vv) * (1 + cc) * (1 + cc) * (1 + rho fl) - 1) with ((1 + vv) * (1 + nu) - 1) by (unfold nu, mu; ring). lra.
Qed.
End Dct.
