(* Rounding errors of the transform in binary32: all stages, in the Euclidean norm. *)
From Coq Require Import ZArith List Bool Lia Reals Lra.
From Coquelicot Require Import Complex.
From Flocq Require Import Core BinarySingleNaN.
From Verif Require Import Base FftFactor FactorProofs Loops Scalar Fft DecTotal DecState FftSpec RealOps Dft DctSpec Dct4Inv Norm2 F32 F32Round F32Lines F32Err FftErr.
From Coq Require Import List.
Import ListNotations.
Local Open Scope R_scope.

Definition cB (z : f32 * f32) : C := (B2R (fst z), B2R (snd z)).
Definition cfin (z : f32 * f32) : Prop := is_finite (fst z) = true /\ is_finite (snd z) = true.
Definition phi : R := 2 * th.
Lemma phi_pos : 0 < phi. Proof. unfold phi. pose proof th_pos. lra. Qed.

(* one step of the decimation in time *)
Lemma dft_step N p m fstride (x : Z -> C) k i : (0 < N)%Z -> (0 < p)%Z -> (0 < m)%Z -> (1 <= fstride)%Z -> (fstride * (p * m) = N)%Z -> (0 <= k < p)%Z -> (0 <= i < m)%Z ->
  dft (p * m) x (k * m + i) = dft p (fun q => Cmult (dft m (fun t => x (q + t * p)%Z) i) (W N (i * (q * fstride)))) k.
Proof.
  intros HN Hp Hm Hs Ht Hk Hi. unfold dft at 1 2. rewrite Z2Nat.inj_mul, csum_split by lia. apply csum_ext. intros q Hq. rewrite Z2Nat.id in Hq by lia. rewrite Z2Nat.id by lia.
  unfold dft. rewrite <- Cmult_assoc, Cmult_comm. rewrite <- csum_mul. apply csum_ext. intros t Ht'. rewrite Z2Nat.id in Ht' by lia.
  replace ((k * m + i) * (q + t * p))%Z with ((k * m + i) * q + p * ((k * m + i) * t))%Z by ring. rewrite W_add.
  assert (X1 : W (p * m) (p * ((k * m + i) * t)) = W m (i * t)). { rewrite W_scale by lia. replace ((k * m + i) * t)%Z with (m * (k * t) + i * t)%Z by ring. rewrite W_add, W_period by lia. now rewrite Cmult_1_l. }
  assert (X2 : W (p * m) ((k * m + i) * q) = Cmult (W N (i * (q * fstride))) (W p (k * q))).
  { replace ((k * m + i) * q)%Z with (i * q + m * (k * q))%Z by ring. rewrite W_add. f_equal.
    - replace (i * (q * fstride))%Z with (fstride * (i * q))%Z by ring. rewrite <- Ht. symmetry. apply W_scale; nia.
    - replace (p * m)%Z with (m * p)%Z by ring. apply W_scale; lia. }
  rewrite X1, X2. cring.
Qed.
Lemma W_mod n k : Cmod (W n k) = 1.
Proof.
  unfold W, Cmod. cbn [fst snd]. set (a := - (2 * PI * IZR k / IZR n)). replace (cos a ^ 2 + sin a ^ 2) with 1; [apply sqrt_1|]. pose proof (sin2_cos2 a) as H. unfold Rsqr in H. cbn [pow]. lra.
Qed.
Lemma Cmod_two z M : Rabs (fst z) <= M -> Rabs (snd z) <= M -> Cmod z <= sqrt 2 * M.
Proof.
  intros H1 H2. eapply Rle_trans; [apply Cmod_2Rmax|]. apply Rmult_le_compat_l; [apply sqrt_pos|]. now apply Rmax_lub.
Qed.
Lemma l1_Cmod z : Rabs (fst z) + Rabs (snd z) <= sqrt 2 * Cmod z.
Proof.
  pose proof (Rabs_pos (fst z)) as A. pose proof (Rabs_pos (snd z)) as B. rewrite <- (sqrt_square (Rabs (fst z) + Rabs (snd z))) by lra. unfold Cmod. rewrite <- sqrt_mult; [|lra|apply Rplus_le_le_0_compat; apply pow2_ge_0].
  apply sqrt_le_1_alt. rewrite <- (pow2_abs (fst z)), <- (pow2_abs (snd z)). pose proof (sq_pos (Rabs (fst z) - Rabs (snd z))). cbn [pow]. lra.
Qed.
Lemma sqrt2_sq : sqrt 2 * sqrt 2 = 2. Proof. apply sqrt_sqrt. lra. Qed.
Lemma sqrt2_le : 1 <= sqrt 2 <= 2.
Proof. split; [rewrite <- sqrt_1; apply sqrt_le_1_alt; lra|]. rewrite <- (sqrt_square 2) at 2 by lra. apply sqrt_le_1_alt. lra. Qed.
Lemma sqrtn_ge n : (1 <= n)%Z -> 1 <= sqrt (IZR n).
Proof. intros H. rewrite <- sqrt_1. apply sqrt_le_1_alt. apply IZR_le. exact H. Qed.

(* relative error of the stages, first factor outermost *)
Definition lam (p : Z) : R := 2 * sqrt (IZR p) * bf_f p * (gp (bf_k p) - 1).
Fixpoint rho (fl : list Z) : R := match fl with p :: _ :: r => (1 + rho r) * (1 + lam p) - 1 | _ => 0 end.
Lemma bf_f_pos p : 1 <= bf_f p. Proof. unfold bf_f. destruct (p =? 2)%Z, (p =? 3)%Z, (p =? 4)%Z; lra. Qed.
Lemma lam_pos p : 0 <= lam p.
Proof. unfold lam. pose proof (sqrt_pos (IZR p)). pose proof (bf_f_pos p). pose proof (gp_1 (bf_k p)). assert (0 <= 2 * sqrt (IZR p) * bf_f p) by (apply Rmult_le_pos; lra). apply Rmult_le_pos; lra. Qed.
Lemma rho_pos : forall k fl, (length fl <= 2 * k)%nat -> 0 <= rho fl.
Proof.
  induction k as [|k IH]; intros [|p [|m r]] L; cbn [length rho] in *; try lra; try lia. specialize (IH r ltac:(lia)). pose proof (lam_pos p). nra.
Qed.

(* errors of one stage *)
Section Stage.
Variables (lm : libm) (N p m fstride : Z) (tw : Z -> f32 * f32) (x : Z -> C) (yh : Z -> Z -> f32 * f32) (r : R).
Hypotheses (HN : (0 < N)%Z) (Hp : (2 <= p <= 5)%Z) (Hm : (0 < m)%Z) (Hs : (1 <= fstride)%Z) (Ht : (fstride * (p * m) = N)%Z).
Hypothesis Htw : forall i, (0 <= i < N)%Z -> apc 2 1 (tw i) (W N i).
Let X (q t : Z) : C := x (q + t * p)%Z.
Hypothesis Hfin : forall q i, (0 <= q < p)%Z -> (0 <= i < m)%Z -> cfin (yh q i).
Hypothesis Herr : forall q, (0 <= q < p)%Z ->
  nrm (Z.to_nat m) (fun i => Cmod (Cminus (cB (yh q i)) (dft m (X q) i))) <= r * sqrt (IZR m) * (nrm (Z.to_nat m) (fun t => Cmod (X q t)) + sqrt (IZR m) * phi).
Hypothesis Hr : 0 <= r <= 1.
Let n : Z := (p * m)%Z.
Let Y : R := nrm (Z.to_nat n) (fun t => Cmod (x t)) + sqrt (IZR n) * phi.
Hypothesis Hbig : 8 * sqrt (IZR n) * Y <= big.
Local Notation P := (Z.to_nat p).
Local Notation M := (Z.to_nat m).
Let out (k i : Z) : f32 * f32 := bf (f32_ops lm) p (fun q => yh q i) (fun q => tw (i * (q * fstride))) (fun q => tw (q * (fstride * m))) k.

Lemma stage_sq : sqrt (IZR n) = sqrt (IZR p) * sqrt (IZR m).
Proof. unfold n. rewrite mult_IZR. apply sqrt_mult; apply IZR_le; lia. Qed.
Lemma stage_np : INR P = IZR p. Proof. rewrite INR_IZR_INZ, Z2Nat.id by lia. reflexivity. Qed.
Lemma stage_nm : INR M = IZR m. Proof. rewrite INR_IZR_INZ, Z2Nat.id by lia. reflexivity. Qed.
Lemma stage_xx : nrm P (fun q => nrm M (fun t => Cmod (X q t))) = nrm (Z.to_nat n) (fun t => Cmod (x t)).
Proof. unfold n. rewrite Z2Nat.inj_mul, nrm_interleaved by lia. apply nrm_ext. intros q Hq. apply nrm_ext. intros t Ht'. unfold X. rewrite Z2Nat.id by lia. reflexivity. Qed.
Let del (q i : Z) : R := Cmod (Cminus (cB (yh q i)) (dft m (X q) i)).
Lemma stage_D : nrm P (fun q => nrm M (fun i => del q i)) <= r * sqrt (IZR m) * Y.
Proof.
  pose proof (sqrt_pos (IZR m)) as Sm. pose proof phi_pos as Ph.
  eapply Rle_trans; [apply (nrm_le P _ (fun q => r * sqrt (IZR m) * (nrm M (fun t => Cmod (X q t)) + sqrt (IZR m) * phi)))|].
  { intros q Hq. rewrite Rabs_pos_eq by apply nrm_pos. apply Herr. lia. }
  rewrite (nrm_scale P (r * sqrt (IZR m)) (fun q => nrm M (fun t => Cmod (X q t)) + sqrt (IZR m) * phi)) by (apply Rmult_le_pos; lra).
  apply Rmult_le_compat_l; [apply Rmult_le_pos; lra|]. unfold Y. rewrite <- stage_xx, stage_sq. eapply Rle_trans; [apply nrm_tri|]. apply Rplus_le_compat_l.
  rewrite nrm_const by (apply Rmult_le_pos; lra). rewrite stage_np. lra.
Qed.
Lemma stage_H : nrm M (fun i => nrm P (fun q => Cmod (cB (yh q i)) + phi)) <= (1 + r) * sqrt (IZR m) * Y.
Proof.
  pose proof (sqrt_pos (IZR m)) as Sm. pose proof phi_pos as Ph. rewrite <- (nrm_swap P M (fun q i => Cmod (cB (yh q i)) + phi)).
  assert (A1 : nrm P (fun q => nrm M (fun i => Cmod (cB (yh q i)) + phi)) <= nrm P (fun q => sqrt (IZR m) * nrm M (fun t => Cmod (X q t)) + (nrm M (fun i => del q i) + sqrt (IZR m) * phi))).
  { apply nrm_le. intros q Hq. rewrite Rabs_pos_eq by apply nrm_pos. rewrite Z2Nat.id in Hq by lia.
    eapply Rle_trans; [apply (nrm_le M _ (fun i => Cmod (dft m (X q) i) + (del q i + phi)))|].
    - intros i Hi. rewrite Rabs_pos_eq by (pose proof (Cmod_ge_0 (cB (yh q i))); lra). unfold del. rewrite <- Rplus_assoc. apply Rplus_le_compat_r.
      replace (cB (yh q i)) with (Cplus (dft m (X q) i) (Cminus (cB (yh q i)) (dft m (X q) i))) at 1; [apply Cmod_triangle|]. generalize (cB (yh q i)) (dft m (X q) i). intros a b. ring.
    - eapply Rle_trans; [apply nrm_tri|]. rewrite parseval by lia. apply Rplus_le_compat_l. eapply Rle_trans; [apply nrm_tri|]. apply Rplus_le_compat_l. rewrite nrm_const by lra. rewrite stage_nm. lra. }
  eapply Rle_trans; [exact A1|]. eapply Rle_trans; [apply nrm_tri|]. rewrite nrm_scale by exact Sm. rewrite stage_xx.
  eapply Rle_trans; [apply Rplus_le_compat_l, nrm_tri|]. rewrite nrm_const by (apply Rmult_le_pos; lra). rewrite stage_np. pose proof stage_D as D. pose proof stage_sq as Sq.
  assert (E : sqrt (IZR p) * (sqrt (IZR m) * phi) <= sqrt (IZR m) * (sqrt (IZR n) * phi)).
  { rewrite Sq. pose proof (sqrtn_ge m ltac:(lia)) as G. pose proof (sqrt_pos (IZR p)) as Sp. assert (0 <= sqrt (IZR p) * sqrt (IZR m) * phi) by (apply Rmult_le_pos; [apply Rmult_le_pos; lra|lra]). assert (0 <= (sqrt (IZR m) - 1) * (sqrt (IZR p) * sqrt (IZR m) * phi)) by (apply Rmult_le_pos; lra). lra. }
  unfold Y in *. set (xx := nrm _ (fun t => Cmod (x t))) in *. nra.
Qed.
Lemma stage_local i : (0 <= i < m)%Z -> rsum P (fun q => (Rabs (fst (cB (yh q i))) + th) + (Rabs (snd (cB (yh q i))) + th)) <= sqrt 2 * rsum P (fun q => Cmod (cB (yh q i)) + phi).
Proof.
  intros Hi. rewrite <- rsum_mul. apply rsum_le. intros q Hq. pose proof (l1_Cmod (cB (yh q i))). pose proof sqrt2_le. unfold phi. pose proof th_pos. assert (0 <= (sqrt 2 - 1) * th) by (apply Rmult_le_pos; lra). lra.
Qed.
Lemma stage_sum i : (0 <= i < m)%Z -> rsum P (fun q => Cmod (cB (yh q i)) + phi) <= sqrt (IZR p) * nrm P (fun q => Cmod (cB (yh q i)) + phi).
Proof.
  intros Hi. rewrite (rsum_ext P _ (fun q => Rabs (Cmod (cB (yh q i)) + phi))). 2:{ intros q _. rewrite Rabs_pos_eq; [reflexivity|]. pose proof (Cmod_ge_0 (cB (yh q i))). pose proof phi_pos. lra. }
  eapply Rle_trans; [apply nrm_sum|]. rewrite stage_np. lra.
Qed.
Lemma stage_out k i : (0 <= k < p)%Z -> (0 <= i < m)%Z -> cfin (out k i) /\
  Cmod (Cminus (cB (out k i)) (dft p (fun q => Cmult (cB (yh q i)) (W N (i * (q * fstride)))) k)) <= 2 * bf_f p * (gp (bf_k p) - 1) * (sqrt (IZR p) * nrm P (fun q => Cmod (cB (yh q i)) + phi)).
Proof.
  intros Hk Hi. pose proof (stage_local i Hi) as L1. pose proof (stage_sum i Hi) as L2. pose proof sqrt2_le as S2. pose proof (sqrt_pos (IZR p)) as Sp.
  set (s := rsum P (fun q => (Rabs (fst (cB (yh q i))) + th) + (Rabs (snd (cB (yh q i))) + th))) in *. set (h := nrm P (fun q => Cmod (cB (yh q i)) + phi)) in *. set (g := rsum P (fun q => Cmod (cB (yh q i)) + phi)) in *.
  assert (Bg : 2 * s <= big).
  { eapply Rle_trans; [|exact Hbig]. assert (h <= (1 + r) * sqrt (IZR m) * Y). { eapply Rle_trans; [|apply stage_H]. unfold h. rewrite <- (Rabs_pos_eq (nrm P (fun q => Cmod (cB (yh q i)) + phi))) by apply nrm_pos. apply (nrm_get M (fun i => nrm P (fun q => Cmod (cB (yh q i)) + phi)) i). lia. }
    assert (HY : 0 <= Y) by (unfold Y; pose proof (nrm_pos (Z.to_nat n) (fun t => Cmod (x t))); pose proof (sqrt_pos (IZR n)); pose proof phi_pos; nra).
    assert (s <= 2 * (sqrt (IZR p) * h)). { eapply Rle_trans; [exact L1|]. apply Rmult_le_compat; try lra. unfold g. apply rsum_pos. intros q _. pose proof (Cmod_ge_0 (cB (yh q i))). pose proof phi_pos. lra. }
    assert (sqrt (IZR p) * h <= sqrt (IZR p) * (2 * sqrt (IZR m) * Y)). { apply Rmult_le_compat_l; [exact Sp|]. eapply Rle_trans; [exact H|]. apply Rmult_le_compat_r; [exact HY|]. apply Rmult_le_compat_r; [apply sqrt_pos|lra]. }
    rewrite stage_sq. lra. }
  pose proof (bf_ap lm (fun q => yh q i) (fun q => tw (i * (q * fstride))) (fun q => tw (q * (fstride * m))) (fun q => cB (yh q i)) (fun q => W N (i * (q * fstride))) (fun q => W N (q * (fstride * m)))
    (fun q => Rabs (fst (cB (yh q i))) + th) (fun q => Rabs (snd (cB (yh q i))) + th) p k Hp Hk) as A.
  destruct A as [A1 A2].
  { intros q Hq. destruct (Hfin q i Hq Hi) as [F1 F2]. split; apply ap_exact; assumption. }
  { intros q Hq. apply Htw. rewrite <- Ht. clear - Hi Hq Hs Hp. assert (0 <= i * q < p * m)%Z by nia. nia. }
  { intros q Hq. apply Htw. rewrite <- Ht. clear - Hq Hs Hp Hm. assert (0 <= q * m < p * m)%Z by nia. nia. }
  { exact Bg. }
  rewrite bf_dft in A1, A2; [|exact Hp|exact Hk| | |exact Hp|exact Hk| |].
  2,4: replace (i * (0 * fstride))%Z with 0%Z by ring; apply W_0.
  2,3: intros q Hq; replace (q * (fstride * m))%Z with (fstride * m * q)%Z by ring; replace N with (fstride * m * p)%Z by lia; apply W_scale; nia.
  fold (out k i) in A1, A2. fold s in A1, A2.
  assert (E : dft p (fun q => Cmult (cB (yh q i)) (W N (i * (q * fstride)))) k = csum (Z.to_nat p) (fun q => Cmult (Cmult (cB (yh q i)) (W N (i * (q * fstride)))) (W p (q * k)))).
  { unfold dft. apply csum_ext. intros q Hq. now rewrite (Z.mul_comm k q). }
  rewrite E. destruct A1 as (F1 & E1 & _). destruct A2 as (F2 & E2 & _). split; [split; assumption|].
  eapply Rle_trans; [apply (Cmod_two _ ((gp (bf_k p) - 1) * (bf_f p * s)))|].
  { unfold Cminus, Cplus, Copp, cB. cbn [fst snd]. exact E1. } { unfold Cminus, Cplus, Copp, cB. cbn [fst snd]. exact E2. }
  pose proof (gp_1 (bf_k p)) as G1. pose proof (bf_f_pos p) as G2. pose proof sqrt2_sq as S3.
  assert (G3 : sqrt 2 * s <= 2 * (sqrt (IZR p) * h)).
  { apply Rle_trans with (sqrt 2 * (sqrt 2 * g)); [apply Rmult_le_compat_l; lra|]. rewrite <- Rmult_assoc, S3. lra. }
  replace (sqrt 2 * ((gp (bf_k p) - 1) * (bf_f p * s))) with ((bf_f p * (gp (bf_k p) - 1)) * (sqrt 2 * s)) by ring.
  replace (2 * bf_f p * (gp (bf_k p) - 1) * (sqrt (IZR p) * h)) with ((bf_f p * (gp (bf_k p) - 1)) * (2 * (sqrt (IZR p) * h))) by ring.
  apply Rmult_le_compat_l; [apply Rmult_le_pos; lra|exact G3].
Qed.
Theorem stage_err : nrm P (fun k => nrm M (fun i => Cmod (Cminus (cB (out k i)) (dft n x (k * m + i))))) <= ((1 + r) * (1 + lam p) - 1) * sqrt (IZR n) * Y.
Proof.
  set (c := 2 * bf_f p * (gp (bf_k p) - 1)). pose proof (gp_1 (bf_k p)) as G1. pose proof (bf_f_pos p) as G2. pose proof (sqrt_pos (IZR p)) as Sp. assert (C0 : 0 <= c) by (unfold c; nra).
  rewrite (nrm_swap P M (fun k i => Cmod (Cminus (cB (out k i)) (dft n x (k * m + i))))).
  eapply Rle_trans; [apply (nrm_le M _ (fun i => c * IZR p * nrm P (fun q => Cmod (cB (yh q i)) + phi) + sqrt (IZR p) * nrm P (fun q => del q i)))|].
  - intros i Hi. rewrite Z2Nat.id in Hi by lia. rewrite Rabs_pos_eq by apply nrm_pos.
    eapply Rle_trans; [apply (nrm_le P _ (fun k => c * (sqrt (IZR p) * nrm P (fun q => Cmod (cB (yh q i)) + phi)) + Cmod (dft p (fun q => Cmult (Cminus (cB (yh q i)) (dft m (X q) i)) (W N (i * (q * fstride)))) k)))|].
    + intros k Hk. rewrite Z2Nat.id in Hk by lia. rewrite Rabs_pos_eq by apply Cmod_ge_0. destruct (stage_out k i Hk Hi) as [_ S1]. fold c in S1.
      unfold n. rewrite (dft_step N p m fstride x k i) by (try assumption; lia). fold X.
      set (a := cB (out k i)) in *. set (b := dft p (fun q => Cmult (cB (yh q i)) (W N (i * (q * fstride)))) k) in *.
      assert (E : dft p (fun q => Cmult (Cminus (cB (yh q i)) (dft m (X q) i)) (W N (i * (q * fstride)))) k = Cminus b (dft p (fun q => Cmult (dft m (X q) i) (W N (i * (q * fstride)))) k)).
      { unfold b. rewrite <- dft_sub. unfold dft at 1 3. apply csum_ext. intros q Hq. f_equal. unfold Cminus. ring. }
      rewrite E. set (d := dft p (fun q => Cmult (dft m (X q) i) (W N (i * (q * fstride)))) k). change (dft p (fun q => Cmult (dft m (fun t => x (q + t * p)%Z) i) (W N (i * (q * fstride)))) k) with d.
      replace (Cminus a d) with (Cplus (Cminus a b) (Cminus b d)) by ring. eapply Rle_trans; [apply Cmod_triangle|]. lra.
    + eapply Rle_trans; [apply nrm_tri|]. rewrite nrm_const, stage_np.
      2:{ apply Rmult_le_pos; [exact C0|]. apply Rmult_le_pos; [exact Sp|apply nrm_pos]. }
      rewrite parseval by lia. apply Rplus_le_compat.
      * pose proof (sqrt_sqrt (IZR p) ltac:(apply IZR_le; lia)) as Q. set (h := nrm P _). set (sp := sqrt (IZR p)) in *. clearbody h sp. rewrite <- Q. right. ring.
      * apply Rmult_le_compat_l; [exact Sp|]. apply nrm_le. intros q _. rewrite Rabs_pos_eq by apply Cmod_ge_0. rewrite Cmod_mult, W_mod, Rmult_1_r. apply Rle_refl.
  - eapply Rle_trans; [apply nrm_tri|]. rewrite !nrm_scale; [|exact Sp|apply Rmult_le_pos; [exact C0|apply IZR_le; lia]].
    pose proof stage_H as H1. pose proof stage_D as H2. rewrite (nrm_swap P M del) in H2.
    assert (K1 : c * IZR p * nrm M (fun i => nrm P (fun q => Cmod (cB (yh q i)) + phi)) <= c * IZR p * ((1 + r) * sqrt (IZR m) * Y)) by (apply Rmult_le_compat_l; [apply Rmult_le_pos; [exact C0|apply IZR_le; lia]|exact H1]).
    assert (K2 : sqrt (IZR p) * nrm M (fun i => nrm P (fun q => del q i)) <= sqrt (IZR p) * (r * sqrt (IZR m) * Y)) by (apply Rmult_le_compat_l; assumption).
    eapply Rle_trans; [apply Rplus_le_compat; eassumption|]. rewrite stage_sq. unfold lam. pose proof (sqrt_sqrt (IZR p) ltac:(apply IZR_le; lia)) as Q. unfold c. set (sp := sqrt (IZR p)) in *. clearbody sp. rewrite <- Q. right. ring.
Qed.
End Stage.

Section Run.
Variables (lm : libm) (N : Z) (tw : Z -> f32 * f32).
Hypothesis HN : (0 < N)%Z.
Hypothesis Htw : forall i, (0 <= i < N)%Z -> apc 2 1 (tw i) (W N i).
Local Notation o := (f32_ops lm).
Theorem fft_err : forall k fl n, (length fl <= 2 * k)%nat -> chain n fl -> small_factors fl -> fl <> [] -> forall fstride (x : Z -> f32 * f32), (1 <= fstride)%Z -> (fstride * n = N)%Z ->
  (forall t, (0 <= t < n)%Z -> cfin (x t)) -> rho fl <= 1 -> 8 * sqrt (IZR n) * (nrm (Z.to_nat n) (fun t => Cmod (cB (x t))) + sqrt (IZR n) * phi) <= big ->
  (forall j, (0 <= j < n)%Z -> cfin (fft_val o tw fl fstride x j)) /\
  nrm (Z.to_nat n) (fun j => Cmod (Cminus (cB (fft_val o tw fl fstride x j)) (dft n (fun t => cB (x t)) j))) <= rho fl * sqrt (IZR n) * (nrm (Z.to_nat n) (fun t => Cmod (cB (x t))) + sqrt (IZR n) * phi).
Proof.
  induction k as [|k IH]; intros [|p [|m r]] n L Ch S Ne fstride x Hs Ht Fx Hr Hb; cbn [chain length] in *; try lia; try tauto.
  destruct Ch as (E & _ & Hm & Ch). inversion S as [|? ? Hp S']; subst n. cbn [rho] in Hr |- *. pose proof (rho_pos k r ltac:(lia)) as R0. pose proof (lam_pos p) as L0.
  assert (R1 : 0 <= rho r <= 1) by (split; [exact R0|nra]).
  set (yh := fun q i => if (m =? 1)%Z then x q else fft_val o tw r (fstride * p) (fun t => x (q + t * p)%Z) i).
  assert (SUB : forall q, (0 <= q < p)%Z -> (forall i, (0 <= i < m)%Z -> cfin (yh q i)) /\
    nrm (Z.to_nat m) (fun i => Cmod (Cminus (cB (yh q i)) (dft m (fun t => cB (x (q + t * p)%Z)) i))) <= rho r * sqrt (IZR m) * (nrm (Z.to_nat m) (fun t => Cmod (cB (x (q + t * p)%Z))) + sqrt (IZR m) * phi)).
  { intros q Hq. unfold yh. destruct (Z.eqb_spec m 1) as [->|Nm].
    - split; [intros i Hi; apply Fx; lia|]. apply Rle_trans with 0.
      + right. rewrite (nrm_ext _ _ (fun _ => 0)). { rewrite nrm_const by lra. ring. } intros i Hi. change (Z.of_nat (Z.to_nat 1)) with 1%Z in Hi. assert (i = 0)%Z by lia. subst i.
        unfold dft. change (Z.to_nat 1) with 1%nat. cbn [csum]. change (Z.of_nat 0) with 0%Z. rewrite Z.mul_0_l, W_0. rewrite Z.add_0_r.
        assert (E0 : Cminus (cB (x q)) (Cplus (RtoC 0) (Cmult (cB (x q)) (RtoC 1))) = RtoC 0) by ring. etransitivity; [exact (f_equal Cmod E0)|apply Cmod_0].
      + pose proof (nrm_pos (Z.to_nat 1) (fun t => Cmod (cB (x (q + t * p)%Z)))). pose proof (sqrt_pos 1). pose proof phi_pos. apply Rmult_le_pos; [apply Rmult_le_pos; lra|]. nra.
    - apply (IH r m); auto; try lia; try nia.
      + destruct r; [cbn [chain] in Ch; lia|discriminate].
      + intros t Ht'. apply Fx. nia.
      + lra.
      + eapply Rle_trans; [|exact Hb]. rewrite !Rmult_assoc. apply Rmult_le_compat_l; [lra|].
        assert (Q : sqrt (IZR m) <= sqrt (IZR (p * m))) by (apply sqrt_le_1_alt, IZR_le; nia). pose proof (sqrt_pos (IZR m)). pose proof phi_pos. pose proof (nrm_pos (Z.to_nat m) (fun t => Cmod (cB (x (q + t * p)%Z)))) as Np.
        assert (N1 : nrm (Z.to_nat m) (fun t => Cmod (cB (x (q + t * p)%Z))) <= nrm (Z.to_nat (p * m)) (fun t => Cmod (cB (x t)))).
        { rewrite Z2Nat.inj_mul, nrm_interleaved by lia. rewrite Z2Nat.id by lia. rewrite <- (Rabs_pos_eq (nrm (Z.to_nat m) _)) by exact Np. apply (nrm_get (Z.to_nat p) (fun q => nrm (Z.to_nat m) (fun t => Cmod (cB (x (q + t * p)%Z)))) q). lia. }
        apply Rmult_le_compat; try lra; [nra|]. apply Rplus_le_compat; [exact N1|]. apply Rmult_le_compat_r; lra. }
  assert (F1 : forall q i, (0 <= q < p)%Z -> (0 <= i < m)%Z -> cfin (yh q i)) by (intros q i Hq Hi; now apply (SUB q Hq)).
  assert (F2 : forall q, (0 <= q < p)%Z -> nrm (Z.to_nat m) (fun i => Cmod (Cminus (cB (yh q i)) (dft m (fun t => cB (x (q + t * p)%Z)) i))) <= rho r * sqrt (IZR m) * (nrm (Z.to_nat m) (fun t => Cmod (cB (x (q + t * p)%Z))) + sqrt (IZR m) * phi)) by (intros q Hq; now apply (SUB q Hq)).
  split.
  - intros j Hj. pose proof (Z.div_mod j m ltac:(lia)) as D. pose proof (Z.mod_pos_bound j m ltac:(lia)) as D2.
    assert (D3 : (0 <= j / m < p)%Z) by (split; [apply Z.div_pos; lia|apply Z.div_lt_upper_bound; lia]).
    exact (proj1 (stage_out lm N p m fstride tw (fun t => cB (x t)) yh (rho r) Hp ltac:(lia) Hs Ht Htw F1 F2 R1 Hb (j / m)%Z (j mod m)%Z D3 D2)).
  - rewrite Z2Nat.inj_mul at 1 by lia. rewrite nrm_groups.
    eapply Rle_trans; [|exact (stage_err lm N p m fstride tw (fun t => cB (x t)) yh (rho r) HN Hp ltac:(lia) Hs Ht Htw F1 F2 R1 Hb)].
    right. apply nrm_ext. intros q Hq. apply nrm_ext. intros i Hi. rewrite Z2Nat.id in * by lia. do 3 f_equal. cbn [fft_val].
    replace ((q * m + i) mod m)%Z with i by (rewrite Z.add_comm, Z.mod_add, Z.mod_small by lia; reflexivity). replace ((q * m + i) / m)%Z with q by (rewrite Z.div_add_l, Z.div_small by lia; lia). reflexivity.
Qed.
End Run.
