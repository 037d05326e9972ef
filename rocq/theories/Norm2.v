(* Euclidean norms of finite sequences, and that the discrete Fourier transform scales them by the root of its length. *)
From Coq Require Import ZArith List Bool Lia Reals Lra.
From Coquelicot Require Import Complex.
From Verif Require Import Base FftFactor FactorProofs Loops Scalar Fft DecTotal DecState FftSpec RealOps Dft DctSpec Dct4Inv MdctFormula PitchRun.
Import ListNotations.
Local Open Scope R_scope.

Definition nrm (n : nat) (f : Z -> R) : R := sqrt (rsum n (fun t => f t * f t)).

Lemma sq_pos x : 0 <= x * x. Proof. apply Rle_0_sqr. Qed.
Lemma rsum_pos n f : (forall t, (0 <= t < Z.of_nat n)%Z -> 0 <= f t) -> 0 <= rsum n f.
Proof. intros H. induction n as [|n IH]; cbn [rsum]; [lra|]. specialize (H (Z.of_nat n) ltac:(lia)) as H1. assert (0 <= rsum n f) by (apply IH; intros; apply H; lia). lra. Qed.
Lemma nrm_sq n f : nrm n f * nrm n f = rsum n (fun t => f t * f t).
Proof. unfold nrm. apply sqrt_sqrt. apply rsum_pos. intros; apply sq_pos. Qed.
Lemma nrm_pos n f : 0 <= nrm n f.
Proof. apply sqrt_pos. Qed.
Lemma nrm_ext n f g : (forall t, (0 <= t < Z.of_nat n)%Z -> f t = g t) -> nrm n f = nrm n g.
Proof. intros H. unfold nrm. f_equal. apply rsum_ext. intros t Ht. now rewrite H. Qed.
Lemma nrm_le n f g : (forall t, (0 <= t < Z.of_nat n)%Z -> Rabs (f t) <= g t) -> nrm n f <= nrm n g.
Proof.
  intros H. apply sqrt_le_1_alt. apply rsum_le. intros t Ht. specialize (H t Ht). pose proof (Rabs_pos (f t)).
  replace (f t * f t) with (Rabs (f t) * Rabs (f t)) by (rewrite <- Rabs_mult; apply Rabs_pos_eq, sq_pos). apply Rmult_le_compat; lra.
Qed.
Lemma nrm_scale n c f : 0 <= c -> nrm n (fun t => c * f t) = c * nrm n f.
Proof.
  intros H. unfold nrm. rewrite (rsum_ext n _ (fun t => (c * c) * (f t * f t))) by (intros; ring). rewrite rsum_mul, sqrt_mult; [|apply sq_pos|apply rsum_pos; intros; apply sq_pos].
  now rewrite sqrt_square.
Qed.
Lemma nrm_const n c : 0 <= c -> nrm n (fun _ => c) = sqrt (INR n) * c.
Proof.
  intros H. rewrite (nrm_ext n _ (fun t => c * 1)) by (intros; ring). rewrite nrm_scale by exact H. unfold nrm. rewrite (rsum_ext n _ (fun _ => 1)) by (intros; ring). rewrite rsum_one. ring.
Qed.
(* Cauchy-Schwarz and the triangle inequality *)
Lemma rsum_cs n f g : rsum n (fun t => f t * g t) <= nrm n f * nrm n g.
Proof.
  destruct (Req_dec (nrm n g) 0) as [Z|NZ].
  - assert (G : rsum n (fun t => g t * g t) = 0) by (rewrite <- nrm_sq, Z; ring).
    assert (G0 : forall t, (0 <= t < Z.of_nat n)%Z -> g t = 0).
    { intros t Ht. assert (g t * g t <= 0). { rewrite <- G. clear - Ht. induction n as [|n IH]; [lia|]. cbn [rsum]. destruct (Z.eq_dec t (Z.of_nat n)) as [->|].
        - assert (0 <= rsum n (fun t => g t * g t)) by (apply rsum_pos; intros; apply sq_pos). lra.
        - specialize (IH ltac:(lia)). pose proof (sq_pos (g (Z.of_nat n))). lra. }
      assert (g t * g t = 0) by (pose proof (sq_pos (g t)); lra). apply Rmult_integral in H0. tauto. }
    rewrite rsum_zero; [rewrite Z; lra|]. intros t Ht. rewrite G0 by exact Ht. ring.
  - (* 0 <= sum (|g| f - |f| g)^2 *)
    remember (nrm n f) as a eqn:Ea. remember (nrm n g) as b eqn:Eb. assert (B : 0 < b) by (pose proof (nrm_pos n g); lra).
    destruct (Req_dec a 0) as [A0|NA].
    + assert (Fz : rsum n (fun t => f t * f t) = 0) by (rewrite <- nrm_sq, <- Ea, A0; ring).
      assert (F0 : forall t, (0 <= t < Z.of_nat n)%Z -> f t = 0).
      { intros t Ht. assert (f t * f t <= 0). { rewrite <- Fz. clear - Ht. induction n as [|n IH]; [lia|]. cbn [rsum]. destruct (Z.eq_dec t (Z.of_nat n)) as [->|].
          - assert (0 <= rsum n (fun t => f t * f t)) by (apply rsum_pos; intros; apply sq_pos). lra.
          - specialize (IH ltac:(lia)). pose proof (sq_pos (f (Z.of_nat n))). lra. }
        assert (f t * f t = 0) by (pose proof (sq_pos (f t)); lra). apply Rmult_integral in H0. tauto. }
      rewrite rsum_zero; [rewrite A0; lra|]. intros t Ht. rewrite F0 by exact Ht. ring.
    + assert (A : 0 < a) by (pose proof (nrm_pos n f); lra).
      assert (H : 0 <= rsum n (fun t => (b * f t + - a * g t) * (b * f t + - a * g t))) by (apply rsum_pos; intros; apply sq_pos).
      rewrite (rsum_ext n _ (fun t => (b * b) * (f t * f t) + ((- 2 * a * b) * (f t * g t) + (a * a) * (g t * g t)))) in H by (intros; ring).
      rewrite !rsum_add, !rsum_mul, <- !nrm_sq, <- Ea, <- Eb in H. set (s := rsum n (fun t => f t * g t)) in *.
      apply Rmult_le_reg_l with (2 * a * b); [apply Rmult_lt_0_compat; lra|]. replace (2 * a * b * (a * b)) with (b * b * (a * a) + a * a * (b * b)) by ring. lra.
Qed.
Lemma nrm_tri n f g : nrm n (fun t => f t + g t) <= nrm n f + nrm n g.
Proof.
  pose proof (nrm_pos n f) as A. pose proof (nrm_pos n g) as B. rewrite <- (sqrt_square (nrm n f + nrm n g)) by lra. apply sqrt_le_1_alt.
  rewrite (rsum_ext n _ (fun t => f t * f t + (2 * (f t * g t) + g t * g t))) by (intros; ring). rewrite !rsum_add, rsum_mul, <- !nrm_sq. pose proof (rsum_cs n f g). nra.
Qed.
Lemma nrm_sub n f g h : (forall t, (0 <= t < Z.of_nat n)%Z -> Rabs (f t) <= Rabs (g t) + Rabs (h t)) -> nrm n f <= nrm n g + nrm n h.
Proof.
  intros H. eapply Rle_trans; [apply (nrm_le n f (fun t => Rabs (g t) + Rabs (h t))); exact H|]. eapply Rle_trans; [apply nrm_tri|].
  assert (E : forall k, nrm n (fun t => Rabs (k t)) = nrm n k). { intros k. unfold nrm. f_equal. apply rsum_ext. intros t _. rewrite <- Rabs_mult. apply Rabs_pos_eq, sq_pos. }
  rewrite !E. lra.
Qed.
Lemma nrm_sum n f : rsum n (fun t => Rabs (f t)) <= sqrt (INR n) * nrm n f.
Proof.
  pose proof (rsum_cs n (fun _ => 1) (fun t => Rabs (f t))) as H. rewrite (rsum_ext n _ (fun t => Rabs (f t))) in H by (intros; ring). rewrite (nrm_const n 1) in H by lra.
  assert (E : nrm n (fun t => Rabs (f t)) = nrm n f). { unfold nrm. f_equal. apply rsum_ext. intros t _. rewrite <- Rabs_mult. apply Rabs_pos_eq, sq_pos. }
  rewrite E in H. lra.
Qed.
Lemma nrm_get n f t : (0 <= t < Z.of_nat n)%Z -> Rabs (f t) <= nrm n f.
Proof.
  intros H. rewrite <- (sqrt_square (Rabs (f t))) by apply Rabs_pos. apply sqrt_le_1_alt. rewrite <- Rabs_mult, Rabs_pos_eq by apply sq_pos.
  induction n as [|n IH]; [lia|]. cbn [rsum]. destruct (Z.eq_dec t (Z.of_nat n)) as [->|].
  - assert (0 <= rsum n (fun t => f t * f t)) by (apply rsum_pos; intros; apply sq_pos). lra.
  - specialize (IH ltac:(lia)). pose proof (sq_pos (f (Z.of_nat n))). lra.
Qed.
(* norms of norms *)
Lemma nrm_nrm p m f : nrm p (fun q => nrm m (fun i => f q i)) = sqrt (rsum p (fun q => rsum m (fun i => f q i * f q i))).
Proof. unfold nrm at 1. f_equal. apply rsum_ext. intros q _. apply nrm_sq. Qed.
Lemma nrm_swap p m f : nrm p (fun q => nrm m (fun i => f q i)) = nrm m (fun i => nrm p (fun q => f q i)).
Proof. rewrite !nrm_nrm. f_equal. apply rsum_swap. Qed.
Lemma rsum_app n k f : rsum (n + k) f = rsum n f + rsum k (fun t => f (Z.of_nat n + t)%Z).
Proof.
  induction k as [|k IH]; [rewrite Nat.add_0_r; cbn [rsum]; ring|]. rewrite Nat.add_succ_r. cbn [rsum]. rewrite IH, Nat2Z.inj_add. ring.
Qed.
(* p m terms in p interleaved groups, and in p consecutive groups, of m *)
Lemma rsum_interleaved p m f : rsum (p * m) f = rsum p (fun q => rsum m (fun t => f (q + t * Z.of_nat p)%Z)).
Proof.
  rewrite rsum_swap. induction m as [|m IH]; [rewrite Nat.mul_0_r; reflexivity|]. rewrite Nat.mul_succ_r, rsum_app, IH. cbn [rsum]. f_equal.
  apply rsum_ext. intros t Ht. f_equal. rewrite Nat2Z.inj_mul. ring.
Qed.
Lemma rsum_groups p m f : rsum (p * m) f = rsum p (fun k => rsum m (fun i => f (k * Z.of_nat m + i)%Z)).
Proof.
  induction p as [|p IH]; [reflexivity|]. cbn [Nat.mul rsum]. rewrite Nat.add_comm, rsum_app, IH. f_equal. apply rsum_ext. intros i Hi. f_equal. rewrite Nat2Z.inj_mul. ring.
Qed.
Lemma nrm_interleaved p m f : nrm (p * m) f = nrm p (fun q => nrm m (fun t => f (q + t * Z.of_nat p)%Z)).
Proof. rewrite nrm_nrm. unfold nrm. f_equal. apply (rsum_interleaved p m (fun t => f t * f t)). Qed.
Lemma nrm_groups p m f : nrm (p * m) f = nrm p (fun k => nrm m (fun i => f (k * Z.of_nat m + i)%Z)).
Proof. rewrite nrm_nrm. unfold nrm. f_equal. apply (rsum_groups p m (fun t => f t * f t)). Qed.

(* ---- the discrete Fourier transform ---- *)
Fixpoint cpw (z : C) (k : nat) : C := match k with O => RtoC 1 | S j => Cmult z (cpw z j) end.
Lemma W_pow n d k : W n (Z.of_nat k * d) = cpw (W n d) k.
Proof.
  induction k as [|k IH]; [apply W_0|]. replace (Z.of_nat (S k) * d)%Z with (Z.of_nat k * d + d)%Z by lia. rewrite W_add, IH. cbn [cpw]. apply Cmult_comm.
Qed.
Lemma W_not_1 n d : (0 < d < n)%Z -> W n d <> RtoC 1.
Proof.
  intros H E. assert (N : 0 < IZR n) by (apply IZR_lt; lia). assert (D : 0 < IZR d) by (apply IZR_lt; lia). assert (L : IZR d < IZR n) by (apply IZR_lt; lia).
  assert (C1 : cos (2 * (PI * (IZR d / IZR n))) = 1). { apply (f_equal fst) in E. unfold W, RtoC in E. cbn [fst] in E. rewrite cos_neg in E. rewrite <- E. f_equal. unfold Rdiv. ring. }
  rewrite cos_2a_sin in C1. assert (S : 0 < sin (PI * (IZR d / IZR n))).
  { pose proof PI_RGT_0. assert (0 < IZR d / IZR n) by (apply Rdiv_lt_0_compat; lra). assert (IZR d / IZR n < 1) by (apply Rmult_lt_reg_r with (IZR n); [lra|]; unfold Rdiv; rewrite Rmult_assoc, Rinv_l, Rmult_1_r by lra; lra).
    apply sin_gt_0; [apply Rmult_lt_0_compat; lra|]. rewrite <- (Rmult_1_r PI) at 2. apply Rmult_lt_compat_l; lra. }
  nra.
Qed.
Lemma geometric z k : Cmult (Cminus z (RtoC 1)) (csum k (fun t => cpw z (Z.to_nat t))) = Cminus (cpw z k) (RtoC 1).
Proof.
  induction k as [|k IH]; [cbn [csum cpw]; change (cpw z 0) with (RtoC 1); ring|]. cbn [csum]. rewrite Cmult_plus_distr_l, IH, Nat2Z.id. change (cpw z (S k)) with (Cmult z (cpw z k)). ring.
Qed.
Lemma W_sum n d : (0 < d < n)%Z -> csum (Z.to_nat n) (fun t => W n (t * d)) = RtoC 0.
Proof.
  intros H. rewrite (csum_ext _ _ (fun t => cpw (W n d) (Z.to_nat t))). 2:{ intros t Ht. rewrite <- W_pow, Z2Nat.id by lia. reflexivity. }
  pose proof (geometric (W n d) (Z.to_nat n)) as G. rewrite <- W_pow, Z2Nat.id, W_period in G by lia. replace (Cminus (RtoC 1) (RtoC 1)) with (RtoC 0) in G by ring.
  assert (N : Cminus (W n d) (RtoC 1) <> RtoC 0). { intros E. apply (W_not_1 n d H). replace (W n d) with (Cplus (Cminus (W n d) (RtoC 1)) (RtoC 1)) by ring. rewrite E. ring. }
  set (s := csum _ _) in *. replace s with (Cmult (Cinv (Cminus (W n d) (RtoC 1))) (Cmult (Cminus (W n d) (RtoC 1)) s)). 2:{ rewrite Cmult_assoc, (Cmult_comm (Cinv _)), Cinv_r by exact N. ring. }
  rewrite G. ring.
Qed.
Lemma W_opp n k : W n (- k) = Cconj (W n k).
Proof. unfold W, Cconj. cbn [fst snd]. rewrite opp_IZR. replace (- (2 * PI * - IZR k / IZR n)) with (- - (2 * PI * IZR k / IZR n)) by (unfold Rdiv; ring). rewrite cos_neg, (sin_neg (- _)). f_equal. Qed.
Lemma W_sum_neg n d : (- n < d < n)%Z -> d <> 0%Z -> csum (Z.to_nat n) (fun t => W n (t * d)) = RtoC 0.
Proof.
  intros H N. destruct (Z_lt_le_dec 0 d) as [P|P]; [apply W_sum; lia|].
  assert (E := W_sum n (n + d) ltac:(lia)). rewrite <- E. apply csum_ext. intros t Ht. replace (t * (n + d))%Z with (n * t + t * d)%Z by ring. rewrite W_add, W_period by lia. now rewrite Cmult_1_l.
Qed.
Lemma Cmod_sq z : Cmod z * Cmod z = fst z * fst z + snd z * snd z.
Proof. unfold Cmod. rewrite sqrt_sqrt; [|pose proof (sq_pos (fst z)); pose proof (sq_pos (snd z)); cbn [pow]; lra]. cbn [pow]. ring. Qed.
Lemma conj_mul z : Cmult z (Cconj z) = RtoC (Cmod z * Cmod z).
Proof. rewrite Cmod_sq. destruct z as [a b]. unfold Cmult, Cconj, RtoC. cbn [fst snd]. f_equal; ring. Qed.
Lemma conj_csum n f : Cconj (csum n f) = csum n (fun t => Cconj (f t)).
Proof. induction n as [|n IH]; [unfold Cconj, RtoC; cbn [csum fst snd]; apply injective_projections; cbn [fst snd]; unfold RtoC; cbn [fst snd]; ring|]. cbn [csum]. rewrite <- IH. unfold Cconj, Cplus. cbn [fst snd]. apply injective_projections; cbn [fst snd]; ring. Qed.
Lemma conj_mult a b : Cconj (Cmult a b) = Cmult (Cconj a) (Cconj b).
Proof. destruct a, b. unfold Cconj, Cmult. cbn [fst snd]. f_equal; ring. Qed.
Lemma csum_RtoC n f : csum n (fun t => RtoC (f t)) = RtoC (rsum n f).
Proof. induction n as [|n IH]; [reflexivity|]. cbn [csum rsum]. rewrite IH. unfold RtoC, Cplus. cbn [fst snd]. f_equal; ring. Qed.
Lemma csum_single n f k : (0 <= k < Z.of_nat n)%Z -> (forall t, (0 <= t < Z.of_nat n)%Z -> t <> k -> f t = RtoC 0) -> csum n f = f k.
Proof.
  intros Hk H. induction n as [|n IH]; [lia|]. cbn [csum]. destruct (Z.eq_dec k (Z.of_nat n)) as [->|Nk].
  - rewrite (csum_ext n f (fun _ => RtoC 0)), csum_zero by (intros t Ht; apply H; lia). apply Cplus_0_l.
  - rewrite IH, (H (Z.of_nat n)) by (try lia; intros; apply H; lia). apply Cplus_0_r.
Qed.
Theorem parseval n x : (0 < n)%Z -> nrm (Z.to_nat n) (fun j => Cmod (dft n x j)) = sqrt (IZR n) * nrm (Z.to_nat n) (fun t => Cmod (x t)).
Proof.
  intros Hn. unfold nrm. rewrite <- sqrt_mult; [|apply IZR_le; lia|apply rsum_pos; intros; apply sq_pos]. f_equal.
  assert (E : RtoC (rsum (Z.to_nat n) (fun t => Cmod (dft n x t) * Cmod (dft n x t))) = RtoC (IZR n * rsum (Z.to_nat n) (fun t => Cmod (x t) * Cmod (x t)))).
  { rewrite <- csum_RtoC. rewrite (csum_ext _ _ (fun j => csum (Z.to_nat n) (fun t => csum (Z.to_nat n) (fun s => Cmult (Cmult (x t) (Cconj (x s))) (W n (j * (t - s))))))).
    2:{ intros j Hj. rewrite <- conj_mul. unfold dft. rewrite conj_csum. rewrite Cmult_comm, <- csum_mul. apply csum_ext. intros t Ht. rewrite Cmult_comm, <- csum_mul. apply csum_ext. intros s Hs.
        rewrite conj_mult. replace (j * (t - s))%Z with (j * t + - (j * s))%Z by ring. rewrite W_add, W_opp. ring. }
    rewrite csum_swap. rewrite (csum_ext _ _ (fun t => RtoC (IZR n * (Cmod (x t) * Cmod (x t))))); [now rewrite csum_RtoC, rsum_mul|].
    intros t Ht. rewrite csum_swap. rewrite (csum_single _ _ t Ht).
    - rewrite (csum_ext _ _ (fun _ => Cmult (x t) (Cconj (x t)))). 2:{ intros j Hj. rewrite Z.sub_diag, Z.mul_0_r, W_0. ring. }
      rewrite conj_mul, csum_RtoC. f_equal. rewrite (rsum_ext _ _ (fun _ => Cmod (x t) * Cmod (x t) * 1)) by (intros; ring). rewrite rsum_mul, rsum_one, INR_IZR_INZ, Z2Nat.id by lia. ring.
    - intros s Hs Ns. rewrite csum_mul, W_sum_neg by lia. ring. }
  apply (f_equal fst) in E. exact E.
Qed.
(* and it is linear *)
Lemma dft_sub n x y j : dft n (fun t => Cminus (x t) (y t)) j = Cminus (dft n x j) (dft n y j).
Proof.
  unfold dft. rewrite (csum_ext _ _ (fun t => Cplus (Cmult (x t) (W n (j * t))) (Cmult (RtoC (-1)) (Cmult (y t) (W n (j * t)))))).
  - rewrite csum_add, csum_mul. unfold Cminus. f_equal. destruct (csum _ _) as [a b]. unfold Cmult, Copp, RtoC. cbn [fst snd]. f_equal; ring.
  - intros t _. destruct (x t) as [a b], (y t) as [a' b'], (W n (j * t)) as [c d]. unfold Cmult, Cminus, Cplus, Copp, RtoC. cbn [fst snd]. f_equal; ring.
Qed.
