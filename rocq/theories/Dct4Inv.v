(* The DCT-IV of the code is, in exact arithmetic, its own inverse up to the factor 2 N. *)
From Coq Require Import ZArith List Bool Lia Reals Lra.
From Verif Require Import DctSpec.
Local Open Scope R_scope.

Lemma rsum_swap n k f : rsum n (fun a => rsum k (fun b => f a b)) = rsum k (fun b => rsum n (fun a => f a b)).
Proof.
  induction n as [|n IH]; cbn [rsum]; [|rewrite IH, <- rsum_add; reflexivity].
  induction k as [|k IHk]; cbn [rsum]; [reflexivity|]. rewrite <- IHk. ring.
Qed.
Lemma rsum_zero n f : (forall t, (0 <= t < Z.of_nat n)%Z -> f t = 0) -> rsum n f = 0.
Proof. intros H. induction n as [|n IH]; [reflexivity|]. cbn [rsum]. rewrite IH, H; [ring|lia|intros; apply H; lia]. Qed.
Lemma rsum_single n f k : (0 <= k < Z.of_nat n)%Z -> (forall t, (0 <= t < Z.of_nat n)%Z -> t <> k -> f t = 0) -> rsum n f = f k.
Proof.
  intros Hk H. induction n as [|n IH]; [lia|]. cbn [rsum]. destruct (Z.eq_dec k (Z.of_nat n)) as [->|].
  - rewrite rsum_zero; [ring|]. intros t Ht. apply H; lia.
  - rewrite IH; [|lia|intros; apply H; lia]. rewrite (H (Z.of_nat n)); [ring|lia|lia].
Qed.
Lemma rsum_abs n f : Rabs (rsum n f) <= rsum n (fun t => Rabs (f t)).
Proof. induction n as [|n IH]; cbn [rsum]; [rewrite Rabs_R0; lra|]. eapply Rle_trans; [apply Rabs_triang|]. lra. Qed.
Lemma rsum_le n f g : (forall t, (0 <= t < Z.of_nat n)%Z -> f t <= g t) -> rsum n f <= rsum n g.
Proof. intros H. induction n as [|n IH]; cbn [rsum]; [lra|]. apply Rplus_le_compat; [apply IH; intros; apply H; lia|apply H; lia]. Qed.

(* telescoping *)
Lemma cos_sum_sin a n : 2 * sin (a / 2) * rsum n (fun t => cos ((IZR t + / 2) * a)) = sin (INR n * a).
Proof.
  induction n as [|n IH]; cbn [rsum]; [rewrite Rmult_0_r, Rmult_0_l, sin_0; reflexivity|].
  rewrite Rmult_plus_distr_l, IH, <- INR_IZR_INZ, S_INR.
  replace (INR n * a) with ((INR n + / 2) * a - a / 2) by field. replace ((INR n + 1) * a) with ((INR n + / 2) * a + a / 2) by field.
  rewrite sin_plus, sin_minus. ring.
Qed.
Lemma sin_mult_pi j : sin (IZR j * PI) = 0.
Proof. apply sin_eq_0_1. now exists j. Qed.
Lemma cos_sum_zero N j : (0 < N)%Z -> (0 < j < 2 * N)%Z -> rsum (Z.to_nat N) (fun t => cos ((IZR t + / 2) * (IZR j * PI / IZR N))) = 0.
Proof.
  intros HN Hj. assert (N0 : 0 < IZR N) by (apply IZR_lt; lia). assert (J0 : 0 < IZR j) by (apply IZR_lt; lia). assert (J1 : IZR j < 2 * IZR N) by (rewrite <- mult_IZR; apply IZR_lt; lia).
  pose proof (cos_sum_sin (IZR j * PI / IZR N) (Z.to_nat N)) as H. rewrite INR_IZR_INZ, Z2Nat.id in H by lia.
  replace (IZR N * (IZR j * PI / IZR N)) with (IZR j * PI) in H by (field; lra). rewrite sin_mult_pi in H.
  assert (S : 0 < sin (IZR j * PI / IZR N / 2)).
  { pose proof PI_RGT_0 as P. apply sin_gt_0.
    - apply Rdiv_lt_0_compat; [|lra]. apply Rdiv_lt_0_compat; [|lra]. apply Rmult_lt_0_compat; lra.
    - replace (IZR j * PI / IZR N / 2) with (PI * (IZR j / (2 * IZR N))) by (field; lra). rewrite <- (Rmult_1_r PI) at 2. apply Rmult_lt_compat_l; [lra|].
      apply (Rmult_lt_reg_r (2 * IZR N)); [lra|]. unfold Rdiv. rewrite Rmult_assoc, Rinv_l by lra. lra. }
  apply Rmult_integral in H. destruct H as [H|H]; [lra|exact H].
Qed.
Lemma rsum_one n : rsum n (fun _ => 1) = INR n.
Proof. induction n as [|n IH]; [reflexivity|]. cbn [rsum]. rewrite IH, S_INR. reflexivity. Qed.
Lemma prod_to_sum a b : cos a * cos b = / 2 * (cos (a - b) + cos (a + b)).
Proof. rewrite cos_minus, cos_plus. field. Qed.

(* orthogonality of the kernel *)
Lemma dct4_orth N m k : (0 < N)%Z -> (0 <= m < N)%Z -> (0 <= k < N)%Z ->
  rsum (Z.to_nat N) (fun n => cos (PI / IZR N * (IZR m + / 2) * (IZR n + / 2)) * cos (PI / IZR N * (IZR n + / 2) * (IZR k + / 2))) = if Z.eqb m k then IZR N / 2 else 0.
Proof.
  intros HN Hm Hk. assert (N0 : IZR N <> 0) by (apply not_0_IZR; lia).
  rewrite (rsum_ext _ _ (fun n => / 2 * (cos ((IZR n + / 2) * (IZR (m - k) * PI / IZR N)) + cos ((IZR n + / 2) * (IZR (m + k + 1) * PI / IZR N))))).
  2:{ intros n Hn. rewrite prod_to_sum. f_equal. f_equal; f_equal; rewrite ?minus_IZR, ?plus_IZR; field; exact N0. }
  rewrite rsum_mul, rsum_add, (cos_sum_zero N (m + k + 1)) by lia. destruct (Z.eqb_spec m k) as [->|D].
  - rewrite (rsum_ext _ _ (fun _ => 1)). 2:{ intros n Hn. rewrite Z.sub_diag. replace ((IZR n + / 2) * (0 * PI / IZR N)) with 0 by (field; exact N0). apply cos_0. }
    rewrite rsum_one, INR_IZR_INZ, Z2Nat.id by lia. field.
  - destruct (Z_lt_le_dec k m).
    + rewrite cos_sum_zero by lia. ring.
    + rewrite (rsum_ext _ _ (fun n => cos ((IZR n + / 2) * (IZR (k - m) * PI / IZR N)))); [rewrite cos_sum_zero by lia; ring|].
      intros n Hn. rewrite <- cos_neg. f_equal. rewrite !minus_IZR. field. exact N0.
Qed.

Theorem dct4_involution N x k : (0 < N)%Z -> (0 <= k < N)%Z -> dct4 N (dct4 N x) k = 2 * IZR N * x k.
Proof.
  intros HN Hk. unfold dct4.
  rewrite (rsum_ext _ _ (fun n => rsum (Z.to_nat N) (fun m => 2 * x m * (cos (PI / IZR N * (IZR m + / 2) * (IZR n + / 2)) * cos (PI / IZR N * (IZR n + / 2) * (IZR k + / 2)))))).
  2:{ intros n Hn. rewrite Rmult_assoc, (Rmult_comm (rsum _ _)), <- !rsum_mul. apply rsum_ext. intros m Hm. ring. }
  rewrite rsum_swap. rewrite (rsum_ext _ _ (fun m => 2 * x m * (if Z.eqb m k then IZR N / 2 else 0))).
  2:{ intros m Hm. rewrite rsum_mul. f_equal. apply dct4_orth; lia. }
  rewrite (rsum_single _ _ k); [rewrite Z.eqb_refl; field|lia|]. intros t Ht D. destruct (Z.eqb_spec t k); [lia|ring].
Qed.

(* linearity and a bound *)
Lemma dct4_ext N x y k : (forall n, (0 <= n < N)%Z -> x n = y n) -> dct4 N x k = dct4 N y k.
Proof. intros H. unfold dct4. f_equal. apply rsum_ext. intros t Ht. rewrite H by lia. reflexivity. Qed.
Lemma dct4_scale N g x k : dct4 N (fun n => x n * g) k = dct4 N x k * g.
Proof. unfold dct4. rewrite Rmult_assoc. f_equal. rewrite Rmult_comm, <- rsum_mul. apply rsum_ext. intros t Ht. ring. Qed.
Lemma dct4_sub N x y k : dct4 N (fun n => x n - y n) k = dct4 N x k - dct4 N y k.
Proof. unfold dct4. rewrite <- Rmult_minus_distr_l. f_equal. unfold Rminus at 2. rewrite <- rsum_opp, <- rsum_add. apply rsum_ext. intros t Ht. ring. Qed.
Lemma dct4_bound N x k : Rabs (dct4 N x k) <= 2 * rsum (Z.to_nat N) (fun n => Rabs (x n)).
Proof.
  unfold dct4. rewrite Rabs_mult, (Rabs_right 2) by lra. apply Rmult_le_compat_l; [lra|]. eapply Rle_trans; [apply rsum_abs|]. apply rsum_le. intros t Ht.
  rewrite Rabs_mult. rewrite <- (Rmult_1_r (Rabs (x t))) at 2. apply Rmult_le_compat_l; [apply Rabs_pos|]. apply Rabs_le, COS_bound.
Qed.
