(* The folded DCT-IV of the code is the MDCT. *)
From Coq Require Import ZArith List Bool Lia Reals Lra.
From Coquelicot Require Import Complex.
From Verif Require Import Base Config FrameSpec Loops Scalar DecState RealOps DctSpec MdctSpec EncMdct TdacSpec Dct4Inv Tdac.
Import ListNotations.
Local Open Scope R_scope.

(* textbook definition: N coefficients of a windowed block of 2 N samples *)
Definition mdct_formula (N : Z) (win x : Z -> R) (k : Z) : R :=
  sqrt (2 / IZR N) * rsum (Z.to_nat (2 * N)) (fun n => win n * x n * cos (PI / IZR N * (IZR n + / 2 + IZR N / 2) * (IZR k + / 2))).

Lemma rsum_split n m f : rsum (n + m) f = rsum n f + rsum m (fun k => f (Z.of_nat n + k)%Z).
Proof. induction m as [|m IH]; [rewrite Nat.add_0_r; cbn [rsum]; ring|]. rewrite Nat.add_succ_r. cbn [rsum]. rewrite IH. replace (Z.of_nat (n + m)) with (Z.of_nat n + Z.of_nat m)%Z by lia. ring. Qed.
Lemma cos_odd_pi k x : cos (PI * (2 * IZR k + 1) + x) = - cos x.
Proof.
  replace (PI * (2 * IZR k + 1) + x) with ((x + PI) + 2 * PI * IZR k) by ring. pose proof (Dft.cis_Z k) as E. unfold Dft.cis, RtoC in E. injection E as E1 E2.
  rewrite cos_plus, E1, E2, neg_cos. ring.
Qed.
Lemma fold_mdct h w T k : (1 <= h)%Z ->
  let N := (2 * h)%Z in let a n := win w n * IZR (T n) in
  rsum (Z.to_nat N) (fun n => mfold R_ops h (getz (0, 0)%Z w) T n * cos (PI / IZR N * (IZR n + / 2) * (IZR k + / 2))) =
  rsum (Z.to_nat (2 * N)) (fun n => a n * cos (PI / IZR N * (IZR n + / 2 + IZR N / 2) * (IZR k + / 2))).
Proof.
  intros Hh N a. assert (N0 : IZR h <> 0) by (apply not_0_IZR; lia). set (H := Z.to_nat h). assert (Hz : Z.of_nat H = h) by (unfold H; lia).
  replace (Z.to_nat N) with (H + H)%nat by (unfold N; lia). replace (Z.to_nat (2 * N)) with (H + H + (H + H))%nat by (unfold N; lia). rewrite !rsum_split. rewrite !Nat2Z.inj_add, Hz.
  rewrite (rsum_rev H (fun k0 => a (h + k0)%Z * _)). rewrite (rsum_rev H (fun k0 => a (h + h + k0)%Z * _)). rewrite Hz.
  rewrite (Rplus_comm (rsum H _) (rsum H (fun k0 => mfold _ _ _ _ (h + k0)%Z * _))). rewrite <- !rsum_add. apply rsum_ext; intros n Hn; rewrite Hz in Hn; f_equal; unfold mfold, wprod; cbn [R_ops fsub fneg fmul fz flit]; fold (win w).
  - destruct (Z.ltb_spec (h + n) h); [lia|]. replace (h + n - h)%Z with n by lia. replace (2 * h - 1 - n)%Z with (h + (h - 1 - n))%Z by lia. unfold a.
    replace (PI / IZR N * (IZR n + / 2 + IZR N / 2) * (IZR k + / 2)) with (PI / IZR N * (IZR (h + n) + / 2) * (IZR k + / 2)) by (unfold N; rewrite plus_IZR, mult_IZR; field; exact N0).
    replace (PI / IZR N * (IZR (h + (h - 1 - n)) + / 2 + IZR N / 2) * (IZR k + / 2)) with (PI * (2 * IZR k + 1) + - (PI / IZR N * (IZR (h + n) + / 2) * (IZR k + / 2)))
      by (unfold N; rewrite ?plus_IZR, ?minus_IZR, ?plus_IZR, ?minus_IZR, mult_IZR; field; exact N0).
    rewrite cos_odd_pi, cos_neg. unfold win. ring.
  - destruct (Z.ltb_spec n h); [|lia]. replace (h + h + (h - 1 - n))%Z with (3 * h - 1 - n)%Z by lia. replace (h + h + (h + n))%Z with (3 * h + n)%Z by lia. unfold a.
    replace (PI / IZR N * (IZR (3 * h + n) + / 2 + IZR N / 2) * (IZR k + / 2)) with (PI * (2 * IZR k + 1) + (PI / IZR N * (IZR n + / 2) * (IZR k + / 2)))
      by (unfold N; rewrite plus_IZR, !mult_IZR; field; exact N0).
    replace (PI / IZR N * (IZR (3 * h - 1 - n) + / 2 + IZR N / 2) * (IZR k + / 2)) with (PI * (2 * IZR k + 1) + - (PI / IZR N * (IZR n + / 2) * (IZR k + / 2)))
      by (unfold N; rewrite ?minus_IZR, !mult_IZR; field; exact N0).
    rewrite !cos_odd_pi, cos_neg. unfold win. ring.
Qed.
Theorem coef_is_mdct c w h T k : legal_config c -> nf c = (2 * h)%Z -> coef c w h T k = mdct_formula (nf c) (win w) (fun n => IZR (T n)) k.
Proof.
  intros L Hh. destruct (config_geom c L) as (G1 & _). unfold coef, mdct_formula, dct4, gain. rewrite Hh. rewrite fold_mdct by lia. cbv zeta. rewrite Rmult_comm, <- Rmult_assoc. f_equal.
  assert (P : 0 < IZR (2 * h)) by (apply IZR_lt; lia). set (N := IZR (2 * h)) in *.
  assert (S : 0 < sqrt (2 * N)) by (apply sqrt_lt_R0; lra). apply Rsqr_inj; [apply Rmult_le_pos; [apply Rlt_le, Rdiv_lt_0_compat; lra|lra]|apply sqrt_pos|].
  rewrite Rsqr_sqrt by (apply Rlt_le, Rdiv_lt_0_compat; lra). unfold Rsqr. replace (1 / sqrt (2 * N) * 2 * (1 / sqrt (2 * N) * 2)) with (4 / (sqrt (2 * N) * sqrt (2 * N))) by (field; lra).
  rewrite sqrt_sqrt by lra. field. lra.
Qed.
