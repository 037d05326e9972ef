(* The quantiser in exact arithmetic: the gain floor and the quantisation error. *)
From Coq Require Import ZArith List Bool Lia ZifyBool Reals Lra.
From Flocq Require Import Core.
From Verif Require Import Base Config Loops Scalar EncScalar BufLemmas MdctSpec DetectSpec EncQuant QuantSpec RealOps EncF32.
Import ListNotations.
Local Open Scope R_scope.

Lemma R_375 : flit R_ops (375, -3)%Z = 3 / 8.
Proof. unfold R_ops, flit, R_lit, fst, snd, powerRZ. change (Pos.to_nat 3) with 3%nat. cbn [pow]. lra. Qed.
Lemma R_fmax a b : fmax R_ops a b = Rmax a b.
Proof.
  unfold fmax. cbn [R_ops feq flt]. rewrite !Req_bool_true by reflexivity. unfold Rmax. destruct (Rle_dec a b) as [H|H].
  - destruct (Rlt_bool_spec a b); [reflexivity|lra].
  - rewrite Rlt_bool_false by lra. reflexivity.
Qed.
Lemma peak_from l : forall m, 0 <= m -> let p := fold_left (fun m v => fmax R_ops m (e_abs R_eops v)) l m in m <= p /\ Forall (fun v => Rabs v <= p) l /\ (forall B, m <= B -> Forall (fun v => Rabs v <= B) l -> p <= B).
Proof.
  induction l as [|v l IH]; intros m Hm; cbn [fold_left]; [split; [apply Rle_refl|]; split; [constructor|auto]|]. rewrite R_fmax. change (e_abs R_eops v) with (Rabs v).
  destruct (IH (Rmax m (Rabs v)) ltac:(eapply Rle_trans; [exact Hm|apply Rmax_l])) as (I1 & I2 & I3). cbv zeta. pose proof (Rmax_l m (Rabs v)). pose proof (Rmax_r m (Rabs v)).
  split; [lra|]. split; [constructor; [lra|exact I2]|]. intros B HB FB. apply Forall_cons_iff in FB. destruct FB as [F1 F2]. apply I3; [now apply Rmax_lub|exact F2].
Qed.
Lemma R_peak l : let p := peak R_ops R_eops l in 0 <= p /\ Forall (fun v => Rabs v <= p) l /\ (forall B, 0 <= B -> Forall (fun v => Rabs v <= B) l -> p <= B).
Proof. exact (peak_from l 0 (Rle_refl 0)). Qed.

(* the largest magnitude that the quantiser accepts, in steps *)
Definition top : R := 32768 - 3 / 8.
Lemma log10_step p k : 0 < p -> 28 * (ln p / ln 10) <= IZR k -> p <= Rpower 10 (IZR k / 28).
Proof.
  intros Hp H. assert (L : 0 < ln 10) by (rewrite <- ln_1; apply ln_increasing; lra). rewrite <- (exp_ln p) at 1 by exact Hp. unfold Rpower. apply Raux.exp_le.
  apply Rmult_le_compat_r with (r := ln 10 / 28) in H; [|unfold Rdiv; nra]. replace (28 * (ln p / ln 10) * (ln 10 / 28)) with (ln p) in H by (field; lra). replace (IZR k / 28 * ln 10) with (IZR k * (ln 10 / 28)) by field. exact H.
Qed.
Lemma log10_step_inv p k : 0 < p -> p <= Rpower 10 (IZR k / 28) -> 28 * (ln p / ln 10) <= IZR k.
Proof.
  intros Hp H. assert (L : 0 < ln 10) by (rewrite <- ln_1; apply ln_increasing; lra). assert (H' : ln p <= ln (Rpower 10 (IZR k / 28))) by (destruct H as [H| ->]; [apply Rlt_le; now apply ln_increasing|apply Rle_refl]). clear H. rename H' into H. unfold Rpower in H. rewrite ln_exp in H.
  apply Rmult_le_reg_r with (r := ln 10 / 28); [unfold Rdiv; nra|]. replace (28 * (ln p / ln 10) * (ln 10 / 28)) with (ln p) by (field; lra). replace (IZR k * (ln 10 / 28)) with (IZR k / 28 * ln 10) by field. exact H.
Qed.

(* every index from the floor up keeps the peak within the quantiser's range *)
Lemma gain_floor_enough x off ind : (-245 <= off < 0)%Z -> (gain_floor R_ops R_eops x off <= 32767)%Z -> (gain_floor R_ops R_eops x off <= ind)%Z ->
  peak R_ops R_eops x <= top * Rpower 10 (IZR (ind + off) / 28).
Proof.
  intros Ho H1 H2. destruct (R_peak x) as (P0 & _ & _). unfold gain_floor in *. change (flt R_ops (fz R_ops 0) (peak R_ops R_eops x)) with (Rlt_bool 0 (peak R_ops R_eops x)) in *.
  revert H1 H2. set (p := peak R_ops R_eops x) in *. destruct (Rlt_bool_spec 0 p) as [Hp|Hp]; intros H1 H2.
  - rewrite R_375 in *. cbn [R_ops R_eops fz fsub fdiv fmul e_log10 e_ceil] in H1, H2. fold top in H1, H2. unfold as_i16 in *. cbn [f_i32 R_ops] in H1, H2. rewrite Ztrunc_IZR in *.
    set (c := Zceil (28 * (ln (p / top) / ln 10))) in *. assert (Hc : (c <= ind + off)%Z) by lia. assert (Ht : 0 < top) by (unfold top; lra).
    pose proof (log10_step (p / top) (ind + off) ltac:(apply Rdiv_lt_0_compat; lra)) as Q. apply Rmult_le_reg_r with (/ top); [now apply Rinv_0_lt_compat|]. replace (top * Rpower 10 (IZR (ind + off) / 28) * / top) with (Rpower 10 (IZR (ind + off) / 28)) by (field; lra).
    apply Q. apply Rle_trans with (IZR c); [apply Zceil_ub|now apply IZR_le].
  - apply Rle_trans with 0; [exact Hp|]. apply Rmult_le_pos; [unfold top; lra|]. apply Rlt_le. unfold Rpower. apply exp_pos.
Qed.
(* and the floor is at most k when the lines fit at index k *)
Lemma gain_floor_le x off k : (-245 <= off < 0)%Z -> (0 <= k <= 32000)%Z -> Forall (fun v => Rabs v <= top * Rpower 10 (IZR (k + off) / 28)) x -> (gain_floor R_ops R_eops x off <= k)%Z.
Proof.
  intros Ho Hk HF. destruct (R_peak x) as (P0 & _ & PB). unfold gain_floor. change (flt R_ops (fz R_ops 0) (peak R_ops R_eops x)) with (Rlt_bool 0 (peak R_ops R_eops x)).
  set (p := peak R_ops R_eops x) in *. destruct (Rlt_bool_spec 0 p) as [Hp|Hp]; [|lia]. rewrite R_375. cbn [R_ops R_eops fz fsub fdiv fmul e_log10 e_ceil]. fold top. unfold as_i16. cbn [f_i32 R_ops]. rewrite Ztrunc_IZR.
  assert (Ht : 0 < top) by (unfold top; lra). assert (PP : 0 < Rpower 10 (IZR (k + off) / 28)) by (unfold Rpower; apply exp_pos).
  specialize (PB (top * Rpower 10 (IZR (k + off) / 28)) ltac:(apply Rmult_le_pos; lra) HF). fold p in PB.
  assert (Q : (Zceil (28 * (ln (p / top) / ln 10)) <= k + off)%Z).
  { apply Zceil_glb. apply log10_step_inv; [apply Rdiv_lt_0_compat; lra|]. apply Rmult_le_reg_l with top; [exact Ht|]. replace (top * (p / top)) with p by (field; lra). exact PB. }
  lia.
Qed.

(* one line: at most five eighths of a step of error, in range *)
Lemma R_quantise_error g x : 0 < g -> Rabs x <= top * g -> Rabs (x - IZR (quantise_line R_ops g x) * g) <= 5 / 8 * g.
Proof.
  intros Hg Hx. assert (HY : Rabs (x / g) <= top).
  { unfold Rdiv. rewrite Rabs_mult, (Rabs_pos_eq (/ g)) by (apply Rlt_le; now apply Rinv_0_lt_compat). apply Rmult_le_reg_r with g; [exact Hg|]. rewrite Rmult_assoc, Rinv_l, Rmult_1_r by lra. exact Hx. }
  replace (x - IZR (quantise_line R_ops g x) * g) with ((x / g - IZR (quantise_line R_ops g x)) * g) by (field; lra). rewrite Rabs_mult, (Rabs_pos_eq g) by lra. apply Rmult_le_compat_r; [lra|].
  unfold quantise_line, fge, as_i16. cbn [R_ops flt feq fz f_i32 fadd fsub fdiv]. rewrite R_375. set (y := x / g) in *. unfold top in HY. apply Rabs_le_inv in HY.
  assert (SG : Rlt_bool 0 x || Req_bool 0 x = Rle_bool 0 y).
  { unfold y. destruct (Rle_bool_spec 0 (x / g)) as [P|P].
    - assert (0 <= x) by (replace x with (x / g * g) by (field; lra); apply Rmult_le_pos; lra). destruct (Rlt_bool_spec 0 x); [reflexivity|]. rewrite Req_bool_true by lra. reflexivity.
    - assert (x < 0). { replace x with (x / g * g) by (field; lra). assert (0 < (- (x / g)) * g) by (apply Rmult_lt_0_compat; lra). lra. } rewrite Rlt_bool_false, Req_bool_false by lra. reflexivity. }
  rewrite SG. destruct (Rle_bool_spec 0 y) as [P|P].
  - rewrite Ztrunc_floor by lra. pose proof (Zfloor_lb (y + 3 / 8)) as F1. pose proof (Zfloor_ub (y + 3 / 8)) as F2. set (f := Zfloor (y + 3 / 8)) in *.
    assert (B1 : (0 <= f)%Z) by (apply Zfloor_lub; lra). assert (B2 : (f <= 32768)%Z) by (apply le_IZR; lra).
    replace (Z.max (-32768) (Z.min 32767 (Z.max (-2147483648) (Z.min 2147483647 f)))) with (Z.min 32767 f) by lia. destruct (Z.eq_dec f 32768) as [->|N].
    + change (Z.min 32767 32768) with 32767%Z. apply Rabs_le. lra.
    + rewrite Z.min_r by lia. apply Rabs_le. lra.
  - rewrite Ztrunc_ceil by lra. pose proof (Zceil_ub (y - 3 / 8)) as F1. pose proof (Zceil_lb (y - 3 / 8)) as F2. set (f := Zceil (y - 3 / 8)) in *.
    assert (B1 : (-32768 <= f)%Z) by (apply le_IZR; lra). assert (B2 : (f <= 0)%Z) by (apply Zceil_glb; lra).
    replace (Z.max (-32768) (Z.min 32767 (Z.max (-2147483648) (Z.min 2147483647 f)))) with f by lia. apply Rabs_le. lra.
Qed.
