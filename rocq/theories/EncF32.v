(* The encoder's scalar operations on binary32 and on the reals, and the facts about them that hold in both. *)
From Coq Require Import ZArith List Bool Lia Reals Lra.
From Flocq Require Import Core BinarySingleNaN.
From Verif Require Import Base Scalar EncScalar F32 F32Round F32Lines RealOps EncQuant.
Import ListNotations.
Local Open Scope R_scope.

(* log10, log2, exp2, asin, powf, powi: not modelled *)
Record elibm : Set := mkElibm { lm_log10 : f32 -> f32; lm_log2 : f32 -> f32; lm_eexp2 : f32 -> f32; lm_asin : f32 -> f32; lm_pow10 : f32 -> f32; lm_powi : f32 -> Z -> f32 }.
(* PI as f32 *)
Definition f32_pi : f32 := f32_norm 13176795 (-22).
Definition f32_eops (l : elibm) : eops f32 :=
  mkEops f32 (@Babs 24 128) (Bnearbyint mode_DN) (Bnearbyint mode_UP) (lm_log10 l) (lm_log2 l) (lm_eexp2 l) (lm_asin l) (lm_pow10 l) (lm_powi l)
    (B754_infinity false) (Bdiv mode_NE f32_pi (f32_of_Z 17)).
(* On the reals there is no infinity: 2^200 stands for it (it is only used as the start of a minimum search). *)
Definition R_eops : eops R :=
  mkEops R Rabs (fun x => IZR (Zfloor x)) (fun x => IZR (Zceil x)) (fun x => ln x / ln 10) (fun x => ln x / ln 2) (fun x => Rpower 2 x) asin
    (fun x => Rpower 10 x) (fun x n => powerRZ x n) (IZR (2 ^ 200)) (PI / 17).

Record elaws {F} (o : ops F) (e : eops F) : Prop := mkElaws {
  (* rounding a non-negative number *)
  el_half : forall x, fge o x (fz o 0) = true -> (0 <= f_i32 o (fadd o x (flit o (5, -1)%Z)))%Z;
  (* rounding a cost in units of 1/2048 bit up to bits *)
  el_cost : forall n, (0 <= n < 2 ^ 24)%Z -> cost_bits o e n = (- (- n / 2048))%Z;
  el_cost_big : forall n, (2 ^ 24 <= n < 2 ^ 31)%Z -> (8192 <= cost_bits o e n <= 2 ^ 20)%Z;
  el_i32 : forall x, (-2147483648 <= f_i32 o x <= 2147483647)%Z;
  el_pos : forall x, flt o (fz o 0) x = true -> feq o x (fz o 0) = false;
  (* small integers add exactly *)
  el_add : forall a b, (0 <= a)%Z -> (0 <= b)%Z -> (a + b < 2 ^ 24)%Z -> fadd o (fz o a) (fz o b) = fz o (a + b);
  (* an estimate at or above the budget is not below the budget less a margin *)
  el_low : forall i t1 t2 t3 est spec, idx T1 i = Ok t1 -> idx T2 i = Ok t2 -> idx T3 i = Ok t3 -> (0 <= spec <= est)%Z -> (est < 2 ^ 31)%Z ->
    flt o (fz o est) (fsub o (fz o spec) (fadd o (gain_delta o e t1 t2 t3 est) (fz o 2))) = false
}.

Lemma ceil_div n : Zceil (IZR n / 2048) = (- (- n / 2048))%Z.
Proof.
  unfold Zceil. f_equal. replace (- (IZR n / 2048)) with (IZR (- n) / IZR 2048) by (rewrite opp_IZR; lra). now rewrite (Zfloor_div (- n) 2048) by lia.
Qed.
Lemma T_cases i t1 t2 t3 : idx T1 i = Ok t1 -> idx T2 i = Ok t2 -> idx T3 i = Ok t3 ->
  (t1 = 80 /\ t2 = 500 /\ t3 = 850 \/ t1 = 230 /\ t2 = 1025 /\ t3 = 1700 \/ t1 = 380 /\ t2 = 1550 /\ t3 = 2550 \/ t1 = 530 /\ t2 = 2075 /\ t3 = 3400 \/ t1 = 680 /\ t2 = 2600 /\ t3 = 4250)%Z.
Proof.
  intros A B C. assert (H : (0 <= i < 5)%Z) by (unfold idx in A; destruct (Z.ltb_spec i 0); [discriminate|]; destruct (nth_error T1 (Z.to_nat i)) eqn:N; [|discriminate]; assert (L : (Z.to_nat i < length T1)%nat) by (apply nth_error_Some; congruence); change (length T1) with 5%nat in L; lia).
  assert (D : (i = 0 \/ i = 1 \/ i = 2 \/ i = 3 \/ i = 4)%Z) by lia. destruct D as [-> |[-> |[-> |[-> | ->]]]]; injection A as <-; injection B as <-; injection C as <-; lia.
Qed.
Lemma R_delta i t1 t2 t3 est : idx T1 i = Ok t1 -> idx T2 i = Ok t2 -> idx T3 i = Ok t3 -> (0 <= est)%Z -> 0 <= gain_delta R_ops R_eops t1 t2 t3 est.
Proof.
  intros A B C H. pose proof (T_cases i t1 t2 t3 A B C) as D. unfold gain_delta. cbn [R_ops R_eops e_floor fadd fdiv fmul fsub fz flit]. cbv zeta.
  match goal with |- 0 <= IZR (Zfloor (?x + _)) => assert (X : 0 <= x) end.
  - apply IZR_le in H. destruct (Z.ltb_spec est t1) as [L1|L1]; [lra|]. destruct (Z.ltb_spec est t2) as [L2|L2]; [|destruct (Z.ltb_spec est t3); [lra|]; assert (0 <= IZR t3) by (apply IZR_le; lia); lra].
    apply IZR_le in L1. destruct D as [(-> & -> & _)|[(-> & -> & _)|[(-> & -> & _)|[(-> & -> & _)|(-> & -> & _)]]]]; lra.
  - apply IZR_le. apply Zfloor_lub. fold (flit R_ops (5, -1)%Z). pose proof R_half as Q. cbn [R_ops flit] in Q. rewrite Q. lra.
Qed.
Lemma R_elaws : elaws R_ops R_eops.
Proof.
  constructor.
  - intros x H. unfold fge in H. cbn [R_ops fz flt feq] in H. assert (0 <= x). { apply orb_prop in H. destruct H as [H|H]; [destruct (Rlt_bool_spec 0 x); [lra|discriminate]|destruct (Req_bool_spec 0 x); [lra|discriminate]]. }
    rewrite R_half. cbn [R_ops f_i32 fadd]. assert (0 <= Ztrunc (x + / 2))%Z by (rewrite Ztrunc_floor by lra; apply Zfloor_lub; lra). lia.
  - intros n H. unfold cost_bits, as_usize. cbn [R_ops R_eops f_i32 fdiv fz e_ceil]. rewrite Ztrunc_IZR, ceil_div. assert (0 <= - (- n / 2048) <= 2 ^ 24)%Z by (Z.div_mod_to_equations; lia). lia.
  - intros n H. unfold cost_bits, as_usize. cbn [R_ops R_eops f_i32 fdiv fz e_ceil]. rewrite Ztrunc_IZR, ceil_div. assert (8192 <= - (- n / 2048) <= 2 ^ 20)%Z by (Z.div_mod_to_equations; lia). lia.
  - intros x. cbn [R_ops f_i32]. lia.
  - intros x H. cbn [R_ops flt feq fz] in *. destruct (Rlt_bool_spec 0 x); [|discriminate]. apply Req_bool_false. lra.
  - intros a b _ _ _. cbn [R_ops fadd fz]. now rewrite plus_IZR.
  - intros i t1 t2 t3 est spec A B C [H1 H2] H3. pose proof (R_delta i t1 t2 t3 est A B C ltac:(lia)) as D. cbn [R_ops flt fz fsub fadd] in *. apply Rlt_bool_false. apply IZR_le in H2. lra.
Qed.

Lemma fmt_pow k : (-149 <= k)%Z -> generic_format radix2 fexp32 (bpow radix2 k).
Proof. intros H. replace (bpow radix2 k) with (F2R (Float radix2 1 k)) by (unfold F2R; cbn [Fnum Fexp]; lra). apply fmt_F2R; lia. Qed.
Lemma fz_any (v : Z) : (Z.abs v <= 2 ^ 31)%Z -> B2R (f32_of_Z v) = rnd32 (IZR v) /\ is_finite (f32_of_Z v) = true.
Proof.
  intros Hm. pose proof (binary_normalize_correct 24 128 f32_prec f32_emax mode_NE v 0 false) as K. fold fexp32 in K. change (round_mode mode_NE) with ZnearestE in K. cbv zeta in K.
  assert (E : F2R (Float radix2 v 0) = IZR v) by (unfold F2R; cbn [Fnum Fexp bpow]; lra). rewrite E in K. fold (rnd32 (IZR v)) in K.
  assert (B : Rabs (rnd32 (IZR v)) <= bpow radix2 31).
  { assert (P : bpow radix2 31 = IZR (2 ^ 31)) by (change (2 ^ 31)%Z with (radix2 ^ 31)%Z; now rewrite (IZR_Zpower radix2 31) by lia). assert (V : - IZR (2 ^ 31) <= IZR v <= IZR (2 ^ 31)) by (rewrite <- opp_IZR; split; apply IZR_le; lia).
    apply Rabs_le. split.
    - rewrite <- (rnd_id (bpow radix2 31)) by (apply fmt_pow; lia). rewrite <- rnd_opp. apply rnd_le. lra.
    - rewrite <- (rnd_id (bpow radix2 31)) by (apply fmt_pow; lia). apply rnd_le. lra. }
  rewrite Rlt_bool_true in K; [destruct K as (K1 & K2 & _); auto|]. eapply Rle_lt_trans; [exact B|]. apply bpow_lt. lia.
Qed.
Lemma nearby_up (x : f32) : B2R (Bnearbyint mode_UP x) = IZR (Zceil (B2R x)) /\ is_finite (Bnearbyint mode_UP x) = is_finite x.
Proof.
  destruct (Bnearbyint_correct 24 128 f32_emax mode_UP x) as (A & B & _). split; [|exact B]. rewrite A. unfold round, F2R, scaled_mantissa, cexp, FIX_exp. cbn [Fnum Fexp Z.opp bpow round_mode]. now rewrite !Rmult_1_r.
Qed.
Lemma nearby_dn (x : f32) : B2R (Bnearbyint mode_DN x) = IZR (Zfloor (B2R x)) /\ is_finite (Bnearbyint mode_DN x) = is_finite x.
Proof.
  destruct (Bnearbyint_correct 24 128 f32_emax mode_DN x) as (A & B & _). split; [|exact B]. rewrite A. unfold round, F2R, scaled_mantissa, cexp, FIX_exp. cbn [Fnum Fexp Z.opp bpow round_mode]. now rewrite !Rmult_1_r.
Qed.
Lemma c2048 : B2R (f32_of_Z 2048) = 2048 /\ is_finite (f32_of_Z 2048) = true.
Proof. apply fz_val. lia. Qed.
Lemma div2048 (x : f32) : is_finite x = true -> Rabs (B2R x) <= bpow radix2 31 -> B2R (Bdiv mode_NE x (f32_of_Z 2048)) = rnd32 (B2R x / 2048) /\ is_finite (Bdiv mode_NE x (f32_of_Z 2048)) = true.
Proof.
  intros F H. destruct c2048 as [C1 C2]. pose proof (Bdiv_correct 24 128 f32_prec f32_emax mode_NE x (f32_of_Z 2048) ltac:(rewrite C1; lra)) as K. rewrite C1 in K. fold fexp32 in K. change (round_mode mode_NE) with ZnearestE in K. fold (rnd32 (B2R x / 2048)) in K.
  rewrite Rlt_bool_true in K; [destruct K as (K1 & K2 & _); rewrite F in K2; auto|].
  assert (B : Rabs (B2R x / 2048) <= bpow radix2 31). { unfold Rdiv. rewrite Rabs_mult, (Rabs_pos_eq (/ 2048)) by lra. pose proof (Rabs_pos (B2R x)). lra. }
  apply Rle_lt_trans with (bpow radix2 31); [|apply bpow_lt; lia]. apply Rabs_le_inv in B. apply Rabs_le. split.
  - rewrite <- (rnd_id (bpow radix2 31)) by (apply fmt_pow; lia). rewrite <- rnd_opp. apply rnd_le. lra.
  - rewrite <- (rnd_id (bpow radix2 31)) by (apply fmt_pow; lia). apply rnd_le. lra.
Qed.
(* finite, not negative and at most 2^k *)
Definition nnb (k : Z) (x : f32) : Prop := is_finite x = true /\ 0 <= B2R x <= bpow radix2 k.
Lemma rnd_nn k r : (-149 <= k)%Z -> 0 <= r <= bpow radix2 k -> 0 <= rnd32 r <= bpow radix2 k.
Proof.
  intros K [H1 H2]. split; [rewrite <- (rnd_id 0) by apply generic_format_0; now apply rnd_le|]. rewrite <- (rnd_id (bpow radix2 k)) by now apply fmt_pow. now apply rnd_le.
Qed.
Lemma nn_lt k r : (-149 <= k < 128)%Z -> 0 <= r <= bpow radix2 k -> Rabs (rnd32 r) < bpow radix2 128.
Proof. intros K H. pose proof (rnd_nn k r ltac:(lia) H). rewrite Rabs_pos_eq by lra. apply Rle_lt_trans with (bpow radix2 k); [lra|]. apply bpow_lt. lia. Qed.
Lemma nn_le j k x : (j <= k)%Z -> nnb j x -> nnb k x.
Proof. intros H (A & B). split; [exact A|]. pose proof (bpow_le radix2 j k H). lra. Qed.
Lemma nn_z n : (0 <= n <= 2 ^ 31)%Z -> nnb 31 (f32_of_Z n).
Proof.
  intros H. destruct (fz_any n) as [A B]; [lia|]. split; [exact B|]. rewrite A. apply rnd_nn; [lia|].
  assert (P31 : bpow radix2 31 = IZR (2 ^ 31)) by (change (2 ^ 31)%Z with (radix2 ^ 31)%Z; now rewrite (IZR_Zpower radix2 31) by lia). rewrite P31. split; apply IZR_le; lia.
Qed.
Lemma nn_add k x y : (-149 <= k < 127)%Z -> nnb k x -> nnb k y -> nnb (k + 1) (Bplus mode_NE x y).
Proof.
  intros K (FX & BX) (FY & BY). pose proof (Bplus_correct 24 128 f32_prec f32_emax mode_NE x y FX FY) as P. fold fexp32 in P. change (round_mode mode_NE) with ZnearestE in P. fold (rnd32 (B2R x + B2R y)) in P.
  assert (S : 0 <= B2R x + B2R y <= bpow radix2 (k + 1)) by (rewrite bpow_plus; change (bpow radix2 1) with 2; lra).
  rewrite Rlt_bool_true in P by (apply (nn_lt (k + 1)); [lia|exact S]). destruct P as (V & W & _). split; [exact W|]. rewrite V. apply rnd_nn; [lia|exact S].
Qed.
Lemma nn_sub k x y : (-149 <= k < 127)%Z -> nnb k x -> nnb k y -> B2R y <= B2R x -> nnb k (Bminus mode_NE x y).
Proof.
  intros K (FX & BX) (FY & BY) L. pose proof (Bminus_correct 24 128 f32_prec f32_emax mode_NE x y FX FY) as P. fold fexp32 in P. change (round_mode mode_NE) with ZnearestE in P. fold (rnd32 (B2R x - B2R y)) in P.
  assert (S : 0 <= B2R x - B2R y <= bpow radix2 k) by lra.
  rewrite Rlt_bool_true in P by (apply (nn_lt k); [lia|exact S]). destruct P as (V & W & _). split; [exact W|]. rewrite V. apply rnd_nn; [lia|exact S].
Qed.
Lemma nn_mul j k x y : (0 <= j)%Z -> (0 <= k)%Z -> (j + k < 127)%Z -> nnb j x -> nnb k y -> nnb (j + k) (Bmult mode_NE x y).
Proof.
  intros J K L (FX & BX) (FY & BY). pose proof (Bmult_correct 24 128 f32_prec f32_emax mode_NE x y) as P. fold fexp32 in P. change (round_mode mode_NE) with ZnearestE in P. fold (rnd32 (B2R x * B2R y)) in P.
  assert (S : 0 <= B2R x * B2R y <= bpow radix2 (j + k)). { rewrite bpow_plus. split; [apply Rmult_le_pos; lra|apply Rmult_le_compat; lra]. }
  rewrite Rlt_bool_true in P by (apply (nn_lt (j + k)); [lia|exact S]). destruct P as (V & W & _). rewrite FX, FY in W. split; [exact W|]. rewrite V. apply rnd_nn; [lia|exact S].
Qed.
Lemma nn_div k x y : (-149 <= k < 127)%Z -> nnb k x -> is_finite y = true -> 1 <= B2R y -> nnb k (Bdiv mode_NE x y).
Proof.
  intros K (FX & BX) FY BY. pose proof (Bdiv_correct 24 128 f32_prec f32_emax mode_NE x y ltac:(lra)) as P. fold fexp32 in P. change (round_mode mode_NE) with ZnearestE in P. fold (rnd32 (B2R x / B2R y)) in P.
  assert (I : 0 < / B2R y <= 1) by (split; [apply Rinv_0_lt_compat; lra|rewrite <- Rinv_1; apply Rinv_le; lra]).
  assert (S : 0 <= B2R x / B2R y <= bpow radix2 k). { unfold Rdiv. split; [apply Rmult_le_pos; lra|]. apply Rle_trans with (B2R x * 1); [apply Rmult_le_compat_l; lra|lra]. }
  rewrite Rlt_bool_true in P by (apply (nn_lt k); [lia|exact S]). destruct P as (V & W & _). rewrite FX in W. split; [exact W|]. rewrite V. apply rnd_nn; [lia|exact S].
Qed.
Lemma nn_floor k x : nnb k x -> nnb k (Bnearbyint mode_DN x).
Proof.
  intros (FX & BX). destruct (nearby_dn x) as [A B]. split; [rewrite B; exact FX|]. rewrite A. split; [apply IZR_le; apply Zfloor_lub; lra|]. pose proof (Zfloor_lb (B2R x)). lra.
Qed.
Lemma f32_delta lm el i t1 t2 t3 est : idx T1 i = Ok t1 -> idx T2 i = Ok t2 -> idx T3 i = Ok t3 -> (0 <= est < 2 ^ 31)%Z -> nnb 60 (gain_delta (f32_ops lm) (f32_eops el) t1 t2 t3 est).
Proof.
  intros A B C H. pose proof (T_cases i t1 t2 t3 A B C) as D. assert (DL : (0 <= t1 <= 680 /\ 0 <= t2 <= 2600 /\ 0 <= t3 <= 4250 /\ t1 < t2)%Z) by lia.
  unfold gain_delta. cbn [f32_ops f32_eops e_floor fadd fdiv fmul fsub fz flit]. cbv zeta. apply nn_floor. change 60%Z with (59 + 1)%Z. apply nn_add; [lia| |].
  2:{ destruct half_val as [HV HF]. split; [exact HF|]. rewrite HV. pose proof (bpow_le radix2 0 59 ltac:(lia)) as Q. change (bpow radix2 0) with 1 in Q. lra. }
  assert (C16 : is_finite (f32_of_Z 16) = true /\ 1 <= B2R (f32_of_Z 16)) by (destruct (fz_val 16) as [V W]; [lia|]; rewrite V; split; [exact W|lra]).
  assert (C48 : is_finite (f32_of_Z 48) = true /\ 1 <= B2R (f32_of_Z 48)) by (destruct (fz_val 48) as [V W]; [lia|]; rewrite V; split; [exact W|lra]).
  assert (E31 : nnb 31 (f32_of_Z est)) by (apply nn_z; lia).
  destruct (Z.ltb_spec est t1) as [L1|L1]; [|destruct (Z.ltb_spec est t2) as [L2|L2]; [|destruct (Z.ltb_spec est t3) as [L3|L3]]].
  - apply (nn_le 32); [lia|]. apply nn_div; [lia| |apply C16|apply C16]. change 32%Z with (31 + 1)%Z. apply nn_add; [lia|exact E31|apply nn_z; lia].
  - set (tmp1 := Bplus mode_NE (Bdiv mode_NE (f32_of_Z t1) (f32_of_Z 16)) (f32_of_Z 3)). set (tmp2 := Bdiv mode_NE (f32_of_Z t2) (f32_of_Z 48)).
    assert (N1 : nnb 32 tmp1) by (unfold tmp1; change 32%Z with (31 + 1)%Z; apply nn_add; [lia|apply nn_div; [lia|apply nn_z; lia|apply C16|apply C16]|apply nn_z; lia]).
    assert (N2 : nnb 31 tmp2) by (apply nn_div; [lia|apply nn_z; lia|apply C48|apply C48]).
    assert (N12 : B2R tmp1 <= B2R tmp2).
    { assert (Q : Bltb tmp1 tmp2 = true) by (unfold tmp1, tmp2; clear -D; destruct D as [(-> & -> & _)|[(-> & -> & _)|[(-> & -> & _)|[(-> & -> & _)|(-> & -> & _)]]]]; vm_compute; reflexivity).
      rewrite (Bltb_correct 24 128 _ _ (proj1 N1) (proj1 N2)) in Q. destruct (Rlt_bool_spec (B2R tmp1) (B2R tmp2)); [lra|discriminate]. }
    destruct (fz_val est) as [VE FE]; [lia|]. destruct (fz_val t1) as [V1 F1]; [lia|]. destruct (fz_val t2) as [V2 F2]; [lia|].
    apply (nn_le (57 + 1)); [lia|]. apply nn_add; [lia| |apply (nn_le 32); [lia|exact N1]]. apply (nn_le (20 + 32)); [lia|].
    assert (NE : nnb 20 (f32_of_Z est)). { split; [exact FE|]. rewrite VE. change (bpow radix2 20) with (IZR (2 ^ 20)). split; apply IZR_le; lia. }
    assert (NT : nnb 20 (f32_of_Z t1)). { split; [exact F1|]. rewrite V1. change (bpow radix2 20) with (IZR (2 ^ 20)). split; apply IZR_le; lia. }
    pose proof (Bminus_correct 24 128 f32_prec f32_emax mode_NE _ _ F2 F1) as P. fold fexp32 in P. change (round_mode mode_NE) with ZnearestE in P. rewrite V1, V2 in P. rewrite <- minus_IZR in P. fold (rnd32 (IZR (t2 - t1))) in P.
    assert (FM : rnd32 (IZR (t2 - t1)) = IZR (t2 - t1)). { apply rnd_id. replace (IZR (t2 - t1)) with (F2R (Float radix2 (t2 - t1) 0)) by (unfold F2R; cbn [Fnum Fexp bpow]; lra). apply fmt_F2R; lia. }
    rewrite FM in P. assert (G1 : 1 <= IZR (t2 - t1) <= IZR (2 ^ 20)) by (split; apply IZR_le; lia).
    rewrite Rlt_bool_true in P. 2:{ rewrite Rabs_pos_eq by lra. apply Rle_lt_trans with (bpow radix2 20); [change (bpow radix2 20) with (IZR (2 ^ 20)); lra|apply bpow_lt; lia]. }
    destruct P as (PV & PF & _). apply nn_div; [lia| |exact PF|rewrite PV; lra].
    apply nn_mul; [lia|lia|lia| |].
    + apply nn_sub; [lia|exact NE|exact NT|]. rewrite VE, V1. apply IZR_le. lia.
    + apply nn_sub; [lia|apply (nn_le 31); [lia|exact N2]|exact N1|exact N12].
  - apply (nn_le 31); [lia|]. apply nn_div; [lia|exact E31|apply C48|apply C48].
  - apply (nn_le 31); [lia|]. apply nn_div; [lia|apply nn_z; lia|apply C48|apply C48].
Qed.
Lemma f32_add a b : (0 <= a)%Z -> (0 <= b)%Z -> (a + b < 2 ^ 24)%Z -> Bplus mode_NE (f32_of_Z a) (f32_of_Z b) = f32_of_Z (a + b).
Proof.
  intros Ha Hb Hs. destruct (Z.eq_dec (a + b) 0) as [Z0|Z0]; [assert (a = 0%Z) as -> by lia; assert (b = 0%Z) as -> by lia; vm_compute; reflexivity|].
  destruct (fz_val a) as [VA FA]; [lia|]. destruct (fz_val b) as [VB FB]; [lia|]. destruct (fz_val (a + b)) as [VS FS]; [lia|].
  pose proof (Bplus_correct 24 128 f32_prec f32_emax mode_NE _ _ FA FB) as P. fold fexp32 in P. change (round_mode mode_NE) with ZnearestE in P. rewrite VA, VB, <- plus_IZR in P. fold (rnd32 (IZR (a + b))) in P.
  assert (FM : rnd32 (IZR (a + b)) = IZR (a + b)). { apply rnd_id. replace (IZR (a + b)) with (F2R (Float radix2 (a + b) 0)) by (unfold F2R; cbn [Fnum Fexp bpow]; lra). apply fmt_F2R; lia. }
  rewrite FM in P. assert (G : 1 <= IZR (a + b) <= IZR (2 ^ 24)) by (split; apply IZR_le; lia).
  rewrite Rlt_bool_true in P. 2:{ rewrite Rabs_pos_eq by lra. apply Rle_lt_trans with (bpow radix2 24); [change (bpow radix2 24) with (IZR (2 ^ 24)); lra|apply bpow_lt; lia]. }
  destruct P as (V & W & _). assert (NZ : forall x : f32, is_finite x = true -> B2R x = IZR (a + b) -> is_finite_strict x = true).
  { intros [s|s| |s m ex He] F1 F2; try discriminate F1; [exfalso; cbn [B2R] in F2; lra|reflexivity]. }
  apply B2R_inj; [now apply NZ|now apply NZ|congruence].
Qed.
Lemma f32_elaws lm el : elaws (f32_ops lm) (f32_eops el).
Proof.
  constructor.
  - intros x H. unfold fge in H. cbn [f32_ops fz flt feq fadd flit f_i32] in *. destruct zero_val as [ZV ZF]. destruct half_val as [HV HF].
    destruct (is_finite x) eqn:FX.
    + rewrite (Bltb_correct 24 128 _ _ ZF FX), (Beqb_correct 24 128 _ _ ZF FX), ZV in H.
      assert (P : 0 <= B2R x). { apply orb_prop in H. destruct H as [H|H]; [destruct (Rlt_bool_spec 0 (B2R x)); [lra|discriminate]|destruct (Req_bool_spec 0 (B2R x)); [lra|discriminate]]. }
      pose proof (Bplus_correct 24 128 f32_prec f32_emax mode_NE x (f32_lit (5, -1)%Z) FX HF) as K. rewrite HV in K. fold fexp32 in K. change (round_mode mode_NE) with ZnearestE in K. fold (rnd32 (B2R x + / 2)) in K.
      assert (Y0 : 0 <= rnd32 (B2R x + / 2)). { rewrite <- (rnd_id 0) by apply generic_format_0. apply rnd_le. lra. }
      match type of K with if ?b then _ else _ => destruct b end.
      * destruct K as (V & W & _). rewrite (f32_to_i32_finite _ W), V, (Ztrunc_floor _ Y0). pose proof (Zfloor_lub 0 _ Y0). lia.
      * destruct K as (V & W). rewrite overflow_val in V. assert (S : Bsign x = false).
        { rewrite W. assert (E : B2SF (f32_lit (5, -1)%Z) = SpecFloat.S754_finite false 8388608 (-24)) by (vm_compute; reflexivity). clear -E. destruct (f32_lit (5, -1)%Z); try discriminate E. cbn [B2SF] in E. injection E as -> _ _. reflexivity. }
        rewrite S in V. destruct (Bplus mode_NE x _) as [s|s| |s m e He]; try discriminate V. cbn [B2SF] in V. injection V as ->. cbn [f32_to_i32]. lia.
    + destruct x as [s|s| |s m e He]; try discriminate FX.
      * destruct s; [exfalso; revert H; vm_compute; discriminate|]. vm_compute. discriminate.
      * exfalso. revert H. vm_compute. discriminate.
  - intros n H. unfold cost_bits, as_usize. cbn [f32_ops f32_eops f_i32 fdiv fz e_ceil]. destruct (fz_val n) as [N1 N2]; [lia|].
    assert (N3 : 0 <= IZR n <= IZR (2 ^ 24)) by (split; apply IZR_le; lia).
    destruct (div2048 (f32_of_Z n) N2) as [D1 D2]. { rewrite N1, Rabs_pos_eq by lra. apply Rle_trans with (IZR (2 ^ 24)); [lra|]. change (2 ^ 24)%Z with (radix2 ^ 24)%Z. rewrite (IZR_Zpower radix2 24) by lia. apply bpow_le. lia. }
    rewrite N1, rnd_id in D1. 2:{ replace (IZR n / 2048) with (F2R (Float radix2 n (-11))) by (unfold F2R; cbn [Fnum Fexp]; cbn; lra). apply fmt_F2R; lia. }
    destruct (nearby_up (Bdiv mode_NE (f32_of_Z n) (f32_of_Z 2048))) as [U1 U2]. rewrite D2 in U2. rewrite (f32_to_i32_finite _ U2), U1, D1, Ztrunc_IZR, ceil_div.
    assert (0 <= - (- n / 2048) <= 2 ^ 24)%Z by (Z.div_mod_to_equations; lia). lia.
  - intros n H. unfold cost_bits, as_usize. cbn [f32_ops f32_eops f_i32 fdiv fz e_ceil]. destruct (fz_any n) as [N1 N2]; [lia|].
    assert (P24 : bpow radix2 24 = IZR (2 ^ 24)) by (change (2 ^ 24)%Z with (radix2 ^ 24)%Z; now rewrite (IZR_Zpower radix2 24) by lia).
    assert (P31 : bpow radix2 31 = IZR (2 ^ 31)) by (change (2 ^ 31)%Z with (radix2 ^ 31)%Z; now rewrite (IZR_Zpower radix2 31) by lia).
    assert (N3 : bpow radix2 24 <= B2R (f32_of_Z n) <= bpow radix2 31).
    { rewrite N1. split; [rewrite <- (rnd_id (bpow radix2 24)) by (apply fmt_pow; lia)|rewrite <- (rnd_id (bpow radix2 31)) by (apply fmt_pow; lia)]; apply rnd_le; rewrite ?P24, ?P31; apply IZR_le; lia. }
    assert (P0 : 0 < bpow radix2 24) by apply bpow_gt_0.
    destruct (div2048 (f32_of_Z n) N2) as [D1 D2]. { rewrite Rabs_pos_eq; lra. }
    assert (D3 : bpow radix2 13 <= B2R (Bdiv mode_NE (f32_of_Z n) (f32_of_Z 2048))).
    { rewrite D1. rewrite <- (rnd_id (bpow radix2 13)) by (apply fmt_pow; lia). apply rnd_le. replace (bpow radix2 24) with (bpow radix2 13 * 2048) in N3 by (replace 24%Z with (13 + 11)%Z by lia; rewrite bpow_plus; reflexivity). lra. }
    destruct (nearby_up (Bdiv mode_NE (f32_of_Z n) (f32_of_Z 2048))) as [U1 U2]. rewrite D2 in U2. rewrite (f32_to_i32_finite _ U2), U1, Ztrunc_IZR.
    assert (D4 : B2R (Bdiv mode_NE (f32_of_Z n) (f32_of_Z 2048)) <= bpow radix2 20).
    { rewrite D1. rewrite <- (rnd_id (bpow radix2 20)) by (apply fmt_pow; lia). apply rnd_le. replace (bpow radix2 31) with (bpow radix2 20 * 2048) in N3 by (replace 31%Z with (20 + 11)%Z by lia; rewrite bpow_plus; reflexivity). lra. }
    assert (8192 <= Zceil (B2R (Bdiv mode_NE (f32_of_Z n) (f32_of_Z 2048))) <= 2 ^ 20)%Z.
    { split; [apply le_IZR; eapply Rle_trans; [|apply Zceil_ub]; change (bpow radix2 13) with 8192 in D3; exact D3|]. apply Zceil_glb. change (bpow radix2 20) with (IZR (2 ^ 20)) in D4. exact D4. }
    lia.
  - intros x. cbn [f32_ops f_i32]. unfold f32_to_i32. destruct x as [s|s| |s m e He]; try (destruct s); try lia.
  - intros x H. cbn [f32_ops flt feq fz] in *. destruct zero_val as [ZV ZF]. destruct (is_finite x) eqn:FX.
    + rewrite (Bltb_correct 24 128 _ _ ZF FX), ZV in H. rewrite (Beqb_correct 24 128 _ _ FX ZF), ZV. destruct (Rlt_bool_spec 0 (B2R x)); [|discriminate]. apply Req_bool_false. lra.
    + destruct x as [s|s| |s m e He]; try discriminate FX; [destruct s; reflexivity|reflexivity].
  - intros a b Ha Hb Hs. cbn [f32_ops fadd fz]. now apply f32_add.
  - intros i t1 t2 t3 est spec A B C [H1 H2] H3. pose proof (f32_delta lm el i t1 t2 t3 est A B C ltac:(lia)) as D. cbn [f32_ops flt fz fsub fadd] in *.
    set (d := gain_delta _ _ _ _ _ _) in *. assert (D2 : nnb 61 (Bplus mode_NE d (f32_of_Z 2))). { change 61%Z with (60 + 1)%Z. apply nn_add; [lia|exact D|apply (nn_le 31); [lia|apply nn_z; lia]]. }
    set (m := Bplus mode_NE d (f32_of_Z 2)) in *. destruct (fz_any est) as [VE FE]; [lia|]. destruct (fz_any spec) as [VS FS]; [lia|].
    pose proof (nn_z spec ltac:(lia)) as NS. destruct D2 as [FD BD].
    pose proof (Bminus_correct 24 128 f32_prec f32_emax mode_NE _ _ FS FD) as P. fold fexp32 in P. change (round_mode mode_NE) with ZnearestE in P. fold (rnd32 (B2R (f32_of_Z spec) - B2R m)) in P.
    pose proof (bpow_le radix2 31 61 ltac:(lia)) as B31. destruct NS as [_ BS].
    assert (UB : Rabs (rnd32 (B2R (f32_of_Z spec) - B2R m)) <= bpow radix2 61).
    { apply Rabs_le. split; [rewrite <- (rnd_id (bpow radix2 61)) by (apply fmt_pow; lia); rewrite <- rnd_opp; apply rnd_le; lra|rewrite <- (rnd_id (bpow radix2 61)) by (apply fmt_pow; lia); apply rnd_le; lra]. }
    rewrite Rlt_bool_true in P by (eapply Rle_lt_trans; [exact UB|apply bpow_lt; lia]). destruct P as (V & W & _).
    rewrite (Bltb_correct 24 128 _ _ FE W). apply Rlt_bool_false. rewrite V. apply Rle_trans with (B2R (f32_of_Z spec)).
    + rewrite <- (rnd_id (B2R (f32_of_Z spec))) at 2 by apply generic_format_B2R. apply rnd_le. lra.
    + rewrite VE, VS. apply rnd_le. apply IZR_le. lia.
Qed.
