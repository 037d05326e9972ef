(* Rounding errors of the two MDCTs in binary32. *)
From Coq Require Import ZArith List Bool Lia Reals Lra.
From Coquelicot Require Import Complex.
From Flocq Require Import Core BinarySingleNaN.
From Verif Require Import Base Config FrameSpec FftFactor FactorProofs Buffers Loops Scalar Fft DecSignal DecMdct DecTotal DecState FftSpec RealOps Dft DctSpec ParseBase ParseTotal MdctSpec EncMdct TdacSpec Dct4Inv Tdac Norm2 F32 F32Round F32Lines EncF32 F32Err FftErr FftErrRun DctErr.
From Coq Require Import List.
Import ListNotations.
Local Open Scope R_scope.

(* ---- norms of the DCT-IV ---- *)
Lemma dct4_parseval N x : (0 < N)%Z -> nrm (Z.to_nat N) (dct4 N x) = sqrt (2 * IZR N) * nrm (Z.to_nat N) x.
Proof.
  intros HN. unfold nrm. assert (P : 0 <= 2 * IZR N) by (assert (0 < IZR N) by (apply IZR_lt; lia); lra). rewrite <- sqrt_mult; [|exact P|apply rsum_pos; intros; apply sq_pos]. f_equal.
  assert (Adj : forall u v, rsum (Z.to_nat N) (fun k => dct4 N u k * v k) = rsum (Z.to_nat N) (fun n => u n * dct4 N v n)).
  { intros u v. unfold dct4. rewrite (rsum_ext _ _ (fun k => rsum (Z.to_nat N) (fun n => 2 * (u n * v k * cos (PI / IZR N * (IZR n + / 2) * (IZR k + / 2)))))).
    2:{ intros k _. rewrite rsum_mul. rewrite Rmult_assoc, (Rmult_comm _ (v k)), <- rsum_mul. f_equal. apply rsum_ext. intros n _. ring. }
    rewrite rsum_swap. apply rsum_ext. intros n _. rewrite <- Rmult_assoc, <- rsum_mul. apply rsum_ext. intros k _.
    replace (PI / IZR N * (IZR k + / 2) * (IZR n + / 2)) with (PI / IZR N * (IZR n + / 2) * (IZR k + / 2)) by ring. ring. }
  rewrite Adj, <- rsum_mul. apply rsum_ext. intros n Hn. rewrite dct4_involution by lia. ring.
Qed.

(* ---- literals ---- *)
Lemma norm_any (m e : Z) : Rabs (F2R (Float radix2 m e)) <= 64 -> B2R (f32_norm m e) = rnd32 (F2R (Float radix2 m e)) /\ is_finite (f32_norm m e) = true.
Proof.
  intros H. unfold f32_norm. pose proof (binary_normalize_correct 24 128 f32_prec f32_emax mode_NE m e false) as B. fold fexp32 in B. change (round_mode mode_NE) with ZnearestE in B. cbv zeta in B. fold (rnd32 (F2R (Float radix2 m e))) in B.
  set (v := F2R (Float radix2 m e)) in *. assert (L : Rabs (rnd32 v) < bpow radix2 128).
  { pose proof (rnd_err v) as E. replace (rnd32 v) with (rnd32 v - v + v) by ring. eapply Rle_lt_trans; [apply Rabs_triang|]. assert (bpow radix2 (-150) <= bpow radix2 0) by (apply bpow_le; lia). change (bpow radix2 0) with 1 in H0.
    apply Rle_lt_trans with (bpow radix2 8); [|apply bpow_lt; lia]. unfold uu in E. change (bpow radix2 8) with 256. lra. }
  apply Rlt_bool_true in L. rewrite L in B. destruct B as (V & F & _). split; assumption.
Qed.
Lemma tiny k : (k <= -100)%Z -> 0 < bpow radix2 k <= / 1152921504606846976.
Proof. intros H. split; [apply bpow_gt_0|]. eapply Rle_trans; [apply (bpow_le radix2 k (-60)); lia|]. cbn. lra. Qed.
Lemma lit_ap_gen d V0 : lit_ok d = true -> / 4 <= V0 <= 50 -> Rabs (R_lit d) <= V0 -> ap 1 V0 (f32_lit d) (R_lit d).
Proof.
  intros Ok HV0 Hr. destruct d as [m e]. unfold lit_ok in Ok. cbn [snd] in Ok. apply andb_true_iff in Ok. destruct Ok as [O1 O2]. apply Z.leb_le in O1, O2.
  assert (Val : exists v, (B2R (f32_lit (m, e)) = rnd32 v /\ is_finite (f32_lit (m, e)) = true) /\ Rabs (v - R_lit (m, e)) <= bpow radix2 (-200)).
  { unfold f32_lit. destruct (Z.leb_spec 0 e).
    - assert (e = 0%Z) by lia. subst e. rewrite Z.pow_0_r, Z.mul_1_r. exists (F2R (Float radix2 m 0)). assert (E : F2R (Float radix2 m 0) = R_lit (m, 0%Z)) by (unfold F2R, R_lit; cbn [Fnum Fexp bpow fst snd powerRZ]; ring).
      split; [apply norm_any; rewrite E; lra|]. rewrite E. replace (R_lit (m, 0%Z) - R_lit (m, 0%Z)) with 0 by ring. rewrite Rabs_R0. left. apply bpow_gt_0.
    - set (D := (10 ^ (- e))%Z). assert (D0 : (0 < D)%Z) by (apply Z.pow_pos_nonneg; lia). set (n := (Z.abs m * 2 ^ 200)%Z). set (q := (n / D)%Z). set (s := (2 * q + (if (n mod D =? 0)%Z then 0 else 1))%Z).
      assert (ED : R_lit (m, e) = IZR m / IZR D).
      { unfold R_lit. cbn [fst snd]. unfold Rdiv. f_equal. unfold D. replace e with (- (- e))%Z at 1 by lia. rewrite powerRZ_neg'. f_equal. rewrite <- (Z2Nat.id (- e)) by lia. rewrite <- pow_powerRZ, <- pow_IZR. reflexivity. }
      assert (DR : 0 < IZR D) by (apply IZR_lt; exact D0).
      assert (A : Rabs (IZR s * bpow radix2 (-201) - Rabs (IZR m) / IZR D) <= bpow radix2 (-200)).
      { pose proof (Z.div_mod n D ltac:(lia)) as DM. pose proof (Z.mod_pos_bound n D D0) as MB. fold q in DM. set (r := (n mod D)%Z) in *.
        assert (NR : Rabs (IZR m) / IZR D = (IZR q + IZR r / IZR D) * bpow radix2 (-200)).
        { rewrite <- abs_IZR. assert (E2 : IZR n = IZR (Z.abs m) * bpow radix2 200) by (unfold n; rewrite mult_IZR; f_equal; change (2 ^ 200)%Z with (radix2 ^ 200)%Z; apply IZR_Zpower; lia).
          assert (E3 : IZR n = IZR D * IZR q + IZR r) by (rewrite <- mult_IZR, <- plus_IZR; f_equal; exact DM).
          replace (IZR q + IZR r / IZR D) with (IZR n / IZR D) by (rewrite E3; field; lra). rewrite E2. unfold Rdiv. replace (IZR (Z.abs m) * bpow radix2 200 * / IZR D * bpow radix2 (-200)) with (IZR (Z.abs m) * / IZR D * (bpow radix2 200 * bpow radix2 (-200))) by ring.
          rewrite <- bpow_plus. change (bpow radix2 (200 + -200)) with 1. ring. }
        rewrite NR. replace (bpow radix2 (-201)) with (bpow radix2 (-200) * / 2) by (change (-201)%Z with (-200 + -1)%Z; rewrite bpow_plus; f_equal; cbn; lra).
        assert (F0 : 0 <= IZR r / IZR D < 1). { split; [apply Rmult_le_pos; [apply IZR_le; lia|left; now apply Rinv_0_lt_compat]|]. apply Rmult_lt_reg_r with (IZR D); [exact DR|]. unfold Rdiv. rewrite Rmult_assoc, Rinv_l, Rmult_1_r, Rmult_1_l by lra. apply IZR_lt; lia. }
        set (f := IZR r / IZR D) in *. set (b := bpow radix2 (-200)). assert (B0 : 0 < b) by apply bpow_gt_0.
        assert (Es : exists u, 0 <= u <= 1 /\ IZR s = 2 * IZR q + u).
        { exists (IZR (if (r =? 0)%Z then 0 else 1)). split; [destruct (r =? 0)%Z; cbn; lra|]. unfold s. rewrite plus_IZR, mult_IZR. reflexivity. }
        destruct Es as (u & Hu & ->). replace ((2 * IZR q + u) * (b * / 2) - (IZR q + f) * b) with ((u * / 2 - f) * b) by (clearbody b f; field). rewrite Rabs_mult, (Rabs_pos_eq b) by lra. apply Rle_trans with (1 * b); [|lra]. apply Rmult_le_compat_r; [lra|]. apply Rabs_le. lra. }
      exists (F2R (Float radix2 (if (m <? 0)%Z then (- s)%Z else s) (-201))).
      assert (V : Rabs (F2R (Float radix2 (if (m <? 0)%Z then (- s)%Z else s) (-201)) - R_lit (m, e)) <= bpow radix2 (-200)).
      { rewrite ED. unfold F2R. cbn [Fnum Fexp]. destruct (Z.ltb_spec m 0).
        - rewrite opp_IZR. rewrite (Rabs_left1 (IZR m)) in A by (apply IZR_le; lia). replace (- IZR s * bpow radix2 (-201) - IZR m / IZR D) with (- (IZR s * bpow radix2 (-201) - - IZR m / IZR D)) by (unfold Rdiv; ring). rewrite Rabs_Ropp. exact A.
        - rewrite (Rabs_pos_eq (IZR m)) in A by (apply IZR_le; lia). exact A. }
      split; [|exact V]. apply norm_any. set (v := F2R _) in *. replace v with (v - R_lit (m, e) + R_lit (m, e)) by ring. eapply Rle_trans; [apply Rabs_triang|]. pose proof (tiny (-200) ltac:(lia)). lra. }
  destruct Val as (v & [V F] & A). repeat split; [exact F| |exact Hr|apply Rle_trans with (/ 4); [change (/ 4) with (bpow radix2 (-2)); apply bpow_le; lia|lra]]. rewrite V.
  pose proof (rnd_err v) as E. pose proof (tiny (-200) ltac:(lia)) as T1. pose proof (tiny (-150) ltac:(lia)) as T2.
  assert (Hv : Rabs v <= V0 + / 1152921504606846976). { replace v with (v - R_lit (m, e) + R_lit (m, e)) by ring. eapply Rle_trans; [apply Rabs_triang|]. lra. }
  replace (rnd32 v - R_lit (m, e)) with (rnd32 v - v + (v - R_lit (m, e))) by ring. eapply Rle_trans; [apply Rabs_triang|]. unfold gp. cbn [pow]. unfold vv, uu in *. lra.
Qed.
Lemma lit_ap d : lit_ok d = true -> Rabs (R_lit d) <= 107 / 100 -> ap 1 (107 / 100) (f32_lit d) (R_lit d).
Proof. intros O H. apply lit_ap_gen; [exact O|lra|exact H]. Qed.

(* ---- the scale of the transform ---- *)
Lemma gain_ap lm N : (1 <= N <= 480)%Z -> ap 3 (1 / sqrt (2 * IZR N)) (mdct_gain (f32_ops lm) N) (1 / sqrt (2 * IZR N)).
Proof.
  intros HN. unfold mdct_gain. cbn [f32_ops fdiv fsqrt fmul fz]. destruct (fz_val 1 ltac:(lia)) as [V1 F1]. destruct (fz_val 2 ltac:(lia)) as [V2 F2]. destruct (fz_val N ltac:(lia)) as [VN FN].
  pose proof (Bmult_correct 24 128 f32_prec f32_emax mode_NE (f32_of_Z 2) (f32_of_Z N)) as B. fold fexp32 in B. change (round_mode mode_NE) with ZnearestE in B. fold (rnd32 (B2R (f32_of_Z 2) * B2R (f32_of_Z N))) in B. rewrite V2, VN in B.
  assert (E2 : rnd32 (2 * IZR N) = 2 * IZR N). { rewrite <- mult_IZR. apply rnd_id. replace (IZR (2 * N)) with (F2R (Float radix2 (2 * N) 0)) by (unfold F2R; cbn [Fnum Fexp bpow]; ring). apply fmt_F2R; lia. }
  rewrite E2 in B. assert (NR : 1 <= IZR N <= 480) by (split; apply IZR_le; lia). rewrite (Rlt_bool_true (Rabs (2 * IZR N))) in B.
  2:{ rewrite Rabs_pos_eq by lra. apply Rlt_le_trans with (bpow radix2 10); [|apply bpow_le; lia]. change (bpow radix2 10) with 1024. lra. }
  destruct B as (VB & FB & _). rewrite F2, FN in FB. cbn [andb] in FB. set (p := Bmult mode_NE (f32_of_Z 2) (f32_of_Z N)) in *.
  pose proof (Bsqrt_correct 24 128 f32_prec f32_emax mode_NE p) as S. fold fexp32 in S. change (round_mode mode_NE) with ZnearestE in S. fold (rnd32 (sqrt (B2R p))) in S. rewrite VB in S. destruct S as (VS & FS & _).
  set (s := sqrt (2 * IZR N)) in *. assert (S1 : 1 <= s). { unfold s. rewrite <- sqrt_1 at 1. apply sqrt_le_1_alt. lra. } assert (S2 : s <= 64). { unfold s. rewrite <- (sqrt_square 64) by lra. apply sqrt_le_1_alt. lra. }
  pose proof (rnd_err s) as Er. pose proof (tiny (-150) ltac:(lia)) as T2. set (q := Bsqrt mode_NE p) in *. rewrite (Rabs_pos_eq s) in Er by lra.
  assert (Eq : Rabs (B2R q - s) <= vv * s). { rewrite VS. eapply Rle_trans; [exact Er|]. unfold vv, uu. lra. }
  assert (Fq : is_finite q = true). { rewrite FS. destruct p as [sg|sg| |sg mm ee He]; try discriminate FB; try reflexivity. destruct sg; [|reflexivity]. exfalso. unfold B2R, F2R in VB. cbn [Fnum Fexp SpecFloat.cond_Zopp] in VB. assert (0 < bpow radix2 ee) by apply bpow_gt_0. assert (IZR (Z.neg mm) < 0) by (apply IZR_lt; lia). change (Z.opp (Z.pos mm)) with (Z.neg mm) in VB. nra. }
  pose proof vv_pos as V0. pose proof uu_pos as U0. apply Rabs_le_inv in Eq. assert (Q0 : 0 < B2R q) by nra.
  pose proof (Bdiv_correct 24 128 f32_prec f32_emax mode_NE (f32_of_Z 1) q ltac:(lra)) as D. fold fexp32 in D. change (round_mode mode_NE) with ZnearestE in D. fold (rnd32 (B2R (f32_of_Z 1) / B2R q)) in D. rewrite V1 in D.
  assert (A1 : Rabs (1 / B2R q - 1 / s) <= (gp 2 - 1) * (1 / s)).
  { replace (1 / B2R q - 1 / s) with ((s - B2R q) / B2R q * (1 / s)) by (field; lra). rewrite Rabs_mult, (Rabs_pos_eq (1 / s)) by (left; apply Rdiv_lt_0_compat; lra). apply Rmult_le_compat_r; [left; apply Rdiv_lt_0_compat; lra|].
    unfold Rdiv. rewrite Rabs_mult, (Rabs_pos_eq (/ B2R q)) by (left; now apply Rinv_0_lt_compat). apply Rmult_le_reg_r with (B2R q); [exact Q0|]. rewrite Rmult_assoc, Rinv_l, Rmult_1_r by lra.
    apply Rle_trans with (vv * s); [apply Rabs_le; lra|]. unfold gp. cbn [pow]. apply Rle_trans with ((2 * vv + vv * vv) * ((1 - vv) * s)); [|apply Rmult_le_compat; nra].
    assert (0 <= vv * s * (1 - vv - vv * vv)). { apply Rmult_le_pos; [nra|]. nra. } nra. }
  assert (G0 : 0 < 1 / s) by (apply Rdiv_lt_0_compat; lra). assert (G1 : 1 / s <= 1) by (apply Rmult_le_reg_r with s; [lra|]; unfold Rdiv; rewrite Rmult_assoc, Rinv_l; lra).
  assert (G2 : / 64 <= 1 / s) by (unfold Rdiv; rewrite Rmult_1_l; apply Rinv_le_contravar; lra).
  assert (Tg : th <= 1 / s). { eapply Rle_trans; [|exact G2]. pose proof (tiny (-100) ltac:(lia)) as T3. unfold th. lra. }
  destruct (ap_round 2 (1 / s) (1 / B2R q) (1 / s) A1 ltac:(rewrite Rabs_pos_eq; lra) Tg) as [E F]. specialize (F ltac:(lia)).
  rewrite F in D. 2:{ unfold big. eapply Rle_trans; [exact G1|]. change 1 with (bpow radix2 0). apply bpow_le. lia. }
  destruct D as (VD & FD & _). repeat split; [rewrite FD; exact F1|rewrite VD; exact E|rewrite Rabs_pos_eq; lra|exact Tg].
Qed.

(* ---- the constants ---- *)
Lemma vv_num : 5 / 100000000 < vv < 59605 / 1000000000000. Proof. unfold vv, uu. lra. Qed.
Lemma lam_num : lam 2 <= 15 * vv /\ lam 3 <= 64 * vv /\ lam 4 <= 25 * vv /\ lam 5 <= 100 * vv.
Proof.
  assert (Q : forall x y, 0 <= y -> x <= y * y -> sqrt x <= y). { intros x y Hy H. rewrite <- (sqrt_square y) by exact Hy. now apply sqrt_le_1_alt. }
  assert (S2 : sqrt 2 <= 14143 / 10000) by (apply Q; lra). assert (S3 : sqrt 3 <= 17321 / 10000) by (apply Q; lra). assert (S4 : sqrt 4 <= 2) by (apply Q; lra). assert (S5 : sqrt 5 <= 22361 / 10000) by (apply Q; lra).
  pose proof vv_num as V.
  assert (P : forall s f k b, 0 <= s <= b -> 0 <= f -> (k <= 4000)%nat -> 2 * s * f * (gp k - 1) <= 2 * b * f * (101 / 100 * INR k * vv)).
  { intros s f k b Hs Hf Hk. pose proof (gp_lin k Hk). pose proof (gp_1 k). assert (0 <= 2 * s * f) by (apply Rmult_le_pos; lra). apply Rmult_le_compat; try lra. apply Rmult_le_compat_r; lra. }
  unfold lam, bf_f, bf_k. cbn [Z.eqb Pos.eqb]. repeat split.
  - eapply Rle_trans; [apply (P (sqrt 2) 1 5%nat _ (conj (sqrt_pos 2) S2)); [lra|lia]|]. cbn [INR]. lra.
  - eapply Rle_trans; [apply (P (sqrt 3) 2 9%nat _ (conj (sqrt_pos 3) S3)); [lra|lia]|]. cbn [INR]. lra.
  - eapply Rle_trans; [apply (P (sqrt 4) 1 6%nat _ (conj (sqrt_pos 4) S4)); [lra|lia]|]. cbn [INR]. lra.
  - eapply Rle_trans; [apply (P (sqrt 5) 2 11%nat _ (conj (sqrt_pos 5) S5)); [lra|lia]|]. cbn [INR]. lra.
Qed.
Lemma one_more a b l m : 0 <= a <= b -> b <= / 1000 -> 0 <= l <= m -> (1 + a) * (1 + l) - 1 <= b + 1001 / 1000 * m.
Proof. intros. assert (a * l <= / 1000 * m) by (apply Rmult_le_compat; lra). lra. Qed.
Lemma rho_step p m r b l k : rho r <= b * vv -> b <= 400 -> lam p <= l * vv -> b + 1001 / 1000 * l <= k -> rho (p :: m :: r) <= k * vv.
Proof.
  intros Hr Hb Hl Hk. cbn [rho]. pose proof vv_num as V. pose proof (rho_pos (length r) r ltac:(lia)) as P. pose proof (lam_pos p) as Q.
  eapply Rle_trans; [apply (one_more (rho r) (b * vv) (lam p) (l * vv) (conj P Hr))|]; [|lra|].
  - apply Rle_trans with (400 * vv); [apply Rmult_le_compat_r; lra|lra].
  - replace (b * vv + 1001 / 1000 * (l * vv)) with ((b + 1001 / 1000 * l) * vv) by ring. apply Rmult_le_compat_r; lra.
Qed.
Lemma factor_cases c fl : legal_config c -> dct_factors (nf c) = Ok fl ->
  In fl [[4; 10; 2; 5; 5; 1]; [2; 15; 3; 5; 5; 1]; [4; 20; 4; 5; 5; 1]; [4; 15; 3; 5; 5; 1]; [4; 30; 2; 15; 3; 5; 5; 1]; [2; 45; 3; 15; 3; 5; 5; 1]; [4; 40; 4; 10; 2; 5; 5; 1]; [4; 60; 4; 15; 3; 5; 5; 1]; [4; 45; 3; 15; 3; 5; 5; 1]]%Z.
Proof. intros (f & d & ->) E. destruct f, d; vm_compute in E; apply Ok_inj in E; subst fl; cbn [In]; tauto. Qed.
Lemma rho_num c fl : legal_config c -> dct_factors (nf c) = Ok fl -> rho fl <= 256 * vv.
Proof.
  intros L E. apply (factor_cases c fl L) in E. destruct lam_num as (L2 & L3 & L4 & L5). assert (R0 : rho [] <= 0 * vv) by (cbn [rho]; lra).
  pose proof (fun m => rho_step 5 m [] _ _ (1002 / 10) R0 ltac:(lra) L5 ltac:(lra)) as R5.
  pose proof (fun m n => rho_step 3 m _ _ _ 165 (R5 n) ltac:(lra) L3 ltac:(lra)) as R35. pose proof (fun m n => rho_step 2 m _ _ _ 116 (R5 n) ltac:(lra) L2 ltac:(lra)) as R25.
  pose proof (fun m n => rho_step 4 m _ _ _ 126 (R5 n) ltac:(lra) L4 ltac:(lra)) as R45.
  destruct E as [<-|[<-|[<-|[<-|[<-|[<-|[<-|[<-|[<-|[]]]]]]]]]].
  - refine (rho_step _ _ _ _ _ _ (R25 _ _) _ L4 _); lra.
  - refine (rho_step _ _ _ _ _ _ (R35 _ _) _ L2 _); lra.
  - refine (rho_step _ _ _ _ _ _ (R45 _ _) _ L4 _); lra.
  - refine (rho_step _ _ _ _ _ _ (R35 _ _) _ L4 _); lra.
  - refine (rho_step _ _ _ _ _ _ (rho_step _ _ _ _ _ 181 (R35 _ _) _ L2 _) _ L4 _); lra.
  - refine (rho_step _ _ _ _ _ _ (rho_step _ _ _ _ _ 230 (R35 _ _) _ L3 _) _ L2 _); lra.
  - refine (rho_step _ _ _ _ _ _ (rho_step _ _ _ _ _ 142 (R25 _ _) _ L4 _) _ L4 _); lra.
  - refine (rho_step _ _ _ _ _ _ (rho_step _ _ _ _ _ 191 (R35 _ _) _ L4 _) _ L4 _); lra.
  - refine (rho_step _ _ _ _ _ _ (rho_step _ _ _ _ _ 230 (R35 _ _) _ L3 _) _ L4 _); lra.
Qed.
Definition eps_dct : R := 17 / 1000000.
Lemma dct_eps_num fl : 0 <= rho fl <= 256 * vv -> rho fl <= / 2 /\ 0 <= dct_eps fl <= 165 / 10000000.
Proof.
  intros [P H]. pose proof vv_num as V. split; [lra|]. unfold dct_eps. pose proof (gp_lin 4 ltac:(lia)) as G. cbn [INR] in G. pose proof (gp_1 4). assert (C : 0 <= cc <= 809 / 100 * vv) by (unfold cc; lra).
  assert (A1 : 0 <= (1 + vv) * (1 + cc) - 1 <= 92 / 10 * vv). { pose proof (one_more vv vv cc (809 / 100 * vv) ltac:(lra) ltac:(lra) C). split; [nra|lra]. } set (a1 := (1 + vv) * (1 + cc) - 1) in *.
  assert (A2 : 0 <= (1 + a1) * (1 + cc) - 1 <= 174 / 10 * vv). { pose proof (one_more a1 (92 / 10 * vv) cc (809 / 100 * vv) A1 ltac:(lra) C). split; [nra|lra]. } set (a2 := (1 + a1) * (1 + cc) - 1) in *.
  replace ((1 + vv) * (1 + cc) * (1 + cc) * (1 + rho fl) - 1) with ((1 + a2) * (1 + rho fl) - 1) by (unfold a2, a1; ring).
  pose proof (one_more a2 (174 / 10 * vv) (rho fl) (256 * vv) A2 ltac:(lra) (conj P H)). split; [nra|lra].
Qed.

(* ---- the scaled transform ---- *)
Definition tt : R := 1048576 * th.
Lemma tt_bpow : tt = bpow radix2 (-80).
Proof. unfold tt, th. change (-80)%Z with (20 + -100)%Z. rewrite bpow_plus. f_equal. Qed.
Lemma nrm_sub0 n f g : (forall t, (0 <= t < Z.of_nat n)%Z -> Rabs (f t) <= Rabs (g t)) -> nrm n f <= nrm n g.
Proof.
  intros H. unfold nrm. apply sqrt_le_1_alt. apply rsum_le. intros t Ht. rewrite <- (Rabs_pos_eq (f t * f t)), <- (Rabs_pos_eq (g t * g t)), !Rabs_mult by apply sq_pos. apply Rmult_le_compat; auto; apply Rabs_pos.
Qed.
Section Sdct.
Variables (lm : libm) (h : Z) (fl : list Z) (x : Z -> f32).
Local Notation o := (f32_ops lm).
Hypotheses (Hh : (1 <= h <= 240)%Z) (Ch : chain h fl) (S : small_factors fl) (Ne : fl <> []) (Htw : twiddles_near lm h) (Hrho : rho fl <= 256 * vv).
Hypothesis Fx : forall t, (0 <= t < 2 * h)%Z -> is_finite (x t) = true.
Local Notation N := (Z.to_nat (2 * h)).
Let xr (t : Z) : R := B2R (x t).
Let X : R := nrm N xr.
Hypothesis HX : X <= bpow radix2 94.
Let g : R := 1 / sqrt (2 * IZR (2 * h)).
Let d (j : Z) : f32 := dct_val o h fl x j.
Lemma sg_h : 1 <= sqrt (IZR h) <= 16.
Proof. split; [apply sqrtn_ge; lia|]. rewrite <- (sqrt_square 16) by lra. apply sqrt_le_1_alt. rewrite <- mult_IZR. apply IZR_le. lia. Qed.
Lemma sg_g : g * (2 * sqrt (IZR h)) = 1 /\ / 64 <= g <= / 2.
Proof.
  pose proof sg_h as H. unfold g. replace (sqrt (2 * IZR (2 * h))) with (2 * sqrt (IZR h)).
  2:{ rewrite mult_IZR. replace (2 * (2 * IZR h)) with (2 * 2 * IZR h) by ring. rewrite sqrt_mult, sqrt_square by (try lra; apply IZR_le; lia). reflexivity. }
  split; [field; lra|]. unfold Rdiv. rewrite Rmult_1_l. split; apply Rinv_le_contravar; lra.
Qed.
Lemma sd_err : (forall j, (0 <= j < 2 * h)%Z -> is_finite (d j) = true) /\ nrm N (fun j => B2R (d j) - dct4 (2 * h) xr j) <= 165 / 10000000 * (2 * sqrt (IZR h)) * (X + 32 * th).
Proof.
  destruct (dct_eps_num fl (conj (rho_pos (length fl) fl ltac:(lia)) Hrho)) as [R1 R2]. pose proof sg_h as H. pose proof th_pos as T0. pose proof (nrm_pos N xr) as X0. fold X in X0.
  assert (Y1 : X + sqrt (IZR h) * phi <= X + 32 * th) by (unfold phi; nra). assert (Y0 : 0 <= X + sqrt (IZR h) * phi) by (unfold phi; nra).
  destruct (dct_err lm h fl x ltac:(lia) Ch S Ne Htw Fx R1) as [F E].
  { change (nrm (Z.to_nat (2 * h)) (fun t => B2R (x t))) with X. apply Rle_trans with (64 * 16 * (X + 32 * th)); [apply Rmult_le_compat; lra|]. unfold big. replace (bpow radix2 110) with (bpow radix2 94 * bpow radix2 16) by (rewrite <- bpow_plus; reflexivity).
    pose proof th_small. assert (1 <= bpow radix2 94) by (change 1 with (bpow radix2 0); apply bpow_le; lia). apply Rle_trans with (1024 * (33 * bpow radix2 94)); [lra|]. change (bpow radix2 16) with (IZR 65536). lra. }
  split; [exact F|]. eapply Rle_trans; [exact E|]. fold xr. change (nrm (Z.to_nat (2 * h)) (fun t => B2R (x t))) with X. apply Rmult_le_compat; [|exact Y0| |exact Y1]; [apply Rmult_le_pos; lra|]. apply Rmult_le_compat_r; lra.
Qed.
Definition sq (j : Z) : R := (gp 6 - 1) * ((Rabs (B2R (d j)) + 64 * th) * g) + g * Rabs (B2R (d j) - dct4 (2 * h) xr j).
Lemma sq_pos' j : 0 <= sq j.
Proof. unfold sq. pose proof (gp_1 6). pose proof th_pos. destruct sg_g as [_ [G _]]. pose proof (Rabs_pos (B2R (d j))). pose proof (Rabs_pos (B2R (d j) - dct4 (2 * h) xr j)). clearbody g. apply Rplus_le_le_0_compat; apply Rmult_le_pos; try lra. apply Rmult_le_pos; lra. Qed.
Lemma dct_size : nrm N (dct4 (2 * h) xr) = 2 * sqrt (IZR h) * X.
Proof.
  unfold X. rewrite dct4_parseval by lia. f_equal. rewrite mult_IZR. replace (2 * (2 * IZR h)) with (2 * 2 * IZR h) by ring. rewrite sqrt_mult, sqrt_square by (try lra; apply IZR_le; lia). reflexivity.
Qed.
Lemma d_size : nrm N (fun j => B2R (d j)) <= 2 * sqrt (IZR h) * (100002 / 100000 * X + th).
Proof.
  destruct sd_err as [_ E]. eapply Rle_trans; [apply (nrm_sub N _ (dct4 (2 * h) xr) (fun j => B2R (d j) - dct4 (2 * h) xr j))|].
  - intros j Hj. replace (B2R (d j)) with (dct4 (2 * h) xr j + (B2R (d j) - dct4 (2 * h) xr j)) at 1 by ring. apply Rabs_triang.
  - rewrite dct_size. pose proof sg_h as H. pose proof th_pos as T0. pose proof (nrm_pos N xr) as X0. fold X in X0. eapply Rle_trans; [apply Rplus_le_compat_l; exact E|].
    replace (2 * sqrt (IZR h) * X + 165 / 10000000 * (2 * sqrt (IZR h)) * (X + 32 * th)) with (2 * sqrt (IZR h) * (X + 165 / 10000000 * (X + 32 * th))) by ring. apply Rmult_le_compat_l; lra.
Qed.
Lemma sq_nrm : nrm N sq <= eps_dct * (X + tt).
Proof.
  destruct sd_err as [_ E]. pose proof d_size as D. pose proof sg_h as H. destruct sg_g as [G1 G2]. pose proof th_pos as T0. pose proof (nrm_pos N xr) as X0. fold X in X0. pose proof (gp_1 6) as P1. pose proof (gp_lin 6 ltac:(lia)) as P2. cbn [INR] in P2. pose proof vv_num as V.
  unfold sq. eapply Rle_trans; [apply nrm_tri|]. rewrite (nrm_scale N g) by lra. rewrite (nrm_scale N (gp 6 - 1)) by lra.
  rewrite (nrm_ext N (fun t => (Rabs (B2R (d t)) + 64 * th) * g) (fun t => g * (Rabs (B2R (d t)) + 64 * th))) by (intros; ring). rewrite (nrm_scale N g) by lra.
  assert (A1 : g * nrm N (fun t => Rabs (B2R (d t) - dct4 (2 * h) xr t)) <= 165 / 10000000 * (X + 32 * th)).
  { apply Rle_trans with (g * (165 / 10000000 * (2 * sqrt (IZR h)) * (X + 32 * th))).
    - apply Rmult_le_compat_l; [lra|]. eapply Rle_trans; [|exact E]. apply nrm_sub0. intros t _. rewrite Rabs_Rabsolu. apply Rle_refl.
    - right. replace (g * (165 / 10000000 * (2 * sqrt (IZR h)) * (X + 32 * th))) with (g * (2 * sqrt (IZR h)) * (165 / 10000000 * (X + 32 * th))) by ring. rewrite G1. ring. }
  assert (A2 : g * nrm N (fun t => Rabs (B2R (d t)) + 64 * th) <= 100002 / 100000 * X + 65 * th).
  { apply Rle_trans with (g * (2 * sqrt (IZR h) * (100002 / 100000 * X + th) + sqrt (INR N) * (64 * th))).
    - apply Rmult_le_compat_l; [lra|]. eapply Rle_trans; [apply nrm_tri|]. rewrite nrm_const by lra. apply Rplus_le_compat_r. eapply Rle_trans; [|exact D]. apply nrm_sub0. intros t _. rewrite Rabs_Rabsolu. apply Rle_refl.
    - assert (SN : g * sqrt (INR N) <= 1). { rewrite <- G1. apply Rmult_le_compat_l; [lra|]. rewrite INR_IZR_INZ, Z2Nat.id by lia. rewrite mult_IZR, sqrt_mult by (try lra; apply IZR_le; lia). apply Rmult_le_compat_r; [lra|]. rewrite <- (sqrt_square 2) at 2 by lra. apply sqrt_le_1_alt. lra. }
      replace (g * (2 * sqrt (IZR h) * (100002 / 100000 * X + th) + sqrt (INR N) * (64 * th))) with (g * (2 * sqrt (IZR h)) * (100002 / 100000 * X + th) + g * sqrt (INR N) * (64 * th)) by ring. rewrite G1.
      assert (g * sqrt (INR N) * (64 * th) <= 1 * (64 * th)) by (apply Rmult_le_compat_r; lra). lra. }
  assert (A3 : (gp 6 - 1) * (g * nrm N (fun t => Rabs (B2R (d t)) + 64 * th)) <= 37 / 100000000 * (100002 / 100000 * X + 65 * th)).
  { apply Rmult_le_compat; [lra|apply Rmult_le_pos; [lra|apply nrm_pos]|lra|exact A2]. }
  unfold eps_dct, tt. lra.
Qed.
(* a coefficient times the scale *)
Lemma sd_scaled j v : (0 <= j < 2 * h)%Z -> is_finite v = true -> Rabs (B2R v) = Rabs (B2R (d j)) -> ap 4 ((Rabs (B2R (d j)) + 64 * th) * g) (Bmult mode_NE v (mdct_gain o (2 * h))) (B2R v * g).
Proof.
  intros Hj F E. pose proof (gain_ap lm (2 * h) ltac:(lia)) as G. fold g in G. destruct sg_g as [G1 G2]. pose proof th_pos as T0. pose proof (Rabs_pos (B2R (d j))) as D0.
  pose proof (ap_weaken _ _ 0 (Rabs (B2R (d j)) + 64 * th) _ _ (ap_exact v F) ltac:(lia) ltac:(lra)) as A.
  assert (B : Rabs (B2R (d j)) + 64 * th <= bpow radix2 104).
  { pose proof d_size as D. pose proof (nrm_get N (fun j => B2R (d j)) j ltac:(lia)) as K. cbv beta in K. pose proof sg_h as H. pose proof (nrm_pos N xr) as X0. fold X in X0. pose proof th_small.
    assert (P : 1 <= bpow radix2 94) by (change 1 with (bpow radix2 0); apply bpow_le; lia). replace (bpow radix2 104) with (bpow radix2 94 * 1024) by (change 1024 with (bpow radix2 10); rewrite <- bpow_plus; reflexivity).
    assert (2 * sqrt (IZR h) * (100002 / 100000 * X + th) <= 32 * (2 * bpow radix2 94 + 1)) by (apply Rmult_le_compat; lra). lra. }
  apply (ap_mult 0 _ 3 g v _ _ g A G); [lia| |].
  - apply Rle_trans with (64 * th * / 64); [lra|]. apply Rmult_le_compat; lra.
  - apply Rle_trans with (bpow radix2 104 * 1); [apply Rmult_le_compat; lra|]. rewrite Rmult_1_r. apply bpow_le. lia.
Qed.
Lemma sd_line j : (0 <= j < 2 * h)%Z -> is_finite (fmul o (d j) (mdct_gain o (2 * h))) = true /\ Rabs (B2R (fmul o (d j) (mdct_gain o (2 * h))) - dct4 (2 * h) xr j * g) <= sq j.
Proof.
  intros Hj. destruct sd_err as [F _]. destruct (sd_scaled j (d j) Hj (F j Hj) eq_refl) as (G & E & _). split; [exact G|]. destruct sg_g as [G1 G2]. pose proof th_pos as T0. pose proof (Rabs_pos (B2R (d j))) as D0.
  change (fmul o (d j) (mdct_gain o (2 * h))) with (Bmult mode_NE (d j) (mdct_gain o (2 * h))). set (v := Bmult _ _ _) in *.
  replace (B2R v - dct4 (2 * h) xr j * g) with (B2R v - B2R (d j) * g + g * (B2R (d j) - dct4 (2 * h) xr j)) by ring. eapply Rle_trans; [apply Rabs_triang|]. rewrite (Rabs_mult g), (Rabs_pos_eq g) by lra. unfold sq. apply Rplus_le_compat_r.
  eapply Rle_trans; [exact E|]. apply Rmult_le_compat_r; [apply Rmult_le_pos; lra|]. pose proof (gp_le 4 6 ltac:(lia)). lra.
Qed.
Lemma sd_out j (s : bool) (v : f32) (w : Z * Z) (wr : R) : (0 <= j < 2 * h)%Z -> v = (if s then d j else Bopp (d j)) -> ap 1 (107 / 100) (f32_lit w) wr -> let y := fmul o (fmul o v (mdct_gain o (2 * h))) (flit o w) in
  is_finite y = true /\ Rabs (B2R y - (if s then dct4 (2 * h) xr j else - dct4 (2 * h) xr j) * g * wr) <= 107 / 100 * sq j.
Proof.
  intros Hj Ev W. destruct sd_err as [F _]. assert (Fv : is_finite v = true /\ B2R v = if s then B2R (d j) else - B2R (d j)). { subst v. destruct s; [split; [now apply F|reflexivity]|]. rewrite is_finite_Bopp, B2R_Bopp. split; [now apply F|reflexivity]. }
  destruct Fv as [Fv Vv]. assert (Av : Rabs (B2R v) = Rabs (B2R (d j))) by (rewrite Vv; destruct s; [reflexivity|apply Rabs_Ropp]).
  pose proof (sd_scaled j v Hj Fv Av) as A. destruct sg_g as [G1 G2]. pose proof th_pos as T0. pose proof (Rabs_pos (B2R (d j))) as D0. destruct W as (W1 & W2 & W3 & W4).
  assert (Th : th <= (Rabs (B2R (d j)) + 64 * th) * g) by (destruct A as (_ & _ & _ & A); exact A).
  assert (B : (Rabs (B2R (d j)) + 64 * th) * g <= bpow radix2 108).
  { pose proof d_size as D. pose proof (nrm_get N (fun j => B2R (d j)) j ltac:(lia)) as K. cbv beta in K. pose proof sg_h as H. pose proof (nrm_pos N xr) as X0. fold X in X0. pose proof th_small.
    assert (P : 1 <= bpow radix2 94) by (change 1 with (bpow radix2 0); apply bpow_le; lia). replace (bpow radix2 108) with (bpow radix2 94 * 16384) by (change 16384 with (bpow radix2 14); rewrite <- bpow_plus; reflexivity).
    assert (2 * sqrt (IZR h) * (100002 / 100000 * X + th) <= 32 * (2 * bpow radix2 94 + 1)) by (apply Rmult_le_compat; lra). assert ((Rabs (B2R (d j)) + 64 * th) * g <= (Rabs (B2R (d j)) + 64 * th) * 1) by (apply Rmult_le_compat_l; lra). lra. }
  set (Sz := (Rabs (B2R (d j)) + 64 * th) * g) in *.
  destruct (ap_mult 4 Sz 1 (107 / 100) _ (f32_lit w) _ wr A (conj W1 (conj W2 (conj W3 W4))) ltac:(lia) ltac:(lra)) as (Fy & Ey & _).
  { apply Rle_trans with (bpow radix2 108 * 2); [apply Rmult_le_compat; lra|]. change 2 with (bpow radix2 1). rewrite <- bpow_plus. apply bpow_le. lia. }
  intros y. change y with (Bmult mode_NE (Bmult mode_NE v (mdct_gain o (2 * h))) (f32_lit w)). set (u := Bmult mode_NE _ (f32_lit w)) in *. split; [exact Fy|].
  set (D := if s then dct4 (2 * h) xr j else - dct4 (2 * h) xr j). replace (B2R u - D * g * wr) with (B2R u - B2R v * g * wr + g * (B2R v - D) * wr) by ring. eapply Rle_trans; [apply Rabs_triang|].
  assert (E2 : Rabs (B2R v - D) = Rabs (B2R (d j) - dct4 (2 * h) xr j)). { rewrite Vv. unfold D. destruct s; [reflexivity|]. rewrite <- Rabs_Ropp. f_equal. ring. }
  rewrite (Rabs_mult _ wr), (Rabs_mult g), (Rabs_pos_eq g), E2 by lra. unfold sq. fold Sz. rewrite Rmult_plus_distr_l. apply Rplus_le_compat.
  - eapply Rle_trans; [exact Ey|]. change (4 + 1 + 1)%nat with 6%nat. right. ring.
  - rewrite Rmult_comm. apply Rmult_le_compat_r; [|exact W3]. apply Rmult_le_pos; [lra|apply Rabs_pos].
Qed.
End Sdct.
