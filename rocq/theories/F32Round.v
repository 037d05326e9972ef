(* Rounding of output samples: `(x + 0.5) as i32` on binary32 against round half away from zero on the reals. *)
From Coq Require Import ZArith List Bool Lia Reals Lra.
From Flocq Require Import Core BinarySingleNaN.
From Verif Require Import Base Scalar DecSignal F32.
Import ListNotations.
Local Open Scope R_scope.

Definition fexp32 : Z -> Z := SpecFloat.fexp 24 128.
Definition rnd32 : R -> R := round radix2 fexp32 ZnearestE.
Local Notation fmt := (generic_format radix2 fexp32).
Lemma fexp32_eq : forall e, fexp32 e = FLT_exp (-149) 24 e.
Proof. intros e. unfold fexp32, SpecFloat.fexp, FLT_exp, SpecFloat.emin. reflexivity. Qed.
Global Instance fexp32_valid : Valid_exp fexp32.
Proof. exact (fexp_correct 24 128 f32_prec). Qed.

Lemma fmt_F2R (m e : Z) : (Z.abs m < 2 ^ 24)%Z -> (-149 <= e)%Z -> fmt (F2R (Float radix2 m e)).
Proof.
  intros Hm He. apply (generic_format_FLT radix2 (-149) 24). exists (Float radix2 m e); [reflexivity|exact Hm|exact He].
Qed.
Lemma fmt_int_half (n : Z) : (0 <= n <= 65536)%Z -> fmt (IZR n) /\ fmt (IZR n + / 2).
Proof.
  intros H. split.
  - replace (IZR n) with (F2R (Float radix2 n 0)) by (unfold F2R; cbn; lra). apply fmt_F2R; lia.
  - replace (IZR n + / 2) with (F2R (Float radix2 (2 * n + 1) (-1))). 2:{ unfold F2R. cbn [Fnum Fexp]. rewrite plus_IZR, mult_IZR. cbn. lra. } apply fmt_F2R; lia.
Qed.
Lemma rnd_le (x y : R) : x <= y -> rnd32 x <= rnd32 y.
Proof. apply round_le; typeclasses eauto. Qed.
Lemma rnd_id (x : R) : fmt x -> rnd32 x = x.
Proof. apply round_generic. typeclasses eauto. Qed.

Definition pred_half : R := / 2 - bpow radix2 (-25).

(* a representable x with its canonical exponent *)
Lemma fmt_cases (x : R) : fmt x -> / 4 <= x -> exists m, x = IZR m * bpow radix2 (mag radix2 x - 24) /\ (-1 <= mag radix2 x)%Z.
Proof.
  intros F H. assert (M : (-1 <= mag radix2 x)%Z). { apply mag_ge_bpow. rewrite Rabs_pos_eq by lra. cbn. lra. }
  exists (Ztrunc (scaled_mantissa radix2 fexp32 x)). split; [|exact M]. rewrite F at 1. unfold F2R. cbn [Fnum Fexp]. do 2 f_equal.
  unfold cexp. rewrite fexp32_eq. unfold FLT_exp. lia.
Qed.

Lemma floor_round_half (x : R) : fmt x -> 0 < x -> x <> pred_half -> Z.min (Zfloor (rnd32 (x + / 2))) 32768 = Z.min (Zfloor (x + / 2)) 32768.
Proof.
  intros F Hx Hp. destruct (Rle_lt_dec 32768 x) as [B|B].
  - assert (32768 <= Zfloor (rnd32 (x + / 2)))%Z.
    { apply Zfloor_lub. rewrite <- (rnd_id (IZR 32768)) by (apply fmt_int_half; lia). apply rnd_le. lra. }
    assert (32768 <= Zfloor (x + / 2))%Z by (apply Zfloor_lub; lra). lia.
  - f_equal. set (n := Zfloor (x + / 2)). assert (N1 : IZR n <= x + / 2) by apply Zfloor_lb. assert (N2 : x + / 2 < IZR n + 1) by apply Zfloor_ub.
    assert (N0 : (0 <= n)%Z) by (apply Zfloor_lub; lra). assert (N3 : (n <= 32768)%Z) by (apply le_IZR; assert (IZR n < 32769) by lra; apply IZR_le; apply lt_IZR in H; lia).
    destruct (fmt_int_half n) as [Fn Fh]; [lia|].
    apply Zfloor_imp. rewrite plus_IZR. split.
    + rewrite <- (rnd_id (IZR n)) by assumption. now apply rnd_le.
    + destruct (Rle_lt_dec x (IZR n)) as [C|C].
      * apply Rle_lt_trans with (IZR n + / 2); [|lra]. rewrite <- (rnd_id (IZR n + / 2)) by assumption. apply rnd_le. lra.
      * destruct (Z.eq_dec n 0) as [Z0|Z0].
        { rewrite Z0 in *. assert (x <= / 2 - bpow radix2 (-24)).
          { destruct (Rle_lt_dec (/ 4) x) as [Q|Q]; [|cbn; lra]. destruct (fmt_cases x F Q) as (m & E & M).
            assert (M2 : mag radix2 x = (-1)%Z :> Z). { apply Z.le_antisymm; [|exact M]. apply mag_le_bpow; [lra|]. rewrite Rabs_pos_eq by lra. cbn. lra. }
            rewrite M2 in E. cbn [Z.sub Z.add Z.opp Pos.add Pos.succ] in E.
            assert (L : (m < 16777216)%Z). { apply lt_IZR. apply Rmult_lt_reg_r with (bpow radix2 (-25)); [apply bpow_gt_0|]. rewrite <- E. cbn. lra. }
            assert (m <> 16777215%Z). { intros ->. apply Hp. rewrite E. unfold pred_half. cbn. lra. }
            rewrite E. apply Rle_trans with (IZR 16777214 * bpow radix2 (-25)); [apply Rmult_le_compat_r; [apply bpow_ge_0|apply IZR_le; lia]|cbn; lra]. }
          apply Rle_lt_trans with (1 - bpow radix2 (-24)); [|cbn; lra].
          rewrite <- (rnd_id (1 - bpow radix2 (-24))); [apply rnd_le; lra|].
          replace (1 - bpow radix2 (-24)) with (F2R (Float radix2 16777215 (-24))) by (unfold F2R; cbn; lra). apply fmt_F2R; lia. }
        { assert (X1 : 1 <= x). { assert (IZR 1 <= IZR n) by (apply IZR_le; lia). lra. }
          destruct (fmt_cases x F ltac:(lra)) as (m & E & _). set (k := mag radix2 x : Z) in *.
          assert (K1 : (1 <= k)%Z) by (apply mag_ge_bpow; rewrite Rabs_pos_eq by lra; cbn; lra).
          assert (K2 : (k <= 16)%Z) by (apply mag_le_bpow; [lra|rewrite Rabs_pos_eq by lra; cbn; lra]).
          assert (K3 : x < bpow radix2 k). { rewrite <- (Rabs_pos_eq x) by lra. apply bpow_mag_gt. }
          assert (K4 : (n + 1 <= 2 ^ k)%Z). { assert (n < 2 ^ k)%Z; [|lia]. apply lt_IZR. rewrite <- (IZR_Zpower radix2) in K3 by lia. change (radix2 ^ k)%Z with (2 ^ k)%Z in K3. lra. }
          assert (E2 : x + / 2 = F2R (Float radix2 (m + 2 ^ (23 - k)) (k - 24))).
          { unfold F2R. cbn [Fnum Fexp]. rewrite plus_IZR, Rmult_plus_distr_r, <- E. f_equal. change (2 ^ (23 - k))%Z with (radix2 ^ (23 - k))%Z. rewrite IZR_Zpower by lia.
            rewrite <- bpow_plus. replace (23 - k + (k - 24))%Z with (-1)%Z by lia. reflexivity. }
          rewrite rnd_id; [lra|]. rewrite E2. apply fmt_F2R; [|lia].
          assert (P : 0 < bpow radix2 (k - 24)) by apply bpow_gt_0.
          assert (M0 : (0 <= m)%Z). { apply le_IZR. apply Rmult_le_reg_r with (bpow radix2 (k - 24)); [exact P|]. rewrite <- E. lra. }
          assert (P2 : (0 < 2 ^ (23 - k))%Z) by (apply Z.pow_pos_nonneg; lia). rewrite Z.abs_eq by lia.
          apply lt_IZR. apply Rmult_lt_reg_r with (bpow radix2 (k - 24)); [exact P|].
          change (2 ^ 24)%Z with (radix2 ^ 24)%Z. rewrite (IZR_Zpower radix2 24), <- bpow_plus by lia. replace (24 + (k - 24))%Z with k by lia.
          unfold F2R in E2. cbn [Fnum Fexp] in E2. rewrite <- E2.
          apply Rlt_le_trans with (IZR n + 1); [exact N2|]. rewrite <- plus_IZR. change radix2 with (Build_radix 2 (refl_equal true)). rewrite <- (IZR_Zpower _ k) by lia. apply IZR_le. exact K4. }
Qed.

(* round half away from zero *)
Definition round_away (x : R) : Z := if Rlt_bool 0 x then Zfloor (x + / 2) else Zceil (x - / 2).
Definition clamp16 (z : Z) : Z := Z.max (Z.min z 32767) (-32768).
(* what C18 asks of a sample *)
Definition sample_spec (x : f32) : Z :=
  match x with
  | B754_nan => 0
  | B754_infinity s => if s then -32768 else 32767
  | _ => clamp16 (round_away (B2R x))
  end.
Lemma round_away_nearest x : Rabs (IZR (round_away x) - x) <= / 2 /\ (Rabs (IZR (round_away x) - x) = / 2 -> Rabs x < Rabs (IZR (round_away x))).
Proof.
  unfold round_away. destruct (Rlt_bool_spec 0 x) as [H|H].
  - pose proof (Zfloor_lb (x + / 2)) as A. pose proof (Zfloor_ub (x + / 2)) as B. split; [apply Rabs_le; lra|].
    intros Q. assert (IZR (Zfloor (x + / 2)) - x = / 2) by (revert Q; unfold Rabs; destruct (Rcase_abs _); lra). rewrite !Rabs_pos_eq; lra.
  - assert (A : IZR (Zceil (x - / 2)) < x - / 2 + 1). { unfold Zceil. rewrite opp_IZR. pose proof (Zfloor_ub (- (x - / 2))). lra. }
    pose proof (Zceil_ub (x - / 2)) as B. split; [apply Rabs_le; lra|].
    intros Q. assert (IZR (Zceil (x - / 2)) - x = - / 2) by (revert Q; unfold Rabs; destruct (Rcase_abs _); lra). rewrite (Rabs_left1 x H), Rabs_left1; lra.
Qed.

Lemma half_val : B2R (f32_lit (5, -1)%Z) = / 2 /\ is_finite (f32_lit (5, -1)%Z) = true.
Proof.
  assert (E : B2SF (f32_lit (5, -1)%Z) = SpecFloat.S754_finite false 8388608 (-24)) by (vm_compute; reflexivity).
  destruct (f32_lit (5, -1)%Z) as [| | |s m e He]; try discriminate E. cbn [B2SF] in E. injection E as -> -> ->. split; [|reflexivity].
  unfold B2R, F2R, SpecFloat.cond_Zopp. cbn [Fnum Fexp]. cbn. lra.
Qed.
Lemma zero_val : B2R (f32_of_Z 0) = 0 /\ is_finite (f32_of_Z 0) = true.
Proof. assert (E : B2SF (f32_of_Z 0) = SpecFloat.S754_zero false) by (vm_compute; reflexivity). destruct (f32_of_Z 0); try discriminate E. split; reflexivity. Qed.

Lemma Btrunc_val (y : f32) : Btrunc y = Ztrunc (B2R y).
Proof. apply eq_IZR. rewrite (Btrunc_correct 24 128 f32_emax). unfold round, F2R, scaled_mantissa, cexp, FIX_exp. cbn [Fnum Fexp Z.opp bpow]. now rewrite !Rmult_1_r. Qed.
Lemma f32_to_i32_finite (y : f32) : is_finite y = true -> f32_to_i32 y = Z.max (-2147483648) (Z.min 2147483647 (Ztrunc (B2R y))).
Proof. intros H. rewrite <- Btrunc_val. destruct y; try discriminate H; reflexivity. Qed.
Lemma rnd_opp x : rnd32 (- x) = - rnd32 x.
Proof. apply round_NE_opp. Qed.
Lemma overflow_val s : binary_overflow 24 128 mode_NE s = SpecFloat.S754_infinity s.
Proof. reflexivity. Qed.

Theorem to_i16_correct lm (x : f32) : B2R x <> pred_half -> B2R x <> - pred_half -> to_i16 (f32_ops lm) x = sample_spec x.
Proof.
  intros H1 H2. destruct (is_finite x) eqn:FX.
  2:{ destruct x as [s|s| |s m e He]; try discriminate FX; [destruct s|]; vm_compute; reflexivity. }
  assert (FM : fmt (B2R x)) by apply generic_format_B2R.
  assert (ES : sample_spec x = clamp16 (round_away (B2R x))) by (destruct x; try discriminate FX; reflexivity). rewrite ES.
  unfold to_i16. cbn [f32_ops flt fz fadd fsub flit f_i32]. destruct half_val as [HV HF]. destruct zero_val as [ZV ZF].
  rewrite (Bltb_correct 24 128 _ _ ZF FX), ZV. set (h := f32_lit (5, -1)%Z) in *. unfold round_away. destruct (Rlt_bool_spec 0 (B2R x)) as [P|P].
  - pose proof (floor_round_half (B2R x) FM P H1) as K.
    pose proof (Bplus_correct 24 128 f32_prec f32_emax mode_NE x h FX HF) as BP. rewrite HV in BP. fold fexp32 in BP. change (round_mode mode_NE) with ZnearestE in BP. fold (rnd32 (B2R x + / 2)) in BP.
    assert (Y0 : 0 <= rnd32 (B2R x + / 2)). { rewrite <- (rnd_id 0) by apply generic_format_0. apply rnd_le. lra. }
    destruct (Rlt_bool_spec (Rabs (rnd32 (B2R x + / 2))) (bpow radix2 128)) as [Q|Q].
    + destruct BP as (V & W & _). rewrite (f32_to_i32_finite _ W), V, (Ztrunc_floor _ Y0).
      pose proof (Zfloor_lub 0 _ Y0). assert (0 <= Zfloor (B2R x + / 2))%Z by (apply Zfloor_lub; lra). unfold clamp16. lia.
    + destruct BP as [V W]. rewrite overflow_val in V. assert (SX : Bsign x = false).
      { destruct x as [s|s| |s m e He]; try discriminate FX; cbn [B2R] in P; [lra|]. destruct s; [|reflexivity]. exfalso. unfold F2R in P. cbn [Fnum Fexp SpecFloat.cond_Zopp] in P.
        assert (IZR (Z.opp (Z.pos m)) < 0) by (apply IZR_lt; lia). assert (0 < bpow radix2 e) by apply bpow_gt_0. change (Z.opp (Z.pos m)) with (Z.neg m) in *. nra. }
      rewrite SX in V. destruct (Bplus mode_NE x h) as [s|s| |s m e He]; try discriminate V. cbn [B2SF] in V. injection V as ->. cbn [f32_to_i32].
      assert (32768 <= Zfloor (rnd32 (B2R x + / 2)))%Z. { apply Zfloor_lub. rewrite Rabs_pos_eq in Q by exact Y0. assert (32768 <= bpow radix2 128) by (cbn; lra). lra. }
      unfold clamp16. lia.
  - pose proof (Bminus_correct 24 128 f32_prec f32_emax mode_NE x h FX HF) as BP. rewrite HV in BP. fold fexp32 in BP. change (round_mode mode_NE) with ZnearestE in BP. fold (rnd32 (B2R x - / 2)) in BP.
    assert (Y0 : rnd32 (B2R x - / 2) <= 0). { rewrite <- (rnd_id 0) by apply generic_format_0. apply rnd_le. lra. }
    assert (EO : rnd32 (B2R x - / 2) = - rnd32 (- B2R x + / 2)) by (rewrite <- rnd_opp; f_equal; lra).
    assert (K : Z.min (Zfloor (rnd32 (- B2R x + / 2))) 32768 = Z.min (Zfloor (- B2R x + / 2)) 32768).
    { destruct P as [P|P].
      - apply floor_round_half; [now apply generic_format_opp|lra|lra].
      - rewrite P. replace (- 0 + / 2) with (IZR 0 + / 2) by lra. rewrite rnd_id; [reflexivity|]. apply (fmt_int_half 0). lia. }
    assert (EC : Zceil (B2R x - / 2) = (- Zfloor (- B2R x + / 2))%Z) by (unfold Zceil; do 2 f_equal; lra).
    assert (0 <= Zfloor (- B2R x + / 2))%Z by (apply Zfloor_lub; lra).
    destruct (Rlt_bool_spec (Rabs (rnd32 (B2R x - / 2))) (bpow radix2 128)) as [Q|Q].
    + destruct BP as (V & W & _). rewrite (f32_to_i32_finite _ W), V, (Ztrunc_ceil _ Y0), EC, EO. unfold Zceil. rewrite Ropp_involutive.
      assert (0 <= Zfloor (rnd32 (- B2R x + / 2)))%Z by (apply Zfloor_lub; rewrite EO in Y0; lra). unfold clamp16. lia.
    + destruct BP as [V W]. rewrite overflow_val in V. assert (SX : Bsign x = true). { destruct h as [[]|[]| |[] m e He]; try discriminate HF; cbn [Bsign negb] in W; try exact W; exfalso; cbn [B2R] in HV; try lra.
        unfold F2R in HV. cbn [Fnum Fexp SpecFloat.cond_Zopp] in HV. assert (IZR (Z.opp (Z.pos m)) < 0) by (apply IZR_lt; lia). assert (0 < bpow radix2 e) by apply bpow_gt_0. change (Z.opp (Z.pos m)) with (Z.neg m) in *. nra. }
      rewrite SX in V. destruct (Bminus mode_NE x h) as [s|s| |s m e He]; try discriminate V. cbn [B2SF] in V. injection V as ->. cbn [f32_to_i32].
      assert (32768 <= Zfloor (rnd32 (- B2R x + / 2)))%Z.
      { apply Zfloor_lub. rewrite EO, Rabs_Ropp, Rabs_pos_eq in Q by (rewrite EO in Y0; lra). assert (32768 <= bpow radix2 128) by (cbn; lra). lra. }
      rewrite EC. unfold clamp16. lia.
Qed.
