(* Concealment fading and residual refinement in binary32 and in exact arithmetic. *)
From Coq Require Import ZArith List Bool Lia Reals Lra.
From Coquelicot Require Import Coquelicot.
From Flocq Require Import Core BinarySingleNaN.
From Verif Require Import Base Scalar Loops DecSignal LineSpec F32 F32Round RealOps.
Import ListNotations.
Local Open Scope R_scope.
Local Notation fmt := (generic_format radix2 fexp32).

(* ---- fading, exact ---- *)
Lemma R_9 : flit R_ops (9, -1)%Z = 9 / 10.
Proof. unfold R_ops, flit, R_lit, fst, snd, powerRZ. change (Pos.to_nat 1) with 1%nat. cbn [pow]. lra. Qed.
Lemma R_85 : flit R_ops (85, -2)%Z = 85 / 100.
Proof. unfold R_ops, flit, R_lit, fst, snd, powerRZ. change (Pos.to_nat 2) with 2%nat. cbn [pow]. lra. Qed.
Lemma fade_S k : fade R_ops (S k) = if (k <? 4)%nat then fade R_ops k else if (k <? 8)%nat then fade R_ops k * (9 / 10) else fade R_ops k * (85 / 100).
Proof.
  cbn [fade]. replace (Z.of_nat k <? 4)%Z with (k <? 4)%nat; [replace (Z.of_nat k <? 8)%Z with (k <? 8)%nat|].
  - destruct (k <? 4)%nat; [reflexivity|]. destruct (k <? 8)%nat; [rewrite R_9|rewrite R_85]; reflexivity.
  - apply eq_true_iff_eq. rewrite Nat.ltb_lt, Z.ltb_lt. lia.
  - apply eq_true_iff_eq. rewrite Nat.ltb_lt, Z.ltb_lt. lia.
Qed.
Lemma fade_R k : fade R_ops k = if (k <=? 4)%nat then 1 else if (k <=? 8)%nat then (9 / 10) ^ (k - 4) else (9 / 10) ^ 4 * (85 / 100) ^ (k - 8).
Proof.
  induction k as [|k IH]; [reflexivity|]. rewrite fade_S, IH.
  destruct (Nat.ltb_spec k 4), (Nat.leb_spec k 4), (Nat.leb_spec (S k) 4), (Nat.ltb_spec k 8), (Nat.leb_spec k 8), (Nat.leb_spec (S k) 8); try lia; try reflexivity.
  - replace (S k - 4)%nat with 1%nat by lia. rewrite pow_1. lra.
  - replace (S k - 4)%nat with (S (k - 4)) by lia. rewrite <- tech_pow_Rmult. lra.
  - replace k with 8%nat by lia. cbn [Nat.sub pow]. lra.
  - replace (S k - 8)%nat with (S (k - 8)) by lia. change ((85 / 100) ^ S (k - 8)) with (85 / 100 * (85 / 100) ^ (k - 8)). lra.
Qed.
Lemma fade_R_pos k : 0 < fade R_ops k <= 1.
Proof. induction k as [|k IH]; [cbn; lra|]. rewrite fade_S. destruct (k <? 4)%nat; [exact IH|]. destruct (k <? 8)%nat; lra. Qed.
Lemma fade_R_mono k : fade R_ops (S k) <= fade R_ops k.
Proof. pose proof (fade_R_pos k). rewrite fade_S. destruct (k <? 4)%nat; [lra|]. destruct (k <? 8)%nat; lra. Qed.
Lemma fade_R_lim : is_lim_seq (fade R_ops) 0.
Proof.
  apply (is_lim_seq_incr_n _ 9). eapply is_lim_seq_ext with (u := fun n => (9 / 10) ^ 4 * 85 / 100 * (85 / 100) ^ n).
  - intros n. rewrite fade_R. destruct (Nat.leb_spec (n + 9) 4); [lia|]. destruct (Nat.leb_spec (n + 9) 8); [lia|]. replace (n + 9 - 8)%nat with (S n) by lia. change ((85 / 100) ^ S n) with (85 / 100 * (85 / 100) ^ n). lra.
  - replace (Finite 0) with (Rbar_mult ((9 / 10) ^ 4 * 85 / 100) (Finite 0)) by (cbn; f_equal; lra). apply is_lim_seq_scal_l. apply is_lim_seq_geom. rewrite Rabs_pos_eq; lra.
Qed.

(* ---- binary32 helpers ---- *)
Lemma bmul_val (x y : f32) : is_finite x = true -> is_finite y = true -> Rabs (B2R y) <= 1 ->
  B2R (Bmult mode_NE x y) = rnd32 (B2R x * B2R y) /\ is_finite (Bmult mode_NE x y) = true.
Proof.
  intros Hx Hy H1. pose proof (Bmult_correct 24 128 f32_prec f32_emax mode_NE x y) as K. fold fexp32 in K. change (round_mode mode_NE) with ZnearestE in K. fold (rnd32 (B2R x * B2R y)) in K.
  assert (L : Rabs (rnd32 (B2R x * B2R y)) <= Rabs (B2R x)).
  { assert (FX : fmt (Rabs (B2R x))) by (apply generic_format_abs, generic_format_B2R). unfold rnd32. apply abs_round_le_generic; [typeclasses eauto..|exact FX|].
    rewrite Rabs_mult. pose proof (Rabs_pos (B2R x)). nra. }
  rewrite Rlt_bool_true in K. 2:{ eapply Rle_lt_trans; [exact L|]. apply abs_B2R_lt_emax. }
  destruct K as (K1 & K2 & _). rewrite Hx, Hy in K2. auto.
Qed.
Lemma bopp_val (x : f32) : B2R (Bopp x) = - B2R x. Proof. apply B2R_Bopp. Qed.
Definition c90 : f32 := f32_lit (9, -1)%Z.
Definition c85 : f32 := f32_lit (85, -2)%Z.
Lemma lit_val (x : f32) m e : B2SF x = SpecFloat.S754_finite false m e -> B2R x = F2R (Float radix2 (Z.pos m) e) /\ is_finite x = true.
Proof. intros E. destruct x as [| | |s m' e' He]; try discriminate E. cbn [B2SF] in E. injection E as -> -> ->. split; reflexivity. Qed.
Lemma c90_val : B2R c90 = 15099494 / 16777216 /\ is_finite c90 = true.
Proof. destruct (lit_val c90 15099494 (-24)) as [A B]; [vm_compute; reflexivity|]. split; [|exact B]. rewrite A. unfold F2R. cbn. lra. Qed.
Lemma c85_val : B2R c85 = 14260634 / 16777216 /\ is_finite c85 = true.
Proof. destruct (lit_val c85 14260634 (-24)) as [A B]; [vm_compute; reflexivity|]. split; [|exact B]. rewrite A. unfold F2R. cbn. lra. Qed.
Lemma one_val : B2R (f32_of_Z 1) = 1 /\ is_finite (f32_of_Z 1) = true.
Proof. destruct (lit_val (f32_of_Z 1) 8388608 (-23)) as [A B]; [vm_compute; reflexivity|]. split; [|exact B]. rewrite A. unfold F2R. cbn. lra. Qed.

(* ---- fading, binary32 ---- *)
Section Fade32.
Variable lm : libm.
Local Notation fd := (fade (f32_ops lm)).
Definition fade_coef (k : nat) : f32 := if (Z.of_nat k <? 8)%Z then c90 else c85.
Lemma fade32_S k : fd (S k) = if (Z.of_nat k <? 4)%Z then fd k else Bmult mode_NE (fd k) (fade_coef k).
Proof. cbn [fade]. destruct (Z.of_nat k <? 4)%Z; [reflexivity|]. unfold fade_coef. destruct (Z.of_nat k <? 8)%Z; reflexivity. Qed.
Lemma coef_val k : 0.84 <= B2R (fade_coef k) <= 1 /\ is_finite (fade_coef k) = true.
Proof. unfold fade_coef. destruct c90_val as [A B], c85_val as [C D]. destruct (_ <? _)%Z; rewrite ?A, ?C; split; trivial; lra. Qed.
Lemma tiny_fmt : fmt (bpow radix2 (-149)).
Proof. replace (bpow radix2 (-149)) with (F2R (Float radix2 1 (-149))) by (unfold F2R; cbn [Fnum Fexp]; lra). apply fmt_F2R; lia. Qed.
Lemma rnd_tiny x : 0.84 * bpow radix2 (-149) <= x -> bpow radix2 (-149) <= rnd32 x.
Proof.
  intros H. assert (T : 0 < bpow radix2 (-149)) by apply bpow_gt_0. destruct (Rle_lt_dec (bpow radix2 (-149)) x) as [G|G].
  { rewrite <- (rnd_id _ tiny_fmt). apply rnd_le. exact G. }
  unfold rnd32, round. assert (X : Rabs x < bpow radix2 (-149)) by (rewrite Rabs_pos_eq by lra; exact G).
  assert (CE : cexp radix2 fexp32 x = (-149)%Z).
  { unfold cexp. rewrite fexp32_eq. unfold FLT_exp. assert (mag radix2 x <= -149)%Z by (apply mag_le_bpow; [lra|exact X]). lia. }
  unfold scaled_mantissa. rewrite CE. assert (M : ZnearestE (x * bpow radix2 (- -149)) = 1%Z).
  { apply Znearest_imp. change (- -149)%Z with 149%Z. assert (B : bpow radix2 (-149) * bpow radix2 149 = 1) by (rewrite <- bpow_plus; reflexivity). assert (0 < bpow radix2 149) by apply bpow_gt_0.
    apply Rabs_def1; nra. }
  rewrite M. unfold F2R. cbn [Fnum Fexp]. lra.
Qed.
Lemma fade32_inv k : bpow radix2 (-149) <= B2R (fd k) <= 1 /\ is_finite (fd k) = true.
Proof.
  induction k as [|k [IH1 IH2]].
  - cbn [fade fz f32_ops]. destruct one_val as [A B]. rewrite A. split; [|exact B]. split; [|lra]. change 1 with (bpow radix2 0). apply bpow_le. lia.
  - rewrite fade32_S. destruct (Z.of_nat k <? 4)%Z; [auto|]. destruct (coef_val k) as [C1 C2].
    destruct (bmul_val (fd k) (fade_coef k) IH2 C2 ltac:(rewrite Rabs_pos_eq; lra)) as [V1 V2]. split; [|exact V2]. rewrite V1. split.
    + apply rnd_tiny. assert (0 < bpow radix2 (-149)) by apply bpow_gt_0. nra.
    + rewrite <- (rnd_id 1); [apply rnd_le; assert (0 < bpow radix2 (-149)) by apply bpow_gt_0; nra|]. change 1 with (IZR 1). apply (fmt_int_half 1). lia.
Qed.
Lemma fade32_mono k : B2R (fd (S k)) <= B2R (fd k).
Proof.
  rewrite fade32_S. destruct (Z.of_nat k <? 4)%Z; [lra|]. destruct (fade32_inv k) as [I1 I2]. destruct (coef_val k) as [C1 C2].
  destruct (bmul_val (fd k) (fade_coef k) I2 C2 ltac:(rewrite Rabs_pos_eq; lra)) as [V1 _]. rewrite V1. rewrite <- (rnd_id (B2R (fd k))) at 2 by apply generic_format_B2R. apply rnd_le.
  assert (0 < bpow radix2 (-149)) by apply bpow_gt_0. nra.
Qed.
Lemma fade32_fix K : (8 <= K)%nat -> Bmult mode_NE (fd K) c85 = fd K -> forall k, (K <= k)%nat -> fd k = fd K.
Proof.
  intros HK E k Hk. induction Hk as [|k Hk IH]; [reflexivity|]. rewrite fade32_S, IH.
  destruct (Z.ltb_spec (Z.of_nat k) 4); [lia|]. unfold fade_coef. destruct (Z.ltb_spec (Z.of_nat k) 8); [lia|]. exact E.
Qed.
(* after 700 losses the factor no longer changes: three units in the last place of the denormals *)
Lemma fade32_stuck k : (700 <= k)%nat -> B2R (fd k) = 3 * bpow radix2 (-149).
Proof.
  assert (E : B2SF (fd 700) = SpecFloat.S754_finite false 3 (-149)) by (vm_compute; reflexivity).
  assert (E2 : B2SF (Bmult mode_NE (fd 700) c85) = B2SF (fd 700)) by (vm_compute; reflexivity). apply B2SF_inj in E2.
  intros H. rewrite (fade32_fix 700 ltac:(repeat constructor) E2 k H). destruct (lit_val _ _ _ E) as [V _]. rewrite V. unfold F2R. cbn [Fnum Fexp]. reflexivity.
Qed.
(* magnitude of a concealed line *)
Definition concealed (neg : bool) (k : nat) (x : f32) : f32 := fmul (f32_ops lm) x (if neg then fneg (f32_ops lm) (fd k) else fd k).
Lemma concealed_val neg k x : is_finite x = true -> Rabs (B2R (concealed neg k x)) = rnd32 (Rabs (B2R x) * B2R (fd k)) /\ is_finite (concealed neg k x) = true.
Proof.
  intros Hx. destruct (fade32_inv k) as [I1 I2]. assert (0 < bpow radix2 (-149)) by apply bpow_gt_0. unfold concealed. cbn [fmul fneg f32_ops].
  assert (A : forall y : f32, is_finite y = true -> Rabs (B2R y) = B2R (fd k) -> Rabs (B2R (Bmult mode_NE x y)) = rnd32 (Rabs (B2R x) * B2R (fd k)) /\ is_finite (Bmult mode_NE x y) = true).
  { intros y Fy Ry. destruct (bmul_val x y Hx Fy ltac:(lra)) as [V1 V2]. split; [|exact V2]. rewrite V1. rewrite <- Ry, <- Rabs_mult. unfold rnd32. symmetry. apply round_NE_abs. typeclasses eauto. }
  destruct neg; apply A.
  - now rewrite is_finite_Bopp.
  - rewrite bopp_val, Rabs_Ropp. apply Rabs_pos_eq. lra.
  - exact I2.
  - apply Rabs_pos_eq. lra.
Qed.
Theorem concealed_mono n1 n2 k x : is_finite x = true -> Rabs (B2R (concealed n1 (S k) x)) <= Rabs (B2R (concealed n2 k x)) <= Rabs (B2R x).
Proof.
  intros Hx. destruct (concealed_val n1 (S k) x Hx) as [-> _]. destruct (concealed_val n2 k x Hx) as [-> _]. pose proof (fade32_mono k). destruct (fade32_inv k) as [I1 I2]. pose proof (Rabs_pos (B2R x)). split.
  - apply rnd_le. nra.
  - rewrite <- (rnd_id (Rabs (B2R x))) at 2 by apply generic_format_abs, generic_format_B2R. apply rnd_le. nra.
Qed.
Theorem concealed_first neg k x : (k <= 4)%nat -> is_finite x = true -> Rabs (B2R (concealed neg k x)) = Rabs (B2R x).
Proof.
  intros Hk Hx. destruct (concealed_val neg k x Hx) as [-> _]. assert (E : fd k = f32_of_Z 1).
  { do 5 (destruct k as [|k]; [reflexivity|]). lia. }
  rewrite E. destruct one_val as [-> _]. rewrite Rmult_1_r. apply rnd_id, generic_format_abs, generic_format_B2R.
Qed.
(* the end of the fade *)
Theorem concealed_end neg k x : (700 <= k)%nat -> is_finite x = true -> Rabs (B2R (concealed neg k x)) <= rnd32 (3 * bpow radix2 (-149) * Rabs (B2R x)).
Proof. intros Hk Hx. destruct (concealed_val neg k x Hx) as [-> _]. rewrite fade32_stuck by exact Hk. apply rnd_le. lra. Qed.
End Fade32.

(* ---- residual refinement ---- *)
(* the offset: towards the outside by 5/16 or inside by 3/16, in units of the line *)
Definition offset (bit : bool) (pos : bool) : R := match bit, pos with true, true => 5 / 16 | true, false => 3 / 16 | false, true => - (3 / 16) | false, false => - (5 / 16) end.
Lemma R_3125 : flit R_ops (3125, -4)%Z = 5 / 16.
Proof. unfold R_ops, flit, R_lit, fst, snd, powerRZ. change (Pos.to_nat 4) with 4%nat. cbn [pow]. lra. Qed.
Lemma R_1875 : flit R_ops (1875, -4)%Z = 3 / 16.
Proof. unfold R_ops, flit, R_lit, fst, snd, powerRZ. change (Pos.to_nat 4) with 4%nat. cbn [pow]. lra. Qed.
Lemma refine_R bit x : refine R_ops bit x = x + offset bit (Rlt_bool 0 x).
Proof. unfold refine. cbn [flt fz R_ops]. change (IZR 0) with 0. destruct bit, (Rlt_bool 0 x); rewrite ?R_3125, ?R_1875; cbn [fadd fsub R_ops]; unfold offset; lra. Qed.
Lemma refine_R_bounds bit x : 1 <= Rabs x -> 3 / 16 <= Rabs (refine R_ops bit x - x) <= 5 / 16 /\ 11 / 16 <= Rabs (refine R_ops bit x) /\ 0 < refine R_ops bit x * x.
Proof.
  intros H. rewrite refine_R. replace (x + offset bit (Rlt_bool 0 x) - x) with (offset bit (Rlt_bool 0 x)) by lra.
  unfold offset. destruct (Rlt_bool_spec 0 x) as [P|P].
  - rewrite Rabs_pos_eq in H by lra. destruct bit; repeat split; try (rewrite ?Rabs_Ropp, Rabs_pos_eq; lra); nra.
  - rewrite Rabs_left1 in H by lra. destruct bit; repeat split; try (rewrite ?Rabs_Ropp, Rabs_pos_eq; lra); try (rewrite Rabs_left1; lra); nra.
Qed.
Lemma norm_val (m e : Z) : (Z.abs m < 2 ^ 24)%Z -> (-149 <= e <= 0)%Z -> B2R (f32_norm m e) = F2R (Float radix2 m e) /\ is_finite (f32_norm m e) = true.
Proof.
  intros Hm He. pose proof (binary_normalize_correct 24 128 f32_prec f32_emax mode_NE m e false) as K. fold fexp32 in K. change (round_mode mode_NE) with ZnearestE in K. cbv zeta in K.
  fold (rnd32 (F2R (Float radix2 m e))) in K. rewrite rnd_id in K by (apply fmt_F2R; lia).
  rewrite Rlt_bool_true in K; [destruct K as (K1 & K2 & _); auto|]. unfold F2R. cbn [Fnum Fexp]. rewrite Rabs_mult, (Rabs_pos_eq (bpow _ _)) by apply bpow_ge_0. rewrite <- abs_IZR.
  apply Rle_lt_trans with (IZR (2 ^ 24) * bpow radix2 0); [apply Rmult_le_compat; [apply IZR_le; lia|apply bpow_ge_0|apply IZR_le; lia|apply bpow_le; lia]|].
  change (2 ^ 24)%Z with (radix2 ^ 24)%Z. rewrite (IZR_Zpower radix2 24) by lia. rewrite <- bpow_plus. apply bpow_lt. lia.
Qed.
Lemma fz_val (v : Z) : (Z.abs v < 2 ^ 24)%Z -> B2R (f32_of_Z v) = IZR v /\ is_finite (f32_of_Z v) = true.
Proof. intros H. destruct (norm_val v 0 H ltac:(lia)) as [A B]. split; [|exact B]. unfold f32_of_Z. rewrite A. unfold F2R. cbn [Fnum Fexp bpow]. lra. Qed.
Lemma c3125_val : B2R (f32_lit (3125, -4)%Z) = 5 / 16 /\ is_finite (f32_lit (3125, -4)%Z) = true.
Proof. destruct (lit_val (f32_lit (3125, -4)%Z) 10485760 (-25)) as [A B]; [vm_compute; reflexivity|]. split; [|exact B]. rewrite A. unfold F2R. cbn. lra. Qed.
Lemma c1875_val : B2R (f32_lit (1875, -4)%Z) = 3 / 16 /\ is_finite (f32_lit (1875, -4)%Z) = true.
Proof. destruct (lit_val (f32_lit (1875, -4)%Z) 12582912 (-26)) as [A B]; [vm_compute; reflexivity|]. split; [|exact B]. rewrite A. unfold F2R. cbn. lra. Qed.
Lemma sixteenth_fmt (m : Z) : (Z.abs m < 2 ^ 24)%Z -> fmt (IZR m / 16) /\ Rabs (IZR m / 16) < bpow radix2 128.
Proof.
  intros H. split.
  - replace (IZR m / 16) with (F2R (Float radix2 m (-4))) by (unfold F2R; cbn [Fnum Fexp]; cbn; lra). apply fmt_F2R; lia.
  - apply Rabs_lt. assert (IZR (- 2 ^ 24) < IZR m < IZR (2 ^ 24)) by (split; apply IZR_lt; lia). assert (IZR (2 ^ 24) < bpow radix2 128). { change (2 ^ 24)%Z with (radix2 ^ 24)%Z. rewrite (IZR_Zpower radix2 24) by lia. apply bpow_lt. lia. }
    rewrite opp_IZR in H0. lra.
Qed.
(* in binary32 the refinement of an integer line is exact *)
Theorem refine_f32 lm bit (v : Z) : v <> 0%Z -> (Z.abs v < 2 ^ 20 - 1)%Z ->
  B2R (refine (f32_ops lm) bit (f32_of_Z v)) = IZR v + offset bit (0 <? v)%Z /\ is_finite (refine (f32_ops lm) bit (f32_of_Z v)) = true.
Proof.
  intros H0 Hv. destruct (fz_val v ltac:(lia)) as [V VF]. destruct (fz_val 0 ltac:(lia)) as [Z0 ZF]. unfold refine. cbn [flt fz fadd fsub flit f32_ops].
  rewrite (Bltb_correct 24 128 _ _ ZF VF), V, Z0. replace (Rlt_bool 0 (IZR v)) with (0 <? v)%Z.
  2:{ destruct (Z.ltb_spec 0 v) as [P|P]; symmetry; [apply Rlt_bool_true; now apply (IZR_lt 0)|apply Rlt_bool_false; now apply (IZR_le _ 0)]. }
  destruct c3125_val as [A1 A2], c1875_val as [B1 B2].
  assert (P : forall (c : f32) (k : Z), is_finite c = true -> B2R c = IZR k / 16 -> (Z.abs k < 16)%Z -> B2R (Bplus mode_NE (f32_of_Z v) c) = IZR v + IZR k / 16 /\ is_finite (Bplus mode_NE (f32_of_Z v) c) = true).
  { intros c k Fc Vc Hk. pose proof (Bplus_correct 24 128 f32_prec f32_emax mode_NE (f32_of_Z v) c VF Fc) as K. fold fexp32 in K. change (round_mode mode_NE) with ZnearestE in K. rewrite V, Vc in K.
    fold (rnd32 (IZR v + IZR k / 16)) in K. replace (IZR v + IZR k / 16) with (IZR (16 * v + k) / 16) in * by (rewrite plus_IZR, mult_IZR; lra).
    destruct (sixteenth_fmt (16 * v + k) ltac:(lia)) as [F1 F2]. rewrite rnd_id in K by exact F1. rewrite Rlt_bool_true in K by exact F2. destruct K as (K1 & K2 & _). auto. }
  assert (M : forall (c : f32) (k : Z), is_finite c = true -> B2R c = IZR k / 16 -> (Z.abs k < 16)%Z -> B2R (Bminus mode_NE (f32_of_Z v) c) = IZR v - IZR k / 16 /\ is_finite (Bminus mode_NE (f32_of_Z v) c) = true).
  { intros c k Fc Vc Hk. pose proof (Bminus_correct 24 128 f32_prec f32_emax mode_NE (f32_of_Z v) c VF Fc) as K. fold fexp32 in K. change (round_mode mode_NE) with ZnearestE in K. rewrite V, Vc in K.
    fold (rnd32 (IZR v - IZR k / 16)) in K. replace (IZR v - IZR k / 16) with (IZR (16 * v - k) / 16) in * by (rewrite minus_IZR, mult_IZR; lra).
    destruct (sixteenth_fmt (16 * v - k) ltac:(lia)) as [F1 F2]. rewrite rnd_id in K by exact F1. rewrite Rlt_bool_true in K by exact F2. destruct K as (K1 & K2 & _). auto. }
  unfold offset. destruct bit, (0 <? v)%Z.
  - apply (P _ 5%Z A2 A1). lia.
  - apply (P _ 3%Z B2 B1). lia.
  - destruct (M _ 3%Z B2 B1 ltac:(lia)) as [E1 E2]. split; [rewrite E1; lra|exact E2].
  - destruct (M _ 5%Z A2 A1 ltac:(lia)) as [E1 E2]. split; [rewrite E1; lra|exact E2].
Qed.
