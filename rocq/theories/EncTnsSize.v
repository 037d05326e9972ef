(* The encoder's temporal noise shaping in binary32: which coefficients leave the tables, and how far the analysis lattice can raise a line. *)
From Coq Require Import ZArith Lia List Bool Reals Lra Ratan Machin.
From Coquelicot Require Import Complex.
From Flocq Require Import Core BinarySingleNaN.
From Verif Require Import Base Config Loops ParseBase FrameSpec Scalar EncScalar RealOps DecSignal DecTotal EncTns TnsInverse TnsOk TnsSize F32 F32Round F32Lines EncF32 F32Err F32Size SnsSize DecSize QuantSpec.
From Coq Require Import List.
Import ListNotations.
Local Open Scope R_scope.
Local Notation f0 := (f32_of_Z 0).

(* ---- indices ---- *)
(* the library's arcsine: near the exact one inside (-1, 1), not a number outside [-1, 1] and for NaN. Nothing is said about 1 and -1. *)
Definition asin_near (el : elibm) : Prop :=
  (forall x, is_finite x = true -> Rabs (B2R x) < 1 -> is_finite (lm_asin el x) = true /\ Rabs (B2R (lm_asin el x) - asin (B2R x)) <= bpow radix2 (-20)) /\
  (forall x, is_finite x = false \/ 1 < Rabs (B2R x) -> lm_asin el x = B754_nan).
Lemma pi_3142 : PI <= 3142 / 1000.
Proof. pose proof (proj2 (PI_2_3_7_ineq 2)) as H. unfold tg_alt, PI_2_3_7_tg, Ratan_seq in H. cbn in H. lra. Qed.
Lemma step17_val el : B2R (e_step17 (f32_eops el)) = 12401689 / 67108864 /\ is_finite (e_step17 (f32_eops el)) = true.
Proof. destruct (lit_val (Bdiv mode_NE f32_pi (f32_of_Z 17)) 12401689 (-26)) as [A B]; [vm_compute; reflexivity|]. split; [|exact B]. change (e_step17 (f32_eops el)) with (Bdiv mode_NE f32_pi (f32_of_Z 17)). rewrite A. unfold F2R. cbn. lra. Qed.
(* the largest value below one *)
Lemma below_one (x : f32) : Rabs (B2R x) < 1 -> Rabs (B2R x) <= 1 - / 16777216.
Proof.
  intros H. assert (F : generic_format radix2 fexp32 (Rabs (B2R x))) by (apply generic_format_abs, generic_format_B2R). assert (F1 : generic_format radix2 fexp32 1) by (change 1 with (bpow radix2 0); apply fmt_pow; lia).
  assert (VE : Valid_exp fexp32) by (apply FLT_exp_valid; reflexivity). pose proof (pred_ge_gt radix2 fexp32 _ _ F F1 H) as P. change 1 with (bpow radix2 0) in P at 1. rewrite (pred_bpow radix2 fexp32 0) in P. exact P.
Qed.
Lemma asin_room x : Rabs x <= 1 - / 16777216 -> Rabs (asin x) <= PI / 2 - 3 / 10000.
Proof.
  intros H. apply Rabs_le_inv in H. pose proof PI2_1 as P1. set (d := 3 / 10000).
  assert (C : 1 - / 16777216 <= cos d). { pose proof (cos_bound d 0) as B. cbn in B. destruct B as [B _]; [unfold d; lra|unfold d; lra|]. unfold cos_approx, cos_term in B. cbn in B. unfold d in *. lra. }
  assert (S : sin (PI / 2 - d) = cos d) by (rewrite <- cos_shift; f_equal; ring). pose proof (asin_bound x) as AB. pose proof (sin_asin x ltac:(lra)) as SA.
  apply Rabs_le. split; apply Rnot_lt_le; intros C1.
  - assert (sin (asin x) < sin (- (PI / 2 - d))) by (apply sin_increasing_1; unfold d in *; lra). rewrite sin_neg, S in H0. lra.
  - assert (sin (PI / 2 - d) < sin (asin x)) by (apply sin_increasing_1; unfold d in *; lra). rewrite S in H0. lra.
Qed.
Lemma as_i8_finite lm (y : f32) : is_finite y = true -> Rabs (B2R y) < 100 -> as_i8 (f32_ops lm) y = Ztrunc (B2R y).
Proof.
  intros F H. unfold as_i8. cbn [f32_ops f_i32]. rewrite (f32_to_i32_finite y F). apply Rabs_def2 in H. assert (A : (-100 <= Ztrunc (B2R y) <= 100)%Z); [|lia].
  rewrite <- (Ztrunc_IZR (-100)), <- (Ztrunc_IZR 100). split; apply Ztrunc_le; lra.
Qed.
(* an index outside the tables only for a coefficient of exactly one or minus one *)
Theorem index_range lm el (x : f32) : asin_near el -> B2R x <> 1 -> B2R x <> -1 -> (0 <= coef_index (f32_ops lm) (f32_eops el) x <= 16)%Z.
Proof.
  intros [A1 A2] N1 N2. unfold coef_index. cbn [f32_eops e_asin f32_ops fdiv].
  assert (Out : lm_asin el x = B754_nan -> (0 <= to_int (f32_ops lm) (Bdiv mode_NE (lm_asin el x) (e_step17 (f32_eops el))) + 8 <= 16)%Z).
  { intros ->. cbn [Bdiv]. unfold to_int, fge. cbn [f32_ops flt feq]. change (Bltb (f32_of_Z 0) (B754_nan : f32)) with false. change (Beqb (f32_of_Z 0) (B754_nan : f32)) with false. cbn [orb]. change (0 <= 0 + 8 <= 16)%Z. lia. }
  destruct (is_finite x) eqn:F; [|now apply Out, A2; left].
  destruct (Rlt_le_dec (Rabs (B2R x)) 1) as [B|B].
  2:{ apply Out, A2. right. destruct B as [B|B]; [exact B|exfalso]. destruct (Rcase_abs (B2R x)) as [C|C]; [rewrite Rabs_left in B by exact C|rewrite Rabs_right in B by exact C]; lra. }
  clear Out. destruct (A1 x F B) as [Fa Ea]. pose proof (asin_room _ (below_one x B)) as R. destruct (step17_val el) as [VS FS]. set (a := lm_asin el x) in *. set (s := e_step17 (f32_eops el)) in *. pose proof pi_3142 as PI3. change (bpow radix2 (-20)) with (/ 1048576) in Ea.
  assert (Ba : bd (157071 / 100000) a). { split; [exact Fa|]. replace (B2R a) with (B2R a - asin (B2R x) + asin (B2R x)) by ring. eapply Rle_trans; [apply Rabs_triang|]. lra. }
  pose proof big_big as BB. assert (Bq : bd (84998 / 10000) (Bdiv mode_NE a s)). { eapply (bd_div _ (12401689 / 67108864)); [exact Ba|exact FS|lra|rewrite VS, Rabs_pos_eq; lra|]. split; lra. }
  set (q := Bdiv mode_NE a s) in *. destruct half_val as [VH FH]. assert (BH : bd (/ 2) (f32_lit (5, -1)%Z)) by (split; [exact FH|rewrite VH, Rabs_pos_eq; lra]).
  assert (T : forall y, bd (89999 / 10000) y -> (-8 <= as_i8 (f32_ops lm) y <= 8)%Z).
  { intros y [Fy Hy]. rewrite as_i8_finite by (assumption || lra). apply Rabs_le_inv in Hy. assert (L : (-9 < Ztrunc (B2R y) < 9)%Z); [|lia]. destruct (Rle_lt_dec 0 (B2R y)) as [C|C].
    - rewrite Ztrunc_floor by exact C. pose proof (Zfloor_lb (B2R y)). pose proof (Zfloor_lub 0 (B2R y) C). split; [lia|]. apply lt_IZR. lra.
    - rewrite Ztrunc_ceil by lra. pose proof (Zceil_ub (B2R y)). pose proof (Zceil_glb 0 (B2R y) ltac:(lra)). split; [apply lt_IZR; lra|lia]. }
  unfold to_int. cbn [f32_ops fadd fneg flit]. destruct (fge _ _ _).
  - specialize (T (Bplus mode_NE q (f32_lit (5, -1)%Z))). enough (bd (89999 / 10000) (Bplus mode_NE q (f32_lit (5, -1)%Z))) by (specialize (T H); cbn [f32_ops] in T; lia). eapply bd_add; [exact Bq|exact BH|]. split; lra.
  - specialize (T (Bopp (Bplus mode_NE (Bopp q) (f32_lit (5, -1)%Z)))). enough (bd (89999 / 10000) (Bopp (Bplus mode_NE (Bopp q) (f32_lit (5, -1)%Z)))) by (specialize (T H); cbn [f32_ops] in T; lia). apply bd_opp. eapply bd_add; [apply bd_opp; exact Bq|exact BH|]. split; lra.
Qed.

(* ---- the analysis lattice ---- *)
Definition gr : R := 2001 / 1000.
Definition stage (M : R) (k : Z) (v : f32) : Prop := bd (M * gr ^ Z.to_nat k) v.
Lemma gr_S k : (0 <= k)%Z -> gr ^ Z.to_nat (k + 1) = gr * gr ^ Z.to_nat k.
Proof. intros H. replace (Z.to_nat (k + 1)) with (S (Z.to_nat k)) by lia. reflexivity. Qed.
Lemma gr_le k : (0 <= k <= 8)%Z -> 1 <= gr ^ Z.to_nat k <= 2571 / 10.
Proof. intros H. assert (G : 1 <= gr) by (unfold gr; lra). split; [now apply pow_R1_Rle|]. apply Rle_trans with (gr ^ 8); [apply Rle_pow; [exact G|lia]|]. unfold gr. cbn [pow]. lra. Qed.
Lemma stage_weaken M j k v : 0 <= M -> (0 <= j <= k)%Z -> stage M j v -> stage M k v.
Proof. intros HM H B. eapply bd_weaken; [exact B|]. apply Rmult_le_compat_l; [exact HM|]. apply Rle_pow; [unfold gr; lra|lia]. Qed.
Section Lattice.
Variables (lm : libm) (M : R).
Hypotheses (M1 : 1 <= M) (MB : M <= bpow radix2 90).
Lemma stage_add (r a b : f32) k : (0 <= k < 8)%Z -> tame r -> stage M k a -> stage M k b -> stage M (k + 1) (Bplus mode_NE a (Bmult mode_NE r b)) /\ stage M (k + 1) (Bplus mode_NE (Bmult mode_NE r b) a).
Proof.
  intros Hk [Fr Tr] Ha Hb. unfold stage in *. rewrite gr_S by lia. pose proof (gr_le k ltac:(lia)) as G. set (g := gr ^ Z.to_nat k) in *. assert (P : 1 <= M * g) by (replace 1 with (1 * 1) by ring; apply Rmult_le_compat; lra).
  assert (Br : bd 1 r). { split; [exact Fr|]. rewrite <- (Rabs_pos_eq 1) by lra. apply Rsqr_le_abs_0. unfold Rsqr. lra. }
  assert (Big : 3 * (M * g) <= big). { apply Rle_trans with (3 * (bpow radix2 90 * 260)); [apply Rmult_le_compat_l; [lra|apply Rmult_le_compat; lra]|]. apply Rle_trans with (bpow radix2 10 * bpow radix2 90); [change (bpow radix2 10) with 1024; pose proof (bpow_gt_0 radix2 90); lra|]. rewrite <- bpow_plus. apply big_num. lia. }
  assert (Bm : bd (10001 / 10000 * (M * g)) (Bmult mode_NE r b)) by (eapply bd_mul; [exact Br|exact Hb|split; lra]). unfold gr. split; (eapply bd_add; [eassumption|eassumption|split; lra]).
Qed.
Definition states_ok (st : list f32) : Prop := len st = 8%Z /\ forall k, (0 <= k < 8)%Z -> stage M k (getz f0 st k).
Lemma enc_line_size rc f p x st : (0 <= f)%Z -> (1 <= p <= 8)%Z -> (f * 8 + 8 <= len rc)%Z -> (forall k, (0 <= k < p)%Z -> tame (getz f0 rc (f * 8 + k))) -> bd M x -> states_ok st ->
  exists y st', tns_enc_line (f32_ops lm) rc f p x st = Ok (y, st') /\ states_ok st' /\ stage M 8 y.
Proof.
  intros Hf Hp Lr Hr Hx (Ls & Hs). unfold tns_enc_line. destruct (sub_ok rc (f * 8) (f * 8 + (p - 1))) as (w1 & -> & _ & _); [lia|lia|]. destruct (sub_ok st 0 (p - 1)) as (w2 & -> & _ & _); [lia|lia|]. cbn [bind].
  destruct (for_inv (fun j '(t, save, s) => states_ok s /\ stage M j t /\ stage M j save) 0 (p - 1)
      (fun k '(t, save, s) => r <- idx rc (f * 8 + k) ;; s0 <- idx s k ;; s <- put s k save ;; Ok (fadd (f32_ops lm) t (fmul (f32_ops lm) r s0), fadd (f32_ops lm) (fmul (f32_ops lm) r t) s0, s)) (x, x, st)) as ([[t save] s] & E & (L & S) & Bt & Bs).
  - lia.
  - split; [split; assumption|]. assert (stage M 0 x) by (unfold stage; change (Z.to_nat 0) with 0%nat; cbn [pow]; rewrite Rmult_1_r; exact Hx). auto.
  - intros j [[t save] s] Hj ((L & S) & Bt & Bs). rewrite (idx_get f0 rc), (idx_get f0 s) by lia. cbn [bind]. destruct (put_ok f0 s j save ltac:(lia)) as (s' & -> & L' & T). cbn [bind]. eexists. split; [reflexivity|]. cbn [f32_ops fadd fmul].
    specialize (Hr j ltac:(lia)). split; [|split].
    + split; [lia|]. intros k Hk. rewrite T by lia. destruct (Z.eqb_spec k j) as [->|]; [exact Bs|now apply S].
    + apply stage_add; auto; [lia|]. apply S. lia.
    + apply stage_add; auto; [lia|]. apply S. lia.
  - rewrite E. cbn [bind]. rewrite (idx_get f0 rc), (idx_get f0 s) by lia. cbn [bind]. destruct (put_ok f0 s (p - 1) save ltac:(lia)) as (s' & -> & L' & T). cbn [bind]. eexists. exists s'. split; [reflexivity|]. split.
    + split; [lia|]. intros k Hk. rewrite T by lia. destruct (Z.eqb_spec k (p - 1)) as [->|]; [exact Bs|now apply S].
    + destruct (stage_add (getz f0 rc (f * 8 + (p - 1))) t (getz f0 s (p - 1)) (p - 1) ltac:(lia) (Hr (p - 1)%Z ltac:(lia)) Bt (S (p - 1)%Z ltac:(lia))) as [Q _]. apply (stage_weaken M (p - 1 + 1)); [lra|lia|exact Q].
Qed.
Definition lines_ok (lo : Z) (l : list f32) : Prop := forall j, (0 <= j < len l)%Z -> if (j <? lo)%Z then stage M 8 (getz f0 l j) else bd M (getz f0 l j).
Lemma line_up v : bd M v -> stage M 8 v.
Proof. intros H. apply (stage_weaken M 0); [lra|lia|]. unfold stage. change (Z.to_nat 0) with 0%nat. cbn [pow]. now rewrite Rmult_1_r. Qed.
Lemma enc_filters_size rc orders : forall params f st x lo, (0 <= f)%Z -> (0 <= lo)%Z -> ordered lo (len x) (bands_of params) -> (f + len params <= len orders)%Z -> ((f + len params) * 8 <= len rc)%Z ->
  (forall i, (0 <= i < f + len params)%Z -> (0 <= getz 0%Z orders i <= 8)%Z) -> (forall j, (0 <= j < (f + len params) * 8)%Z -> tame (getz f0 rc j)) -> states_ok st -> lines_ok lo x ->
  exists y, tns_enc_filters (f32_ops lm) rc f params orders st x = Ok y /\ len y = len x /\ lines_ok (len x) y.
Proof.
  induction params as [|[[a b] subs] params IH]; intros f st x lo Hf Hlo O Lo Lr HO HR HS HX.
  - exists x. cbn [tns_enc_filters]. split; [reflexivity|]. split; [reflexivity|]. intros j Hj. specialize (HX j Hj). destruct (Z.ltb_spec j (len x)); [|lia]. destruct (j <? lo)%Z; [exact HX|now apply line_up].
  - assert (LP : len ((a, b, subs) :: params) = (len params + 1)%Z) by (unfold len; cbn [length]; lia). rewrite LP in *. assert (0 <= len params)%Z by (unfold len; lia). cbn [bands_of map fst ordered] in O. destruct O as [O1 O2]. pose proof (ordered_le _ _ _ O2) as Ob.
    cbn [tns_enc_filters]. rewrite (idx_get 0%Z orders f) by lia. cbn [bind]. specialize (HO f ltac:(lia)) as Hp. set (p := getz 0%Z orders f) in *.
    assert (HA : lines_ok a x) by (intros j Hj; specialize (HX j Hj); destruct (Z.ltb_spec j lo), (Z.ltb_spec j a); try exact HX; try lia; now apply line_up).
    assert (B : exists st1 y1, (if (p =? 0)%Z then Ok (st, x) else _ <- sub x a b ;; for_range a b (fun n '(st, lines) => x <- idx lines n ;; '(x, st) <- tns_enc_line (f32_ops lm) rc f p x st ;; lines <- put lines n x ;; Ok (st, lines)) (st, x)) = Ok (st1, y1) /\
       states_ok st1 /\ len y1 = len x /\ lines_ok b y1).
    { destruct (Z.eqb_spec p 0) as [E0|N0]; [exists st, x; split; [reflexivity|]; split; [exact HS|]; split; [reflexivity|]; intros j Hj; specialize (HA j Hj); destruct (Z.ltb_spec j b), (Z.ltb_spec j a); try exact HA; try lia; now apply line_up|].
      destruct (sub_ok x a b) as (w & -> & _ & _); [lia|lia|]. cbn [bind].
      destruct (for_inv (fun n '(s, y) => states_ok s /\ len y = len x /\ lines_ok n y) a b (fun n '(st, lines) => x <- idx lines n ;; '(x, st) <- tns_enc_line (f32_ops lm) rc f p x st ;; lines <- put lines n x ;; Ok (st, lines)) (st, x)) as ([s y] & E & A1 & A2 & A3).
      - lia.
      - auto.
      - intros n [s y] Hn (A1 & A2 & A3). rewrite (idx_get f0 y) by lia. cbn [bind]. pose proof (A3 n ltac:(lia)) as Hx. rewrite Z.ltb_irrefl in Hx.
        destruct (enc_line_size rc f p (getz f0 y n) s Hf ltac:(lia) ltac:(lia) ltac:(intros; apply HR; lia) Hx A1) as (y1 & s1 & -> & S1 & B1). cbn [bind]. destruct (put_ok f0 y n y1 ltac:(lia)) as (y' & -> & Ly & T). cbn [bind].
        eexists. split; [reflexivity|]. split; [exact S1|]. split; [lia|]. intros j Hj. rewrite T by lia. destruct (Z.eqb_spec j n) as [->|].
        + destruct (Z.ltb_spec n (n + 1)); [exact B1|lia].
        + specialize (A3 j ltac:(lia)). destruct (Z.ltb_spec j n), (Z.ltb_spec j (n + 1)); try exact A3; lia.
      - exists s, y. auto. }
    destruct B as (st1 & y1 & E & S1 & L1 & B1). rewrite E. cbn [bind]. destruct (IH (f + 1)%Z st1 y1 b) as (y & Ey & Ly & By); try assumption; try lia.
    + rewrite L1. exact O2.
    + intros i Hi. apply HO. lia.
    + intros j Hj. apply HR. lia.
    + exists y. split; [exact Ey|]. split; [lia|]. now rewrite L1 in By.
Qed.
Theorem filtered_size el chk c x bw nbits nn r y : sines_near lm -> legal_config c -> len x = ne c -> (0 <= bw <= fs_ind c)%Z -> coefs_in_range (f32_ops lm) (f32_eops el) c x bw nbits nn -> Forall (bd M) x ->
  tns_encode (f32_ops lm) (f32_eops el) chk c x bw nbits nn = Ok (r, y) -> len y = ne c /\ Forall (bd (M * (2571 / 10))) y.
Proof.
  intros SN Hc Lx Hb CR HX E. destruct (tns_encode_ok (f32_ops lm) (f32_eops el) chk c x bw nbits nn (f32_elaws lm el) Hc Lx Hb CR) as ([r' y'] & E' & TL). rewrite E in E'. apply Ok_inj in E'. assert (r' = r /\ y' = y) by (split; congruence). destruct H; subst r' y'.
  destruct TL as [TP TN TW TLn _ _ TRl TC _ (params & EP & EY)]. destruct (coded_ne c bw Hc Hb) as [Hb4 Hn]. destruct (enc_params (n_ms c) bw Hb4) as (params' & EP' & LS & LP & _ & Ord & _). rewrite EP in EP'. apply Ok_inj in EP'. subst params'.
  destruct TP as (P1 & P2 & P3 & P4). destruct (enc_filters_size (tr_rc_q r) (tr_order r) params 0 (repeat f0 8) x 0) as (y' & Ey & Ly & By); try lia.
  - eapply ordered_weaken; [exact Ord|]. lia.
  - intros i Hi. rewrite Forall_forall in P3. apply P3. unfold getz. apply nth_In. unfold len in P1. lia.
  - intros j Hj. change (tame (getz (fz (f32_ops lm) 0) (tr_rc_q r) j)). rewrite TC by lia. cbn [f32_ops fsin17]. apply sine_tame; [exact SN|]. rewrite Forall_forall in P4. assert (0 <= getz 0 (tr_rc_i r) j <= 16)%Z; [|lia]. apply P4. unfold getz. apply nth_In. unfold len in P2. lia.
  - split; [reflexivity|]. intros k Hk. unfold getz. rewrite nth_repeat. split; [reflexivity|]. change (B2R f0) with 0. rewrite Rabs_R0. apply Rmult_le_pos; [lra|apply pow_le; unfold gr; lra].
  - intros j Hj. destruct (Z.ltb_spec j 0); [lia|]. apply getz_of_Forall; [exact HX|exact Hj].
  - change (repeat f0 8) with (repeat (fz (f32_ops lm) 0) 8) in Ey. rewrite Ey in EY. apply Ok_inj in EY. subst y'. split; [lia|]. apply Forall_of_getz. intros j Hj. specialize (By j Hj). rewrite Ly in Hj. destruct (Z.ltb_spec j (len x)); [|lia]. eapply bd_weaken; [exact By|]. apply Rmult_le_compat_l; [lra|]. apply (gr_le 8). lia.
Qed.
End Lattice.

(* ---- the smallest gain index ---- *)
(* the library's logarithm: near the exact one, minus infinity at zero *)
Definition log10_near (el : elibm) : Prop :=
  (forall x, is_finite x = true -> 0 < B2R x -> is_finite (lm_log10 el x) = true /\ Rabs (B2R (lm_log10 el x) - ln (B2R x) / ln 10) <= / 100) /\
  (forall s, lm_log10 el (B754_zero s) = B754_infinity true).
Lemma fmax_bd lm B (x y : f32) : bd B x -> bd B y -> bd B (fmax (f32_ops lm) x y).
Proof. intros Hx Hy. unfold fmax. destruct (feq _ x x); [|exact Hy]. destruct (feq _ y y); [|exact Hx]. destruct (flt _ x y); assumption. Qed.
Lemma peak_size lm el B l : 0 <= B -> Forall (bd B) l -> bd B (peak (f32_ops lm) (f32_eops el) l).
Proof.
  intros B0 H. unfold peak. assert (Z : bd B (fz (f32_ops lm) 0)) by (split; [reflexivity|]; change (B2R (fz (f32_ops lm) 0)) with 0; rewrite Rabs_R0; exact B0). revert Z. generalize (fz (f32_ops lm) 0). induction H as [|v l Hv _ IH]; intros m Hm; cbn [fold_left]; [exact Hm|].
  apply IH, fmax_bd; [exact Hm|]. cbn [f32_eops e_abs]. destruct Hv as [F V]. split; [now rewrite is_finite_Babs|]. now rewrite B2R_Babs, Rabs_Rabsolu.
Qed.
Lemma ln10_low : 1 < ln 10.
Proof. apply Rlt_le_trans with (ln 8); [|apply Rlt_le, ln_increasing; lra]. replace 8 with (2 ^ 3) by ring. rewrite ln_pow by lra. pose proof ln_lt_2. cbn [INR]. lra. Qed.
Lemma ln_power k : ln (bpow radix2 k) = IZR k * ln 2.
Proof. rewrite bpow_exp, ln_exp. reflexivity. Qed.
Lemma log10_bd el x : log10_near el -> is_finite x = true -> 0 < B2R x -> bd 66 (lm_log10 el x).
Proof.
  intros [N _] F P. destruct (N x F P) as [F2 E]. split; [exact F2|]. set (v := B2R x) in *. assert (L2 : 0 < ln 2 <= 1) by (split; [pose proof ln_lt_2; lra|apply Rle_trans with (ln (exp 1)); [apply Rlt_le, ln_increasing; [lra|]; pose proof (exp_ineq1 1 ltac:(lra)); lra|rewrite ln_exp; lra]]).
  assert (U : v <= bpow radix2 128) by (pose proof (abs_B2R_lt_emax 24 128 x) as Q; fold v in Q; rewrite Rabs_pos_eq in Q by lra; lra).
  assert (Lo : bpow radix2 (-149) <= v).
  { assert (SF : is_finite_strict x = true) by (destruct x as [s|s| |s m e He]; try discriminate F; [exfalso; unfold v in P; cbn in P; lra|reflexivity]). pose proof (abs_B2R_ge_emin 24 128 x SF) as Q. fold v in Q. rewrite Rabs_pos_eq in Q by lra. exact Q. }
  assert (LU : ln v <= 128 * ln 2) by (rewrite <- (ln_power 128); destruct U as [U| ->]; [apply Rlt_le, ln_increasing; lra|lra]). pose proof (bpow_gt_0 radix2 (-149)) as PP.
  assert (LL : -149 * ln 2 <= ln v) by (change (-149) with (IZR (-149)); rewrite <- (ln_power (-149)); destruct Lo as [Lo|Lo]; [apply Rlt_le, ln_increasing; lra|rewrite Lo; lra]).
  pose proof ln10_low as L10. assert (ln 2 / ln 10 <= 44 / 100).
  { apply (Rmult_le_reg_r (ln 10)); [lra|]. unfold Rdiv. rewrite Rmult_assoc, Rinv_l, Rmult_1_r by lra. assert (3 * ln 2 <= ln 10) by (replace 3 with (INR 3) by (cbn; lra); rewrite <- ln_pow by lra; apply Rlt_le, ln_increasing; cbn; lra). lra. }
  assert (I0 : 0 < / ln 10) by (apply Rinv_0_lt_compat; lra). assert (Q0 : 0 <= ln 2 / ln 10) by (apply Rmult_le_pos; lra).
  assert (B : -149 * (ln 2 / ln 10) <= ln v / ln 10 <= 128 * (ln 2 / ln 10)) by (unfold Rdiv; rewrite <- !Rmult_assoc; split; apply Rmult_le_compat_r; lra).
  apply Rabs_le_inv in E. apply Rabs_le. lra.
Qed.
Lemma zero_shape (x : f32) : is_finite x = true -> B2R x = 0 -> exists s, x = B754_zero s.
Proof. destruct x as [s|s| |s m e He]; try discriminate; [now exists s|]. intros _ H. exfalso. cbn [B2R] in H. apply eq_0_F2R in H. destruct s; discriminate H. Qed.
Theorem gain_floor_size lm el l off B : log10_near el -> 0 <= B <= bpow radix2 100 -> Forall (bd B) l -> (-1000 <= off <= 0)%Z -> (gain_floor (f32_ops lm) (f32_eops el) l off <= 3000)%Z.
Proof.
  intros N HB H Ho. pose proof (peak_size lm el B l ltac:(lra) H) as [FP BP]. unfold gain_floor. destruct (flt _ _ _) eqn:P; [|lia]. set (p := peak (f32_ops lm) (f32_eops el) l) in *.
  assert (PP : 0 < B2R p). { cbn [f32_ops flt fz] in P. rewrite (Bltb_correct 24 128 f0 p eq_refl FP) in P. change (B2R f0) with 0 in P. destruct (Rlt_bool_spec 0 (B2R p)); [assumption|discriminate P]. }
  cbn [f32_ops f32_eops fz fsub fdiv fmul flit e_log10 e_ceil]. assert (VT : B2R (Bminus mode_NE (f32_of_Z 32768) (f32_lit (375, -3)%Z)) = 262141 / 8 /\ is_finite (Bminus mode_NE (f32_of_Z 32768) (f32_lit (375, -3)%Z)) = true).
  { destruct (lit_val (Bminus mode_NE (f32_of_Z 32768) (f32_lit (375, -3)%Z)) 16777024 (-9)) as [A1 A2]; [vm_compute; reflexivity|]. split; [|exact A2]. rewrite A1. unfold F2R. cbn. lra. }
  destruct VT as [VT FT]. set (t := Bminus mode_NE (f32_of_Z 32768) (f32_lit (375, -3)%Z)) in *.
  pose proof (Bdiv_correct 24 128 f32_prec f32_emax mode_NE p t) as BD. rewrite VT in BD. specialize (BD ltac:(lra)). fold fexp32 in BD. change (round_mode mode_NE) with ZnearestE in BD. fold (rnd32 (B2R p / (262141 / 8))) in BD. rewrite (Rabs_pos_eq (B2R p)) in BP by lra.
  assert (Q0 : 0 <= B2R p / (262141 / 8) <= bpow radix2 100) by (pose proof (bpow_gt_0 radix2 100); lra).
  rewrite Rlt_bool_true in BD by (apply (nn_lt 100); [lia|exact Q0]). destruct BD as (VQ & FQ & _). rewrite FP in FQ. set (q := Bdiv mode_NE p t) in *. pose proof (rnd_nn 100 _ ltac:(lia) Q0) as QN. rewrite <- VQ in QN.
  set (g := lm_log10 el q). assert (K : (as_i16 (f32_ops lm) (Bnearbyint mode_UP (Bmult mode_NE (f32_of_Z 28) g)) <= 1900)%Z); [|cbn [f32_ops] in K; lia].
  unfold as_i16. cbn [f32_ops f_i32]. destruct (Rle_lt_dec (B2R q) 0) as [C|C].
  - assert (Z0 : exists s, q = B754_zero s) by (apply zero_shape; [exact FQ|exact (Rle_antisym _ _ C (proj1 QN))]).
    destruct Z0 as (s & Z0). unfold g. rewrite Z0. destruct N as [_ N]. rewrite N. change (f32_to_i32 (Bnearbyint mode_UP (Bmult mode_NE (f32_of_Z 28) (B754_infinity true)))) with (-2147483648)%Z. lia.
  - pose proof (log10_bd el q N FQ C) as BG. fold g in BG. pose proof big_big. assert (B28 : bd 1890 (Bmult mode_NE (f32_of_Z 28) g)) by (eapply bd_mul; [apply (bd_fz 28 28); [lia|apply Rle_refl]|exact BG|split; lra]). destruct B28 as [F28 B28].
    destruct (nearby_up (Bmult mode_NE (f32_of_Z 28) g)) as [U1 U2]. rewrite F28 in U2. rewrite (f32_to_i32_finite _ U2), U1, Ztrunc_IZR. apply Rabs_le_inv in B28. assert (Zceil (B2R (Bmult mode_NE (f32_of_Z 28) g)) <= 1890)%Z by (apply Zceil_glb; lra). lia.
Qed.
