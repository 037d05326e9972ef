(* C59: in binary32 the two MDCTs stay within explicit bounds of the exact transforms, and one after the other they give the input back within an explicit bound. *)
From Coq Require Import ZArith List Bool Lia Reals Lra.
From Coquelicot Require Import Complex.
From Flocq Require Import Core BinarySingleNaN.
From Verif Require Import Base Config FrameSpec FftFactor FactorProofs Buffers Loops Scalar Fft DecSignal DecMdct DecTotal DecState FftSpec RealOps Dft DctSpec ParseBase ParseTotal MdctSpec EncMdct TdacSpec Dct4Inv Tdac MdctFormula MdctStream PropertiesMdct Norm2 F32 F32Round F32Lines EncF32 F32Err FftErr FftErrRun DctErr MdctErr MdctErrRun MdctErrStream.
From Coq Require Import List.
Import ListNotations.
Local Open Scope R_scope.
Local Notation f0 := (f32_of_Z 0).

(* root of the sum of the squares, root of their mean *)
Definition energy (n : Z) (f : Z -> R) : R := sqrt (rsum (Z.to_nat n) (fun t => f t * f t)).
Definition rms (n : Z) (f : Z -> R) : R := sqrt (rsum (Z.to_nat n) (fun t => f t * f t) / IZR n).
Lemma rms_nrm n f : (0 < n)%Z -> rms n f * sqrt (IZR n) = nrm (Z.to_nat n) f.
Proof.
  intros H. assert (P : 0 < IZR n) by (apply IZR_lt; lia). unfold rms. rewrite <- sqrt_mult; [|apply Rmult_le_pos; [apply rsum_pos; intros; apply sq_pos|left; now apply Rinv_0_lt_compat]|lra]. unfold nrm. f_equal. field. lra.
Qed.

(* One frame of the encoder on 16-bit samples: the lines are finite, and as a vector they are within 2.7e-5 of the size of the block from the MDCT of the block. *)
Theorem C59_forward lm c e input out bands w : legal_config c -> twiddles_near lm (nf c / 2) -> emdct_ok c e -> len input = nf c -> len out = nf c -> len bands = nb c -> mdct_window c = Ok w ->
  (forall j, (0 <= j < 2 * nf c)%Z -> (Z.abs (getz 0%Z (em_time e) j) <= 32768)%Z) -> (forall j, (0 <= j < nf c)%Z -> (Z.abs (getz 0%Z input j) <= 32768)%Z) ->
  exists nn x b e', emdct_run (f32_ops lm) c e input out bands = Ok (nn, x, b, e') /\ len x = nf c /\ fin x /\
    (forall j, (0 <= j < nf c)%Z -> getz 0%Z (em_time e') (nf c - zlead c + j) = getz 0%Z input j) /\
    (forall j, (0 <= j < nf c - zlead c)%Z -> getz 0%Z (em_time e') j = getz 0%Z (em_time e) (nf c + j)) /\
    let block n := IZR (getz 0%Z (em_time e') n) in
    energy (nf c) (fun k => val x k - mdct_formula (nf c) (win w) block k) <= 27 / 1000000 * (energy (2 * nf c) block + bpow radix2 (-80)).
Proof.
  intros L Htw Me Li Lo Lb Ew Ht Hs. destruct (dct_factors_ok c L) as (fl & Ef & Ch & Sm & Ne). destruct (geo c L) as (G1 & G2 & G2b & G3). destruct (config_geom c L) as (_ & GM & _).
  set (h := (nf c / 2)%Z) in *. assert (Hh : nf c = (2 * h)%Z) by (unfold h; Z.div_mod_to_equations; lia).
  destruct (emdct_run_spec (f32_ops lm) c e input out bands h fl w L Me Li Lo Lb Hh Ef Ch Sm Ne Ew) as (nn & x & b & e' & E & Lx & _ & _ & Te & Tx). exists nn, x, b, e'. split; [exact E|]. split; [exact Lx|].
  assert (HT : forall j, (0 <= j < 2 * nf c)%Z -> (Z.abs (getz 0%Z (em_time e') j) <= 32768)%Z).
  { intros j Hj. rewrite Te by exact Hj. unfold next_time. destruct (Z.ltb_spec j (nf c - zlead c)); [apply Ht; lia|]. destruct (Z.ltb_spec j (2 * nf c - zlead c)); [apply Hs; lia|apply Ht; lia]. }
  destruct (forward_err lm c w h fl L Ew Hh Ef Ch Sm Ne Htw (getz 0%Z (em_time e')) HT) as (F1 & F2 & _). change (getz (fz (f32_ops lm) 0%Z)) with (getz f0) in Tx.
  split; [intros k Hk; rewrite Tx by lia; apply F1; lia|]. split; [|split].
  - intros j Hj. rewrite Te by lia. unfold next_time. destruct (Z.ltb_spec (nf c - zlead c + j) (nf c - zlead c)); [lia|]. destruct (Z.ltb_spec (nf c - zlead c + j) (2 * nf c - zlead c)); [|lia]. f_equal. lia.
  - intros j Hj. rewrite Te by lia. unfold next_time. destruct (Z.ltb_spec j (nf c - zlead c)); [|lia]. reflexivity.
  - intros block. subst block. rewrite <- tt_bpow. eapply Rle_trans; [|exact F2]. right. apply nrm_ext. intros k Hk. rewrite <- (coef_is_mdct c w h (getz 0%Z (em_time e')) k L Hh). unfold val. rewrite Tx by lia. reflexivity.
Qed.

(* One frame of the decoder: whatever finite lines and overlap (below 2^94), the samples and the new overlap are finite and within 2.7e-5 of the size of the data from what exact arithmetic makes of the same data. *)
Theorem C59_inverse lm c m mr lines freq freqr : legal_config c -> twiddles_near lm (nf c / 2) -> mdct_ok c m -> mdct_ok c mr -> len lines = ne c -> len freq = nf c -> len freqr = nf c ->
  fin lines -> fin (m_ola m) -> (forall j, (0 <= j)%Z -> is_finite (getz f0 (m_zeros m) j) = true /\ val (m_zeros m) j = 0) ->
  (forall j, (0 <= j < nf c - zlead c)%Z -> getz 0 (m_ola mr) j = val (m_ola m) j) -> all_zero (m_zeros mr) ->
  let size := energy (ne c) (val lines) in let old := energy (nf c - zlead c) (val (m_ola m)) in size <= bpow radix2 94 -> old <= bpow radix2 96 ->
  exists y m' yr mr', mdct_run (f32_ops lm) c m lines freq = Ok (y, m') /\ mdct_run R_ops c mr (map B2R lines) freqr = Ok (yr, mr') /\ len y = nf c /\ fin y /\ fin (m_ola m') /\
    energy (nf c) (fun i => val y i - getz 0 yr i) <= 27 / 1000000 * (size + old + bpow radix2 (-79)) /\
    energy (nf c - zlead c) (fun i => val (m_ola m') i - getz 0 (m_ola mr') i) <= 26 / 1000000 * (size + bpow radix2 (-80)).
Proof.
  intros L Htw Mm Mr Ll Lf Lfr Fl Fo Zm Or Zr size old Sz So. destruct (dct_factors_ok c L) as (fl & Ef & Ch & Sm & Ne). destruct (geo c L) as (G1 & G2 & G2b & G3). destruct (config_geom c L) as (_ & GM & _ & GE & _). destruct (mdct_window_ok c L) as (w & Ew & _).
  set (h := (nf c / 2)%Z) in *. assert (Hh : nf c = (2 * h)%Z) by (unfold h; Z.div_mod_to_equations; lia).
  destruct (mdct_run_spec (f32_ops lm) c m lines freq h fl w L Mm Ll Lf Hh Ef Ch Sm Ne Ew) as (y & m' & E & Ly & [Mo _] & _ & Ty & To).
  destruct (mdct_run_spec R_ops c mr (map B2R lines) freqr h fl w L Mr ltac:(rewrite len_map; exact Ll) Lfr Hh Ef Ch Sm Ne Ew) as (yr & mr' & Er & _ & _ & _ & Tyr & Tor).
  change (getz (fz (f32_ops lm) 0%Z)) with (getz f0) in *. change (getz (fz R_ops 0%Z)) with (getz 0) in *. set (p := padded (f32_ops lm) (ne c) lines (m_zeros m)) in *. set (pr := padded R_ops (ne c) (map B2R lines) (m_zeros mr)) in *.
  assert (Hp : forall k, (0 <= k < nf c)%Z -> is_finite (p k) = true /\ B2R (p k) = if (k <? Z.of_nat (Z.to_nat (ne c)))%Z then val lines k else 0).
  { intros k Hk. rewrite Z2Nat.id by lia. unfold p, padded. change (getz (fz (f32_ops lm) 0%Z)) with (getz f0). destruct (Z.ltb_spec k (ne c)); [split; [apply Fl; lia|reflexivity]|apply Zm; lia]. }
  assert (Hpr : forall k, (0 <= k < nf c)%Z -> pr k = B2R (p k)).
  { intros k Hk. destruct (Hp k Hk) as [_ ->]. rewrite Z2Nat.id by lia. unfold pr, padded. change (getz (fz R_ops 0%Z)) with (getz 0). destruct (Z.ltb_spec k (ne c)); [|apply Zr].
    assert (Q : (Z.to_nat k < length lines)%nat) by (unfold len in Ll; lia). unfold val, getz. rewrite (nth_indep _ 0 (B2R f0)) by (rewrite map_length; exact Q). apply map_nth. }
  assert (Np : nrm (Z.to_nat (nf c)) (fun k => B2R (p k)) = size).
  { unfold size, energy. change (sqrt (rsum (Z.to_nat (ne c)) (fun t => val lines t * val lines t))) with (nrm (Z.to_nat (ne c)) (val lines)). rewrite <- (nrm_head (Z.to_nat (ne c)) (Z.to_nat (nf c))) by lia. apply nrm_ext. intros k Hk. apply Hp. lia. }
  destruct (inverse_err lm c w h fl L Ew Hh Ef Ch Sm Ne Htw p (fun k Hk => proj1 (Hp k Hk)) ltac:(rewrite Np; exact Sz)) as [I1 I2]. rewrite Np in I2.
  assert (TR : forall n, (0 <= n < 2 * nf c)%Z -> tda_win R_ops h fl (getz (0, 0)%Z w) pr n = tda_win R_ops h fl (getz (0, 0)%Z w) (fun k => B2R (p k)) n).
  { intros n Hn. rewrite !(synth_tj c w h fl L Hh Ch Sm Ne) by lia. rewrite (dct4_ext (2 * h) pr (fun k => B2R (p k))); [reflexivity|]. intros k Hk. apply Hpr. lia. }
  set (t := tda_win (f32_ops lm) h fl (getz (0, 0)%Z w) p) in *. set (tr := tda_win R_ops h fl (getz (0, 0)%Z w) (fun k => B2R (p k))) in *.
  pose proof th_pos as P0. assert (P1 : 0 < tt) by (unfold tt; lra). assert (S0 : 0 <= size) by apply sqrt_pos. assert (O0 : 0 <= old) by apply sqrt_pos. assert (B2 : bpow radix2 96 = 4 * bpow radix2 94) by (change 4 with (bpow radix2 2); rewrite <- bpow_plus; reflexivity). assert (B1 : 1 <= bpow radix2 94) by (change 1 with (bpow radix2 0); apply bpow_le; lia).
  assert (TS : tt <= 1) by (rewrite tt_bpow; change 1 with (bpow radix2 0); apply bpow_le; lia).
  assert (Nt : nrm (Z.to_nat (2 * nf c)) (fun n => B2R (t n)) <= 1514 / 1000 * size + tt).
  { pose proof (synth_nrm c w h fl L Ew Hh Ef Ch Sm Ne (fun k => B2R (p k)) (fun _ => 0)) as Sn. cbv beta in Sn. rewrite (nrm_ext (Z.to_nat (nf c)) (fun k => B2R (p k) - 0) (fun k => B2R (p k))) in Sn by (intros; ring). rewrite Np in Sn.
    eapply Rle_trans; [apply (nrm_sub _ _ (fun n => B2R (t n) - tr n) (fun n => tr n - tda_win R_ops h fl (getz (0, 0)%Z w) (fun _ => 0) n))|fold tr in Sn; lra].
    intros n Hn. rewrite (synth_tj c w h fl L Hh Ch Sm Ne (fun _ => 0)) by lia. assert (Z0 : dct4 (2 * h) (fun _ => 0) (tj h n) = 0) by (unfold dct4; rewrite rsum_zero; [ring|intros; ring]). rewrite Z0.
    eapply Rle_trans; [|apply Rabs_triang]. right. f_equal. destruct (n <? h)%Z; ring. }
  exists y, m', yr, mr'. split; [exact E|]. split; [exact Er|]. split; [exact Ly|].
  set (K := Z.to_nat (nf c - zlead c)) in *. set (a := val (m_ola m)) in *. set (a' := fun i => if (i <? Z.of_nat K)%Z then a i else 0). set (N := Z.to_nat (nf c)) in *. set (N2 := Z.to_nat (2 * nf c)) in *.
  assert (Step : forall i, (0 <= i < nf c)%Z -> is_finite (getz f0 y i) = true /\ Rabs (val y i - (a' i + B2R (t (zlead c + i)%Z))) <= vv * (Rabs (a' i) + Rabs (B2R (t (zlead c + i)%Z)) + 2 * th)).
  { intros i Hi. unfold val, a'. unfold K. rewrite Z2Nat.id by lia. rewrite Ty by exact Hi. cbv zeta. fold t. pose proof vv_num as V. destruct (Z.ltb_spec i (nf c - zlead c)).
    - assert (Sa : Rabs (a i) <= old) by (apply (nrm_get K a i); lia). assert (St : Rabs (B2R (t (zlead c + i)%Z)) <= 1514 / 1000 * size + tt) by (eapply Rle_trans; [apply (nrm_get N2 (fun n => B2R (t n)) (zlead c + i)); lia|exact Nt]).
      apply ola_err; [apply Fo; destruct Mm as [Q _]; lia|apply I1; lia|]. change (B2R (getz f0 (m_ola m) i)) with (a i).
      apply Rle_trans with (bpow radix2 94 * bpow radix2 6); [change (bpow radix2 6) with 64; lra|rewrite <- bpow_plus; apply bpow_le; lia].
    - split; [apply I1; lia|]. replace (B2R (t (zlead c + i)%Z) - (0 + B2R (t (zlead c + i)%Z))) with 0 by ring. rewrite Rabs_R0. pose proof (Rabs_pos 0). pose proof (Rabs_pos (B2R (t (zlead c + i)%Z))). apply Rmult_le_pos; lra. }
  split; [intros i Hi; apply Step; lia|]. split; [intros i Hi; rewrite Mo in Hi; rewrite To by lia; apply I1; lia|]. split.
  - change (energy (nf c) (fun i => val y i - getz 0 yr i)) with (nrm N (fun i => val y i - getz 0 yr i)).
    assert (Y : forall i, (0 <= i < nf c)%Z -> getz 0 yr i = a' i + tr (zlead c + i)%Z).
    { intros i Hi. rewrite Tyr by exact Hi. cbv zeta. rewrite TR by lia. unfold a', K. rewrite Z2Nat.id by lia. destruct (Z.ltb_spec i (nf c - zlead c)); [cbn [R_ops fadd]; rewrite Or by lia; reflexivity|ring]. }
    assert (Q1 : nrm N (fun i => Rabs (a' i)) <= old). { unfold old, energy. fold a K. change (sqrt (rsum K (fun t => a t * a t))) with (nrm K a). rewrite <- (nrm_head K N) by lia. apply nrm_sub0. intros i Hi. rewrite Rabs_Rabsolu. apply Rle_refl. }
    assert (Q2 : nrm N (fun i => Rabs (B2R (t (zlead c + i)%Z))) <= 1514 / 1000 * size + tt). { eapply Rle_trans; [|exact Nt]. eapply Rle_trans; [|apply (nrm_part N N2 (zlead c) (fun n => B2R (t n))); lia]. apply nrm_sub0. intros i Hi. rewrite Rabs_Rabsolu. apply Rle_refl. }
    assert (SN : sqrt (INR N) <= 22). { rewrite <- (sqrt_square 22) by lra. apply sqrt_le_1_alt. unfold N. rewrite INR_IZR_INZ, Z2Nat.id by lia. rewrite <- mult_IZR. apply IZR_le. lia. }
    pose proof vv_num as V. assert (Q3 : nrm N (fun i => vv * (Rabs (a' i) + Rabs (B2R (t (zlead c + i)%Z)) + 2 * th)) <= 1 / 10000000 * (old + 1514 / 1000 * size + 2 * tt)).
    { rewrite nrm_scale by lra. assert (Q : nrm N (fun i => Rabs (a' i) + Rabs (B2R (t (zlead c + i)%Z)) + 2 * th) <= old + 1514 / 1000 * size + tt + 44 * th).
      { eapply Rle_trans; [apply (nrm_tri N (fun i => Rabs (a' i) + Rabs (B2R (t (zlead c + i)%Z))))|]. rewrite (nrm_const N (2 * th)) by lra. pose proof (nrm_tri N (fun i => Rabs (a' i)) (fun i => Rabs (B2R (t (zlead c + i)%Z)))) as Tr. cbv beta in Tr.
        assert (sqrt (INR N) * (2 * th) <= 22 * (2 * th)) by (apply Rmult_le_compat_r; lra). lra. }
      apply Rmult_le_compat; [lra|apply nrm_pos|lra|]. unfold tt in *. lra. }
    replace (bpow radix2 (-79)) with (2 * tt) by (rewrite tt_bpow; change 2 with (bpow radix2 1); rewrite <- bpow_plus; reflexivity).
    eapply Rle_trans; [apply (nrm_sub N _ (fun i => val y i - (a' i + B2R (t (zlead c + i)%Z))) (fun i => B2R (t (zlead c + i)%Z) - tr (zlead c + i)%Z))|].
    + intros i Hi. rewrite Y by lia. eapply Rle_trans; [|apply Rabs_triang]. right. f_equal. ring.
    + assert (R1 : nrm N (fun i => val y i - (a' i + B2R (t (zlead c + i)%Z))) <= 1 / 10000000 * (old + 1514 / 1000 * size + 2 * tt)) by (eapply Rle_trans; [|exact Q3]; apply nrm_le; intros i Hi; apply Step; lia).
      assert (R2 : nrm N (fun i => B2R (t (zlead c + i)%Z) - tr (zlead c + i)%Z) <= 26 / 1000000 * (size + tt)) by (eapply Rle_trans; [|exact I2]; apply (nrm_part N N2 (zlead c) (fun n => B2R (t n) - tr n)); lia). lra.
  - rewrite <- tt_bpow. eapply Rle_trans; [|exact I2]. change (energy (nf c - zlead c) (fun i => val (m_ola m') i - getz 0 (m_ola mr') i)) with (nrm K (fun i => val (m_ola m') i - getz 0 (m_ola mr') i)).
    rewrite (nrm_ext K _ (fun i => B2R (t (nf c + zlead c + i)%Z) - tr (nf c + zlead c + i)%Z)); [apply (nrm_part K N2 (nf c + zlead c) (fun n => B2R (t n) - tr n)); lia|].
    intros i Hi. unfold val. rewrite To, Tor by lia. rewrite TR by lia. reflexivity.
Qed.

(* a fresh pair: zero buffers *)
Definition ffresh (c : config) (s : fpair) : Prop :=
  emdct_ok c (fp_enc s) /\ mdct_ok c (fp_dec s) /\ len (fp_out s) = nf c /\ len (fp_bands s) = nb c /\ len (fp_freq s) = nf c /\
  (forall j, getz 0%Z (em_time (fp_enc s)) j = 0%Z) /\ (forall j, getz f0 (m_zeros (fp_dec s)) j = f0) /\ (forall j, getz f0 (m_ola (fp_dec s)) j = f0).
Definition lost_before (c : config) (r : list (list f32 * list f32)) (n : nat) : R := match n with O => 0 | S n => lost c (fst (nth n r ([], []))) end.
(* Any number of frames of any samples of at most M, any configuration: the samples that leave the pair are finite, and in each frame their root mean square distance
   to the delayed input is at most M / 4096, plus what the lines above the coded bandwidth carry (44.1 and 48 kHz only). *)
Theorem C59_reconstruction lm c s M frames : legal_config c -> twiddles_near lm (nf c / 2) -> ffresh c s -> (0 <= M <= 32768)%Z -> Forall (fun f => len f = nf c /\ Forall (fun v => (Z.abs v <= M)%Z) f) frames ->
  exists r, fpair_run lm c s frames = Ok r /\ length r = length frames /\
    forall n, (n < length frames)%nat -> let '(x, y) := nth n r ([], []) in len y = nf c /\ fin y /\
      rms (nf c) (fun i => val y i - delayed c frames (Z.of_nat n * nf c + i)) <= / 4096 * (IZR M + bpow radix2 (-79)) + 1514 / 1000 * ((lost_before c r n + lost c x) / sqrt (IZR (nf c))).
Proof.
  intros L Htw (H1 & H2 & H3 & H4 & H5 & H6 & H7 & H8) HM Hf. destruct (mdct_window_ok c L) as (w & Ew & _). destruct (geo c L) as (G1 & G2 & G2b & G3). destruct f0_val as [V0 F0]. pose proof (B_big c M L HM) as BB. pose proof th_pos as P0. assert (P1 : 0 < tt) by (unfold tt; lra).
  assert (I : fpair_inv c w M s 0).
  { constructor; auto.
    - intros j _. unfold val. rewrite H7. split; [exact F0|exact V0].
    - intros j _. rewrite H6. cbn. lia.
    - intros i _. rewrite H8. exact F0.
    - right. rewrite (nrm_ext _ _ (fun _ => 0)); [rewrite nrm_const by lra; ring|]. intros i _. unfold val. rewrite H8, V0. unfold alias. rewrite !H6. destruct (_ <? _)%Z; ring.
    - rewrite (nrm_ext _ _ (fun _ => 0)); [rewrite nrm_const by lra; lra|]. intros i _. unfold val. rewrite H8. exact V0. }
  destruct (fpair_run_spec lm c w M L Ew HM Htw frames s 0 I Hf) as (r & E & Lr & Hr). exists r. split; [exact E|]. split; [exact Lr|]. intros n Hn. specialize (Hr n Hn). destruct (nth n r ([], [])) as [x y]. destruct Hr as (_ & A2 & _ & A4 & A5). split; [exact A2|]. split; [exact A4|].
  set (S := sqrt (IZR (nf c))). assert (S1 : 1 <= S) by (apply sqrtn_ge; lia). pose proof sqrt2_num as S2. assert (MR : 0 <= IZR M) by (apply IZR_le; lia).
  assert (EB : sqrt (2 * IZR (nf c)) * IZR M <= 141422 / 100000 * S * IZR M). { rewrite sqrt_mult by (try lra; apply IZR_le; lia). fold S. apply Rmult_le_compat_r; [exact MR|]. apply Rmult_le_compat_r; lra. }
  apply Rmult_le_reg_r with S; [lra|]. unfold S at 1. rewrite rms_nrm by lia.
  rewrite (nrm_ext _ _ (fun i => val y i - IZR (stream c (getz 0%Z (em_time (fp_enc s))) frames (Z.of_nat n * nf c + i)))).
  2:{ intros i Hi. f_equal. unfold stream, delayed. cbv zeta. rewrite getz_app by lia. rewrite len_repeat, Z2Nat.id by lia. destruct (Z.ltb_spec (Z.of_nat n * nf c + i) (nf c - 2 * zlead c)); [|reflexivity]. rewrite H6. unfold getz. rewrite nth_repeat. reflexivity. }
  eapply Rle_trans; [exact A5|]. replace (bpow radix2 (-79)) with (2 * tt) by (rewrite tt_bpow; change 2 with (bpow radix2 1); rewrite <- bpow_plus; reflexivity).
  rewrite Rmult_plus_distr_r. replace (1514 / 1000 * ((lost_before c r n + lost c x) / S) * S) with (1514 / 1000 * lost_before c r n + 1514 / 1000 * lost c x) by (field; lra).
  assert (LB : before c M 0 r n <= 81 / 1000000 * (sqrt (2 * IZR (nf c)) * IZR M + 2 * tt) + 1514 / 1000 * lost_before c r n) by (unfold before, lost_before; destruct n; lra).
  assert (MS : 0 <= S * IZR M) by (apply Rmult_le_pos; lra). assert (TS : tt <= S * tt) by (rewrite <- (Rmult_1_l tt) at 1; apply Rmult_le_compat_r; lra). lra.
Qed.
(* the frequencies up to 32 kHz code the whole spectrum *)
Theorem C59_full_band lm c s M frames : legal_config c -> (fs c <= 32000)%Z -> twiddles_near lm (nf c / 2) -> ffresh c s -> (0 <= M <= 32768)%Z -> Forall (fun f => len f = nf c /\ Forall (fun v => (Z.abs v <= M)%Z) f) frames ->
  exists r, fpair_run lm c s frames = Ok r /\ length r = length frames /\
    forall n, (n < length frames)%nat -> let y := snd (nth n r ([], [])) in len y = nf c /\ fin y /\
      rms (nf c) (fun i => val y i - delayed c frames (Z.of_nat n * nf c + i)) <= / 4096 * (IZR M + bpow radix2 (-79)).
Proof.
  intros L Hfs Htw Fr HM Hf. destruct (C59_reconstruction lm c s M frames L Htw Fr HM Hf) as (r & E & Lr & H). exists r. split; [exact E|]. split; [exact Lr|]. intros n Hn. apply (full_bandwidth c L) in Hfs.
  assert (Z0 : forall x, lost c x = 0). { intros x. unfold lost. rewrite Hfs, Z.sub_diag. unfold nrm. cbn. apply sqrt_0. }
  specialize (H n Hn). destruct (nth n r ([], [])) as [x y]. destruct H as (A & A2 & A3). cbn [snd]. split; [exact A|]. split; [exact A2|]. rewrite Z0 in A3.
  replace (lost_before c r n) with 0 in A3 by (unfold lost_before; destruct n; [reflexivity|symmetry; apply Z0]). unfold Rdiv in A3. rewrite Rplus_0_r, Rmult_0_l, Rmult_0_r, Rplus_0_r in A3. exact A3.
Qed.

(* ---- the hypotheses can be met ---- *)
(* a library that rounds the exact twiddle factors *)
Definition f32_of_R (r : R) : f32 := f32_norm (ZnearestE (scaled_mantissa radix2 fexp32 r)) (cexp radix2 fexp32 r).
Lemma f32_of_R_near r : Rabs r <= 1 -> near (f32_of_R r) r.
Proof.
  intros H. unfold f32_of_R. pose proof (rnd_err r) as Er. pose proof (tiny (-150) ltac:(lia)) as T. change (F2R (Float radix2 (ZnearestE (scaled_mantissa radix2 fexp32 r)) (cexp radix2 fexp32 r))) with (rnd32 r).
  destruct (norm_any (ZnearestE (scaled_mantissa radix2 fexp32 r)) (cexp radix2 fexp32 r)) as [V F]; change (F2R (Float radix2 (ZnearestE (scaled_mantissa radix2 fexp32 r)) (cexp radix2 fexp32 r))) with (rnd32 r) in *.
  - replace (rnd32 r) with (rnd32 r - r + r) by ring. eapply Rle_trans; [apply Rabs_triang|]. unfold uu in Er. lra.
  - split; [exact F|]. rewrite V, rnd_id by (apply generic_format_round; auto with typeclass_instances; apply FLT_exp_valid; reflexivity). eapply Rle_trans; [exact Er|]. unfold uu. cbn. lra.
Qed.
Definition rounded (lm : libm) : libm :=
  let r z := (f32_of_R (fst z), f32_of_R (snd z)) in
  {| lm_gain := lm_gain lm; lm_exp2 := lm_exp2 lm; lm_sin17 := lm_sin17 lm; lm_tw n i := r (ftw R_ops n i); lm_tw4 n i := r (ftw4 R_ops n i) |}.
Example C59_rounded_library lm n : twiddles_near (rounded lm) n.
Proof.
  intros i _. cbn [rounded lm_tw lm_tw4 R_ops ftw ftw4]. split; split; cbn [fst snd]; apply f32_of_R_near; apply Rabs_le; apply COS_bound || apply SIN_bound.
Qed.
Definition zero_fpair (c : config) : fpair :=
  let z n := repeat f0 (Z.to_nat n) in let cz n := repeat (f0, f0) (Z.to_nat n) in
  mkFpair (mkEmdct (repeat 0%Z (Z.to_nat (2 * nf c))) (cz (nf c / 2)%Z) (cz (nf c / 2)%Z))
    (mkMdct (z (nf c - zlead c)%Z) (z (nf c * 2)%Z) (z (nf c - ne c)%Z) (z (nf c / 2)%Z) (cz (nf c / 2)%Z) (cz (nf c / 2)%Z)) (z (nf c)) (z (nb c)) (z (nf c)).
Example C59_fresh_exists c : legal_config c -> ffresh c (zero_fpair c).
Proof.
  intros L. destruct (config_geom c L) as (G1 & G2 & G3 & G4 & G5 & G6 & G7). unfold ffresh, zero_fpair. cbn [fp_enc fp_dec fp_out fp_bands fp_freq em_time m_zeros m_ola].
  split; [constructor; cbn [em_time em_in em_out]; rewrite len_repeat; Z.div_mod_to_equations; lia|].
  split; [constructor; cbn [m_ola m_t m_zeros m_half m_in m_out]; rewrite len_repeat; Z.div_mod_to_equations; lia|].
  rewrite !len_repeat. split; [lia|]. split; [lia|]. split; [lia|]. split; [intros j; unfold getz; apply nth_repeat|]. split; intros j; unfold getz; apply nth_repeat.
Qed.
(* two frames of 16-bit samples at 16 kHz *)
Example C59_frames : let c := config_new Hz16000 TenMs in let f := repeat 0%Z 100 ++ [-32768]%Z ++ repeat 7%Z 59 in
  legal_config c /\ Forall (fun f => len f = nf c /\ Forall (fun v => (Z.abs v <= 32768)%Z) f) [f; f] /\ delayed c [f; f] 140 = -32768.
Proof.
  intros c f. split; [exists Hz16000, TenMs; reflexivity|]. split; [|reflexivity]. assert (A : len f = nf c /\ Forall (fun v => (Z.abs v <= 32768)%Z) f).
  { split; [reflexivity|]. apply Forall_app. split; [apply Forall_forall; intros v Hv; apply repeat_spec in Hv; subst v; lia|]. constructor; [lia|]. apply Forall_forall; intros v Hv; apply repeat_spec in Hv; subst v; lia. }
  constructor; [exact A|]. constructor; [exact A|constructor].
Qed.

Print Assumptions C59_forward.
Print Assumptions C59_inverse.
Print Assumptions C59_reconstruction.
Print Assumptions C59_full_band.
