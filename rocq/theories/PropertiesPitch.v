(* C55: the pitch analysis of the encoder, in exact arithmetic, as a function of the whole signal. *)
From Coq Require Import ZArith Lia List Bool Reals Lra.
From Flocq Require Import Core.
From Verif Require Import Base Config Buffers BufLemmas Loops Scalar EncScalar RealOps EncF32 DecSignal DecLtpf DecTotal ParseBase FrameSpec SnsIndex DctSpec MdctSpec Dct4Inv MdctFormula TablesLtpf DetectSpec EncLtpf EncLtpfOk SnsShape PitchSpec PitchRun PitchFacts.
From Coq Require Import List.
Import ListNotations.
Local Open Scope Z_scope.

(* the samples of the frames one after the other, silence before *)
Definition samples (frames : list (list Z)) (j : Z) : Z := if j <? 0 then 0 else getz 0 (concat frames) j.
Lemma samples_frame N : forall (l : list (list Z)) n x j, Forall (fun x => len x = N) l -> nth_error l n = Some x -> 0 <= j < N -> samples l (Z.of_nat n * N + j) = getz 0 x j.
Proof.
  intros l n x j H E Hj. unfold samples. destruct (Z.ltb_spec (Z.of_nat n * N + j) 0); [nia|]. clear H0. revert n H E. clear - Hj. induction l as [|a l IH]; intros [|n] H E; try discriminate E.
  - cbn in E. assert (a = x) by congruence. subst a. apply Forall_inv in H. cbn [concat]. change (Z.of_nat 0) with 0. rewrite Z.mul_0_l, Z.add_0_l. rewrite getz_app by lia. destruct (Z.ltb_spec j (len x)); [reflexivity|lia].
  - cbn in E. pose proof (Forall_inv H) as Ha. cbv beta in Ha. apply Forall_inv_tail in H. cbn [concat]. replace (Z.of_nat (S n) * N + j) with (N + (Z.of_nat n * N + j)) by lia. assert (0 <= Z.of_nat n * N) by (apply Z.mul_nonneg_nonneg; lia).
    rewrite getz_app by lia. destruct (Z.ltb_spec (N + (Z.of_nat n * N + j)) (len a)); [lia|]. rewrite <- (IH n H E). f_equal. lia.
Qed.

(* A new detector on cleared buffers, any number of frames: the results are those of the specification, for the signal obtained from all the samples so far. *)
Theorem C55_pitch_analysis : forall c xs x12 x6 frames, legal_config c -> eltpf_wf c (eltpf_new R_ops xs x12 x6) -> Forall (fun v => v = 0) xs -> Forall (fun v => v = 0%R) x12 -> Forall (fun v => v = 0%R) x6 ->
  Forall (fun '(x, _, _) => len x = nf c) frames -> let s := samples (map (fun '(x, _, _) => x) frames) in
  exists z rp rs m', signal12 c s z /\ eltpf_frames R_ops R_eops c (eltpf_new R_ops xs x12 x6) frames = Ok rp /\ pitch_run c z 0 pmem0 (map (fun '(_, near_nyquist, nbits) => (ltpf_nbits (n_ms c) nbits <? 560 + fs_ind c * 80) && negb near_nyquist) frames) rs m' /\
    map fst rp = map (fun r => mkLr (if po_present r then lag_index (po_lag r) (po_frac r) else 0) (po_present r) (po_active r) (if po_present r then 11 else 1)) rs.
Proof.
  intros c xs x12 x6 frames L W Z1 Z2 Z3 HF s. assert (HS : forall j, j < 0 -> s j = 0) by (intros j Hj; unfold s, samples; destruct (Z.ltb_spec j 0); [reflexivity|lia]). destruct (factors_spec c L) as (rf & _ & _ & Hu & _ & _ & _ & X0 & N0).
  destruct (pitch_stream c s L frames 0 _ ltac:(lia) (pitch_start c s xs x12 x6 L HS W Z1 Z2 Z3) HF) as (rs & rp & m' & E & M & P).
  { intros k x nn nbits Hk j Hj. rewrite Z.add_0_l. symmetry. apply samples_frame; [|exact (map_nth_error (fun '(x, _, _) => x) _ _ Hk)|exact Hj]. apply Forall_map. eapply Forall_impl; [|exact HF]. intros [[? ?] ?]. auto. }
  exists (passed (resampled (up_factor c) (up_gain c) s)), rp, rs, m'. split; [|auto]. apply passed_ok. intros m Hm. apply resampled_silent; [destruct Hu as [->|[->|[->|[->| ->]]]]; lia|exact HS|exact Hm].
Qed.
Print Assumptions C55_pitch_analysis.

(* The specification leaves nothing open: one signal, one result. *)
Theorem C55_result_unique : forall c s z z' n a m r m1 r' m2, signal12 c s z -> signal12 c s z' -> pitch_frame c z n a m r m1 -> pitch_frame c z' n a m r' m2 -> r = r' /\ m1 = m2.
Proof.
  intros c s z z' n a m r m1 r' m2 S1 S2 (t & p & d & H1 & H2 & H3 & H4 & H5 & H6 & H7 & H8 & H9) (t' & p' & d' & G1 & G2 & G3 & G4 & G5 & G6 & G7 & G8 & G9). pose proof (highpassed_unique _ _ _ S1 S2) as EZ.
  assert (E12 : forall j, frame12 c z n j = frame12 c z' n j) by (intros j; apply EZ). assert (E6 : forall j, frame6 c z n j = frame6 c z' n j) by (intros j; unfold frame6, halved; now rewrite !EZ).
  assert (EC6 : forall k, corr (len6 (n_ms c)) (frame6 c z n) k = corr (len6 (n_ms c)) (frame6 c z' n) k) by (intros k; apply rsum_ext; intros; now rewrite !E6). assert (EC12 : forall k, corr (len12 (n_ms c)) (frame12 c z n) k = corr (len12 (n_ms c)) (frame12 c z' n) k) by (intros k; apply rsum_ext; intros; now rewrite !E12).
  assert (EP6 : forall k, power (len6 (n_ms c)) (frame6 c z n) k = power (len6 (n_ms c)) (frame6 c z' n) k) by (intros k; apply rsum_ext; intros; now rewrite !E6). assert (EN : forall k, ncorr c z n k = ncorr c z' n k) by (intros k; unfold ncorr; now rewrite !EC6, !EP6).
  assert (T : t = t').
  { destruct H1 as (t1 & t2 & A1 & A2 & A3), G1 as (u1 & u2 & D1 & D2 & D3). assert (t1 = u1) by (apply (first_best_unique _ _ _ _ A1); apply (first_best_ext (weighted c z' n)); [intros k _; unfold weighted; now rewrite EC6|exact D1]). assert (t2 = u2) by (apply (first_best_unique _ _ _ _ A2); apply (first_best_ext (corr (len6 (n_ms c)) (frame6 c z' n))); [intros k _; now rewrite EC6|exact D2]).
    subst u1 u2. rewrite !EN in A3. destruct A3 as [[? ->]|[? ->]], D3 as [[? ->]|[? ->]]; try reflexivity; lra. }
  subst t'. assert (FP : forall f g cs e x, (forall k, f k = g k) -> first_positive f cs e x -> first_positive g cs e x).
  { intros f g cs e x K [[-> Q]|[Q1 Q2]]; [left; split; [reflexivity|]; intros k Hk; rewrite <- K; now apply Q|right; rewrite <- K; split; [exact Q1|]; now apply (first_best_ext f)]. }
  assert (P : p = p') by (apply (first_positive_unique _ _ _ _ _ H2); apply (FP (corr (len12 (n_ms c)) (frame12 c z' n))); [intros k; now rewrite EC12|exact G2]). subst p'.
  assert (D : d = d') by (apply (first_positive_unique _ _ _ _ _ H3); apply (FP (quarter c z' n p)); [intros k; unfold quarter; apply rsum_ext; intros; now rewrite EC12|exact G3]). subst d'.
  assert (ESh : forall q e j, shifted c z n q e j = shifted c z' n q e j) by (intros; unfold shifted; apply rsum_ext; intros; now rewrite E12).
  assert (ES : forall q e, similarity c z n q e = similarity c z' n q e).
  { intros q e. unfold similarity. cbv zeta. rewrite (rsum_ext _ (fun j => shifted c z n 0 0 j * shifted c z n q e j)%R (fun j => shifted c z' n 0 0 j * shifted c z' n q e j)%R) by (intros; now rewrite !ESh). rewrite (rsum_ext _ (fun j => shifted c z n 0 0 j * shifted c z n 0 0 j)%R (fun j => shifted c z' n 0 0 j * shifted c z' n 0 0 j)%R) by (intros; now rewrite !ESh).
    rewrite (rsum_ext _ (fun j => shifted c z n q e j * shifted c z n q e j)%R (fun j => shifted c z' n q e j * shifted c z' n q e j)%R) by (intros; now rewrite !ESh). reflexivity. }
  assert (BI : forall b b' : bool, (b = true <-> b' = true) -> b = b') by (intros [] [] [? ?]; try reflexivity; [symmetry|]; auto).
  destruct r as [b1 b2 q1 q2 q3], r' as [c1 c2 k1 k2 k3]. cbn [po_present po_active po_lag po_frac po_nc] in *. subst q1 q2 k1 k2. rewrite ES in H7. rewrite <- G7 in H7. subst q3.
  assert (b1 = c1) by (apply BI; rewrite EN in H4; split; intros Q; [apply G4, H4, Q|apply H4, G4, Q]). assert (b2 = c2) by (apply BI; split; intros Q; [apply G8, H8, Q|apply H8, G8, Q]). subst c1 c2. split; [reflexivity|]. rewrite H9, G9. reflexivity.
Qed.
Print Assumptions C55_result_unique.

(* ---- what follows from it ---- *)
Lemma rsum_square (f : Z -> R) n : (0 <= rsum n (fun j => f j * f j))%R.
Proof. induction n as [|n IH]; cbn [rsum]; [lra|]. pose proof (Rle_0_sqr (f (Z.of_nat n))). unfold Rsqr in *. lra. Qed.
Lemma cauchy (f g : Z -> R) n : (Rabs (rsum n (fun j => f j * g j)) <= sqrt (rsum n (fun j => f j * f j) * rsum n (fun j => g j * g j)))%R.
Proof.
  set (ab := rsum n (fun j => f j * g j)%R). set (a := rsum n (fun j => f j * f j)%R). set (b := rsum n (fun j => g j * g j)%R). pose proof (rsum_square f n) as Pa. pose proof (rsum_square g n) as Pb. fold a in Pa. fold b in Pb.
  assert (H : forall x y : R, (0 <= x * x * a - 2 * x * y * ab + y * y * b)%R).
  { intros x y. replace (x * x * a - 2 * x * y * ab + y * y * b)%R with (rsum n (fun j => (x * f j - y * g j) * (x * f j - y * g j)))%R; [apply (rsum_square (fun j => x * f j - y * g j)%R)|]. unfold a, b, ab. clear. induction n as [|n IH]; cbn [rsum]; [ring|]. rewrite IH. ring. }
  assert (Q : (ab * ab <= a * b)%R). { destruct (Req_dec b 0) as [B0|B0]; [|pose proof (H b ab); assert (0 < b)%R by lra; nra]. destruct (Req_dec ab 0) as [A0|A0]; [rewrite A0, B0; lra|]. exfalso. pose proof (H 1%R ((a + 1) / ab)%R) as H1. rewrite B0 in H1. replace (1 * 1 * a - 2 * 1 * ((a + 1) / ab) * ab + (a + 1) / ab * ((a + 1) / ab) * 0)%R with (a - 2 * (a + 1))%R in H1 by (field; exact A0). lra. }
  rewrite <- sqrt_Rsqr_abs. apply sqrt_le_1; unfold Rsqr; [apply Rle_0_sqr|apply Rmult_le_pos; lra|exact Q].
Qed.
(* similarities lie in [-1, 1], normalised correlations in [0, 1] *)
Theorem C55_similarity_range : forall c z n p d k, (-1 <= similarity c z n p d <= 1)%R /\ (0 <= ncorr c z n k <= 1)%R.
Proof.
  intros c z n p d k. split.
  - unfold similarity. cbv zeta. destruct (Rlt_dec 0 _) as [H|H]; [|lra]. pose proof (cauchy (shifted c z n 0 0) (shifted c z n p d) (Z.to_nat (len12 (n_ms c)))) as CS. set (ab := rsum _ (fun j => shifted c z n 0 0 j * shifted c z n p d j)%R) in *. set (e := sqrt _) in *.
    apply Rabs_le_inv in CS. assert (N0 : e <> 0%R) by lra. assert (Q : (ab / e * e = ab)%R) by (field; exact N0). split; apply (Rmult_le_reg_r e _ _ H); rewrite Q; lra.
  - unfold ncorr. split; [apply Rmax_l|]. apply Rmax_lub; [lra|]. pose proof (cauchy (frame6 c z n) (fun j => frame6 c z n (j - k)) (Z.to_nat (len6 (n_ms c)))) as CS.
    assert (E : power (len6 (n_ms c)) (frame6 c z n) 0 = rsum (Z.to_nat (len6 (n_ms c))) (fun j => frame6 c z n j * frame6 c z n j)%R) by (apply rsum_ext; intros; now rewrite Z.sub_0_r). rewrite E. change (rsum (Z.to_nat (len6 (n_ms c))) (fun j => frame6 c z n (j - k) * frame6 c z n (j - k))%R) with (power (len6 (n_ms c)) (frame6 c z n) k) in CS. change (rsum (Z.to_nat (len6 (n_ms c))) (fun j => frame6 c z n j * frame6 c z n (j - k))%R) with (corr (len6 (n_ms c)) (frame6 c z n) k) in CS. set (e := sqrt _) in *. apply Rabs_le_inv in CS. assert (He : (0 <= e)%R) by apply sqrt_pos.
    change (- e <= corr (len6 (n_ms c)) (frame6 c z n) k <= e)%R in CS. destruct (Req_dec e 0) as [E0|E0]; [assert (C0 : corr (len6 (n_ms c)) (frame6 c z n) k = 0%R) by lra; rewrite C0; unfold Rdiv; lra|]. apply (Rmult_le_reg_r e); [lra|]. unfold Rdiv. rewrite Rmult_assoc, Rinv_l by exact E0. lra.
Qed.
Print Assumptions C55_similarity_range.
Lemma spec_late_start : forall c z allowed rs m', pitch_run c z 0 pmem0 allowed rs m' -> forall k r, nth_error rs k = Some r -> (k < match n_ms c with TenMs => 1 | SevenPointFiveMs => 2 end)%nat -> po_active r = false.
Proof.
  intros c z allowed rs m' P k r Hk Hd. destruct rs as [|r0 rs]; [destruct k; discriminate Hk|]. destruct allowed as [|a0 allowed]; [contradiction P|]. cbn [pitch_run] in P. destruct P as (m1 & P0 & P1).
  assert (F0 : po_active r0 = false /\ pm_active m1 = false /\ (pm_nc2 m1 = 0)%R).
  { destruct P0 as (t & p & d & _ & _ & _ & _ & _ & _ & _ & H8 & H9). assert (A : po_active r0 = false). { destruct (po_active r0) eqn:E; [|reflexivity]. destruct (proj1 H8 eq_refl) as [_ [(_ & _ & S1 & _)|[S1 _]]]; cbn [pmem0 pm_nc pm_active] in S1; [lra|discriminate S1]. }
    split; [exact A|]. rewrite H9. destruct (po_present r0); cbn [pm_active pm_nc2 pmem0 pm_nc]; auto. }
  destruct F0 as (F1 & F2 & F3). destruct k as [|k]; [cbn in Hk; congruence|]. destruct (n_ms c) eqn:EM; [|lia]. destruct k as [|k]; [|lia]. cbn [nth_error] in Hk. destruct rs as [|r1 rs]; [discriminate Hk|]. destruct allowed as [|a1 allowed]; [contradiction P1|]. cbn [pitch_run] in P1. destruct P1 as (m2 & P1 & _). assert (r1 = r) by congruence. subst r1.
  destruct P1 as (t & p & d & _ & _ & _ & _ & _ & _ & _ & H8 & _). destruct (po_active r) eqn:E; [|reflexivity]. destruct (proj1 H8 eq_refl) as [_ [(_ & S1 & _)|[S1 _]]]; [specialize (S1 EM); rewrite F3 in S1; lra|rewrite F2 in S1; discriminate S1].
Qed.

(* the post filter is off in the first frame, at 7.5 ms also in the second, whatever the audio and the bit rate *)
Theorem C55_late_start : forall c xs x12 x6 frames rp, legal_config c -> eltpf_wf c (eltpf_new R_ops xs x12 x6) -> Forall (fun v => v = 0) xs -> Forall (fun v => v = 0%R) x12 -> Forall (fun v => v = 0%R) x6 ->
  Forall (fun '(x, _, _) => len x = nf c) frames -> eltpf_frames R_ops R_eops c (eltpf_new R_ops xs x12 x6) frames = Ok rp ->
  forall k r, nth_error (map fst rp) k = Some r -> (k < match n_ms c with TenMs => 1 | SevenPointFiveMs => 2 end)%nat -> lr_active r = false.
Proof.
  intros c xs x12 x6 frames rp L W Z1 Z2 Z3 HF E k r Hk Hd. destruct (C55_pitch_analysis c xs x12 x6 frames L W Z1 Z2 Z3 HF) as (z & rp' & rs & m' & _ & E' & P & M). assert (rp' = rp) by congruence. subst rp'.
  rewrite M, nth_error_map in Hk. destruct (nth_error rs k) as [q|] eqn:Q; [|discriminate Hk]. cbn [option_map] in Hk. assert (R : lr_active r = po_active q) by (now injection Hk as <-). rewrite R. exact (spec_late_start _ _ _ _ _ P k q Q Hd).
Qed.
Print Assumptions C55_late_start.

(* the level of the audio does not matter, nor does its sign *)
Lemma pitch_run_unique c s z z' : signal12 c s z -> signal12 c s z' -> forall allowed n m rs m1 rs' m2, pitch_run c z n m allowed rs m1 -> pitch_run c z' n m allowed rs' m2 -> rs = rs'.
Proof.
  intros S1 S2. induction allowed as [|a al IH]; intros n m [|r rs] m1 [|r' rs'] m2 H G; cbn [pitch_run] in *; try contradiction; [reflexivity|]. destruct H as (h & H1 & H2), G as (g & G1 & G2). destruct (C55_result_unique c s z z' n a m r h r' g S1 S2 H1 G1) as [-> ->]. f_equal. exact (IH _ _ _ _ _ _ H2 G2).
Qed.
Definition times (k : Z) (frames : list (list Z * bool * Z)) : list (list Z * bool * Z) := map (fun '(x, nn, nbits) => (map (Z.mul k) x, nn, nbits)) frames.
Theorem C55_level_invariant : forall c xs x12 x6 frames k rp, k <> 0 -> legal_config c -> eltpf_wf c (eltpf_new R_ops xs x12 x6) -> Forall (fun v => v = 0) xs -> Forall (fun v => v = 0%R) x12 -> Forall (fun v => v = 0%R) x6 ->
  Forall (fun '(x, _, _) => len x = nf c) frames -> eltpf_frames R_ops R_eops c (eltpf_new R_ops xs x12 x6) frames = Ok rp ->
  exists rp', eltpf_frames R_ops R_eops c (eltpf_new R_ops xs x12 x6) (times k frames) = Ok rp' /\ map fst rp' = map fst rp.
Proof.
  intros c xs x12 x6 frames k rp K0 L W Z1 Z2 Z3 HF E. destruct (C55_pitch_analysis c xs x12 x6 frames L W Z1 Z2 Z3 HF) as (z & rp0 & rs & m & S & E0 & P & M). assert (rp0 = rp) by congruence. subst rp0.
  assert (HF' : Forall (fun '(x, _, _) => len x = nf c) (times k frames)) by (apply Forall_map; eapply Forall_impl; [|exact HF]; intros [[x ?] ?] Hx; now rewrite len_map).
  destruct (C55_pitch_analysis c xs x12 x6 (times k frames) L W Z1 Z2 Z3 HF') as (z' & rp' & rs' & m' & S' & E' & P' & M'). exists rp'. split; [exact E'|].
  assert (ES : forall j, samples (map (fun '(x, _, _) => x) (times k frames)) j = k * samples (map (fun '(x, _, _) => x) frames) j).
  { intros j. unfold samples. destruct (j <? 0); [ring|]. replace (concat (map (fun '(x, _, _) => x) (times k frames))) with (map (Z.mul k) (concat (map (fun '(x, _, _) => x) frames))).
    - unfold getz. rewrite <- (map_nth (Z.mul k)). now rewrite Z.mul_0_r.
    - rewrite concat_map. f_equal. unfold times. rewrite !map_map. apply map_ext. now intros [[? ?] ?]. }
  assert (EA : map (fun '(_, near_nyquist, nbits) => (ltpf_nbits (n_ms c) nbits <? 560 + fs_ind c * 80) && negb near_nyquist) (times k frames) = map (fun '(_, near_nyquist, nbits) => (ltpf_nbits (n_ms c) nbits <? 560 + fs_ind c * 80) && negb near_nyquist) frames) by (unfold times; rewrite map_map; apply map_ext; now intros [[? ?] ?]).
  rewrite EA in P'. pose proof (signal12_mul c _ z k S) as SK. pose proof (pitch_run_mul (IZR k) c z (IZR_neq _ _ K0) _ _ _ _ _ P) as PK.
  assert (SK' : signal12 c (samples (map (fun '(x, _, _) => x) (times k frames))) (louder (IZR k) z)).
  { destruct SK as [SA SB]. split; [exact SA|]. intros m0 Hm. rewrite (SB m0 Hm). assert (ER : forall q, resampled (up_factor c) (up_gain c) (samples (map (fun '(x, _, _) => x) (times k frames))) q = resampled (up_factor c) (up_gain c) (fun j => k * samples (map (fun '(x, _, _) => x) frames) j) q); [|now rewrite !ER].
    intros q. unfold resampled. f_equal. apply rsum_ext. intros i _. unfold stuffed. now rewrite ES. }
  rewrite M', M. f_equal. symmetry. exact (pitch_run_unique c _ _ _ SK' S' _ _ _ _ _ _ _ PK P').
Qed.
Print Assumptions C55_level_invariant.

(* The tables: the three filters are symmetric, hence of linear phase; resampling keeps a constant within 0.4 %, for every phase and every sampling rate (half of it at 8 kHz); so do the two interpolations for every quarter. *)
Theorem C55_tables :
  (forall q, tap TAB_RESAMP_FILTER 119 (- q) = tap TAB_RESAMP_FILTER 119 q /\ tap TAB_LTPF_INTERP_R 15 (- q) = tap TAB_LTPF_INTERP_R 15 q /\ tap TAB_LTPF_INTERP_X12K8 7 (- q) = tap TAB_LTPF_INTERP_X12K8 7 q) /\
  (forall c v m, legal_config c -> let w := (up_gain c * IZR v)%R in (Rabs (resampled (up_factor c) (up_gain c) (fun _ => v) m - w) <= 4 / 1000 * Rabs w)%R) /\
  (forall d, -3 <= d <= 3 -> (Rabs (rsum 9 (fun i => tap TAB_LTPF_INTERP_R 15 (4 * (i - 4) - d)) - 1) <= 4 / 1000)%R) /\
  (forall d, 0 <= d <= 3 -> (Rabs (rsum 5 (fun i => tap TAB_LTPF_INTERP_X12K8 7 (4 * (i - 2) - d)) - 1) <= 4 / 1000)%R).
Proof.
  split; [exact tables_symmetric|]. split; [|split; intros d; apply interp_gain]. intros c v m L w. apply resampled_constant. destruct (factors_spec c L) as (rf & _ & _ & Hu & _). destruct Hu as [->|[->|[->|[->| ->]]]]; cbn; tauto.
Qed.
Print Assumptions C55_tables.

(* ---- a case: 16 kHz, three frames of 10 ms holding a pulse every 5 ms ---- *)
Definition pulses : list (list Z * bool * Z) := repeat (map (fun j => if j mod 80 =? 0 then 12000 else 0) (iota 160), false, 320) 3.
Lemma forall_repeat {A} (P : A -> Prop) x n : P x -> Forall P (repeat x n).
Proof. intros H. apply Forall_forall. intros y Hy. now rewrite (repeat_spec _ _ _ Hy). Qed.
Lemma pulses_setup : let c := config_new Hz16000 TenMs in legal_config c /\ eltpf_wf c (eltpf_new R_ops (repeat 0 180) (repeat 0%R 384) (repeat 0%R 178)) /\ Forall (fun v => v = 0) (repeat 0 180) /\ Forall (fun v => v = 0%R) (repeat 0%R 384) /\ Forall (fun v => v = 0%R) (repeat 0%R 178) /\ Forall (fun '(x, _, _) => len x = nf c) pulses.
Proof.
  intros c. split; [now exists Hz16000, TenMs|]. split; [apply eltpf_new_wf; unfold len; rewrite ?repeat_length; reflexivity|]. split; [now apply forall_repeat|]. split; [now apply forall_repeat|]. split; [now apply forall_repeat|]. apply forall_repeat. reflexivity.
Qed.
Example C55_case : let c := config_new Hz16000 TenMs in exists rp rp', let st := eltpf_new R_ops (repeat 0 180) (repeat 0%R 384) (repeat 0%R 178) in
  eltpf_frames R_ops R_eops c st pulses = Ok rp /\ length rp = 3%nat /\ lr_active (fst (nth 0 rp (mkLr 0 false true 0, 0%R))) = false /\
  eltpf_frames R_ops R_eops c st (times (-2) pulses) = Ok rp' /\ map fst rp' = map fst rp.
Proof.
  intros c. destruct pulses_setup as (L & W & Z1 & Z2 & Z3 & HF). fold c in L, W, HF. destruct (eltpf_frames_ok R_ops R_eops c L pulses _ W HF) as (rp & E & Len & _).
  destruct (C55_level_invariant c _ _ _ pulses (-2) rp ltac:(lia) L W Z1 Z2 Z3 HF E) as (rp' & E' & M). exists rp, rp'. split; [exact E|]. split; [exact Len|]. split; [|split; [exact E'|exact M]].
  destruct rp as [|[r0 p0] rp]; [discriminate Len|]. exact (C55_late_start c _ _ _ pulses _ L W Z1 Z2 Z3 HF E 0 r0 eq_refl ltac:(cbn; lia)).
Qed.
