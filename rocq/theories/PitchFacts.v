(* Consequences of PitchSpec: independence of the level of the audio; the coefficient tables *)
From Coq Require Import ZArith Lia List Bool Reals Lra.
From Flocq Require Import Core.
From Verif Require Import Base Config Loops RealOps SnsIndex DctSpec Dct4Inv TablesLtpf EncLtpfOk PitchSpec.
From Coq Require Import List.
Import ListNotations.
Local Open Scope Z_scope.

(* ---- a signal g times as large ---- *)
Section Gain.
Variable g : R.
Hypothesis g0 : g <> 0%R.
Local Notation g2 := (g * g)%R.
Lemma g2_pos : (0 < g2)%R.
Proof. pose proof (Rlt_0_sqr g g0). exact H. Qed.
Definition louder (z : Z -> R) (j : Z) : R := (g * z j)%R.
Lemma first_best_mul f h cs d : (forall k, f k = (g2 * h k)%R) -> first_best h cs d -> first_best f cs d.
Proof.
  pose proof g2_pos as P. intros E (l1 & l2 & H1 & H2 & H3). exists l1, l2. split; [exact H1|]. split; intros k Hk; rewrite !E; [apply Rmult_lt_compat_l; [exact P|now apply H2]|apply Rmult_le_compat_l; [lra|now apply H3]].
Qed.
Lemma first_positive_mul f h cs e d : (forall k, f k = (g2 * h k)%R) -> first_positive h cs e d -> first_positive f cs e d.
Proof.
  pose proof g2_pos as P. intros E [[-> H]|[H1 H2]]; [left; split; [reflexivity|]; intros k Hk; rewrite E; specialize (H k Hk); nra|]. right. split; [rewrite E; now apply Rmult_lt_0_compat|]. now apply (first_best_mul f h).
Qed.
Variables (c : config) (z : Z -> R) (n : Z).
Lemma frame12_mul j : frame12 c (louder z) n j = (g * frame12 c z n j)%R.
Proof. reflexivity. Qed.
Lemma frame6_mul j : frame6 c (louder z) n j = (g * frame6 c z n j)%R.
Proof. unfold frame6, halved, louder. ring. Qed.
Lemma corr_mul N a b k : (forall j, a j = (g * b j)%R) -> corr N a k = (g2 * corr N b k)%R.
Proof. intros E. unfold corr. rewrite <- rsum_mul. apply rsum_ext. intros j _. rewrite !E. ring. Qed.
Lemma power_mul N a b k : (forall j, a j = (g * b j)%R) -> power N a k = (g2 * power N b k)%R.
Proof. intros E. unfold power. rewrite <- rsum_mul. apply rsum_ext. intros j _. rewrite !E. ring. Qed.
Lemma sqrt_mul4 a b : sqrt (g2 * a * (g2 * b)) = (g2 * sqrt (a * b))%R.
Proof. replace (g2 * a * (g2 * b))%R with (g2 * g2 * (a * b))%R by ring. pose proof g2_pos. rewrite sqrt_mult_alt by nra. rewrite sqrt_square by lra. reflexivity. Qed.
Lemma ncorr_mul k : ncorr c (louder z) n k = ncorr c z n k.
Proof.
  unfold ncorr. rewrite !(power_mul _ _ _ _ frame6_mul), (corr_mul _ _ _ _ frame6_mul), sqrt_mul4. f_equal. pose proof g2_pos. set (e := sqrt _). destruct (Req_dec e 0) as [->|N]; [rewrite Rmult_0_r; unfold Rdiv; rewrite Rinv_0; ring|]. field. auto.
Qed.
Lemma shifted_mul p d j : shifted c (louder z) n p d j = (g * shifted c z n p d j)%R.
Proof. unfold shifted. rewrite <- rsum_mul. apply rsum_ext. intros i _. rewrite frame12_mul. ring. Qed.
Lemma similarity_mul p d : similarity c (louder z) n p d = similarity c z n p d.
Proof.
  unfold similarity. cbv zeta. set (N := Z.to_nat (len12 (n_ms c))).
  assert (K : forall p d p' d', rsum N (fun j => shifted c (louder z) n p d j * shifted c (louder z) n p' d' j)%R = (g2 * rsum N (fun j => shifted c z n p d j * shifted c z n p' d' j))%R) by (intros; rewrite <- rsum_mul; apply rsum_ext; intros; rewrite !shifted_mul; ring).
  rewrite !K, sqrt_mul4. pose proof g2_pos. set (e := sqrt _). destruct (Rlt_dec 0 (g2 * e)) as [A|A], (Rlt_dec 0 e) as [B|B]; try reflexivity.
  - field. split; [lra|exact g0].
  - exfalso. apply B. apply (Rmult_lt_reg_l (g * g)); [assumption|]. lra.
  - exfalso. apply A. now apply Rmult_lt_0_compat.
Qed.
Lemma pitch_frame_mul a m r m' : pitch_frame c z n a m r m' -> pitch_frame c (louder z) n a m r m'.
Proof.
  intros (t & p & d & (t1 & t2 & A1 & A2 & A3) & H2 & H3 & H4 & H5 & H6 & H7 & H8). exists t, p, d. split; [|split; [|split]].
  - exists t1, t2. split; [|split]; [| |rewrite !ncorr_mul; exact A3].
    + apply (first_best_mul _ (weighted c z n)); [|exact A1]. intros k. unfold weighted. rewrite (corr_mul _ _ _ _ frame6_mul). ring.
    + apply (first_best_mul _ (corr (len6 (n_ms c)) (frame6 c z n))); [|exact A2]. intros k. apply corr_mul, frame6_mul.
  - apply (first_positive_mul _ (corr (len12 (n_ms c)) (frame12 c z n))); [|exact H2]. intros k. apply corr_mul, frame12_mul.
  - apply (first_positive_mul _ (quarter c z n p)); [|exact H3]. intros k. unfold quarter. rewrite <- rsum_mul. apply rsum_ext. intros i _. rewrite (corr_mul _ _ _ _ frame12_mul). ring.
  - rewrite ncorr_mul, similarity_mul. auto.
Qed.
End Gain.
Lemma pitch_run_mul g c z : g <> 0%R -> forall allowed rs n m m', pitch_run c z n m allowed rs m' -> pitch_run c (louder g z) n m allowed rs m'.
Proof.
  intros G. induction allowed as [|a al IH]; intros [|r rs] n m m' H; cbn [pitch_run] in *; try exact H. destruct H as (m1 & H1 & H2). exists m1. split; [apply (pitch_frame_mul g G); exact H1|now apply IH].
Qed.
Lemma signal12_mul c s z k : signal12 c s z -> signal12 c (fun j => k * s j) (louder (IZR k) z).
Proof.
  assert (E : forall m, resampled (up_factor c) (up_gain c) (fun j => k * s j) m = (IZR k * resampled (up_factor c) (up_gain c) s m)%R).
  { intros m. unfold resampled. rewrite (rsum_ext _ _ (fun q => IZR k * (tap TAB_RESAMP_FILTER 119 (q - 119) * stuffed (up_factor c) s (15 * m - 120 + (q - 119))))%R), rsum_mul; [ring|]. intros q _. unfold stuffed. destruct (_ =? 0); [rewrite mult_IZR|]; ring. }
  intros [H1 H2]. split; intros m Hm; unfold louder; [rewrite H1 by exact Hm; ring|]. rewrite !E, H2 by exact Hm. ring.
Qed.

(* ---- the tables ---- *)
(* an entry in units of 10^-e *)
Definition units (e : Z) (p : Z * Z) : Z := fst p * 10 ^ (snd p + e).
Lemma power10 k : 0 <= k -> powerRZ 10 k = IZR (10 ^ k).
Proof. intros H. rewrite <- (Z2Nat.id k) by exact H. rewrite <- pow_powerRZ. apply (pow_IZR 10). Qed.
Lemma units_R e p : 0 <= e -> 0 <= snd p + e -> R_lit p = (IZR (units e p) / IZR (10 ^ e))%R.
Proof.
  intros He H. unfold R_lit, units. rewrite mult_IZR, <- (power10 _ H), <- (power10 _ He), powerRZ_add by lra. field. apply powerRZ_NOR. lra.
Qed.
Fixpoint zsum (n : nat) (f : Z -> Z) : Z := match n with O => 0 | S k => zsum k f + f (Z.of_nat k) end.
Definition tap_units (e : Z) (l : list (Z * Z)) (h q : Z) : Z := if Z.abs q <=? h then units e (getz (0, 0) l (h + q)) else 0.
Lemma tap_units_R e l h q : 0 <= e -> forallb (fun p => 0 <=? snd p + e) l = true -> tap l h q = (IZR (tap_units e l h q) / IZR (10 ^ e))%R.
Proof.
  intros He H. unfold tap, tap_units. destruct (_ <=? h); [|unfold Rdiv; ring]. apply units_R; [exact He|]. unfold getz. destruct (nth_in_or_default (Z.to_nat (h + q)) l (0, 0)) as [Hi|E]; [|rewrite E; cbn; lia]. rewrite forallb_forall in H. apply Z.leb_le, H, Hi.
Qed.
Lemma zsum_R n f : rsum n (fun i => IZR (f i)) = IZR (zsum n f).
Proof. induction n as [|n IH]; cbn [rsum zsum]; [reflexivity|]. now rewrite IH, plus_IZR. Qed.
Definition iotab (n : nat) (f : Z -> bool) : bool := forallb f (map Z.of_nat (seq 0 n)).
Lemma iotab_ok n f : iotab n f = true -> forall i, 0 <= i < Z.of_nat n -> f i = true.
Proof. intros H i Hi. unfold iotab in H. rewrite forallb_forall in H. apply H. apply in_map_iff. exists (Z.to_nat i). split; [lia|]. apply in_seq. lia. Qed.

(* symmetric *)
Definition sym_units (e : Z) (l : list (Z * Z)) (h : Z) : bool := forallb (fun p => 0 <=? snd p + e) l && iotab (Z.to_nat (h + 1)) (fun q => tap_units e l h q =? tap_units e l h (- q)).
Lemma sym_ok e l h q : 0 <= e -> sym_units e l h = true -> tap l h (- q) = tap l h q.
Proof.
  intros He H. apply andb_prop in H. destruct H as [H1 H2]. pose proof (iotab_ok _ _ H2) as K. rewrite !(tap_units_R e) by assumption. do 2 f_equal. destruct (Z_le_gt_dec (Z.abs q) h) as [L|L].
  - destruct (Z_le_gt_dec 0 q) as [P|P]; [pose proof (K q ltac:(lia)) as E|pose proof (K (- q) ltac:(lia)) as E]; apply Z.eqb_eq in E; rewrite ?Z.opp_involutive in E; congruence.
  - unfold tap_units. rewrite Z.abs_opp. destruct (Z.leb_spec (Z.abs q) h); [lia|reflexivity].
Qed.
Lemma tables_symmetric q : tap TAB_RESAMP_FILTER 119 (- q) = tap TAB_RESAMP_FILTER 119 q /\ tap TAB_LTPF_INTERP_R 15 (- q) = tap TAB_LTPF_INTERP_R 15 q /\ tap TAB_LTPF_INTERP_X12K8 7 (- q) = tap TAB_LTPF_INTERP_X12K8 7 q.
Proof.
  assert (H : sym_units 40 TAB_RESAMP_FILTER 119 && sym_units 40 TAB_LTPF_INTERP_R 15 && sym_units 40 TAB_LTPF_INTERP_X12K8 7 = true) by (vm_cast_no_check (eq_refl true)).
  apply andb_prop in H. destruct H as [H H3]. apply andb_prop in H. destruct H as [H1 H2]. repeat split; apply (sym_ok 40); auto; lia.
Qed.

(* gain at frequency 0 *)
Definition near_one (e num : Z) : bool := Z.abs (1000 * (num - 10 ^ e)) <=? 4 * 10 ^ e.
Lemma near_one_R e num : 0 <= e -> near_one e num = true -> (Rabs (IZR num / IZR (10 ^ e) - 1) <= 4 / 1000)%R.
Proof.
  intros He H. apply Z.leb_le in H. assert (P : (0 < 10 ^ e)) by (apply Z.pow_pos_nonneg; lia). set (P10 := 10 ^ e) in *. assert (Q : (0 < IZR P10)%R) by (apply (IZR_lt 0); exact P).
  replace (IZR num / IZR P10 - 1)%R with (IZR (num - P10) / IZR P10)%R by (rewrite minus_IZR; field; lra). unfold Rdiv. rewrite Rabs_mult, (Rabs_pos_eq (/ _)) by (apply Rlt_le, Rinv_0_lt_compat, Q).
  apply (Rmult_le_reg_r (IZR P10) _ _ Q). rewrite Rmult_assoc, Rinv_l by lra. rewrite <- abs_IZR. rewrite Z.abs_mul in H. change (Z.abs 1000) with 1000 in H. apply IZR_le in H. rewrite !mult_IZR in H. lra.
Qed.
(* the taps the resampler applies at phase r *)
Definition phase_units (e up r : Z) : Z := up * zsum 239 (fun q => if (r + (q - 119)) mod up =? 0 then tap_units e TAB_RESAMP_FILTER 119 (q - 119) else 0).
Definition phases_b (up : Z) : bool := forallb (fun p => 0 <=? snd p + 40) TAB_RESAMP_FILTER && iotab (Z.to_nat up) (fun r => near_one 40 (phase_units 40 up r)).
Lemma dc_term (T : Z -> Z) (D : R) up v m : (forall q, tap TAB_RESAMP_FILTER 119 q = (IZR (T q) / D)%R) -> forall q,
  (tap TAB_RESAMP_FILTER 119 (q - 119) * stuffed up (fun _ : Z => v) (15 * m - 120 + (q - 119)))%R = (IZR v / D * IZR (if ((15 * m - 120) mod up + (q - 119)) mod up =? 0 then T (q - 119)%Z else 0%Z))%R.
Proof. intros HT q. rewrite HT. unfold stuffed. rewrite Zplus_mod_idemp_l. destruct (_ =? 0); unfold Rdiv; ring. Qed.
Lemma dc_sum n (D : R) up gain v F : D <> 0%R -> (IZR up * gain * rsum n (fun q => IZR v / D * IZR (F q)) - gain * IZR v = gain * IZR v * (IZR (up * zsum n F) / D - 1))%R.
Proof. intros D0. rewrite rsum_mul, zsum_R, mult_IZR. field. exact D0. Qed.
Lemma dc_alg (T : Z -> Z) (D : R) up gain v m : D <> 0%R -> (forall q, tap TAB_RESAMP_FILTER 119 q = (IZR (T q) / D)%R) ->
  (resampled up gain (fun _ => v) m - gain * IZR v = gain * IZR v * (IZR (up * zsum 239 (fun q => if ((15 * m - 120) mod up + (q - 119)) mod up =? 0 then T (q - 119)%Z else 0%Z)) / D - 1))%R.
Proof. intros D0 HT. rewrite <- (dc_sum 239 D up gain v _ D0). unfold resampled. f_equal. f_equal. apply rsum_ext. intros q _. exact (dc_term T D up v m HT q). Qed.
Lemma phases_all : forallb phases_b [4; 6; 8; 12; 24] = true.
Proof. vm_cast_no_check (eq_refl true). Qed.
Lemma resampled_constant up gain v m : In up [4; 6; 8; 12; 24] -> (Rabs (resampled up gain (fun _ => v) m - gain * IZR v) <= 4 / 1000 * Rabs (gain * IZR v))%R.
Proof.
  intros Hu. pose proof phases_all as B. rewrite forallb_forall in B. specialize (B up Hu). assert (U : 0 < up) by (cbn in Hu; lia). apply andb_prop in B. destruct B as [H1 H2].
  set (e := 40) in *. assert (He : 0 <= e) by (unfold e; lia). clearbody e. pose proof (iotab_ok _ _ H2 ((15 * m - 120) mod up)) as K. rewrite Z2Nat.id in K by lia. specialize (K (Z.mod_pos_bound _ _ U)). apply near_one_R in K; [|exact He].
  rewrite (dc_alg (tap_units e TAB_RESAMP_FILTER 119) (IZR (10 ^ e))); [|apply IZR_neq; apply Z.pow_nonzero; lia|intros q; now apply tap_units_R].
  rewrite Rabs_mult, Rmult_comm. apply Rmult_le_compat_r; [apply Rabs_pos|exact K].
Qed.
(* interpolation at any quarter *)
Definition interp_b : bool := forallb (fun p => 0 <=? snd p + 40) TAB_LTPF_INTERP_R && forallb (fun p => 0 <=? snd p + 40) TAB_LTPF_INTERP_X12K8 &&
  iotab 7 (fun d => near_one 40 (zsum 9 (fun i => tap_units 40 TAB_LTPF_INTERP_R 15 (4 * (i - 4) - (d - 3))))) && iotab 4 (fun d => near_one 40 (zsum 5 (fun i => tap_units 40 TAB_LTPF_INTERP_X12K8 7 (4 * (i - 2) - d)))).
Lemma interp_gain d : (-3 <= d <= 3 -> (Rabs (rsum 9 (fun i => tap TAB_LTPF_INTERP_R 15 (4 * (i - 4) - d)) - 1) <= 4 / 1000)%R) /\ (0 <= d <= 3 -> (Rabs (rsum 5 (fun i => tap TAB_LTPF_INTERP_X12K8 7 (4 * (i - 2) - d)) - 1) <= 4 / 1000)%R).
Proof.
  assert (H : interp_b = true) by (vm_cast_no_check (eq_refl true)). unfold interp_b in H. apply andb_prop in H. destruct H as [H H4]. apply andb_prop in H. destruct H as [H H3]. apply andb_prop in H. destruct H as [H1 H2].
  assert (K : forall n f, rsum n (fun i => IZR (f i) / IZR (10 ^ 40))%R = (IZR (zsum n f) / IZR (10 ^ 40))%R) by (intros n f; rewrite (rsum_ext n _ (fun i => / IZR (10 ^ 40) * IZR (f i))%R) by (intros; unfold Rdiv; ring); rewrite rsum_mul, zsum_R; unfold Rdiv; ring).
  split; intros Hd.
  - pose proof (near_one_R 40 _ ltac:(lia) (iotab_ok _ _ H3 (d + 3) ltac:(lia))) as B. replace (d + 3 - 3) with d in B by lia. rewrite <- K in B. rewrite (rsum_ext 9 _ (fun i => IZR (tap_units 40 TAB_LTPF_INTERP_R 15 (4 * (i - 4) - d)) / IZR (10 ^ 40))%R); [exact B|]. intros i _. apply tap_units_R; auto; lia.
  - pose proof (near_one_R 40 _ ltac:(lia) (iotab_ok _ _ H4 d ltac:(lia))) as B. rewrite <- K in B. rewrite (rsum_ext 5 _ (fun i => IZR (tap_units 40 TAB_LTPF_INTERP_X12K8 7 (4 * (i - 2) - d)) / IZR (10 ^ 40))%R); [exact B|]. intros i _. apply tap_units_R; auto; lia.
Qed.
