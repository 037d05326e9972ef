(* The decoder's long term post filter in binary32: bounded input gives bounded output, whatever the history. *)
From Coq Require Import ZArith List Bool Lia Reals Lra.
From Coquelicot Require Import Complex.
From Flocq Require Import Core BinarySingleNaN Relative.
From Verif Require Import Base Config FrameSpec SideInfo Buffers Loops ParseBase Scalar DecSignal DecTotal DecState TablesLtpf DecLtpf LtpfSpec RealOps Tdac F32 F32Round F32Lines EncF32 F32Err F32Size MdctErr SnsSize.
From Coq Require Import List.
Import ListNotations.
Local Open Scope R_scope.
Local Notation f0 := (f32_of_Z 0).

(* ---- inversions ---- *)
Lemma put_inv {A} (d : A) l i v l' : put l i v = Ok l' -> (0 <= i < len l)%Z /\ len l' = len l /\ forall j, (0 <= j)%Z -> getz d l' j = if (j =? i)%Z then v else getz d l j.
Proof.
  intros E. assert (H : (0 <= i < len l)%Z) by (unfold put in E; destruct (Z.ltb_spec i 0); destruct (Z.leb_spec (len l) i); try discriminate; lia). split; [exact H|]. destruct (put_ok d l i v H) as (l2 & E2 & L & T). rewrite E2 in E. apply Ok_inj in E. subst l2. auto.
Qed.
Lemma sub_inv {A} (l s : list A) a b : sub l a b = Ok s -> (0 <= a <= b)%Z /\ (b <= len l)%Z /\ len s = (b - a)%Z /\ forall d j, (0 <= j < b - a)%Z -> getz d s j = getz d l (a + j)%Z.
Proof.
  intros E. assert (H : (0 <= a <= b)%Z /\ (b <= len l)%Z) by (unfold sub in E; destruct (Z.ltb_spec a 0); destruct (Z.ltb_spec b a); destruct (Z.ltb_spec (len l) b); try discriminate; lia). destruct H as [H1 H2]. split; [exact H1|]. split; [exact H2|]. destruct (sub_ok l a b H1 H2) as (l2 & E2 & L & T). rewrite E2 in E. apply Ok_inj in E. subst l2. auto.
Qed.
Lemma blit_inv {A} (l s l' : list A) a b : blit l a b s = Ok l' -> (0 <= a <= b)%Z /\ (b <= len l)%Z /\ len s = (b - a)%Z /\ len l' = len l /\ forall d j, (0 <= j)%Z -> getz d l' j = if ((a <=? j) && (j <? b))%Z then getz d s (j - a)%Z else getz d l j.
Proof.
  intros E. assert (H : (0 <= a <= b)%Z /\ (b <= len l)%Z /\ len s = (b - a)%Z) by (unfold blit in E; destruct (Z.ltb_spec a 0); destruct (Z.ltb_spec b a); destruct (Z.ltb_spec (len l) b); destruct (Z.eqb_spec (len s) (b - a)); try discriminate; lia). destruct H as (H1 & H2 & H3). split; [exact H1|]. split; [exact H2|]. split; [exact H3|]. destruct (blit_ok l a b s H1 H2 H3) as (l2 & E2 & L & T). rewrite E2 in E. apply Ok_inj in E. subst l2. auto.
Qed.
Lemma blit_all {A} (l s l' : list A) : blit l 0 (len l) s = Ok l' -> l' = s.
Proof.
  intros E. unfold blit in E. match type of E with context [if ?b then _ else _] => destruct b end; [discriminate|]. apply Ok_inj in E. subst l'. change (Z.to_nat 0) with 0%nat. cbn [firstn app]. unfold len. rewrite Nat2Z.id, skipn_all. apply app_nil_r.
Qed.
Lemma idx_inv {A} (d : A) l i v : idx l i = Ok v -> (0 <= i < len l)%Z /\ v = getz d l i.
Proof.
  intros E. unfold idx in E. destruct (Z.ltb_spec i 0) as [|H]; [discriminate|]. destruct (nth_error l (Z.to_nat i)) eqn:N; [|discriminate]. apply Ok_inj in E. subst a. assert (L : (Z.to_nat i < length l)%nat) by (apply nth_error_Some; congruence). split; [unfold len; lia|]. unfold getz. symmetry. now apply nth_error_nth.
Qed.
Lemma for_keep_i {S} (P : Z -> S -> Prop) (body : Z -> S -> res S) lo hi s s' : (lo <= hi)%Z -> for_range lo hi body s = Ok s' -> P lo s -> (forall j s s', (lo <= j < hi)%Z -> body j s = Ok s' -> P j s -> P (j + 1)%Z s') -> P hi s'.
Proof.
  intros HL E H K. unfold for_range in E. assert (G : forall n i s s', forn n i body s = Ok s' -> (lo <= i)%Z -> (i + Z.of_nat n = hi)%Z -> P i s -> P hi s').
  { induction n as [|n IH]; intros i t t' Et Hi Hn Ht; cbn [forn] in Et; [apply Ok_inj in Et; rewrite <- Et; replace hi with i by lia; exact Ht|]. apply bind_Ok in Et. destruct Et as (t1 & T1 & Et). apply (IH (i + 1)%Z t1 t' Et); [lia|lia|]. eapply K; [|exact T1|exact Ht]. lia. }
  apply (G _ _ _ _ E); [lia|lia|exact H].
Qed.

(* ---- coefficients ---- *)
Definition asum (cs : list f32) : R := fold_right (fun c a => Rabs (B2R c) + a) 0 cs.
Definition csum (S : R) (cs : list f32) : Prop := Forall (fun c => is_finite c = true) cs /\ asum cs <= S /\ (length cs <= 13)%nat.
Lemma asum_pos cs : 0 <= asum cs.
Proof. induction cs as [|c cs IH]; cbn [asum fold_right]; [lra|]. fold (asum cs). pose proof (Rabs_pos (B2R c)). lra. Qed.
Definition rsum (row : list (Z * Z)) : R := fold_right (fun d a => Rabs (R_lit d) + a) 0 row.
Definition lnum (d : Z * Z) : Z := (Z.abs (fst d) * 10 ^ (20 + snd d))%Z.
Definition row_ok (B : Z) (row : list (Z * Z)) : bool := forallb lit_ok row && (fold_right (fun d a => lnum d + a) 0 row <=? B * 10 ^ 16)%Z.
Lemma lnum_val d : lit_ok d = true -> Rabs (R_lit d) = IZR (lnum d) / IZR (10 ^ 20).
Proof.
  intros Ok. unfold R_lit, lnum. assert (E : (-20 <= snd d <= 0)%Z) by (unfold lit_ok in Ok; apply andb_true_iff in Ok; destruct Ok as [O1 O2]; apply Z.leb_le in O1, O2; lia). rewrite Rabs_mult, <- abs_IZR, mult_IZR. unfold Rdiv. rewrite Rmult_assoc. f_equal. set (D := (10 ^ (- snd d))%Z). assert (D0 : (0 < D)%Z) by (apply Z.pow_pos_nonneg; lia).
  assert (P : powerRZ 10 (snd d) = / IZR D). { unfold D. replace (snd d) with (- (- snd d))%Z at 1 by lia. rewrite powerRZ_neg'. f_equal. rewrite <- (Z2Nat.id (- snd d)) by lia. rewrite <- pow_powerRZ, <- pow_IZR. reflexivity. }
  assert (DR : 0 < IZR D) by (apply IZR_lt; exact D0). rewrite P, Rabs_pos_eq by (left; now apply Rinv_0_lt_compat). replace (10 ^ 20)%Z with (10 ^ (20 + snd d) * D)%Z by (unfold D; rewrite <- Z.pow_add_r by lia; f_equal; lia). rewrite mult_IZR. assert (0 < IZR (10 ^ (20 + snd d))) by (apply IZR_lt, Z.pow_pos_nonneg; lia). field. lra.
Qed.
Lemma row_ok_sum B row : row_ok B row = true -> rsum row <= IZR B / 10000 /\ Forall (fun d => lit_ok d = true) row.
Proof.
  intros H. apply andb_true_iff in H. destruct H as [H1 H2]. apply Z.leb_le in H2. split; [|apply Forall_forall; now apply forallb_forall]. apply IZR_le in H2. rewrite mult_IZR in H2.
  assert (E : rsum row = IZR (fold_right (fun d a => lnum d + a)%Z 0%Z row) / IZR (10 ^ 20)).
  { clear H2. induction row as [|d row IH]; cbn [rsum fold_right]; [unfold Rdiv; rewrite Rmult_0_l; reflexivity|]. cbn [forallb] in H1. apply andb_true_iff in H1. destruct H1 as [Hd H1]. fold (rsum row). rewrite (lnum_val d Hd), (IH H1), plus_IZR. unfold Rdiv. ring. }
  rewrite E. set (z := IZR (fold_right _ _ _)) in *. change (IZR (10 ^ 20)) with 100000000000000000000. change (IZR (10 ^ 16)) with 10000000000000000 in H2. lra.
Qed.
Lemma scaled_csum g B row n T : forall (k : f32), bd g k -> / 1000 <= g <= 1 -> row_ok B row = true -> (length row <= 13)%nat -> IZR B / 10000 <= 10 -> g * (IZR B / 10000) * (1000001 / 1000000) + 13 * / 1000000 <= T ->
  csum T (map (fun v => Bmult mode_NE k (f32_lit v)) (firstn n row)).
Proof.
  intros k Hk Hg HR HL B10 HS. destruct (row_ok_sum B row HR) as [RS RL]. assert (T1 : rsum (firstn n row) <= rsum row). { clear. revert n. induction row as [|d row IH]; intros [|n]; cbn [firstn rsum fold_right]; try lra; fold (rsum row). - pose proof (Rabs_pos (R_lit d)). assert (0 <= rsum row) by (clear; induction row as [|d' row IH]; cbn [rsum fold_right]; [lra|]; fold (rsum row); pose proof (Rabs_pos (R_lit d')); lra). lra. - fold (rsum (firstn n row)). specialize (IH n). lra. }
  assert (RL' : Forall (fun d => lit_ok d = true) (firstn n row)) by (now apply Forall_firstn). assert (LL : (length (firstn n row) <= 13)%nat) by (rewrite firstn_length; lia). set (r := firstn n row) in *. clearbody r.
  assert (One : forall d, lit_ok d = true -> Rabs (R_lit d) <= 10 -> bd (g * Rabs (R_lit d) * (1000001 / 1000000) + / 1000000) (Bmult mode_NE k (f32_lit d))).
  { intros d Hd H10. pose proof (lit_ap_gen d (Rabs (R_lit d) + / 4) Hd ltac:(pose proof (Rabs_pos (R_lit d)); lra) ltac:(lra)) as [F [A _]]. pose proof (Rabs_pos (R_lit d)) as P0.
    assert (LB : bd (Rabs (R_lit d) * (10000002 / 10000000) + / 10000000) (f32_lit d)). { split; [exact F|]. replace (B2R (f32_lit d)) with (B2R (f32_lit d) - R_lit d + R_lit d) by ring. eapply Rle_trans; [apply Rabs_triang|]. assert (G : gp 1 - 1 <= 1 / 10000000) by (unfold gp; cbn [pow]; unfold vv, uu; lra). assert ((gp 1 - 1) * (Rabs (R_lit d) + / 4) <= 1 / 10000000 * (Rabs (R_lit d) + / 4)) by (apply Rmult_le_compat_r; lra). lra. }
    eapply bd_mul; [exact Hk|exact LB|]. pose proof big_big. assert (0 <= g * Rabs (R_lit d)) by (apply Rmult_le_pos; lra). assert (g * Rabs (R_lit d) <= 1 * 10) by (apply Rmult_le_compat; lra). split; [|lra].
    replace (g * (Rabs (R_lit d) * (10000002 / 10000000) + / 10000000)) with (g * Rabs (R_lit d) * (10000002 / 10000000) + g / 10000000) by (unfold Rdiv; ring). lra. }
  assert (ALL : rsum r <= 10 -> (Forall (fun c => is_finite c = true) (map (fun v => Bmult mode_NE k (f32_lit v)) r) /\ asum (map (fun v => Bmult mode_NE k (f32_lit v)) r) <= g * rsum r * (1000001 / 1000000) + INR (length r) * / 1000000)).
  { clear - One RL'. induction r as [|d r IH]; intros H10; cbn [map asum rsum fold_right length].
    - split; [constructor|]. cbn [INR]. lra.
    - inversion_clear RL' as [|x1 x2 Hd RL2]. cbn [rsum fold_right] in H10. fold (rsum r) in H10 |- *. fold (asum (map (fun v => Bmult mode_NE k (f32_lit v)) r)). pose proof (Rabs_pos (R_lit d)). assert (0 <= rsum r) by (clear; induction r as [|d' row IH]; cbn [rsum fold_right]; [lra|]; fold (rsum row); pose proof (Rabs_pos (R_lit d')); lra).
      destruct (IH RL2 ltac:(lra)) as [I1 I2]. destruct (One d Hd ltac:(lra)) as [O1 O2]. split; [constructor; assumption|]. rewrite S_INR. replace (g * (Rabs (R_lit d) + rsum r) * (1000001 / 1000000)) with (g * Rabs (R_lit d) * (1000001 / 1000000) + g * rsum r * (1000001 / 1000000)) by ring. lra. }
  destruct (ALL ltac:(lra)) as [A1 A2]. split; [exact A1|]. split; [|now rewrite map_length]. assert (IL : INR (length r) <= 13) by (change 13 with (IZR 13); rewrite INR_IZR_INZ; apply IZR_le; lia). assert (g * rsum r <= g * (IZR B / 10000)) by (apply Rmult_le_compat_l; lra). lra.
Qed.
Lemma tables_sum : forallb (fun t => forallb (row_ok 10410) t) [TAB_LTPF_NUM_8000; TAB_LTPF_NUM_16000; TAB_LTPF_NUM_24000; TAB_LTPF_NUM_32000; TAB_LTPF_NUM_48000] && forallb (fun t => forallb (row_ok 10034) t) [TAB_LTPF_DEN_8000; TAB_LTPF_DEN_16000; TAB_LTPF_DEN_24000; TAB_LTPF_DEN_32000; TAB_LTPF_DEN_48000] &&
  forallb (fun t => forallb (fun r => Z.leb (len r) 13) t) [TAB_LTPF_NUM_8000; TAB_LTPF_NUM_16000; TAB_LTPF_NUM_24000; TAB_LTPF_NUM_32000; TAB_LTPF_NUM_48000; TAB_LTPF_DEN_8000; TAB_LTPF_DEN_16000; TAB_LTPF_DEN_24000; TAB_LTPF_DEN_32000; TAB_LTPF_DEN_48000] = true.
Proof. vm_compute. reflexivity. Qed.
Lemma idx_In {A} (l : list A) i v : idx l i = Ok v -> In v l.
Proof. unfold idx. destruct (i <? 0)%Z; [discriminate|]. destruct (nth_error l (Z.to_nat i)) eqn:N; [|discriminate]. intros E. apply Ok_inj in E. subst. eapply nth_error_In, N. Qed.
Lemma tables_rows fs gi fr tn td : ltpf_tables fs gi fr = Ok (tn, td) -> row_ok 10410 tn = true /\ row_ok 10034 td = true /\ (length tn <= 13)%nat /\ (length td <= 13)%nat.
Proof.
  intros E. pose proof tables_sum as TS. apply andb_true_iff in TS. destruct TS as [TS T3]. apply andb_true_iff in TS. destruct TS as [T1 T2].
  assert (K : forall t1 t2, In t1 [TAB_LTPF_NUM_8000; TAB_LTPF_NUM_16000; TAB_LTPF_NUM_24000; TAB_LTPF_NUM_32000; TAB_LTPF_NUM_48000] -> In t2 [TAB_LTPF_DEN_8000; TAB_LTPF_DEN_16000; TAB_LTPF_DEN_24000; TAB_LTPF_DEN_32000; TAB_LTPF_DEN_48000] ->
    (a <- idx t1 gi ;; b <- idx t2 fr ;; Ok (a, b)) = Ok (tn, td) -> row_ok 10410 tn = true /\ row_ok 10034 td = true /\ (length tn <= 13)%nat /\ (length td <= 13)%nat).
  { intros t1 t2 I1 I2 E'. apply bind_Ok in E'. destruct E' as (a & Ea & E'). apply bind_Ok in E'. destruct E' as (b & Eb & E'). apply Ok_inj in E'. injection E' as -> ->. apply idx_In in Ea, Eb. rewrite forallb_forall in T1, T2, T3.
    pose proof (T1 _ I1) as Q1. pose proof (T2 _ I2) as Q2. pose proof (T3 t1 ltac:(apply (in_app_iff [TAB_LTPF_NUM_8000; TAB_LTPF_NUM_16000; TAB_LTPF_NUM_24000; TAB_LTPF_NUM_32000; TAB_LTPF_NUM_48000]); now left)) as Q3. pose proof (T3 t2 ltac:(apply (in_app_iff [TAB_LTPF_NUM_8000; TAB_LTPF_NUM_16000; TAB_LTPF_NUM_24000; TAB_LTPF_NUM_32000; TAB_LTPF_NUM_48000]); now right)) as Q4.
    rewrite forallb_forall in Q1, Q2, Q3, Q4. split; [now apply Q1|]. split; [now apply Q2|]. split; [specialize (Q3 _ Ea)|specialize (Q4 _ Eb)]; [apply Z.leb_le in Q3; unfold len in Q3; lia|apply Z.leb_le in Q4; unfold len in Q4; lia]. }
  unfold ltpf_tables in E. cbv zeta in E.
  destruct (fs =? 8000)%Z; [apply (K TAB_LTPF_NUM_8000 TAB_LTPF_DEN_8000); [left; exact eq_refl|left; exact eq_refl|exact E]|].
  destruct (fs =? 16000)%Z; [apply (K TAB_LTPF_NUM_16000 TAB_LTPF_DEN_16000); [right; left; exact eq_refl|right; left; exact eq_refl|exact E]|].
  destruct (fs =? 24000)%Z; [apply (K TAB_LTPF_NUM_24000 TAB_LTPF_DEN_24000); [right; right; left; exact eq_refl|right; right; left; exact eq_refl|exact E]|].
  destruct (fs =? 32000)%Z; [apply (K TAB_LTPF_NUM_32000 TAB_LTPF_DEN_32000); [right; right; right; left; exact eq_refl|right; right; right; left; exact eq_refl|exact E]|].
  destruct (fs =? 44100)%Z; [apply (K TAB_LTPF_NUM_48000 TAB_LTPF_DEN_48000); [right; right; right; right; left; exact eq_refl|right; right; right; right; left; exact eq_refl|exact E]|].
  destruct (fs =? 48000)%Z; [apply (K TAB_LTPF_NUM_48000 TAB_LTPF_DEN_48000); [right; right; right; right; left; exact eq_refl|right; right; right; right; left; exact eq_refl|exact E]|].
  discriminate E.
Qed.
Lemma quad_inj {A B C D} (a a' : A) (b b' : B) (c c' : C) (d d' : D) : (a, b, c, d) = (a', b', c', d') -> a = a' /\ b = b' /\ c = c' /\ d = d'.
Proof. intros E. injection E. auto. Qed.
Lemma gain_bd c nbits : bd (40001 / 100000) (f32_lit (fst (ltpf_gain c nbits))).
Proof.
  assert (K : lit_small 4000 (fst (ltpf_gain c nbits)) = true) by (unfold ltpf_gain; repeat match goal with |- context [if ?b then _ else _] => destruct b end; reflexivity). eapply bd_weaken; [exact (lit_small_bd 4000 _ K ltac:(lia))|]. lra.
Qed.
Lemma coeffs_size lm c n st i nbits fr nm dm nu de : legal_config c -> ltpf_lengths c = Ok n -> ltpf_ok c n st -> (0 <= fr < 4)%Z -> ltpf_coeffs (f32_ops lm) c st i nbits fr = Ok (nm, dm, nu, de) ->
  nm = t_num st /\ dm = t_den st /\ (l_active i = true -> csum (355 / 1000) nu /\ csum (402 / 1000) de).
Proof.
  intros Lc En S Hf E. unfold ltpf_coeffs in E. apply bind_Ok in E. destruct E as (a & Ea & E). apply bind_Ok in E. destruct E as (b & Eb & E). apply blit_all in Ea, Eb. subst a b. destruct S as [_ S2 S3 _ _ _ _ _ _ _].
  destruct (l_active i).
  - pose proof (gain_bd c nbits) as GB. pose proof (gain_ind_range c nbits) as GI. destruct (ltpf_gain c nbits) as [g gi]. cbn [fst snd] in GB, GI. apply bind_Ok in E. destruct E as ([tn td] & Et & E). apply Ok_inj in E. apply quad_inj in E. destruct E as (<- & <- & <- & <-). split; [reflexivity|]. split; [reflexivity|]. intros _.
    destruct (tables_rows _ _ _ _ _ Et) as (R1 & R2 & L1 & L2). destruct (tables_len c n gi fr tn td Lc En GI Hf Et) as [L3 L4]. cbn [f32_ops fmul flit].
    assert (G85 : bd (85001 / 100000) (f32_lit (85, -2)%Z)) by (eapply bd_weaken; [exact (lit_small_bd 8500 (85, -2)%Z eq_refl ltac:(lia))|lra]). pose proof big_big.
    assert (G : bd (34002 / 100000) (Bmult mode_NE (f32_lit (85, -2)%Z) (f32_lit g))) by (eapply bd_mul; [exact G85|exact GB|split; lra]). split.
    + rewrite zipmod_firstn by (unfold len in *; lia). eapply (scaled_csum (34002 / 100000) 10410); [exact G|lra|exact R1|exact L1|lra|lra].
    + rewrite zipmod_firstn by (unfold len in *; lia). eapply (scaled_csum (40001 / 100000) 10034); [exact GB|lra|exact R2|exact L2|lra|lra].
  - apply bind_Ok in E. destruct E as (z & _ & E). apply bind_Ok in E. destruct E as (x & _ & E). apply bind_Ok in E. destruct E as (y & _ & E). apply Ok_inj in E. apply quad_inj in E. destruct E as (<- & <- & <- & <-). split; [reflexivity|]. split; [reflexivity|]. discriminate.
Qed.

(* ---- the two sums of the filter ---- *)
Lemma fir_size lm (op : f32 -> f32 -> f32) total cs x H : op = Bplus mode_NE \/ op = Bminus mode_NE -> 1 <= H <= bpow radix2 105 -> Forall (bd H) x -> Forall (fun c => is_finite c = true) cs ->
  forall start k acc a r, bd a acc -> a + 1000001 / 1000000 * (H * asum cs) + / 1000000 * H * INR (length cs) <= 2 * H -> fir (f32_ops lm) op total cs x start k acc = Ok r -> bd (a + 1000001 / 1000000 * (H * asum cs) + / 1000000 * H * INR (length cs)) r.
Proof.
  intros Hop [H1 H2] HX. assert (BB : 8 * H <= big). { unfold big. replace (bpow radix2 110) with (bpow radix2 105 * 32) by (change 32 with (bpow radix2 5); rewrite <- bpow_plus; reflexivity). lra. }
  induction cs as [|c cs IH]; intros HC start k acc a r Ha HB E; cbn [fir] in E.
  - apply Ok_inj in E. subst r. cbn [asum fold_right length INR] in *. eapply bd_weaken; [exact Ha|]. lra.
  - inversion_clear HC as [|x1 x2 Fc HC']. apply bind_Ok in E. destruct E as (v & Ev & E). pose proof (Forall_idx _ _ _ _ Ev HX) as Bv. cbn [asum fold_right length] in *. fold (asum cs) in *. rewrite S_INR in *. pose proof (asum_pos cs) as A0. pose proof (Rabs_pos (B2R c)) as C0. pose proof (pos_INR (length cs)) as L0. pose proof (bd_nonneg _ _ Ha) as a0.
    assert (P1 : 0 <= H * asum cs) by (apply Rmult_le_pos; lra). assert (P2 : 0 <= Rabs (B2R c) * H) by (apply Rmult_le_pos; lra). assert (P3 : 0 <= / 1000000 * H * INR (length cs)) by (apply Rmult_le_pos; [lra|exact L0]).
    replace (H * (Rabs (B2R c) + asum cs)) with (Rabs (B2R c) * H + H * asum cs) in * by ring. replace (/ 1000000 * H * (INR (length cs) + 1)) with (/ 1000000 * H * INR (length cs) + / 1000000 * H) in * by ring.
    assert (M : bd (1000001 / 1000000 * (Rabs (B2R c) * H) + 1 / 10000000 * H) (Bmult mode_NE c v)) by (eapply bd_mul; [split; [exact Fc|apply Rle_refl]|exact Bv|split; lra]).
    assert (N : bd (a + 1000001 / 1000000 * (Rabs (B2R c) * H) + / 1000000 * H) (op acc (Bmult mode_NE c v))) by (destruct Hop as [-> | ->]; [eapply bd_add|eapply bd_sub]; [exact Ha|exact M|split; lra|exact Ha|exact M|split; lra]).
    cbn [f32_ops fmul] in E. eapply bd_weaken; [eapply (IH HC'); [exact N| |exact E]; lra|lra].
Qed.
Lemma INR13 n : (n <= 13)%nat -> INR n <= 13.
Proof. intros H. change 13 with (IZR 13). rewrite INR_IZR_INZ. apply IZR_le. lia. Qed.
Lemma csum_step S H cs : csum S cs -> 0 <= H -> 1000001 / 1000000 * (H * asum cs) + / 1000000 * H * INR (length cs) <= 1000001 / 1000000 * (H * S) + 13 / 1000000 * H.
Proof.
  intros (_ & A & L) H0. pose proof (INR13 _ L). assert (H * asum cs <= H * S) by (apply Rmult_le_compat_l; assumption). assert (/ 1000000 * H * INR (length cs) <= / 1000000 * H * 13) by (apply Rmult_le_compat_l; lra). lra.
Qed.
Lemma zero_bd : bd 0 f0.
Proof. split; [reflexivity|]. change (B2R f0) with 0. rewrite Rabs_R0. lra. Qed.
Lemma fir_csum lm (op : f32 -> f32 -> f32) total cs x H S start k acc a r : op = Bplus mode_NE \/ op = Bminus mode_NE -> 1 <= H <= bpow radix2 105 -> Forall (bd H) x -> csum S cs -> bd a acc ->
  a + (1000001 / 1000000 * (H * S) + 13 / 1000000 * H) <= 2 * H -> fir (f32_ops lm) op total cs x start k acc = Ok r -> bd (a + (1000001 / 1000000 * (H * S) + 13 / 1000000 * H)) r.
Proof.
  intros Hop H1 HX CS Ha HB E. pose proof (csum_step S H cs CS ltac:(lra)) as ST. destruct CS as (C1 & _ & _).
  eapply bd_weaken; [eapply (fir_size lm op total cs x H Hop H1 HX C1 start k acc a r Ha); [|exact E]|].
  - rewrite Rplus_assoc. eapply Rle_trans; [apply Rplus_le_compat_l; exact ST|exact HB].
  - rewrite Rplus_assoc. apply Rplus_le_compat_l. exact ST.
Qed.
Lemma two_sums lm t1 t2 num den x xl s1 s2 A H a f : csum (355 / 1000) num -> csum (402 / 1000) den -> 1 <= A <= H -> H <= bpow radix2 105 -> Forall (bd A) x -> Forall (bd H) xl ->
  fir (f32_ops lm) (fadd (f32_ops lm)) t1 num x s1 0 f0 = Ok a -> fir (f32_ops lm) (fsub (f32_ops lm)) t2 den xl s2 0 a = Ok f -> bd (3551 / 10000 * A + 4021 / 10000 * H) f.
Proof.
  intros CN CD HA HH FX FL E1 E2.
  pose proof (fir_csum lm _ t1 num x A _ s1 0%Z f0 0 a (or_introl eq_refl) ltac:(lra) FX CN zero_bd ltac:(lra) E1) as B1.
  assert (B1' : bd (3551 / 10000 * A) a) by (eapply bd_weaken; [exact B1|lra]).
  pose proof (fir_csum lm _ t2 den xl H _ s2 0%Z a _ f (or_intror eq_refl) ltac:(lra) FL CD B1' ltac:(lra) E2) as B2. eapply bd_weaken; [exact B2|lra].
Qed.

(* ---- the fades ---- *)
Lemma ratio_val lm k m : (0 <= k < m)%Z -> (m <= 480)%Z -> is_finite (fdiv (f32_ops lm) (fz (f32_ops lm) k) (fz (f32_ops lm) m)) = true /\ Rabs (B2R (fdiv (f32_ops lm) (fz (f32_ops lm) k) (fz (f32_ops lm) m)) - IZR k / IZR m) <= / 10000000 /\ 0 <= IZR k / IZR m <= 1.
Proof.
  intros Hk Hm. cbn [f32_ops fdiv fz]. destruct (fz_val k ltac:(lia)) as [Vk Fk]. destruct (fz_val m ltac:(lia)) as [Vm Fm]. assert (KR : 0 <= IZR k) by (apply IZR_le; lia). assert (KM : IZR k < IZR m) by (apply IZR_lt; lia).
  assert (Q : 0 <= IZR k / IZR m <= 1). { split; [apply Rmult_le_pos; [lra|left; apply Rinv_0_lt_compat; lra]|]. apply Rmult_le_reg_r with (IZR m); [lra|]. unfold Rdiv. rewrite Rmult_assoc, Rinv_l by lra. lra. }
  pose proof (rnd_err (IZR k / IZR m)) as RE. rewrite (Rabs_pos_eq (IZR k / IZR m)) in RE by lra. pose proof tiny150 as T. unfold uu in RE. assert (RE2 : Rabs (rnd32 (IZR k / IZR m) - IZR k / IZR m) <= / 10000000) by lra.
  pose proof (Bdiv_correct 24 128 f32_prec f32_emax mode_NE (f32_of_Z k) (f32_of_Z m)) as B. rewrite Vm, Vk in B. specialize (B ltac:(lra)). fold fexp32 in B. change (round_mode mode_NE) with ZnearestE in B. fold (rnd32 (IZR k / IZR m)) in B. rewrite Rlt_bool_true in B.
  2:{ apply Rabs_le_inv in RE2. apply Rle_lt_trans with 2; [apply Rabs_le; lra|]. change 2 with (bpow radix2 1). apply bpow_lt. lia. }
  destruct B as (V & F & _). split; [rewrite F; exact Fk|]. split; [rewrite V; exact RE2|exact Q].
Qed.
Lemma fade_in_bd lm k m B H f : (0 <= k < m)%Z -> (m <= 480)%Z -> 1 <= H <= bpow radix2 105 -> 0 <= B <= H -> bd B f -> bd (B * (IZR k / IZR m) + / 1000000 * H) (fmul (f32_ops lm) f (fdiv (f32_ops lm) (fz (f32_ops lm) k) (fz (f32_ops lm) m))).
Proof.
  intros Hk Hm [H1 H2] HB Hf. destruct (ratio_val lm k m Hk Hm) as (F & A & Q). set (r := fdiv _ _ _) in *. set (t := IZR k / IZR m) in *. assert (BR : bd (t + / 10000000) r). { split; [exact F|]. replace (B2R r) with (B2R r - t + t) by ring. eapply Rle_trans; [apply Rabs_triang|]. rewrite (Rabs_pos_eq t) by lra. lra. }
  assert (BB : 8 * H <= big). { unfold big. replace (bpow radix2 110) with (bpow radix2 105 * 32) by (change 32 with (bpow radix2 5); rewrite <- bpow_plus; reflexivity). lra. }
  assert (0 <= B * t) by (apply Rmult_le_pos; lra). assert (B * t <= B * 1) by (apply Rmult_le_compat_l; lra). cbn [f32_ops fmul]. eapply bd_mul; [exact Hf|exact BR|]. replace (B * (t + / 10000000)) with (B * t + B / 10000000) by (unfold Rdiv; ring). split; lra.
Qed.
Lemma fade_out_bd lm k m B H f : (0 <= k < m)%Z -> (m <= 480)%Z -> 1 <= H <= bpow radix2 105 -> 0 <= B <= H -> bd B f -> bd (B * (1 - IZR k / IZR m) + / 1000000 * H) (fmul (f32_ops lm) f (fsub (f32_ops lm) (fz (f32_ops lm) 1) (fdiv (f32_ops lm) (fz (f32_ops lm) k) (fz (f32_ops lm) m)))).
Proof.
  intros Hk Hm [H1 H2] HB Hf. destruct (ratio_val lm k m Hk Hm) as (F & A & Q). set (r := fdiv _ _ _) in *. set (t := IZR k / IZR m) in *. destruct (fz_val 1 ltac:(lia)) as [V1 F1]. change (fz (f32_ops lm) 1) with (f32_of_Z 1).
  assert (BR : bd (1 - t + 4 / 10000000) (fsub (f32_ops lm) (f32_of_Z 1) r)).
  { cbn [f32_ops fsub]. apply Rabs_le_inv in A. pose proof (Bminus_correct 24 128 f32_prec f32_emax mode_NE (f32_of_Z 1) r F1 F) as BP. fold fexp32 in BP. change (round_mode mode_NE) with ZnearestE in BP. fold (rnd32 (B2R (f32_of_Z 1) - B2R r)) in BP. rewrite V1 in BP. change (IZR 1) with 1 in BP.
    pose proof (rnd_err (1 - B2R r)) as RE. pose proof tiny150 as T. unfold uu in RE. assert (AB : Rabs (1 - B2R r) <= 1 - t + / 10000000) by (apply Rabs_le; lra). assert (RS : Rabs (rnd32 (1 - B2R r)) <= 1 - t + 4 / 10000000). { replace (rnd32 (1 - B2R r)) with (rnd32 (1 - B2R r) - (1 - B2R r) + (1 - B2R r)) by ring. eapply Rle_trans; [apply Rabs_triang|]. lra. }
    rewrite Rlt_bool_true in BP. 2:{ apply Rle_lt_trans with 2; [lra|]. change 2 with (bpow radix2 1). apply bpow_lt. lia. } destruct BP as (V & W & _). split; [exact W|]. rewrite V. exact RS. }
  assert (BB : 8 * H <= big). { unfold big. replace (bpow radix2 110) with (bpow radix2 105 * 32) by (change 32 with (bpow radix2 5); rewrite <- bpow_plus; reflexivity). lra. }
  assert (0 <= B * (1 - t)) by (apply Rmult_le_pos; lra). assert (B * (1 - t) <= B * 1) by (apply Rmult_le_compat_l; lra). change (fmul (f32_ops lm)) with (Bmult (prec := 24) (emax := 128) (prec_gt_0_ := f32_prec) (prec_lt_emax_ := f32_emax) mode_NE). eapply bd_mul; [exact Hf|exact BR|]. replace (B * (1 - t + 4 / 10000000)) with (B * (1 - t) + 4 * B / 10000000) by (unfold Rdiv; ring). split; lra.
Qed.

(* ---- one sample ---- *)
Lemma sample_size lm g total l_den num den x blk pitch n xl xl' X G : 1 <= X -> 8 * X <= bpow radix2 105 -> csum (355 / 1000) num -> csum (402 / 1000) den -> Forall (bd X) x -> Forall (bd (8 * X)) xl ->
  (forall f, bd (36 / 10 * X) f -> bd G (g f)) -> 0 <= G <= 6 * X -> ltpf_sample (f32_ops lm) g total l_den num den x blk pitch n xl = Ok xl' ->
  Forall (bd (8 * X)) xl' /\ bd (X + G + X / 100000) (getz f0 xl' (blk + n)) /\ (forall j, (0 <= j)%Z -> j <> (blk + n)%Z -> getz f0 xl' j = getz f0 xl j).
Proof.
  intros X1 XH CN CD FX FL HG G6 E. unfold ltpf_sample in E. apply bind_Ok in E. destruct E as (v & Ev & E). apply bind_Ok in E. destruct E as (xl1 & E1 & E). apply bind_Ok in E. destruct E as (f & Ef & E). apply bind_Ok in E. destruct E as (w & Ew & E).
  pose proof (Forall_idx _ _ _ _ Ev FX) as Bv. assert (FL1 : Forall (bd (8 * X)) xl1) by (apply (Forall_put _ _ _ _ _ E1 FL); eapply bd_weaken; [exact Bv|lra]).
  destruct (put_inv f0 _ _ _ _ E1) as (I1 & L1 & T1). destruct (idx_inv f0 _ _ _ Ew) as [I2 ->]. rewrite T1, Z.eqb_refl in E by lia.
  unfold compute_filter in Ef. apply bind_Ok in Ef. destruct Ef as (a & Ea & Ef). pose proof (two_sums lm _ _ num den x xl1 _ _ X (8 * X) a f CN CD ltac:(lra) XH FX FL1 Ea Ef) as Bf.
  assert (Bf2 : bd (36 / 10 * X) f) by (eapply bd_weaken; [exact Bf|lra]). pose proof (HG f Bf2) as Bg.
  assert (BB : 8 * (8 * X) <= big). { unfold big. replace (bpow radix2 110) with (bpow radix2 105 * 32) by (change 32 with (bpow radix2 5); rewrite <- bpow_plus; reflexivity). lra. }
  assert (Bn : bd (X + G + X / 100000) (fsub (f32_ops lm) v (g f))) by (cbn [f32_ops fsub]; eapply bd_sub; [exact Bv|exact Bg|split; lra]).
  destruct (put_inv f0 _ _ _ _ E) as (I3 & L3 & T3). split; [apply (Forall_put _ _ _ _ _ E FL1); eapply bd_weaken; [exact Bn|lra]|]. split; [rewrite T3, Z.eqb_refl by lia; exact Bn|]. intros j J0 Jn. rewrite T3 by lia. destruct (Z.eqb_spec j (blk + n)); [lia|]. rewrite T1 by lia. destruct (Z.eqb_spec j (blk + n)); [lia|]. reflexivity.
Qed.
Definition faded (X : R) (m : Z) (j : Z) : R := X + 36 / 10 * X * (1 - IZR j / IZR m) + 2 / 10000 * X.
Lemma deactivate_size lm total l_den num den x blk pitch m xl xl' X : 1 <= X -> 8 * X <= bpow radix2 105 -> csum (355 / 1000) num -> csum (402 / 1000) den -> Forall (bd X) x -> Forall (bd (8 * X)) xl -> (0 < m <= 480)%Z -> (0 <= blk)%Z ->
  for_range 0 m (fun k => ltpf_sample (f32_ops lm) (fun f => fmul (f32_ops lm) f (fsub (f32_ops lm) (fz (f32_ops lm) 1) (fdiv (f32_ops lm) (fz (f32_ops lm) k) (fz (f32_ops lm) m)))) total l_den num den x blk pitch k) xl = Ok xl' ->
  Forall (bd (8 * X)) xl' /\ forall j, (0 <= j < m)%Z -> bd (faded X m j) (getz f0 xl' (blk + j)).
Proof.
  intros X1 XH CN CD FX FL Hm Hb E.
  eapply (for_keep_i (fun i l => Forall (bd (8 * X)) l /\ forall j, (0 <= j < i)%Z -> bd (faded X m j) (getz f0 l (blk + j)))) with (lo := 0%Z); [|exact E| |]; [lia|split; [exact FL|intros; lia]|].
  intros k l l' Hk El [L1 L2]. destruct (ratio_val lm k m ltac:(lia) ltac:(lia)) as (_ & _ & Q).
  assert (T0 : 0 <= 36 / 10 * X * (1 - IZR k / IZR m)) by (apply Rmult_le_pos; lra). assert (T1 : 36 / 10 * X * (1 - IZR k / IZR m) <= 36 / 10 * X * 1) by (apply Rmult_le_compat_l; lra).
  destruct (sample_size lm (fun f => fmul (f32_ops lm) f (fsub (f32_ops lm) (fz (f32_ops lm) 1) (fdiv (f32_ops lm) (fz (f32_ops lm) k) (fz (f32_ops lm) m)))) total l_den num den x blk pitch k l l' X (36 / 10 * X * (1 - IZR k / IZR m) + / 1000000 * (8 * X)) X1 XH CN CD FX L1) as (S1 & S2 & S3); [|lra|exact El|].
  - intros f Bf. apply fade_out_bd; [lia|lia|lra|lra|exact Bf].
  - split; [exact S1|]. intros j Hj. destruct (Z.eq_dec j k) as [->|NE]; [eapply bd_weaken; [exact S2|]; unfold faded; lra|]. rewrite S3 by lia. apply L2. lia.
Qed.
Lemma activate_size lm total l_den norm num den blk pitch scratch xl scratch' xl' X : 1 <= X -> 8 * X <= bpow radix2 105 -> csum (355 / 1000) num -> csum (402 / 1000) den -> Forall (bd (8 * X)) xl -> (0 < norm <= 480)%Z -> (blk = 0 \/ len num <= blk + 1)%Z -> (0 <= blk)%Z -> len scratch = (len num - 1 + norm)%Z ->
  (forall j, (0 <= j < norm)%Z -> bd (faded X norm j) (getz f0 xl (blk + j))) -> activate_from_mem (f32_ops lm) total l_den norm num den blk pitch norm scratch xl = Ok (scratch', xl') -> Forall (bd (8 * X)) xl'.
Proof.
  intros X1 XH CN CD FL Hm HB B0 LS HF E. unfold activate_from_mem in E. apply bind_Ok in E. destruct E as (ln & El & E). assert (ln = len num - 1 /\ 0 <= ln)%Z as [Hln Hln0] by (unfold usub in El; destruct (Z.ltb_spec (len num) 1); [discriminate|]; apply Ok_inj in El; lia). clear El.
  apply bind_Ok in E. destruct E as (sc & Es & E). assert (SC : Forall (bd (8 * X)) sc /\ forall j, (0 <= j < norm)%Z -> getz f0 sc (j + ln) = getz f0 xl (blk + j)).
  { assert (FF : forall l, (forall j, (0 <= j < len l)%Z -> bd (8 * X) (getz f0 l j)) -> Forall (bd (8 * X)) l) by (intros l Hl; apply Forall_forall; intros y Hy; destruct (In_nth l y f0 Hy) as (i & Hi & <-); specialize (Hl (Z.of_nat i)); unfold getz in Hl; rewrite Nat2Z.id in Hl; apply Hl; unfold len; lia).
    assert (FG : forall j, (0 <= j < len xl)%Z -> bd (8 * X) (getz f0 xl j)) by (intros j Hj; rewrite Forall_forall in FL; apply FL; unfold getz; apply nth_In; unfold len in Hj; lia).
    destruct (Z.ltb_spec blk ln) as [C|C].
    - apply bind_Ok in Es. destruct Es as (from & Ef & Es). apply bind_Ok in Es. destruct Es as (s1 & Es1 & Es). apply bind_Ok in Es. destruct Es as (sc1 & Esc1 & Es). apply bind_Ok in Es. destruct Es as (s2 & Es2 & Es).
      destruct (sub_inv _ _ _ _ Es1) as (A1 & A2 & A3 & A4). destruct (blit_inv _ _ _ _ _ Esc1) as (B1 & B2 & B3 & B4 & B5). destruct (sub_inv _ _ _ _ Es2) as (C1 & C2 & C3 & C4). destruct (blit_inv _ _ _ _ _ Es) as (D1 & D2 & D3 & D4 & D5). assert (blk = 0)%Z by lia. subst blk. split.
      + apply FF. intros j Hj. rewrite D5 by lia. destruct (Z.leb_spec ln j); destruct (Z.ltb_spec j (len sc1)); cbn [andb]; try lia.
        * rewrite C4 by lia. apply FG. lia.
        * rewrite B5 by lia. destruct (Z.leb_spec 0 j); destruct (Z.ltb_spec j ln); cbn [andb]; try lia. rewrite A4 by lia. apply FG. lia.
      + intros j Hj. rewrite D5 by lia. destruct (Z.leb_spec ln (j + ln)); destruct (Z.ltb_spec (j + ln) (len sc1)); cbn [andb]; try lia. rewrite C4 by lia. f_equal. lia.
    - apply bind_Ok in Es. destruct Es as (from & Ef & Es). assert (from = blk - ln)%Z as -> by (unfold usub in Ef; destruct (blk <? ln)%Z; [discriminate|]; apply Ok_inj in Ef; lia). apply bind_Ok in Es. destruct Es as (s1 & Es1 & Es). pose proof (blit_all _ _ _ Es) as ->. destruct (sub_inv _ _ _ _ Es1) as (A1 & A2 & A3 & A4). split; [exact (Forall_sub _ _ _ _ _ Es1 FL)|]. intros j Hj. rewrite A4 by lia. f_equal. lia. }
  clear Es. destruct SC as [SC1 SC2]. apply bind_Ok in E. destruct E as (xl2 & Ex & E). apply Ok_inj in E. injection E as <- <-. eapply (for_keep (Forall (bd (8 * X)))); [exact Ex|exact FL|].
  intros k l l' Hk Ek FLk. apply bind_Ok in Ek. destruct Ek as (v & Ev & Ek). apply bind_Ok in Ek. destruct Ek as (l1 & E1 & Ek). apply bind_Ok in Ek. destruct Ek as (a & Ea & Ek). apply bind_Ok in Ek. destruct Ek as (f & Ef & Ek). apply bind_Ok in Ek. destruct Ek as (w & Ew & Ek).
  destruct (idx_inv f0 _ _ _ Ev) as [Iv Vv]. rewrite SC2 in Vv by lia. pose proof (HF k Hk) as Bv. rewrite <- Vv in Bv. destruct (ratio_val lm k norm ltac:(lia) ltac:(lia)) as (_ & _ & Q). set (t := IZR k / IZR norm) in *.
  assert (T0 : 0 <= 36 / 10 * X * (1 - t)) by (apply Rmult_le_pos; lra). assert (FD : faded X norm k <= 8 * X) by (unfold faded; fold t; assert (36 / 10 * X * (1 - t) <= 36 / 10 * X * 1) by (apply Rmult_le_compat_l; lra); lra).
  assert (FL1 : Forall (bd (8 * X)) l1) by (apply (Forall_put _ _ _ _ _ E1 FLk); eapply bd_weaken; [exact Bv|exact FD]).
  pose proof (two_sums lm _ _ num den sc l1 _ _ (8 * X) (8 * X) a f CN CD ltac:(lra) XH SC1 FL1 Ea Ef) as Bf. assert (Bf2 : bd (61 / 10 * X) f) by (eapply bd_weaken; [exact Bf|lra]).
  pose proof (fade_in_bd lm k norm (61 / 10 * X) (8 * X) f ltac:(lia) ltac:(lia) ltac:(lra) ltac:(lra) Bf2) as Bg. fold t in Bg. destruct (put_inv f0 _ _ _ _ E1) as (I1 & L1 & T1). destruct (idx_inv f0 _ _ _ Ew) as [I2 ->]. rewrite T1, Z.eqb_refl in Ek by lia.
  apply (Forall_put _ _ _ _ _ Ek FL1). assert (BB : 8 * (8 * X) <= big). { unfold big. replace (bpow radix2 110) with (bpow radix2 105 * 32) by (change 32 with (bpow radix2 5); rewrite <- bpow_plus; reflexivity). lra. }
  cbn [f32_ops fsub]. eapply bd_sub; [exact Bv|exact Bg|]. unfold faded. fold t. assert (TX : 0 <= X * t) by (apply Rmult_le_pos; lra). assert (TX1 : X * t <= X * 1) by (apply Rmult_le_compat_l; lra). replace (36 / 10 * X * (1 - t)) with (36 / 10 * X - 36 / 10 * (X * t)) by ring. replace (61 / 10 * X * t) with (61 / 10 * (X * t)) by ring. split; lra.
Qed.

(* ---- a whole frame ---- *)
Definition ltpf_sized (X : R) (s : ltpf f32) : Prop := Forall (bd X) (t_x s) /\ Forall (bd (8 * X)) (t_xl s) /\ (t_active s = true -> csum (355 / 1000) (t_num s) /\ csum (402 / 1000) (t_den s)).
Lemma plain_size lm total l_den num den x blk pitch lo hi (g : Z -> f32 -> f32) xl xl' X : 1 <= X -> 8 * X <= bpow radix2 105 -> csum (355 / 1000) num -> csum (402 / 1000) den -> Forall (bd X) x -> Forall (bd (8 * X)) xl ->
  (forall k f, (lo <= k < hi)%Z -> bd (36 / 10 * X) f -> bd (5 * X) (g k f)) -> for_range lo hi (fun k => ltpf_sample (f32_ops lm) (g k) total l_den num den x blk pitch k) xl = Ok xl' -> Forall (bd (8 * X)) xl'.
Proof.
  intros X1 XH CN CD FX FL HG E. eapply (for_keep (Forall (bd (8 * X)))); [exact E|exact FL|]. intros k l l' Hk El Hl. exact (proj1 (sample_size lm (g k) total l_den num den x blk pitch k l l' X (5 * X) X1 XH CN CD FX Hl (fun f => HG k f Hk) ltac:(lra) El)).
Qed.
Lemma ltpf_size lm c n s i nbits freq X out s' : legal_config c -> ltpf_lengths c = Ok n -> ltpf_ok c n s -> (0 <= l_pitch i < 512)%Z -> 1 <= X -> 8 * X <= bpow radix2 105 -> ltpf_sized X s -> Forall (bd X) freq ->
  ltpf_run (f32_ops lm) c s i nbits freq = Ok (out, s') -> Forall (bd (8 * X)) out /\ ltpf_sized X s'.
Proof.
  intros Lc En S Hp X1 XH (Z1 & Z2 & Z3) FF E. destruct (lengths_ok c Lc) as (n' & E' & G). rewrite En in E'. apply Ok_inj in E'. subst n'. pose proof G as [Gb [Gx Gxl] [Gc1 Gc2] [Gn1 Gn2] Gs]. pose proof S as [S1 S2 S3 S4 S5 S6 S7 S8 (j & S9 & S9') S10].
  destruct (config_geom c Lc) as (Nf & _). assert (N480 : (0 < l_norm n <= 480)%Z) by lia. assert (Blk : (0 <= t_blk s /\ (t_blk s = 0 \/ nf c <= t_blk s))%Z) by (rewrite S9; clear - S9' Nf; destruct (Z.eq_dec j 0) as [->|]; [lia|]; split; [apply Z.mul_nonneg_nonneg; lia|right; nia]).
  unfold ltpf_run in E. rewrite En in E. cbn [bind] in E. destruct (params_ok c n i Lc En Hp) as ([pint pfr] & Ep & Hfr & _). rewrite Ep in E. cbn [bind] in E. apply bind_Ok in E. destruct E as ([[[nm dm] nu] de] & Ec & E).
  destruct (coeffs_size lm c n s i nbits pfr nm dm nu de Lc En S Hfr Ec) as (-> & -> & CA). destruct (coeffs_ok (f32_ops lm) c n s i nbits pfr Lc En S Hfr) as ([[[nm' dm'] nu'] de'] & Ec' & C1 & C2 & C3 & C4). rewrite Ec in Ec'. apply Ok_inj in Ec'. apply quad_inj in Ec'. destruct Ec' as (<- & <- & <- & <-).
  cbv zeta in E. apply bind_Ok in E. destruct E as (ld & _ & E). apply bind_Ok in E. destruct E as (x & Ex & E). pose proof (Forall_blit _ _ _ _ _ _ Ex Z1 FF) as FX. rewrite <- Gn1 in E.
  apply bind_Ok in E. destruct E as ([sc xl] & Et & E). apply bind_Ok in E. destruct E as (s2 & Es & E). apply bind_Ok in E. destruct E as (fr & Efr & E). apply Ok_inj in E. apply pair_equal_spec in E. destruct E as [<- <-].
  assert (FR : Forall (bd (8 * X)) xl).
  2:{ split; [apply blit_all in Efr; subst fr; exact (Forall_sub _ _ _ _ _ Es FR)|]. split; [exact FX|]. split; [exact FR|]. exact CA. }
  clear Es Efr. assert (Id : forall k f, (l_norm n <= k < nf c)%Z -> bd (36 / 10 * X) f -> bd (5 * X) f) by (intros k f _ Hf; eapply bd_weaken; [exact Hf|lra]).
  unfold ltpf_transition in Et. destruct (l_active i) eqn:EA; destruct (t_active s) eqn:EP; cbn [negb andb] in Et.
  - destruct (CA eq_refl) as [CN CD]. destruct (Z3 eq_refl) as [MN MD]. destruct ((pint =? t_pint s)%Z && (pfr =? t_pfr s)%Z); apply bind_Ok in Et; destruct Et as (xl1 & E1 & Et).
    + apply Ok_inj in Et. apply pair_equal_spec in Et. destruct Et as [<- <-]. eapply (plain_size lm _ _ nu de x _ _ 0%Z (nf c) (fun _ f => f)); [exact X1|exact XH|exact CN|exact CD|exact FX|exact Z2| |exact E1]. intros k f _ Hf. eapply bd_weaken; [exact Hf|lra].
    + destruct (deactivate_size lm _ _ _ _ x _ _ (l_norm n) _ xl1 X X1 XH MN MD FX Z2 N480 (proj1 Blk) E1) as [D1 D2]. apply bind_Ok in Et. destruct Et as ([sc2 xl2] & E2 & Et). apply bind_Ok in Et. destruct Et as (xl3 & E3 & Et). apply Ok_inj in Et. apply pair_equal_spec in Et. destruct Et as [<- <-].
      assert (D3 : Forall (bd (8 * X)) xl2). { eapply (activate_size lm _ _ (l_norm n) nu de (t_blk s) pint (t_scratch s) xl1 sc2 xl2 X X1 XH CN CD D1 N480); [lia|lia|lia|exact D2|exact E2]. }
      eapply (plain_size lm _ _ nu de x _ _ (l_norm n) (nf c) (fun _ f => f)); [exact X1|exact XH|exact CN|exact CD|exact FX|exact D3|exact Id|exact E3].
  - destruct (CA eq_refl) as [CN CD]. apply bind_Ok in Et. destruct Et as (xl1 & E1 & Et). apply bind_Ok in Et. destruct Et as (xl2 & E2 & Et). apply Ok_inj in Et. apply pair_equal_spec in Et. destruct Et as [<- <-].
    assert (D1 : Forall (bd (8 * X)) xl1). { eapply (plain_size lm _ _ nu de x _ _ 0%Z (l_norm n)); [exact X1|exact XH|exact CN|exact CD|exact FX|exact Z2| |exact E1]. intros k f Hk Hf. cbv beta. eapply bd_weaken; [exact (fade_in_bd lm k (l_norm n) (36 / 10 * X) (8 * X) f ltac:(lia) ltac:(lia) ltac:(lra) ltac:(lra) Hf)|]. destruct (ratio_val lm k (l_norm n) ltac:(lia) ltac:(lia)) as (_ & _ & Q). assert (36 / 10 * X * (IZR k / IZR (l_norm n)) <= 36 / 10 * X * 1) by (apply Rmult_le_compat_l; lra). lra. }
    eapply (plain_size lm _ _ nu de x _ _ (l_norm n) (nf c) (fun _ f => f)); [exact X1|exact XH|exact CN|exact CD|exact FX|exact D1|exact Id|exact E2].
  - destruct (Z3 eq_refl) as [MN MD]. apply bind_Ok in Et. destruct Et as (xl1 & E1 & Et). apply bind_Ok in Et. destruct Et as (xl2 & E2 & Et). apply Ok_inj in Et. apply pair_equal_spec in Et. destruct Et as [<- <-].
    destruct (deactivate_size lm _ _ _ _ x _ _ (l_norm n) _ xl1 X X1 XH MN MD FX Z2 N480 (proj1 Blk) E1) as [D1 _]. eapply (for_keep (Forall (bd (8 * X)))); [exact E2|exact D1|]. intros k l l' _ El Hl. apply bind_Ok in El. destruct El as (v & Ev & El). apply (Forall_put _ _ _ _ _ El Hl). eapply bd_weaken; [exact (Forall_idx _ _ _ _ Ev FX)|lra].
  - apply bind_Ok in Et. destruct Et as (s1 & E1 & Et). apply bind_Ok in Et. destruct Et as (xl1 & E2 & Et). apply Ok_inj in Et. apply pair_equal_spec in Et. destruct Et as [<- <-]. apply (Forall_blit _ _ _ _ _ _ E2 Z2). eapply Forall_impl; [|exact (Forall_sub _ _ _ _ _ E1 FX)]. intros v Hv. eapply bd_weaken; [exact Hv|lra].
Qed.
