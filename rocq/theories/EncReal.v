(* The encoder on the reals: band energies, spectrum, shaped and filtered spectrum of 16 bit audio are bounded, so the gain index cannot overflow. What is left of
   EncOk.frame_regular: a noise shaping residual with something in set B, and positive autocorrelation forms of the temporal noise shaping. *)
From Coq Require Import ZArith Lia List Bool Reals Lra.
From Coquelicot Require Import Coquelicot.
From Flocq Require Import Core.
From Verif Require Import Base Config FrameSpec FftFactor FactorProofs Buffers Loops ParseBase Scalar EncScalar RealOps EncF32 DecSignal DecMdct DecTotal DecState Dft DctSpec MdctSpec EncMdct TdacSpec Dct4Inv Tdac MdctFormula.
From Verif Require Import SideInfo SnsIndex Mpvq TablesSnsF SnsShape EncSns EncSnsOk EncShape EncTns EncPayload TnsOk TnsInverse SnsProofs DetectSpec QuantSpec EncQuant QuantReal EncDetect Decoder Encoder EncOk EncRun EncKeep PropertiesShape PropertiesLpc ChainError.
From Coq Require Import List.
Import ListNotations.
Local Open Scope Z_scope.

(* ---- band energies ---- *)
Lemma fold_nonneg (f : R -> R) : (forall x, 0 <= f x)%R -> forall l a, (0 <= a)%R -> (0 <= fold_left (fun a x => (a + f x)%R) l a)%R.
Proof. intros H. induction l as [|x l IH]; intros a Ha; cbn [fold_left]; [exact Ha|]. apply IH. specialize (H x). lra. Qed.
Lemma energies_nonneg edges lines bands last b : edges_ok edges (len bands) last -> last <= len lines -> energies R_ops edges lines bands = Ok b -> Forall (fun v => 0 <= v)%R b.
Proof.
  intros E Hl Eb. pose proof (edges_mono _ _ _ E) as M. destruct E as (L & Z0 & ZL & S). unfold energies in Eb. assert (0 <= len bands) by (unfold len; lia).
  destruct (for_inv (fun n l => len l = len bands /\ forall j, 0 <= j < n -> (0 <= getz 0%R l j)%R) 0 (len bands) (fun b bands => v <- band_energy R_ops edges lines b ;; put bands b v) bands) as (b' & E' & Lb & Hb).
  - lia.
  - split; [reflexivity|]. lia.
  - intros k l Hk [Ll Hp]. unfold band_energy. rewrite (idx_get 0 edges k), (idx_get 0 edges (k + 1)) by lia. cbn [bind]. pose proof (M 0 k ltac:(lia) ltac:(lia)). pose proof (M (k + 1) (len bands) ltac:(lia) ltac:(lia)). specialize (S k Hk).
    unfold usub. destruct (Z.ltb_spec (getz 0 edges (k + 1)) (getz 0 edges k)); [lia|]. cbn [bind].
    destruct (sub_ok lines (getz 0 edges k) (getz 0 edges (k + 1)) ltac:(lia) ltac:(lia)) as (v & Ev & _ & _). rewrite Ev. cbn [bind].
    match goal with |- context [put l k ?u] => set (en := u) end. destruct (put_ok 0%R l k en ltac:(lia)) as (l' & Ep & Ll' & Tl). exists l'. split; [exact Ep|]. split; [lia|].
    intros j Hj. rewrite Tl by lia. destruct (Z.eqb_spec j k); [|apply Hp; lia]. unfold en. cbn [R_ops fadd fmul fdiv fz].
    set (w := IZR (getz 0 edges (k + 1) - getz 0 edges k)). assert (W : (0 < w)%R) by (apply IZR_lt; lia).
    apply (fold_nonneg (fun x => x * x / w)%R); [|apply Rle_refl]. intros x. apply Rmult_le_pos; [apply Rle_0_sqr|apply Rlt_le, Rinv_0_lt_compat, W].
  - fold (energies R_ops edges lines bands) in Eb. unfold energies in Eb. rewrite E' in Eb. apply Ok_inj in Eb. subst b'. apply Forall_forall. intros v Hv. destruct (In_nth _ _ 0%R Hv) as (n & Hn & <-).
    specialize (Hb (Z.of_nat n)). unfold getz in Hb. rewrite Nat2Z.id in Hb. apply Hb. unfold len in *. lia.
Qed.

(* ---- spectrum ---- *)
Definition i16 (v : Z) : Prop := -32768 <= v <= 32767.
Definition audio (T : Z -> Z) (n : Z) : Prop := forall j, 0 <= j < n -> i16 (T j).
Local Open Scope R_scope.
Lemma rsum_const n (M : R) : rsum n (fun _ => M) = INR n * M.
Proof. induction n as [|n IH]; cbn [rsum]; [cbn [INR]; ring|]. rewrite IH, S_INR. ring. Qed.
Lemma mdct_small c w T k : legal_config c -> mdct_window c = Ok w -> audio T (2 * nf c) -> Rabs (mdct_formula (nf c) (win w) (fun n => IZR (T n)) k) <= IZR (2 ^ 26).
Proof.
  intros L Ew A. destruct (config_geom c L) as (G1 & _). unfold mdct_formula. rewrite Rabs_mult.
  assert (S : Rabs (sqrt (2 / IZR (nf c))) <= 1).
  { rewrite Rabs_right by (apply Rle_ge, sqrt_pos). rewrite <- sqrt_1. apply sqrt_le_1_alt. assert (60 <= IZR (nf c)) by (apply IZR_le; lia). apply (Rmult_le_reg_r (IZR (nf c))); [lra|]. unfold Rdiv. rewrite Rmult_assoc, Rinv_l by lra. lra. }
  assert (B : forall f, (forall n, (0 <= n < 2 * nf c)%Z -> Rabs (f n) <= 36000) -> Rabs (rsum (Z.to_nat (2 * nf c)) f) <= 960 * 36000).
  { intros f H. eapply Rle_trans; [apply rsum_abs|]. eapply Rle_trans; [apply (rsum_le _ _ (fun _ => 36000))|].
    - intros n Hn. apply H. lia.
    - rewrite rsum_const. apply Rmult_le_compat_r; [lra|]. rewrite INR_IZR_INZ. apply IZR_le. lia. }
  apply Rle_trans with (1 * (960 * 36000)); [|rewrite Rmult_1_l, <- mult_IZR; apply IZR_le; vm_compute; congruence].
  apply Rmult_le_compat; try apply Rabs_pos; [exact S|]. apply B. intros n Hn.
  rewrite !Rabs_mult. pose proof (win_abs c w L Ew n Hn) as W. specialize (A n Hn). unfold i16 in A.
  assert (X : Rabs (IZR (T n)) <= 32768) by (rewrite <- abs_IZR; apply IZR_le; lia). assert (C : Rabs (cos (PI / IZR (nf c) * (IZR n + / 2 + IZR (nf c) / 2) * (IZR k + / 2))) <= 1) by (apply Rabs_le, COS_bound).
  apply Rle_trans with (107 / 100 * 32768 * 1); [|lra]. repeat (apply Rmult_le_compat; try apply Rmult_le_pos; try apply Rabs_pos; try assumption).
Qed.
Local Open Scope Z_scope.
Lemma next_audio c T inp : legal_config c -> audio T (2 * nf c) -> audio inp (nf c) -> audio (next_time (nf c) (zlead c) T inp) (2 * nf c).
Proof.
  intros L A B j Hj. destruct (config_geom c L) as (G1 & G2 & G3 & _). unfold next_time. destruct (Z.ltb_spec j (nf c - zlead c)); [apply A; lia|]. destruct (Z.ltb_spec j (2 * nf c - zlead c)); [apply B; lia|apply A; lia].
Qed.
(* one frame of the transform: bounded lines, energies that are not negative, and the analysis buffer stays audio *)
Theorem emdct_R c e x out0 bands0 : legal_config c -> emdct_ok c e -> len x = nf c -> len out0 = nf c -> len bands0 = nb c -> audio (getz 0 (em_time e)) (2 * nf c) -> audio (getz 0 x) (nf c) ->
  exists nn out bands m w, emdct_run R_ops c e x out0 bands0 = Ok (nn, out, bands, m) /\ mdct_window c = Ok w /\ len out = nf c /\ len bands = nb c /\ emdct_ok c m /\
    Forall (fun v => 0 <= v)%R bands /\ audio (getz 0 (em_time m)) (2 * nf c) /\
    (forall j, 0 <= j < 2 * nf c -> getz 0 (em_time m) j = next_time (nf c) (zlead c) (getz 0 (em_time e)) (getz 0 x) j) /\
    (forall k, 0 <= k < nf c -> getz 0%R out k = mdct_formula (nf c) (win w) (fun n => IZR (getz 0%Z (em_time m) n)) k) /\
    (forall k, 0 <= k < nf c -> (Rabs (getz 0 out k) <= IZR (2 ^ 26))%R).
Proof.
  intros L M Lx Lo Lb A1 A2. destruct (config_geom c L) as (G1 & G2 & G3 & G4 & G5 & G6 & G7). destruct (dct_factors_ok c L) as (fl & Ef & Ch & Sm & Nf). destruct (mdct_window_ok c L) as (w & Ew & _).
  set (h := nf c / 2) in *. assert (Hh : nf c = 2 * h) by (unfold h; clear -G2; Z.div_mod_to_equations; lia).
  destruct (emdct_run_spec R_ops c e x out0 bands0 h fl w L M Lx Lo Lb Hh Ef Ch Sm Nf Ew) as (nn & out & bands & m & E & L1 & L2 & M1 & Te & Tx). exists nn, out, bands, m, w.
  assert (Am : audio (getz 0 (em_time m)) (2 * nf c)) by (intros j Hj; rewrite Te by exact Hj; exact (next_audio c _ _ L A1 A2 j Hj)).
  assert (X : forall k, 0 <= k < nf c -> getz 0%R out k = mdct_formula (nf c) (win w) (fun n => IZR (getz 0%Z (em_time m) n)) k).
  { intros k Hk. rewrite <- (coef_is_mdct c w h) by assumption. change (getz 0%R out k) with (getz (fz R_ops 0%Z) out k). rewrite Tx by exact Hk. unfold coef, mdct_gain, gain. cbn [R_ops fmul fdiv fsqrt fz]. rewrite dct_val_dct4 by (auto; lia). rewrite Hh. reflexivity. }
  do 5 (split; [assumption|]). split; [|split; [exact Am|split; [exact Te|split; [exact X|intros k Hk; rewrite X by exact Hk; exact (mdct_small c w _ k L Ew Am)]]]].
  clear Te Tx X Am. unfold emdct_run in E. rewrite Lx, Lo, Lb, !Z.eqb_refl in E. cbn [assert bind] in E. destruct (update_time _ _ _) as [t| |]; cbn [bind] in E; try discriminate E.
  destruct (apply_mdct _ _ _ _) as [[o1 s1]| |]; cbn [bind] in E; try discriminate E. pose proof L as (f & d & Ec). destruct (band_table_ok f d) as (edges & E3 & B). rewrite <- Ec in *. rewrite E3 in E. cbn [bind] in E.
  destruct (energies R_ops edges o1 bands0) as [bs| |] eqn:E4; cbn [bind] in E; try discriminate E. destruct (near_nyquist _ _ _) as [n1| |]; cbn [bind] in E; try discriminate E. apply Ok_inj in E. assert (o1 = out /\ bs = bands) by (split; congruence). destruct H; subst o1 bs.
  rewrite <- Lb in B. apply (energies_nonneg edges out bands0 _ bands B ltac:(lia) E4).
Qed.

(* ---- shaped spectrum ---- *)
Lemma gains_small : forallb (forallb (fun p : Z * Z => (snd p <=? 0) && (Z.abs (fst p) <=? 10 * 10 ^ (- snd p)))) [SNS_VQ_REG_ADJ_GAINS; SNS_VQ_REG_LF_ADJ_GAINS; SNS_VQ_NEAR_ADJ_GAINS; SNS_VQ_FAR_ADJ_GAINS] = true.
Proof. vm_compute. reflexivity. Qed.
Lemma gain_small j i : (Rabs (gain_of j i) <= 10)%R.
Proof.
  assert (H : forall t, In t [SNS_VQ_REG_ADJ_GAINS; SNS_VQ_REG_LF_ADJ_GAINS; SNS_VQ_NEAR_ADJ_GAINS; SNS_VQ_FAR_ADJ_GAINS] -> (Rabs (R_lit (getz (0, 0)%Z t i)) <= 10)%R).
  { intros t Ht. pose proof gains_small as G. rewrite forallb_forall in G. specialize (G t Ht). rewrite forallb_forall in G. apply (lit_bound 10); [lia|].
    unfold getz. destruct (nth_in_or_default (Z.to_nat i) t (0, 0)) as [Hi| ->]; [exact (G _ Hi)|vm_compute; reflexivity]. }
  unfold gain_of. destruct (j =? 0), (j =? 1), (j =? 2); apply H; cbn [In]; auto 6.
Qed.
Lemma scale_factor_small q y n : len y = 16 -> (0 < norm2 y)%R -> (Rabs (scale_factor q y n) <= 170)%R.
Proof.
  intros Ly Hn. unfold scale_factor. assert (S : (0 < sqrt (norm2 y))%R) by now apply sqrt_lt_R0.
  assert (B : (Rabs (Rsum (map (fun k => IZR (getz 0%Z y k) * entry D n k) (SnsIndex.zrange 0 16)) / sqrt (norm2 y)) <= 16)%R).
  { replace (Rsum (map (fun k => IZR (getz 0%Z y k) * entry D n k) (SnsIndex.zrange 0 16)) / sqrt (norm2 y))%R with (Rsum (map (fun k => IZR (getz 0%Z y k) / sqrt (norm2 y) * entry D n k) (SnsIndex.zrange 0 16)))%R.
    - eapply Rle_trans; [apply (Rsum_bound _ 1)|change (length (SnsIndex.zrange 0 16)) with 16%nat; cbn [INR]; lra]. intros k Hk. rewrite Rabs_mult. replace 1%R with (1 * 1)%R by ring. apply Rmult_le_compat; try apply Rabs_pos; [|apply D_small].
      pose proof (normalised_small y k Ly Hn) as Q. assert (Hk' : 0 <= k < 16) by (unfold SnsIndex.zrange in Hk; apply in_map_iff in Hk; destruct Hk as (i & <- & Hi); apply in_seq in Hi; lia). rewrite (getz_map (fun v => IZR v / sqrt (norm2 y))%R 0%Z 0%R) in Q by lia. exact Q.
    - generalize (SnsIndex.zrange 0 16). intros l. induction l as [|a l IH]; cbn [map Rsum fold_right]; [unfold Rdiv; ring|]. unfold Rsum in *. rewrite IH. field. lra. }
  eapply Rle_trans; [apply Rabs_triang|]. rewrite Rabs_mult. pose proof (gain_small (2 * q_submode_msb q + q_submode_lsb q) (q_g_ind q)) as G.
  assert (E : (Rabs (if n <? 8 then entry LFCB (q_ind_lf q) n else entry HFCB (q_ind_hf q) (n - 8)) <= 10)%R) by (destruct (n <? 8); [apply LF_small|apply HF_small]).
  assert (P : (Rabs (gain_of (2 * q_submode_msb q + q_submode_lsb q) (q_g_ind q)) * Rabs (Rsum (map (fun k => IZR (getz 0%Z y k) * entry D n k) (SnsIndex.zrange 0 16)) / sqrt (norm2 y)) <= 10 * 16)%R) by (apply Rmult_le_compat; try apply Rabs_pos; assumption).
  lra.
Qed.
Lemma curve_small f b : 0 <= b < 64 -> (forall n, (Rabs (f n) <= 170)%R) -> (Rabs (curve f b) <= 700)%R.
Proof.
  intros Hb H. unfold curve. destruct (Z.ltb_spec b 2); [specialize (H 0); lra|]. cbv zeta. set (n := Z.min 14 ((b - 2) / 4)). assert (Hn : 0 <= n <= 14 /\ 2 <= b - 4 * n <= 7) by (unfold n; Z.div_mod_to_equations; lia). clearbody n.
  pose proof (H n) as H1. pose proof (H (n + 1)) as H2. apply Rabs_le_inv in H1, H2. assert (T : (2 <= IZR b - 4 * IZR n <= 7)%R) by (rewrite <- mult_IZR, <- minus_IZR; split; apply IZR_le; lia).
  apply Rabs_le. set (u := ((IZR b - 4 * IZR n - 3 / 2) / 4)%R). assert (U : (0 <= u <= 11 / 8)%R) by (unfold u; lra). split; nra.
Qed.
Theorem shaped_small c x eb attack scf s l1 M : legal_config c -> nb c = 64 -> len x = ne c -> len eb = 64 -> Forall (fun v => 0 <= v)%R eb ->
  sns_scale_factors R_ops R_eops c eb attack = Ok scf -> set_b_alive scf -> (forall j, 0 <= j < ne c -> (Rabs (getz 0 x j) <= M)%R) -> sns_encode R_ops R_eops c x eb attack = Ok (s, l1) ->
  len l1 = ne c /\ forall j, 0 <= j < ne c -> (Rabs (getz 0 l1 j) <= M * Rpower 2 700)%R.
Proof.
  intros Lc Nb Lx Le He Es A HM E. destruct (shaping_error c x eb attack scf Lc Nb Lx Le He Es A) as (s' & l' & q & v & edges & E' & Ll & _ & Q & Ev & _ & U & T & _). rewrite E in E'. apply Ok_inj in E'. assert (l' = l1) by congruence. subst l'.
  split; [exact Ll|]. intros j Hj. destruct (U j Hj) as (b & (Hb & Hbj) & _). rewrite (T b j Hb Hbj), Rabs_mult. destruct (shape_of_legal q Q) as (y & Ey & SV & _). pose proof SV as [Ly _]. rewrite Ev in Ey. apply Ok_inj in Ey. subst y.
  apply Rmult_le_compat; try apply Rabs_pos; [now apply HM|]. rewrite Rabs_right by (apply Rle_ge, Rlt_le, exp_pos). apply Rle_Rpower; [lra|].
  pose proof (curve_small (scale_factor q v) b Hb (fun n => scale_factor_small q v n Ly (norm2_pos _ v SV))) as B. apply Rabs_le_inv in B. lra.
Qed.

(* ---- filtered spectrum ---- *)
Local Open Scope R_scope.
Definition below2 (M : R) (k : Z) (v : R) : Prop := Rabs v <= M * 2 ^ Z.to_nat k.
Lemma pow2_S k : (0 <= k)%Z -> 2 ^ Z.to_nat (k + 1) = 2 * 2 ^ Z.to_nat k.
Proof. intros H. replace (Z.to_nat (k + 1)) with (S (Z.to_nat k)) by lia. reflexivity. Qed.
Lemma lattice_add M k r a b : (0 <= k)%Z -> Rabs r <= 1 -> below2 M k a -> below2 M k b -> below2 M (k + 1) (a + r * b).
Proof.
  intros Hk Hr Ha Hb. unfold below2 in *. rewrite pow2_S by exact Hk. eapply Rle_trans; [apply Rabs_triang|]. rewrite Rabs_mult.
  assert (Rabs r * Rabs b <= 1 * (M * 2 ^ Z.to_nat k)) by (apply Rmult_le_compat; try apply Rabs_pos; assumption). lra.
Qed.
Local Open Scope Z_scope.
Definition states_small (M : R) (st : list R) : Prop := len st = 8 /\ forall k, 0 <= k < 8 -> below2 M k (getz 0%R st k).
Lemma line_small M rc f p x st : (0 <= M)%R -> 0 <= f -> 1 <= p <= 8 -> f * 8 + 8 <= len rc -> (forall k, 0 <= k < p -> (Rabs (getz 0 rc (f * 8 + k)) <= 1)%R) -> (Rabs x <= M)%R -> states_small M st ->
  exists y st', tns_enc_line R_ops rc f p x st = Ok (y, st') /\ states_small M st' /\ (Rabs y <= M * 256)%R.
Proof.
  intros HM Hf Hp Lr Hr Hx (Ls & Hs). unfold tns_enc_line. destruct (sub_ok rc (f * 8) (f * 8 + (p - 1))) as (w1 & -> & _ & _); [lia|lia|]. destruct (sub_ok st 0 (p - 1)) as (w2 & -> & _ & _); [lia|lia|]. cbn [bind].
  destruct (for_inv (fun j '(t, save, s) => states_small M s /\ below2 M j t /\ below2 M j save) 0 (p - 1)
      (fun k '(t, save, s) => r <- idx rc (f * 8 + k) ;; s0 <- idx s k ;; s <- put s k save ;; Ok (fadd R_ops t (fmul R_ops r s0), fadd R_ops (fmul R_ops r t) s0, s)) (x, x, st)) as ([[t save] s] & E & (L & S) & Bt & Bs).
  - lia.
  - split; [split; assumption|]. assert (below2 M 0 x) by (unfold below2; change (Z.to_nat 0) with 0%nat; cbn [pow]; lra). auto.
  - intros j [[t save] s] Hj ((L & S) & Bt & Bs). rewrite (idx_get 0%R rc), (idx_get 0%R s) by lia. cbn [bind]. destruct (put_ok 0%R s j save ltac:(lia)) as (s' & -> & L' & T). cbn [bind]. eexists. split; [reflexivity|]. cbn [R_ops fadd fmul].
    specialize (Hr j ltac:(lia)). split; [|split].
    + split; [lia|]. intros k Hk. rewrite T by lia. destruct (Z.eqb_spec k j) as [->|]; [exact Bs|now apply S].
    + apply lattice_add; auto; [lia|]. apply S. lia.
    + rewrite Rplus_comm. apply lattice_add; auto; [lia|]. apply S. lia.
  - rewrite E. cbn [bind]. rewrite (idx_get 0%R rc), (idx_get 0%R s) by lia. cbn [bind]. destruct (put_ok 0%R s (p - 1) save ltac:(lia)) as (s' & -> & L' & T). cbn [bind]. eexists. exists s'. split; [reflexivity|]. split.
    + split; [lia|]. intros k Hk. rewrite T by lia. destruct (Z.eqb_spec k (p - 1)) as [->|]; [exact Bs|now apply S].
    + cbn [R_ops fadd fmul]. pose proof (lattice_add M (p - 1) _ t (getz 0%R s (p - 1)) ltac:(lia) (Hr (p - 1) ltac:(lia)) Bt (S (p - 1) ltac:(lia))) as Q. unfold below2 in Q. eapply Rle_trans; [exact Q|]. apply Rmult_le_compat_l; [exact HM|].
      replace 256%R with (2 ^ 8)%R by (cbn [pow]; lra). apply Rle_pow; [lra|lia].
Qed.
Definition lines_small (M : R) (lo : Z) (l : list R) : Prop := forall j, 0 <= j < len l -> (Rabs (getz 0 l j) <= M * (if j <? lo then 256 else 1))%R.
Lemma filters_small M rc orders : (0 <= M)%R -> forall params f st x lo, 0 <= f -> 0 <= lo -> ordered lo (len x) (bands_of params) -> f + len params <= len orders -> (f + len params) * 8 <= len rc ->
  (forall i, 0 <= i < f + len params -> 0 <= getz 0 orders i <= 8) -> (forall j, 0 <= j < (f + len params) * 8 -> (Rabs (getz 0 rc j) <= 1)%R) -> states_small M st -> lines_small M lo x ->
  exists y, tns_enc_filters R_ops rc f params orders st x = Ok y /\ len y = len x /\ lines_small M (len x) y.
Proof.
  intros HM. induction params as [|[[a b] subs] params IH]; intros f st x lo Hf Hlo O Lo Lr HO HR HS HX.
  - exists x. cbn [tns_enc_filters]. split; [reflexivity|]. split; [reflexivity|]. intros j Hj. specialize (HX j Hj). destruct (Z.ltb_spec j (len x)); [|lia]. destruct (j <? lo); lra.
  - assert (LP : len ((a, b, subs) :: params) = len params + 1) by (unfold len; cbn [length]; lia). rewrite LP in *. assert (0 <= len params) by (unfold len; lia). cbn [bands_of map fst ordered] in O. destruct O as [O1 O2]. pose proof (ordered_le _ _ _ O2) as Ob.
    cbn [tns_enc_filters]. rewrite (idx_get 0 orders f) by lia. cbn [bind]. specialize (HO f ltac:(lia)) as Hp. set (p := getz 0 orders f) in *.
    assert (B : exists st1 y1, (if p =? 0 then Ok (st, x) else _ <- sub x a b ;; for_range a b (fun n '(st, lines) => x <- idx lines n ;; '(x, st) <- tns_enc_line R_ops rc f p x st ;; lines <- put lines n x ;; Ok (st, lines)) (st, x)) = Ok (st1, y1) /\
       states_small M st1 /\ len y1 = len x /\ lines_small M b y1).
    { assert (HA : lines_small M a x) by (intros j Hj; specialize (HX j Hj); destruct (Z.ltb_spec j lo), (Z.ltb_spec j a); try lra; lia).
      destruct (Z.eqb_spec p 0) as [E0|N0]; [exists st, x; split; [reflexivity|]; split; [exact HS|]; split; [reflexivity|]; intros j Hj; specialize (HA j Hj); destruct (Z.ltb_spec j b), (Z.ltb_spec j a); try lra; lia|].
      destruct (sub_ok x a b) as (w & -> & _ & _); [lia|lia|]. cbn [bind].
      destruct (for_inv (fun n '(s, y) => states_small M s /\ len y = len x /\ lines_small M n y) a b (fun n '(st, lines) => x <- idx lines n ;; '(x, st) <- tns_enc_line R_ops rc f p x st ;; lines <- put lines n x ;; Ok (st, lines)) (st, x)) as ([s y] & E & A1 & A2 & A3).
      - lia.
      - auto.
      - intros n [s y] Hn (A1 & A2 & A3). rewrite (idx_get 0%R y) by lia. cbn [bind]. pose proof (A3 n ltac:(lia)) as Hx. rewrite Z.ltb_irrefl, Rmult_1_r in Hx.
        destruct (line_small M rc f p (getz 0%R y n) s HM Hf ltac:(lia) ltac:(lia) ltac:(intros; apply HR; lia) Hx A1) as (y1 & s1 & -> & S1 & B1). cbn [bind]. destruct (put_ok 0%R y n y1 ltac:(lia)) as (y' & -> & Ly & T). cbn [bind].
        eexists. split; [reflexivity|]. split; [exact S1|]. split; [lia|]. intros j Hj. rewrite T by lia. destruct (Z.eqb_spec j n) as [->|].
        + destruct (Z.ltb_spec n (n + 1)); [exact B1|lia].
        + specialize (A3 j ltac:(lia)). destruct (Z.ltb_spec j n), (Z.ltb_spec j (n + 1)); try exact A3; lia.
      - exists s, y. auto. }
    destruct B as (st1 & y1 & E & S1 & L1 & B1). rewrite E. cbn [bind]. destruct (IH (f + 1) st1 y1 b) as (y & Ey & Ly & By); try assumption; try lia.
    + rewrite L1. exact O2.
    + intros i Hi. apply HO. lia.
    + intros j Hj. apply HR. lia.
    + exists y. split; [exact Ey|]. split; [lia|]. now rewrite L1 in By.
Qed.
Theorem filtered_small M chk c x bw nbits nn r y : (0 <= M)%R -> legal_config c -> len x = ne c -> 0 <= bw <= fs_ind c -> coefs_in_range R_ops R_eops c x bw nbits nn -> (forall j, 0 <= j < ne c -> (Rabs (getz 0 x j) <= M)%R) ->
  tns_encode R_ops R_eops chk c x bw nbits nn = Ok (r, y) -> len y = ne c /\ forall j, 0 <= j < ne c -> (Rabs (getz 0 y j) <= M * 256)%R.
Proof.
  intros HM Hc Lx Hb CR HX E. destruct (tns_encode_ok R_ops R_eops chk c x bw nbits nn R_elaws Hc Lx Hb CR) as ([r' y'] & E' & TL). rewrite E in E'. apply Ok_inj in E'. assert (r' = r /\ y' = y) by (split; congruence). destruct H; subst r' y'.
  destruct TL as [TP TN TW TLn _ _ TRl TC _ (params & EP & EY)]. destruct (coded_ne c bw Hc Hb) as [Hb4 Hn]. destruct (enc_params (n_ms c) bw Hb4) as (params' & EP' & LS & LP & _ & Ord & _). rewrite EP in EP'. apply Ok_inj in EP'. subst params'.
  destruct TP as (P1 & P2 & P3 & P4). destruct (filters_small M (tr_rc_q r) (tr_order r) HM params 0 (repeat 0%R 8) x 0) as (y' & Ey & Ly & By); try lia.
  - eapply ordered_weaken; [exact Ord|]. lia.
  - intros i Hi. rewrite Forall_forall in P3. apply P3. unfold getz. apply nth_In. unfold len in P1. lia.
  - intros j Hj. rewrite TC by lia. cbn [R_ops fsin17]. apply Rabs_le, SIN_bound.
  - split; [reflexivity|]. intros k Hk. unfold getz. rewrite nth_repeat. unfold below2. rewrite Rabs_R0. apply Rmult_le_pos; [exact HM|apply pow_le; lra].
  - intros j Hj. destruct (Z.ltb_spec j 0); [lia|]. rewrite Rmult_1_r. apply HX. lia.
  - change (repeat 0%R 8) with (repeat (fz R_ops 0) 8) in Ey. rewrite Ey in EY. apply Ok_inj in EY. subst y'. split; [lia|]. intros j Hj. specialize (By j ltac:(lia)). destruct (Z.ltb_spec j (len x)); [exact By|lia].
Qed.

(* ---- the frame ---- *)
(* what the audio has to be like: a noise shaping residual that is not zero in set B (SNS_VQ, C23), and autocorrelations that are positive forms (C51) *)
Definition frame_alive (c : config) (ch : echannel R) (x : list Z) (nbytes : Z) : Prop :=
  forall nn out bands m bw nbw a at',
    emdct_run R_ops c (ec_mdct ch) x (ec_out ch) (ec_bands ch) = Ok (nn, out, bands, m) -> bw_run R_ops (ec_bw ch) bands = Ok (bw, nbw) -> attack_run R_ops c (ec_attack ch) x nbytes = Ok (a, at') ->
    (forall scf, sns_scale_factors R_ops R_eops c bands a = Ok scf -> set_b_alive scf) /\
    forall s l1, sns_encode R_ops R_eops c (firstn (Z.to_nat (ne c)) out) bands a = Ok (s, l1) -> bands_definite c l1 bw.
Lemma Rpower_add_Z a b : (Rpower 2 a * Rpower 2 b = Rpower 2 (a + b))%R.
Proof. symmetry. apply Rpower_plus. Qed.
Theorem alive_regular t c ch x N : legal_config c -> nb c = 64 -> ech_wf c ch -> len x = nf c -> 20 <= N <= 400 -> audio (getz 0 (em_time (ec_mdct ch))) (2 * nf c) -> audio (getz 0 x) (nf c) ->
  frame_alive c ch x N -> frame_regular R_ops R_eops t c ch x N.
Proof.
  intros L Nb W Lx HN A1 A2 FA nn out bands m bw nbw a at' E1 E2 E3. destruct W as [W1 W2 W3 W4 W5 W6 W7]. destruct (config_geom c L) as (G1 & G2 & G3 & G4 & G5 & G6 & G7).
  destruct (emdct_R c (ec_mdct ch) x (ec_out ch) (ec_bands ch) L W1 Lx W6 W5 A1 A2) as (nn' & out' & bands' & m' & w & E1' & Ew & Lo & Lb & Mm & Nn & Am & Te & Tx & Bx). rewrite E1 in E1'. apply Ok_inj in E1'.
  assert (out' = out /\ bands' = bands) by (split; congruence). destruct H; subst out' bands'. destruct (FA nn out bands m bw nbw a at' E1 E2 E3) as [F1 F2].
  assert (Le : len bands = 64) by lia. pose proof (bw_in_range R_ops (ec_bw ch) bands bw nbw c Lb W3 W2 G6 E2) as Hbw. destruct (C48_scale_factors_bounded c bands a L Nb Le Nn) as (scf & Es & Ls & Bs). specialize (F1 scf Es). split.
  - intros scf' lf hf st1 r1 Es' Er. rewrite Es in Es'. apply Ok_inj in Es'. subst scf'. destruct (F1 lf hf st1 r1 Er) as (n & Hn & Hz). apply (R_regular _ n); [apply rotate_len|exact Hn|exact Hz].
  - intros s l1 E4. set (lines := firstn (Z.to_nat (ne c)) out) in *. assert (Ll : len lines = ne c) by (unfold lines, len in *; rewrite firstn_length; lia).
    assert (Gl : forall j, 0 <= j < ne c -> (Rabs (getz 0 lines j) <= IZR (2 ^ 26))%R).
    { intros j Hj. replace (getz 0%R lines j) with (getz 0%R out j); [apply Bx; lia|]. unfold lines, getz. rewrite <- (firstn_skipn (Z.to_nat (ne c)) out) at 1. rewrite app_nth1; [reflexivity|]. rewrite firstn_length. unfold len in Lo. lia. }
    destruct (shaped_small c lines bands a scf s l1 _ L Nb Ll Le Nn Es F1 Gl E4) as [L1 B1]. pose proof (C51_indices c l1 bw (N * 8) nn L L1 Hbw (F2 s l1 E4)) as CR. split; [exact CR|].
    intros tr l2 E5. set (M := (IZR (2 ^ 26) * Rpower 2 700)%R) in *. assert (HM : (0 <= M)%R) by (apply Rmult_le_pos; [apply IZR_le; vm_compute; congruence|apply Rlt_le, exp_pos]).
    destruct (filtered_small M (t_chk t) c l1 bw (N * 8) nn tr l2 HM L L1 Hbw CR B1 E5) as [L2 B2]. pose proof (gg_off_range (fs_ind c) (N * 8) G6 ltac:(lia)) as GO.
    apply Z.le_trans with 32000; [|lia]. apply gain_floor_le; [lia|lia|]. apply Forall_forall. intros v Hv. destruct (In_nth _ _ 0%R Hv) as (j & Hj & <-). specialize (B2 (Z.of_nat j)). unfold getz in B2. rewrite Nat2Z.id in B2.
    eapply Rle_trans; [apply B2; unfold len in L2; lia|].
    assert (H1 : (M * 256 = Rpower 2 734)%R).
    { unfold M. replace (IZR (2 ^ 26)) with (Rpower 2 26) by (replace 26%R with (INR 26) by (rewrite INR_IZR_INZ; reflexivity); rewrite Rpower_pow by lra; rewrite pow_IZR; reflexivity).
      replace 256%R with (Rpower 2 8) by (replace 8%R with (INR 8) by (rewrite INR_IZR_INZ; reflexivity); rewrite Rpower_pow by lra; cbn [pow]; lra). rewrite !Rpower_add_Z. f_equal. lra. }
    rewrite H1. apply Rle_trans with (1 * Rpower 10 (IZR (32000 + gg_off (fs_ind c) (N * 8)) / 28))%R; [rewrite Rmult_1_l|apply Rmult_le_compat_r; [apply Rlt_le, exp_pos|unfold top; lra]].
    assert (I : (31000 <= IZR (32000 + gg_off (fs_ind c) (N * 8)))%R) by (apply IZR_le; lia).
    apply Rle_trans with (Rpower 10 734)%R; [apply Rle_Rpower_l; lra|]. apply Rle_Rpower; [lra|]. lra.
Qed.

(* ---- runs ---- *)
(* every frame is alive at the time it is encoded *)
Fixpoint calls_alive (t : target) (en : encoder R) (cs : list ecall) : Prop :=
  match cs with
  | [] => True
  | k :: cs => (forall ch, idx (e_channels en) (g_ch k) = Ok ch -> frame_alive (e_config en) ch (g_x k) (len (g_buf k))) /\
               (forall en' buf, encode_call R_ops R_eops t en (g_ch k) (g_x k) (g_buf k) = Ok (en', buf) -> calls_alive t en' cs)
  end.
Lemma alive_call t en k n : encoder_ok t en (n + 1) -> call_ok en k -> Forall i16 (g_x k) -> Forall (buffers i16 (e_config en)) (e_channels en) ->
  (forall ch, idx (e_channels en) (g_ch k) = Ok ch -> frame_alive (e_config en) ch (g_x k) (len (g_buf k))) ->
  forall ch, idx (e_channels en) (g_ch k) = Ok ch -> frame_regular R_ops R_eops t (e_config en) ch (g_x k) (len (g_buf k)).
Proof.
  intros [Hc HC] (Q1 & Q2 & Q3 & Q4) HX HB H ch Ech. destruct (not_8k _ Hc) as [L Nb]. destruct (DecRun.Forall_getz _ _ _ _ HC Ech) as [Kch _]. pose proof (DecRun.Forall_getz _ _ _ _ HB Ech) as Kb.
  apply alive_regular; auto. intros j Hj. rewrite Forall_forall in HX. apply HX. unfold getz. apply nth_In. unfold len in Q2. lia.
Qed.
Theorem alive_calls t : forall cs en, encoder_ok t en (len cs) -> Forall (call_ok en) cs -> Forall (fun k => Forall i16 (g_x k)) cs -> Forall (buffers i16 (e_config en)) (e_channels en) -> calls_alive t en cs ->
  calls_regular R_ops R_eops t en cs.
Proof.
  induction cs as [|k cs IH]; intros en HE HC HX HB HA; cbn [calls_regular]; [exact I|]. cbn [calls_alive] in HA. destruct HA as [HA1 HA2]. inversion HC as [|? ? C1 C2]; subst. inversion HX as [|? ? X1 X2]; subst.
  replace (len (k :: cs)) with (len cs + 1) in HE by (unfold len; cbn [length]; lia). pose proof (alive_call t en k (len cs) HE C1 X1 HB HA1) as R. split; [exact R|].
  intros en' buf E. destruct (call_step R_ops R_eops R_elaws i16 t en k (len cs) en' buf HE ltac:(unfold len; lia) C1 R HB X1 E) as (HE' & Ec & El & HB'). apply IH; auto; [|exact (HA2 en' buf E)].
  eapply Forall_impl; [|exact C2]. intros k'. now apply call_ok_keeps.
Qed.
