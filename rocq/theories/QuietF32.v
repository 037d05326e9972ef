(* Silence in binary32: zeros of either sign stay zeros through the transform and the gains, the band energies are exactly zero, the noise shaping residual of zero energies
   is audible in set B, and no linear prediction is found. *)
From Coq Require Import ZArith List Bool Lia Reals Lra.
From Coquelicot Require Import Complex.
From Flocq Require Import Core BinarySingleNaN.
From Verif Require Import Base Config FrameSpec FftFactor FactorProofs Buffers Loops Scalar EncScalar Fft DecSignal DecMdct DecTotal DecState FftSpec RealOps Dft DctSpec ParseBase MdctSpec EncMdct TdacSpec Dct4Inv Tdac MdctFormula MdctStream PropertiesMdct Norm2 F32 F32Round F32Lines EncF32 F32Err FftErr FftErrRun DctErr MdctErr MdctErrRun.
From Verif Require Import SnsIndex SnsProofs EncSns EncSnsOk EncTns TnsOk DetectSpec QuantSpec EncQuant EncDetect Decoder Encoder EncOk EncRun EncKeep F32Size LtpfSize SnsSize TnsSize DecSize ProjF32 EncSnsSize EncTnsSize EncSize.
From Coq Require Import List.
Import ListNotations.
Local Open Scope Z_scope.
Local Notation f0 := (f32_of_Z 0).

(* ---- zeros ---- *)
Definition nul (x : f32) : Prop := exists s, x = B754_zero s.
Definition fin (x : f32) : Prop := is_finite x = true.
Lemma nul_add (x y : f32) : nul x -> nul y -> nul (Bplus mode_NE x y).
Proof. intros [[] ->] [[] ->]; eexists; reflexivity. Qed.
Lemma nul_sub (x y : f32) : nul x -> nul y -> nul (Bminus mode_NE x y).
Proof. intros [[] ->] [[] ->]; eexists; reflexivity. Qed.
Lemma nul_opp (x : f32) : nul x -> nul (Bopp x).
Proof. intros [s ->]. eexists. reflexivity. Qed.
Lemma nul_mul (x y : f32) : nul x -> fin y -> nul (Bmult mode_NE x y).
Proof. intros [s ->] F. destruct y; try discriminate F; eexists; reflexivity. Qed.
Lemma nul_mul' (x y : f32) : fin x -> nul y -> nul (Bmult mode_NE x y).
Proof. intros F [s ->]. destruct x; try discriminate F; eexists; reflexivity. Qed.
Lemma nul_fin x : nul x -> fin x. Proof. intros [s ->]. reflexivity. Qed.
Lemma nul_f0 : nul f0. Proof. exists false. reflexivity. Qed.
Definition nulc (z : f32 * f32) : Prop := nul (fst z) /\ nul (snd z).
Definition finc (z : f32 * f32) : Prop := fin (fst z) /\ fin (snd z).
Lemma half_fin : fin (f32_lit (5, -1)). Proof. reflexivity. Qed.
Create HintDb nul.
#[local] Hint Resolve nul_add nul_sub nul_opp nul_mul nul_mul' nul_f0 half_fin : nul.
Lemma nulc_cmul lm a b : nulc a -> finc b -> nulc (cmul (f32_ops lm) a b).
Proof. intros [A1 A2] [B1 B2]. split; cbn [cmul fst snd f32_ops fsub fadd fmul]; auto 6 with nul. Qed.
Lemma nulc_cmul' lm a b : finc a -> nulc b -> nulc (cmul (f32_ops lm) a b).
Proof. intros [A1 A2] [B1 B2]. split; cbn [cmul fst snd f32_ops fsub fadd fmul]; auto 6 with nul. Qed.
Lemma nulc_cadd lm a b : nulc a -> nulc b -> nulc (cadd (f32_ops lm) a b).
Proof. intros [A1 A2] [B1 B2]. split; cbn [cadd fst snd f32_ops fadd]; auto with nul. Qed.
Lemma nulc_csub lm a b : nulc a -> nulc b -> nulc (csub (f32_ops lm) a b).
Proof. intros [A1 A2] [B1 B2]. split; cbn [csub fst snd f32_ops fsub]; auto with nul. Qed.
Lemma nulc_cscale lm a x : nulc a -> fin x -> nulc (cscale (f32_ops lm) a x).
Proof. intros [A1 A2] B. split; cbn [cscale fst snd f32_ops fmul]; auto with nul. Qed.

(* ---- the transform ---- *)
Lemma bf_nul lm p (y w e : Z -> f32 * f32) k : (forall q, nulc (y q)) -> (forall q, finc (w q)) -> (forall q, finc (e q)) -> nulc (bf (f32_ops lm) p y w e k).
Proof.
  intros Hy Hw He. assert (M : forall q, nulc (cmul (f32_ops lm) (y q) (w q))) by (intros q; apply nulc_cmul; auto).
  assert (P : forall a b, nul a -> nul b -> nulc (a, b)) by (intros a b A B; split; assumption).
  assert (F1 : forall z, nulc z -> nul (fst z)) by (intros z [A _]; exact A). assert (F2 : forall z, nulc z -> nul (snd z)) by (intros z [_ A]; exact A).
  assert (G1 : fin (fst (e 1))) by apply (He 1). assert (G2 : fin (snd (e 1))) by apply (He 1). assert (G3 : fin (fst (e 2))) by apply (He 2). assert (G4 : fin (snd (e 2))) by apply (He 2).
  pose proof (nulc_cadd lm) as CA. pose proof (nulc_csub lm) as CS. pose proof (nulc_cscale lm) as CC.
  unfold bf. destruct (p =? 2); [|destruct (p =? 3); [|destruct (p =? 4)]].
  - unfold bf2. cbv zeta. destruct (_ =? _); auto.
  - unfold bf3. cbv zeta. set (s1 := cmul _ (y 1) _). set (s2 := cmul _ (y 2) _). assert (N1 : nulc s1) by apply M. assert (N2 : nulc s2) by apply M. set (s3 := cadd _ s1 s2). assert (N3 : nulc s3) by (apply CA; assumption).
    set (s0 := cscale _ _ _). assert (N0 : nulc s0) by (apply CC; [apply CS; assumption|exact G2]). clearbody s0 s3. cbn [fst snd f32_ops fadd fsub fmul flit].
    destruct (k =? 0); [now apply CA|]. destruct (k =? 1); apply P; auto 8 with nul.
  - unfold bf4. cbv zeta. set (s0 := cmul _ (y 1) _). set (s1 := cmul _ (y 2) _). set (s2 := cmul _ (y 3) _). assert (N0 : nulc s0) by apply M. assert (N1 : nulc s1) by apply M. assert (N2 : nulc s2) by apply M.
    set (s5 := csub _ (y 0) s1). assert (N5 : nulc s5) by (apply CS; auto). set (s4 := csub _ s0 s2). assert (N4 : nulc s4) by (apply CS; auto). clearbody s4 s5.
    destruct (k =? 0); [apply CA; apply CA; auto|]. destruct (k =? 1); [apply P; cbn [f32_ops fadd fsub]; auto with nul|]. destruct (k =? 2); [apply CS; apply CA; auto|]. apply P; cbn [f32_ops fadd fsub]; auto with nul.
  - unfold bf5. cbv zeta. set (s1 := cmul _ (y 1) _). set (s2 := cmul _ (y 2) _). set (s3 := cmul _ (y 3) _). set (s4 := cmul _ (y 4) _). assert (N1 : nulc s1) by apply M. assert (N2 : nulc s2) by apply M. assert (N3 : nulc s3) by apply M. assert (N4 : nulc s4) by apply M.
    set (s7 := cadd _ s1 s4). set (s10 := csub _ s1 s4). set (s8 := cadd _ s2 s3). set (s9 := csub _ s2 s3). assert (N7 : nulc s7) by (apply CA; auto). assert (N10 : nulc s10) by (apply CS; auto). assert (N8 : nulc s8) by (apply CA; auto). assert (N9 : nulc s9) by (apply CS; auto). clearbody s7 s8 s9 s10.
    pose proof (Hy 0) as N0. cbn [fst snd f32_ops fadd fsub fmul fneg].
    destruct (k =? 0); [apply P; auto 8 with nul|]. destruct (k =? 1); [apply CS; apply P; auto 9 with nul|]. destruct (k =? 2); [apply CA; apply P; auto 9 with nul|]. destruct (k =? 3); [apply CS; apply P; auto 9 with nul|]. apply CA; apply P; auto 9 with nul.
Qed.
Lemma fft_nul lm tw : (forall i, finc (tw i)) -> forall k fl fstride x j, (length fl <= 2 * k)%nat -> (forall t, nulc (x t)) -> nulc (fft_val (f32_ops lm) tw fl fstride x j).
Proof.
  intros T. induction k as [|k IH]; intros [|p [|m r]] fstride x j L Hx; cbn [fft_val length] in *; try apply Hx; try lia.
  apply bf_nul; intros q; [|apply T|apply T]. destruct (m =? 1); [apply Hx|]. apply IH; [lia|]. intros t. apply Hx.
Qed.
Lemma near2_fin w c : near2 w c -> finc w.
Proof. intros [[A _] [B _]]. split; assumption. Qed.
Lemma dct_nul lm h fl x j : twiddles_near lm h -> 0 < h -> chain h fl -> small_factors fl -> (forall n, nul (x n)) -> 0 <= j < 2 * h -> nul (dct_val (f32_ops lm) h fl x j).
Proof.
  intros T H0 Ch S Hx Hj.
  assert (TW : forall i, finc (getz (d0 (f32_ops lm)) (fft_twiddles (f32_ops lm) h) i)).
  { intros i. unfold getz. destruct (Nat.lt_ge_cases (Z.to_nat i) (length (fft_twiddles (f32_ops lm) h))) as [A|A]; [|rewrite nth_overflow by exact A; split; reflexivity].
    assert (I : In (nth (Z.to_nat i) (fft_twiddles (f32_ops lm) h) (d0 (f32_ops lm))) (fft_twiddles (f32_ops lm) h)) by now apply nth_In. unfold fft_twiddles in I at 2. apply in_map_iff in I. destruct I as (n & E & I). rewrite <- E. apply in_seq in I. destruct (T (Z.of_nat n) ltac:(lia)) as [A1 _]. exact (near2_fin _ _ A1). }
  assert (T4 : forall n, 0 <= n < h -> finc (ftw4 (f32_ops lm) h n)) by (intros n Hn; destruct (T n Hn) as [_ A]; exact (near2_fin _ _ A)).
  assert (MID : forall n, 0 <= n < h -> nulc (dct_mid (f32_ops lm) h fl x n)).
  { intros n Hn. unfold dct_mid. rewrite (fft_val_ext (f32_ops lm) _ (length fl) fl h ltac:(lia) Ch S 1 _ (fun t => if (0 <=? t) && (t <? h) then dct_in (f32_ops lm) h x t else (f0, f0)) n) by (first [exact Hn|intros t Ht; destruct (Z.leb_spec 0 t), (Z.ltb_spec t h); try lia; reflexivity]).
    apply (fft_nul lm _ TW (length fl)); [lia|]. intros t. destruct (Z.leb_spec 0 t); [|split; apply nul_f0]. destruct (Z.ltb_spec t h); [|split; apply nul_f0]. cbn [andb]. unfold dct_in. apply nulc_cmul'; [apply T4; lia|split; apply Hx]. }
  assert (OUT : forall n, 0 <= n < h -> nulc (dct_out (f32_ops lm) h fl x n)) by (intros n Hn; unfold dct_out; apply nulc_cmul'; auto).
  unfold dct_val. cbn [f32_ops fmul fneg fz]. destruct (Z.even j) eqn:Ev; apply nul_mul; try reflexivity.
  - apply OUT. Z.div_mod_to_equations; lia.
  - apply nul_opp, OUT. Z.div_mod_to_equations; lia.
Qed.

(* ---- spectrum and energies ---- *)
Lemma sq_nul (x : f32) : nul x -> Bmult mode_NE x x = f0.
Proof. intros [[] ->]; reflexivity. Qed.
Lemma width_f32 n : 0 < n <= 4096 -> exists m e H, f32_of_Z n = B754_finite false m e H.
Proof.
  intros Hn. destruct (fz_val n ltac:(lia)) as [V F]. assert (P : (1 <= B2R (f32_of_Z n))%R) by (rewrite V; apply IZR_le; lia).
  destruct (f32_of_Z n) as [s|s| |[] m e H]; try discriminate F; cbn [B2R] in P; try lra; [|now exists m, e, H].
  exfalso. assert (Q : (F2R (Float radix2 (Z.neg m) e) < 0)%R) by (apply F2R_lt_0; reflexivity). cbn [cond_Zopp] in P. change (- Z.pos m) with (Z.neg m) in P. lra.
Qed.
Lemma energy_nul lm w l : 0 < w <= 4096 -> Forall nul l -> fold_left (fun acc x => fadd (f32_ops lm) acc (fdiv (f32_ops lm) (fmul (f32_ops lm) x x) (fz (f32_ops lm) w))) l f0 = f0.
Proof.
  intros Hw H. induction H as [|x l Hx H IH]; [reflexivity|]. cbn [fold_left f32_ops fadd fdiv fmul fz] in *. rewrite (sq_nul x Hx). assert (Q : Bplus mode_NE f0 (Bdiv mode_NE f0 (f32_of_Z w)) = f0) by (destruct (width_f32 w Hw) as (m & e & K & ->); reflexivity). rewrite Q. exact IH.
Qed.
Lemma energies_nul lm edges lines bands last b : edges_ok edges (len bands) last -> last <= len lines -> last <= 4096 -> Forall nul lines -> energies (f32_ops lm) edges lines bands = Ok b -> Forall (fun v => v = f0) b.
Proof.
  intros E Hl H4 HZ Eb. pose proof (edges_mono _ _ _ E) as M. destruct E as (L & Z0 & ZL & S). unfold energies in Eb. assert (0 <= len bands) by (unfold len; lia).
  destruct (for_inv (fun n l => len l = len bands /\ forall j, 0 <= j < n -> getz f0 l j = f0) 0 (len bands) (fun b bands => v <- band_energy (f32_ops lm) edges lines b ;; put bands b v) bands) as (b' & E' & Lb & Hb).
  - lia.
  - split; [reflexivity|]. lia.
  - intros k l Hk [Ll Hp]. unfold band_energy. rewrite (idx_get 0 edges k), (idx_get 0 edges (k + 1)) by lia. cbn [bind]. pose proof (M 0 k ltac:(lia) ltac:(lia)). pose proof (M (k + 1) (len bands) ltac:(lia) ltac:(lia)). specialize (S k Hk).
    unfold usub. destruct (Z.ltb_spec (getz 0 edges (k + 1)) (getz 0 edges k)); [lia|]. cbn [bind].
    destruct (sub_ok lines (getz 0 edges k) (getz 0 edges (k + 1)) ltac:(lia) ltac:(lia)) as (v & Ev & Lv & Tv). rewrite Ev. cbn [bind].
    assert (V : Forall nul v) by (unfold sub in Ev; destruct (_ || _); [discriminate Ev|]; apply Ok_inj in Ev; subst v; now apply Forall_firstn, Forall_skipn).
    match goal with |- context [put l k ?u] => assert (U : u = f0) by (apply energy_nul; [lia|exact V]); rewrite U end. destruct (put_ok f0 l k f0 ltac:(lia)) as (l' & Ep & Ll' & Tl). exists l'. split; [exact Ep|]. split; [lia|].
    intros j Hj. rewrite Tl by lia. destruct (Z.eqb_spec j k); [reflexivity|apply Hp; lia].
  - rewrite E' in Eb. apply Ok_inj in Eb. subst b'. apply Forall_of_getz. intros j Hj. apply Hb. lia.
Qed.
Lemma window_fin c w n : legal_config c -> mdct_window c = Ok w -> fin (f32_lit (getz (0, 0) w n)).
Proof.
  intros L Ew. assert (P : forall n, 0 <= n < 2 * nf c -> fin (f32_lit (getz (0, 0) w n))) by (intros k Hk; exact (proj1 (win_ap c w L Ew k Hk))). destruct (config_geom c L) as (G1 & _).
  destruct (Z_lt_le_dec n (2 * nf c)) as [A|A]; [|unfold getz; rewrite nth_overflow by (pose proof (win_len c w L Ew) as Lw; unfold len in Lw; lia); reflexivity].
  destruct (Z_lt_le_dec n 0) as [B|B]; [|apply P; lia]. unfold getz. replace (Z.to_nat n) with (Z.to_nat 0) by lia. apply (P 0). lia.
Qed.
Lemma gain_fin lm c h : legal_config c -> nf c = 2 * h -> fin (mdct_gain (f32_ops lm) (2 * h)).
Proof. intros L Hh. destruct (config_geom c L) as (G1 & _). exact (proj1 (gain_ap lm (2 * h) ltac:(lia))). Qed.
Lemma quiet_spectrum lm c ch x nn out bands m : legal_config c -> twiddles_near lm (nf c / 2) -> ech_wf c ch -> len x = nf c -> buffers (fun v => v = 0) c ch -> Forall (fun v => v = 0) x ->
  emdct_run (f32_ops lm) c (ec_mdct ch) x (ec_out ch) (ec_bands ch) = Ok (nn, out, bands, m) -> len out = nf c /\ len bands = nb c /\ Forall nul out /\ Forall (fun v => v = f0) bands.
Proof.
  intros L Htw W Lx HB HX E1. pose proof W as [W1 W2 W3 W4 W5 W6 W7]. destruct (config_geom c L) as (G1 & G2 & G3 & G4 & G5 & G6 & G7).
  destruct (mdct_window_ok c L) as (w & Ew & _). destruct (dct_factors_ok c L) as (fl & Ef & Ch & Sm & Ne). set (h := nf c / 2) in *. assert (Hh : nf c = 2 * h) by (unfold h; Z.div_mod_to_equations; lia).
  destruct (emdct_run_spec (f32_ops lm) c (ec_mdct ch) x (ec_out ch) (ec_bands ch) h fl w L W1 Lx W6 W5 Hh Ef Ch Sm Ne Ew) as (nn' & out' & b' & e' & E' & Lo & Lb & Me & Te & Tx).
  rewrite E1 in E'. apply Ok_inj in E'. assert (Q : out' = out /\ b' = bands /\ e' = m) by (repeat split; congruence). destruct Q as (-> & -> & ->). clear E'.
  pose proof (emdct_keeps (f32_ops lm) (fun v => v = 0) c _ x _ _ nn out bands m L W1 Lx W6 W5 HB HX E1) as KT.
  assert (T0 : forall n, getz 0 (em_time m) n = 0).
  { intros n. destruct Me as [M1 _ _]. destruct (Z_lt_le_dec n (2 * nf c)) as [A|A]; [|unfold getz; apply nth_overflow; unfold len in M1; lia]. destruct (Z_lt_le_dec n 0) as [B|B]; [|apply KT; lia]. unfold getz. replace (Z.to_nat n) with (Z.to_nat 0) by lia. apply (KT 0). lia. }
  assert (WP : forall n, nul (wprod (f32_ops lm) (getz (0, 0) w) (getz 0 (em_time m)) n)).
  { intros n. unfold wprod. rewrite T0. cbn [f32_ops fmul fz flit]. apply nul_mul; [apply nul_f0|]. exact (window_fin c w n L Ew). }
  assert (MF : forall n, nul (mfold (f32_ops lm) h (getz (0, 0) w) (getz 0 (em_time m)) n)) by (intros n; unfold mfold; cbn [f32_ops fsub fneg]; destruct (n <? h); auto using nul_sub, nul_opp).
  assert (O0 : Forall nul out).
  { change (getz (fz (f32_ops lm) 0)) with (getz f0) in Tx. apply Forall_of_getz. intros k Hk. rewrite Tx by lia. cbn [f32_ops fmul]. apply nul_mul; [apply dct_nul; auto; lia|exact (gain_fin lm c h L Hh)]. }
  split; [exact Lo|]. split; [exact Lb|]. split; [exact O0|].
  clear Tx. unfold emdct_run in E1. rewrite Lx, W6, W5, !Z.eqb_refl in E1. cbn [assert bind] in E1. destruct (update_time _ _ _) as [t| |]; cbn [bind] in E1; try discriminate E1.
  destruct (apply_mdct _ _ _ _) as [[o1 s1]| |]; cbn [bind] in E1; try discriminate E1. pose proof L as (f & d & Ec). destruct (band_table_ok f d) as (edges & E4 & B). rewrite <- Ec in *. rewrite E4 in E1. cbn [bind] in E1.
  destruct (energies (f32_ops lm) edges o1 (ec_bands ch)) as [bs| |] eqn:E5; cbn [bind] in E1; try discriminate E1. destruct (near_nyquist _ _ _) as [n1| |]; cbn [bind] in E1; try discriminate E1. apply Ok_inj in E1. assert (H : o1 = out /\ bs = bands) by (split; congruence). destruct H; subst o1 bs.
  rewrite <- W5 in B. exact (energies_nul lm edges out (ec_bands ch) _ bands B ltac:(lia) ltac:(lia) O0 E5).
Qed.

(* ---- noise shaping of zero energies ---- *)
Definition quiet_arg : f32 := f32_norm 513 (-32).   (* 2^-23 + 2^-32 *)
Definition quiet_log : f32 := f32_norm (-12057148) (-19).   (* its logarithm, -22.99718... *)
(* the remaining library functions, where silence calls them: 2^-32 exact, 10^-4 and the pre-emphasis 10^x, |x| <= 4, positive, and one logarithm correctly rounded *)
Definition quiet_library (el : elibm) : Prop :=
  lm_powi el (f32_of_Z 2) (-32) = f32_norm 1 (-32) /\ (fin (lm_powi el (f32_of_Z 10) (-4)) /\ 0 < B2R (lm_powi el (f32_of_Z 10) (-4)))%R /\
  (forall x, bd 4 x -> (fin (lm_pow10 el x) /\ 0 < B2R (lm_pow10 el x))%R) /\ lm_log2 el quiet_arg = quiet_log.
Lemma zero_times (y : f32) : fin y -> (0 < B2R y)%R -> Bmult mode_NE f0 y = f0.
Proof.
  intros F P. destruct y as [s|s| |[] m e H]; try discriminate F; cbn [B2R] in P; try lra; [|reflexivity].
  exfalso. assert (Q : (F2R (Float radix2 (Z.neg m) e) < 0)%R) by (apply F2R_lt_0; reflexivity). cbn [cond_Zopp] in P. change (- Z.pos m) with (Z.neg m) in P. lra.
Qed.
Lemma fsum_zeros lm n : fsum (f32_ops lm) (repeat f0 n) = f0.
Proof. unfold fsum. cbn [f32_ops fadd fz]. induction n as [|n IH]; [reflexivity|]. exact IH. Qed.
Lemma tilt_bd k t : 0 <= k < 64 -> In t G_TILT -> bd 4 (Bmult mode_NE (f32_of_Z k) (Bdiv mode_NE (f32_of_Z t) (f32_of_Z 630))).
Proof.
  intros Hk Ht. assert (B : bd (1 / 20) (Bdiv mode_NE (f32_of_Z t) (f32_of_Z 630))).
  { assert (Q : exists m e, f32_bits (Bdiv mode_NE (f32_of_Z t) (f32_of_Z 630)) = Some (m, e) /\ (Rabs (F2R (Float radix2 m e)) <= 1 / 20)%R).
    { repeat (destruct Ht as [<-|Ht]; [eexists; eexists; split; [vm_compute; reflexivity|]; unfold F2R; cbn [Fnum Fexp]; rewrite Rabs_pos_eq; cbn; lra|]). destruct Ht. }
    destruct Q as (m & e & Q1 & Q2). destruct (Bdiv mode_NE (f32_of_Z t) (f32_of_Z 630)) as [s|s| |s m' e' H]; try discriminate Q1; cbn [f32_bits] in Q1.
    - split; [reflexivity|]. cbn [B2R]. rewrite Rabs_R0. lra.
    - split; [reflexivity|]. cbn [B2R]. assert (m = cond_Zopp s (Z.pos m') /\ e = e') as [<- <-] by (apply (f_equal (fun o => match o with Some p => p | None => (0, 0) end)) in Q1; apply pair_equal_spec in Q1; destruct Q1 as [<- <-]; destruct s; split; reflexivity). exact Q2. }
  destruct (fz_val k ltac:(lia)) as [V F]. assert (B1 : bd 63 (f32_of_Z k)) by (split; [exact F|]; rewrite V, Rabs_pos_eq by (apply IZR_le; lia); apply IZR_le; lia).
  eapply bd_mul; [exact B1|exact B|]. split; [lra|]. apply Rle_trans with (bpow radix2 60); [cbn; lra|apply bpow_le; lia].
Qed.
Definition quiet_env : f32 := Bdiv mode_NE quiet_log (f32_of_Z 2).
Lemma smooth_zeros lm : sns_smooth (f32_ops lm) (repeat f0 64) (repeat f0 64) = Ok (repeat f0 64).
Proof. vm_compute. reflexivity. Qed.
Lemma bits_eq (x y : f32) m e : f32_bits x = Some (Z.pos m, e) -> f32_bits y = Some (Z.pos m, e) -> x = y.
Proof.
  assert (V : forall z : f32, f32_bits z = Some (Z.pos m, e) -> is_finite_strict z = true /\ B2R z = F2R (Float radix2 (Z.pos m) e)).
  { intros [s|s| |[] m' e' H] E; try discriminate E. split; [reflexivity|]. cbn [f32_bits] in E. apply (f_equal (fun o => match o with Some p => p | None => (0, 0) end)) in E. apply pair_equal_spec in E. destruct E as [<- <-]. reflexivity. }
  intros Hx Hy. destruct (V x Hx) as [A1 A2]. destruct (V y Hy) as [B1 B2]. apply B2R_inj; congruence.
Qed.
Lemma floor_max lm : fmax (f32_ops lm) (f32_norm 1 (-32)) f0 = f32_norm 1 (-32) /\ fmax (f32_ops lm) f0 (f32_norm 1 (-32)) = f32_norm 1 (-32).
Proof.
  assert (A : Beqb (f32_norm 1 (-32)) (f32_norm 1 (-32)) = true) by (vm_compute; reflexivity). assert (B : Beqb f0 f0 = true) by reflexivity. assert (C : Bltb (f32_norm 1 (-32)) f0 = false) by (vm_compute; reflexivity). assert (D : Bltb f0 (f32_norm 1 (-32)) = true) by (vm_compute; reflexivity).
  unfold fmax. cbn [f32_ops feq flt]. rewrite A, B, C, D. split; reflexivity.
Qed.
Lemma quiet_factors lm el c attack : quiet_library el -> legal_config c -> nb c = 64 ->
  sns_scale_factors (f32_ops lm) (f32_eops el) c (repeat f0 64) attack = (d <- sns_group (f32_ops lm) (repeat quiet_env 64) ;; sns_attack (f32_ops lm) attack (n_ms c) (sns_mean (f32_ops lm) d) (repeat f0 16)).
Proof.
  intros (P1 & (P2 & P3) & P4 & P5) L Nb. destruct (config_geom c L) as (_ & _ & _ & _ & _ & Hf & _). unfold sns_scale_factors. rewrite (idx_get 0 G_TILT (fs_ind c)) by (change (len G_TILT) with 5; lia). cbn [bind].
  set (t := getz 0 G_TILT (fs_ind c)). assert (It : In t G_TILT) by (unfold t, getz; apply nth_In; change (length G_TILT) with 5%nat; lia). clearbody t.
  unfold sns_pad. rewrite Nb. unfold usub. change (64 <? 64) with false. cbn [bind]. change (0 <? 64 - 64) with false. cbv iota. change (fz (f32_ops lm) 0) with f0.
  change (blit (repeat f0 64) 0 (len (repeat f0 64)) (repeat f0 64)) with (Ok (repeat f0 64)). cbn [bind]. rewrite smooth_zeros. cbn [bind]. cbv zeta.
  set (s := map _ (combine _ _)). assert (Es : s = repeat f0 64).
  { unfold s. change (len (repeat f0 64)) with 64. change 64%nat with (length (SnsIndex.zrange 0 64)) at 1. assert (G : forall l, Forall (fun b => 0 <= b < 64) l -> map (fun '(b, v) => fmul (f32_ops lm) v (e_pow10 (f32_eops el) (fmul (f32_ops lm) (fz (f32_ops lm) b) (fdiv (f32_ops lm) (fz (f32_ops lm) t) (fz (f32_ops lm) 630))))) (combine l (repeat f0 (length l))) = repeat f0 (length l)).
    { intros l Hl. induction Hl as [|b l Hb Hl IH]; [reflexivity|]. cbn [length repeat combine map]. rewrite IH. f_equal. cbn [f32_ops f32_eops fmul e_pow10 fz fdiv]. destruct (P4 _ (tilt_bd b t Hb It)) as [Q1 Q2]. now apply zero_times. }
    rewrite G; [reflexivity|]. apply Forall_forall. intros b Hb. apply SnsProofs.zrange_In in Hb. lia. }
  rewrite Es. clear s Es. rewrite fsum_zeros. set (fl := fmax _ _ _). assert (Ef : fl = f32_norm 1 (-32)).
  { unfold fl. cbn [f32_ops f32_eops fmul fdiv fz e_powi]. change (Bdiv mode_NE f0 (f32_of_Z 64)) with f0. rewrite zero_times, P1 by assumption. exact (proj1 (floor_max lm)). }
  rewrite Ef. clear fl Ef. f_equal.
  assert (R : map (fun v => fdiv (f32_ops lm) (e_log2 (f32_eops el) (fadd (f32_ops lm) (flit (f32_ops lm) (11920928955078125, -23)) (fmax (f32_ops lm) v (f32_norm 1 (-32))))) (fz (f32_ops lm) 2)) (repeat f0 64) = repeat quiet_env 64).
  { set (g := fun v => _). assert (MR : forall n (y : f32), map g (repeat y n) = repeat (g y) n) by (intros n y; induction n as [|n IH]; [reflexivity|]; cbn [repeat map]; now rewrite IH). rewrite MR. f_equal. unfold g. cbn [f32_ops f32_eops fdiv e_log2 fadd flit fz]. assert (A : Bplus mode_NE (f32_lit (11920928955078125, -23)) (fmax (f32_ops lm) f0 (f32_norm 1 (-32))) = quiet_arg) by (rewrite (proj2 (floor_max lm)); apply (bits_eq _ _ 8404992 (-46)); vm_compute; reflexivity). rewrite A, P5. reflexivity. }
  rewrite R. reflexivity.
Qed.
Definition heard_b (t2 : list f32) : bool := existsb (fun n => Bltb tiny (Babs (getz f0 t2 n))) [10; 11; 12; 13; 14; 15].
Lemma quiet_checks lm el : forall attack d,
  match (g <- sns_group (f32_ops lm) (repeat quiet_env 64) ;; sns_attack (f32_ops lm) attack d (sns_mean (f32_ops lm) g) (repeat f0 16)) with
  | Ok s => match sns_stage1 (f32_ops lm) (f32_eops el) s with Ok (_, _, _, r) => heard_b (sns_rotate (f32_ops lm) r) | _ => false end
  | _ => false end = true.
Proof. assert (A : forall d, d = TenMs \/ d = SevenPointFiveMs) by (intros []; auto). intros [] d; [destruct (A d) as [-> | ->]; vm_compute; reflexivity|]. change (sns_attack (f32_ops lm) false d) with (sns_attack (f32_ops lm) false TenMs). vm_compute. reflexivity. Qed.
Lemma quiet_heard lm el c attack scf lf hf st1 r1 : quiet_library el -> legal_config c -> nb c = 64 -> sns_scale_factors (f32_ops lm) (f32_eops el) c (repeat f0 64) attack = Ok scf -> sns_stage1 (f32_ops lm) (f32_eops el) scf = Ok (lf, hf, st1, r1) -> heard (sns_rotate (f32_ops lm) r1).
Proof.
  intros Q L Nb E1 E2. rewrite (quiet_factors lm el c attack Q L Nb) in E1. pose proof (quiet_checks lm el attack (n_ms c)) as K. rewrite E1, E2 in K.
  unfold heard_b in K. apply existsb_exists in K. destruct K as (n & I & B). exists n. split; [|exact B]. cbn [In] in I. lia.
Qed.

(* ---- gains and linear prediction ---- *)
Lemma apply_nul lm edges gains lines out : Forall fin gains -> Forall nul lines -> sns_apply (f32_ops lm) edges gains lines = Ok out -> Forall nul out.
Proof.
  intros HG HL E. unfold sns_apply in E. eapply (for_keep (Forall nul)); [exact E|exact HL|]. intros b l l' _ Eb Hl.
  apply bind_Ok in Eb. destruct Eb as (g & Eg & Eb). apply bind_Ok in Eb. destruct Eb as (lo & _ & Eb). apply bind_Ok in Eb. destruct Eb as (hi & _ & Eb). apply bind_Ok in Eb. destruct Eb as (u & _ & Eb).
  pose proof (Forall_idx _ _ _ _ Eg HG) as Fg. eapply (for_keep (Forall nul)); [exact Eb|exact Hl|]. intros n k k' _ En Hk. apply bind_Ok in En. destruct En as (v & Ev & En). apply (Forall_put _ _ _ _ _ En Hk). cbn [f32_ops fmul]. apply nul_mul; [exact (Forall_idx _ _ _ _ Ev Hk)|exact Fg].
Qed.
Lemma power_nul lm l : Forall nul l -> fsum (f32_ops lm) (map (fun v => fmul (f32_ops lm) v v) l) = f0.
Proof. intros H. unfold fsum. cbn [f32_ops fadd fmul fz]. induction H as [|x l Hx H IH]; [reflexivity|]. cbn [map fold_left]. rewrite (sq_nul x Hx). exact IH. Qed.
Lemma subs_nul lm x k : Forall nul x -> forall bs s s', autocorr_subs (f32_ops lm) x k s bs = Ok s' -> snd s = f0 -> snd s' = f0.
Proof.
  intros H. induction bs as [|[a b] bs IH]; intros s s' E Hs; cbn [autocorr_subs] in E; [apply Ok_inj in E; now subst s'|]. apply bind_Ok in E. destruct E as (s1 & E1 & E). apply (IH _ _ E). unfold autocorr_sub in E1. apply bind_Ok in E1. destruct E1 as (w & Ew & E1). cbv zeta in E1. apply bind_Ok in E1. destruct E1 as (ac & _ & E1). apply Ok_inj in E1. rewrite <- E1. cbn [snd].
  rewrite (power_nul lm w) by (exact (Forall_sub _ _ _ _ _ Ew H)). rewrite Hs. reflexivity.
Qed.
Lemma first_nul lm x k a b bs s' : Forall nul x -> autocorr_subs (f32_ops lm) x k (f0, f32_of_Z 1) ((a, b) :: bs) = Ok s' -> snd s' = f0.
Proof.
  intros H E. cbn [autocorr_subs] in E. apply bind_Ok in E. destruct E as (s1 & E1 & E). apply (subs_nul lm x k H _ _ _ E). unfold autocorr_sub in E1. apply bind_Ok in E1. destruct E1 as (w & Ew & E1). cbv zeta in E1. apply bind_Ok in E1. destruct E1 as (ac & _ & E1). apply Ok_inj in E1. rewrite <- E1. cbn [snd].
  rewrite (power_nul lm w) by (exact (Forall_sub _ _ _ _ _ Ew H)). reflexivity.
Qed.
(* the correlation of nothing: 3 at lag 0 *)
Definition flat : list f32 := Bmult mode_NE (f32_of_Z 3) (f32_lit (10, -1)) :: repeat f0 8.
Lemma autocorr_nul lm x a b bs r : Forall nul x -> autocorr (f32_ops lm) x ((a, b) :: bs) = Ok r -> r = flat.
Proof.
  intros H E. unfold autocorr in E.
  assert (K : len r = 9 /\ forall j, 0 <= j < 9 -> getz f0 r j = if (j =? 0) && (0 <? 9) then getz f0 flat 0 else f0).
  { eapply (for_keep_i (fun n r => len r = 9 /\ forall j, 0 <= j < 9 -> getz f0 r j = if (j =? 0) && (0 <? n) then getz f0 flat 0 else f0)); [|exact E| |].
    - lia.
    - split; [reflexivity|]. intros j Hj. rewrite andb_false_r. unfold getz. apply (nth_repeat f0 9).
    - intros k l l' Hk Ek [Ll Hl]. apply bind_Ok in Ek. destruct Ek as (lw & El & Ek). apply bind_Ok in Ek. destruct Ek as ([rk pr] & Er & Ek). apply (first_nul lm x k a b bs _ H) in Er. cbn [snd] in Er. subst pr.
      change (feq (f32_ops lm) f0 (fz (f32_ops lm) 0)) with true in Ek. cbv iota in Ek. destruct (put_ok f0 l k (fmul (f32_ops lm) (if k =? 0 then fz (f32_ops lm) 3 else fz (f32_ops lm) 0) (flit (f32_ops lm) lw)) ltac:(lia)) as (l2 & E2 & L2 & T2). rewrite E2 in Ek. apply Ok_inj in Ek. subst l2. split; [lia|].
      intros j Hj. rewrite T2 by lia. destruct (Z.ltb_spec 0 (k + 1)); [|lia]. rewrite andb_true_r. destruct (Z.eqb_spec j k) as [->|N].
      + destruct (Z.eqb_spec k 0) as [->|N0]; [apply Ok_inj in El; subst lw; reflexivity|]. assert (FL : fin (f32_lit lw) /\ Bsign (f32_lit lw) = false).
        { unfold idx in El. destruct (Z.ltb_spec k 0); [lia|]. destruct (nth_error LAG_WINDOW (Z.to_nat k)) as [v|] eqn:Ev; [|discriminate El]. apply Ok_inj in El. subst v. apply nth_error_In in Ev. unfold LAG_WINDOW in Ev. repeat (destruct Ev as [<-|Ev]; [split; vm_compute; reflexivity|]). destruct Ev. }
        cbn [f32_ops fmul fz flit]. destruct FL as [F1 F2]. destruct (f32_lit lw) as [s|s| |s m e He]; try discriminate F1; cbn [Bsign] in F2; subst s; reflexivity.
      + rewrite Hl by lia. destruct (Z.eqb_spec j 0) as [->|N0]; [|reflexivity]. destruct (Z.ltb_spec 0 k); [reflexivity|lia]. }
  destruct K as [L9 K]. apply (nth_ext _ _ f0 f0); [unfold len in L9; cbn; lia|]. intros n Hn. unfold len in L9. specialize (K (Z.of_nat n) ltac:(lia)). unfold getz in K at 1. rewrite Nat2Z.id in K. rewrite K.
  destruct n as [|n]; [reflexivity|]. destruct (Z.eqb_spec (Z.of_nat (S n)) 0); [lia|]. cbn [andb flat nth]. symmetry. apply nth_repeat.
Qed.
Lemma flat_gain lm : match (a <- put (repeat f0 9) 0 (f32_of_Z 1) ;; for_range 1 9 (levinson_step (f32_ops lm) flat) (a, repeat f0 9, getz f0 flat 0)) with
  | Ok (_, _, er) => Bltb (f32_lit (15, -1)) (if Beqb er f0 then getz f0 flat 0 else Bdiv mode_NE (getz f0 flat 0) er) | _ => true end = false.
Proof. vm_compute. reflexivity. Qed.
Lemma flat_analysis lm el f nn w rc rc' : Forall (fun v => v = f0) rc -> tns_analysis (f32_ops lm) (f32_eops el) flat f nn w rc = Ok rc' -> Forall (fun v => v = f0) rc'.
Proof.
  intros H E. unfold tns_analysis in E. rewrite (idx_get f0 flat 0) in E by (change (len flat) with 9; lia). cbn [bind] in E. pose proof (flat_gain lm) as G. change (fz (f32_ops lm) 0) with f0 in E. change (fz (f32_ops lm) 1) with (f32_of_Z 1) in E.
  destruct (put (repeat f0 9) 0 (f32_of_Z 1)) as [a0| |]; cbn [bind] in E, G; try discriminate E. destruct (for_range 1 9 (levinson_step (f32_ops lm) flat) _) as [[[a1 al] er]| |]; cbn [bind] in E; try discriminate E. cbv zeta in E.
  match type of E with (if ?b && _ then _ else _) = _ => assert (B : b = false) by exact G; rewrite B in E end. cbn [andb] in E.
  apply bind_Ok in E. destruct E as (u & _ & E). eapply (for_keep (Forall (fun v => v = f0))); [exact E|exact H|]. intros k l l' _ Ek Hl. now apply (Forall_put _ _ _ _ _ Ek Hl).
Qed.
Lemma quiet_coefs lm el c x bw nbits nn rc : legal_config c -> 0 <= bw <= fs_ind c -> Forall nul x -> tns_coefs (f32_ops lm) (f32_eops el) c x bw nbits nn = Ok rc -> Forall (fun v => v = f0) rc.
Proof.
  intros L Hb H E. destruct (coded_ne c bw L Hb) as [Hb4 _]. unfold tns_coefs in E. apply bind_Ok in E. destruct E as (params & EP & E).
  eapply (for_keep (Forall (fun v => v = f0))); [exact E| |].
  - apply Forall_forall. intros v Hv. apply repeat_spec in Hv. exact Hv.
  - intros f l l' _ Ef Hl. apply bind_Ok in Ef. destruct Ef as (p & Ep & Ef). apply bind_Ok in Ef. destruct Ef as (r & Er & Ef).
    assert (NE : exists ab bs, snd p = ab :: bs).
    { assert (Ip : In p params) by (unfold idx in Ep; destruct (f <? 0); [discriminate Ep|]; destruct (nth_error params (Z.to_nat f)) eqn:En; [|discriminate Ep]; apply nth_error_In in En; apply Ok_inj in Ep; now subst).
      unfold tns_enc_params in EP. destruct (n_ms c), (bw_cases bw Hb4) as [->|[->|[->|[->| ->]]]]; cbn in EP; apply Ok_inj in EP; subst params; repeat (destruct Ip as [<-|Ip]; [eexists; eexists; reflexivity|]); contradiction. }
    destruct NE as ([a b] & bs & NE). rewrite NE in Er. apply (autocorr_nul lm x a b bs r H) in Er. subst r. exact (flat_analysis lm el f nn _ l l' Hl Ef).
Qed.

(* ---- a silent frame is live ---- *)
Theorem quiet_live lm el c ch x N : encoder_library lm el -> quiet_library el -> legal_config c -> twiddles_near lm (nf c / 2) -> nb c = 64 -> ech_wf c ch -> len x = nf c -> buffers (fun v => v = 0) c ch -> Forall (fun v => v = 0) x -> frame_live lm el c ch x N.
Proof.
  intros (_ & EN & _ & _) QL L Htw Nb W Lx HB HX nn out bands m bw nbw a at' E1 E2 E3. pose proof W as [W1 W2 W3 W4 W5 W6 W7]. destruct (config_geom c L) as (G1 & G2 & G3 & G4 & G5 & G6 & G7).
  destruct (quiet_spectrum lm c ch x nn out bands m L Htw W Lx HB HX E1) as (Lo & Lb & O0 & B0).
  assert (Eb : bands = repeat f0 64).
  { apply (nth_ext _ _ f0 f0); [rewrite repeat_length; unfold len in Lb; lia|]. intros n Hn. rewrite nth_repeat. rewrite Forall_forall in B0. apply B0. now apply nth_In. }
  pose proof (bw_in_range (f32_ops lm) (ec_bw ch) bands bw nbw c Lb W3 W2 G6 E2) as Hb. subst bands.
  assert (HR : forall scf lf hf st1 r1, sns_scale_factors (f32_ops lm) (f32_eops el) c (repeat f0 64) a = Ok scf -> sns_stage1 (f32_ops lm) (f32_eops el) scf = Ok (lf, hf, st1, r1) -> heard (sns_rotate (f32_ops lm) r1)) by (intros scf lf hf st1 r1; exact (quiet_heard lm el c a scf lf hf st1 r1 QL L Nb)).
  split; [intros scf lf hf st1 r1 Es Er; exact (rg_b _ _ _ (heard_regular lm el _ (rotate_len _ _) (HR scf lf hf st1 r1 Es Er)))|]. intros s l1 rc E4 E5.
  assert (SR : sns_regular (f32_ops lm) (f32_eops el) c (repeat f0 64) a) by (intros scf lf hf st1 r1 Es Er; apply heard_regular; [apply rotate_len|exact (HR scf lf hf st1 r1 Es Er)]).
  assert (Ll : len (firstn (Z.to_nat (ne c)) out) = ne c) by (unfold len in *; rewrite firstn_length; lia).
  destruct (shaped_gains lm el c _ (repeat f0 64) a s l1 EN L Nb Ll ltac:(reflexivity) SR E4) as (edges & gains & _ & Bg & Ea).
  assert (N1 : Forall nul l1) by (apply (apply_nul lm edges gains (firstn (Z.to_nat (ne c)) out) l1); [eapply Forall_impl; [|exact Bg]; intros v [Fv _]; exact Fv|now apply Forall_firstn|exact Ea]).
  eapply Forall_impl; [|exact (quiet_coefs lm el c l1 bw (N * 8) nn rc L Hb N1 E5)]. cbv beta. intros v ->. change (B2R f0) with 0%R. split; lra.
Qed.
