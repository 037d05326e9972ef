(* Sizes in the encoder's noise shaping in binary32: the quantised scale factors are at most 11 whatever the band energies are, so the shaping changes a line by a factor of at most 1.06e6. *)
From Coq Require Import ZArith List Bool Lia Reals Lra.
From Coquelicot Require Import Complex.
From Flocq Require Import Core BinarySingleNaN Relative.
From Verif Require Import Base Config FrameSpec SideInfo Mpvq MpvqProofs Buffers Loops ParseBase Scalar EncScalar DecSignal DecTotal DecState TablesSnsF SnsProofs SnsIndex F32 F32Round F32Lines EncF32 RealOps F32Err F32Size SnsSize EncSns EncSnsOk ProjF32.
From Coq Require Import List.
Import ListNotations.
Local Open Scope R_scope.
Local Notation f0 := (f32_of_Z 0).
Local Notation pulses := MpvqProofs.pulses.

(* the library the encoder calls, as far as sizes go: exp2 *)
Definition eexp2_near (el : elibm) : Prop := forall x, is_finite x = true -> Rabs (B2R x) <= 20 -> is_finite (lm_eexp2 el x) = true /\ Rabs (B2R (lm_eexp2 el x) - Rpower 2 (B2R x)) <= Rpower 2 (B2R x) / 100.
Lemma eexp2_bd el x : eexp2_near el -> bd 20 x -> bd 1060000 (lm_eexp2 el x).
Proof. intros N. apply (exp2_bd (mkLibm (fun _ => x) (lm_eexp2 el) (fun _ => x) (fun _ _ => (x, x)) (fun _ _ => (x, x)))). exact N. Qed.

(* ---- normalised vectors ---- *)
Definition asum (l : list f32) : R := fold_right (fun x a => Rabs (B2R x) + a) 0 l.
Lemma asum_pos l : 0 <= asum l.
Proof. induction l as [|x l IH]; cbn [asum fold_right]; [lra|]. fold (asum l). pose proof (Rabs_pos (B2R x)). lra. Qed.
Lemma asum_app a b : asum (a ++ b) = asum a + asum b.
Proof. induction a as [|x a IH]; [change (asum b = 0 + asum b); ring|]. change (Rabs (B2R x) + asum (a ++ b) = Rabs (B2R x) + asum a + asum b). rewrite IH. ring. Qed.
Lemma asum_zeros n : asum (repeat f0 n) = 0.
Proof. induction n as [|n IH]; cbn [repeat asum fold_right]; [reflexivity|]. fold (asum (repeat f0 n)). rewrite IH. change (B2R f0) with 0. rewrite Rabs_R0. ring. Qed.
Lemma skip_zeros lm : forall y acc a, is_int acc a -> (0 <= a)%Z -> (a + squares y < 2 ^ 20)%Z ->
  is_int (fold_left (fun acc v => if (v =? 0)%Z then acc else fadd (f32_ops lm) acc (fmul (f32_ops lm) (fz (f32_ops lm) v) (fz (f32_ops lm) v))) y acc) (a + squares y).
Proof.
  induction y as [|v y IH]; intros acc a I A H; cbn [fold_left squares fold_right]; [now rewrite Z.add_0_r|]. cbn [squares fold_right] in H. fold (squares y) in *. pose proof (squares_pulses y) as (S0 & S1 & _).
  destruct (Z.eqb_spec v 0) as [->|NZ]; [apply (IH acc a I A); lia|]. assert (V : (0 <= v * v)%Z) by nia. assert (V2 : (Z.abs v < 2 ^ 10)%Z) by (apply Z.square_lt_simpl_nonneg; nia).
  rewrite Z.add_assoc. apply IH; [|lia|lia]. cbn [f32_ops fadd fmul fz]. assert (IV : is_int (f32_of_Z v) v) by (apply fz_val; lia). apply int_add; [exact I| |lia]. apply int_mul; [exact IV|exact IV|lia].
Qed.
Lemma normalised_sum lm y : (1 <= pulses y <= 11)%Z -> (length y <= 16)%nat -> Forall (fun x : f32 => is_finite x = true) (normalise (f32_ops lm) y) /\ asum (normalise (f32_ops lm) y) <= 333 / 100.
Proof.
  intros P LY. destruct (squares_pulses y) as (P0 & P1 & P2). pose proof big_big as BB. unfold normalise.
  assert (I0 : is_int f0 0) by (split; reflexivity). pose proof (skip_zeros lm y f0 0 I0 ltac:(lia) ltac:(nia)) as SQ. rewrite Z.add_0_l in SQ. change (fz (f32_ops lm) 0) with f0. set (sum := fold_left _ y f0) in *.
  destruct (sqrt_f32 _ _ SQ ltac:(lia)) as [VN FN]. change (fsqrt (f32_ops lm) sum) with (Bsqrt mode_NE sum). set (norm := Bsqrt mode_NE sum) in *. set (r := sqrt (IZR (squares y))) in *.
  assert (r1 : 1 <= r) by (unfold r; rewrite <- sqrt_1; apply sqrt_le_1_alt, IZR_le; lia). assert (rr : r * r = IZR (squares y)) by (unfold r; apply sqrt_def, IZR_le; lia).
  assert (r11 : r <= 11) by (apply Rsqr_incr_0_var; [|lra]; unfold Rsqr; rewrite rr, <- mult_IZR; apply IZR_le; nia). assert (PR : IZR (pulses y) <= 11) by (apply IZR_le; lia).
  assert (AR : IZR (pulses y) <= r * r) by (rewrite rr; apply IZR_le; lia). assert (A332 : IZR (pulses y) <= 332 / 100 * r). { destruct (Rle_dec (332 / 100) r) as [R1|R1]; [lra|]. apply Rle_trans with (1 := AR). apply Rmult_le_compat_r; lra. }
  assert (NL : 99999 / 100000 * r <= Rabs (B2R norm)). { rewrite VN. pose proof (rnd_err r) as RE. pose proof tiny150. rewrite (Rabs_pos_eq r) in RE by lra. apply Rabs_le_inv in RE. unfold uu in RE. apply Rle_trans with (rnd32 r); [lra|apply Rle_abs]. }
  assert (q1 : 0 < / r <= 1) by (split; [apply Rinv_0_lt_compat; lra|rewrite <- Rinv_1; apply Rinv_le; lra]). assert (qr : / r * r = 1) by (apply Rinv_l; lra).
  assert (G : forall l, (pulses l <= 11)%Z -> Forall (fun x : f32 => is_finite x = true) (map (fun v => if (v =? 0)%Z then fz (f32_ops lm) v else fdiv (f32_ops lm) (fz (f32_ops lm) v) norm) l) /\
    asum (map (fun v => if (v =? 0)%Z then fz (f32_ops lm) v else fdiv (f32_ops lm) (fz (f32_ops lm) v) norm) l) <= 10001 / 10000 * / r * IZR (pulses l) + INR (length l) * / 1000000).
  { induction l as [|v l IH]; intros Pl; cbn [map asum fold_right]; [split; [constructor|cbn; lra]|]. change (pulses (v :: l)) with (Z.abs v + pulses l)%Z in *. pose proof (proj1 (squares_pulses l)) as Pl0. destruct (IH ltac:(lia)) as [I1 I2]. fold (asum (map (fun v => if (v =? 0)%Z then fz (f32_ops lm) v else fdiv (f32_ops lm) (fz (f32_ops lm) v) norm) l)).
    change (length (v :: l)) with (S (length l)). rewrite S_INR, plus_IZR. cbn [f32_ops fz fdiv] in *. destruct (Z.eqb_spec v 0) as [->|NZ].
    - split; [constructor; [reflexivity|exact I1]|]. change (B2R f0) with 0. rewrite Rabs_R0. change (IZR (Z.abs 0)) with 0. lra.
    - assert (Av : 0 <= IZR (Z.abs v) <= 11) by (split; apply IZR_le; lia). assert (Qv : 0 <= / r * IZR (Z.abs v) <= 11) by (split; [apply Rmult_le_pos; lra|apply Rle_trans with (1 * IZR (Z.abs v)); [apply Rmult_le_compat_r; lra|lra]]).
      assert (B : bd (10001 / 10000 * (/ r * IZR (Z.abs v)) + / 1000000) (Bdiv mode_NE (f32_of_Z v) norm)).
      { eapply (bd_div (IZR (Z.abs v)) (99999 / 100000 * r)); [apply bd_fz; [lia|lra]|exact FN|lra|exact NL|]. replace (IZR (Z.abs v) / (99999 / 100000 * r)) with (100000 / 99999 * (/ r * IZR (Z.abs v))) by (field; lra). split; lra. }
      destruct B as [B1 B2]. split; [constructor; [exact B1|exact I1]|]. lra. }
  destruct (G y ltac:(lia)) as [G1 G2]. split.
  - apply Forall_app. split; [exact G1|]. apply Forall_forall. intros x Hx. apply repeat_spec in Hx. now subst x.
  - rewrite asum_app, asum_zeros. assert (INR (length y) <= 16) by (rewrite INR_IZR_INZ; apply IZR_le; lia). assert (/ r * IZR (pulses y) <= 332 / 100) by (apply Rle_trans with (/ r * (332 / 100 * r)); [apply Rmult_le_compat_l; lra|right; rewrite <- Rmult_assoc, (Rmult_comm (/ r)), Rmult_assoc, qr; ring]). lra.
Qed.
(* one entry of the inverse transform *)
Lemma mix_row_bd lm (xq : list f32) : forall row acc a, bd a acc -> Forall (fun x : f32 => is_finite x = true) xq -> Forall (fun d => lit_small 3519 d = true) row -> a + 3521 / 10000 * asum xq + 3 / 1000000 * INR (length xq) <= 5 ->
  bd (a + 3521 / 10000 * asum xq + 3 / 1000000 * INR (length xq)) (fold_left (fun acc '(x, d) => fadd (f32_ops lm) acc (fmul (f32_ops lm) x (flit (f32_ops lm) d))) (combine xq row) acc).
Proof.
  induction xq as [|v y IH]; intros row acc a Ha HF HR HB.
  - cbn [combine fold_left asum fold_right length INR]. eapply bd_weaken; [exact Ha|]. lra.
  - destruct row as [|d row]; cbn [combine fold_left].
    + eapply bd_weaken; [exact Ha|]. pose proof (asum_pos (v :: y)). pose proof (pos_INR (length (v :: y))). lra.
    + change (asum (v :: y)) with (Rabs (B2R v) + asum y) in *. change (length (v :: y)) with (S (length y)) in *. rewrite S_INR in *. pose proof (asum_pos y) as P. pose proof (pos_INR (length y)) as L0. pose proof (bd_nonneg _ _ Ha) as A0. pose proof big_big as BB.
      inversion_clear HR as [|x1 x2 Hd HR']. inversion_clear HF as [|x1 x2 Fv HF']. pose proof (Rabs_pos (B2R v)) as V0.
      assert (T : bd (3521 / 10000 * Rabs (B2R v) + / 1000000) (Bmult mode_NE v (f32_lit d))).
      { eapply bd_mul; [split; [exact Fv|apply Rle_refl]|exact (lit_small_bd 3519 d Hd ltac:(lia))|]. split; lra. }
      assert (N : bd (a + 3521 / 10000 * Rabs (B2R v) + 3 / 1000000) (Bplus mode_NE acc (Bmult mode_NE v (f32_lit d)))) by (eapply bd_add; [exact Ha|exact T|]; split; lra).
      cbn [f32_ops fadd fmul flit]. eapply bd_weaken; [apply (IH row _ (a + 3521 / 10000 * Rabs (B2R v) + 3 / 1000000) N HF' HR'); lra|lra].
Qed.

Lemma unit_row_bd lm (xq : list f32) row : Forall (fun x : f32 => is_finite x = true) xq -> asum xq <= 333 / 100 -> length xq = 16%nat -> Forall (fun d => lit_small 3519 d = true) row ->
  bd (118 / 100) (fold_left (fun acc '(x, d) => fadd (f32_ops lm) acc (fmul (f32_ops lm) x (flit (f32_ops lm) d))) (combine xq row) f0).
Proof.
  intros NF NS NL S2. assert (Z0 : bd 0 f0) by (split; [reflexivity|]; change (B2R f0) with 0; rewrite Rabs_R0; lra). pose proof (mix_row_bd lm xq row f0 0 Z0 NF S2) as RB. rewrite NL in RB. replace (INR 16) with 16 in RB by (cbn; lra). eapply bd_weaken; [apply RB; lra|lra].
Qed.

(* ---- the choice ---- *)
Definition picked (xs : list (list f32)) (s : choice (F := f32)) : Prop := let '(_, _, _, g, xq) := s in bd (51305 / 10000) g /\ In xq xs.
Lemma choose_gain_picked lm xs t2 xq j : In xq xs -> forall gains i s, Forall (fun g => lit_small 51304 g = true) gains -> picked xs s -> picked xs (choose_gain (f32_ops lm) t2 xq j i gains s).
Proof.
  intros Hx. induction gains as [|g gains IH]; intros i s Hg Hs; cbn [choose_gain]; [exact Hs|]. destruct s as [[[[a b] mn] g0] v]. inversion_clear Hg as [|? ? G1 G2]. apply IH; [exact G2|]. destruct (flt _ _ mn); [|exact Hs].
  split; [|exact Hx]. eapply bd_weaken; [exact (lit_small_bd 51304 g G1 ltac:(lia))|lra].
Qed.
Lemma choose_picked lm el t2 x0 x1 x2 x3 s : choose (f32_ops lm) (f32_eops el) t2 x0 x1 x2 x3 = Ok s -> picked [x0; x1; x2; x3] s.
Proof.
  pose proof codebooks_small as CB. apply andb_true_iff in CB. destruct CB as [_ CG]. rewrite forallb_forall in CG.
  assert (GS : forall t gs a b, In t [SNS_VQ_REG_ADJ_GAINS; SNS_VQ_REG_LF_ADJ_GAINS; SNS_VQ_NEAR_ADJ_GAINS; SNS_VQ_FAR_ADJ_GAINS] -> sub t a b = Ok gs -> Forall (fun g => lit_small 51304 g = true) gs).
  { intros t gs a b Ht Es. apply (Forall_sub _ _ _ _ _ Es). specialize (CG t Ht). rewrite forallb_forall in CG. apply Forall_forall. exact CG. }
  intros E. unfold choose in E. apply bind_Ok in E. destruct E as (g0 & E0 & E). apply bind_Ok in E. destruct E as (g1 & E1 & E). apply bind_Ok in E. destruct E as (g2 & E2 & E). apply bind_Ok in E. destruct E as (g3 & E3 & E). cbv zeta in E. apply Ok_inj in E. subst s.
  apply choose_gain_picked; [cbn; auto|eapply GS; [|exact E3]; cbn; auto|]. apply choose_gain_picked; [cbn; auto|eapply GS; [|exact E2]; cbn; auto|]. apply choose_gain_picked; [cbn; auto|eapply GS; [|exact E1]; cbn; auto|]. apply choose_gain_picked; [cbn; auto|eapply GS; [|exact E0]; cbn; auto|].
  split; [|cbn; auto]. split; [reflexivity|]. change (B2R (fz (f32_ops lm) 0)) with 0. rewrite Rabs_R0. lra.
Qed.

Lemma pulses_app a b : pulses (a ++ b) = (pulses a + pulses b)%Z.
Proof. induction a as [|x a IH]; [reflexivity|]. change (pulses ((x :: a) ++ b)) with (Z.abs x + pulses (a ++ b))%Z. change (pulses (x :: a)) with (Z.abs x + pulses a)%Z. lia. Qed.
Theorem quant_size lm el scf r s : len scf = 16%Z -> (forall lf hf st1 r1, sns_stage1 (f32_ops lm) (f32_eops el) scf = Ok (lf, hf, st1, r1) -> regular (f32_ops lm) (f32_eops el) (sns_rotate (f32_ops lm) r1)) ->
  sns_quant (f32_ops lm) (f32_eops el) scf = Ok (r, s) -> Forall (bd 11) s.
Proof.
  intros L R E. unfold sns_quant in E. pose proof codebooks_small as CB. apply andb_true_iff in CB. destruct CB as [CB _]. apply andb_true_iff in CB. destruct CB as [CB CD]. apply andb_true_iff in CB. destruct CB as [CL CH]. pose proof big_big as BB.
  apply bind_Ok in E. destruct E as ([[[lf hf] st1] r1] & E1 & E). specialize (R _ _ _ _ E1). cbv zeta in E. set (t2 := sns_rotate (f32_ops lm) r1) in *.
  destruct R as [R1 R2 _]. destruct (candidates_any (f32_ops lm) (f32_eops el) t2 (rotate_len _ r1) R1 R2) as ([[[y0 y1] y2] y3] & E2 & PY & L1 & P1 & L2 & P2 & L3 & P3). rewrite E2 in E. cbn [bind] in E.
  apply bind_Ok in E. destruct E as ([[[[j i] mn] g] xq] & E3 & E). destruct (choose_picked _ _ _ _ _ _ _ _ E3) as [BG IX]. apply bind_Ok in E. destruct E as ([[jt la] lb] & _ & E). apply Ok_inj in E. apply pair_equal_spec in E. destruct E as [_ <-].
  assert (P0 : (1 <= pulses y0 <= 11)%Z /\ len y0 = 16%Z) by (destruct PY as [(_ & L0 & PA & PB)|(_ & _ & L0 & P0)]; [split; [rewrite <- (firstn_skipn 10 y0), pulses_app; lia|exact L0]|auto]). destruct P0 as [P0 L0]. unfold len in L0, L1, L2, L3.
  assert (NX : Forall (fun x : f32 => is_finite x = true) xq /\ asum xq <= 333 / 100 /\ length xq = 16%nat).
  { assert (Q : forall y, (1 <= pulses y <= 11)%Z -> (length y <= 16)%nat -> xq = normalise (f32_ops lm) y -> Forall (fun x : f32 => is_finite x = true) xq /\ asum xq <= 333 / 100 /\ length xq = 16%nat).
    { intros y Hp Hl ->. destruct (normalised_sum lm y Hp Hl) as [A B]. split; [exact A|]. split; [exact B|]. unfold normalise. rewrite app_length, map_length, repeat_length. lia. }
    destruct IX as [IX|[IX|[IX|[IX|[]]]]]; symmetry in IX; revert IX; apply Q; lia. }
  destruct NX as (NF & NS & NL).
  unfold sns_stage1 in E1. apply bind_Ok in E1. destruct E1 as (lo & _ & E1). apply bind_Ok in E1. destruct E1 as (hi & _ & E1). cbv zeta in E1. apply bind_Ok in E1. destruct E1 as (l & El & E1). apply bind_Ok in E1. destruct E1 as (h & Eh & E1). apply Ok_inj in E1.
  assert (S1 : st1 = map (flit (f32_ops lm)) (l ++ h)) by congruence. pose proof (row_small _ _ _ _ CL El) as RL. pose proof (row_small _ _ _ _ CH Eh) as RH.
  apply Forall_forall. intros x Hx. apply in_map_iff in Hx. destruct Hx as ((st, row) & <- & Hin). pose proof (in_combine_l _ _ _ _ Hin) as I1. pose proof (in_combine_r _ _ _ _ Hin) as I2.
  assert (B1 : bd (48271 / 10000) st). { rewrite S1 in I1. apply in_map_iff in I1. destruct I1 as (d & <- & Id). assert (Sd : lit_small 48270 d = true) by (apply in_app_or in Id; rewrite Forall_forall in RL, RH; destruct Id as [Id|Id]; [now apply RL|now apply RH]). eapply bd_weaken; [exact (lit_small_bd 48270 d Sd ltac:(lia))|lra]. }
  assert (S2 : Forall (fun d => lit_small 3519 d = true) row) by (rewrite forallb_forall in CD; specialize (CD _ I2); rewrite forallb_forall in CD; apply Forall_forall; exact CD).
  pose proof (unit_row_bd lm xq row NF NS NL S2) as RB2. cbn [f32_ops fz] in *. set (rw := fold_left _ (combine xq row) f0) in *.
  cbn [fadd fmul]. eapply bd_add; [exact B1|eapply (bd_mul _ _ 6.1); [exact BG|exact RB2|split; lra]|split; lra].
Qed.

(* ---- interpolation and gains ---- *)
Lemma weights_val : (B2R (f32_lit (125, -3)%Z) = / 8 /\ is_finite (f32_lit (125, -3)%Z) = true) /\ (B2R (f32_lit (375, -3)%Z) = 3 / 8 /\ is_finite (f32_lit (375, -3)%Z) = true) /\ (B2R (f32_lit (625, -3)%Z) = 5 / 8 /\ is_finite (f32_lit (625, -3)%Z) = true) /\ (B2R (f32_lit (875, -3)%Z) = 7 / 8 /\ is_finite (f32_lit (875, -3)%Z) = true).
Proof.
  split; [|split; [|split]].
  - destruct (lit_val (f32_lit (125, -3)%Z) 8388608 (-26)) as [A B]; [vm_compute; reflexivity|]. split; [|exact B]. rewrite A. unfold F2R. cbn. lra.
  - destruct (lit_val (f32_lit (375, -3)%Z) 12582912 (-25)) as [A B]; [vm_compute; reflexivity|]. split; [|exact B]. rewrite A. unfold F2R. cbn. lra.
  - destruct (lit_val (f32_lit (625, -3)%Z) 10485760 (-24)) as [A B]; [vm_compute; reflexivity|]. split; [|exact B]. rewrite A. unfold F2R. cbn. lra.
  - destruct (lit_val (f32_lit (875, -3)%Z) 14680064 (-24)) as [A B]; [vm_compute; reflexivity|]. split; [|exact B]. rewrite A. unfold F2R. cbn. lra.
Qed.
Lemma interpolate_size lm scf s : Forall (bd 11) scf -> sns_interpolate (f32_ops lm) scf = Ok s -> Forall (bd (193 / 10)) s.
Proof.
  intros H E. unfold sns_interpolate in E. apply bind_Ok in E. destruct E as (u & _ & E). cbv zeta in E. cbn [f32_ops fadd fmul fsub fz flit] in E. destruct weights_val as ((V1 & F1) & (V3 & F3) & (V5 & F5) & (V7 & F7)).
  assert (W11 : forall x, bd 11 x -> bd (193 / 10) x) by (intros x Hx; eapply bd_weaken; [exact Hx|lra]).
  assert (IN : forall w wr a b, B2R w = wr -> is_finite w = true -> 0 < wr < 1 -> bd 11 a -> bd 11 b -> bd (193 / 10) (Bplus mode_NE a (Bmult mode_NE w (Bminus mode_NE b a)))).
  { intros w wr a b V F K Ha Hb. eapply bd_weaken; [eapply (mix_bd _ a a b _ 11); [exact Ha|exact Ha|exact Hb|exact F|exact V|lra|]|lra].
    destruct Ha as [_ Ha], Hb as [_ Hb]. apply Rabs_le_inv in Ha, Hb. replace (B2R a + wr * (B2R b - B2R a)) with ((1 - wr) * B2R a + wr * B2R b) by ring. apply Rabs_le. split; nra. }
  assert (EX : forall w wr a b, B2R w = wr -> is_finite w = true -> 0 < wr <= 3 / 8 -> bd 11 a -> bd 11 b -> bd (193 / 10) (Bplus mode_NE b (Bmult mode_NE w (Bminus mode_NE b a)))).
  { intros w wr a b V F K Ha Hb. eapply bd_weaken; [eapply (mix_bd _ b a b _ (77 / 4)); [exact Hb|exact Ha|exact Hb|exact F|exact V|lra|]|lra].
    destruct Ha as [_ Ha], Hb as [_ Hb]. eapply Rle_trans; [apply Rabs_triang|]. rewrite Rabs_mult. assert (Rabs wr <= 3 / 8) by (rewrite Rabs_pos_eq; lra). assert (Rabs (B2R b - B2R a) <= 22) by (eapply Rle_trans; [apply Rabs_triang|]; rewrite Rabs_Ropp; lra). assert (Rabs wr * Rabs (B2R b - B2R a) <= 3 / 8 * 22) by (apply Rmult_le_compat; try apply Rabs_pos; assumption). lra. }
  apply bind_Ok in E. destruct E as (q0 & E0 & E). apply bind_Ok in E. destruct E as (s1 & E1 & E). apply bind_Ok in E. destruct E as (s2 & E2 & E). apply bind_Ok in E. destruct E as (s3 & E3 & E).
  apply bind_Ok in E. destruct E as (a & Ea & E). apply bind_Ok in E. destruct E as (b & Eb & E). apply bind_Ok in E. destruct E as (s4 & E4 & E).
  pose proof (Forall_idx _ _ _ _ E0 H) as B0. pose proof (Forall_idx _ _ _ _ Ea H) as Ba. pose proof (Forall_idx _ _ _ _ Eb H) as Bb.
  assert (Z0 : Forall (bd (193 / 10)) (repeat f0 64)). { apply Forall_forall. intros x Hx. apply repeat_spec in Hx. subst x. split; [reflexivity|]. change (B2R f0) with 0. rewrite Rabs_R0. lra. }
  apply (Forall_put _ _ _ _ _ E); [|apply (EX _ _ a b V3 F3); [lra|exact Ba|exact Bb]]. apply (Forall_put _ _ _ _ _ E4); [|apply (EX _ _ a b V1 F1); [lra|exact Ba|exact Bb]].
  eapply (for_keep (Forall (bd (193 / 10)))); [exact E3|apply (Forall_put _ _ _ _ _ E2); [apply (Forall_put _ _ _ _ _ E1); [exact Z0|now apply W11]|now apply W11]|].
  intros j t t' _ Et Ht. apply bind_Ok in Et. destruct Et as (x & Ex & Et). apply bind_Ok in Et. destruct Et as (y & Ey & Et). cbv zeta in Et. pose proof (Forall_idx _ _ _ _ Ex H) as Bx. pose proof (Forall_idx _ _ _ _ Ey H) as By.
  apply bind_Ok in Et. destruct Et as (t1 & T1 & Et). apply bind_Ok in Et. destruct Et as (t2 & T2 & Et). apply bind_Ok in Et. destruct Et as (t3 & T3 & Et).
  apply (Forall_put _ _ _ _ _ Et); [|apply (IN _ _ x y V7 F7); [lra|exact Bx|exact By]]. apply (Forall_put _ _ _ _ _ T3); [|apply (IN _ _ x y V5 F5); [lra|exact Bx|exact By]]. apply (Forall_put _ _ _ _ _ T2); [|apply (IN _ _ x y V3 F3); [lra|exact Bx|exact By]]. apply (Forall_put _ _ _ _ _ T1); [exact Ht|apply (IN _ _ x y V1 F1); [lra|exact Bx|exact By]].
Qed.
(* the lines of the result are those of the argument times gains below 2^20.02 *)
Lemma shaped_gains lm el c lines eb attack r out : eexp2_near el -> legal_config c -> nb c = 64%Z -> len lines = ne c -> len eb = 64%Z -> sns_regular (f32_ops lm) (f32_eops el) c eb attack ->
  sns_encode (f32_ops lm) (f32_eops el) c lines eb attack = Ok (r, out) ->
  exists edges gains, edges_ok edges (len gains) (ne c) /\ Forall (bd 1060000) gains /\ sns_apply (f32_ops lm) edges gains lines = Ok out.
Proof.
  intros N Lc Nb Ll Le R E.
  unfold sns_encode in E. rewrite Ll, Z.eqb_refl in E. cbn [assert bind] in E. destruct (scale_factors_ok (f32_ops lm) (f32_eops el) c eb attack Lc Nb Le) as (scf & Es & Ls). rewrite Es in E. cbn [bind] in E.
  apply bind_Ok in E. destruct E as ([r' sq] & Eq & E). pose proof (quant_size lm el scf r' sq Ls (fun lf hf st1 r1 E1 => R _ _ _ _ _ Es E1) Eq) as S1. destruct (quant_ok (f32_ops lm) (f32_eops el) scf Ls (fun lf hf st1 r1 E1 => R _ _ _ _ _ Es E1)) as ([r2 sq2] & Eq2 & _ & Lq). assert (sq2 = sq) by (rewrite Eq in Eq2; apply Ok_inj in Eq2; congruence). subst sq2.
  apply bind_Ok in E. destruct E as (s & Ei & E). pose proof (interpolate_size lm sq s S1 Ei) as S2. destruct (interpolate_ok (f32_ops lm) sq Lq) as (s2 & Ei2 & Lsi). rewrite Ei in Ei2. apply Ok_inj in Ei2. subst s2.
  unfold sns_narrow in E. rewrite Nb in E. unfold usub in E. change (64 <? 64)%Z with false in E. cbn [bind] in E. change (0 <? 64 - 64)%Z with false in E. cbv iota in E. cbn [bind] in E.
  pose proof Lc as (f & d & Ec). destruct (band_table_ok f d) as (edges & E3 & B). rewrite <- Ec in *. rewrite E3 in E. cbn [bind] in E. apply bind_Ok in E. destruct E as (l & El & E). apply Ok_inj in E. assert (l = out) by congruence. subst l. clear E.
  set (gains := map (fun v => e_exp2 (f32_eops el) (fneg (f32_ops lm) v)) s) in *. assert (Lg : len gains = nb c) by (unfold gains; rewrite len_map, Lsi; symmetry; exact Nb). rewrite <- Lg in B.
  exists edges, gains. split; [exact B|]. split; [|exact El].
  unfold gains. apply Forall_map, Forall_forall. intros v Hv. rewrite Forall_forall in S2. specialize (S2 v Hv). cbn [f32_eops e_exp2 f32_ops fneg]. apply eexp2_bd; [exact N|]. apply bd_opp. eapply bd_weaken; [exact S2|lra].
Qed.
Theorem shaped_size lm el c lines eb attack r out Y W : eexp2_near el -> legal_config c -> nb c = 64%Z -> len lines = ne c -> len eb = 64%Z -> sns_regular (f32_ops lm) (f32_eops el) c eb attack ->
  0 <= Y -> Forall (bd Y) lines -> grow (Y * 1060000) W -> sns_encode (f32_ops lm) (f32_eops el) c lines eb attack = Ok (r, out) -> Forall (bd W) out /\ len out = ne c.
Proof.
  intros N Lc Nb Ll Le R Y0 HY G E. destruct (sns_encode_ok (f32_ops lm) (f32_eops el) c lines eb attack Lc Nb Ll Le R) as ([r' out'] & E' & _ & LO). assert (out' = out) by (rewrite E in E'; apply Ok_inj in E'; congruence). subst out'. split; [|exact LO]. clear E' r'.
  destruct (shaped_gains lm el c lines eb attack r out N Lc Nb Ll Le R E) as (edges & gains & B & Bg & El).
  apply (shape_size lm edges gains lines out (ne c) Y W); [exact Y0|exact B|lia|exact Bg|exact HY|exact G|]. unfold sns_apply in El. destruct B as (LE & _). rewrite Z.min_l in El by lia. exact El.
Qed.
