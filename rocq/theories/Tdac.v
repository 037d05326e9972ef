(* Perfect reconstruction of the analysis/synthesis pair in exact arithmetic (time domain aliasing cancellation). *)
From Coq Require Import ZArith List Bool Lia Reals Lra.
From Verif Require Import Base Config FrameSpec FftFactor FactorProofs Buffers Loops Scalar Fft DecSignal DecMdct DecTotal DecState FftSpec RealOps Dft DctSpec ParseBase ParseTotal MdctSpec EncMdct TdacSpec Dct4Inv TablesWindow.
Import ListNotations.
Local Open Scope R_scope.

(* ---- the window tables ---- *)
Definition lz (d : Z * Z) : Z := (fst d * 10 ^ (snd d + 20))%Z.
Definition lit_ok (d : Z * Z) : bool := (-20 <=? snd d)%Z && (snd d <=? 0)%Z.
Lemma R_lit_lz d : lit_ok d = true -> R_lit d = IZR (lz d) / IZR (10 ^ 20).
Proof.
  unfold lit_ok. intros H. apply andb_prop in H as [H1 H2]. apply Z.leb_le in H1, H2. destruct d as [m e]. cbn [fst snd] in *. unfold R_lit, lz, fst, snd. rewrite mult_IZR.
  assert (E : (10 ^ 20)%Z = (10 ^ (e + 20) * 10 ^ (- e))%Z) by (rewrite <- Z.pow_add_r by lia; f_equal; lia).
  rewrite E, mult_IZR. assert (A : IZR (10 ^ (- e)) * powerRZ 10 e = 1).
  { replace (IZR (10 ^ (- e))) with (powerRZ 10 (- e)). 2:{ rewrite <- (Z2Nat.id (- e)) by lia. rewrite <- pow_powerRZ, <- pow_IZR. reflexivity. }
    rewrite <- powerRZ_add by lra. replace (- e + e)%Z with 0%Z by lia. reflexivity. }
  assert (B : 0 < IZR (10 ^ (e + 20))) by (apply IZR_lt; apply Z.pow_pos_nonneg; lia). assert (C : 0 < IZR (10 ^ (- e))) by (apply IZR_lt; apply Z.pow_pos_nonneg; lia).
  replace (powerRZ 10 e) with (/ IZR (10 ^ (- e))); [field; lra|]. apply (Rmult_eq_reg_l (IZR (10 ^ (- e)))); [|lra]. rewrite A. field. lra.
Qed.
(* all entries are below 1.07, the last z are zero, and the products of opposite entries add up to 1 within 4e-14 *)
Fixpoint pc_check (a ra b rb : list (Z * Z)) : bool :=
  match a, ra, b, rb with
  | x :: a, rx :: ra, y :: b, ry :: rb => (Z.abs (lz x * lz ry + lz y * lz rx - 10 ^ 40) <=? 4 * 10 ^ 26)%Z && pc_check a ra b rb
  | _, _, _, _ => true
  end.
Definition window_check (N z : Z) (w : list (Z * Z)) : bool :=
  let a := firstn (Z.to_nat N) w in let b := skipn (Z.to_nat N) w in
  forallb (fun d => lit_ok d && (Z.abs (lz d) <=? 107 * 10 ^ 18)%Z) w && forallb (fun d => (fst d =? 0)%Z) (skipn (Z.to_nat (2 * N - z)) w) && pc_check a (rev a) b (rev b).
Lemma window_checked c w : legal_config c -> mdct_window c = Ok w -> window_check (nf c) (zlead c) w = true.
Proof. intros (f & d & ->) E. destruct f, d; injection E as <-; vm_compute; reflexivity. Qed.

Lemma pc_check_nth : forall a ra b rb i, pc_check a ra b rb = true -> (i < length a)%nat -> length ra = length a -> length b = length a -> length rb = length a ->
  (Z.abs (lz (nth i a (0, 0)) * lz (nth i rb (0, 0)) + lz (nth i b (0, 0)) * lz (nth i ra (0, 0)) - 10 ^ 40) <= 4 * 10 ^ 26)%Z.
Proof.
  induction a as [|x a IH]; intros ra b rb i H Hi L1 L2 L3; [cbn in Hi; lia|]. destruct ra as [|rx ra]; [discriminate|]. destruct b as [|y b]; [discriminate|]. destruct rb as [|ry rb]; [discriminate|].
  cbn [pc_check] in H. apply andb_prop in H as [H1 H2]. destruct i as [|i]; [cbn [nth]; apply Z.leb_le; exact H1|]. cbn [nth]. cbn [length] in *. apply IH; auto; lia.
Qed.

Section Window.
Variable c : config.
Variable w : list (Z * Z).
Hypothesis L : legal_config c.
Hypothesis Ew : mdct_window c = Ok w.
Local Notation N := (nf c).
Local Notation z := (zlead c).
Definition win (n : Z) : R := R_lit (getz (0, 0)%Z w n).

Lemma win_len : len w = (2 * nf c)%Z.
Proof. destruct (mdct_window_ok c L) as (w' & E & H). rewrite Ew in E. now injection E as <-. Qed.
Lemma win_parts : Forall (fun d => lit_ok d = true /\ (Z.abs (lz d) <= 107 * 10 ^ 18)%Z) w /\ Forall (fun d => fst d = 0%Z) (skipn (Z.to_nat (2 * N - z)) w) /\
  pc_check (firstn (Z.to_nat N) w) (rev (firstn (Z.to_nat N) w)) (skipn (Z.to_nat N) w) (rev (skipn (Z.to_nat N) w)) = true.
Proof.
  pose proof (window_checked c w L Ew) as H. unfold window_check in H. apply andb_prop in H as [H H3]. apply andb_prop in H as [H1 H2]. split; [|split; [|exact H3]].
  - rewrite forallb_forall in H1. apply Forall_forall. intros d Hd. specialize (H1 d Hd). apply andb_prop in H1 as [A B]. split; [exact A|]. now apply Z.leb_le.
  - rewrite forallb_forall in H2. apply Forall_forall. intros d Hd. specialize (H2 d Hd). now apply Z.eqb_eq.
Qed.
Lemma getz_In {A} (d : A) l j : (0 <= j < len l)%Z -> In (getz d l j) l.
Proof. intros H. unfold getz. apply nth_In. unfold len in H. lia. Qed.
Lemma win_lz n : (0 <= n < 2 * N)%Z -> win n = IZR (lz (getz (0, 0)%Z w n)) / IZR (10 ^ 20).
Proof.
  intros H. unfold win. apply R_lit_lz. destruct win_parts as (P & _). rewrite Forall_forall in P. apply P. apply getz_In. rewrite win_len. exact H.
Qed.
Lemma win_abs n : (0 <= n < 2 * N)%Z -> Rabs (win n) <= 107 / 100.
Proof.
  intros H. rewrite win_lz by exact H. destruct win_parts as (P & _). rewrite Forall_forall in P. destruct (P (getz (0, 0)%Z w n)) as [_ B]; [apply getz_In; rewrite win_len; exact H|].
  apply IZR_le in B. rewrite abs_IZR in B. unfold Rdiv at 1. rewrite Rabs_mult, (Rabs_right (/ _)) by (apply Rle_ge, Rlt_le, Rinv_0_lt_compat, IZR_lt; reflexivity).
  apply (Rmult_le_reg_r (IZR (10 ^ 20))); [apply IZR_lt; reflexivity|]. rewrite Rmult_assoc, Rinv_l by (apply not_0_IZR; discriminate). rewrite Rmult_1_r. eapply Rle_trans; [exact B|].
  change (IZR (107 * 10 ^ 18)) with (IZR (107 * 10 ^ 18)). replace (IZR (10 ^ 20)) with (100 * IZR (10 ^ 18)) by (rewrite <- mult_IZR; reflexivity). rewrite mult_IZR. lra.
Qed.
Lemma win_zero n : (2 * N - z <= n < 2 * N)%Z -> win n = 0.
Proof.
  intros H. destruct (config_geom c L) as (G1 & G2 & G3 & _). destruct win_parts as (_ & P & _). rewrite Forall_forall in P. unfold win, R_lit.
  rewrite P; [ring|]. unfold getz. replace (Z.to_nat n) with (Z.to_nat (2 * N - z) + Z.to_nat (n - (2 * N - z)))%nat by lia. rewrite <- nth_skip. apply nth_In.
  rewrite skipn_length. pose proof win_len as WL. unfold len in WL. lia.
Qed.
(* power complementarity *)
Definition compl (p : Z) : R := win p * win (2 * N - 1 - p) + win (N + p) * win (N - 1 - p).
Lemma compl_near p : (0 <= p < N)%Z -> Rabs (compl p - 1) <= 4 / IZR (10 ^ 14).
Proof.
  intros H. pose proof win_len as WL. destruct win_parts as (_ & _ & P).
  pose proof (pc_check_nth _ _ _ _ (Z.to_nat p) P) as Q. unfold len in WL.
  assert (LA : length (firstn (Z.to_nat N) w) = Z.to_nat N) by (rewrite firstn_length; lia). assert (LB : length (skipn (Z.to_nat N) w) = Z.to_nat N) by (rewrite skipn_length; lia).
  rewrite !rev_length, LA, LB in Q. specialize (Q ltac:(lia) eq_refl eq_refl eq_refl).
  rewrite !rev_nth in Q by lia. rewrite LA, LB in Q. rewrite !nth_first, !nth_skip in Q by lia.
  unfold compl. rewrite !win_lz by lia. unfold getz.
  replace (Z.to_nat (2 * N - 1 - p)) with (Z.to_nat N + (Z.to_nat N - S (Z.to_nat p)))%nat by lia. replace (Z.to_nat (N + p)) with (Z.to_nat N + Z.to_nat p)%nat by lia.
  replace (Z.to_nat (N - 1 - p)) with (Z.to_nat N - S (Z.to_nat p))%nat by lia.
  revert Q. generalize (lz (nth (Z.to_nat p) w (0, 0)%Z)) (lz (nth (Z.to_nat N + (Z.to_nat N - S (Z.to_nat p))) w (0, 0)%Z)) (lz (nth (Z.to_nat N + Z.to_nat p) w (0, 0)%Z)) (lz (nth (Z.to_nat N - S (Z.to_nat p)) w (0, 0)%Z)).
  intros a b d e Q. apply IZR_le in Q. rewrite abs_IZR, minus_IZR, plus_IZR, !mult_IZR in Q.
  assert (T : 0 < IZR (10 ^ 20)) by (apply IZR_lt; reflexivity). assert (U : 0 < IZR (10 ^ 40)) by (apply IZR_lt; reflexivity).
  replace (IZR a / IZR (10 ^ 20) * (IZR b / IZR (10 ^ 20)) + IZR d / IZR (10 ^ 20) * (IZR e / IZR (10 ^ 20)) - 1) with ((IZR a * IZR b + IZR d * IZR e - IZR (10 ^ 40)) / IZR (10 ^ 40)).
  2:{ replace (IZR (10 ^ 40)) with (IZR (10 ^ 20) * IZR (10 ^ 20)) by (rewrite <- mult_IZR; reflexivity). field. lra. }
  unfold Rdiv at 1. rewrite Rabs_mult, (Rabs_right (/ _)) by (apply Rle_ge, Rlt_le, Rinv_0_lt_compat, U).
  apply (Rmult_le_reg_r (IZR (10 ^ 40))); [exact U|]. rewrite Rmult_assoc, Rinv_l by lra. rewrite Rmult_1_r. eapply Rle_trans; [exact Q|].
  replace (IZR (10 ^ 40)) with (IZR (10 ^ 14) * IZR (10 ^ 26)) by (rewrite <- mult_IZR; reflexivity). assert (V : 0 < IZR (10 ^ 14)) by (apply IZR_lt; reflexivity).
  replace (4 / IZR (10 ^ 14) * (IZR (10 ^ 14) * IZR (10 ^ 26))) with (4 * IZR (10 ^ 26)) by (field; lra). lra.
Qed.

(* ---- aliased frame of a time buffer ---- *)
Definition alias (T : Z -> Z) (n : Z) : R :=
  (IZR (T n) * win n + (if (n <? N)%Z then - (IZR (T (N - 1 - n)%Z) * win (N - 1 - n)) else IZR (T (3 * N - 1 - n)%Z) * win (3 * N - 1 - n))) * win (2 * N - 1 - n).

Variable h : Z.
Variable fl : list Z.
Hypothesis Hh : N = (2 * h)%Z.
Hypothesis Ch : chain h fl.
Hypothesis Sm : small_factors fl.
Hypothesis Ne : fl <> [].
Definition gain : R := 1 / sqrt (2 * IZR N).
Lemma h_pos : (30 <= h)%Z.
Proof. destruct (config_geom c L) as (G1 & _). lia. Qed.
Lemma gain_sq : gain * gain * (2 * IZR N) = 1.
Proof.
  unfold gain. assert (P : 0 < 2 * IZR N) by (pose proof h_pos; rewrite <- mult_IZR; apply IZR_lt; lia). pose proof (sqrt_lt_R0 _ P). pose proof (sqrt_sqrt (2 * IZR N) ltac:(lra)) as S.
  rewrite <- S at 3. field. lra.
Qed.
Lemma gain_pos : 0 < gain.
Proof. unfold gain. apply Rdiv_lt_0_compat; [lra|]. apply sqrt_lt_R0. pose proof h_pos. rewrite <- mult_IZR. apply IZR_lt. lia. Qed.
Local Notation wf := (getz (0, 0)%Z w).
(* coefficients of the analysis of the time buffer T *)
Definition coef (T : Z -> Z) (k : Z) : R := dct4 N (mfold R_ops h wf T) k * gain.

Lemma tda_alias T n : (0 <= n < 2 * N)%Z -> tda R_ops h (mfold R_ops h wf T) n * win (2 * N - 1 - n) = alias T n.
Proof.
  intros Hn. unfold alias. f_equal. unfold tda, mfold, wprod. cbn [R_ops fneg fsub fmul fz flit]. fold (win n). rewrite Hh in *.
  destruct (Z.ltb_spec n h); [|destruct (Z.ltb_spec n (2 * h)); [|destruct (Z.ltb_spec n (3 * h))]].
  - destruct (Z.ltb_spec (h + n) h); [lia|]. destruct (Z.ltb_spec n (2 * h)); [|lia]. replace (h + n - h)%Z with n by lia. unfold win. ring.
  - destruct (Z.ltb_spec (2 * h - 1 - (n - h)) h); [lia|]. replace (2 * h - 1 - (n - h) - h)%Z with (2 * h - 1 - n)%Z by lia. replace (2 * h - 1 - (2 * h - 1 - n))%Z with n by lia. unfold win. ring.
  - destruct (Z.ltb_spec (2 * h - 1 - (n - h)) h); [|lia]. replace (3 * h - 1 - (2 * h - 1 - (n - h)))%Z with n by lia. replace (3 * h + (2 * h - 1 - (n - h)))%Z with (3 * (2 * h) - 1 - n)%Z by lia. unfold win. ring.
  - destruct (Z.ltb_spec (n - 3 * h) h); [|lia]. replace (3 * h - 1 - (n - 3 * h))%Z with (3 * (2 * h) - 1 - n)%Z by lia. replace (3 * h + (n - 3 * h))%Z with n by lia. unfold win. ring.
Qed.

(* the aliasing operator is linear with coefficients of size one *)
Lemma tda_sel u v n : (0 <= n < 2 * N)%Z -> exists j, (0 <= j < N)%Z /\ ((forall x, tda R_ops h x n = x j) \/ (forall x, tda R_ops h x n = - x j)) /\ tda R_ops h u n = tda R_ops h u n /\ tda R_ops h v n = tda R_ops h v n.
Proof.
  intros Hn. rewrite Hh in *. unfold tda. cbn [R_ops fneg]. destruct (Z.ltb_spec n h); [|destruct (Z.ltb_spec n (2 * h)); [|destruct (Z.ltb_spec n (3 * h))]]; eexists; (split; [|split; [eauto|split; reflexivity]]); lia.
Qed.
Lemma synth_val x n : (0 <= n < 2 * N)%Z -> tda_win R_ops h fl wf x n = tda R_ops h (dct4 N x) n * gain * win (2 * N - 1 - n).
Proof.
  intros Hn. unfold tda_win. cbn [R_ops fmul flit]. unfold mdct_gain. cbn [R_ops fmul fdiv fsqrt fz]. rewrite Hh in *. fold gain. replace (4 * h - 1 - n)%Z with (2 * (2 * h) - 1 - n)%Z by lia. fold (win (2 * (2 * h) - 1 - n)).
  unfold gain. rewrite Hh. f_equal. f_equal. pose proof h_pos. unfold tda. cbn [R_ops fneg]. destruct (Z.ltb_spec n h); [|destruct (Z.ltb_spec n (2 * h)); [|destruct (Z.ltb_spec n (3 * h))]]; rewrite dct_val_dct4 by (auto; lia); reflexivity.
Qed.
Lemma synth_full T n : (0 <= n < 2 * N)%Z -> tda_win R_ops h fl wf (coef T) n = alias T n.
Proof.
  intros Hn. rewrite synth_val, <- tda_alias by exact Hn. f_equal. destruct (tda_sel (dct4 N (coef T)) (mfold R_ops h wf T) n Hn) as (j & Hj & [S|S] & _); rewrite !S.
  - unfold coef. rewrite dct4_scale, dct4_involution by lia. transitivity (mfold R_ops h wf T j * (gain * gain * (2 * IZR N))); [ring|]. rewrite gain_sq. ring.
  - unfold coef. rewrite dct4_scale, dct4_involution by lia. transitivity (- mfold R_ops h wf T j * (gain * gain * (2 * IZR N))); [ring|]. rewrite gain_sq. ring.
Qed.
Definition dist (x y : Z -> R) : R := rsum (Z.to_nat N) (fun k => Rabs (x k - y k)).
Lemma synth_near x y n : (0 <= n < 2 * N)%Z -> Rabs (tda_win R_ops h fl wf x n - tda_win R_ops h fl wf y n) <= 107 / 50 * gain * dist x y.
Proof.
  intros Hn. rewrite !synth_val by exact Hn. destruct (tda_sel (dct4 N x) (dct4 N y) n Hn) as (j & Hj & S & _).
  assert (E : Rabs (tda R_ops h (dct4 N x) n - tda R_ops h (dct4 N y) n) = Rabs (dct4 N (fun k => x k - y k) j)).
  { rewrite dct4_sub. destruct S as [S|S]; rewrite !S; [reflexivity|]. rewrite <- Rabs_Ropp. f_equal. ring. }
  rewrite <- !Rmult_minus_distr_r, !Rabs_mult, E. pose proof (dct4_bound N (fun k => x k - y k) j) as B. fold (dist x y) in B.
  pose proof (win_abs (2 * N - 1 - n) ltac:(lia)) as W. rewrite (Rabs_right gain) by (apply Rle_ge, Rlt_le, gain_pos). pose proof gain_pos as G. pose proof (Rabs_pos (dct4 N (fun k => x k - y k) j)) as P.
  apply Rle_trans with (2 * dist x y * gain * (107 / 100)); [|lra].
  apply Rmult_le_compat; [apply Rmult_le_pos; lra|apply Rabs_pos| |exact W]. apply Rmult_le_compat_r; [lra|exact B].
Qed.

(* ---- overlap-add of two consecutive frames ---- *)
Lemma tdac T inp i : (0 <= i < N)%Z -> let T' := next_time N z T inp in
  (if (i <? N - z)%Z then alias T (N + z + i) else 0) + alias T' (z + i) = IZR (T' (z + i)%Z) * compl ((z + i) mod N).
Proof.
  intros Hi T'. destruct (config_geom c L) as (G1 & G2 & G3 & _). unfold alias. destruct (Z.ltb_spec i (N - z)).
  - destruct (Z.ltb_spec (N + z + i) N); [lia|]. destruct (Z.ltb_spec (z + i) N); [|lia]. rewrite Z.mod_small by lia. unfold compl.
    replace (3 * N - 1 - (N + z + i))%Z with (2 * N - 1 - (z + i))%Z by lia. replace (2 * N - 1 - (N + z + i))%Z with (N - 1 - (z + i))%Z by lia. replace (N + z + i)%Z with (N + (z + i))%Z by lia.
    replace (T' (N - 1 - (z + i))%Z) with (T (2 * N - 1 - (z + i))%Z). 2:{ unfold T', next_time. destruct (Z.ltb_spec (N - 1 - (z + i)) (N - z)); [|lia]. f_equal. lia. }
    assert (Q : IZR (T (N + (z + i))%Z) * win (N + (z + i)) = IZR (T' (z + i)%Z) * win (N + (z + i))).
    { destruct (Z_lt_le_dec (z + i) (N - z)).
      - unfold T', next_time. destruct (Z.ltb_spec (z + i) (N - z)); [|lia]. reflexivity.
      - rewrite win_zero by lia. ring. }
    rewrite Q. ring.
  - destruct (Z.ltb_spec (z + i) N); [lia|]. replace ((z + i) mod N)%Z with (z + i - N)%Z by (apply Z.mod_unique with (q := 1%Z); [left; lia|lia]). unfold compl.
    replace (3 * N - 1 - (z + i))%Z with (2 * N - 1 - (z + i - N))%Z by lia. rewrite (win_zero (2 * N - 1 - (z + i - N))) by lia.
    replace (2 * N - 1 - (z + i))%Z with (N - 1 - (z + i - N))%Z by lia. replace (N + (z + i - N))%Z with (z + i)%Z by lia. ring.
Qed.
Lemma alias_ext T U n : (0 <= n < 2 * N)%Z -> (forall j, (0 <= j < 2 * N)%Z -> T j = U j) -> alias T n = alias U n.
Proof. intros Hn E. unfold alias. destruct (Z.ltb_spec n N); rewrite !E by lia; reflexivity. Qed.
Lemma coef_ext T U k : (forall j, (0 <= j < 2 * N)%Z -> T j = U j) -> coef T k = coef U k.
Proof.
  intros E. unfold coef. f_equal. apply dct4_ext. intros n Hn. rewrite Hh in *. unfold mfold, wprod. cbn [R_ops fsub fneg fmul fz flit]. destruct (Z.ltb_spec n h); rewrite !E by lia; reflexivity.
Qed.
End Window.
