(* Analysis followed by synthesis over a whole stream of frames, in exact arithmetic. *)
From Coq Require Import ZArith List Bool Lia Reals Lra.
From Verif Require Import Base Config FrameSpec FftFactor FactorProofs Buffers Loops Scalar Fft DecSignal DecMdct DecTotal DecState FftSpec RealOps Dft DctSpec ParseBase ParseTotal MdctSpec EncMdct TdacSpec Dct4Inv Tdac.
Import ListNotations.
Local Open Scope Z_scope.

(* state of the pair: the two transforms and the buffers that they overwrite *)
Record pair_state : Type := mkPair { ps_enc : emdct R; ps_dec : mdct R; ps_out : list R; ps_bands : list R; ps_freq : list R }.
(* one frame through the forward transform, the ne coded lines of the result through the inverse one *)
Definition pair_step (c : config) (s : pair_state) (input : list Z) : res (pair_state * list R * list R) :=
  '(_, x, b, e) <- emdct_run R_ops c (ps_enc s) input (ps_out s) (ps_bands s) ;;
  lines <- sub x 0 (ne c) ;;
  '(y, m) <- mdct_run R_ops c (ps_dec s) lines (ps_freq s) ;;
  Ok (mkPair e m x b y, x, y).
Fixpoint pair_run (c : config) (s : pair_state) (frames : list (list Z)) : res (list (list R * list R)) :=
  match frames with
  | [] => Ok []
  | f :: t => '(s, x, y) <- pair_step c s f ;; r <- pair_run c s t ;; Ok ((x, y) :: r)
  end.

Local Open Scope R_scope.
(* coefficients that the coded bandwidth does not reach *)
Definition dropped (c : config) (x : list R) : R := rsum (Z.to_nat (nf c - ne c)) (fun k => Rabs (getz 0 x (ne c + k))).
Definition slack (c : config) : R := 107 / 50 * (1 / sqrt (2 * IZR (nf c))).

Definition all_zero (l : list R) : Prop := forall j, getz 0 l j = 0.
Record pair_inv (c : config) (w : list (Z * Z)) (s : pair_state) (D : R) : Prop := mkPairInv {
  pi_enc : emdct_ok c (ps_enc s);
  pi_dec : mdct_ok c (ps_dec s);
  pi_out : len (ps_out s) = nf c;
  pi_bands : len (ps_bands s) = nb c;
  pi_freq : len (ps_freq s) = nf c;
  pi_zero : all_zero (m_zeros (ps_dec s));
  pi_ola : forall i, (0 <= i < nf c - zlead c)%Z -> Rabs (getz 0 (m_ola (ps_dec s)) i - alias c w (getz 0%Z (em_time (ps_enc s))) (nf c + zlead c + i)) <= slack c * D
}.

Lemma dist_dropped c x X : legal_config c -> len x = nf c -> (forall k, (0 <= k < nf c)%Z -> X k = getz 0 x k) -> forall lines zeros, sub x 0 (ne c) = Ok lines -> all_zero zeros ->
  dist c (padded R_ops (ne c) lines zeros) X = dropped c x.
Proof.
  intros L Lx HX lines zeros E Z. destruct (config_geom c L) as (G1 & G2 & G3 & G4 & _). destruct (sub_ok x 0 (ne c) ltac:(lia) ltac:(lia)) as (l' & E' & Ll & Tl). rewrite E in E'. injection E' as <-.
  unfold dist, dropped. replace (Z.to_nat (nf c)) with (Z.to_nat (ne c) + Z.to_nat (nf c - ne c))%nat by lia.
  assert (A : forall n m f, rsum (n + m) f = rsum n f + rsum m (fun k => f (Z.of_nat n + k)%Z)).
  { intros n m f. induction m as [|m IH]; [rewrite Nat.add_0_r; cbn [rsum]; ring|]. rewrite Nat.add_succ_r. cbn [rsum]. rewrite IH. replace (Z.of_nat (n + m)) with (Z.of_nat n + Z.of_nat m)%Z by lia. ring. }
  rewrite A. rewrite rsum_zero.
  - rewrite Rplus_0_l. apply rsum_ext. intros k Hk. rewrite Z2Nat.id by lia. unfold padded. destruct (Z.ltb_spec (ne c + k) (ne c)); [lia|]. change (getz (fz R_ops 0%Z)) with (getz 0). rewrite (Z (ne c + k - ne c)%Z).
    rewrite HX by lia. rewrite Rminus_0_l. apply Rabs_Ropp.
  - intros k Hk. unfold padded. destruct (Z.ltb_spec k (ne c)); [|lia]. rewrite HX by lia. change (getz (fz R_ops 0%Z)) with (getz 0). rewrite Tl by lia. rewrite Z.add_0_l. replace (getz 0 x k - getz 0 x k) with 0 by ring. apply Rabs_R0.
Qed.

Theorem pair_step_spec c w s D input : legal_config c -> mdct_window c = Ok w -> pair_inv c w s D -> len input = nf c ->
  exists s' x y, pair_step c s input = Ok (s', x, y) /\ pair_inv c w s' (dropped c x) /\ len x = nf c /\ len y = nf c /\
    (forall j, (0 <= j < 2 * nf c)%Z -> getz 0%Z (em_time (ps_enc s')) j = next_time (nf c) (zlead c) (getz 0%Z (em_time (ps_enc s))) (getz 0%Z input) j) /\
    (forall k, (0 <= k < nf c)%Z -> getz 0 x k = coef c w (nf c / 2) (getz 0%Z (em_time (ps_enc s'))) k) /\
    (forall i, (0 <= i < nf c)%Z -> let p := IZR (getz 0%Z (em_time (ps_enc s')) (zlead c + i)) in Rabs (getz 0 y i - p * compl c w ((zlead c + i) mod nf c)) <= slack c * (D + dropped c x)).
Proof.
  intros L Ew [I1 I2 I3 I4 I5 I6 I7] Hi. destruct (config_geom c L) as (G1 & G2 & G3 & G4 & _). destruct (dct_factors_ok c L) as (fl & Ef & Ch & Sm & Ne).
  set (h := (nf c / 2)%Z) in *. assert (Hh : nf c = (2 * h)%Z) by (unfold h; Z.div_mod_to_equations; lia).
  unfold pair_step. destruct (emdct_run_spec R_ops c (ps_enc s) input (ps_out s) (ps_bands s) h fl w L I1 Hi I3 I4 Hh Ef Ch Sm Ne Ew) as (nn & x & b & e & E1 & L1 & Lb & Me & Te & Tx). rewrite E1. cbn [bind].
  destruct (sub_ok x 0 (ne c) ltac:(lia) ltac:(lia)) as (lines & E2 & L2 & T2). rewrite E2. cbn [bind].
  destruct (mdct_run_spec R_ops c (ps_dec s) lines (ps_freq s) h fl w L I2 ltac:(lia) I5 Hh Ef Ch Sm Ne Ew) as (y & m & E3 & L3 & Mm & Zm & Ty & To). rewrite E3. cbn [bind].
  set (T := getz 0%Z (em_time e)) in *. set (T0 := getz 0%Z (em_time (ps_enc s))) in *.
  assert (X : forall k, (0 <= k < nf c)%Z -> getz 0 x k = coef c w h T k).
  { intros k Hk. change (getz 0 x k) with (getz (fz R_ops 0%Z) x k). rewrite Tx by exact Hk. unfold coef, mdct_gain, gain. cbn [R_ops fmul fdiv fsqrt fz]. rewrite dct_val_dct4 by (auto; lia). rewrite Hh. reflexivity. }
  assert (Dx : dist c (padded R_ops (ne c) lines (m_zeros (ps_dec s))) (coef c w h T) = dropped c x).
  { apply dist_dropped; auto. intros k Hk. symmetry. now apply X. }
  assert (Near : forall n, (0 <= n < 2 * nf c)%Z -> Rabs (tda_win R_ops h fl (getz (0, 0)%Z w) (padded R_ops (ne c) lines (m_zeros (ps_dec s))) n - alias c w T n) <= slack c * dropped c x).
  { intros n Hn. rewrite <- (synth_full c w L h fl Hh Ch Sm Ne T n Hn). rewrite <- Dx. apply (synth_near c w L Ew h fl Hh Ch Sm Ne). exact Hn. }
  eexists _, x, y. split; [reflexivity|]. split.
  { constructor; cbn [ps_enc ps_dec ps_out ps_bands ps_freq]; auto.
    - rewrite Zm. exact I6.
    - intros i Hi'. change (getz 0 (m_ola m) i) with (getz (fz R_ops 0%Z) (m_ola m) i). rewrite To by exact Hi'. apply Near. lia. }
  split; [exact L1|]. split; [exact L3|]. cbn [ps_enc]. fold T. split; [exact Te|]. split; [exact X|].
  intros i Hi'. change (getz 0 y i) with (getz (fz R_ops 0%Z) y i). rewrite Ty by exact Hi'. cbv zeta. cbn [R_ops fadd]. change (getz (fz R_ops 0%Z)) with (getz 0).
  assert (C : (if (i <? nf c - zlead c)%Z then alias c w T0 (nf c + zlead c + i) else 0) + alias c w T (zlead c + i) = IZR (T (zlead c + i)%Z) * compl c w ((zlead c + i) mod nf c)).
  { pose proof (tdac c w L Ew T0 (getz 0%Z input) i Hi') as C. cbv zeta in C. rewrite (Te (zlead c + i)%Z) by lia. rewrite <- C. f_equal. apply (alias_ext c w h Hh); [lia|]. intros j Hj. apply Te. exact Hj. }
  rewrite <- C. pose proof (Near (zlead c + i)%Z ltac:(lia)) as N1. rewrite Rmult_plus_distr_l. destruct (Z.ltb_spec i (nf c - zlead c)).
  - specialize (I7 i ltac:(lia)). fold T0 in I7. eapply Rle_trans; [|apply Rplus_le_compat; [exact I7|exact N1]].
    match goal with |- Rabs ?a <= Rabs ?b + Rabs ?d => replace a with (b + d) by ring end. apply Rabs_triang.
  - assert (P : 0 <= slack c * D).
    { destruct (Z_lt_le_dec 0 (nf c - zlead c)) as [Q|Q]; [eapply Rle_trans; [apply Rabs_pos|apply (I7 0%Z); lia]|]. exfalso. clear - L Q. destruct L as (f & d & ->). destruct f, d; vm_compute in Q; now apply Q. }
    rewrite Rplus_0_l. lra.
Qed.

(* ---- the stream ---- *)
(* samples that leave the pair: what was in the analysis buffer, then the input *)
Definition stream (c : config) (T : Z -> Z) (frames : list (list Z)) (j : Z) : Z :=
  let d := (nf c - 2 * zlead c)%Z in if (j <? d)%Z then T (nf c + zlead c + j)%Z else getz 0%Z (concat frames) (j - d).
Lemma stream_step c T T' f frames : legal_config c -> len f = nf c -> (forall j, (0 <= j < 2 * nf c)%Z -> T' j = next_time (nf c) (zlead c) T (getz 0%Z f) j) ->
  (forall i, (0 <= i < nf c)%Z -> stream c T (f :: frames) i = T' (zlead c + i)%Z) /\ (forall j, (0 <= j)%Z -> stream c T (f :: frames) (nf c + j) = stream c T' frames j).
Proof.
  intros L Lf H. assert (G : (60 <= nf c /\ 0 <= 2 * zlead c <= nf c)%Z) by (destruct L as (f' & d & ->); destruct f', d; vm_compute; intuition discriminate).
  unfold stream. cbv zeta. split.
  - intros i Hi. rewrite H by lia. unfold next_time. destruct (Z.ltb_spec i (nf c - 2 * zlead c)); destruct (Z.ltb_spec (zlead c + i) (nf c - zlead c)); try lia; [f_equal; lia|].
    destruct (Z.ltb_spec (zlead c + i) (2 * nf c - zlead c)); [|lia]. cbn [concat]. rewrite getz_app by lia. destruct (Z.ltb_spec (i - (nf c - 2 * zlead c)) (len f)); [|lia]. f_equal. lia.
  - intros j Hj. destruct (Z.ltb_spec (nf c + j) (nf c - 2 * zlead c)); [lia|]. cbn [concat]. rewrite getz_app by lia. destruct (Z.ltb_spec j (nf c - 2 * zlead c)).
    + destruct (Z.ltb_spec (nf c + j - (nf c - 2 * zlead c)) (len f)); [|lia]. rewrite H by lia. unfold next_time. destruct (Z.ltb_spec (nf c + zlead c + j) (nf c - zlead c)); [lia|].
      destruct (Z.ltb_spec (nf c + zlead c + j) (2 * nf c - zlead c)); [|lia]. f_equal. lia.
    + destruct (Z.ltb_spec (nf c + j - (nf c - 2 * zlead c)) (len f)); [lia|]. f_equal. lia.
Qed.

(* the coefficients dropped in frame n; before the first frame, the initial error *)
Definition drop_before (c : config) (D : R) (r : list (list R * list R)) (n : nat) : R := match n with O => D | S n => dropped c (fst (nth n r ([], []))) end.
Lemma slack_pos c : legal_config c -> 0 < slack c.
Proof.
  intros L. destruct (config_geom c L) as (G1 & _). unfold slack. apply Rmult_lt_0_compat; [lra|]. apply Rdiv_lt_0_compat; [lra|]. apply sqrt_lt_R0. rewrite <- mult_IZR. apply IZR_lt. lia.
Qed.
Theorem pair_run_spec c w : legal_config c -> mdct_window c = Ok w -> forall frames s D, pair_inv c w s D -> Forall (fun f => len f = nf c) frames ->
  exists r, pair_run c s frames = Ok r /\ length r = length frames /\
    forall n, (n < length frames)%nat -> let '(x, y) := nth n r ([], []) in len x = nf c /\ len y = nf c /\
      forall i, (0 <= i < nf c)%Z -> let p := IZR (stream c (getz 0%Z (em_time (ps_enc s))) frames (Z.of_nat n * nf c + i)) in
        Rabs (getz 0 y i - p) <= 4 / IZR (10 ^ 14) * Rabs p + slack c * (drop_before c D r n + dropped c x).
Proof.
  intros L Ew. induction frames as [|f frames IH]; intros s D I Hf; [exists []; split; [reflexivity|]; split; [reflexivity|]; cbn; lia|].
  pose proof (Forall_inv Hf) as Lf. apply Forall_inv_tail in Hf. destruct (config_geom c L) as (G1 & G2 & G3 & G4 & _). cbn [pair_run].
  destruct (pair_step_spec c w s D f L Ew I Lf) as (s' & x & y & E & I' & Lx & Ly & Ht & _ & Hy). rewrite E. cbn [bind].
  destruct (IH s' (dropped c x) I' Hf) as (r & Er & Lr & Hr). rewrite Er. cbn [bind]. exists ((x, y) :: r). split; [reflexivity|]. split; [cbn [length]; lia|].
  destruct (stream_step c _ _ f frames L Lf Ht) as [S1 S2]. intros n Hn. destruct n as [|n].
  - cbn [nth drop_before]. split; [exact Lx|]. split; [exact Ly|]. intros i Hi. specialize (Hy i Hi). cbv zeta in *. rewrite Z.mul_0_l, Z.add_0_l, S1 by exact Hi.
    set (q := IZR (getz 0%Z (em_time (ps_enc s')) (zlead c + i))) in *. set (v := getz 0 y i) in *.
    pose proof (compl_near c w L Ew ((zlead c + i) mod nf c) ltac:(apply Z.mod_pos_bound; lia)) as Cn. set (k := compl c w ((zlead c + i) mod nf c)) in *.
    replace (v - q) with ((k - 1) * q + (v - q * k)) by ring. eapply Rle_trans; [apply Rabs_triang|]. apply Rplus_le_compat; [|exact Hy].
    rewrite Rabs_mult. apply Rmult_le_compat_r; [apply Rabs_pos|exact Cn].
  - cbn [nth]. cbn [length] in Hn. specialize (Hr n ltac:(lia)). destruct (nth n r ([], [])) as [xn yn] eqn:En. destruct Hr as (A & B & C). split; [exact A|]. split; [exact B|]. intros i Hi. specialize (C i Hi). cbv zeta in *.
    rewrite <- S2 in C by lia. replace (Z.of_nat (S n) * nf c + i)%Z with (nf c + (Z.of_nat n * nf c + i))%Z by lia.
    replace (drop_before c D ((x, y) :: r) (S n)) with (drop_before c (dropped c x) r n); [exact C|]. unfold drop_before. destruct n; reflexivity.
Qed.

(* a fresh pair: zero buffers *)
Definition fresh (c : config) (s : pair_state) : Prop :=
  emdct_ok c (ps_enc s) /\ mdct_ok c (ps_dec s) /\ len (ps_out s) = nf c /\ len (ps_bands s) = nb c /\ len (ps_freq s) = nf c /\
  (forall j, getz 0%Z (em_time (ps_enc s)) j = 0%Z) /\ all_zero (m_zeros (ps_dec s)) /\ all_zero (m_ola (ps_dec s)).
Lemma fresh_inv c w s : legal_config c -> fresh c s -> pair_inv c w s 0.
Proof.
  intros L (H1 & H2 & H3 & H4 & H5 & H6 & H7 & H8). constructor; auto. intros i Hi. rewrite H8. unfold alias. rewrite !H6. rewrite Rmult_0_r.
  match goal with |- Rabs ?a <= 0 => replace a with 0 end; [rewrite Rabs_R0; lra|]. destruct (_ <? _)%Z; ring.
Qed.
