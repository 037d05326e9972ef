(* Binary32 analysis followed by binary32 synthesis over a whole stream of frames. *)
From Coq Require Import ZArith List Bool Lia Reals Lra.
From Coquelicot Require Import Complex.
From Flocq Require Import Core BinarySingleNaN.
From Verif Require Import Base Config FrameSpec FftFactor FactorProofs Buffers Loops Scalar Fft DecSignal DecMdct DecTotal DecState FftSpec RealOps Dft DctSpec ParseBase ParseTotal MdctSpec EncMdct TdacSpec Dct4Inv Tdac MdctFormula MdctStream Norm2 F32 F32Round F32Lines EncF32 F32Err FftErr FftErrRun DctErr MdctErr MdctErrRun.
From Coq Require Import List.
Import ListNotations.
Local Open Scope R_scope.

(* state of the pair: the two transforms and the buffers that they overwrite *)
Record fpair : Type := mkFpair { fp_enc : emdct f32; fp_dec : mdct f32; fp_out : list f32; fp_bands : list f32; fp_freq : list f32 }.
Definition fpair_step (lm : libm) (c : config) (s : fpair) (input : list Z) : res (fpair * list f32 * list f32) :=
  '(_, x, b, e) <- emdct_run (f32_ops lm) c (fp_enc s) input (fp_out s) (fp_bands s) ;;
  lines <- sub x 0 (ne c) ;;
  '(y, m) <- mdct_run (f32_ops lm) c (fp_dec s) lines (fp_freq s) ;;
  Ok (mkFpair e m x b y, x, y).
Fixpoint fpair_run (lm : libm) (c : config) (s : fpair) (frames : list (list Z)) : res (list (list f32 * list f32)) :=
  match frames with
  | [] => Ok []
  | f :: t => '(s, x, y) <- fpair_step lm c s f ;; r <- fpair_run lm c s t ;; Ok ((x, y) :: r)
  end.

Local Notation f0 := (f32_of_Z 0).
Definition val (l : list f32) (i : Z) : R := B2R (getz f0 l i).
Definition fin (l : list f32) : Prop := forall i, (0 <= i < len l)%Z -> is_finite (getz f0 l i) = true.
(* size of the lines above the coded bandwidth *)
Definition lost (c : config) (x : list f32) : R := nrm (Z.to_nat (nf c - ne c)) (fun k => val x (ne c + k)).

Lemma nrm_part n m a f : (0 <= a)%Z -> (a + Z.of_nat n <= Z.of_nat m)%Z -> nrm n (fun t => f (a + t)%Z) <= nrm m f.
Proof.
  intros Ha H. apply sqrt_le_1_alt. replace m with (Z.to_nat a + (n + (m - n - Z.to_nat a)))%nat by lia. rewrite !rsum_app. rewrite Z2Nat.id by lia.
  pose proof (rsum_pos (Z.to_nat a) (fun t => f t * f t) (fun t _ => sq_pos _)). pose proof (rsum_pos (m - n - Z.to_nat a) (fun t => f (a + (Z.of_nat n + t))%Z * f (a + (Z.of_nat n + t))%Z) (fun t _ => sq_pos _)). lra.
Qed.
Lemma nrm_head n m f : (n <= m)%nat -> nrm m (fun t => if (t <? Z.of_nat n)%Z then f t else 0) = nrm n f.
Proof.
  intros H. unfold nrm. f_equal. replace m with (n + (m - n))%nat by lia. rewrite rsum_app. rewrite (rsum_zero (m - n)).
  - rewrite Rplus_0_r. apply rsum_ext. intros t Ht. destruct (Z.ltb_spec t (Z.of_nat n)); [reflexivity|lia].
  - intros t Ht. destruct (Z.ltb_spec (Z.of_nat n + t) (Z.of_nat n)); [lia|ring].
Qed.
Lemma nrm_tail n m f : (n <= m)%nat -> nrm m (fun t => if (t <? Z.of_nat n)%Z then 0 else f t) = nrm (m - n) (fun t => f (Z.of_nat n + t)%Z).
Proof.
  intros H. unfold nrm. f_equal. replace m with (n + (m - n))%nat at 1 by lia. rewrite rsum_app. rewrite (rsum_zero n).
  - rewrite Rplus_0_l. apply rsum_ext. intros t Ht. destruct (Z.ltb_spec (Z.of_nat n + t) (Z.of_nat n)); [lia|reflexivity].
  - intros t Ht. destruct (Z.ltb_spec t (Z.of_nat n)); [ring|lia].
Qed.
Lemma f0_val : B2R f0 = 0 /\ is_finite f0 = true. Proof. apply (fz_val 0). lia. Qed.

(* overlap and add *)
Lemma ola_err (a b : f32) : is_finite a = true -> is_finite b = true -> Rabs (B2R a) + Rabs (B2R b) <= bpow radix2 100 ->
  is_finite (Bplus mode_NE a b) = true /\ Rabs (B2R (Bplus mode_NE a b) - (B2R a + B2R b)) <= vv * (Rabs (B2R a) + Rabs (B2R b) + 2 * th).
Proof.
  intros Fa Fb H. pose proof th_small. pose proof th_pos. destruct (ap_plus 0 _ 0 _ _ _ _ _ (ap_exact a Fa) (ap_exact b Fb) ltac:(lia)) as (F & E & _).
  - apply Rle_trans with (bpow radix2 100 + 2); [lra|]. assert (2 <= bpow radix2 100) by (change 2 with (bpow radix2 1); apply bpow_le; lia). apply Rle_trans with (2 * bpow radix2 100); [lra|]. change 2 with (bpow radix2 1). rewrite <- bpow_plus. apply bpow_le. lia.
  - split; [exact F|]. eapply Rle_trans; [exact E|]. right. cbn [Nat.max Nat.add]. unfold gp. cbn [pow]. ring.
Qed.

Lemma geo c : legal_config c -> (60 <= nf c <= 480 /\ 0 <= zlead c < nf c /\ 0 <= 2 * zlead c <= nf c /\ 0 <= ne c <= nf c)%Z.
Proof. intros (f & d & ->). destruct f, d; vm_compute; intuition discriminate. Qed.

Section Stream.
Variables (lm : libm) (c : config) (w : list (Z * Z)) (M : Z).
Hypotheses (L : legal_config c) (Ew : mdct_window c = Ok w) (HM : (0 <= M <= 32768)%Z) (Htw : twiddles_near lm (nf c / 2)).
Local Notation o := (f32_ops lm).
Local Notation N := (Z.to_nat (nf c)).
Local Notation N2 := (Z.to_nat (2 * nf c)).
Local Notation K := (Z.to_nat (nf c - zlead c)).
Let B : R := sqrt (2 * IZR (nf c)) * IZR M.
Let blk (d : R) : R := 81 / 1000000 * (B + 2 * tt) + 1514 / 1000 * d.
Record fpair_inv (s : fpair) (E : R) : Prop := mkFinv {
  fi_enc : emdct_ok c (fp_enc s);
  fi_dec : mdct_ok c (fp_dec s);
  fi_out : len (fp_out s) = nf c;
  fi_bands : len (fp_bands s) = nb c;
  fi_freq : len (fp_freq s) = nf c;
  fi_zero : forall j, (0 <= j)%Z -> is_finite (getz f0 (m_zeros (fp_dec s)) j) = true /\ val (m_zeros (fp_dec s)) j = 0;
  fi_time : forall j, (0 <= j < 2 * nf c)%Z -> (Z.abs (getz 0%Z (em_time (fp_enc s)) j) <= M)%Z;
  fi_fin : fin (m_ola (fp_dec s));
  fi_ola : nrm K (fun i => val (m_ola (fp_dec s)) i - alias c w (getz 0%Z (em_time (fp_enc s))) (nf c + zlead c + i)) <= E;
  fi_size : nrm K (val (m_ola (fp_dec s))) <= 232 / 100 * (B + 2 * tt)
}.
Lemma B_size T : (forall j, (0 <= j < 2 * nf c)%Z -> (Z.abs (T j) <= M)%Z) -> nrm N2 (fun j => IZR (T j)) <= B.
Proof.
  intros H. destruct (geo c L) as (G & _). eapply Rle_trans; [apply (nrm_le N2 _ (fun _ => IZR M)); intros t Ht; rewrite <- abs_IZR; apply IZR_le, H; lia|]. rewrite nrm_const by (apply IZR_le; lia).
  unfold B. rewrite INR_IZR_INZ, Z2Nat.id by lia. rewrite mult_IZR. apply Rle_refl.
Qed.
Lemma B_big : 0 <= B <= 2097152.
Proof using L HM.
  destruct (geo c L) as (G & _). unfold B. assert (S0 : 0 <= sqrt (2 * IZR (nf c)) <= 64). { split; [apply sqrt_pos|]. rewrite <- (sqrt_square 64) by lra. apply sqrt_le_1_alt. rewrite <- !mult_IZR. apply IZR_le. lia. }
  assert (0 <= IZR M <= 32768) by (split; apply IZR_le; lia). split; [apply Rmult_le_pos; lra|]. apply Rle_trans with (64 * 32768); [apply Rmult_le_compat; lra|lra].
Qed.
Theorem fpair_step_spec s E input : fpair_inv s E -> len input = nf c -> (forall j, (0 <= j < nf c)%Z -> (Z.abs (getz 0%Z input j) <= M)%Z) ->
  exists s' x y, fpair_step lm c s input = Ok (s', x, y) /\ fpair_inv s' (blk (lost c x)) /\ len x = nf c /\ len y = nf c /\ fin x /\ fin y /\
    (forall j, (0 <= j < 2 * nf c)%Z -> getz 0%Z (em_time (fp_enc s')) j = next_time (nf c) (zlead c) (getz 0%Z (em_time (fp_enc s))) (getz 0%Z input) j) /\
    nrm N (fun i => val y i - IZR (getz 0%Z (em_time (fp_enc s')) (zlead c + i))) <= E + blk (lost c x) + 3 / 10000000 * (B + 2 * tt).
Proof.
  intros [I1 I2 I3 I4 I5 I6 I7 I8 I9 I10] Hi Hs. destruct (dct_factors_ok c L) as (fl & Ef & Ch & Sm & Ne). destruct (geo c L) as (G1 & G2 & G2b & G3). destruct (config_geom c L) as (_ & GM & _ & GE & _).
  set (h := (nf c / 2)%Z) in *. assert (Hh : nf c = (2 * h)%Z) by (unfold h; Z.div_mod_to_equations; lia).
  unfold fpair_step. destruct (emdct_run_spec o c (fp_enc s) input (fp_out s) (fp_bands s) h fl w L I1 Hi I3 I4 Hh Ef Ch Sm Ne Ew) as (nn & x & b & e & E1 & L1 & Lb & Me & Te & Tx). rewrite E1. cbn [bind].
  destruct (sub_ok x 0 (ne c) ltac:(lia) ltac:(lia)) as (lines & E2 & L2 & T2). rewrite E2. cbn [bind].
  destruct (mdct_run_spec o c (fp_dec s) lines (fp_freq s) h fl w L I2 ltac:(lia) I5 Hh Ef Ch Sm Ne Ew) as (y & m & E3 & L3 & Mm & Zm & Ty & To). rewrite E3. cbn [bind].
  change (getz (fz o 0%Z)) with (getz f0) in *. set (T := getz 0%Z (em_time e)) in *. set (T0 := getz 0%Z (em_time (fp_enc s))) in *.
  assert (HT : forall j, (0 <= j < 2 * nf c)%Z -> (Z.abs (T j) <= M)%Z).
  { intros j Hj. rewrite Te by exact Hj. unfold next_time. destruct (Z.ltb_spec j (nf c - zlead c)); [apply I7; lia|]. destruct (Z.ltb_spec j (2 * nf c - zlead c)); [apply Hs; lia|apply I7; lia]. }
  assert (HT' : forall j, (0 <= j < 2 * nf c)%Z -> (Z.abs (T j) <= 32768)%Z) by (intros j Hj; specialize (HT j Hj); lia).
  set (p := padded o (ne c) lines (m_zeros (fp_dec s))) in *.
  assert (Hx : forall k, (0 <= k < nf c)%Z -> getz f0 x k = line lm w h fl T k) by (intros k Hk; exact (Tx k Hk)).
  destruct (forward_err lm c w h fl L Ew Hh Ef Ch Sm Ne Htw T HT') as (Fx & _).
  assert (Hp : forall k, (0 <= k < nf c)%Z -> is_finite (p k) = true /\ B2R (p k) = if (k <? ne c)%Z then B2R (getz f0 x k) else 0).
  { intros k Hk. unfold p, padded. change (getz (fz o 0%Z)) with (getz f0). destruct (Z.ltb_spec k (ne c)).
    - rewrite T2 by lia. rewrite Z.add_0_l. split; [rewrite Hx by lia; apply Fx; lia|reflexivity].
    - apply I6. lia. }
  destruct (block_err lm c w h fl L Ew Hh Ef Ch Sm Ne Htw T HT' (getz f0 x) p Hx Hp) as (K1 & K2 & K3 & K4). set (t := tda_win o h fl (getz (0, 0)%Z w) p) in *.
  pose proof (B_size T HT) as BT. pose proof B_big as BB. pose proof th_pos as P0. assert (P1 : 0 < tt) by (unfold tt; lra).
  assert (Dr : nrm N (fun k => if (k <? ne c)%Z then 0 else B2R (getz f0 x k)) = lost c x).
  { rewrite (nrm_ext N _ (fun k => if (k <? Z.of_nat (Z.to_nat (ne c)))%Z then 0 else B2R (getz f0 x k))) by (intros; rewrite Z2Nat.id by lia; reflexivity). rewrite nrm_tail by lia. unfold lost. rewrite Z2Nat.id by lia. replace (N - Z.to_nat (ne c))%nat with (Z.to_nat (nf c - ne c)) by lia. reflexivity. }
  rewrite Dr in K2. assert (K2' : nrm N2 (fun n => B2R (t n) - alias c w T n) <= blk (lost c x)) by (unfold blk; lra). assert (K4' : nrm N2 (fun n => B2R (t n)) <= 232 / 100 * (B + 2 * tt)) by lra.
  eexists _, x, y. split; [reflexivity|]. split.
  { constructor; cbn [fp_enc fp_dec fp_out fp_bands fp_freq]; auto.
    - rewrite Zm. exact I6.
    - intros i Hi'. destruct Mm as [M1 _]. rewrite M1 in Hi'. rewrite To by lia. apply K1. lia.
    - fold T. eapply Rle_trans; [|exact K2']. rewrite (nrm_ext K _ (fun i => B2R (t (nf c + zlead c + i)%Z) - alias c w T (nf c + zlead c + i))).
      + apply (nrm_part K N2 (nf c + zlead c) (fun n => B2R (t n) - alias c w T n)); lia.
      + intros i Hi'. unfold val. rewrite To by lia. reflexivity.
    - eapply Rle_trans; [|exact K4']. rewrite (nrm_ext K _ (fun i => B2R (t (nf c + zlead c + i)%Z))).
      + apply (nrm_part K N2 (nf c + zlead c) (fun n => B2R (t n))); lia.
      + intros i Hi'. unfold val. rewrite To by lia. reflexivity. }
  split; [exact L1|]. split; [exact L3|]. split; [intros k Hk; rewrite Hx by lia; apply Fx; lia|]. cbn [fp_enc]. fold T.
  set (a := val (m_ola (fp_dec s))) in *. set (a' := fun i => if (i <? Z.of_nat K)%Z then a i else 0).
  assert (Step : forall i, (0 <= i < nf c)%Z -> is_finite (getz f0 y i) = true /\ Rabs (val y i - (a' i + B2R (t (zlead c + i)%Z))) <= vv * (Rabs (a' i) + Rabs (B2R (t (zlead c + i)%Z)) + 2 * th)).
  { intros i Hi'. unfold val, a'. rewrite Z2Nat.id by lia. rewrite Ty by exact Hi'. cbv zeta. fold t. pose proof vv_num as V. destruct (Z.ltb_spec i (nf c - zlead c)).
    - change (getz (fz o 0%Z)) with (getz f0). assert (Sa : Rabs (a i) <= 232 / 100 * (B + 2 * tt)) by (eapply Rle_trans; [apply (nrm_get K a i); lia|exact I10]).
      assert (St : Rabs (B2R (t (zlead c + i)%Z)) <= 232 / 100 * (B + 2 * tt)) by (eapply Rle_trans; [apply (nrm_get N2 (fun n => B2R (t n)) (zlead c + i)); lia|exact K4']).
      apply ola_err; [apply I8; destruct I2 as [Q _]; lia|apply K1; lia|]. change (B2R (getz f0 (m_ola (fp_dec s)) i)) with (a i). assert (TS : tt <= 1) by (rewrite tt_bpow; change 1 with (bpow radix2 0); apply bpow_le; lia).
      apply Rle_trans with (bpow radix2 30); [change (bpow radix2 30) with 1073741824; lra|apply bpow_le; lia].
    - split; [apply K1; lia|]. replace (B2R (t (zlead c + i)%Z) - (0 + B2R (t (zlead c + i)%Z))) with 0 by ring. rewrite Rabs_R0. pose proof (Rabs_pos 0). pose proof (Rabs_pos (B2R (t (zlead c + i)%Z))). apply Rmult_le_pos; lra. }
  split; [intros i Hi'; apply Step; lia|]. split; [exact Te|].
  set (al := fun i => if (i <? Z.of_nat K)%Z then alias c w T0 (nf c + zlead c + i) else 0).
  assert (C : forall i, (0 <= i < nf c)%Z -> al i + alias c w T (zlead c + i) = IZR (T (zlead c + i)%Z) * compl c w ((zlead c + i) mod nf c)).
  { intros i Hi'. unfold al. rewrite Z2Nat.id by lia. pose proof (tdac c w L Ew T0 (getz 0%Z input) i Hi') as C. cbv zeta in C. rewrite (Te (zlead c + i)%Z) by lia. rewrite <- C. f_equal. apply (alias_ext c w h Hh); [lia|]. intros j Hj. apply Te. exact Hj. }
  assert (N1 : nrm N (fun i => a' i - al i) <= E).
  { eapply Rle_trans; [|exact I9]. rewrite <- (nrm_head K N) by lia. right. apply nrm_ext. intros i Hi'. unfold a', al. destruct (i <? Z.of_nat K)%Z; [reflexivity|ring]. }
  assert (N3 : nrm N (fun i => B2R (t (zlead c + i)%Z) - alias c w T (zlead c + i)) <= blk (lost c x)).
  { eapply Rle_trans; [|exact K2']. apply (nrm_part N N2 (zlead c) (fun n => B2R (t n) - alias c w T n)); lia. }
  assert (Q1 : nrm N (fun i => Rabs (a' i)) <= 232 / 100 * (B + 2 * tt)).
  { eapply Rle_trans; [|exact I10]. rewrite <- (nrm_head K N) by lia. apply nrm_sub0. intros i Hi'. rewrite Rabs_Rabsolu. apply Rle_refl. }
  assert (Q2 : nrm N (fun i => Rabs (B2R (t (zlead c + i)%Z))) <= 232 / 100 * (B + 2 * tt)).
  { eapply Rle_trans; [|exact K4']. eapply Rle_trans; [|apply (nrm_part N N2 (zlead c) (fun n => B2R (t n))); lia]. apply nrm_sub0. intros i Hi'. rewrite Rabs_Rabsolu. apply Rle_refl. }
  assert (SN : sqrt (INR N) <= 22). { rewrite <- (sqrt_square 22) by lra. apply sqrt_le_1_alt. rewrite INR_IZR_INZ, Z2Nat.id by lia. rewrite <- mult_IZR. apply IZR_le. lia. }
  pose proof vv_num as V.
  assert (Q3 : nrm N (fun i => vv * (Rabs (a' i) + Rabs (B2R (t (zlead c + i)%Z)) + 2 * th)) <= 28 / 100000000 * (B + 2 * tt)).
  { rewrite nrm_scale by lra. assert (Q : nrm N (fun i => Rabs (a' i) + Rabs (B2R (t (zlead c + i)%Z)) + 2 * th) <= 464 / 100 * (B + 2 * tt) + 44 * th).
    { eapply Rle_trans; [apply (nrm_tri N (fun i => Rabs (a' i) + Rabs (B2R (t (zlead c + i)%Z))))|]. rewrite (nrm_const N (2 * th)) by lra. pose proof (nrm_tri N (fun i => Rabs (a' i)) (fun i => Rabs (B2R (t (zlead c + i)%Z)))) as Tr. cbv beta in Tr.
      assert (sqrt (INR N) * (2 * th) <= 22 * (2 * th)) by (apply Rmult_le_compat_r; lra). lra. }
    apply Rle_trans with (59605 / 1000000000000 * (464 / 100 * (B + 2 * tt) + 44 * th)); [apply Rmult_le_compat; [lra|apply nrm_pos|lra|exact Q]|]. unfold tt in *. lra. }
  assert (Q4 : nrm N (fun i => IZR (T (zlead c + i)%Z) * (compl c w ((zlead c + i) mod nf c) - 1)) <= 1 / 100000000 * B).
  { apply Rle_trans with (nrm N (fun i => 1 / 100000000 * Rabs (IZR (T (zlead c + i)%Z)))).
    - apply nrm_le. intros i Hi'. rewrite Rabs_mult, Rmult_comm. apply Rmult_le_compat_r; [apply Rabs_pos|]. eapply Rle_trans; [apply (compl_near c w L Ew); apply Z.mod_pos_bound; lia|]. change (10 ^ 14)%Z with 100000000000000%Z. lra.
    - rewrite nrm_scale by lra. apply Rmult_le_compat_l; [lra|]. eapply Rle_trans; [|exact BT]. eapply Rle_trans; [|apply (nrm_part N N2 (zlead c) (fun j => IZR (T j))); lia]. apply nrm_sub0. intros i _. rewrite Rabs_Rabsolu. apply Rle_refl. }
  eapply Rle_trans; [apply (nrm_sub N _ (fun i => val y i - (a' i + B2R (t (zlead c + i)%Z))) (fun i => (a' i - al i) + ((B2R (t (zlead c + i)%Z) - alias c w T (zlead c + i)) + IZR (T (zlead c + i)%Z) * (compl c w ((zlead c + i) mod nf c) - 1))))|].
  - intros i Hi'. eapply Rle_trans; [|apply Rabs_triang]. right. f_equal. specialize (C i ltac:(lia)). lra.
  - assert (R1 : nrm N (fun i => val y i - (a' i + B2R (t (zlead c + i)%Z))) <= 28 / 100000000 * (B + 2 * tt)) by (eapply Rle_trans; [|exact Q3]; apply nrm_le; intros i Hi'; apply Step; lia).
    assert (R2 := nrm_tri N (fun i => a' i - al i) (fun i => (B2R (t (zlead c + i)%Z) - alias c w T (zlead c + i)) + IZR (T (zlead c + i)%Z) * (compl c w ((zlead c + i) mod nf c) - 1))).
    assert (R3 := nrm_tri N (fun i => B2R (t (zlead c + i)%Z) - alias c w T (zlead c + i)) (fun i => IZR (T (zlead c + i)%Z) * (compl c w ((zlead c + i) mod nf c) - 1))). cbv beta in R2, R3. lra.
Qed.
Lemma nrm_neg_pos n f E : nrm n f <= E -> 0 <= E. Proof. intros H. eapply Rle_trans; [apply nrm_pos|exact H]. Qed.

(* what the frame before contributes *)
Definition before (E : R) (r : list (list f32 * list f32)) (n : nat) : R := match n with O => E | S n => blk (lost c (fst (nth n r ([], [])))) end.
Theorem fpair_run_spec : forall frames s E, fpair_inv s E -> Forall (fun f => len f = nf c /\ Forall (fun v => (Z.abs v <= M)%Z) f) frames ->
  exists r, fpair_run lm c s frames = Ok r /\ length r = length frames /\
    forall n, (n < length frames)%nat -> let '(x, y) := nth n r ([], []) in len x = nf c /\ len y = nf c /\ fin x /\ fin y /\
      nrm N (fun i => val y i - IZR (stream c (getz 0%Z (em_time (fp_enc s))) frames (Z.of_nat n * nf c + i))) <= before E r n + blk (lost c x) + 3 / 10000000 * (B + 2 * tt).
Proof.
  destruct (geo c L) as (G1 & _). induction frames as [|f frames IH]; intros s E I Hf; [exists []; split; [reflexivity|]; split; [reflexivity|]; cbn; lia|].
  pose proof (Forall_inv Hf) as [Lf Bf]. apply Forall_inv_tail in Hf. cbn [fpair_run].
  destruct (fpair_step_spec s E f I Lf) as (s' & x & y & Es & I' & Lx & Ly & Fx & Fy & Ht & Hy). { intros j Hj. rewrite Forall_forall in Bf. apply Bf. apply getz_In. lia. }
  rewrite Es. cbn [bind]. destruct (IH s' _ I' Hf) as (r & Er & Lr & Hr). rewrite Er. cbn [bind]. exists ((x, y) :: r). split; [reflexivity|]. split; [cbn [length]; lia|].
  destruct (stream_step c _ _ f frames L Lf Ht) as [S1 S2]. intros n Hn. destruct n as [|n].
  - cbn [nth before]. repeat (split; [assumption|]). eapply Rle_trans; [|exact Hy]. right. apply nrm_ext. intros i Hi. rewrite Z.mul_0_l, Z.add_0_l, S1 by lia. reflexivity.
  - cbn [nth]. cbn [length] in Hn. specialize (Hr n ltac:(lia)). destruct (nth n r ([], [])) as [xn yn] eqn:En. destruct Hr as (A & A2 & A3 & A4 & A5). repeat (split; [assumption|]).
    replace (before E ((x, y) :: r) (S n)) with (before (blk (lost c x)) r n) by (unfold before; destruct n; reflexivity). eapply Rle_trans; [|exact A5]. right. apply nrm_ext. intros i Hi.
    replace (Z.of_nat (S n) * nf c + i)%Z with (nf c + (Z.of_nat n * nf c + i))%Z by lia. rewrite S2 by lia. reflexivity.
Qed.
End Stream.
