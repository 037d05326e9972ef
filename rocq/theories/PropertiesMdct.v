(* C37: the forward transform is the MDCT, and analysis followed by synthesis gives the input back, in exact arithmetic. *)
From Coq Require Import ZArith List Bool Lia Reals Lra.
From Verif Require Import Base Config FrameSpec FftFactor FactorProofs Buffers Loops Scalar Fft DecSignal DecMdct DecTotal DecState FftSpec RealOps DctSpec MdctSpec EncMdct TdacSpec Dct4Inv Tdac MdctFormula MdctStream.
Import ListNotations.
Local Open Scope R_scope.

(* One frame of the encoder: the lines are the MDCT of the samples of the last two frames under the table's window. The block
   of 2 nf samples is: the nf - z last ones of the frames before, the nf of this frame, and z samples under the zero part
   of the window. *)
Theorem C37_forward_transform_is_the_mdct c e input out bands w : legal_config c -> emdct_ok c e -> len input = nf c -> len out = nf c -> len bands = nb c -> mdct_window c = Ok w ->
  exists nn x b e', emdct_run R_ops c e input out bands = Ok (nn, x, b, e') /\ len x = nf c /\
    (forall k, (0 <= k < nf c)%Z -> getz 0 x k = mdct_formula (nf c) (win w) (fun n => IZR (getz 0%Z (em_time e') n)) k) /\
    (forall j, (0 <= j < nf c)%Z -> getz 0%Z (em_time e') (nf c - zlead c + j) = getz 0%Z input j) /\
    (forall j, (0 <= j < nf c - zlead c)%Z -> getz 0%Z (em_time e') j = getz 0%Z (em_time e) (nf c + j)).
Proof.
  intros L M Li Lo Lb Ew. destruct (dct_factors_ok c L) as (fl & Ef & Ch & Sm & Ne). destruct (config_geom c L) as (G1 & G2 & G3 & G4 & _).
  assert (Hh : nf c = (2 * (nf c / 2))%Z) by (Z.div_mod_to_equations; lia).
  destruct (emdct_run_spec R_ops c e input out bands (nf c / 2) fl w L M Li Lo Lb Hh Ef Ch Sm Ne Ew) as (nn & x & b & e' & E & Lx & _ & _ & Te & Tx).
  exists nn, x, b, e'. split; [exact E|]. split; [exact Lx|]. split; [|split].
  - intros k Hk. change (getz 0 x k) with (getz (fz R_ops 0%Z) x k). rewrite Tx by exact Hk. rewrite <- (coef_is_mdct c w (nf c / 2) (getz 0%Z (em_time e')) k L Hh).
    unfold coef, mdct_gain, gain. cbn [R_ops fmul fdiv fsqrt fz]. rewrite dct_val_dct4 by (auto; lia). rewrite <- Hh. reflexivity.
  - intros j Hj. rewrite Te by lia. unfold next_time. destruct (Z.ltb_spec (nf c - zlead c + j) (nf c - zlead c)); [lia|]. destruct (Z.ltb_spec (nf c - zlead c + j) (2 * nf c - zlead c)); [|lia]. f_equal. lia.
  - intros j Hj. rewrite Te by lia. unfold next_time. destruct (Z.ltb_spec j (nf c - zlead c)); [|lia]. reflexivity.
Qed.

(* the input behind nf - 2 z zeros: the delay of the pair *)
Definition delayed (c : config) (frames : list (list Z)) (j : Z) : R := IZR (getz 0%Z (repeat 0%Z (Z.to_nat (nf c - 2 * zlead c)) ++ concat frames) j).
Lemma fresh_stream c s frames j : legal_config c -> fresh c s -> (0 <= j)%Z -> IZR (stream c (getz 0%Z (em_time (ps_enc s))) frames j) = delayed c frames j.
Proof.
  intros L (_ & _ & _ & _ & _ & H & _) Hj. assert (G : (0 <= nf c - 2 * zlead c)%Z) by (destruct L as (f' & d & ->); destruct f', d; vm_compute; intuition discriminate).
  unfold stream, delayed. cbv zeta. rewrite getz_app by lia. rewrite len_repeat, Z2Nat.id by lia. destruct (Z.ltb_spec j (nf c - 2 * zlead c)); [|reflexivity].
  rewrite H. unfold getz. rewrite nth_repeat. reflexivity.
Qed.

(* Any number of frames of any content, any configuration: output sample j differs from input sample j - (nf - 2 z) by a
   relative error of 4e-14 (the precision of the window tables) plus what the lines above the coded bandwidth carry
   (44.1 and 48 kHz only) in this frame and the one before. *)
Theorem C37_reconstruction c s frames : legal_config c -> fresh c s -> Forall (fun f => len f = nf c) frames ->
  exists r, pair_run c s frames = Ok r /\ length r = length frames /\
    forall n, (n < length frames)%nat -> let '(x, y) := nth n r ([], []) in len x = nf c /\ len y = nf c /\
      forall i, (0 <= i < nf c)%Z -> let p := delayed c frames (Z.of_nat n * nf c + i) in
        Rabs (getz 0 y i - p) <= 4 / IZR (10 ^ 14) * Rabs p + 107 / 50 / sqrt (2 * IZR (nf c)) * (drop_before c 0 r n + dropped c x).
Proof.
  intros L Fr Hf. destruct (mdct_window_ok c L) as (w & Ew & _). destruct (config_geom c L) as (G1 & _).
  destruct (pair_run_spec c w L Ew frames s 0 (fresh_inv c w s L Fr) Hf) as (r & E & Lr & H). exists r. split; [exact E|]. split; [exact Lr|]. intros n Hn. specialize (H n Hn).
  destruct (nth n r ([], [])) as [x y]. destruct H as (A & B & C). split; [exact A|]. split; [exact B|]. intros i Hi. specialize (C i Hi). cbv zeta in *. rewrite fresh_stream in C by (auto; lia).
  replace (107 / 50 / sqrt (2 * IZR (nf c))) with (slack c); [exact C|]. unfold slack. field. apply Rgt_not_eq, sqrt_lt_R0. rewrite <- mult_IZR. apply IZR_lt. lia.
Qed.
(* all the frequencies up to 32 kHz code the whole spectrum *)
Lemma full_bandwidth c : legal_config c -> (fs c <= 32000)%Z <-> ne c = nf c.
Proof. intros (f & d & ->). destruct f, d; vm_compute; split; intro H; congruence || (exfalso; now apply H). Qed.
Theorem C37_perfect_reconstruction c s frames : legal_config c -> (fs c <= 32000)%Z -> fresh c s -> Forall (fun f => len f = nf c) frames ->
  exists r, pair_run c s frames = Ok r /\ length r = length frames /\
    forall n, (n < length frames)%nat -> forall i, (0 <= i < nf c)%Z -> let p := delayed c frames (Z.of_nat n * nf c + i) in
      Rabs (getz 0 (snd (nth n r ([], []))) i - p) <= 4 / IZR (10 ^ 14) * Rabs p.
Proof.
  intros L Hfs Fr Hf. destruct (C37_reconstruction c s frames L Fr Hf) as (r & E & Lr & H). exists r. split; [exact E|]. split; [exact Lr|]. intros n Hn i Hi. apply (full_bandwidth c L) in Hfs.
  assert (Z0 : forall x, dropped c x = 0). { intros x. unfold dropped. rewrite Hfs, Z.sub_diag. reflexivity. }
  specialize (H n Hn). destruct (nth n r ([], [])) as [x y]. destruct H as (_ & _ & C). specialize (C i Hi). cbv zeta in *. cbn [snd]. rewrite Z0 in C.
  replace (drop_before c 0 r n) with 0 in C by (unfold drop_before; destruct n; [reflexivity|symmetry; apply Z0]). rewrite Rplus_0_r, Rmult_0_r, Rplus_0_r in C. exact C.
Qed.

(* ---- the hypotheses can be met ---- *)
Definition zero_pair (c : config) : pair_state :=
  let z n := repeat 0 (Z.to_nat n) in let cz n := repeat (0, 0) (Z.to_nat n) in
  mkPair (mkEmdct (repeat 0%Z (Z.to_nat (2 * nf c))) (cz (nf c / 2)%Z) (cz (nf c / 2)%Z))
    (mkMdct (z (nf c - zlead c)%Z) (z (nf c * 2)%Z) (z (nf c - ne c)%Z) (z (nf c / 2)%Z) (cz (nf c / 2)%Z) (cz (nf c / 2)%Z)) (z (nf c)) (z (nb c)) (z (nf c)).
Example C37_fresh_exists c : legal_config c -> fresh c (zero_pair c).
Proof.
  intros L. destruct (config_geom c L) as (G1 & G2 & G3 & G4 & G5 & G6 & G7). unfold fresh, zero_pair. cbn [ps_enc ps_dec ps_out ps_bands ps_freq em_time m_zeros m_ola].
  split; [constructor; cbn [em_time em_in em_out]; rewrite len_repeat; Z.div_mod_to_equations; lia|].
  split; [constructor; cbn [m_ola m_t m_zeros m_half m_in m_out]; rewrite len_repeat; Z.div_mod_to_equations; lia|].
  rewrite !len_repeat. split; [lia|]. split; [lia|]. split; [lia|]. split; [intros j; unfold getz; apply nth_repeat|]. split; intros j; unfold getz; apply nth_repeat.
Qed.
(* two frames at 16 kHz: the sample -5 of the first one comes out 40 samples later *)
Example C37_delay : let c := config_new Hz16000 TenMs in let f := repeat 0%Z 100 ++ [-5]%Z ++ repeat 7%Z 59 in
  Forall (fun f => len f = nf c) [f; f] /\ delayed c [f; f] 140 = -5 /\ (nf c - 2 * zlead c = 40)%Z.
Proof. cbn -[delayed]. split; [repeat constructor|]. split; reflexivity. Qed.

Print Assumptions C37_forward_transform_is_the_mdct.
Print Assumptions C37_reconstruction.
Print Assumptions C37_perfect_reconstruction.
