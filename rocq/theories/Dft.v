(* The mixed radix FFT computes the discrete Fourier transform (exact arithmetic), for every length that is a product of 2, 3, 4 and 5. *)
From Coq Require Import ZArith List Bool Lia Reals Lra.
From Coquelicot Require Import Complex.
From Verif Require Import Base FftFactor FactorProofs Loops Scalar Fft DecTotal DecState FftSpec RealOps.
Import ListNotations.
Local Open Scope R_scope.

(* ---- specification: DFT ---- *)
Fixpoint csum (n : nat) (f : Z -> C) : C := match n with O => RtoC 0 | S k => Cplus (csum k f) (f (Z.of_nat k)) end.
(* exp(-2 pi i k / n) *)
Definition W (n k : Z) : C := (cos (- (2 * PI * IZR k / IZR n)), sin (- (2 * PI * IZR k / IZR n))).
Definition dft (n : Z) (x : Z -> C) (j : Z) : C := csum (Z.to_nat n) (fun t => Cmult (x t) (W n (j * t))).

(* ---- roots of unity ---- *)
Definition cis (t : R) : C := (cos t, sin t).
Lemma cis_add a b : cis (a + b) = Cmult (cis a) (cis b).
Proof. unfold cis, Cmult. cbn [fst snd]. rewrite cos_plus, sin_plus. f_equal; ring. Qed.
Lemma cis_nat k : cis (2 * PI * INR k) = RtoC 1.
Proof.
  unfold cis. replace (2 * PI * INR k) with (0 + 2 * INR k * PI) by ring. rewrite cos_period, sin_period, cos_0, sin_0. reflexivity.
Qed.
Lemma cis_Z k : cis (2 * PI * IZR k) = RtoC 1.
Proof.
  destruct (Z_le_gt_dec 0 k) as [H|H].
  - rewrite <- (Z2Nat.id k) by lia. rewrite <- INR_IZR_INZ. apply cis_nat.
  - assert (E : Cmult (cis (2 * PI * IZR k)) (cis (2 * PI * IZR (- k))) = RtoC 1).
    { rewrite <- cis_add, opp_IZR. replace (_ + _) with 0 by ring. unfold cis. now rewrite cos_0, sin_0. }
    rewrite <- (Z2Nat.id (- k)) in E by lia. rewrite <- INR_IZR_INZ, cis_nat in E. rewrite Cmult_1_r in E. exact E.
Qed.
Lemma W_cis n k : W n k = cis (- (2 * PI * IZR k / IZR n)).
Proof. reflexivity. Qed.
Lemma W_add n a b : W n (a + b) = Cmult (W n a) (W n b).
Proof. rewrite !W_cis, <- cis_add, plus_IZR. f_equal. unfold Rdiv. ring. Qed.
Lemma W_0 n : W n 0 = RtoC 1.
Proof. unfold W. replace (- (2 * PI * 0 / IZR n)) with 0 by (unfold Rdiv; ring). now rewrite cos_0, sin_0. Qed.
Lemma W_scale n s k : (n <> 0)%Z -> (s <> 0)%Z -> W (s * n) (s * k) = W n k.
Proof. intros Hn Hs. rewrite !W_cis, !mult_IZR. f_equal. f_equal. field. split; apply not_0_IZR; assumption. Qed.
Lemma W_period n k : (n <> 0)%Z -> W n (n * k) = RtoC 1.
Proof. intros Hn. rewrite W_cis, mult_IZR. replace (- (2 * PI * (IZR n * IZR k) / IZR n)) with (2 * PI * IZR (- k)) by (rewrite opp_IZR; field; apply not_0_IZR; assumption). apply cis_Z. Qed.
Lemma W_conj n k : (n <> 0)%Z -> W n (n - k) = (fst (W n k), - snd (W n k)).
Proof.
  intros Hn. assert (E : Cmult (W n (n - k)) (W n k) = RtoC 1). { rewrite <- W_add. replace (n - k + k)%Z with (n * 1)%Z by lia. now apply W_period. }
  assert (N : fst (W n k) * fst (W n k) + snd (W n k) * snd (W n k) = 1). { unfold W. cbn [fst snd]. pose proof (sin2_cos2 (- (2 * PI * IZR k / IZR n))) as Q. unfold Rsqr in Q. lra. }
  destruct (W n (n - k)) as [a b], (W n k) as [c d]. unfold Cmult, RtoC in E. cbn [fst snd] in *. injection E as E1 E2. f_equal.
  - replace a with (a * (c * c + d * d)) by (rewrite N; ring). replace (a * (c * c + d * d)) with ((a * c - b * d) * c + (a * d + b * c) * d) by ring. rewrite E1, E2. ring.
  - replace b with (b * (c * c + d * d)) by (rewrite N; ring). replace (b * (c * c + d * d)) with ((a * d + b * c) * c - (a * c - b * d) * d) by ring. rewrite E1, E2. ring.
Qed.
Lemma W_2_1 : W 2 1 = (-1, 0).
Proof. unfold W. replace (- (2 * PI * 1 / 2)) with (- PI) by lra. rewrite cos_neg, sin_neg, cos_PI, sin_PI. f_equal. ring. Qed.
Lemma W_4_1 : W 4 1 = (0, -1).
Proof. unfold W. replace (- (2 * PI * 1 / 4)) with (- (PI / 2)) by lra. rewrite cos_neg, sin_neg, cos_PI2, sin_PI2. reflexivity. Qed.
Lemma W_3_re : fst (W 3 1) = - / 2.
Proof. unfold W, fst. rewrite cos_neg. replace (2 * PI * 1 / 3) with (2 * (PI / 3)) by lra. rewrite cos_2a, cos_PI3, sin_PI3. unfold Rdiv.
  replace (1 * / 2 * (1 * / 2) - sqrt 3 * / 2 * (sqrt 3 * / 2)) with (/ 4 - (sqrt 3 * sqrt 3) / 4) by field. rewrite sqrt_sqrt by lra. lra. Qed.

(* ---- butterflies ---- *)
Lemma bf_dft p (y w e : Z -> C) k : (2 <= p <= 5)%Z -> (0 <= k < p)%Z -> w 0%Z = RtoC 1 -> (forall q, (0 <= q < p)%Z -> e q = W p q) ->
  bf R_ops p y w e k = csum (Z.to_nat p) (fun q => Cmult (Cmult (y q) (w q)) (W p (q * k))).
Proof.
  intros Hp Hk H0 He. assert (D : (p = 2 \/ p = 3 \/ p = 4 \/ p = 5)%Z) by lia. unfold bf. destruct D as [->|[->|[->| ->]]]; cbn [Z.eqb Pos.eqb].
  - change (Z.to_nat 2) with 2%nat. cbn [csum Z.of_nat Pos.of_succ_nat]. rewrite H0. change (0 * k)%Z with 0%Z. rewrite W_0. rewrite Z.mul_1_l.
    assert (D : (k = 0 \/ k = 1)%Z) by lia. destruct D as [->| ->]; unfold bf2; cbn [Z.eqb].
    + rewrite W_0. destruct (y 0%Z), (y 1%Z), (w 1%Z). unfold cadd, cmul, Cplus, Cmult, RtoC. cbn [fst snd R_ops fadd fsub fmul]. f_equal; ring.
    + rewrite W_2_1. destruct (y 0%Z), (y 1%Z), (w 1%Z). unfold csub, cadd, cmul, Cplus, Cmult, RtoC. cbn [fst snd R_ops fadd fsub fmul]. f_equal; ring.
  - change (Z.to_nat 3) with 3%nat. cbn [csum Z.of_nat Pos.of_succ_nat Pos.succ]. rewrite H0. change (0 * k)%Z with 0%Z. rewrite W_0. rewrite Z.mul_1_l.
    assert (E1 := W_3_re). assert (E2 : W 3 2 = (fst (W 3 1), - snd (W 3 1))) by (apply (W_conj 3 1); lia).
    unfold bf3. rewrite R_half. rewrite (He 1%Z) by lia.
    assert (D : (k = 0 \/ k = 1 \/ k = 2)%Z) by lia. destruct D as [->|[->| ->]]; cbn [Z.eqb Pos.eqb].
    + change (2 * 0)%Z with 0%Z. rewrite W_0. destruct (y 0%Z), (y 1%Z), (y 2%Z), (w 1%Z), (w 2%Z). unfold csub, cadd, cmul, cscale, Cplus, Cmult, RtoC. cbn [fst snd R_ops fadd fsub fmul]. f_equal; ring.
    + change (2 * 1)%Z with 2%Z. rewrite E2. destruct (W 3 1) as [a b]. cbn [fst snd] in *. subst a.
      destruct (y 0%Z), (y 1%Z), (y 2%Z), (w 1%Z), (w 2%Z). unfold csub, cadd, cmul, cscale, Cplus, Cmult, RtoC. cbn [fst snd R_ops fadd fsub fmul]. f_equal; field.
    + change (2 * 2)%Z with (3 * 1 + 1)%Z. rewrite W_add, W_period by lia. rewrite E2. destruct (W 3 1) as [a b]. cbn [fst snd] in *. subst a.
      destruct (y 0%Z), (y 1%Z), (y 2%Z), (w 1%Z), (w 2%Z). unfold csub, cadd, cmul, cscale, Cplus, Cmult, RtoC. cbn [fst snd R_ops fadd fsub fmul]. f_equal; field.
  - change (Z.to_nat 4) with 4%nat. cbn [csum Z.of_nat Pos.of_succ_nat Pos.succ]. rewrite H0. change (0 * k)%Z with 0%Z. rewrite W_0. rewrite Z.mul_1_l.
    assert (E1 := W_4_1). assert (E3 : W 4 3 = (0, 1)). { change 3%Z with (4 - 1)%Z. rewrite W_conj by lia. rewrite W_4_1. cbn [fst snd]. f_equal. ring. }
    assert (E2 : W 4 2 = (-1, 0)). { change (W 4 2) with (W 4 (1 + 1)). rewrite W_add, W_4_1. unfold Cmult. cbn [fst snd]. f_equal; ring. }
    unfold bf4. assert (D : (k = 0 \/ k = 1 \/ k = 2 \/ k = 3)%Z) by lia. destruct D as [->|[->|[->| ->]]]; cbn [Z.eqb Pos.eqb].
    + change (2 * 0)%Z with 0%Z. change (3 * 0)%Z with 0%Z. rewrite W_0. destruct (y 0%Z), (y 1%Z), (y 2%Z), (y 3%Z), (w 1%Z), (w 2%Z), (w 3%Z). unfold csub, cadd, cmul, Cplus, Cmult, RtoC. cbn [fst snd R_ops fadd fsub fmul]. f_equal; ring.
    + change (2 * 1)%Z with 2%Z. change (3 * 1)%Z with 3%Z. rewrite E1, E2, E3. destruct (y 0%Z), (y 1%Z), (y 2%Z), (y 3%Z), (w 1%Z), (w 2%Z), (w 3%Z). unfold csub, cadd, cmul, Cplus, Cmult, RtoC. cbn [fst snd R_ops fadd fsub fmul]. f_equal; ring.
    + change (2 * 2)%Z with (4 * 1)%Z. change (3 * 2)%Z with (4 * 1 + 2)%Z. rewrite W_add, W_period by lia. rewrite E2. destruct (y 0%Z), (y 1%Z), (y 2%Z), (y 3%Z), (w 1%Z), (w 2%Z), (w 3%Z). unfold csub, cadd, cmul, Cplus, Cmult, RtoC. cbn [fst snd R_ops fadd fsub fmul]. f_equal; ring.
    + change (2 * 3)%Z with (4 * 1 + 2)%Z. change (3 * 3)%Z with (4 * 2 + 1)%Z. rewrite !W_add, !W_period by lia. rewrite E1, E2, E3. destruct (y 0%Z), (y 1%Z), (y 2%Z), (y 3%Z), (w 1%Z), (w 2%Z), (w 3%Z). unfold csub, cadd, cmul, Cplus, Cmult, RtoC. cbn [fst snd R_ops fadd fsub fmul]. f_equal; ring.
  - change (Z.to_nat 5) with 5%nat. cbn [csum Z.of_nat Pos.of_succ_nat Pos.succ]. rewrite H0. change (0 * k)%Z with 0%Z. rewrite W_0. rewrite Z.mul_1_l.
    assert (E4 : W 5 4 = (fst (W 5 1), - snd (W 5 1))) by (apply (W_conj 5 1); lia). assert (E3 : W 5 3 = (fst (W 5 2), - snd (W 5 2))) by (apply (W_conj 5 2); lia).
    unfold bf5. rewrite (He 1%Z), (He 2%Z) by lia.
    assert (D : (k = 0 \/ k = 1 \/ k = 2 \/ k = 3 \/ k = 4)%Z) by lia. destruct D as [->|[->|[->|[->| ->]]]]; cbn [Z.eqb Pos.eqb].
    + change (2 * 0)%Z with 0%Z. change (3 * 0)%Z with 0%Z. change (4 * 0)%Z with 0%Z. rewrite W_0.
      destruct (y 0%Z), (y 1%Z), (y 2%Z), (y 3%Z), (y 4%Z), (w 1%Z), (w 2%Z), (w 3%Z), (w 4%Z). unfold csub, cadd, cmul, Cplus, Cmult, RtoC. cbn [fst snd R_ops fadd fsub fmul fneg]. f_equal; ring.
    + change (2 * 1)%Z with 2%Z. change (3 * 1)%Z with 3%Z. change (4 * 1)%Z with 4%Z. rewrite E3, E4. destruct (W 5 1), (W 5 2).
      destruct (y 0%Z), (y 1%Z), (y 2%Z), (y 3%Z), (y 4%Z), (w 1%Z), (w 2%Z), (w 3%Z), (w 4%Z). unfold csub, cadd, cmul, Cplus, Cmult, RtoC. cbn [fst snd R_ops fadd fsub fmul fneg]. f_equal; ring.
    + change (2 * 2)%Z with 4%Z. change (3 * 2)%Z with (5 * 1 + 1)%Z. change (4 * 2)%Z with (5 * 1 + 3)%Z. rewrite !W_add, !W_period by lia. rewrite E3, E4. destruct (W 5 1), (W 5 2).
      destruct (y 0%Z), (y 1%Z), (y 2%Z), (y 3%Z), (y 4%Z), (w 1%Z), (w 2%Z), (w 3%Z), (w 4%Z). unfold csub, cadd, cmul, Cplus, Cmult, RtoC. cbn [fst snd R_ops fadd fsub fmul fneg]. f_equal; ring.
    + change (2 * 3)%Z with (5 * 1 + 1)%Z. change (3 * 3)%Z with (5 * 1 + 4)%Z. change (4 * 3)%Z with (5 * 2 + 2)%Z. rewrite !W_add, !W_period by lia. rewrite E3, E4. destruct (W 5 1), (W 5 2).
      destruct (y 0%Z), (y 1%Z), (y 2%Z), (y 3%Z), (y 4%Z), (w 1%Z), (w 2%Z), (w 3%Z), (w 4%Z). unfold csub, cadd, cmul, Cplus, Cmult, RtoC. cbn [fst snd R_ops fadd fsub fmul fneg]. f_equal; ring.
    + change (2 * 4)%Z with (5 * 1 + 3)%Z. change (3 * 4)%Z with (5 * 2 + 2)%Z. change (4 * 4)%Z with (5 * 3 + 1)%Z. rewrite !W_add, !W_period by lia. rewrite E3, E4. destruct (W 5 1), (W 5 2).
      destruct (y 0%Z), (y 1%Z), (y 2%Z), (y 3%Z), (y 4%Z), (w 1%Z), (w 2%Z), (w 3%Z), (w 4%Z). unfold csub, cadd, cmul, Cplus, Cmult, RtoC. cbn [fst snd R_ops fadd fsub fmul fneg]. f_equal; ring.
Qed.

Ltac cring := match goal with |- @eq _ ?a ?b => let H := fresh in assert (H : @eq C a b); [ring|exact H] end.
(* ---- sums ---- *)
Lemma csum_ext n f g : (forall t, (0 <= t < Z.of_nat n)%Z -> f t = g t) -> csum n f = csum n g.
Proof. induction n as [|n IH]; intros H; [reflexivity|]. cbn [csum]. rewrite IH, H; [reflexivity|lia|intros; apply H; lia]. Qed.
Lemma csum_add n f g : csum n (fun t => Cplus (f t) (g t)) = Cplus (csum n f) (csum n g).
Proof. induction n as [|n IH]; cbn [csum]; [now rewrite Cplus_0_r|]. rewrite IH. ring. Qed.
Lemma csum_mul n c f : csum n (fun t => Cmult c (f t)) = Cmult c (csum n f).
Proof. induction n as [|n IH]; cbn [csum]; [now rewrite Cmult_0_r|]. rewrite IH. ring. Qed.
Lemma csum_app n k f : csum (n + k) f = Cplus (csum n f) (csum k (fun t => f (Z.of_nat n + t)%Z)).
Proof.
  induction k as [|k IH]; [rewrite Nat.add_0_r; cbn [csum]; now rewrite Cplus_0_r|]. rewrite Nat.add_succ_r. cbn [csum]. rewrite IH, Nat2Z.inj_add. ring.
Qed.
Lemma csum_zero n : csum n (fun _ => RtoC 0) = RtoC 0.
Proof. induction n as [|n IH]; cbn [csum]; [reflexivity|]. rewrite IH. ring. Qed.
Lemma csum_swap n k f : csum n (fun a => csum k (fun b => f a b)) = csum k (fun b => csum n (fun a => f a b)).
Proof.
  induction n as [|n IH]; cbn [csum]; [symmetry; apply csum_zero|]. rewrite IH, <- csum_add. reflexivity.
Qed.
(* sum over p m terms in p interleaved groups of m *)
Lemma csum_split p m f : csum (p * m) f = csum p (fun q => csum m (fun t => f (q + t * Z.of_nat p)%Z)).
Proof.
  rewrite csum_swap. induction m as [|m IH]; [rewrite Nat.mul_0_r; reflexivity|]. rewrite Nat.mul_succ_r, csum_app, IH. cbn [csum]. f_equal.
  apply csum_ext. intros t Ht. f_equal. rewrite Nat2Z.inj_mul. ring.
Qed.

Lemma fft_val_dft N : (0 < N)%Z -> forall k fl n, (length fl <= 2 * k)%nat -> chain n fl -> small_factors fl -> fl <> [] -> forall fstride (x : Z -> C) j, (1 <= fstride)%Z -> (fstride * n = N)%Z -> (0 <= j < n)%Z ->
  fft_val R_ops (W N) fl fstride x j = dft n x j.
Proof.
  intros HN. induction k as [|k IH]; intros [|p [|m r]] n L Ch S Ne fstride x j Hs Ht Hj; cbn [chain length] in *; try lia; try tauto.
  destruct Ch as (E & _ & Hm & Ch). inversion S as [|? ? Hp S']; subst n. cbn [fft_val].
  pose proof (Z.div_mod j m ltac:(lia)) as D. pose proof (Z.mod_pos_bound j m ltac:(lia)) as D2. set (i := (j mod m)%Z) in *. set (kk := (j / m)%Z) in *.
  assert (D3 : (0 <= kk < p)%Z) by (split; [apply Z.div_pos; lia|apply Z.div_lt_upper_bound; lia]).
  rewrite bf_dft; [|exact Hp|exact D3| |].
  2:{ replace (i * (0 * fstride))%Z with 0%Z by ring. apply W_0. }
  2:{ intros q Hq. replace (q * (fstride * m))%Z with (fstride * m * q)%Z by ring. replace N with (fstride * m * p)%Z by lia. apply W_scale; nia. }
  unfold dft. rewrite Z2Nat.inj_mul, csum_split by lia. apply csum_ext. intros q Hq. rewrite Z2Nat.id in Hq by lia. rewrite Z2Nat.id by lia.
  (* inner sum: sub-transform q *)
  assert (SUB : (if (m =? 1)%Z then x q else fft_val R_ops (W N) r (fstride * p) (fun t => x (q + t * p)%Z) i) = csum (Z.to_nat m) (fun t => Cmult (x (q + t * p)%Z) (W m (i * t)))).
  { destruct (Z.eqb_spec m 1) as [->|Nm].
    - change (Z.to_nat 1) with 1%nat. cbn [csum]. change (Z.of_nat 0) with 0%Z. rewrite Z.mul_0_r, W_0, Z.mul_0_l, Z.add_0_r. cring.
    - apply (IH r m); auto; try lia; try nia. destruct r; [cbn [chain] in Ch; lia|discriminate]. }
  etransitivity; [exact (f_equal (fun z => Cmult (Cmult z (W N (i * (q * fstride)))) (W p (q * kk))) SUB)|]. clear SUB.
  rewrite <- Cmult_assoc, Cmult_comm. rewrite <- csum_mul. apply csum_ext. intros t Ht'. rewrite Z2Nat.id in Ht' by lia.
  replace (j * (q + t * p))%Z with (j * q + p * (j * t))%Z by ring. rewrite W_add. replace (p * m)%Z with (p * m)%Z by ring.
  assert (X1 : W (p * m) (p * (j * t)) = W m (i * t)). { rewrite W_scale by lia. rewrite D. replace ((m * kk + i) * t)%Z with (m * (kk * t) + i * t)%Z by ring. rewrite W_add, W_period by lia. now rewrite Cmult_1_l. }
  assert (X2 : W (p * m) (j * q) = Cmult (W N (i * (q * fstride))) (W p (q * kk))).
  { rewrite D. replace ((m * kk + i) * q)%Z with (i * q + m * (q * kk))%Z by ring. rewrite W_add. f_equal.
    - replace (i * (q * fstride))%Z with (fstride * (i * q))%Z by ring. rewrite <- Ht. symmetry. apply W_scale; nia.
    - replace (p * m)%Z with (m * p)%Z by ring. apply W_scale; lia. }
  rewrite X1, X2. cring.
Qed.

Lemma fft_twiddles_W n i : (0 <= i < n)%Z -> getz (d0 R_ops) (fft_twiddles R_ops n) i = W n i.
Proof.
  intros H. unfold getz, fft_twiddles. rewrite (nth_indep _ _ (ftw R_ops n (Z.of_nat 0))) by (rewrite map_length, seq_length; lia).
  rewrite (map_nth (fun i => ftw R_ops n (Z.of_nat i)) (seq 0 (Z.to_nat n)) 0%nat). rewrite seq_nth by lia. rewrite Nat.add_0_l, Z2Nat.id by lia. reflexivity.
Qed.
Lemma bf_ext_w (o : ops R) p y w w' e e' k : (2 <= p <= 5)%Z -> (forall q, (0 <= q < p)%Z -> w q = w' q) -> (forall q, (0 <= q < p)%Z -> e q = e' q) -> bf o p y w e k = bf o p y w' e' k.
Proof. intros. now apply bf_ext. Qed.
Lemma fft_val_tw (tw tw' : Z -> C) N : (forall i, (0 <= i < N)%Z -> tw i = tw' i) -> forall k fl n, (length fl <= 2 * k)%nat -> chain n fl -> small_factors fl -> forall fstride x j, (1 <= fstride)%Z -> (fstride * n = N)%Z -> (0 <= j < n)%Z ->
  fft_val R_ops tw fl fstride x j = fft_val R_ops tw' fl fstride x j.
Proof.
  intros HT. induction k as [|k IH]; intros [|p [|m r]] n L Ch S fstride x j Hs Ht Hj; cbn [chain length fft_val] in *; try lia; try tauto; try reflexivity.
  destruct Ch as (E & _ & Hm & Ch). inversion S as [|? ? Hp S']; subst n. pose proof (Z.mod_pos_bound j m ltac:(lia)) as D2. apply bf_ext; [exact Hp| | |].
  - intros q Hq. destruct (Z.eqb_spec m 1) as [->|]; [reflexivity|]. apply (IH r m); auto; try lia; nia.
  - intros q Hq. apply HT. rewrite <- Ht. set (a := (j mod m)%Z) in *. clear - D2 Hq Hs Hp. assert (0 <= a * q < p * m)%Z by nia. nia.
  - intros q Hq. apply HT. rewrite <- Ht. clear - Hq Hs Hp Hm. assert (0 <= q * m < p * m)%Z by nia. nia.
Qed.

(* the transform as used: length n, factors of n all in 2..5, any input, any previous contents of the output buffer *)
Theorem fft_is_dft n fl (fin fout : list (R * R)) : (1 <= n)%Z -> chain n fl -> small_factors fl -> fl <> [] -> len fin = n -> (n <= len fout)%Z ->
  exists l, fft_transform R_ops n fl fin fout = Ok l /\ len l = len fout /\
    (forall j, (0 <= j < n)%Z -> getz (d0 R_ops) l j = dft n (fun t => getz (d0 R_ops) fin t) j) /\
    (forall j, (n <= j)%Z -> getz (d0 R_ops) l j = getz (d0 R_ops) fout j).
Proof.
  intros Hn Ch S Ne Li Lo. unfold fft_transform.
  destruct (kf_work_spec R_ops (fft_twiddles R_ops n) fin n (length fl) fl n 1 0 0 fout) as (l & E & L & G); auto; try lia.
  { unfold fft_twiddles. rewrite len_map, len_seq. lia. }
  exists l. split; [exact E|]. split; [exact L|]. split.
  - intros j Hj. rewrite G by lia. destruct (Z.leb_spec 0 j); [|lia]. destruct (Z.ltb_spec j (0 + n)); [|lia]. cbn [andb]. rewrite Z.sub_0_r.
    rewrite (fft_val_tw _ (W n) n) with (k := length fl) (n := n); auto; try lia; [|intros; now apply fft_twiddles_W].
    rewrite (fft_val_dft n) with (k := length fl) (n := n); auto; try lia.
    unfold dft. apply csum_ext. intros t Ht. do 2 f_equal. lia.
  - intros j Hj. rewrite G by lia. destruct (Z.ltb_spec j (0 + n)); [lia|]. now rewrite andb_false_r.
Qed.
