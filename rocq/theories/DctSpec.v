(* What dct_iv computes, entry by entry (any scalar type), and that it is the DCT-IV in exact arithmetic. *)
From Coq Require Import ZArith List Bool Lia Reals Lra.
From Coquelicot Require Import Complex.
From Verif Require Import Base FftFactor FactorProofs Loops Scalar Fft DecTotal DecState FftSpec RealOps Dft.
Import ListNotations.
Local Open Scope Z_scope.

Section Generic.
Context {F : Type} (o : ops F).
Local Notation z0 := (fz o 0).

(* rotated input pairs, transform, rotated output *)
Definition dct_in (h : Z) (x : Z -> F) (n : Z) : F * F := cmul o (ftw4 o h n) (x (2 * n), x (2 * h - (2 * n + 1))).
Definition dct_mid (h : Z) (fl : list Z) (x : Z -> F) (n : Z) : F * F := fft_val o (getz (d0 o) (fft_twiddles o h)) fl 1 (dct_in h x) n.
Definition dct_out (h : Z) (fl : list Z) (x : Z -> F) (n : Z) : F * F := cmul o (ftw4 o h n) (dct_mid h fl x n).
Definition dct_val (h : Z) (fl : list Z) (x : Z -> F) (j : Z) : F :=
  if Z.even j then fmul o (fst (dct_out h fl x (j / 2))) (fz o 2)
  else fmul o (fneg o (snd (dct_out h fl x ((2 * h - 1 - j) / 2)))) (fz o 2).

Lemma dct_twiddles_get h n : 0 <= n < h -> getz (d0 o) (dct_twiddles o h) n = ftw4 o h n.
Proof.
  intros H. unfold getz, dct_twiddles. rewrite (nth_indep _ _ (ftw4 o h (Z.of_nat 0))) by (rewrite map_length, seq_length; lia).
  rewrite (map_nth (fun i => ftw4 o h (Z.of_nat i)) (seq 0 (Z.to_nat h)) 0%nat). rewrite seq_nth by lia. rewrite Nat.add_0_l, Z2Nat.id by lia. reflexivity.
Qed.
Lemma even_2n n : Z.even (2 * n) = true. Proof. rewrite Z.even_mul. reflexivity. Qed.
Lemma odd_end h n : Z.even (2 * h - (2 * n + 1)) = false.
Proof. replace (2 * h - (2 * n + 1)) with (2 * (h - n - 1) + 1) by lia. rewrite Z.even_add, even_2n. reflexivity. Qed.

Theorem dct_iv_spec h fl (input output : list (F * F)) (buf : list F) : 1 <= h -> chain h fl -> small_factors fl -> fl <> [] ->
  len input = h -> len output = h -> len buf = 2 * h ->
  exists b i u, dct_iv o (2 * h) fl input output buf = Ok (b, i, u) /\ len b = 2 * h /\ len i = h /\ len u = h /\
    (forall n, 0 <= n < h -> getz (d0 o) i n = dct_in h (getz z0 buf) n) /\
    (forall n, 0 <= n < h -> getz (d0 o) u n = dct_mid h fl (getz z0 buf) n) /\
    (forall j, 0 <= j < 2 * h -> getz z0 b j = dct_val h fl (getz z0 buf) j).
Proof.
  intros Hh Ch S Ne Li Lo Lb. unfold dct_iv. replace (2 * h / 2) with h by (rewrite Z.mul_comm, Z.div_mul; lia).
  assert (TL : len (dct_twiddles o h) = h) by (unfold dct_twiddles; rewrite len_map, len_seq; lia).
  replace (len buf =? 2 * h) with true by (symmetry; apply Z.eqb_eq; lia). cbn [assert bind].
  match goal with |- context [for_range 0 ?N ?B input] => destruct (for_inv (fun n0 l => len l = h /\ (forall n, 0 <= n < n0 -> getz (d0 o) l n = dct_in h (getz z0 buf) n)) 0 N B input) as (i & Ei & Li' & Gi) end; [lia| | |].
  { split; [exact Li|intros; lia]. }
  { intros n l Hn (L1 & L2). rewrite (idx_get z0) by lia. cbn [bind]. unfold usub. destruct (Z.ltb_spec (2 * h) (2 * n + 1)); [lia|]. cbn [bind].
    rewrite (idx_get z0) by lia. cbn [bind]. rewrite (idx_get (d0 o)) by lia. cbn [bind].
    match goal with |- exists _, put ?l ?i ?v = _ /\ _ => destruct (put_ok (d0 o) l i v) as (l' & E & Ln & G); [lia|] end. rewrite E. exists l'. split; [reflexivity|]. split; [lia|].
    intros m Hm. rewrite G by lia. destruct (Z.eqb_spec m n) as [->|]; [|apply L2; lia]. rewrite dct_twiddles_get by lia. reflexivity. }
  rewrite Ei. cbn [bind]. unfold fft_transform.
  destruct (kf_work_spec o (fft_twiddles o h) i h (length fl) fl h 1 0 0 output) as (u & Eu & Lu & Gu); auto; try lia.
  { unfold fft_twiddles. rewrite len_map, len_seq. lia. }
  rewrite Eu. cbn [bind].
  assert (Gu' : forall n, 0 <= n < h -> getz (d0 o) u n = dct_mid h fl (getz z0 buf) n).
  { intros n Hn. rewrite Gu by lia. destruct (Z.leb_spec 0 n); [|lia]. destruct (Z.ltb_spec n (0 + h)); [|lia]. cbn [andb]. rewrite Z.sub_0_r. unfold dct_mid.
    apply (fft_val_ext o (getz (d0 o) (fft_twiddles o h)) (length fl) fl h); auto; try lia. intros t Ht. replace (0 + t * 1) with t by lia. apply Gi. lia. }
  match goal with |- context [for_range 0 ?N ?B buf] => destruct (for_inv (fun n0 l => len l = 2 * h /\ (forall n, 0 <= n < n0 -> getz z0 l (2 * n) = dct_val h fl (getz z0 buf) (2 * n) /\ getz z0 l (2 * h - (2 * n + 1)) = dct_val h fl (getz z0 buf) (2 * h - (2 * n + 1)))) 0 N B buf) as (b & Eb & Lb' & Gb) end; [lia| | |].
  { split; [exact Lb|intros; lia]. }
  { intros n l Hn (L1 & L2). rewrite (idx_get (d0 o)) by lia. cbn [bind]. rewrite (idx_get (d0 o)) by lia. cbn [bind].
    match goal with |- exists _, bind (put ?l ?i ?v) _ = _ /\ _ => destruct (put_ok z0 l i v) as (l1 & E1 & Ln1 & G1); [lia|] end. rewrite E1. cbn [bind].
    unfold usub. destruct (Z.ltb_spec (2 * h) (2 * n + 1)); [lia|]. cbn [bind].
    match goal with |- exists _, put ?l ?i ?v = _ /\ _ => destruct (put_ok z0 l i v) as (l2 & E2 & Ln2 & G2); [lia|] end. rewrite E2. exists l2. split; [reflexivity|]. split; [lia|].
    intros m Hm. rewrite !G2, !G1 by lia. rewrite dct_twiddles_get, Gu' by lia.
    assert (N1 : 2 * m =? 2 * h - (2 * n + 1) = false) by (apply Z.eqb_neq; lia). assert (N2 : 2 * h - (2 * m + 1) =? 2 * n = false) by (apply Z.eqb_neq; lia). rewrite N1, N2.
    destruct (Z.eq_dec m n) as [->|].
    - rewrite !Z.eqb_refl. unfold dct_val. rewrite even_2n, odd_end. replace (2 * n / 2) with n by (rewrite Z.mul_comm, Z.div_mul; lia).
      replace ((2 * h - 1 - (2 * h - (2 * n + 1))) / 2) with n; [split; reflexivity|]. replace (2 * h - 1 - (2 * h - (2 * n + 1))) with (n * 2) by lia. now rewrite Z.div_mul.
    - replace (2 * m =? 2 * n) with false by (symmetry; apply Z.eqb_neq; lia). replace (2 * h - (2 * m + 1) =? 2 * h - (2 * n + 1)) with false by (symmetry; apply Z.eqb_neq; lia). apply L2. lia. }
  replace (Z.min (len u) h) with h in * by lia. replace (Z.min (len input) h) with h in * by lia. rewrite Eb. cbn [bind].
  exists b, i, u. split; [reflexivity|]. split; [exact Lb'|]. split; [exact Li'|]. split; [lia|]. split; [exact Gi|]. split; [exact Gu'|].
  intros j Hj. destruct (Z.even j) eqn:Ev.
  - apply Z.even_spec in Ev as (n & ->). apply Gb. lia.
  - assert (Od : Z.odd j = true) by (rewrite <- Z.negb_even, Ev; reflexivity). apply Z.odd_spec in Od as (n & ->).
    replace (2 * n + 1) with (2 * h - (2 * (h - 1 - n) + 1)) by lia. apply Gb. lia.
Qed.
End Generic.

(* ---- exact arithmetic ---- *)
Local Open Scope R_scope.
Fixpoint rsum (n : nat) (f : Z -> R) : R := match n with O => 0 | S k => rsum k f + f (Z.of_nat k) end.
(* twice the DCT-IV, the scaling the code uses *)
Definition dct4 (N : Z) (x : Z -> R) (k : Z) : R := 2 * rsum (Z.to_nat N) (fun n => x n * cos (PI / IZR N * (IZR n + / 2) * (IZR k + / 2))).

Lemma rsum_ext n f g : (forall t, (0 <= t < Z.of_nat n)%Z -> f t = g t) -> rsum n f = rsum n g.
Proof. induction n as [|n IH]; intros H; [reflexivity|]. cbn [rsum]. rewrite IH, H; [reflexivity|lia|intros; apply H; lia]. Qed.
Lemma rsum_add n f g : rsum n (fun t => f t + g t) = rsum n f + rsum n g.
Proof. induction n as [|n IH]; cbn [rsum]; [ring|]. rewrite IH. ring. Qed.
Lemma rsum_opp n f : rsum n (fun t => - f t) = - rsum n f.
Proof. induction n as [|n IH]; cbn [rsum]; [ring|]. rewrite IH. ring. Qed.
Lemma rsum_mul n c f : rsum n (fun t => c * f t) = c * rsum n f.
Proof. induction n as [|n IH]; cbn [rsum]; [ring|]. rewrite IH. ring. Qed.
Lemma rsum_front n f : rsum (S n) f = f 0%Z + rsum n (fun t => f (t + 1)%Z).
Proof.
  induction n as [|n IH]; [cbn; ring|]. change (rsum (S (S n)) f) with (rsum (S n) f + f (Z.of_nat (S n))). rewrite IH. cbn [rsum].
  replace (Z.of_nat (S n)) with (Z.of_nat n + 1)%Z by lia. ring.
Qed.
Lemma rsum_rev n f : rsum n f = rsum n (fun t => f (Z.of_nat n - 1 - t)%Z).
Proof.
  revert f. induction n as [|n IH]; intros f; [reflexivity|]. rewrite (rsum_front n (fun t => _)). cbn [rsum]. rewrite IH.
  replace (Z.of_nat (S n) - 1 - Z.of_nat n)%Z with 0%Z by lia. rewrite Rplus_comm. f_equal. apply rsum_ext. intros t Ht. f_equal. lia.
Qed.
Lemma rsum_pairs h f : rsum (2 * h) f = rsum h (fun n => f (2 * n)%Z + f (2 * Z.of_nat h - (2 * n + 1))%Z).
Proof.
  rewrite rsum_add. rewrite (rsum_rev h (fun n => f (2 * Z.of_nat h - (2 * n + 1))%Z)). rewrite <- rsum_add.
  induction h as [|h IH]; [reflexivity|]. replace (2 * S h)%nat with (S (S (2 * h))) by lia. cbn [rsum]. rewrite IH.
  replace (Z.of_nat (2 * h)) with (2 * Z.of_nat h)%Z by lia. replace (Z.of_nat (S (2 * h))) with (2 * Z.of_nat h + 1)%Z by lia.
  replace (2 * Z.of_nat (S h) - (2 * (Z.of_nat (S h) - 1 - Z.of_nat h) + 1))%Z with (2 * Z.of_nat h + 1)%Z by lia. rewrite Rplus_assoc. f_equal.
  apply rsum_ext. intros t Ht. do 2 f_equal. lia.
Qed.
Lemma csum_fst n f : fst (csum n f) = rsum n (fun t => fst (f t)).
Proof. induction n as [|n IH]; [reflexivity|]. cbn [csum rsum]. unfold Cplus at 1. cbn [fst]. now rewrite IH. Qed.
Lemma csum_snd n f : snd (csum n f) = rsum n (fun t => snd (f t)).
Proof. induction n as [|n IH]; [reflexivity|]. cbn [csum rsum]. unfold Cplus at 1. cbn [snd]. now rewrite IH. Qed.

(* phase of input pair n in output pair k *)
Definition phi (h n k : Z) : R := PI * IZR ((4 * n + 1) * (4 * k + 1)) / IZR (8 * h).
Lemma dct_out_sum h fl x k : (1 <= h)%Z -> chain h fl -> small_factors fl -> fl <> [] -> (0 <= k < h)%Z ->
  dct_out R_ops h fl x k = csum (Z.to_nat h) (fun n => Cmult (x (2 * n)%Z, x (2 * h - (2 * n + 1))%Z) (cis (- phi h n k))).
Proof.
  intros Hh Ch S Ne Hk. unfold dct_out, dct_mid.
  assert (E : fft_val R_ops (getz (d0 R_ops) (fft_twiddles R_ops h)) fl 1 (dct_in R_ops h x) k = dft h (dct_in R_ops h x) k).
  { rewrite (fft_val_tw _ (W h) h) with (k := length fl) (n := h); auto; try lia; [|intros; now apply fft_twiddles_W].
    apply (fft_val_dft h) with (k := length fl); auto; lia. }
  rewrite E. unfold dft. change (cmul R_ops) with Cmult. rewrite <- csum_mul. apply csum_ext. intros n Hn. rewrite Z2Nat.id in Hn by lia.
  unfold dct_in. change (cmul R_ops) with Cmult. cbn [ftw4 R_ops]. rewrite W_cis.
  change (cos (- (PI * IZR (8 * k + 1) / IZR (16 * h))), sin (- (PI * IZR (8 * k + 1) / IZR (16 * h)))) with (cis (- (PI * IZR (8 * k + 1) / IZR (16 * h)))).
  change (cos (- (PI * IZR (8 * n + 1) / IZR (16 * h))), sin (- (PI * IZR (8 * n + 1) / IZR (16 * h)))) with (cis (- (PI * IZR (8 * n + 1) / IZR (16 * h)))).
  replace (- phi h n k) with (- (PI * IZR (8 * k + 1) / IZR (16 * h)) + (- (PI * IZR (8 * n + 1) / IZR (16 * h)) + - (2 * PI * IZR (k * n) / IZR h))).
  - rewrite !cis_add. generalize (cis (- (PI * IZR (8 * k + 1) / IZR (16 * h)))) (cis (- (PI * IZR (8 * n + 1) / IZR (16 * h)))) (cis (- (2 * PI * IZR (k * n) / IZR h))). intros a b c.
    destruct a, b, c. unfold Cmult. cbn [fst snd]. f_equal; ring.
  - unfold phi. rewrite ?mult_IZR, ?plus_IZR, ?mult_IZR. field. apply not_0_IZR. lia.
Qed.

Theorem dct_val_dct4 h fl x j : (1 <= h)%Z -> chain h fl -> small_factors fl -> fl <> [] -> (0 <= j < 2 * h)%Z ->
  dct_val R_ops h fl x j = dct4 (2 * h) x j.
Proof.
  intros Hh Ch S Ne Hj. unfold dct4, dct_val. replace (Z.to_nat (2 * h)) with (2 * Z.to_nat h)%nat by lia. rewrite rsum_pairs. rewrite Z2Nat.id by lia.
  assert (H0 : IZR h <> 0) by (apply not_0_IZR; lia).
  destruct (Z.even j) eqn:Ev.
  - apply Z.even_spec in Ev as (k & ->). replace (2 * k / 2)%Z with k by (rewrite Z.mul_comm, Z.div_mul; lia).
    rewrite dct_out_sum by (auto; lia). cbn [R_ops fmul fz]. rewrite csum_fst. rewrite Rmult_comm. f_equal. apply rsum_ext. intros n Hn. rewrite Z2Nat.id in Hn by lia.
    unfold Cmult, cis. cbn [fst snd]. rewrite cos_neg, sin_neg.
    replace (PI / IZR (2 * h) * (IZR (2 * n) + / 2) * (IZR (2 * k) + / 2)) with (phi h n k) by (unfold phi; rewrite ?mult_IZR, ?plus_IZR, ?mult_IZR; field; exact H0).
    replace (PI / IZR (2 * h) * (IZR (2 * h - (2 * n + 1)) + / 2) * (IZR (2 * k) + / 2)) with (PI / 2 - phi h n k + 2 * IZR k * PI)
      by (unfold phi; rewrite ?minus_IZR, ?mult_IZR, ?plus_IZR, ?mult_IZR; field; exact H0).
    assert (P : cos (PI / 2 - phi h n k + 2 * IZR k * PI) = sin (phi h n k)).
    { rewrite <- (Z2Nat.id k) at 2 by lia. rewrite <- INR_IZR_INZ, cos_period, cos_shift. reflexivity. }
    rewrite P. ring.
  - assert (Od : Z.odd j = true) by (rewrite <- Z.negb_even, Ev; reflexivity). apply Z.odd_spec in Od as (k' & ->).
    set (k := (h - 1 - k')%Z). replace ((2 * h - 1 - (2 * k' + 1)) / 2)%Z with k by (replace (2 * h - 1 - (2 * k' + 1))%Z with (k * 2)%Z by lia; now rewrite Z.div_mul).
    replace (2 * k' + 1)%Z with (2 * h - (2 * k + 1))%Z by lia. assert (Hk : (0 <= k < h)%Z) by lia.
    rewrite dct_out_sum by (auto; lia). cbn [R_ops fmul fz fneg]. rewrite csum_snd, <- rsum_opp. rewrite Rmult_comm. f_equal. apply rsum_ext. intros n Hn. rewrite Z2Nat.id in Hn by lia.
    unfold Cmult, cis. cbn [fst snd]. rewrite cos_neg, sin_neg.
    replace (PI / IZR (2 * h) * (IZR (2 * n) + / 2) * (IZR (2 * h - (2 * k + 1)) + / 2)) with (PI / 2 - phi h n k + 2 * IZR n * PI)
      by (unfold phi; rewrite ?minus_IZR, ?mult_IZR, ?plus_IZR, ?mult_IZR; field; exact H0).
    assert (P : cos (PI / 2 - phi h n k + 2 * IZR n * PI) = sin (phi h n k)).
    { rewrite <- (Z2Nat.id n) at 2 by lia. rewrite <- INR_IZR_INZ, cos_period, cos_shift. reflexivity. }
    assert (Q : cos (PI / IZR (2 * h) * (IZR (2 * h - (2 * n + 1)) + / 2) * (IZR (2 * h - (2 * k + 1)) + / 2)) = - cos (phi h n k)).
    { rewrite <- (cos_period _ (Z.to_nat (n + k))), INR_IZR_INZ, Z2Nat.id by lia.
      replace (PI / IZR (2 * h) * (IZR (2 * h - (2 * n + 1)) + / 2) * (IZR (2 * h - (2 * k + 1)) + / 2) + 2 * IZR (n + k) * PI) with (- (PI - phi h n k) + 2 * IZR h * PI)
        by (unfold phi; rewrite ?minus_IZR, ?mult_IZR, ?plus_IZR, ?mult_IZR; field; exact H0).
      rewrite <- (Z2Nat.id h) at 2 by lia. rewrite <- INR_IZR_INZ, cos_period, cos_neg. rewrite <- Rtrigo_facts.cos_pi_minus. f_equal. }
    rewrite P, Q. ring.
Qed.
