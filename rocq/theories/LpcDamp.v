(* The coefficients a_j of a best predictor damped to a_j g^j, 0 < g <= 1, are those of a best predictor again: of the signal
   whose autocorrelation is that of the damped impulse response of the synthesis filter. *)
From Coq Require Import Reals Lra Lia Arith.
From Coquelicot Require Import Coquelicot.
From Verif Require Import Lpc.
Local Open Scope R_scope.

Lemma energy_add r m v b s : sm m (fun i => v i * sm m (fun j => b j * toep r i j)) = 0 -> energy r m (fun i => v i + s * b i) = energy r m v + s * s * energy r m b.
Proof.
  intros X. assert (X' : sm m (fun i => b i * sm m (fun j => v j * toep r i j)) = 0).
  { rewrite <- X. rewrite (sm_ext m _ (fun i => sm m (fun j => b i * (v j * toep r i j)))) by (intros; now rewrite sm_scal). rewrite sm_swap. apply sm_ext. intros i Hi. rewrite <- sm_scal. apply sm_ext. intros j Hj. rewrite (toep_sym r j i). ring. }
  rewrite !energy_rows.
  rewrite (sm_ext m _ (fun i => (v i * sm m (fun j => v j * toep r i j) + s * s * (b i * sm m (fun j => b j * toep r i j))) + (s * (v i * sm m (fun j => b j * toep r i j)) + s * (b i * sm m (fun j => v j * toep r i j))))).
  - rewrite !sm_plus, !sm_scal, X, X'. ring.
  - intros i Hi. rewrite (sm_ext m (fun j => (v j + s * b j) * toep r i j) (fun j => v j * toep r i j + s * (b j * toep r i j))) by (intros; ring). rewrite sm_plus, sm_scal. ring.
Qed.
Lemma energy_shift r m v : energy r (S m) (fun i => match i with O => 0 | S i => v i end) = energy r m v.
Proof.
  rewrite !energy_rows. rewrite sm_first. rewrite Rmult_0_l, Rplus_0_l. apply sm_ext. intros i Hi. f_equal. rewrite sm_first. rewrite Rmult_0_l, Rplus_0_l. reflexivity.
Qed.

Section Response.
Variables (r a : nat -> R) (q : nat) (e : R).   (* order p = q + 1 *)
Hypothesis D : definite r (S (S q)).
Hypothesis N : normal r (S (S q)) a e.
Let p := S q.

(* z^n modulo the predictor polynomial *)
Fixpoint st (n : nat) : nat -> R :=
  match n with
  | O => fun i => if Nat.eqb i 0 then 1 else 0
  | S n => fun i => (match i with O => 0 | S i => st n i end) - st n q * a (p - i)%nat
  end.
Let t (n : nat) : R := st n q.

Lemma e_pos : 0 < e.
Proof. apply (normal_pos r (S p) a e); [lia|exact D|exact N]. Qed.
Lemma rows_back i : (i <= p)%nat -> sm (S p) (fun j => a (p - j)%nat * toep r i j) = if Nat.eqb i p then e else 0.
Proof.
  intros Hi. rewrite (sm_ext (S p) _ (fun j => (fun m => a m * toep r (p - i) m) (p - j)%nat)).
  - rewrite (sm_rev p (fun m => a m * toep r (p - i) m)), (proj2 N) by lia. destruct (Nat.eqb_spec (p - i) 0), (Nat.eqb_spec i p); lia || reflexivity.
  - intros j Hj. cbv beta. f_equal. rewrite <- (toep_mirror r p i (p - j)) by lia. f_equal. lia.
Qed.
Lemma st_energy n : energy r p (st (S n)) + t n * t n * e = energy r p (st n).
Proof.
  set (v := fun i => match i with O => 0 | S i => st n i end - t n * a (p - i)%nat).
  assert (Vp : v p = 0) by (unfold v, t; fold p; cbn [p]; rewrite Nat.sub_diag, (proj1 N); lra).
  assert (E1 : energy r p (st (S n)) = energy r (S p) v) by (rewrite energy_grow by exact Vp; apply energy_ext; intros i Hi; reflexivity).
  assert (X : sm (S p) (fun i => v i * sm (S p) (fun j => a (p - j)%nat * toep r i j)) = 0).
  { rewrite (sm_ext (S p) _ (fun _ => 0)); [apply sm_zero|]. intros i Hi. rewrite rows_back by lia. destruct (Nat.eqb_spec i p) as [->|]; [rewrite Vp|]; ring. }
  assert (E2 : energy r (S p) (fun j => a (p - j)%nat) = e).
  { rewrite energy_rows. rewrite (sm_delta (S p) _ p) by first [solve [unfold p; lia] | intros j Hj Hn; rewrite rows_back by lia; destruct (Nat.eqb_spec j p); [contradiction|ring]].
    rewrite rows_back by lia. rewrite Nat.eqb_refl, Nat.sub_diag, (proj1 N). ring. }
  rewrite E1. rewrite <- (energy_shift r p (st n)). rewrite (energy_ext r (S p) (fun i => match i with O => 0 | S i => st n i end) (fun i => v i + t n * a (p - i)%nat)) by (intros i Hi; unfold v; ring).
  rewrite (energy_add r (S p) v (fun j => a (p - j)%nat) (t n) X), E2. reflexivity.
Qed.
Lemma t_squares n : sm n (fun i => t i * t i) * e <= r 0%nat.
Proof.
  assert (Dp : definite r p) by (apply definite_shrink; exact D).
  assert (E0 : energy r p (st 0) = r 0%nat).
  { rewrite energy_rows. rewrite (sm_delta p _ 0%nat) by first [solve [unfold p; lia] | intros j Hj Hn; cbn [st]; destruct (Nat.eqb_spec j 0); [contradiction|ring]].
    rewrite (sm_delta p _ 0%nat) by first [solve [unfold p; lia] | intros j Hj Hn; cbn [st]; destruct (Nat.eqb_spec j 0); [contradiction|ring]]. cbn [st Nat.eqb]. unfold toep, apart. cbn. ring. }
  assert (G : sm n (fun i => t i * t i) * e + energy r p (st n) = r 0%nat).
  { induction n as [|n IH]; [cbn [sm]; rewrite E0; ring|]. cbn [sm]. pose proof (st_energy n). lra. }
  pose proof (energy_nonneg r p (st n) Dp). lra.
Qed.
Lemma st_start n : (n < p)%nat -> forall i, (i < p)%nat -> st n i = if Nat.eqb i n then 1 else 0.
Proof.
  induction n as [|n IH]; intros Hn i Hi; [reflexivity|]. cbn [st]. rewrite (IH ltac:(lia) q ltac:(unfold p; lia)). destruct (Nat.eqb_spec q n); [unfold p in Hn; lia|]. destruct i as [|i]; [cbn [Nat.eqb]; ring|]. rewrite (IH ltac:(lia) i ltac:(lia)). cbn [Nat.eqb]. ring.
Qed.
Lemma st_fold m i : st (m + S i) i = - sm (S i) (fun l => t (m + l)%nat * a (p - l)%nat).
Proof.
  induction i as [|i IH].
  - replace (m + 1)%nat with (S m) by lia. cbn [st sm]. unfold t. replace (m + 0)%nat with m by lia. ring.
  - replace (m + S (S i))%nat with (S (m + S i)) by lia. change (sm (S (S i)) ?f) with (sm (S i) f + f (S i)). cbn [st]. rewrite IH. unfold t. ring.
Qed.
Lemma t_recurrence m : sm (S p) (fun j => a j * t (m + p - j)%nat) = 0.
Proof.
  rewrite sm_first. rewrite (proj1 N). replace (m + p - 0)%nat with (m + S q)%nat by (unfold p; lia). unfold t at 1. rewrite st_fold.
  replace (sm p (fun i => a (S i) * t (m + p - S i)%nat)) with (sm (S q) (fun l => t (m + l)%nat * a (p - l)%nat)); [ring|].
  unfold p. rewrite <- (sm_rev q). apply sm_ext. intros i Hi. rewrite Rmult_comm. f_equal; f_equal; lia.
Qed.
(* the impulse response of the synthesis filter *)
Definition resp (n : nat) : R := t (n + q)%nat.
Definition later (h : nat -> R) (i n : nat) : R := if Nat.ltb n i then 0 else h (n - i)%nat.
Lemma resp_0 : resp 0 = 1.
Proof. unfold resp, t. cbn [Nat.add]. rewrite st_start by (unfold p; lia). now rewrite Nat.eqb_refl. Qed.
Lemma resp_later j n : (j <= p)%nat -> (0 < n)%nat -> later resp j n = t (n + q - j)%nat.
Proof.
  intros Hj Hn. unfold later, resp. destruct (Nat.ltb_spec n j) as [H|H]; [|f_equal; lia]. unfold t. rewrite st_start by (unfold p in *; lia). destruct (Nat.eqb_spec q (n + q - j)); [lia|reflexivity].
Qed.
Lemma resp_inverse n : sm (S p) (fun j => a j * later resp j n) = if Nat.eqb n 0 then 1 else 0.
Proof.
  destruct n as [|n].
  - rewrite (sm_delta (S p) _ 0%nat) by first [solve [unfold p; lia] | intros j Hj Hn; unfold later; destruct (Nat.ltb_spec 0 j); [ring|lia]]. rewrite (proj1 N). change (later resp 0 0) with (resp 0). rewrite resp_0. cbn [Nat.eqb]. ring.
  - cbn [Nat.eqb]. rewrite <- (t_recurrence n). apply sm_ext. intros j Hj. rewrite resp_later by lia. f_equal. f_equal. unfold p. lia.
Qed.
Lemma resp_squares : exists M, forall n, sm n (fun i => resp i * resp i) <= M.
Proof.
  pose proof e_pos as P. exists (r 0%nat / e). intros n. apply Rmult_le_reg_r with e; [exact P|]. unfold Rdiv. rewrite Rmult_assoc, Rinv_l, Rmult_1_r by lra.
  apply Rle_trans with (sm (q + n) (fun i => t i * t i) * e); [|apply t_squares]. apply Rmult_le_compat_r; [lra|]. clear.
  assert (G : forall n f k, (forall i, 0 <= f i) -> sm n (fun i => f (i + k)%nat) <= sm (k + n) f).
  { clear. intros n f k H. induction n as [|n IH]; [cbn [sm]; apply sm_nonneg; auto|]. replace (k + S n)%nat with (S (k + n)) by lia. cbn [sm]. replace (n + k)%nat with (k + n)%nat by lia. lra. }
  apply (G n (fun i => t i * t i) q). intros i. apply Rle_0_sqr.
Qed.
End Response.

Lemma zero_series : is_series (fun _ : nat => 0) 0.
Proof.
  apply (filterlim_ext (fun _ : nat => 0)); [|apply filterlim_const]. intros n. induction n as [|n IH]; [now rewrite sum_O|]. rewrite sum_Sn, <- IH. unfold plus. cbn. ring.
Qed.
Lemma Series_0 (f : nat -> R) : (forall n, f n = 0) -> Series f = 0.
Proof. intros H. rewrite (Series_ext f (fun _ => 0)) by exact H. apply is_series_unique, zero_series. Qed.

(* ---- Gram matrices of shifted square summable sequences ---- *)
Section Gram.
Variable g : nat -> R.
Hypothesis Bound : exists M, forall n, sm n (fun i => g i * g i) <= M.
Let gs := later g.

Lemma sum_n_sm f n : sum_n f n = sm (S n) f.
Proof. induction n as [|n IH]; [rewrite sum_O; cbn [sm]; lra|]. rewrite sum_Sn, IH. reflexivity. Qed.
Lemma later_squares i n : sm n (fun k => gs i k * gs i k) <= sm n (fun k => g k * g k).
Proof.
  revert n. induction i as [|i IH]; intros n; [right; apply sm_ext; intros k Hk; unfold gs, later; cbn; now rewrite Nat.sub_0_r|].
  destruct n as [|n]; [cbn [sm]; lra|]. rewrite sm_first. unfold gs at 1 2, later at 1 2. cbn [Nat.ltb Nat.leb]. rewrite Rmult_0_l, Rplus_0_l.
  apply Rle_trans with (sm n (fun k => g k * g k)); [exact (IH n)|]. cbn [sm]. pose proof (Rle_0_sqr (g n)) as P. unfold Rsqr in P. lra.
Qed.
Lemma squares_summable i : ex_series (fun n => gs i n * gs i n).
Proof.
  destruct Bound as [M HM].
  assert (X : ex_finite_lim_seq (sum_n (fun n => gs i n * gs i n))).
  { apply ex_finite_lim_seq_incr with M.
    - intros n. rewrite sum_Sn. pose proof (Rle_0_sqr (gs i (S n))) as P. unfold Rsqr in P. change (plus ?x ?y) with (x + y). lra.
    - intros n. rewrite sum_n_sm. eapply Rle_trans; [apply later_squares|apply HM]. }
  destruct X as [l Hl]. exists l. exact Hl.
Qed.
Lemma products_summable i j : ex_series (fun n => gs i n * gs j n).
Proof.
  apply (@ex_series_le R_AbsRing R_CompleteNormedModule _ (fun n => (gs i n * gs i n) + (gs j n * gs j n))).
  - intros n. change (norm (gs i n * gs j n)) with (Rabs (gs i n * gs j n)). apply Rabs_le. pose proof (Rle_0_sqr (gs i n + gs j n)). pose proof (Rle_0_sqr (gs i n - gs j n)). unfold Rsqr in *. split; nra.
  - apply (ex_series_plus (fun n => gs i n * gs i n) (fun n => gs j n * gs j n)); apply squares_summable.
Qed.
Definition gram (i j : nat) : R := Series (fun n => gs i n * gs j n).
Definition corr (k : nat) : R := gram 0 k.
Lemma gram_shift i j : gram (S i) (S j) = gram i j.
Proof.
  unfold gram. rewrite (Series_incr_1 (fun n => gs (S i) n * gs (S j) n)) by apply products_summable. unfold gs at 1 2, later at 1 2. cbn [Nat.ltb Nat.leb]. rewrite Rmult_0_l, Rplus_0_l. apply Series_ext. intros n. reflexivity.
Qed.
Lemma gram_sym i j : gram i j = gram j i.
Proof. apply Series_ext. intros n. ring. Qed.
Lemma gram_toep i j : toep corr i j = gram i j.
Proof.
  assert (G : forall i j, (i <= j)%nat -> toep corr i j = gram i j).
  { intros i0. induction i0 as [|i0 IH]; intros j0 H; [unfold toep, corr, apart; f_equal; lia|]. destruct j0 as [|j0]; [lia|]. rewrite gram_shift, <- IH by lia. unfold toep, apart. f_equal. }
  destruct (Nat.le_ge_cases i j); [now apply G|]. rewrite toep_sym, gram_sym. now apply G.
Qed.
Lemma series_sm m (f : nat -> nat -> R) (c : nat -> R) : (forall i, (i < m)%nat -> ex_series (f i)) ->
  ex_series (fun n => sm m (fun i => c i * f i n)) /\ sm m (fun i => c i * Series (f i)) = Series (fun n => sm m (fun i => c i * f i n)).
Proof.
  induction m as [|m IH]; intros H; cbn [sm].
  - split; [exists 0; apply zero_series|]. symmetry. now apply Series_0.
  - destruct (IH ltac:(intros; apply H; lia)) as [E1 E2]. assert (Hm : ex_series (fun n => c m * f m n)) by (apply (ex_series_scal (c m) (f m)), H; lia). split.
    + apply (ex_series_plus (fun n => sm m (fun i => c i * f i n)) (fun n => c m * f m n)); assumption.
    + rewrite E2. rewrite <- (Series_scal_l (c m) (f m)). symmetry. now apply Series_plus.
Qed.
Lemma gram_energy m v : ex_series (fun n => sm m (fun i => v i * gs i n) * sm m (fun i => v i * gs i n)) /\ energy corr m v = Series (fun n => sm m (fun i => v i * gs i n) * sm m (fun i => v i * gs i n)).
Proof.
  assert (R1 : forall i, ex_series (fun n => gs i n * sm m (fun j => v j * gs j n)) /\ sm m (fun j => v j * toep corr i j) = Series (fun n => gs i n * sm m (fun j => v j * gs j n))).
  { intros i. destruct (series_sm m (fun j n => gs i n * gs j n) v ltac:(intros; apply products_summable)) as [E1 E2]. assert (X : forall n, sm m (fun j => v j * (gs i n * gs j n)) = gs i n * sm m (fun j => v j * gs j n)) by (intros n; rewrite <- sm_scal; apply sm_ext; intros; ring). split.
    - eapply ex_series_ext; [|exact E1]. exact X.
    - rewrite (sm_ext m _ (fun j => v j * Series (fun n => gs i n * gs j n))) by (intros j Hj; rewrite gram_toep; reflexivity). rewrite E2. apply Series_ext. exact X. }
  destruct (series_sm m (fun i n => gs i n * sm m (fun j => v j * gs j n)) v ltac:(intros; apply R1)) as [E1 E2].
  assert (X : forall n, sm m (fun i => v i * (gs i n * sm m (fun j => v j * gs j n))) = sm m (fun i => v i * gs i n) * sm m (fun i => v i * gs i n)).
  { intros n. rewrite <- (sm_scal m (sm m (fun i => v i * gs i n))). apply sm_ext. intros. ring. }
  split; [exact (ex_series_ext _ _ X E1)|]. rewrite energy_rows. rewrite (sm_ext m _ (fun i => v i * Series (fun n => gs i n * sm m (fun j => v j * gs j n)))) by (intros i Hi; now rewrite (proj2 (R1 i))). rewrite E2. apply Series_ext. exact X.
Qed.
Lemma series_pos (f : nat -> R) k : ex_series f -> (forall n, 0 <= f n) -> 0 < f k -> 0 < Series f.
Proof.
  intros E H P. rewrite (Series_incr_n f (S k)) by (lia || exact E). cbn [Nat.pred]. rewrite sum_n_Reals in * || idtac.
  assert (T : 0 <= Series (fun n => f (S k + n)%nat)).
  { apply Rle_trans with (Series (fun _ => 0)); [rewrite Series_0 by reflexivity; lra|]. apply Series_le; [intros n; split; [lra|apply H]|]. apply (ex_series_incr_n f (S k)). exact E. }
  assert (S1 : f k <= sm (S k) f) by (apply sm_ge; [intros; apply H|lia]). rewrite <- sum_n_sm, sum_n_Reals in S1 || idtac. lra.
Qed.
Lemma gram_definite m : g 0%nat <> 0 -> definite corr m.
Proof.
  intros G0 v (i & Hi & Hv). destruct (gram_energy m v) as [E ->].
  assert (L : exists k, (k < m)%nat /\ v k <> 0 /\ forall j, (j < k)%nat -> v j = 0).
  { clear - Hi Hv. revert Hi Hv. induction i as [i IH] using (well_founded_induction lt_wf). intros Hi Hv. destruct (some_nonzero i v) as [(j & Hj & Hn)|Z0]; [apply (IH j); auto; lia|]. exists i. auto. }
  destruct L as (k & Hk & Nk & Zk). apply (series_pos _ k E); [intros n; apply Rle_0_sqr|].
  assert (X : sm m (fun i => v i * gs i k) = v k * g 0%nat).
  { rewrite (sm_delta m _ k Hk).
    - unfold gs, later. rewrite Nat.ltb_irrefl, Nat.sub_diag. reflexivity.
    - intros j Hj Hn. destruct (Nat.lt_ge_cases j k); [rewrite Zk by assumption; ring|]. unfold gs, later. rewrite (proj2 (Nat.ltb_lt k j)) by lia. ring. }
  rewrite X. assert (Hx : v k * g 0%nat <> 0) by (now apply Rmult_integral_contrapositive_currified). pose proof (Rlt_0_sqr _ Hx) as Q. exact Q.
Qed.
Lemma gram_normal m b : g 0%nat = 1 -> b 0%nat = 1 -> (forall n, sm m (fun j => b j * gs j n) = if Nat.eqb n 0 then 1 else 0) -> normal corr m b 1.
Proof.
  intros G0 B0 H. split; [exact B0|]. intros i Hi.
  destruct (series_sm m (fun j n => gs i n * gs j n) b ltac:(intros; apply products_summable)) as [E1 E2].
  rewrite (sm_ext m _ (fun j => b j * Series (fun n => gs i n * gs j n))) by (intros j Hj; rewrite gram_toep; reflexivity). rewrite E2.
  assert (X : forall n, sm m (fun j => b j * (gs i n * gs j n)) = match n with O => gs i 0%nat | S _ => 0 end).
  { intros n. rewrite (sm_ext m _ (fun j => gs i n * (b j * gs j n))) by (intros; ring). rewrite sm_scal, H. destruct n; cbn [Nat.eqb]; ring. }
  rewrite (Series_ext _ _ X). rewrite Series_incr_1 by exact (ex_series_ext _ _ X E1). rewrite (Series_0 (fun n => 0)) by reflexivity. unfold gs, later. destruct i; cbn [Nat.ltb Nat.leb Nat.eqb Nat.sub]; [rewrite G0|]; ring.
Qed.
End Gram.

(* ---- damping ---- *)
Theorem damped_predictor r q a e g : definite r (S (S q)) -> normal r (S (S q)) a e -> 0 < g <= 1 ->
  exists s, definite s (S (S q)) /\ normal s (S (S q)) (fun j => a j * g ^ j) 1.
Proof.
  intros D N Hg. set (h := fun n => g ^ n * resp a q n).
  assert (B : exists M, forall n, sm n (fun i => h i * h i) <= M).
  { destruct (resp_squares r a q e D N) as [M HM]. exists M. intros n. refine (Rle_trans _ _ _ _ (HM n)). clear HM. induction n as [|n IH]; cbn [sm]; [lra|].
    assert (G : 0 <= g ^ n <= 1) by (split; [apply pow_le; lra|rewrite <- (pow1 n); apply pow_incr; lra]). unfold h in *. pose proof (Rle_0_sqr (resp a q n)) as Q. unfold Rsqr in Q.
    assert (g ^ n * resp a q n * (g ^ n * resp a q n) <= 1 * (resp a q n * resp a q n)); [|lra].
    replace (g ^ n * resp a q n * (g ^ n * resp a q n)) with ((g ^ n * g ^ n) * (resp a q n * resp a q n)) by ring. apply Rmult_le_compat_r; [exact Q|]. rewrite <- (Rmult_1_l 1). apply Rmult_le_compat; lra. }
  assert (H0 : h 0%nat = 1) by (unfold h; rewrite (resp_0 a q); cbn [pow]; ring).
  exists (corr h). split; [apply gram_definite; [exact B|rewrite H0; lra]|]. apply gram_normal; [exact B|exact H0|rewrite (proj1 N); cbn [pow]; ring|].
  intros n. rewrite (sm_ext _ _ (fun j => g ^ n * (a j * later (resp a q) j n))).
  - rewrite sm_scal, (resp_inverse r a q e N). destruct n; cbn [Nat.eqb pow]; ring.
  - intros j Hj. unfold later. destruct (Nat.ltb_spec n j); [ring|]. unfold h. replace (g ^ n) with (g ^ j * g ^ (n - j)) by (rewrite <- pow_add; f_equal; lia). ring.
Qed.
