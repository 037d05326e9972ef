(* Linear prediction on the reals: Toeplitz forms, the normal equations, one step of the Levinson recursion up and down,
   and that a predictor whose coefficients are damped by the powers of a factor below one is again a best predictor. *)
From Coq Require Import Reals Lra Lia Arith.
From Coquelicot Require Import Coquelicot.
Local Open Scope R_scope.

(* ---- finite sums ---- *)
Fixpoint sm (n : nat) (f : nat -> R) : R := match n with O => 0 | S n => sm n f + f n end.
Lemma sm_ext n f g : (forall i, (i < n)%nat -> f i = g i) -> sm n f = sm n g.
Proof. induction n as [|n IH]; intros H; cbn [sm]; [reflexivity|]. rewrite IH by (intros; apply H; lia). now rewrite H by lia. Qed.
Lemma sm_plus n f g : sm n (fun i => f i + g i) = sm n f + sm n g.
Proof. induction n; cbn [sm]; lra. Qed.
Lemma sm_scal n c f : sm n (fun i => c * f i) = c * sm n f.
Proof. induction n; cbn [sm]; [lra|]. rewrite IHn. ring. Qed.
Lemma sm_zero n : sm n (fun _ => 0) = 0.
Proof. induction n; cbn [sm]; lra. Qed.
Lemma sm_first n f : sm (S n) f = f 0%nat + sm n (fun i => f (S i)).
Proof. induction n as [|n IH]; [cbn [sm]; lra|]. change (sm (S (S n)) f) with (sm (S n) f + f (S n)). rewrite IH. cbn [sm]. ring. Qed.
Lemma sm_swap n m f : sm n (fun i => sm m (fun j => f i j)) = sm m (fun j => sm n (fun i => f i j)).
Proof. induction n as [|n IH]; cbn [sm]; [now rewrite sm_zero|]. now rewrite IH, sm_plus. Qed.
Lemma sm_rev n : forall f, sm (S n) (fun j => f (n - j)%nat) = sm (S n) f.
Proof.
  induction n as [|n IH]; intros f; [reflexivity|]. rewrite sm_first. replace (S n - 0)%nat with (S n) by lia. rewrite (sm_ext (S n) (fun i => f (S n - S i)%nat) (fun i => f (n - i)%nat)) by (intros; f_equal; lia).
  rewrite IH. change (sm (S (S n)) f) with (sm (S n) f + f (S n)). ring.
Qed.
Lemma sm_nonneg n f : (forall i, (i < n)%nat -> 0 <= f i) -> 0 <= sm n f.
Proof. induction n as [|n IH]; intros H; cbn [sm]; [lra|]. assert (0 <= sm n f) by (apply IH; intros; apply H; lia). specialize (H n ltac:(lia)). lra. Qed.
Lemma sm_ge n f i : (forall i, (i < n)%nat -> 0 <= f i) -> (i < n)%nat -> f i <= sm n f.
Proof.
  induction n as [|n IH]; intros H Hi; [lia|]. cbn [sm]. assert (0 <= sm n f) by (apply sm_nonneg; intros; apply H; lia). destruct (Nat.eq_dec i n) as [->|]; [lra|].
  assert (f i <= sm n f) by (apply IH; [intros; apply H; lia|lia]). specialize (H n ltac:(lia)). lra.
Qed.
Lemma sm_delta n f i : (i < n)%nat -> (forall j, (j < n)%nat -> j <> i -> f j = 0) -> sm n f = f i.
Proof.
  induction n as [|n IH]; intros Hi H; [lia|]. cbn [sm]. destruct (Nat.eq_dec i n) as [->|].
  - rewrite (sm_ext n f (fun _ => 0)) by (intros; apply H; lia). rewrite sm_zero. lra.
  - rewrite IH by (try lia; intros; apply H; lia). rewrite (H n) by lia. lra.
Qed.

(* ---- Toeplitz forms ---- *)
Definition apart (i j : nat) : nat := (i - j) + (j - i).
Definition toep (r : nat -> R) (i j : nat) : R := r (apart i j).
(* the energy of the prediction error of the filter v on a signal with autocorrelation r *)
Definition energy (r : nat -> R) (m : nat) (v : nat -> R) : R := sm m (fun i => sm m (fun j => v i * v j * toep r i j)).
Definition definite (r : nat -> R) (m : nat) : Prop := forall v, (exists i, (i < m)%nat /\ v i <> 0) -> 0 < energy r m v.
(* the normal equations of order m - 1: error e at lag zero, nothing at the other lags *)
Definition normal (r : nat -> R) (m : nat) (a : nat -> R) (e : R) : Prop :=
  a 0%nat = 1 /\ forall i, (i < m)%nat -> sm m (fun j => a j * toep r i j) = if Nat.eqb i 0 then e else 0.

Lemma toep_sym r i j : toep r i j = toep r j i.
Proof. unfold toep, apart. f_equal. lia. Qed.
Lemma energy_rows r m v : energy r m v = sm m (fun i => v i * sm m (fun j => v j * toep r i j)).
Proof. unfold energy. apply sm_ext. intros i _. rewrite <- sm_scal. apply sm_ext. intros. ring. Qed.
Lemma energy_ext r m v w : (forall i, (i < m)%nat -> v i = w i) -> energy r m v = energy r m w.
Proof. intros H. unfold energy. apply sm_ext. intros i Hi. apply sm_ext. intros j Hj. now rewrite !H. Qed.
Lemma energy_grow r m v : v m = 0 -> energy r (S m) v = energy r m v.
Proof.
  intros H. unfold energy. cbn [sm]. rewrite (sm_ext m _ (fun i => sm m (fun j => v i * v j * toep r i j))) by (intros; rewrite H; ring).
  rewrite (sm_ext m (fun j => v m * v j * toep r m j) (fun _ => 0)) by (intros; rewrite H; ring). rewrite sm_zero, H. ring.
Qed.
Lemma definite_shrink r m : definite r (S m) -> definite r m.
Proof.
  intros D v (i & Hi & Hv). set (w := fun i => if Nat.ltb i m then v i else 0). assert (W : w m = 0) by (unfold w; now rewrite Nat.ltb_irrefl).
  assert (E : energy r m w = energy r m v). { apply energy_ext. intros j Hj. unfold w. now rewrite (proj2 (Nat.ltb_lt j m) Hj). }
  rewrite <- E, <- (energy_grow r m w W). apply D. exists i. split; [lia|]. unfold w. now rewrite (proj2 (Nat.ltb_lt i m) Hi).
Qed.
Lemma definite_le r m n : (m <= n)%nat -> definite r n -> definite r m.
Proof. intros H D. induction H; [exact D|]. apply IHle. now apply definite_shrink. Qed.

Lemma normal_energy r m a e : (0 < m)%nat -> normal r m a e -> energy r m a = e.
Proof.
  intros Hm (A0 & N). rewrite energy_rows. rewrite (sm_delta m _ 0%nat Hm).
  - rewrite (N 0%nat Hm), A0. cbn [Nat.eqb]. ring.
  - intros j Hj Hn. rewrite (N j Hj). destruct (Nat.eqb_spec j 0); [contradiction|ring].
Qed.
(* a solution of the normal equations is the best predictor: any other one leaves more energy *)
Lemma normal_best r m a e b : (0 < m)%nat -> normal r m a e -> b 0%nat = 1 -> energy r m b = e + energy r m (fun i => b i - a i).
Proof.
  intros Hm N B0. pose proof (normal_energy r m a e Hm N) as E. destruct N as (A0 & N).
  assert (X : sm m (fun i => (b i - a i) * sm m (fun j => a j * toep r i j)) = 0).
  { rewrite (sm_ext m _ (fun _ => 0)); [apply sm_zero|]. intros i Hi. rewrite (N i Hi). destruct (Nat.eqb_spec i 0) as [->|]; [rewrite A0, B0|]; ring. }
  assert (X' : sm m (fun i => a i * sm m (fun j => (b j - a j) * toep r i j)) = 0).
  { rewrite <- X. rewrite (sm_ext m _ (fun i => sm m (fun j => a i * ((b j - a j) * toep r i j)))) by (intros; now rewrite sm_scal). rewrite sm_swap. apply sm_ext. intros i Hi. rewrite <- sm_scal. apply sm_ext. intros j Hj. rewrite (toep_sym r j i). ring. }
  rewrite <- E. rewrite !energy_rows. set (d := fun i => b i - a i) in *.
  rewrite (sm_ext m (fun i => b i * _) (fun i => (a i * sm m (fun j => a j * toep r i j) + d i * sm m (fun j => d j * toep r i j)) + (d i * sm m (fun j => a j * toep r i j) + a i * sm m (fun j => d j * toep r i j)))).
  - rewrite !sm_plus. unfold d in X' |- *. rewrite X, X'. ring.
  - intros i Hi. rewrite (sm_ext m (fun j => b j * toep r i j) (fun j => a j * toep r i j + d j * toep r i j)) by (intros; unfold d; ring). rewrite sm_plus. unfold d. ring.
Qed.
Lemma energy_nonneg r m v : definite r m -> 0 <= energy r m v.
Proof.
  intros D. destruct (Rle_or_lt 0 (energy r m v)) as [H|H]; [exact H|]. exfalso.
  assert (Z0 : forall i, (i < m)%nat -> v i = 0). { intros i Hi. destruct (Req_dec (v i) 0) as [E|N]; [exact E|]. specialize (D v (ex_intro _ i (conj Hi N))). lra. }
  rewrite (energy_ext r m v (fun _ => 0)) in H by exact Z0. rewrite energy_rows in H. rewrite (sm_ext m _ (fun _ => 0)) in H by (intros; ring). rewrite sm_zero in H. lra.
Qed.
(* so it is unique *)
Lemma normal_unique r m a e b e' : (0 < m)%nat -> definite r m -> normal r m a e -> normal r m b e' -> forall i, (i < m)%nat -> a i = b i.
Proof.
  intros Hm D N N' i Hi. destruct (Req_dec (a i) (b i)) as [E|Hn]; [exact E|]. exfalso.
  pose proof (normal_best r m a e b Hm N (proj1 N')) as H1. pose proof (normal_best r m b e' a Hm N' (proj1 N)) as H2.
  rewrite (normal_energy r m b e' Hm N') in H1. rewrite (normal_energy r m a e Hm N) in H2.
  assert (P : 0 < energy r m (fun i => b i - a i)) by (apply D; exists i; split; [exact Hi|lra]).
  assert (P' : 0 < energy r m (fun i => a i - b i)) by (apply D; exists i; split; [exact Hi|lra]). lra.
Qed.
Lemma normal_pos r m a e : (0 < m)%nat -> definite r m -> normal r m a e -> 0 < e.
Proof. intros Hm D N. rewrite <- (normal_energy r m a e Hm N). apply D. exists 0%nat. split; [exact Hm|]. rewrite (proj1 N). lra. Qed.

(* ---- one step of Levinson's recursion ---- *)
Definition up (k : nat) (a : nat -> R) (rc : R) (n : nat) : R := if Nat.eqb n 0 then 1 else if Nat.ltb n k then a n + rc * a (k - n)%nat else if Nat.eqb n k then rc else 0.
Lemma toep_mirror r k i j : (i <= k)%nat -> (j <= k)%nat -> toep r i (k - j) = toep r (k - i) j.
Proof. intros. unfold toep, apart. f_equal. lia. Qed.
Lemma normal_up r k a e : (0 < k)%nat -> normal r k a e -> e <> 0 ->
  let rc := - sm k (fun n => a n * r (k - n)%nat) / e in normal r (S k) (up k a rc) (e * (1 - rc * rc)).
Proof.
  intros Hk N He rc. destruct N as (A0 & N). split; [reflexivity|]. intros i Hi.
  set (A := fun j => if Nat.ltb j k then a j else 0).
  assert (U : forall j, (j < S k)%nat -> up k a rc j = A j + rc * A (k - j)%nat).
  { intros j Hj. unfold up, A. destruct (Nat.eqb_spec j 0) as [->|J0].
    - rewrite (proj2 (Nat.ltb_lt 0 k) Hk). replace (k - 0)%nat with k by lia. rewrite Nat.ltb_irrefl, A0. ring.
    - rewrite (proj2 (Nat.ltb_lt (k - j) k)) by lia. destruct (Nat.ltb_spec j k); [reflexivity|]. replace j with k by lia. rewrite Nat.eqb_refl, Nat.sub_diag, A0. ring. }
  assert (SA : forall i, sm (S k) (fun j => A j * toep r i j) = sm k (fun j => a j * toep r i j)).
  { intros i'. cbn [sm]. unfold A at 2. rewrite Nat.ltb_irrefl, Rmult_0_l, Rplus_0_r. apply sm_ext. intros j Hj. unfold A. now rewrite (proj2 (Nat.ltb_lt j k) Hj). }
  assert (L : sm k (fun j => a j * toep r k j) = - rc * e).
  { unfold rc. rewrite (sm_ext k _ (fun n => a n * r (k - n)%nat)) by (intros j Hj; unfold toep, apart; do 2 f_equal; lia). field. exact He. }
  rewrite (sm_ext (S k) _ (fun j => A j * toep r i j + rc * (A (k - j)%nat * toep r i j))) by (intros j Hj; rewrite U by exact Hj; ring).
  rewrite sm_plus, sm_scal, SA. rewrite (sm_ext (S k) (fun j => A (k - j)%nat * toep r i j) (fun j => (fun m => A m * toep r (k - i) m) (k - j)%nat)).
  2:{ intros j Hj. cbv beta. f_equal. rewrite <- toep_mirror by lia. f_equal. lia. }
  rewrite (sm_rev k (fun m => A m * toep r (k - i) m)), SA. destruct (Nat.eqb_spec i 0) as [->|I0].
  - replace (k - 0)%nat with k by lia. rewrite L, (N 0%nat Hk). cbn [Nat.eqb]. ring.
  - destruct (Nat.eq_dec i k) as [->|Ik].
    + rewrite L, Nat.sub_diag, (N 0%nat Hk). cbn [Nat.eqb]. ring.
    + rewrite (N i), (N (k - i)%nat) by lia. destruct (Nat.eqb_spec i 0); [contradiction|]. destruct (Nat.eqb_spec (k - i) 0); [lia|]. ring.
Qed.
Lemma rc_below_one r k a e : (0 < k)%nat -> definite r (S k) -> normal r k a e -> let rc := - sm k (fun n => a n * r (k - n)%nat) / e in rc * rc < 1.
Proof.
  intros Hk D N rc. pose proof (normal_pos r k a e Hk (definite_shrink r k D) N) as P. pose proof (normal_up r k a e Hk N ltac:(lra)) as U. fold rc in U. cbv zeta in U.
  pose proof (normal_pos r (S k) _ _ ltac:(lia) D U) as Q. destruct (Rlt_or_le (rc * rc) 1) as [H|H]; [exact H|]. exfalso. assert (e * (1 - rc * rc) <= e * 0) by (apply Rmult_le_compat_l; lra). lra.
Qed.

(* ---- and down again ---- *)
Lemma some_nonzero k (c : nat -> R) : (exists i, (i < k)%nat /\ c i <> 0) \/ (forall i, (i < k)%nat -> c i = 0).
Proof.
  induction k as [|m IH]; [right; lia|]. destruct IH as [(i & Hi & H)|H]; [left; exists i; split; [lia|exact H]|]. destruct (Req_dec (c m) 0) as [E|E]; [|left; exists m; split; [lia|exact E]].
  right. intros i Hi. destruct (Nat.eq_dec i m) as [->|]; [exact E|apply H; lia].
Qed.
Definition down (k : nat) (a : nat -> R) (n : nat) : R := (a n - a k * a (k - n)%nat) / (1 - a k * a k).
Lemma normal_down r k a e : (0 < k)%nat -> definite r (S k) -> normal r (S k) a e -> a k * a k < 1 /\ normal r k (down k a) (e / (1 - a k * a k)).
Proof.
  intros Hk D N. pose proof (normal_pos r (S k) a e ltac:(lia) D N) as P. destruct N as (A0 & N). set (p := a k) in *.
  set (c := fun n => a n - p * a (k - n)%nat). assert (Ck : c k = 0) by (unfold c; rewrite Nat.sub_diag, A0; fold p; ring).
  assert (C0 : c 0%nat = 1 - p * p) by (unfold c; replace (k - 0)%nat with k by lia; rewrite A0; fold p; ring).
  assert (T : forall i, (i < k)%nat -> sm k (fun j => c j * toep r i j) = if Nat.eqb i 0 then e else 0).
  { intros i Hi. assert (E : sm (S k) (fun j => c j * toep r i j) = sm k (fun j => c j * toep r i j)) by (cbn [sm]; rewrite Ck; ring). rewrite <- E. unfold c.
    rewrite (sm_ext (S k) _ (fun j => a j * toep r i j + - p * ((fun m => a m * toep r (k - i) m) (k - j)%nat))).
    2:{ intros j Hj. cbv beta. rewrite <- (toep_mirror r k i (k - j)) by lia. replace (k - (k - j))%nat with j by lia. ring. }
    rewrite sm_plus, sm_scal, (sm_rev k (fun m => a m * toep r (k - i) m)), (N i), (N (k - i)%nat) by lia. destruct (Nat.eqb_spec (k - i) 0); [lia|]. ring. }
  assert (Q : energy r k c = (1 - p * p) * e).
  { rewrite energy_rows. rewrite (sm_delta k _ 0%nat Hk).
    - rewrite (T 0%nat Hk), C0. reflexivity.
    - intros j Hj Hn. rewrite (T j Hj). destruct (Nat.eqb_spec j 0); [contradiction|ring]. }
  assert (Nz : exists i, (i < k)%nat /\ c i <> 0).
  { destruct (Req_dec (c 0%nat) 0) as [E|E]; [|exists 0%nat; split; [exact Hk|exact E]].
    assert (Dec : (exists i, (i < k)%nat /\ c i <> 0) \/ (forall i, (i < k)%nat -> c i = 0)).
    { exact (some_nonzero k c). }
    destruct Dec as [X|X]; [exact X|]. exfalso. specialize (T 0%nat Hk). cbn [Nat.eqb] in T. rewrite (sm_ext k _ (fun _ => 0)) in T by (intros j Hj; rewrite X by exact Hj; ring). rewrite sm_zero in T. lra. }
  pose proof (definite_shrink r k D c Nz) as G. rewrite Q in G.
  assert (Hp : p * p < 1). { destruct (Rlt_or_le (p * p) 1) as [H|H]; [exact H|]. exfalso. assert ((1 - p * p) * e <= 0 * e) by (apply Rmult_le_compat_r; lra). lra. }
  split; [exact Hp|]. split.
  - unfold down. fold p. change (a 0%nat - p * a (k - 0)%nat) with (c 0%nat). rewrite C0. field. lra.
  - intros i Hi. rewrite (sm_ext k _ (fun j => / (1 - p * p) * (c j * toep r i j))) by (intros; unfold down, c; fold p; field; lra). rewrite sm_scal, (T i Hi). destruct (Nat.eqb i 0); field; lra.
Qed.
(* down undoes up *)
Lemma down_up k a rc n : a 0%nat = 1 -> rc * rc < 1 -> (n < k)%nat -> down k (up k a rc) n = a n.
Proof.
  intros A0 H Hn. unfold down, up. rewrite Nat.eqb_refl, Nat.ltb_irrefl, (proj2 (Nat.ltb_lt n k) Hn). replace (k =? 0)%nat with false by (symmetry; apply Nat.eqb_neq; lia).
  destruct (Nat.eqb_spec n 0) as [->|N0].
  - replace (k - 0)%nat with k by lia. rewrite Nat.eqb_refl, Nat.ltb_irrefl. replace (k =? 0)%nat with false by (symmetry; apply Nat.eqb_neq; lia). rewrite A0. field. lra.
  - replace (k - n =? 0)%nat with false by (symmetry; apply Nat.eqb_neq; lia). rewrite (proj2 (Nat.ltb_lt (k - n) k)) by lia. replace (k - (k - n))%nat with n by lia. field. lra.
Qed.
