(* The synthesis lattice of the decoder's temporal noise shaping on the reals: a weighted energy of its state grows by no more than the
   input line squared, so every line is bounded by the energy of the lines read (C52). *)
From Coq Require Import ZArith Lia List Bool Reals Lra.
From Verif Require Import Base Config Loops ParseBase Scalar RealOps DecSignal TnsInverse Lpc.
Import ListNotations.
Local Open Scope Z_scope.

Lemma sq_nonneg a : (0 <= a * a)%R.
Proof. exact (Rle_0_sqr a). Qed.
(* product of 1 - rc^2 over the first k coefficients *)
Fixpoint shrink (rc : nat -> R) (k : nat) : R := match k with O => 1%R | S k => (shrink rc k * (1 - rc k * rc k))%R end.
Lemma shrink_pos rc p : (forall k, (k < p)%nat -> (rc k * rc k < 1)%R) -> forall k, (k <= p)%nat -> (0 < shrink rc k)%R.
Proof.
  intros H. induction k as [|k IH]; intros Hk; cbn [shrink]; [lra|]. specialize (IH ltac:(lia)). specialize (H k ltac:(lia)). apply Rmult_lt_0_compat; lra.
Qed.
Lemma shrink_step rc p k : (forall k, (k < p)%nat -> (rc k * rc k < 1)%R) -> (k < p)%nat -> (shrink rc (S k) <= shrink rc k)%R.
Proof.
  intros H Hk. cbn [shrink]. pose proof (shrink_pos rc p H k ltac:(lia)). pose proof (sq_nonneg (rc k)). apply Rle_trans with (shrink rc k * 1)%R; [apply Rmult_le_compat_l; lra|lra].
Qed.
Lemma shrink_le rc p k : (forall k, (k < p)%nat -> (rc k * rc k < 1)%R) -> (k <= p)%nat -> (shrink rc p <= shrink rc k <= 1)%R.
Proof.
  intros H Hk. split.
  - assert (G : forall n, (k + n <= p)%nat -> (shrink rc (k + n) <= shrink rc k)%R).
    { induction n as [|n IH]; intros Hn; [rewrite Nat.add_0_r; right; reflexivity|]. replace (k + S n)%nat with (S (k + n)) by lia. apply Rle_trans with (shrink rc (k + n)); [apply (shrink_step rc p); [exact H|lia]|apply IH; lia]. }
    replace p with (k + (p - k))%nat at 1 by lia. apply G. lia.
  - induction k as [|k IH]; [cbn [shrink]; lra|]. apply Rle_trans with (shrink rc k); [apply (shrink_step rc p); [exact H|lia]|apply IH; lia].
Qed.
Lemma shrink_ext rc rc' p : (forall k, (k < p)%nat -> rc k = rc' k) -> shrink rc p = shrink rc' p.
Proof. induction p as [|p IH]; intros H; cbn [shrink]; [reflexivity|]. rewrite (H p) by lia. now rewrite IH by (intros; apply H; lia). Qed.

(* ---- sums ---- *)
Lemma sm_two p j f g : (S j < p)%nat -> (forall k, (k < p)%nat -> k <> j -> k <> S j -> f k = g k) -> (f j + f (S j) = g j + g (S j))%R -> sm p f = sm p g.
Proof.
  induction p as [|p IH]; intros Hj H E; [lia|]. destruct (Nat.eq_dec (S j) p) as [<-|N].
  - cbn [sm]. rewrite (sm_ext j f g) by (intros; apply H; lia). lra.
  - cbn [sm]. rewrite IH by first [lia | intros; apply H; lia | exact E]. now rewrite H by lia.
Qed.
Lemma sm_le n f g : (forall i, (i < n)%nat -> (f i <= g i)%R) -> (sm n f <= sm n g)%R.
Proof. induction n as [|n IH]; intros H; cbn [sm]; [lra|]. specialize (IH ltac:(intros; apply H; lia)). specialize (H n ltac:(lia)). lra. Qed.
Lemma sm_mono n m f : (n <= m)%nat -> (forall i, (0 <= f i)%R) -> (sm n f <= sm m f)%R.
Proof. intros H P. induction H; [lra|]. cbn [sm]. specialize (P m). lra. Qed.

(* ---- one line ---- *)
(* weighted energy of the first p places of the state *)
Definition store_energy (rc : nat -> R) (p : nat) (s : nat -> R) : R := sm p (fun k => s k * s k / shrink rc k)%R.
Lemma step_energy rc off (p : nat) y st : (0 < p <= 8)%nat -> 0 <= off -> off + 8 <= len rc -> len st = 8 ->
  let c k := getz 0%R rc (off + Z.of_nat k) in (forall k, (k < p)%nat -> (c k * c k < 1)%R) ->
  exists x st', tns_step R_ops rc off (Z.of_nat p) y st = Ok (x, st') /\ len st' = 8 /\ getz 0%R st' 0 = x /\ (forall k, Z.of_nat p <= k < 8 -> getz 0%R st' k = getz 0%R st k) /\
    (store_energy c p (fun k => getz 0%R st' (Z.of_nat k)) <= store_energy c p (fun k => getz 0%R st (Z.of_nat k)) + y * y / shrink c p)%R.
Proof.
  intros Hp Ho Lr Ls c H. pose proof (shrink_pos c p H) as P. unfold tns_step. cbv zeta. rewrite (idx_get 0%R rc), (idx_get 0%R st) by lia. cbn [bind R_ops fsub fmul].
  set (q := (p - 1)%nat). replace (getz 0%R rc (Z.of_nat p - 1 + off)) with (c q) by (unfold c, q; f_equal; lia). replace (getz 0%R st (Z.of_nat p - 1)) with (getz 0%R st (Z.of_nat q)) by (unfold q; f_equal; lia).
  set (B := (store_energy c p (fun k => getz 0%R st (Z.of_nat k)) + y * y / shrink c p)%R).
  match goal with |- context [for_rev _ _ ?b _] => set (body := b) end.
  set (u := fun (j : nat) (t : R) (s : list R) (k : nat) => if Nat.ltb k j then getz 0%R st (Z.of_nat k) else if Nat.eqb k j then t else getz 0%R s (Z.of_nat k)).
  destruct (for_rev_inv (fun j '(t, s) => len s = 8 /\ (forall k, Z.of_nat p <= k < 8 \/ 0 <= k <= j -> getz 0%R s k = getz 0%R st k) /\ (store_energy c p (u (Z.to_nat j) t s) <= B)%R) 0 (Z.of_nat p - 1) body
    ((y - c q * getz 0%R st (Z.of_nat q))%R, st)) as ([t s] & E & L & K & V).
  - lia.
  - split; [exact Ls|]. split; [reflexivity|]. replace (Z.to_nat (Z.of_nat p - 1)) with q by (unfold q; lia). unfold B, store_energy. assert (Eq : p = S q) by (unfold q; lia). rewrite Eq. cbn [sm shrink].
    rewrite (sm_ext q (fun k => u q (y - c q * getz 0%R st (Z.of_nat q)) st k * u q (y - c q * getz 0%R st (Z.of_nat q)) st k / shrink c k)%R (fun k => getz 0%R st (Z.of_nat k) * getz 0%R st (Z.of_nat k) / shrink c k)%R).
    2: { intros k Hk. unfold u. now rewrite (proj2 (Nat.ltb_lt k q) Hk). }
    assert (Uq : u q (y - c q * getz 0%R st (Z.of_nat q))%R st q = (y - c q * getz 0%R st (Z.of_nat q))%R) by (unfold u; now rewrite Nat.ltb_irrefl, Nat.eqb_refl). rewrite Uq.
    set (s := getz 0%R st (Z.of_nat q)). specialize (P q ltac:(lia)). specialize (H q ltac:(lia)). set (D := shrink c q) in *. set (r := c q) in *.
    assert (Hd : (0 < D * (1 - r * r))%R) by (apply Rmult_lt_0_compat; lra).
    assert (Id : (s * s / D + y * y / (D * (1 - r * r)) - (y - r * s) * (y - r * s) / D = (r * (y - r * s) + s) * (r * (y - r * s) + s) / (D * (1 - r * r)))%R) by (field; lra).
    assert (0 <= (r * (y - r * s) + s) * (r * (y - r * s) + s) / (D * (1 - r * r)))%R by (apply Rmult_le_pos; [apply sq_nonneg|left; now apply Rinv_0_lt_compat]). lra.
  - intros j [t s] Hj (L & K & V). unfold body. rewrite (idx_get 0%R rc), (idx_get 0%R s) by lia. cbn [bind R_ops fadd]. set (n := Z.to_nat j) in *. replace (Z.to_nat (j + 1)) with (S n) in V by lia.
    replace (getz 0%R rc (j + off)) with (c n) by (unfold c, n; f_equal; lia). rewrite K by lia. set (sj := getz 0%R st j). set (t' := (t - c n * sj)%R).
    destruct (put_ok 0%R s (j + 1) (c n * t' + sj)%R ltac:(lia)) as (s' & -> & L' & T). cbn [bind]. eexists. split; [reflexivity|]. split; [lia|]. split; [intros k Hk; rewrite T by lia; destruct (Z.eqb_spec k (j + 1)); [lia|]; apply K; lia|].
    assert (Hn : (S n < p)%nat) by (unfold n; lia). apply Rle_trans with (store_energy c p (u (S n) t s)); [right|exact V]. unfold store_energy. apply (sm_two p n); [exact Hn| |].
    + intros k Hk N1 N2. unfold u. destruct (Nat.ltb_spec k n), (Nat.ltb_spec k (S n)), (Nat.eqb_spec k n), (Nat.eqb_spec k (S n)); try lia; [reflexivity|]. rewrite T by lia. destruct (Z.eqb_spec (Z.of_nat k) (j + 1)); [lia|reflexivity].
    + unfold u. rewrite Nat.ltb_irrefl, !Nat.eqb_refl. rewrite (proj2 (Nat.ltb_lt n (S n))) by lia. destruct (Nat.ltb_spec (S n) n); [lia|]. destruct (Nat.eqb_spec (S n) n); [lia|]. rewrite (Nat.ltb_irrefl (S n)). rewrite T by lia. destruct (Z.eqb_spec (Z.of_nat (S n)) (j + 1)); [|lia].
      replace (getz 0%R st (Z.of_nat n)) with sj by (unfold sj, n; f_equal; lia). cbn [shrink]. specialize (P n ltac:(lia)). specialize (H n ltac:(lia)). unfold t'. field. lra.
  - rewrite E. cbn [bind]. destruct (put_ok 0%R s 0 t ltac:(lia)) as (s' & -> & L' & T). cbn [bind]. exists t, s'. split; [reflexivity|]. split; [lia|]. split; [rewrite T by lia; reflexivity|]. split.
    + intros k Hk. rewrite T by lia. destruct (Z.eqb_spec k 0); [lia|]. apply K. lia.
    + apply Rle_trans with (2 := V). right. unfold store_energy. apply sm_ext. intros k Hk. change (Z.to_nat 0) with 0%nat. unfold u. destruct (Nat.ltb_spec k 0); [lia|]. rewrite T by lia. destruct (Nat.eqb_spec k 0), (Z.eqb_spec (Z.of_nat k) 0); try lia; reflexivity.
Qed.

(* ---- one band ---- *)
Definition power (x : list R) (n : nat) : R := sm n (fun i => getz 0%R x (Z.of_nat i) * getz 0%R x (Z.of_nat i))%R.
Lemma power_nonneg x n : (0 <= power x n)%R.
Proof. apply sm_nonneg. intros. apply sq_nonneg. Qed.
Lemma power_mono x n m : (n <= m)%nat -> (power x n <= power x m)%R.
Proof. intros H. apply sm_mono; [exact H|]. intros. apply sq_nonneg. Qed.
Lemma power_ext x y n : (forall i, 0 <= i < Z.of_nat n -> getz 0%R x i = getz 0%R y i) -> power x n = power y n.
Proof. intros H. apply sm_ext. intros i Hi. now rewrite H by lia. Qed.
Lemma power_line x n : (getz 0%R x (Z.of_nat n) * getz 0%R x (Z.of_nat n) <= power x (S n))%R.
Proof. pose proof (power_nonneg x n). unfold power in *. cbn [sm]. lra. Qed.
Lemma div_mono a b d : (0 < d)%R -> (a <= b)%R -> (a / d <= b / d)%R.
Proof. intros Hd H. apply Rmult_le_compat_r; [left; now apply Rinv_0_lt_compat|exact H]. Qed.
Lemma div_up a d : (0 <= a)%R -> (0 < d <= 1)%R -> (a <= a / d)%R.
Proof. intros Ha Hd. apply Rmult_le_reg_r with d; [lra|]. unfold Rdiv. rewrite Rmult_assoc, Rinv_l, Rmult_1_r by lra. replace a with (a * 1)%R at 2 by ring. apply Rmult_le_compat_l; lra. Qed.
Lemma div_between a d e : (0 <= a)%R -> (0 < e <= d)%R -> (a / d <= a / e)%R.
Proof. intros Ha Hd. apply Rmult_le_compat_l; [exact Ha|]. apply Rinv_le_contravar; lra. Qed.

Lemma band_energy rc f (p : nat) lo hi st x z : (0 < p <= 8)%nat -> 0 <= f -> f * 8 + 8 <= len rc -> len st = 8 -> 0 <= lo <= hi -> hi <= len x -> (forall n, lo <= n < hi -> getz 0%R x n = getz 0%R z n) ->
  let c k := getz 0%R rc (f * 8 + Z.of_nat k) in (forall k, (k < p)%nat -> (c k * c k < 1)%R) ->
  forall G, (1 <= G)%R -> (power st 8 <= G * power z (Z.to_nat lo))%R ->
  exists st' y, for_range lo hi (dec_body R_ops rc f (Z.of_nat p)) (st, x) = Ok (st', y) /\ len st' = 8 /\ len y = len x /\
    (forall n, 0 <= n < lo \/ hi <= n < len x -> getz 0%R y n = getz 0%R x n) /\
    (power st' 8 <= G / shrink c p * power z (Z.to_nat hi))%R /\
    (forall n, lo <= n < hi -> (getz 0%R y n * getz 0%R y n <= G / shrink c p * power z (S (Z.to_nat n)))%R).
Proof.
  intros Hp Hf Lr Ls Hl Hh Hz c H G HG HS. pose proof (shrink_pos c p H) as P. pose proof (P p ltac:(lia)) as Pp. pose proof (shrink_le c p p H ltac:(lia)) as [_ P1].
  set (rest := sm (8 - p) (fun k => getz 0%R st (Z.of_nat (p + k)) * getz 0%R st (Z.of_nat (p + k)))%R).
  assert (Hrest : (0 <= rest)%R) by (apply sm_nonneg; intros; apply sq_nonneg).
  assert (App : forall n m g, sm (n + m) g = (sm n g + sm m (fun i => g (n + i)%nat))%R) by (intros n m g; induction m as [|m IH]; [rewrite Nat.add_0_r; cbn [sm]; lra|replace (n + S m)%nat with (S (n + m)) by lia; cbn [sm]; rewrite IH; lra]).
  assert (Split : forall s, (forall k, Z.of_nat p <= k < 8 -> getz 0%R s k = getz 0%R st k) -> power s 8 = (power s p + rest)%R).
  { intros s Hs. unfold power, rest. replace 8%nat with (p + (8 - p))%nat at 1 by lia. rewrite App. f_equal. apply sm_ext. intros i Hi. now rewrite Hs by lia. }
  assert (PS : forall s : list R, (power s p <= store_energy c p (fun k => getz 0%R s (Z.of_nat k)))%R).
  { intros s. apply sm_le. intros k Hk. apply div_up; [apply sq_nonneg|]. pose proof (shrink_le c p k H ltac:(lia)). specialize (P k ltac:(lia)). lra. }
  assert (SP : forall s : list R, (store_energy c p (fun k => getz 0%R s (Z.of_nat k)) <= power s p / shrink c p)%R).
  { intros s. unfold power, Rdiv. rewrite Rmult_comm, <- sm_scal. apply sm_le. intros k Hk. rewrite (Rmult_comm (/ _)). apply div_between; [apply sq_nonneg|]. pose proof (shrink_le c p k H ltac:(lia)). lra. }
  set (V0 := (power st p / shrink c p)%R).
  destruct (for_inv (fun n '(s, y) => len s = 8 /\ len y = len x /\ (forall k, Z.of_nat p <= k < 8 -> getz 0%R s k = getz 0%R st k) /\ (forall m, 0 <= m < lo \/ n <= m < len x -> getz 0%R y m = getz 0%R x m) /\
      (store_energy c p (fun k => getz 0%R s (Z.of_nat k)) <= V0 + (power z (Z.to_nat n) - power z (Z.to_nat lo)) / shrink c p)%R /\
      (forall m, lo <= m < n -> (getz 0%R y m * getz 0%R y m <= V0 + (power z (S (Z.to_nat m)) - power z (Z.to_nat lo)) / shrink c p)%R)) lo hi (dec_body R_ops rc f (Z.of_nat p)) (st, x)) as ([s y] & E & A1 & A2 & A3 & A4 & A5 & A6).
  - lia.
  - split; [exact Ls|]. split; [reflexivity|]. split; [reflexivity|]. split; [reflexivity|]. split; [|intros; lia]. replace (power z (Z.to_nat lo) - power z (Z.to_nat lo))%R with 0%R by ring. unfold Rdiv at 1. rewrite Rmult_0_l, Rplus_0_r. apply SP.
  - intros n [s y] Hn (A1 & A2 & A3 & A4 & A5 & A6). unfold dec_body. rewrite (idx_get 0%R y) by lia. cbn [bind]. rewrite A4 by lia. rewrite (Hz n Hn).
    destruct (step_energy rc (f * 8) p (getz 0%R z n) s Hp ltac:(lia) Lr A1 H) as (x1 & s1 & E1 & L1 & H1 & K1 & V1). fold c in V1. rewrite E1. cbn [bind]. destruct (put_ok 0%R y n x1 ltac:(lia)) as (y1 & -> & Ly & T). cbn [bind].
    eexists. split; [reflexivity|]. split; [exact L1|]. split; [lia|]. split; [intros k Hk; rewrite K1 by exact Hk; now apply A3|]. split; [intros m Hm; rewrite T by lia; destruct (Z.eqb_spec m n); [lia|]; apply A4; lia|].
    assert (Next : (power z (S (Z.to_nat n)) = power z (Z.to_nat n) + getz 0 z n * getz 0 z n)%R) by (unfold power; cbn [sm]; now rewrite Z2Nat.id by lia).
    assert (VN : (store_energy c p (fun k => getz 0%R s1 (Z.of_nat k)) <= V0 + (power z (S (Z.to_nat n)) - power z (Z.to_nat lo)) / shrink c p)%R).
    { rewrite Next. replace ((power z (Z.to_nat n) + getz 0 z n * getz 0 z n - power z (Z.to_nat lo)) / shrink c p)%R with ((power z (Z.to_nat n) - power z (Z.to_nat lo)) / shrink c p + getz 0 z n * getz 0 z n / shrink c p)%R by (field; lra). lra. }
    split; [replace (Z.to_nat (n + 1)) with (S (Z.to_nat n)) by lia; exact VN|]. intros m Hm. rewrite T by lia. destruct (Z.eqb_spec m n) as [->|]; [|apply A6; lia].
    apply Rle_trans with (2 := VN). apply Rle_trans with (power s1 p); [|apply PS]. destruct p as [|p']; [lia|]. unfold power. rewrite sm_first. change (Z.of_nat 0) with 0. rewrite H1.
    assert (0 <= sm p' (fun i => getz 0%R s1 (Z.of_nat (S i)) * getz 0%R s1 (Z.of_nat (S i))))%R by (apply sm_nonneg; intros; apply sq_nonneg). lra.
  - exists s, y. split; [exact E|]. split; [exact A1|]. split; [exact A2|]. split; [exact A4|].
    assert (V0le : (V0 + rest / shrink c p <= G * power z (Z.to_nat lo) / shrink c p)%R). { unfold V0. rewrite (Split st) in HS by reflexivity. replace (power st p / shrink c p + rest / shrink c p)%R with ((power st p + rest) / shrink c p)%R by (field; lra). apply div_mono; lra. }
    assert (Bound : forall n, (Z.to_nat lo <= n)%nat -> (V0 + rest / shrink c p + (power z n - power z (Z.to_nat lo)) / shrink c p <= G / shrink c p * power z n)%R).
    { intros n Hn. pose proof (power_mono z _ _ Hn) as M. pose proof (power_nonneg z (Z.to_nat lo)). replace (G / shrink c p * power z n)%R with (G * power z (Z.to_nat lo) / shrink c p + G * (power z n - power z (Z.to_nat lo)) / shrink c p)%R by (field; lra).
      assert ((power z n - power z (Z.to_nat lo)) / shrink c p <= G * (power z n - power z (Z.to_nat lo)) / shrink c p)%R.
      { apply div_mono; [lra|]. replace (power z n - power z (Z.to_nat lo))%R with (1 * (power z n - power z (Z.to_nat lo)))%R at 1 by ring. apply Rmult_le_compat_r; lra. }
      lra. }
    assert (R0 : (rest <= rest / shrink c p)%R) by (apply div_up; lra).
    split.
    + rewrite (Split s) by exact A3. specialize (PS s). specialize (Bound (Z.to_nat hi) ltac:(lia)). lra.
    + intros n Hn. specialize (A6 n Hn). specialize (Bound (S (Z.to_nat n)) ltac:(lia)). lra.
Qed.

(* ---- all bands ---- *)
(* the product of the factors of the filters from f on *)
Fixpoint filters_gain (rc : list R) (f : Z) (orders : list Z) : R :=
  match orders with [] => 1%R | p :: orders => (/ shrink (fun k => getz 0%R rc (f * 8 + Z.of_nat k)) (Z.to_nat p) * filters_gain rc (f + 1) orders)%R end.
Lemma filters_gain_ge rc : forall orders f, (forall i k, 0 <= i < len orders -> (k < Z.to_nat (getz 0%Z orders i))%nat -> (getz 0 rc ((f + i) * 8 + Z.of_nat k) * getz 0 rc ((f + i) * 8 + Z.of_nat k) < 1)%R) -> (1 <= filters_gain rc f orders)%R.
Proof.
  induction orders as [|p orders IH]; intros f H; cbn [filters_gain]; [lra|]. assert (L : len (p :: orders) = len orders + 1) by (unfold len; cbn [length]; lia).
  assert (C : forall k, (k < Z.to_nat p)%nat -> (getz 0 rc (f * 8 + Z.of_nat k) * getz 0 rc (f * 8 + Z.of_nat k) < 1)%R). { intros k Hk. specialize (H 0 k). rewrite Z.add_0_r in H. apply H; [unfold len; cbn [length]; lia|exact Hk]. }
  pose proof (shrink_pos _ _ C (Z.to_nat p) ltac:(lia)) as P. pose proof (shrink_le _ _ (Z.to_nat p) C ltac:(lia)) as [_ P1].
  assert (1 <= filters_gain rc (f + 1) orders)%R.
  { apply IH. intros i k Hi Hk. replace (f + 1 + i) with (f + (i + 1)) by lia. apply H; [lia|]. unfold getz in Hk |- *. replace (Z.to_nat (i + 1)) with (S (Z.to_nat i)) by lia. exact Hk. }
  assert (1 <= / shrink (fun k => getz 0%R rc (f * 8 + Z.of_nat k)) (Z.to_nat p))%R by (rewrite <- Rinv_1; apply Rinv_le_contravar; lra).
  apply Rle_trans with (1 * 1)%R; [lra|]. apply Rmult_le_compat; lra.
Qed.
Lemma filters_energy rc z : forall bands orders f st x lo G, 0 <= f -> 0 <= lo -> ordered lo (len x) bands -> (f + len bands) * 8 <= len rc -> len st = 8 -> len orders <= len bands ->
  (forall i, 0 <= i < len orders -> 0 <= getz 0 orders i <= 8) ->
  (forall i k, 0 <= i < len orders -> (k < Z.to_nat (getz 0%Z orders i))%nat -> (getz 0 rc ((f + i) * 8 + Z.of_nat k) * getz 0 rc ((f + i) * 8 + Z.of_nat k) < 1)%R) ->
  (forall n, lo <= n < len x -> getz 0%R x n = getz 0%R z n) -> (1 <= G)%R -> (power st 8 <= G * power z (Z.to_nat lo))%R ->
  exists y, tns_filters R_ops rc f bands orders st x = Ok y /\ len y = len x /\ (forall n, 0 <= n < lo -> getz 0%R y n = getz 0%R x n) /\
    forall n, lo <= n < len x -> (getz 0%R y n * getz 0%R y n <= G * filters_gain rc f orders * power z (S (Z.to_nat n)))%R.
Proof.
  assert (Self : forall n G, 0 <= n -> (1 <= G)%R -> (getz 0%R z n * getz 0%R z n <= G * power z (S (Z.to_nat n)))%R).
  { intros n G Hn HG. pose proof (power_line z (Z.to_nat n)) as PL. rewrite Z2Nat.id in PL by lia. apply Rle_trans with (1 := PL). replace (power z (S (Z.to_nat n))) with (1 * power z (S (Z.to_nat n)))%R at 1 by ring. apply Rmult_le_compat_r; [apply power_nonneg|exact HG]. }
  induction bands as [|[a b] bands IH]; intros orders f st x lo G Hf Hlo O Lr Ls Lo HO HC HZ HG HS.
  - assert (orders = []) as -> by (destruct orders; [reflexivity|unfold len in Lo; cbn [length] in Lo; lia]). exists x. cbn [tns_filters]. split; [reflexivity|]. split; [reflexivity|]. split; [reflexivity|]. intros n Hn. cbn [filters_gain]. rewrite Rmult_1_r, HZ by exact Hn. apply Self; [lia|exact HG].
  - assert (LB : len ((a, b) :: bands) = len bands + 1) by (unfold len; cbn [length]; lia). rewrite LB in *. assert (0 <= len bands) by (unfold len; lia). cbn [ordered] in O. destruct O as [O1 O2]. pose proof (ordered_le _ _ _ O2) as Ob.
    destruct orders as [|p orders].
    { exists x. cbn [tns_filters]. split; [reflexivity|]. split; [reflexivity|]. split; [reflexivity|]. intros n Hn. cbn [filters_gain]. rewrite Rmult_1_r, HZ by exact Hn. apply Self; [lia|exact HG]. }
    assert (LO : len (p :: orders) = len orders + 1) by (unfold len; cbn [length]; lia). rewrite LO in *. assert (0 <= len orders) by (unfold len; lia).
    pose proof (HO 0 ltac:(lia)) as Hp. change (getz 0 (p :: orders) 0) with p in Hp. set (c := fun k => getz 0%R rc (f * 8 + Z.of_nat k)).
    assert (C : forall k, (k < Z.to_nat p)%nat -> (c k * c k < 1)%R). { intros k Hk. specialize (HC 0 k). rewrite Z.add_0_r in HC. apply HC; [lia|exact Hk]. }
    pose proof (shrink_pos _ _ C (Z.to_nat p) ltac:(lia)) as P. pose proof (shrink_le _ _ (Z.to_nat p) C ltac:(lia)) as [_ P1].
    assert (GS : (G <= G / shrink c (Z.to_nat p))%R) by (apply div_up; lra).
    assert (B : exists st1 y1, (if 0 <? p then for_range a b (dec_body R_ops rc f p) (st, x) else Ok (st, x)) = Ok (st1, y1) /\ len st1 = 8 /\ len y1 = len x /\ (forall n, 0 <= n < a \/ b <= n < len x -> getz 0%R y1 n = getz 0%R x n) /\
      (power st1 8 <= G / shrink c (Z.to_nat p) * power z (Z.to_nat b))%R /\ (forall n, a <= n < b -> (getz 0%R y1 n * getz 0%R y1 n <= G / shrink c (Z.to_nat p) * power z (S (Z.to_nat n)))%R)).
    { assert (HA : (power st 8 <= G * power z (Z.to_nat a))%R) by (apply Rle_trans with (1 := HS); apply Rmult_le_compat_l; [lra|apply power_mono; lia]).
      destruct (Z.ltb_spec 0 p) as [Hp0|Hp0].
      - destruct (band_energy rc f (Z.to_nat p) a b st x z) with (G := G) as (st1 & y1 & E1 & R1); try lia; try assumption; [intros n Hn; apply HZ; lia|]. rewrite Z2Nat.id in E1 by lia. exists st1, y1. split; [exact E1|exact R1].
      - exists st, x. split; [reflexivity|]. split; [exact Ls|]. split; [reflexivity|]. split; [reflexivity|]. split.
        + apply Rle_trans with (1 := HA). apply Rmult_le_compat; [lra|apply power_nonneg|exact GS|apply power_mono; lia].
        + intros n Hn. rewrite HZ by lia. apply Self; [lia|lra]. }
    destruct B as (st1 & y1 & E1 & L1 & L2 & K1 & V1 & K2). cbn [tns_filters]. unfold dec_body in E1. rewrite E1. cbn [bind].
    assert (HC' : forall i k, 0 <= i < len orders -> (k < Z.to_nat (getz 0%Z orders i))%nat -> (getz 0 rc ((f + 1 + i) * 8 + Z.of_nat k) * getz 0 rc ((f + 1 + i) * 8 + Z.of_nat k) < 1)%R).
    { intros i k Hi Hk. replace (f + 1 + i) with (f + (i + 1)) by lia. apply HC; [lia|]. unfold getz in Hk |- *. replace (Z.to_nat (i + 1)) with (S (Z.to_nat i)) by lia. exact Hk. }
    pose proof (filters_gain_ge rc orders (f + 1) HC') as G1.
    destruct (IH orders (f + 1) st1 y1 b (G / shrink c (Z.to_nat p))%R) as (y & Ey & Ly & Ky & Vy); try lia; try assumption.
    + rewrite L2. exact O2.
    + intros i Hi. specialize (HO (i + 1) ltac:(lia)). unfold getz in HO |- *. replace (Z.to_nat (i + 1)) with (S (Z.to_nat i)) in HO by lia. exact HO.
    + intros n Hn. rewrite K1 by lia. apply HZ. lia.
    + lra.
    + exists y. split; [exact Ey|]. split; [lia|]. split; [intros n Hn; rewrite Ky by lia; apply K1; lia|]. cbn [filters_gain]. fold c.
      replace (G * (/ shrink c (Z.to_nat p) * filters_gain rc (f + 1) orders))%R with (G / shrink c (Z.to_nat p) * filters_gain rc (f + 1) orders)%R by (unfold Rdiv; ring).
      intros n Hn. destruct (Z.lt_ge_cases n b) as [Hb|Hb]; [|apply Vy; lia]. rewrite Ky by lia.
      assert (W : (getz 0%R y1 n * getz 0%R y1 n <= G / shrink c (Z.to_nat p) * power z (S (Z.to_nat n)))%R).
      { destruct (Z.lt_ge_cases n a) as [Ha|Ha]; [rewrite K1, HZ by lia; apply Self; [lia|lra]|apply K2; lia]. }
      apply Rle_trans with (1 := W). apply Rmult_le_compat_r; [apply power_nonneg|]. replace (G / shrink c (Z.to_nat p))%R with (G / shrink c (Z.to_nat p) * 1)%R at 1 by ring. apply Rmult_le_compat_l; [lra|exact G1].
Qed.
