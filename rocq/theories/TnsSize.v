(* The synthesis lattice of the decoder's temporal noise shaping in binary32: the weighted energy of its state (C52) with one rounding error per stage. *)
From Coq Require Import ZArith Lia List Bool Reals Lra Ratan Machin.
From Coquelicot Require Import Complex.
From Flocq Require Import Core BinarySingleNaN.
From Verif Require Import Base Config Loops ParseBase Scalar RealOps DecSignal DecTotal TnsOk TnsInverse Lpc TnsStable F32 F32Round F32Lines EncF32 F32Err F32Size.
From Coq Require Import List.
Import ListNotations.
Local Open Scope R_scope.
Local Notation f0 := (f32_of_Z 0).

(* ---- one stage ---- *)
Definition dl : R := 15 / 1000000.
Definition kp : R := 13 / 100000000.
Lemma kp_gp : gp 2 - 1 <= kp.
Proof. unfold gp, kp, vv, uu. cbn [pow]. lra. Qed.
Lemma lattice_round r t s u v c q : c = 1 - r * r -> / 120 <= c -> 0 <= q <= 1 ->
  Rabs (u - (t - r * s)) <= kp * (Rabs t + Rabs s + q) -> Rabs (v - (r * u + s)) <= kp * (Rabs u + Rabs s + q) ->
  v * v + c * (u * u) <= (1 + dl) * (t * t + c * (s * s)) + q.
Proof.
  intros Ec Hc Hq H1 H2. assert (R2 : 0 <= r * r) by apply Rle_0_sqr. assert (T2 : 0 <= t * t) by apply Rle_0_sqr. assert (S2 : 0 <= s * s) by apply Rle_0_sqr.
  assert (C1 : c <= 1) by lra. set (N := t * t + c * (s * s)). assert (CS : 0 <= c * (s * s)) by (apply Rmult_le_pos; lra). assert (N0 : 0 <= N) by (unfold N; lra). set (n := sqrt N). assert (n0 : 0 <= n) by apply sqrt_pos. assert (nn : n * n = N) by (apply sqrt_sqrt; exact N0).
  assert (Ab : forall x y, 0 <= y -> x * x <= y * y -> Rabs x <= y). { intros x y Hy Hxy. apply Rsqr_le_abs_0 in Hxy. rewrite (Rabs_pos_eq y) in Hxy by lra. exact Hxy. }
  assert (At : Rabs t <= n) by (apply Ab; [lra|unfold N in nn; lra]).
  assert (As : Rabs s <= 11 * n). { apply Ab; [lra|]. replace (11 * n * (11 * n)) with (121 * N) by (rewrite <- nn; ring). apply Rle_trans with (120 * (c * (s * s))); [|unfold N; lra]. replace (s * s) with (120 * (/ 120 * (s * s))) at 1 by lra. apply Rmult_le_compat_l; [lra|]. now apply Rmult_le_compat_r. }
  assert (Ar : Rabs r <= 1) by (apply Ab; lra).
  set (w := t - r * s) in *. set (A := r * w + s). assert (Id : A * A + c * (w * w) = N) by (unfold A, w, N; rewrite Ec; ring).
  assert (W2 : 0 <= w * w) by apply Rle_0_sqr. assert (A2 : 0 <= A * A) by apply Rle_0_sqr. assert (CW : 0 <= c * (w * w)) by (apply Rmult_le_pos; lra).
  assert (AA : Rabs A <= n) by (apply Ab; lra). assert (ACW : Rabs (c * w) <= n). { apply Ab; [lra|]. rewrite nn. apply Rle_trans with (1 * (c * (w * w))); [|lra]. replace (c * w * (c * w)) with (c * (c * (w * w))) by ring. apply Rmult_le_compat_r; lra. }
  assert (Aw : Rabs w <= 12 * n). { unfold w. eapply Rle_trans; [apply Rabs_triang|]. rewrite Rabs_Ropp, Rabs_mult. assert (Rabs r * Rabs s <= 1 * Rabs s) by (apply Rmult_le_compat_r; [apply Rabs_pos|exact Ar]). lra. }
  set (e1 := u - w) in *. assert (E1 : Rabs e1 <= kp * (12 * n + q)). { eapply Rle_trans; [exact H1|]. apply Rmult_le_compat_l; [unfold kp|]; lra. }
  assert (Au : Rabs u <= 13 * n + q). { replace u with (w + e1) by (unfold e1; ring). eapply Rle_trans; [apply Rabs_triang|]. unfold kp in E1. lra. }
  set (e2 := v - (r * u + s)) in *. assert (E2 : Rabs e2 <= kp * (24 * n + 2 * q)). { eapply Rle_trans; [exact H2|]. apply Rmult_le_compat_l; [unfold kp|]; lra. }
  set (a := r * e1 + e2). assert (Ea : Rabs a <= kp * (36 * n + 3 * q)). { unfold a. eapply Rle_trans; [apply Rabs_triang|]. rewrite Rabs_mult. assert (Rabs r * Rabs e1 <= 1 * Rabs e1) by (apply Rmult_le_compat_r; [apply Rabs_pos|exact Ar]). lra. }
  assert (Ev : v = A + a) by (unfold A, a, e2, e1, w; ring). assert (Eu : u = w + e1) by (unfold e1; ring).
  assert (X1 : A * a <= n * (kp * (36 * n + 3 * q))). { eapply Rle_trans; [apply Rle_abs|]. rewrite Rabs_mult. apply Rmult_le_compat; try apply Rabs_pos; assumption. }
  assert (X2 : c * w * e1 <= n * (kp * (12 * n + q))). { eapply Rle_trans; [apply Rle_abs|]. rewrite Rabs_mult. apply Rmult_le_compat; try apply Rabs_pos; assumption. }
  assert (Sq : forall x y, Rabs x <= y -> x * x <= y * y). { intros x y Hxy. replace (x * x) with (Rabs x * Rabs x) by (rewrite <- Rabs_mult; apply Rabs_pos_eq, Rle_0_sqr). apply Rmult_le_compat; try apply Rabs_pos; exact Hxy. }
  pose proof (Sq _ _ Ea) as X3. assert (X4 : c * (e1 * e1) <= kp * (12 * n + q) * (kp * (12 * n + q))). { apply Rle_trans with (1 * (e1 * e1)); [apply Rmult_le_compat_r; [apply Rle_0_sqr|exact C1]|]. rewrite Rmult_1_l. now apply Sq. }
  assert (Ex : v * v + c * (u * u) = N + 2 * (A * a) + 2 * (c * w * e1) + a * a + c * (e1 * e1)) by (rewrite Ev, Eu, <- Id; ring).
  rewrite Ex. fold N. rewrite <- nn. assert (nq : n * q <= (n * n + q * q) / 2). { assert (0 <= (n - q) * (n - q)) by apply Rle_0_sqr. lra. } assert (qq : q * q <= q). { apply Rle_trans with (1 * q); [apply Rmult_le_compat_r; lra|lra]. }
  assert (Q0 : 0 <= n * n) by apply Rle_0_sqr.
  assert (Y3 : kp * (36 * n + 3 * q) * (kp * (36 * n + 3 * q)) = kp * kp * (1296 * (n * n) + 216 * (n * q) + 9 * (q * q))) by ring.
  assert (Y4 : kp * (12 * n + q) * (kp * (12 * n + q)) = kp * kp * (144 * (n * n) + 24 * (n * q) + q * q)) by ring.
  assert (Y1 : n * (kp * (36 * n + 3 * q)) = kp * (36 * (n * n) + 3 * (n * q))) by ring. assert (Y2 : n * (kp * (12 * n + q)) = kp * (12 * (n * n) + n * q)) by ring.
  rewrite Y3 in X3. rewrite Y4 in X4. rewrite Y1 in X1. rewrite Y2 in X2. unfold dl, kp in *. set (m := n * n) in *. set (p := n * q) in *. set (z := q * q) in *. clearbody m p z. lra.
Qed.
Lemma stage_f32 (r t s : f32) : is_finite r = true -> is_finite t = true -> is_finite s = true -> Rabs (B2R r) <= 1 -> Rabs (B2R t) <= bpow radix2 100 -> Rabs (B2R s) <= bpow radix2 100 ->
  let u := Bminus mode_NE t (Bmult mode_NE r s) in let v := Bplus mode_NE (Bmult mode_NE r u) s in
  is_finite u = true /\ is_finite v = true /\ Rabs (B2R u - (B2R t - B2R r * B2R s)) <= kp * (Rabs (B2R t) + Rabs (B2R s) + 2 * th) /\ Rabs (B2R v - (B2R r * B2R u + B2R s)) <= kp * (Rabs (B2R u) + Rabs (B2R s) + 2 * th).
Proof.
  intros Fr Ft Fs Hr Ht Hs u v. pose proof th_small as T1. pose proof th_pos as T0. pose proof kp_gp as K. pose proof (gp_1 2) as G2. set (P := bpow radix2 100) in *. assert (P1 : 1 <= P) by (change 1 with (bpow radix2 0); apply bpow_le; lia).
  assert (B : 1024 * P = big) by (unfold big, P; change 1024 with (bpow radix2 10); rewrite <- bpow_plus; reflexivity).
  assert (Ar : ap 0 1 r (B2R r)) by (apply (ap_const r (B2R r) 1); auto). pose proof (Rabs_pos (B2R s)) as S0. pose proof (Rabs_pos (B2R t)) as T2.
  pose proof (ap_mult 0 1 0 _ r s _ _ Ar (ap_exact s Fs) ltac:(lia) ltac:(lra) ltac:(lra)) as A1. cbn [Nat.add] in A1. pose proof (ap_minus 0 _ 1 _ t _ _ _ (ap_exact t Ft) A1 ltac:(cbn; lia) ltac:(lra)) as A2. cbn [Nat.max Nat.add] in A2. fold u in A2.
  destruct A2 as (Fu & Eu & _). assert (Eu' : Rabs (B2R u - (B2R t - B2R r * B2R s)) <= kp * (Rabs (B2R t) + Rabs (B2R s) + 2 * th)).
  { eapply Rle_trans; [exact Eu|]. apply Rmult_le_compat; lra. }
  assert (Bu : Rabs (B2R u) <= 3 * P + 1).
  { replace (B2R u) with (B2R u - (B2R t - B2R r * B2R s) + (B2R t + - (B2R r * B2R s))) by ring. eapply Rle_trans; [apply Rabs_triang|]. pose proof (Rabs_triang (B2R t) (- (B2R r * B2R s))) as Tr. rewrite Rabs_Ropp, Rabs_mult in Tr.
    assert (Rabs (B2R r) * Rabs (B2R s) <= 1 * Rabs (B2R s)) by (apply Rmult_le_compat_r; lra). unfold kp in Eu'. lra. }
  pose proof (Rabs_pos (B2R u)) as U0. pose proof (ap_mult 0 1 0 _ r u _ _ Ar (ap_exact u Fu) ltac:(lia) ltac:(lra) ltac:(lra)) as A3. cbn [Nat.add] in A3. pose proof (ap_plus 1 _ 0 _ _ s _ _ A3 (ap_exact s Fs) ltac:(cbn; lia) ltac:(lra)) as A4. cbn [Nat.max Nat.add] in A4. fold v in A4.
  destruct A4 as (Fv & Ev & _). split; [exact Fu|]. split; [exact Fv|]. split; [exact Eu'|]. eapply Rle_trans; [exact Ev|]. apply Rmult_le_compat; lra.
Qed.

(* ---- one line ---- *)
Definition sv (st : list f32) (k : nat) : R := B2R (getz f0 st (Z.of_nat k)).
Definition zt : R := / 10000000000.
(* coefficients at a distance from one *)
Definition tame (r : f32) : Prop := is_finite r = true /\ B2R r * B2R r <= 1 - / 120.
Lemma shrink_low rc p : (forall k, (k < p)%nat -> rc k * rc k <= 1 - / 120) -> forall k, (k <= p)%nat -> (/ 120) ^ k <= shrink rc k.
Proof. intros H. induction k as [|k IH]; intros Hk; cbn [shrink pow]; [lra|]. specialize (IH ltac:(lia)). specialize (H k ltac:(lia)). rewrite Rmult_comm. apply Rmult_le_compat; [apply pow_le; lra|lra|exact IH|lra]. Qed.
Lemma pow_low k : (k <= 8)%nat -> (/ 120) ^ 8 <= (/ 120) ^ k.
Proof.
  intros H. replace 8%nat with (k + (8 - k))%nat by lia. rewrite pow_add. assert (P : 0 < (/ 120) ^ k) by (apply pow_lt; lra). assert (Q : (/ 120) ^ (8 - k) <= 1) by (rewrite <- (pow1 (8 - k)); apply pow_incr; lra).
  rewrite <- (Rmult_1_r ((/ 120) ^ k)) at 2. apply Rmult_le_compat_l; lra.
Qed.
Lemma store_get rc p s k : (forall k, (k < p)%nat -> rc k * rc k < 1) -> (k < p)%nat -> s k * s k <= store_energy rc p s * shrink rc k.
Proof.
  intros H Hk. pose proof (shrink_pos rc p H k ltac:(lia)) as P. assert (G : s k * s k / shrink rc k <= store_energy rc p s).
  { unfold store_energy. apply (sm_ge p (fun k => s k * s k / shrink rc k) k); [|exact Hk]. intros j Hj. apply Rmult_le_pos; [apply Rle_0_sqr|left; apply Rinv_0_lt_compat, (shrink_pos rc p H); lia]. }
  apply Rmult_le_compat_r with (r := shrink rc k) in G; [|lra]. replace (s k * s k / shrink rc k * shrink rc k) with (s k * s k) in G by (field; lra). exact G.
Qed.
Lemma abs_of_sq x b : 0 <= b -> x * x <= b * b -> Rabs x <= b.
Proof. intros Hy Hxy. apply Rsqr_le_abs_0 in Hxy. rewrite (Rabs_pos_eq b) in Hxy by lra. exact Hxy. Qed.
Lemma sm_two_le p j f g d z : 0 <= d -> (S j < p)%nat -> (forall k, (k < p)%nat -> 0 <= g k) -> (forall k, (k < p)%nat -> k <> j -> k <> S j -> f k = g k) -> f j + f (S j) <= (1 + d) * (g j + g (S j)) + z -> sm p f <= (1 + d) * sm p g + z.
Proof.
  intros D. assert (Q : forall m, (forall k, (k < m)%nat -> 0 <= g k) -> (forall k, (k < m)%nat -> f k = g k) -> sm m f <= (1 + d) * sm m g).
  { intros m P H. rewrite (sm_ext m f g H). pose proof (sm_nonneg m g P). assert (0 <= d * sm m g) by (apply Rmult_le_pos; assumption). lra. }
  induction p as [|p IH]; intros Hj P H E; [lia|]. destruct (Nat.eq_dec (S j) p) as [<-|N].
  - cbn [sm]. pose proof (Q j ltac:(intros; apply P; lia) ltac:(intros; apply H; lia)). lra.
  - cbn [sm]. specialize (IH ltac:(lia) ltac:(intros; apply P; lia) ltac:(intros; apply H; lia) E). rewrite (H p) by lia. specialize (P p ltac:(lia)). assert (0 <= d * g p) by (apply Rmult_le_pos; assumption). lra.
Qed.
Definition bound (E : R) (j : nat) : R := (1 + dl) ^ j * (E + INR j * zt).
Lemma bound_S E j : 0 <= E -> (1 + dl) * bound E j + zt <= bound E (S j).
Proof.
  intros H. unfold bound. rewrite S_INR. cbn [pow]. assert (1 <= (1 + dl) ^ S j) by (apply pow_R1_Rle; unfold dl; lra). cbn [pow] in *. assert (0 < zt) by (unfold zt; lra). set (G := (1 + dl) * (1 + dl) ^ j) in *.
  replace ((1 + dl) * ((1 + dl) ^ j * (E + INR j * zt))) with (G * (E + INR j * zt)) by (unfold G; ring). assert (1 * zt <= G * zt) by (apply Rmult_le_compat_r; lra). lra.
Qed.
Lemma bound_mono E j k : 0 <= E -> (j <= k)%nat -> bound E j <= bound E k.
Proof.
  intros H J. unfold bound. assert (0 < zt) by (unfold zt; lra). pose proof (pos_INR j). assert (INR j <= INR k) by (now apply le_INR). apply Rmult_le_compat.
  - apply pow_le. unfold dl. lra.
  - assert (0 <= INR j * zt) by (apply Rmult_le_pos; lra). lra.
  - apply Rle_pow; [unfold dl; lra|exact J].
  - assert (INR j * zt <= INR k * zt) by (apply Rmult_le_compat_r; lra). lra.
Qed.
Lemma bound_0 E : bound E 0 = E.
Proof. unfold bound. cbn. ring. Qed.
Lemma bound_8 E j : 0 <= E -> (j <= 8)%nat -> bound E j <= 2 * E + 1.
Proof. intros H J. eapply Rle_trans; [apply (bound_mono E j 8 H J)|]. unfold bound, dl, zt. cbn [pow INR]. lra. Qed.
Definition finl (l : list f32) : Prop := Forall (fun x => is_finite x = true) l.
Lemma finl_get l j : finl l -> is_finite (getz f0 l j) = true.
Proof.
  intros H. unfold getz. destruct (Nat.lt_ge_cases (Z.to_nat j) (length l)) as [L|L]; [unfold finl in H; rewrite Forall_forall in H; apply H, nth_In, L|]. rewrite nth_overflow by exact L. apply zero_val.
Qed.
Lemma tame_get l j : Forall tame l -> tame (getz f0 l j).
Proof.
  intros H. unfold getz. destruct (Nat.lt_ge_cases (Z.to_nat j) (length l)) as [L|L]; [rewrite Forall_forall in H; apply H, nth_In, L|]. rewrite nth_overflow by exact L. destruct zero_val as [V F]. split; [exact F|]. rewrite V. lra.
Qed.
Lemma tame_one r : tame r -> Rabs (B2R r) <= 1.
Proof. intros [_ H]. apply abs_of_sq; lra. Qed.
Lemma step_size lm rc off (p : nat) y st : (0 < p <= 8)%nat -> (0 <= off)%Z -> (off + 8 <= len rc)%Z -> len st = 8%Z -> Forall tame rc -> finl st -> is_finite y = true ->
  let c k := B2R (getz f0 rc (off + Z.of_nat k)) in let E := store_energy c p (sv st) + B2R y * B2R y / shrink c p in E <= bpow radix2 190 ->
  exists x st', tns_step (f32_ops lm) rc off (Z.of_nat p) y st = Ok (x, st') /\ len st' = 8%Z /\ getz f0 st' 0 = x /\ (forall k, (Z.of_nat p <= k < 8)%Z -> getz f0 st' k = getz f0 st k) /\ finl st' /\
    store_energy c p (sv st') <= bound E p.
Proof.
  intros Hp Ho Lr Ls Tm Fs Fy c E HE. assert (Hc : forall k, c k * c k <= 1 - / 120) by (intros k; apply (tame_get rc _ Tm)). assert (H : forall k, (k < p)%nat -> c k * c k < 1) by (intros k _; specialize (Hc k); lra).
  pose proof (shrink_pos c p H) as P. assert (SL : forall k, (k <= p)%nat -> (/ 120) ^ 8 <= shrink c k <= 1).
  { intros k Hk. split; [|apply (shrink_le c p k H Hk)]. eapply Rle_trans; [apply pow_low|apply (shrink_low c p (fun k _ => Hc k) k Hk)]. lia. }
  assert (EP : forall f, 0 <= store_energy c p f). { intros f. apply sm_nonneg. intros k Hk. apply Rmult_le_pos; [apply Rle_0_sqr|left; apply Rinv_0_lt_compat, P; lia]. }
  assert (E0 : 0 <= E). { pose proof (EP (sv st)). assert (0 <= B2R y * B2R y / shrink c p) by (apply Rmult_le_pos; [apply Rle_0_sqr|left; apply Rinv_0_lt_compat, P; lia]). unfold E. lra. }
  set (Q := bpow radix2 100). assert (Q1 : 1 <= Q) by (change 1 with (bpow radix2 0); apply bpow_le; lia). assert (QQ : bpow radix2 190 * 1024 = Q * Q) by (unfold Q; change 1024 with (bpow radix2 10); rewrite <- !bpow_plus; reflexivity). assert (B1 : 1 <= bpow radix2 190) by (change 1 with (bpow radix2 0); apply bpow_le; lia).
  (* sizes of what the energy counts *)
  assert (Sz : forall f j k, (j <= 8)%nat -> (k < p)%nat -> store_energy c p f <= bound E j -> Rabs (f k) <= Q).
  { intros f j k Hj Hk V. apply abs_of_sq; [lra|]. pose proof (store_get c p f k H Hk) as G. pose proof (bound_8 E j E0 Hj). pose proof (SL k ltac:(lia)). pose proof (EP f) as F0. assert (store_energy c p f * shrink c k <= store_energy c p f * 1) by (apply Rmult_le_compat_l; lra). lra. }
  assert (ZS : forall k, (k <= p)%nat -> 2 * th / shrink c k <= zt).
  { intros k Hk. specialize (SL k Hk). apply Rmult_le_reg_r with (shrink c k); [apply P; exact Hk|]. unfold Rdiv. rewrite Rmult_assoc, Rinv_l, Rmult_1_r by (apply Rgt_not_eq, P; exact Hk).
    apply Rle_trans with (zt * (/ 120) ^ 8); [|apply Rmult_le_compat_l; unfold zt; lra]. unfold th. apply Rle_trans with (2 * bpow radix2 (-92)); [apply Rmult_le_compat_l; [lra|apply bpow_le; lia]|]. unfold zt. cbn. lra. }
  set (q := (p - 1)%nat). assert (Y : Rabs (B2R y) <= Q).
  { apply abs_of_sq; [lra|]. assert (G : B2R y * B2R y / shrink c p <= bpow radix2 190) by (pose proof (EP (sv st)); unfold E in HE; lra). pose proof (SL p ltac:(lia)) as S1. apply Rmult_le_compat_r with (r := shrink c p) in G; [|lra]. replace (B2R y * B2R y / shrink c p * shrink c p) with (B2R y * B2R y) in G by (field; lra).
    assert (bpow radix2 190 * shrink c p <= bpow radix2 190 * 1) by (apply Rmult_le_compat_l; lra). lra. }
  assert (St0 : store_energy c p (sv st) <= bound E 0). { rewrite bound_0. unfold E. assert (0 <= B2R y * B2R y / shrink c p) by (apply Rmult_le_pos; [apply Rle_0_sqr|left; apply Rinv_0_lt_compat, P; lia]). lra. }
  unfold tns_step. cbv zeta. rewrite (idx_get f0 rc), (idx_get f0 st) by lia. cbn [bind f32_ops fsub fmul fadd].
  replace (getz f0 rc (Z.of_nat p - 1 + off)) with (getz f0 rc (off + Z.of_nat q)) by (unfold q; f_equal; lia). replace (getz f0 st (Z.of_nat p - 1)) with (getz f0 st (Z.of_nat q)) by (unfold q; f_equal; lia).
  set (t1 := Bminus mode_NE y (Bmult mode_NE (getz f0 rc (off + Z.of_nat q)) (getz f0 st (Z.of_nat q)))).
  match goal with |- context [for_rev _ _ ?b _] => set (body := b) end.
  set (u := fun (j : nat) (t : f32) (s : list f32) (k : nat) => if Nat.ltb k j then sv st k else if Nat.eqb k j then B2R t else sv s k).
  destruct (for_rev_inv (fun j '(t, s) => len s = 8%Z /\ (forall k, (Z.of_nat p <= k < 8 \/ 0 <= k <= j)%Z -> getz f0 s k = getz f0 st k) /\ is_finite t = true /\ finl s /\ store_energy c p (u (Z.to_nat j) t s) <= bound E (p - Z.to_nat j)) 0 (Z.of_nat p - 1) body
    (t1, st)) as ([t s] & Ef & L & K & Ft & Fss & V).
  - lia.
  - split; [exact Ls|]. split; [reflexivity|]. pose proof (tame_get rc (off + Z.of_nat q) Tm) as Tq. destruct (stage_f32 (getz f0 rc (off + Z.of_nat q)) y (getz f0 st (Z.of_nat q)) (proj1 Tq) Fy (finl_get st _ Fs) (tame_one _ Tq) Y (Sz (sv st) 0%nat q ltac:(lia) ltac:(unfold q; lia) St0)) as (F1 & _ & E1 & E2).
    split; [exact F1|]. split; [exact Fs|]. replace (Z.to_nat (Z.of_nat p - 1)) with q by (unfold q; lia). replace (p - q)%nat with 1%nat by (unfold q; lia). fold t1 in E1, E2. set (v1 := Bplus mode_NE _ _) in E2. change (B2R (getz f0 st (Z.of_nat q))) with (sv st q) in *. change (B2R (getz f0 rc (off + Z.of_nat q))) with (c q) in *.
    pose proof (lattice_round (c q) (B2R y) (sv st q) (B2R t1) (B2R v1) _ (2 * th) eq_refl ltac:(specialize (Hc q); lra) ltac:(pose proof th_pos; split; [lra|]; apply Rle_trans with (2 * bpow radix2 (-10)); [apply Rmult_le_compat_l; [lra|apply bpow_le; lia]|cbn; lra]) E1 E2) as LR.
    eapply Rle_trans; [|apply (bound_S E 0 E0)]. rewrite bound_0. unfold E, store_energy. assert (Eq : p = S q) by (unfold q; lia). rewrite Eq. cbn [sm]. 
    rewrite (sm_ext q (fun k => u q t1 st k * u q t1 st k / shrink c k) (fun k => sv st k * sv st k / shrink c k)).
    2: { intros k Hk. unfold u. now rewrite (proj2 (Nat.ltb_lt k q) Hk). }
    assert (Uq : u q t1 st q = B2R t1) by (unfold u; now rewrite Nat.ltb_irrefl, Nat.eqb_refl). rewrite Uq. pose proof (P q ltac:(lia)) as Pq. pose proof (P p ltac:(lia)) as Pp. rewrite Eq in Pp. pose proof (ZS p ltac:(lia)) as Zp. rewrite Eq in Zp.
    set (Sg := sm q (fun k => sv st k * sv st k / shrink c k)). assert (Sg0 : 0 <= Sg) by (apply sm_nonneg; intros k Hk; apply Rmult_le_pos; [apply Rle_0_sqr|left; apply Rinv_0_lt_compat, P; lia]).
    assert (Ds : shrink c (S q) = shrink c q * (1 - c q * c q)) by reflexivity. set (D := shrink c (S q)) in *. set (D0 := shrink c q) in *.
    assert (X : B2R t1 * B2R t1 / D0 <= (1 + dl) * (sv st q * sv st q / D0 + B2R y * B2R y / D) + 2 * th / D).
    { assert (V1 : 0 <= B2R v1 * B2R v1) by apply Rle_0_sqr. assert (LR' : (1 - c q * c q) * (B2R t1 * B2R t1) <= (1 + dl) * (B2R y * B2R y + (1 - c q * c q) * (sv st q * sv st q)) + 2 * th) by lra. apply Rmult_le_compat_r with (r := / D) in LR'; [|left; now apply Rinv_0_lt_compat].
      assert (Cq : 0 < 1 - c q * c q) by (specialize (H q ltac:(lia)); lra). replace ((1 - c q * c q) * (B2R t1 * B2R t1) * / D) with (B2R t1 * B2R t1 / D0) in LR' by (rewrite Ds; field; lra).
      replace (((1 + dl) * (B2R y * B2R y + (1 - c q * c q) * (sv st q * sv st q)) + 2 * th) * / D) with ((1 + dl) * (sv st q * sv st q / D0 + B2R y * B2R y / D) + 2 * th / D) in LR' by (rewrite Ds; field; lra). exact LR'. }
    assert (0 <= dl * Sg) by (apply Rmult_le_pos; [unfold dl; lra|exact Sg0]). lra.
  - intros j [t s] Hj (L & K & Ft & Fss & V). unfold body. rewrite (idx_get f0 rc), (idx_get f0 s) by lia. cbn [bind]. set (n := Z.to_nat j) in *. replace (Z.to_nat (j + 1)) with (S n) in V by lia.
    replace (getz f0 rc (j + off)) with (getz f0 rc (off + Z.of_nat n)) by (unfold n; f_equal; lia). rewrite K by lia. replace (getz f0 st j) with (getz f0 st (Z.of_nat n)) by (unfold n; f_equal; lia).
    assert (Hn : (S n < p)%nat) by (unfold n; lia). assert (Un : u (S n) t s n = sv st n) by (unfold u; rewrite (proj2 (Nat.ltb_lt n (S n))) by lia; reflexivity). assert (Un1 : u (S n) t s (S n) = B2R t) by (unfold u; rewrite Nat.ltb_irrefl, Nat.eqb_refl; reflexivity).
    pose proof (tame_get rc (off + Z.of_nat n) Tm) as Tn. assert (Bt : Rabs (B2R t) <= Q) by (rewrite <- Un1; apply (Sz _ (p - S n)%nat); [lia|lia|exact V]). assert (Bs : Rabs (sv st n) <= Q) by (rewrite <- Un; apply (Sz _ (p - S n)%nat); [lia|lia|exact V]).
    destruct (stage_f32 (getz f0 rc (off + Z.of_nat n)) t (getz f0 st (Z.of_nat n)) (proj1 Tn) Ft (finl_get st _ Fs) (tame_one _ Tn) Bt Bs) as (F1 & F2 & E1 & E2).
    set (t' := Bminus mode_NE t _) in *. set (v := Bplus mode_NE _ _) in *. change (B2R (getz f0 st (Z.of_nat n))) with (sv st n) in *. change (B2R (getz f0 rc (off + Z.of_nat n))) with (c n) in *.
    pose proof (lattice_round (c n) (B2R t) (sv st n) (B2R t') (B2R v) _ (2 * th) eq_refl ltac:(specialize (Hc n); lra) ltac:(pose proof th_pos; split; [lra|]; apply Rle_trans with (2 * bpow radix2 (-10)); [apply Rmult_le_compat_l; [lra|apply bpow_le; lia]|cbn; lra]) E1 E2) as LR.
    destruct (put_ok f0 s (j + 1) v ltac:(lia)) as (s' & Ep & L' & T). rewrite Ep. cbn [bind]. eexists. split; [reflexivity|]. split; [lia|]. split; [intros k Hk; rewrite T by lia; destruct (Z.eqb_spec k (j + 1)); [lia|]; apply K; lia|].
    split; [exact F1|]. split; [apply (Forall_put _ _ _ _ _ Ep Fss F2)|].
    replace (p - n)%nat with (S (p - S n)) by lia. eapply Rle_trans; [|apply (bound_S E (p - S n) E0)]. apply Rle_trans with ((1 + dl) * store_energy c p (u (S n) t s) + zt).
    2:{ apply Rplus_le_compat_r. apply Rmult_le_compat_l; [unfold dl; lra|exact V]. }
    unfold store_energy. apply (sm_two_le p n); [unfold dl; lra|exact Hn| | |].
    + intros k Hk. apply Rmult_le_pos; [apply Rle_0_sqr|left; apply Rinv_0_lt_compat, P; lia].
    + intros k Hk N1 N2. unfold u. destruct (Nat.ltb_spec k n), (Nat.ltb_spec k (S n)), (Nat.eqb_spec k n), (Nat.eqb_spec k (S n)); try lia; [reflexivity|]. unfold sv. rewrite T by lia. destruct (Z.eqb_spec (Z.of_nat k) (j + 1)); [lia|reflexivity].
    + rewrite Un, Un1. assert (Vn : u n t' s' n = B2R t') by (unfold u; rewrite Nat.ltb_irrefl, Nat.eqb_refl; reflexivity). assert (Vn1 : u n t' s' (S n) = B2R v). { unfold u. destruct (Nat.ltb_spec (S n) n); [lia|]. destruct (Nat.eqb_spec (S n) n); [lia|]. unfold sv. rewrite T by lia. destruct (Z.eqb_spec (Z.of_nat (S n)) (j + 1)); [reflexivity|lia]. }
      rewrite Vn, Vn1. pose proof (P n ltac:(lia)) as Pn. pose proof (P (S n) ltac:(lia)) as Pn1. pose proof (ZS (S n) ltac:(lia)) as Zn. assert (Ds : shrink c (S n) = shrink c n * (1 - c n * c n)) by reflexivity. set (D := shrink c (S n)) in *. set (D0 := shrink c n) in *.
      apply Rmult_le_compat_r with (r := / D) in LR; [|left; now apply Rinv_0_lt_compat]. assert (Cn : 0 < 1 - c n * c n) by (specialize (H n ltac:(lia)); lra).
      replace ((B2R v * B2R v + (1 - c n * c n) * (B2R t' * B2R t')) * / D) with (B2R t' * B2R t' / D0 + B2R v * B2R v / D) in LR by (rewrite Ds; field; lra).
      replace (((1 + dl) * (B2R t * B2R t + (1 - c n * c n) * (sv st n * sv st n)) + 2 * th) * / D) with ((1 + dl) * (sv st n * sv st n / D0 + B2R t * B2R t / D) + 2 * th / D) in LR by (rewrite Ds; field; lra). lra.
  - match goal with |- context [@for_rev ?T ?a ?b body ?i] => match type of Ef with ?lhs = _ => change (@for_rev T a b body i) with lhs end end. rewrite Ef. cbn [bind]. destruct (put_ok f0 s 0 t ltac:(lia)) as (s' & Ep & L' & T). rewrite Ep. cbn [bind]. exists t, s'. split; [reflexivity|]. split; [lia|]. split; [rewrite T by lia; reflexivity|]. split.
    + intros k Hk. rewrite T by lia. destruct (Z.eqb_spec k 0); [lia|]. apply K. lia.
    + split; [apply (Forall_put _ _ _ _ _ Ep Fss Ft)|]. change (Z.to_nat 0) with 0%nat in V. rewrite Nat.sub_0_r in V. apply Rle_trans with (2 := V). right. unfold store_energy. apply sm_ext. intros k Hk. unfold u. destruct (Nat.ltb_spec k 0); [lia|]. unfold sv. rewrite T by lia. destruct (Nat.eqb_spec k 0), (Z.eqb_spec (Z.of_nat k) 0); try lia; reflexivity.
Qed.

(* ---- one band ---- *)
Lemma dl_pow k : (k <= 3200)%nat -> (1 + dl) ^ k <= 1 + 11 / 10 * INR k * dl.
Proof.
  induction k as [|k IH]; intros H; [cbn; lra|]. cbn [pow]. rewrite S_INR. specialize (IH ltac:(lia)). assert (INR k <= 3200) by (change 3200 with (IZR 3200); rewrite INR_IZR_INZ; apply IZR_le; lia). pose proof (pos_INR k).
  eapply Rle_trans; [apply Rmult_le_compat_l; [unfold dl; lra|exact IH]|]. unfold dl. set (i := INR k) in *. assert (i * i <= 3200 * i) by (apply Rmult_le_compat_r; lra). lra.
Qed.
Lemma dl_400 j : (j <= 400)%nat -> (1 + dl) ^ (8 * j) <= 11 / 10.
Proof. intros H. eapply Rle_trans; [apply dl_pow; lia|]. rewrite mult_INR. assert (INR j <= 400) by (change 400 with (IZR 400); rewrite INR_IZR_INZ; apply IZR_le; lia). change (INR 8) with (IZR 8) || replace (INR 8) with 8 by (cbn; lra). unfold dl. lra. Qed.
Lemma band_size lm rc off (p : nat) lo hi st lines M E0 : (0 < p <= 8)%nat -> (0 <= off)%Z -> (off + 8 <= len rc)%Z -> len st = 8%Z -> Forall tame rc -> finl st -> (0 <= lo <= hi)%Z -> (hi <= len lines)%Z -> (hi - lo <= 400)%Z ->
  (forall n, (lo <= n < hi)%Z -> bd M (getz f0 lines n)) -> 0 <= E0 -> let c k := B2R (getz f0 rc (off + Z.of_nat k)) in store_energy c p (sv st) <= E0 -> let T := 11 / 10 * (E0 + 400 * (M * M / shrink c p + 1)) in T <= bpow radix2 189 ->
  exists st' lines', for_range lo hi (fun n '(st, lines) => x <- idx lines n ;; '(x, st) <- tns_step (f32_ops lm) rc off (Z.of_nat p) x st ;; lines <- put lines n x ;; Ok (st, lines)) (st, lines) = Ok (st', lines') /\
    len st' = 8%Z /\ len lines' = len lines /\ finl st' /\ (forall k, (Z.of_nat p <= k < 8)%Z -> getz f0 st' k = getz f0 st k) /\ (forall n, (0 <= n < lo \/ hi <= n < len lines)%Z -> getz f0 lines' n = getz f0 lines n) /\
    (forall n, (lo <= n < hi)%Z -> is_finite (getz f0 lines' n) = true /\ B2R (getz f0 lines' n) * B2R (getz f0 lines' n) <= T) /\ store_energy c p (sv st') <= T.
Proof.
  intros Hp Ho Lr Ls Tm Fs Hl Hh H4 Bm E0p c S0 T HT. assert (Hc : forall k, c k * c k <= 1 - / 120) by (intros k; apply (tame_get rc _ Tm)). assert (H : forall k, (k < p)%nat -> c k * c k < 1) by (intros k _; specialize (Hc k); lra).
  pose proof (shrink_pos c p H) as P. pose proof (P p ltac:(lia)) as Pp. set (W := M * M / shrink c p + 1) in *. assert (M2 : 0 <= M * M / shrink c p) by (apply Rmult_le_pos; [apply Rle_0_sqr|left; now apply Rinv_0_lt_compat]). assert (W0 : 1 <= W) by (unfold W; lra).
  set (e := fun j : nat => (1 + dl) ^ (8 * j) * (E0 + INR j * W)).
  assert (eT : forall j, (j <= 400)%nat -> e j <= T). { intros j Hj. unfold e, T. assert (INR j <= 400) by (change 400 with (IZR 400); rewrite INR_IZR_INZ; apply IZR_le; lia). pose proof (pos_INR j). apply Rmult_le_compat; [apply pow_le; unfold dl; lra| |apply dl_400, Hj|]; [assert (0 <= INR j * W) by (apply Rmult_le_pos; lra); lra|]. assert (INR j * W <= 400 * W) by (apply Rmult_le_compat_r; lra). lra. }
  assert (T189 : 2 * bpow radix2 189 = bpow radix2 190) by (change 2 with (bpow radix2 1); rewrite <- bpow_plus; reflexivity).
  assert (TW : W <= T) by (unfold T; lra).
  destruct (for_inv (fun n '(st', lines') => len st' = 8%Z /\ len lines' = len lines /\ finl st' /\ (forall k, (Z.of_nat p <= k < 8)%Z -> getz f0 st' k = getz f0 st k) /\ (forall i, (0 <= i < lo \/ n <= i < len lines)%Z -> getz f0 lines' i = getz f0 lines i) /\
    (forall i, (lo <= i < n)%Z -> is_finite (getz f0 lines' i) = true /\ B2R (getz f0 lines' i) * B2R (getz f0 lines' i) <= T) /\ store_energy c p (sv st') <= e (Z.to_nat (n - lo))) lo hi
    (fun n '(st, lines) => x <- idx lines n ;; '(x, st) <- tns_step (f32_ops lm) rc off (Z.of_nat p) x st ;; lines <- put lines n x ;; Ok (st, lines)) (st, lines)) as ([st' l'] & E & A1 & A2 & A3 & A4 & A5 & A6 & A7).
  - lia.
  - split; [exact Ls|]. split; [reflexivity|]. split; [exact Fs|]. split; [reflexivity|]. split; [reflexivity|]. split; [intros; lia|]. rewrite Z.sub_diag. change (Z.to_nat 0) with 0%nat. unfold e. change (8 * 0)%nat with 0%nat. cbn [pow INR]. lra.
  - intros n [s l] Hn (A1 & A2 & A3 & A4 & A5 & A6 & A7). rewrite (idx_get f0 l) by lia. cbn [bind]. rewrite A5 by lia. set (y := getz f0 lines n). destruct (Bm n Hn) as [Fy Hy]. fold y in Fy, Hy. set (j := Z.to_nat (n - lo)) in *.
    assert (Y2 : B2R y * B2R y / shrink c p <= W - 1). { unfold W. replace (M * M / shrink c p + 1 - 1) with (M * M / shrink c p) by ring. apply Rmult_le_compat_r; [left; now apply Rinv_0_lt_compat|]. replace (B2R y * B2R y) with (Rabs (B2R y) * Rabs (B2R y)) by (rewrite <- Rabs_mult; apply Rabs_pos_eq, Rle_0_sqr). apply Rmult_le_compat; try apply Rabs_pos; exact Hy. }
    pose proof (eT j ltac:(unfold j; lia)) as Ej. assert (EP : 0 <= store_energy c p (sv s)). { apply sm_nonneg. intros k Hk. apply Rmult_le_pos; [apply Rle_0_sqr|left; apply Rinv_0_lt_compat, P; lia]. }
    assert (Y0 : 0 <= B2R y * B2R y / shrink c p) by (apply Rmult_le_pos; [apply Rle_0_sqr|left; now apply Rinv_0_lt_compat]).
    destruct (step_size lm rc off p y s Hp Ho Lr A1 Tm A3 Fy) as (x & s' & Es & B1 & B2 & B3 & B4 & B5). { fold c. lra. }
    rewrite Es. cbn [bind]. destruct (put_ok f0 l n x ltac:(lia)) as (l' & Ep & L' & Tp). rewrite Ep. cbn [bind]. eexists. split; [reflexivity|]. fold c in B5.
    assert (En : store_energy c p (sv s') <= e (Z.to_nat (n + 1 - lo))).
    { eapply Rle_trans; [exact B5|]. replace (Z.to_nat (n + 1 - lo)) with (S j) by (unfold j; lia). eapply Rle_trans; [apply (bound_mono _ p 8); [lra|lia]|]. unfold bound, e. replace (8 * S j)%nat with (8 + 8 * j)%nat by lia. rewrite pow_add, (S_INR j).
      rewrite Rmult_assoc. apply Rmult_le_compat_l; [apply pow_le; unfold dl; lra|]. replace (INR 8 * zt) with (8 * zt) by (cbn; ring). assert (8 * zt <= 1) by (unfold zt; lra). assert (G : 1 <= (1 + dl) ^ (8 * j)) by (apply pow_R1_Rle; unfold dl; lra). unfold e in A7. set (g := (1 + dl) ^ (8 * j)) in *.
      assert (1 * W <= g * W) by (apply Rmult_le_compat_r; lra). lra. }
    split; [exact B1|]. split; [lia|]. split; [exact B4|]. split; [intros k Hk; rewrite B3 by lia; apply A4; lia|]. split; [intros i Hi; rewrite Tp by lia; destruct (Z.eqb_spec i n); [lia|apply A5; lia]|]. split; [|exact En].
    intros i Hi. rewrite Tp by lia. destruct (Z.eqb_spec i n) as [->|N]; [|apply A6; lia]. subst x. split; [apply finl_get, B4|].
    pose proof (store_get c p (sv s') 0%nat H ltac:(lia)) as G. cbn [shrink] in G. rewrite Rmult_1_r in G. unfold sv at 1 2 in G. cbn [Z.of_nat] in G. eapply Rle_trans; [exact G|]. eapply Rle_trans; [exact En|]. apply eT. lia.
  - exists st', l'. split; [exact E|]. split; [exact A1|]. split; [exact A2|]. split; [exact A3|]. split; [exact A4|]. split; [exact A5|]. split; [exact A6|]. eapply Rle_trans; [exact A7|]. apply eT. lia.
Qed.

(* ---- one filter, then the whole function ---- *)
Lemma shrink_ratio rc p : (forall k, (k < p)%nat -> rc k * rc k <= 1 - / 120) -> forall k, (k <= p)%nat -> shrink rc k * (/ 120) ^ (p - k) <= shrink rc p.
Proof.
  intros H k Hk. assert (P : forall k, (k <= p)%nat -> 0 < shrink rc k) by (apply shrink_pos; intros j Hj; specialize (H j Hj); lra).
  replace p with (k + (p - k))%nat at 2 by lia. assert (G : forall n, (k + n <= p)%nat -> shrink rc k * (/ 120) ^ n <= shrink rc (k + n)).
  { induction n as [|n IH]; intros Hn; [rewrite Nat.add_0_r; cbn [pow]; lra|]. rewrite Nat.add_succ_r. cbn [shrink pow]. specialize (IH ltac:(lia)). specialize (H (k + n)%nat ltac:(lia)).
    replace (shrink rc k * (/ 120 * (/ 120) ^ n)) with (shrink rc k * (/ 120) ^ n * / 120) by ring. pose proof (P k Hk). assert (0 <= (/ 120) ^ n) by (apply pow_le; lra). apply Rmult_le_compat; [apply Rmult_le_pos; lra|lra|exact IH|lra]. }
  apply G. lia.
Qed.
Lemma inv_pow n : / (/ 120) ^ n = 120 ^ n.
Proof. rewrite pow_inv, Rinv_inv. reflexivity. Qed.
Lemma pow_one n : 1 <= 120 ^ n.
Proof. apply pow_R1_Rle. lra. Qed.

Lemma sm_const n a : sm n (fun _ => a) = INR n * a.
Proof. induction n as [|n IH]; [cbn [sm]; change (INR 0) with 0; ring|]. cbn [sm]. rewrite IH, S_INR. ring. Qed.

Definition Q2 (M : R) : R := 444 * (M * M).
Lemma filter_size lm rc off order lo hi st lines M Q : (0 <= order <= 8)%Z -> (0 <= off)%Z -> (off + 8 <= len rc)%Z -> len st = 8%Z -> Forall tame rc -> finl st -> (0 <= lo <= hi)%Z -> (hi <= len lines)%Z -> (hi - lo <= 400)%Z ->
  1 <= M <= bpow radix2 40 -> (forall n, (lo <= n < hi)%Z -> bd M (getz f0 lines n)) -> (Q = 0 \/ Q = Q2 M) -> (forall k, (k < 8)%nat -> sv st k * sv st k <= Q * 120 ^ (8 - k)) ->
  exists st' lines', (if (0 <? order)%Z then for_range lo hi (fun n '(st, lines) => x <- idx lines n ;; '(x, st) <- tns_step (f32_ops lm) rc off order x st ;; lines <- put lines n x ;; Ok (st, lines)) (st, lines) else Ok (st, lines)) = Ok (st', lines') /\
    len st' = 8%Z /\ len lines' = len lines /\ finl st' /\ (forall n, (0 <= n < lo \/ hi <= n < len lines)%Z -> getz f0 lines' n = getz f0 lines n) /\
    (forall n, (lo <= n < hi)%Z -> bd (14000000000 * M) (getz f0 lines' n)) /\ (Q = 0 -> forall k, (k < 8)%nat -> sv st' k * sv st' k <= Q2 M * 120 ^ (8 - k)).
Proof.
  intros Hp Ho Lr Ls Tm Fs Hl Hh H4 [M1 MB] Bm HQ Hs. assert (MM : 1 <= M * M) by (rewrite <- (Rmult_1_r 1); apply Rmult_le_compat; lra). assert (Q0 : 0 <= Q <= Q2 M) by (unfold Q2 in *; destruct HQ as [-> | ->]; lra).
  destruct (Z.ltb_spec 0 order) as [C|C].
  2:{ exists st, lines. split; [reflexivity|]. split; [exact Ls|]. split; [reflexivity|]. split; [exact Fs|]. split; [reflexivity|]. split.
      - intros n Hn. destruct (Bm n Hn) as [F1 F2]. split; [exact F1|]. lra.
      - intros EQ k Hk. apply Rle_trans with (1 := Hs k Hk). apply Rmult_le_compat_r; [pose proof (pow_one (8 - k)); lra|lra]. }
  set (p := Z.to_nat order). assert (Ep : order = Z.of_nat p) by (unfold p; lia). assert (P8 : (0 < p <= 8)%nat) by (unfold p; lia). rewrite Ep. clear C. clearbody p.
  set (c := fun k => B2R (getz f0 rc (off + Z.of_nat k))). assert (Hc : forall k, c k * c k <= 1 - / 120) by (intros k; apply (tame_get rc _ Tm)).
  assert (P : forall k, (k <= p)%nat -> 0 < shrink c k) by (apply shrink_pos; intros k _; specialize (Hc k); lra). pose proof (shrink_low c p (fun k _ => Hc k)) as SL.
  assert (I120 : forall k, (k <= p)%nat -> / shrink c k <= 120 ^ k). { intros k Hk. rewrite <- inv_pow. apply Rinv_le_contravar; [apply pow_lt; lra|now apply SL]. }
  assert (E0 : store_energy c p (sv st) <= 8 * (Q * 120 ^ 8)).
  { unfold store_energy. apply Rle_trans with (sm p (fun _ => Q * 120 ^ 8)).
    - apply sm_le. intros k Hk. replace (120 ^ 8) with (120 ^ (8 - k) * 120 ^ k) by (rewrite <- pow_add; f_equal; lia). rewrite <- Rmult_assoc. apply Rmult_le_compat; [apply Rle_0_sqr|left; apply Rinv_0_lt_compat, P; lia|apply Hs; lia|apply I120; lia].
    - rewrite sm_const. apply Rmult_le_compat_r; [apply Rmult_le_pos; [lra|pose proof (pow_one 8); lra]|]. replace 8 with (INR 8) by (cbn; lra). apply le_INR. lia. }
  assert (MS : M * M / shrink c p <= M * M * 120 ^ 8). { apply Rmult_le_compat_l; [lra|]. apply Rle_trans with (1 := I120 p ltac:(lia)). apply Rle_pow; [lra|lia]. }
  assert (BB : bpow radix2 40 * bpow radix2 40 = bpow radix2 80) by (rewrite <- bpow_plus; reflexivity).
  assert (MMB : M * M <= bpow radix2 80) by (rewrite <- BB; apply Rmult_le_compat; lra).
  assert (TB : 11 / 10 * (8 * (Q * 120 ^ 8) + 400 * (M * M / shrink c p + 1)) <= 4349 * (M * M) * 120 ^ 8). { unfold Q2 in Q0. assert (Q * 120 ^ 8 <= 444 * (M * M) * 120 ^ 8) by (apply Rmult_le_compat_r; [pose proof (pow_one 8); lra|lra]). assert (1000000 * 1 <= M * M * 120 ^ 8) by (rewrite (Rmult_comm (M * M)); apply Rmult_le_compat; lra). lra. }
  destruct (band_size lm rc off p lo hi st lines M (8 * (Q * 120 ^ 8)) P8 Ho Lr Ls Tm Fs Hl Hh H4 Bm) as (st' & l' & Er & A1 & A2 & A3 & A4 & A5 & A6 & A7).
  - apply Rmult_le_pos; [lra|]. apply Rmult_le_pos; [lra|]. pose proof (pow_one 8). lra.
  - exact E0.
  - fold c. apply Rle_trans with (1 := TB). apply Rle_trans with (4349 * bpow radix2 80 * 120 ^ 8); [apply Rmult_le_compat_r; [pose proof (pow_one 8); lra|lra]|]. cbn. lra.
  - exists st', l'. split; [exact Er|]. split; [exact A1|]. split; [exact A2|]. split; [exact A3|]. split; [exact A5|]. split.
    + intros n Hn. destruct (A6 n Hn) as [F1 F2]. split; [exact F1|]. fold c in F2. apply abs_of_sq; [lra|]. apply Rle_trans with (1 := F2). apply Rle_trans with (1 := TB). replace (14000000000 * M * (14000000000 * M)) with (14000000000 * 14000000000 * (M * M)) by ring. replace (4349 * (M * M) * 120 ^ 8) with (4349 * 120 ^ 8 * (M * M)) by ring. apply Rmult_le_compat_r; [lra|]. lra.
    + intros -> k Hk. fold c in A7. destruct (Nat.lt_ge_cases k p) as [C|C].
      * pose proof (store_get c p (sv st') k ltac:(intros j _; specialize (Hc j); lra) C) as G. apply Rle_trans with (1 := G). apply Rle_trans with (11 / 10 * (8 * (0 * 120 ^ 8) + 400 * (M * M / shrink c p + 1)) * shrink c k); [apply Rmult_le_compat_r; [left; apply P; lia|exact A7]|].
        pose proof (shrink_ratio c p (fun j _ => Hc j) k ltac:(lia)) as SR. pose proof (P p ltac:(lia)) as Pp. pose proof (P k ltac:(lia)) as Pk. assert (K1 : shrink c k <= 1). { clear -Hc. induction k as [|k IH]; cbn [shrink]; [lra|]. apply Rle_trans with (1 * 1); [|lra]. assert (0 <= c k * c k) by apply Rle_0_sqr. specialize (Hc k). assert (0 <= shrink c k \/ shrink c k <= 0) as [D|D] by lra; [apply Rmult_le_compat; lra|]. apply Rle_trans with 0; [|lra]. rewrite <- (Rmult_0_l (1 - c k * c k)). apply Rmult_le_compat_r; lra. }
        assert (RT : shrink c k / shrink c p <= 120 ^ (8 - k)). { apply Rle_trans with (120 ^ (p - k)); [|apply Rle_pow; [lra|lia]]. rewrite <- (inv_pow (p - k)). assert (0 < (/ 120) ^ (p - k)) by (apply pow_lt; lra). apply Rmult_le_reg_r with (shrink c p * (/ 120) ^ (p - k)); [now apply Rmult_lt_0_compat|]. replace (shrink c k / shrink c p * (shrink c p * (/ 120) ^ (p - k))) with (shrink c k * (/ 120) ^ (p - k)) by (field; lra). replace (/ (/ 120) ^ (p - k) * (shrink c p * (/ 120) ^ (p - k))) with (shrink c p) by (field; lra). exact SR. }
        assert (T1 : M * M * (shrink c k / shrink c p) <= M * M * 120 ^ (8 - k)) by (apply Rmult_le_compat_l; lra). assert (T2 : 120 <= 120 ^ (8 - k)) by (rewrite <- (pow_1 120) at 1; apply Rle_pow; [lra|lia]). assert (T3 : 120 * 1 <= M * M * 120 ^ (8 - k)) by (rewrite (Rmult_comm (M * M)); apply Rmult_le_compat; lra).
        replace (11 / 10 * (8 * (0 * 120 ^ 8) + 400 * (M * M / shrink c p + 1)) * shrink c k) with (440 * (M * M * (shrink c k / shrink c p)) + 440 * shrink c k) by (field; lra). unfold Q2. lra.
      * unfold sv. rewrite A4 by lia. pose proof (Hs k Hk) as Z0. rewrite Rmult_0_l in Z0. unfold sv in Z0. apply Rle_trans with (1 := Z0). unfold Q2. apply Rmult_le_pos; [lra|pose proof (pow_one (8 - k)); lra].
Qed.

Lemma pi_313 : 313 / 100 <= PI.
Proof. pose proof (proj1 (PI_2_3_7_ineq 0)) as H. unfold tg_alt, PI_2_3_7_tg, Ratan_seq in H. cbn in H. lra. Qed.
(* the library's sines of the TNS coefficients: near the exact ones *)
Definition sines_near (lm : libm) : Prop := forall i, (-8 <= i <= 8)%Z -> is_finite (lm_sin17 lm i) = true /\ Rabs (B2R (lm_sin17 lm i) - sin (IZR i * (PI / 17))) <= bpow radix2 (-20).
Lemma cos_low8 i : (-8 <= i <= 8)%Z -> 914 / 10000 <= cos (IZR i * (PI / 17)).
Proof.
  intros H. pose proof PI_RGT_0 as P. pose proof pi_313 as P3. pose proof PI_4 as P4.
  assert (A : cos (IZR i * (PI / 17)) = cos (IZR (Z.abs i) * (PI / 17))).
  { destruct (Z.le_gt_cases 0 i) as [C|C]; [now rewrite Z.abs_eq by lia|]. rewrite Z.abs_neq by lia. rewrite opp_IZR. rewrite <- cos_neg. f_equal. ring. }
  rewrite A. set (k := Z.abs i). assert (K : (0 <= k <= 8)%Z) by (unfold k; lia). assert (K1 : 0 <= IZR k <= 8) by (split; apply IZR_le; lia).
  apply Rle_trans with (cos (8 * (PI / 17))).
  - replace (8 * (PI / 17)) with (PI / 2 - PI / 34) by (field). rewrite cos_shift. set (a := PI / 34). assert (Ha : 920 / 10000 < a <= 4 / 34) by (unfold a; lra).
    destruct (pre_sin_bound a 0 ltac:(lra) ltac:(lra)) as [t _]. apply Rle_trans with (2 := t). assert (Es : sin_approx a (2 * 0 + 1) = a - a * (a * a) / 6) by (unfold sin_approx, sin_term; simpl; field). rewrite Es.
    assert (a * a <= 4 / 34 * (4 / 34)) by (apply Rmult_le_compat; lra). assert (0 <= a * a) by (apply Rmult_le_pos; lra). assert (a * (a * a) <= 4 / 34 * (4 / 34 * (4 / 34))) by (apply Rmult_le_compat; lra). lra.
  - destruct (Req_dec (IZR k) 8) as [->|N]; [lra|]. left. apply cos_decreasing_1; try lra; try (apply Rmult_le_pos; lra).
    + apply Rle_trans with (8 * (PI / 17)); [apply Rmult_le_compat_r; lra|lra].
    + apply Rmult_lt_compat_r; lra.
Qed.
Lemma sine_tame lm i : sines_near lm -> (-8 <= i <= 8)%Z -> tame (lm_sin17 lm i).
Proof.
  intros S H. destruct (S i H) as [F D]. split; [exact F|]. pose proof (cos_low8 i H) as C. set (a := IZR i * (PI / 17)) in *. pose proof (sin2_cos2 a) as SC. unfold Rsqr in SC. pose proof (SIN_bound a) as SB. set (x := B2R (lm_sin17 lm i)) in *.
  assert (C2 : 914 / 10000 * (914 / 10000) <= cos a * cos a) by (apply Rmult_le_compat; lra). change (bpow radix2 (-20)) with (/ 1048576) in D. apply Rabs_le_inv in D.
  assert (X : x * x <= sin a * sin a + 3 / 1048576). { replace (x * x) with (sin a * sin a + (x - sin a) * (2 * sin a + (x - sin a))) by ring. apply Rplus_le_compat_l. set (e := x - sin a) in *. apply Rle_trans with (Rabs (e * (2 * sin a + e))); [apply Rle_abs|]. rewrite Rabs_mult. replace (3 / 1048576) with (/ 1048576 * 3) by field. apply Rmult_le_compat; try apply Rabs_pos; apply Rabs_le; lra. }
  lra.
Qed.
Lemma tame_zero : tame f0.
Proof. split; [reflexivity|]. cbn. lra. Qed.
Lemma tns_rc_tame lm rc_i : sines_near lm -> Forall (fun i => (0 <= i <= 16)%Z) rc_i -> Forall tame (tns_rc (f32_ops lm) rc_i).
Proof.
  intros S F. unfold tns_rc. apply Forall_zipmod with (Q := fun i => (0 <= i <= 16)%Z); [|exact F|].
  - apply Forall_forall. intros x Hx. apply repeat_spec in Hx. subst. exact tame_zero.
  - intros x i Hx Hi. destruct (i =? 0)%Z; [exact Hx|]. apply sine_tame; [exact S|lia].
Qed.
Lemma tns_size lm d bw orders rc_i lines M : sines_near lm -> (0 <= bw <= 4)%Z -> len orders = 2%Z -> Forall (fun p => (0 <= p <= 8)%Z) orders -> Forall (fun i => (0 <= i <= 16)%Z) rc_i -> (coded d bw <= len lines)%Z ->
  1 <= M <= bpow radix2 40 -> Forall (bd M) lines -> forall num, num = len (spec_bands d bw) ->
  exists out, tns_decode (f32_ops lm) d bw num orders rc_i lines = Ok out /\ len out = len lines /\ Forall (bd (14000000000 * M)) out.
Proof.
  intros S Hb Lo FO FR HC HM FL num Hn. unfold tns_decode. rewrite dec_bands_spec by exact Hb. cbn [bind].
  assert (G : forall n, (0 <= n < len lines)%Z -> bd M (getz f0 lines n)) by (intros n Hl; rewrite Forall_forall in FL; apply FL; unfold getz; apply nth_In; unfold len in Hl; lia).
  assert (W : forall n, (0 <= n < len lines)%Z -> bd (14000000000 * M) (getz f0 lines n)) by (intros n Hl; destruct (G n Hl) as [F1 F2]; split; [exact F1|lra]).
  assert (BF : Forall (fun '(a, b) => 0 <= a <= b /\ b <= len lines /\ b - a <= 400)%Z (spec_bands d bw)) by (destruct d, (bw_cases bw Hb) as [->|[->|[->|[->| ->]]]]; unfold coded in HC; cbn in *; repeat constructor; lia).
  assert (AS : forallb (fun '(_, hi) => hi <=? len lines)%Z (spec_bands d bw) = true). { apply forallb_forall. intros [a b] Hin. rewrite Forall_forall in BF. specialize (BF _ Hin). cbv beta iota in BF. apply Z.leb_le. lia. }
  rewrite AS. cbn [assert bind]. assert (Hn2 : (1 <= num <= 2)%Z) by (subst num; destruct d, (bw_cases bw Hb) as [->|[->|[->|[->| ->]]]]; cbn; lia).
  pose proof (tns_rc_tame lm rc_i S FR) as TR. assert (LR : len (tns_rc (f32_ops lm) rc_i) = 16%Z) by (unfold tns_rc; rewrite DecTotal.len_zipmod; reflexivity). set (rc := tns_rc (f32_ops lm) rc_i) in *.
  assert (Z0 : forall k, sv (repeat f0 8) k = 0) by (intros k; unfold sv, getz; rewrite nth_repeat; reflexivity).
  destruct orders as [|p1 [|p2 [|p3 orders]]]; try (exfalso; unfold len in Lo; cbn [length] in Lo; lia). inversion FO as [|a1 a2 Hp1 FO2]; subst a1 a2. inversion FO2 as [|a1 a2 Hp2 FO3]; subst a1 a2. clear FO FO2 FO3 Lo.
  assert (ALL : forall l, len l = len lines -> (forall n, (0 <= n < len lines)%Z -> bd (14000000000 * M) (getz f0 l n)) -> Forall (bd (14000000000 * M)) l).
  { intros l Ll Hl. apply Forall_forall. intros x Hx. destruct (In_nth l x f0 Hx) as (i & Hi & <-). specialize (Hl (Z.of_nat i)). unfold getz in Hl. rewrite Nat2Z.id in Hl. apply Hl. unfold len in *. lia. }
  assert (First : forall lo hi, (0 <= lo <= hi)%Z -> (hi <= len lines)%Z -> (hi - lo <= 400)%Z -> exists st' lines', (if (0 <? p1)%Z then for_range lo hi (fun n '(st, lines) => x <- idx lines n ;; '(x, st) <- tns_step (f32_ops lm) rc (0 * 8) p1 x st ;; lines <- put lines n x ;; Ok (st, lines)) (repeat f0 8, lines) else Ok (repeat f0 8, lines)) = Ok (st', lines') /\
    len st' = 8%Z /\ len lines' = len lines /\ finl st' /\ (forall n, (0 <= n < lo \/ hi <= n < len lines)%Z -> getz f0 lines' n = getz f0 lines n) /\
    (forall n, (lo <= n < hi)%Z -> bd (14000000000 * M) (getz f0 lines' n)) /\ (forall k, (k < 8)%nat -> sv st' k * sv st' k <= Q2 M * 120 ^ (8 - k))).
  { intros lo hi H1 H2 H3. destruct (filter_size lm rc (0 * 8) p1 lo hi (repeat f0 8) lines M 0 Hp1 ltac:(lia) ltac:(lia) eq_refl TR) as (st' & l' & E & A1 & A2 & A3 & A4 & A5 & A6); try assumption.
    - apply Forall_forall. intros x Hx. apply repeat_spec in Hx. now subst.
    - intros n Hl. apply G. lia.
    - now left.
    - intros k _. rewrite Z0. lra.
    - exists st', l'. split; [exact E|]. split; [exact A1|]. split; [exact A2|]. split; [exact A3|]. split; [exact A4|]. split; [exact A5|]. now apply A6. }
  destruct (spec_bands d bw) as [|[lo hi] [|[lo2 hi2] [|b3 bs]]] eqn:EB; try (exfalso; subst num; unfold len in Hn2; cbn [length] in Hn2; lia).
  - subst num. change (sub [p1; p2] 0 (len [(lo, hi)])) with (Ok [p1]). cbn [bind tns_filters]. pose proof (Forall_inv BF) as B0; cbv beta iota in B0; destruct B0 as (B1 & B2 & B3); pose proof (Forall_inv_tail BF) as BF2. destruct (First lo hi B1 B2 B3) as (st' & l' & E & A1 & A2 & A3 & A4 & A5 & A6).
    change (repeat (fz (f32_ops lm) 0) 8) with (repeat f0 8). match goal with |- context [bind ?m _] => match type of E with ?lhs = _ => change m with lhs end end. rewrite E. cbn [bind]. exists l'. split; [reflexivity|]. split; [exact A2|]. apply ALL; [exact A2|]. intros n Hl.
    destruct (Z.lt_ge_cases n lo); [rewrite A4 by lia; now apply W|]. destruct (Z.lt_ge_cases n hi); [apply A5; lia|]. rewrite A4 by lia. now apply W.
  - subst num. change (sub [p1; p2] 0 (len [(lo, hi); (lo2, hi2)])) with (Ok [p1; p2]). cbn [bind tns_filters]. pose proof (Forall_inv BF) as B0; cbv beta iota in B0; destruct B0 as (B1 & B2 & B3); pose proof (Forall_inv_tail BF) as BF2. pose proof (Forall_inv BF2) as C0; cbv beta iota in C0; destruct C0 as (C1 & C2 & C3). assert (DJ : (hi <= lo2)%Z) by (clear -EB Hb; destruct d, (bw_cases bw Hb) as [->|[->|[->|[->| ->]]]]; cbn in EB; inversion EB; lia).
    destruct (First lo hi B1 B2 B3) as (st' & l' & E & A1 & A2 & A3 & A4 & A5 & A6).
    change (repeat (fz (f32_ops lm) 0) 8) with (repeat f0 8). match goal with |- context [bind ?m _] => match type of E with ?lhs = _ => change m with lhs end end. rewrite E. cbn [bind].
    destruct (filter_size lm rc ((0 + 1) * 8) p2 lo2 hi2 st' l' M (Q2 M) Hp2 ltac:(lia) ltac:(lia) A1 TR A3 C1) as (st2 & l2 & E2 & D1 & D2 & D3 & D4 & D5 & _); try assumption; try lia.
    + intros n Hl. rewrite A4 by lia. apply G. lia.
    + now right.
    + match goal with |- context [bind ?m _] => match type of E2 with ?lhs = _ => change m with lhs end end. rewrite E2. cbn [bind]. exists l2. split; [reflexivity|]. split; [lia|]. apply ALL; [lia|]. intros n Hl.
      assert (Old : bd (14000000000 * M) (getz f0 l' n)) by (destruct (Z.lt_ge_cases n lo); [rewrite A4 by lia; now apply W|]; destruct (Z.lt_ge_cases n hi); [apply A5; lia|]; rewrite A4 by lia; now apply W).
      destruct (Z.lt_ge_cases n lo2); [rewrite D4 by lia; exact Old|]. destruct (Z.lt_ge_cases n hi2); [apply D5; lia|]. rewrite D4 by lia. exact Old.
Qed.
