(* Rounding errors of binary32 operations: a relation between a float and the real number it stands for. *)
From Coq Require Import ZArith List Bool Lia Reals Lra.
From Coquelicot Require Import Complex.
From Flocq Require Import Core BinarySingleNaN Relative.
From Verif Require Import Base Scalar F32 F32Round F32Lines EncF32 RealOps.
From Coq Require Import List.
Import ListNotations.
Local Open Scope R_scope.

(* one rounding: half a unit in the last place, with room for results below the normal range *)
Definition uu : R := / 16777216.
Definition vv : R := uu * (1 + / 1048576).
Definition th : R := bpow radix2 (-100).
Lemma uu_pos : 0 < uu < / 1000000. Proof. unfold uu. lra. Qed.
Lemma vv_pos : uu < vv < / 1000000. Proof. unfold vv, uu. lra. Qed.
Lemma th_pos : 0 < th. Proof. apply bpow_gt_0. Qed.
Lemma th_small : th <= 1. Proof. change 1 with (bpow radix2 0). apply bpow_le. lia. Qed.
Definition gp (k : nat) : R := (1 + vv) ^ k.
Lemma gp_1 k : 1 <= gp k. Proof. apply pow_R1_Rle. pose proof vv_pos. pose proof uu_pos. lra. Qed.
Lemma gp_S k : gp (S k) = (1 + vv) * gp k. Proof. reflexivity. Qed.
Lemma gp_add j k : gp (j + k) = gp j * gp k. Proof. apply pow_add. Qed.
Lemma gp_le j k : (j <= k)%nat -> gp j <= gp k.
Proof. intros H. apply Rle_pow; [|exact H]. pose proof vv_pos. pose proof uu_pos. lra. Qed.
Lemma gp_lin k : (k <= 4000)%nat -> gp k <= 1 + 101 / 100 * INR k * vv.
Proof.
  pose proof vv_pos as V. pose proof uu_pos as U. induction k as [|k IH]; intros H; [unfold gp; cbn; lra|]. rewrite gp_S, S_INR. specialize (IH ltac:(lia)).
  assert (INR k <= 4000). { change 4000 with (IZR 4000). rewrite INR_IZR_INZ. apply IZR_le. lia. } pose proof (pos_INR k).
  assert (B : vv < 6 / 100000000) by (unfold vv, uu; lra).
  eapply Rle_trans; [apply Rmult_le_compat_l; [lra|exact IH]|]. assert (101 / 100 * INR k * vv <= / 100). { apply Rle_trans with (101 / 100 * 4000 * vv); [|lra]. apply Rmult_le_compat_r; lra. } nra.
Qed.
Lemma gp_2 k : (k <= 1000)%nat -> gp k <= 2.
Proof.
  intros H. eapply Rle_trans; [apply gp_lin; lia|]. assert (INR k <= 1000). { change 1000 with (IZR 1000). rewrite INR_IZR_INZ. apply IZR_le. lia. } pose proof (pos_INR k).
  assert (B : vv < 6 / 100000000) by (unfold vv, uu; lra). pose proof vv_pos. pose proof uu_pos. nra.
Qed.
Lemma rnd_err t : Rabs (rnd32 t - t) <= uu * Rabs t + bpow radix2 (-150).
Proof.
  destruct (error_N_FLT radix2 (-149) 24 ltac:(lia) (fun x => negb (Z.even x)) t) as (eps & eta & He & Hn & _ & E).
  unfold rnd32. change (round radix2 fexp32 ZnearestE t) with (round radix2 (FLT_exp (-149) 24) (Znearest (fun x => negb (Z.even x))) t). rewrite E.
  replace (t * (1 + eps) + eta - t) with (t * eps + eta) by ring. eapply Rle_trans; [apply Rabs_triang|]. rewrite Rabs_mult. apply Rplus_le_compat.
  - rewrite (Rmult_comm uu). apply Rmult_le_compat_l; [apply Rabs_pos|]. eapply Rle_trans; [exact He|]. unfold uu. cbn. lra.
  - eapply Rle_trans; [exact Hn|]. change (-150)%Z with (-149 + -1)%Z. rewrite bpow_plus. cbn [bpow] . change (Z.pow_pos radix2 1) with 2%Z. lra.
Qed.

(* x stands for r: S bounds the size, k roundings in a row bound the error *)
Definition ap (k : nat) (S : R) (x : f32) (r : R) : Prop := is_finite x = true /\ Rabs (B2R x - r) <= (gp k - 1) * S /\ Rabs r <= S /\ th <= S.
Definition big : R := bpow radix2 110.
Lemma ap_val k S x r : ap k S x r -> Rabs (B2R x) <= gp k * S.
Proof. intros (_ & H & R & _). replace (B2R x) with (B2R x - r + r) by ring. eapply Rle_trans; [apply Rabs_triang|]. lra. Qed.
Lemma ap_weaken k S k' S' x r : ap k S x r -> (k <= k')%nat -> S <= S' -> ap k' S' x r.
Proof.
  intros (F & H & R & T) Hk HS. pose proof (gp_le k k' Hk). pose proof (gp_1 k). pose proof th_pos. repeat split; try assumption; try lra.
  eapply Rle_trans; [exact H|]. apply Rmult_le_compat; lra.
Qed.
Lemma ap_exact x : is_finite x = true -> ap 0 (Rabs (B2R x) + th) x (B2R x).
Proof. intros F. pose proof (Rabs_pos (B2R x)). pose proof th_pos. repeat split; auto; try lra. replace (B2R x - B2R x) with 0 by ring. rewrite Rabs_R0. unfold gp. cbn [pow]. lra. Qed.
Lemma ap_round k S t r : Rabs (t - r) <= (gp k - 1) * S -> Rabs r <= S -> th <= S -> Rabs (rnd32 t - r) <= (gp (k + 1) - 1) * S /\ ((k <= 999)%nat -> S <= big -> Rlt_bool (Rabs (rnd32 t)) (bpow radix2 128) = true).
Proof.
  intros H R T. pose proof (rnd_err t) as E. pose proof th_pos as T0. pose proof vv_pos as V. pose proof uu_pos as U. pose proof (gp_1 k) as G.
  assert (Ht : Rabs t <= gp k * S). { replace t with (t - r + r) by ring. eapply Rle_trans; [apply Rabs_triang|]. lra. }
  assert (P : bpow radix2 (-150) <= uu * / 1048576 * S). { apply Rle_trans with (uu * / 1048576 * th); [|apply Rmult_le_compat_l; lra]. unfold uu, th.
    replace (bpow radix2 (-150)) with (bpow radix2 (-44) * bpow radix2 (-100) * bpow radix2 (-6)) by (rewrite <- !bpow_plus; reflexivity).
    assert (0 < bpow radix2 (-100)) by apply bpow_gt_0. generalize dependent (bpow radix2 (-100)). intros b Hb. cbn. lra. }
  assert (E2 : Rabs (rnd32 t - t) <= vv * gp k * S).
  { eapply Rle_trans; [exact E|]. assert (uu * Rabs t <= uu * (gp k * S)) by (apply Rmult_le_compat_l; lra).
    assert (uu * / 1048576 * S <= uu * / 1048576 * (gp k * S)). { apply Rmult_le_compat_l; [lra|]. nra. } unfold vv. lra. }
  assert (E3 : Rabs (rnd32 t - r) <= (gp (k + 1) - 1) * S).
  { replace (rnd32 t - r) with (rnd32 t - t + (t - r)) by ring. eapply Rle_trans; [apply Rabs_triang|]. rewrite gp_add. replace (gp 1) with (1 + vv) by (unfold gp; cbn [pow]; ring). nra. }
  split; [exact E3|]. intros Hk HS. apply Rlt_bool_true. replace (rnd32 t) with (rnd32 t - r + r) by ring. eapply Rle_lt_trans; [apply Rabs_triang|].
  pose proof (gp_2 (k + 1) ltac:(lia)) as G2. assert ((gp (k + 1) - 1) * S <= 1 * S) by (apply Rmult_le_compat_r; lra).
  apply Rle_lt_trans with (2 * big); [lra|]. unfold big. change 2 with (bpow radix2 1). rewrite <- bpow_plus. apply bpow_lt. lia.
Qed.
Lemma ap_plus k S j T x y r s : ap k S x r -> ap j T y s -> (Nat.max k j <= 999)%nat -> S + T <= big -> ap (Nat.max k j + 1) (S + T) (Bplus mode_NE x y) (r + s).
Proof.
  intros A B K L. apply (ap_weaken _ _ (Nat.max k j) S) in A; [|lia|lra]. apply (ap_weaken _ _ (Nat.max k j) T) in B; [|lia|lra]. set (m := Nat.max k j) in *.
  destruct A as (FA & HA & RA & TA). destruct B as (FB & HB & RB & TB). pose proof th_pos.
  destruct (ap_round m (S + T) (B2R x + B2R y) (r + s)) as [E F].
  { replace (B2R x + B2R y - (r + s)) with (B2R x - r + (B2R y - s)) by ring. eapply Rle_trans; [apply Rabs_triang|]. lra. }
  { eapply Rle_trans; [apply Rabs_triang|]. lra. } { lra. }
  specialize (F K L). pose proof (Bplus_correct 24 128 f32_prec f32_emax mode_NE x y FA FB) as BP. fold fexp32 in BP. change (round_mode mode_NE) with ZnearestE in BP. fold (rnd32 (B2R x + B2R y)) in BP. rewrite F in BP.
  destruct BP as (V & W & _). repeat split; [exact W|now rewrite V| |lra]. eapply Rle_trans; [apply Rabs_triang|]. lra.
Qed.
Lemma ap_neg k S x r : ap k S x r -> ap k S (Bopp x) (- r).
Proof.
  intros (F & H & R & T). repeat split; [now rewrite is_finite_Bopp| |now rewrite Rabs_Ropp|exact T]. rewrite B2R_Bopp. replace (- B2R x - - r) with (- (B2R x - r)) by ring. now rewrite Rabs_Ropp.
Qed.
Lemma ap_minus k S j T x y r s : ap k S x r -> ap j T y s -> (Nat.max k j <= 999)%nat -> S + T <= big -> ap (Nat.max k j + 1) (S + T) (Bminus mode_NE x y) (r - s).
Proof.
  intros A B K L. apply (ap_weaken _ _ (Nat.max k j) S) in A; [|lia|lra]. apply (ap_weaken _ _ (Nat.max k j) T) in B; [|lia|lra]. set (m := Nat.max k j) in *.
  destruct A as (FA & HA & RA & TA). destruct B as (FB & HB & RB & TB). pose proof th_pos.
  assert (Rs : Rabs (r - s) <= S + T). { eapply Rle_trans; [apply Rabs_triang|]. rewrite Rabs_Ropp. lra. }
  destruct (ap_round m (S + T) (B2R x - B2R y) (r - s)) as [E F].
  { replace (B2R x - B2R y - (r - s)) with (B2R x - r + - (B2R y - s)) by ring. eapply Rle_trans; [apply Rabs_triang|]. rewrite Rabs_Ropp. lra. } { exact Rs. } { lra. }
  specialize (F K L). pose proof (Bminus_correct 24 128 f32_prec f32_emax mode_NE x y FA FB) as BP. fold fexp32 in BP. change (round_mode mode_NE) with ZnearestE in BP. fold (rnd32 (B2R x - B2R y)) in BP. rewrite F in BP.
  destruct BP as (V & W & _). repeat split; [exact W|now rewrite V|exact Rs|lra].
Qed.
Lemma ap_mult k S j T x y r s : ap k S x r -> ap j T y s -> (k + j <= 999)%nat -> th <= S * T -> S * T <= big -> ap (k + j + 1) (S * T) (Bmult mode_NE x y) (r * s).
Proof.
  intros A B K T0 L. pose proof (ap_val _ _ _ _ A) as VA. destruct A as (FA & HA & RA & TA). destruct B as (FB & HB & RB & TB). pose proof th_pos as P. pose proof (gp_1 k) as Gk. pose proof (gp_1 j) as Gj.
  assert (Rs : Rabs (r * s) <= S * T). { rewrite Rabs_mult. apply Rmult_le_compat; try apply Rabs_pos; lra. }
  destruct (ap_round (k + j) (S * T) (B2R x * B2R y) (r * s)) as [E F].
  { replace (B2R x * B2R y - r * s) with (B2R x * (B2R y - s) + (B2R x - r) * s) by ring. eapply Rle_trans; [apply Rabs_triang|]. rewrite !Rabs_mult, gp_add.
    assert (Rabs (B2R x) * Rabs (B2R y - s) <= gp k * S * ((gp j - 1) * T)) by (apply Rmult_le_compat; try apply Rabs_pos; assumption).
    assert (Rabs (B2R x - r) * Rabs s <= (gp k - 1) * S * T) by (apply Rmult_le_compat; try apply Rabs_pos; assumption). nra. } { exact Rs. } { exact T0. }
  specialize (F K L). pose proof (Bmult_correct 24 128 f32_prec f32_emax mode_NE x y) as BP. fold fexp32 in BP. change (round_mode mode_NE) with ZnearestE in BP. fold (rnd32 (B2R x * B2R y)) in BP. rewrite F in BP.
  destruct BP as (V & W & _). repeat split; [rewrite W, FA, FB; reflexivity|now rewrite V|exact Rs|exact T0].
Qed.
(* a number known to within one unit of 2^-23, of modulus at most one: a twiddle factor *)
Lemma ap_tw w c : is_finite w = true -> Rabs (B2R w - c) <= 2 * uu -> Rabs c <= 1 -> ap 2 1 w c.
Proof.
  intros F H C. repeat split; [exact F| |exact C|exact th_small]. eapply Rle_trans; [exact H|]. unfold gp. cbn [pow]. pose proof uu_pos. pose proof vv_pos. nra.
Qed.
Lemma ap_const x r V : is_finite x = true -> B2R x = r -> Rabs r <= V -> th <= V -> ap 0 V x r.
Proof. intros F E H T. repeat split; auto. rewrite E. replace (r - r) with 0 by ring. rewrite Rabs_R0. unfold gp. cbn [pow]. lra. Qed.
