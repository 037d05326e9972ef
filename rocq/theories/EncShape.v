(* The encoder's noise shaping in exact arithmetic: when the quantiser returns, what it chooses, and which gains it applies. *)
From Coq Require Import ZArith Lia List Bool Reals Lra.
From Flocq Require Import Core.
From Verif Require Import Base Config SideInfo FrameSpec EncPayload Mpvq MpvqProofs SnsIndex SnsProofs Buffers BufLemmas TablesSnsF Loops Scalar EncScalar RealOps EncF32 DecSignal DecTotal LineSpec DecState EncSns EncSnsOk SnsShape.
Import ListNotations.
Local Open Scope Z_scope.

(* ---- the quantiser needs only a component of set B that is not zero ---- *)
Lemma fsum_R l : fsum R_ops l = Rsum l.
Proof. unfold fsum. cbn [R_ops fadd fz]. rewrite (fold_sum (fun x => x)), map_id. lra. Qed.
Lemma Rsum_nonneg l : Forall (fun x => 0 <= x)%R l -> (0 <= Rsum l)%R.
Proof. induction 1; cbn [Rsum fold_right]; [lra|]. unfold Rsum in *. lra. Qed.
Lemma Rsum_in l x : Forall (fun x => 0 <= x)%R l -> In x l -> (x <= Rsum l)%R.
Proof.
  induction 1 as [|v l Hv H IH]; intros Hi; [destruct Hi|]. unfold Rsum. cbn [fold_right]. pose proof (Rsum_nonneg l H). unfold Rsum in *. destruct Hi as [->|Hi]; [lra|]. specialize (IH Hi). lra.
Qed.
Lemma zsum_Rsum (f : R -> Z) k l : (forall x, In x l -> IZR (f x) <= k * x)%R -> (IZR (zsum (map f l)) <= k * Rsum l)%R.
Proof.
  induction l as [|x l IH]; intros H; cbn [map zsum fold_right Rsum]; [lra|]. unfold zsum, Rsum in *. cbn [fold_right]. rewrite plus_IZR. specialize (IH (fun y Hy => H y (or_intror Hy))). pose proof (H x (or_introl eq_refl)). lra.
Qed.
Lemma abs_nonneg l : Forall (fun x => 0 <= x)%R (map (e_abs R_eops) l).
Proof. apply Forall_forall. intros x Hx. apply in_map_iff in Hx. destruct Hx as (v & <- & _). cbn [R_eops e_abs]. apply Rabs_pos. Qed.
Lemma R_set_b t2 n : 10 <= n < 16 -> getz 0%R t2 n <> 0%R -> set_b R_ops R_eops t2.
Proof. intros Hn Hz. exists n. split; [exact Hn|]. cbn [R_ops R_eops flt fz e_abs]. apply Rlt_bool_true. now apply Rabs_pos_lt. Qed.
Theorem R_regular t2 n : len t2 = 16 -> 10 <= n < 16 -> getz 0%R t2 n <> 0%R -> regular R_ops R_eops t2.
Proof.
  intros L Hn Hz. set (ax := map (e_abs R_eops) t2). pose proof (abs_nonneg t2) as N. fold ax in N.
  assert (Hin : In (Rabs (getz 0%R t2 n)) ax). { unfold ax. apply in_map_iff. exists (getz 0%R t2 n). split; [reflexivity|]. unfold getz. apply nth_In. unfold len in L. lia. }
  pose proof (Rsum_in ax _ N Hin) as S. pose proof (Rabs_pos_lt _ Hz) as P. set (k := (5 / Rsum ax)%R). assert (Kp : (0 < k)%R) by (apply Rdiv_lt_0_compat; lra).
  assert (E : forall a, In a ax -> proj R_ops R_eops ax a = Zfloor (a * k) /\ 0 <= Zfloor (a * k) /\ (IZR (Zfloor (a * k)) <= k * a)%R).
  { intros a Ha. unfold proj, proj_factor. rewrite fsum_R. cbn [R_ops R_eops f_i32 e_floor fmul fdiv fsub fz]. replace ((6 - 1) / Rsum ax)%R with k by (unfold k; f_equal; lra). rewrite Ztrunc_IZR.
    rewrite Forall_forall in N. pose proof (N a Ha) as A0. pose proof (Rsum_in ax a ltac:(now apply Forall_forall) Ha) as A1.
    assert (B : (0 <= a * k <= 5)%R). { split; [apply Rmult_le_pos; lra|]. unfold k. replace (a * (5 / Rsum ax))%R with (5 * (a / Rsum ax))%R by (field; lra). assert (a / Rsum ax <= 1)%R by (apply (Rmult_le_reg_r (Rsum ax)); [lra|]; unfold Rdiv; rewrite Rmult_assoc, Rinv_l by lra; lra). lra. }
    assert (F0 : 0 <= Zfloor (a * k)) by (apply Zfloor_lub; lra). assert (F1 : Zfloor (a * k) <= 5) by (apply le_IZR; pose proof (Zfloor_lb (a * k)); lra).
    split; [lia|]. split; [exact F0|]. pose proof (Zfloor_lb (a * k)). lra. }
  constructor; fold ax.
  - apply Forall_forall. intros a Ha. destruct (E a Ha) as (-> & H & _). exact H.
  - assert (IZR (zsum (map (proj R_ops R_eops ax) ax)) <= 6)%R; [|now apply le_IZR]. pose proof (zsum_Rsum (proj R_ops R_eops ax) k ax) as Z. assert (k * Rsum ax = 5)%R by (unfold k; field; lra).
    assert (IZR (zsum (map (proj R_ops R_eops ax) ax)) <= k * Rsum ax)%R; [|lra]. apply Z. intros x Hx. destruct (E x Hx) as (-> & _ & H1). exact H1.
  - left. exists n. split; [exact Hn|]. cbn [R_ops R_eops flt fz e_abs]. apply Rlt_bool_true. exact P.
Qed.

(* ---- the choice of shape and gain ---- *)
Notation lit l k := (R_lit (getz (0%Z, 0%Z) l k)).
Lemma choose_gain_R t2 xq j : forall gains i s,
  let '(a, b, mn, g, v) := choose_gain R_ops t2 xq j i gains s in let '(_, _, mn0, _, _) := s in
  (mn <= mn0)%R /\ (forall k, 0 <= k < len gains -> (mn <= d_mse R_ops t2 xq (lit gains k))%R) /\
  ((a, b, mn, g, v) = s \/ exists k, 0 <= k < len gains /\ a = j /\ b = i + k /\ g = lit gains k /\ v = xq /\ mn = d_mse R_ops t2 xq g /\ (mn < mn0)%R).
Proof.
  induction gains as [|g0 gains IH]; intros i [[[[a0 b0] mn0] gg0] v0]; cbn [choose_gain].
  - split; [lra|]. split; [|now left]. intros k Hk. unfold len in Hk. cbn [length] in Hk. lia.
  - set (d := d_mse R_ops t2 xq (flit R_ops g0)). specialize (IH (i + 1) (if flt R_ops d mn0 then (j, i, d, flit R_ops g0, xq) else (a0, b0, mn0, gg0, v0))).
    destruct (choose_gain _ _ _ _ _ _ _) as [[[[a b] mn] g] v]. assert (HL := len_nonneg gains).
    cbn [R_ops flt] in IH. destruct (Rlt_bool_spec d mn0) as [C|C]; destruct IH as (I1 & I2 & I3).
    + split; [lra|]. split.
      * intros k Hk. rewrite len_cons in Hk. destruct (Z.eq_dec k 0) as [->|Nk]; [exact I1|]. replace k with ((k - 1) + 1) by lia. rewrite getz_cons_S by lia. apply I2. lia.
      * right. destruct I3 as [I3|(k & K1 & K2 & K3 & K4 & K5 & K6 & K7)].
        -- exists 0. rewrite len_cons. split; [lia|]. inversion I3; subst. split; [reflexivity|]. split; [lia|]. split; [reflexivity|]. split; [reflexivity|]. split; [reflexivity|exact C].
        -- exists (k + 1). rewrite len_cons, getz_cons_S by lia. split; [lia|]. split; [exact K2|]. split; [lia|]. split; [exact K4|]. split; [exact K5|]. split; [exact K6|lra].
    + split; [exact I1|]. split.
      * intros k Hk. rewrite len_cons in Hk. destruct (Z.eq_dec k 0) as [->|Nk]; [rewrite getz_cons_0; change (mn <= d)%R; lra|]. replace k with ((k - 1) + 1) by lia. rewrite getz_cons_S by lia. apply I2. lia.
      * destruct I3 as [I3|(k & K1 & K2 & K3 & K4 & K5 & K6 & K7)]; [now left|]. right. exists (k + 1). rewrite len_cons, getz_cons_S by lia. split; [lia|]. split; [exact K2|]. split; [lia|]. split; [exact K4|]. split; [exact K5|]. split; [exact K6|exact K7].
Qed.
(* candidate vector of a shape *)
Definition pick {A} (j : Z) (x0 x1 x2 x3 : A) : A := if j =? 0 then x0 else if j =? 1 then x1 else if j =? 2 then x2 else x3.
Lemma choose_R t2 x0 x1 x2 x3 : (exists j i, 0 <= j < 4 /\ 0 <= i < g_maxind j /\ (d_mse R_ops t2 (pick j x0 x1 x2 x3) (gain_of j i) < IZR (2 ^ 200))%R) ->
  exists j i mn, choose R_ops R_eops t2 x0 x1 x2 x3 = Ok (j, i, mn, gain_of j i, pick j x0 x1 x2 x3) /\ 0 <= j < 4 /\ 0 <= i < g_maxind j /\
    mn = d_mse R_ops t2 (pick j x0 x1 x2 x3) (gain_of j i) /\
    forall j' i', 0 <= j' < 4 -> 0 <= i' < g_maxind j' -> (mn <= d_mse R_ops t2 (pick j' x0 x1 x2 x3) (gain_of j' i'))%R.
Proof.
  intros (j0 & i0 & J0 & I0 & D0). unfold choose.
  assert (G0 : sub SNS_VQ_REG_ADJ_GAINS 0 1 = Ok (firstn 1 SNS_VQ_REG_ADJ_GAINS)) by reflexivity. assert (G1 : sub SNS_VQ_REG_LF_ADJ_GAINS 0 3 = Ok (firstn 3 SNS_VQ_REG_LF_ADJ_GAINS)) by reflexivity.
  assert (G2 : sub SNS_VQ_NEAR_ADJ_GAINS 0 3 = Ok (firstn 3 SNS_VQ_NEAR_ADJ_GAINS)) by reflexivity. assert (G3 : sub SNS_VQ_FAR_ADJ_GAINS 0 7 = Ok (firstn 7 SNS_VQ_FAR_ADJ_GAINS)) by reflexivity.
  rewrite G0, G1, G2, G3. cbn [bind]. clear G0 G1 G2 G3. cbv zeta.
  assert (T : forall j k, 0 <= j < 4 -> 0 <= k < g_maxind j -> lit (pick j (firstn 1 SNS_VQ_REG_ADJ_GAINS) (firstn 3 SNS_VQ_REG_LF_ADJ_GAINS) (firstn 3 SNS_VQ_NEAR_ADJ_GAINS) (firstn 7 SNS_VQ_FAR_ADJ_GAINS)) k = gain_of j k).
  { intros j k Hj Hk. unfold gain_of. f_equal. unfold pick, g_maxind in *. assert (C : j = 0 \/ j = 1 \/ j = 2 \/ j = 3) by lia.
    destruct C as [->|[->|[->| ->]]]; cbn [Z.eqb Pos.eqb] in *; [assert (C : k = 0) by lia|assert (C : k = 0 \/ k = 1 \/ k = 2) by lia|assert (C : k = 0 \/ k = 1 \/ k = 2) by lia|assert (C : k = 0 \/ k = 1 \/ k = 2 \/ k = 3 \/ k = 4 \/ k = 5 \/ k = 6) by lia];
      repeat (destruct C as [->|C]; [reflexivity|]); subst; reflexivity. }
  pose proof (choose_gain_R t2 x0 0 (firstn 1 SNS_VQ_REG_ADJ_GAINS) 0 (0, 0, e_inf R_eops, fz R_ops 0, x0)) as H0. destruct (choose_gain R_ops t2 x0 0 0 _ _) as [[[[a0 b0] m0] g0] v0].
  pose proof (choose_gain_R t2 x1 1 (firstn 3 SNS_VQ_REG_LF_ADJ_GAINS) 0 (a0, b0, m0, g0, v0)) as H1. destruct (choose_gain R_ops t2 x1 1 0 _ _) as [[[[a1 b1] m1] g1] v1].
  pose proof (choose_gain_R t2 x2 2 (firstn 3 SNS_VQ_NEAR_ADJ_GAINS) 0 (a1, b1, m1, g1, v1)) as H2. destruct (choose_gain R_ops t2 x2 2 0 _ _) as [[[[a2 b2] m2] g2] v2].
  pose proof (choose_gain_R t2 x3 3 (firstn 7 SNS_VQ_FAR_ADJ_GAINS) 0 (a2, b2, m2, g2, v2)) as H3. destruct (choose_gain R_ops t2 x3 3 0 _ _) as [[[[a3 b3] m3] g3] v3].
  cbv zeta beta iota in H0, H1, H2, H3. change (len (firstn 1 SNS_VQ_REG_ADJ_GAINS)) with 1 in H0. change (len (firstn 3 SNS_VQ_REG_LF_ADJ_GAINS)) with 3 in H1. change (len (firstn 3 SNS_VQ_NEAR_ADJ_GAINS)) with 3 in H2. change (len (firstn 7 SNS_VQ_FAR_ADJ_GAINS)) with 7 in H3.
  destruct H0 as (A0 & B0 & C0), H1 as (A1 & B1 & C1), H2 as (A2 & B2 & C2), H3 as (A3 & B3 & C3). cbn [R_eops e_inf] in *.
  assert (Min : forall j' i', 0 <= j' < 4 -> 0 <= i' < g_maxind j' -> (m3 <= d_mse R_ops t2 (pick j' x0 x1 x2 x3) (gain_of j' i'))%R).
  { intros j i Hj Hi. rewrite <- T by assumption. unfold pick, g_maxind in *. assert (C : j = 0 \/ j = 1 \/ j = 2 \/ j = 3) by lia.
    destruct C as [->|[->|[->| ->]]]; cbn [Z.eqb Pos.eqb] in *; [specialize (B0 i Hi)|specialize (B1 i Hi)|specialize (B2 i Hi)|specialize (B3 i Hi)]; lra. }
  assert (Lt : (m3 < IZR (2 ^ 200))%R) by (specialize (Min j0 i0 J0 I0); lra).
  assert (F : forall j k a b mn g v x, 0 <= j < 4 -> 0 <= k < g_maxind j -> x = pick j x0 x1 x2 x3 -> a = j -> b = 0 + k ->
    g = lit (pick j (firstn 1 SNS_VQ_REG_ADJ_GAINS) (firstn 3 SNS_VQ_REG_LF_ADJ_GAINS) (firstn 3 SNS_VQ_NEAR_ADJ_GAINS) (firstn 7 SNS_VQ_FAR_ADJ_GAINS)) k -> v = x -> mn = d_mse R_ops t2 x g -> mn = m3 ->
    (a3, b3, m3, g3, v3) = (a, b, mn, g, v) -> exists j i mn0, Ok (a3, b3, m3, g3, v3) = Ok (j, i, mn0, gain_of j i, pick j x0 x1 x2 x3) /\ 0 <= j < 4 /\ 0 <= i < g_maxind j /\
    mn0 = d_mse R_ops t2 (pick j x0 x1 x2 x3) (gain_of j i) /\ forall j' i', 0 <= j' < 4 -> 0 <= i' < g_maxind j' -> (mn0 <= d_mse R_ops t2 (pick j' x0 x1 x2 x3) (gain_of j' i'))%R).
  { intros j k a b mn g v x Hj Hk -> -> -> Eg -> Em Em3 Eq. rewrite T in Eg by assumption. subst g. exists j, k, mn. split; [rewrite Eq; now rewrite Z.add_0_l|]. split; [exact Hj|]. split; [exact Hk|]. split; [exact Em|]. rewrite Em3. exact Min. }
  destruct C3 as [E3|(k & K1 & K2 & K3 & K4 & K5 & K6 & _)]; [|refine (F 3 k a3 b3 m3 g3 v3 x3 _ _ eq_refl K2 K3 K4 K5 K6 _ _); [lia|exact K1|congruence|congruence]].
  assert (m3 = m2) by congruence. destruct C2 as [E2|(k & K1 & K2 & K3 & K4 & K5 & K6 & _)]; [|refine (F 2 k a2 b2 m2 g2 v2 x2 _ _ eq_refl K2 K3 K4 K5 K6 _ _); [lia|exact K1|congruence|congruence]].
  assert (m2 = m1) by congruence. destruct C1 as [E1|(k & K1 & K2 & K3 & K4 & K5 & K6 & _)]; [|refine (F 1 k a1 b1 m1 g1 v1 x1 _ _ eq_refl K2 K3 K4 K5 K6 _ _); [lia|exact K1|congruence|congruence]].
  assert (m1 = m0) by congruence. destruct C0 as [E0|(k & K1 & K2 & K3 & K4 & K5 & K6 & _)]; [|refine (F 0 k a0 b0 m0 g0 v0 x0 _ _ eq_refl K2 K3 K4 K5 K6 _ _); [lia|exact K1|congruence|congruence]].
  exfalso. assert (m0 = IZR (2 ^ 200)) by congruence. subst. lra.
Qed.

(* ---- tables ---- *)
Lemma lit_bound B p : 0 <= B -> (snd p <=? 0) && (Z.abs (fst p) <=? B * 10 ^ (- snd p)) = true -> (Rabs (R_lit p) <= IZR B)%R.
Proof.
  intros HB H. apply andb_prop in H. destruct H as [H1 H2]. apply Z.leb_le in H1, H2. destruct p as [m e]. unfold R_lit. cbn [fst snd] in *.
  assert (P : (powerRZ 10 e * IZR (10 ^ (- e)) = 1)%R).
  { assert (X : exists k, e = - Z.of_nat k) by (exists (Z.to_nat (- e)); lia). destruct X as (k & ->). rewrite Z.opp_involutive, <- pow_IZR, pow_powerRZ, <- powerRZ_add by lra. replace (- Z.of_nat k + Z.of_nat k) with 0 by lia. reflexivity. }
  assert (Q : (0 < powerRZ 10 e)%R) by (apply powerRZ_lt; lra). rewrite Rabs_mult, (Rabs_pos_eq (powerRZ 10 e)) by (left; exact Q). rewrite <- abs_IZR.
  apply IZR_le in H2. rewrite mult_IZR in H2. apply Rle_trans with (IZR B * IZR (10 ^ (- e)) * powerRZ 10 e)%R; [apply Rmult_le_compat_r; [left; exact Q|exact H2]|]. rewrite Rmult_assoc, (Rmult_comm (IZR (10 ^ (- e)))), P. lra.
Qed.
Definition table_small (B : Z) (t : list (list (Z * Z))) : bool := forallb (forallb (fun p => (snd p <=? 0) && (Z.abs (fst p) <=? B * 10 ^ (- snd p)))) t.
Lemma entry_bound B t n k : 0 <= B -> table_small B t = true -> (Rabs (entry t n k) <= IZR B)%R.
Proof.
  intros HB H. unfold entry, getz. destruct (Nat.lt_ge_cases (Z.to_nat n) (length t)) as [L|L].
  - unfold table_small in H. rewrite forallb_forall in H. specialize (H _ (nth_In t [] L)). rewrite forallb_forall in H. set (row := nth (Z.to_nat n) t []) in *.
    destruct (Nat.lt_ge_cases (Z.to_nat k) (length row)) as [L'|L']; [apply lit_bound; [exact HB|]; apply H, nth_In, L'|].
    rewrite (nth_overflow row) by exact L'. unfold R_lit. cbn [fst snd]. rewrite Rmult_0_l, Rabs_R0. apply IZR_le. lia.
  - rewrite (nth_overflow t) by exact L. destruct (Z.to_nat k); cbn [nth]; unfold R_lit; cbn [fst snd]; rewrite Rmult_0_l, Rabs_R0; apply IZR_le; lia.
Qed.
Lemma D_small n k : (Rabs (entry D n k) <= 1)%R.
Proof. apply entry_bound; [lia|]. vm_compute. reflexivity. Qed.
Lemma LF_small n k : (Rabs (entry LFCB n k) <= 10)%R.
Proof. apply entry_bound; [lia|]. vm_compute. reflexivity. Qed.
Lemma HF_small n k : (Rabs (entry HFCB n k) <= 10)%R.
Proof. apply entry_bound; [lia|]. vm_compute. reflexivity. Qed.

(* ---- stage 1: the nearest code vectors; the residual; its rotation ---- *)
Definition dist (x : Z -> R) (t : list (list (Z * Z))) (i : Z) : R := Rsum (map (fun k => (x k - entry t i k) * (x k - entry t i k))%R (SnsIndex.zrange 0 8)).
Lemma combine_sum2 {A B} (f : A -> B -> R) da db (x : list A) (y : list B) n : len x = n -> len y = n ->
  Rsum (map (fun p => f (fst p) (snd p)) (combine x y)) = Rsum (map (fun k => f (getz da x k) (getz db y k)) (SnsIndex.zrange 0 n)).
Proof.
  intros Hy Hr. f_equal. apply (nth_ext _ _ 0%R 0%R); [rewrite !map_length, combine_length; unfold SnsIndex.zrange; rewrite map_length, seq_length; unfold len in *; lia|].
  intros i Hi. rewrite map_length, combine_length in Hi.
  rewrite (nth_indep _ 0%R (f (fst (da, db)) (snd (da, db)))) by (rewrite map_length, combine_length; exact Hi). rewrite (map_nth (fun p => f (fst p) (snd p))), combine_nth by (unfold len in *; lia).
  pose proof (zrange_nth (fun k => f (getz da x k) (getz db y k)) n (Z.of_nat i) ltac:(unfold len in *; lia)) as G. unfold getz in G at 1. rewrite Nat2Z.id in G. rewrite G. unfold getz. now rewrite Nat2Z.id.
Qed.
Lemma dist8_R x code : len x = 8 -> len code = 8 -> dist8 R_ops x code = Rsum (map (fun k => (getz 0 x k - lit code k) * (getz 0 x k - lit code k))%R (SnsIndex.zrange 0 8)).
Proof.
  intros Hx Hc. unfold dist8. cbn [R_ops fadd fsub fmul fz flit]. cbv zeta.
  rewrite (fold_ext _ (fun a p => (a + (fun p => (fst p - R_lit (snd p)) * (fst p - R_lit (snd p))) p)%R)) by (intros a [v d]; reflexivity). rewrite fold_sum, Rplus_0_l.
  apply (combine_sum2 (fun v l => (v - R_lit l) * (v - R_lit l))%R 0%R (0, 0)); assumption.
Qed.
Lemma nearest_R x : forall codes i s,
  let r := nearest R_ops x codes i s in (snd r <= snd s)%R /\ (forall k, 0 <= k < len codes -> (snd r <= dist8 R_ops x (getz [] codes k))%R) /\
  (r = s \/ exists k, 0 <= k < len codes /\ r = (i + k, dist8 R_ops x (getz [] codes k))).
Proof.
  induction codes as [|c codes IH]; intros i s; cbn [nearest]; cbv zeta.
  - split; [lra|]. split; [|now left]. intros k Hk. unfold len in Hk. cbn [length] in Hk. lia.
  - specialize (IH (i + 1) (if flt R_ops (dist8 R_ops x c) (snd s) then (i, dist8 R_ops x c) else s)). cbv zeta in IH. pose proof (len_nonneg codes). rewrite len_cons.
    destruct (nearest _ _ _ _ _) as [rk rd]. destruct IH as (I1 & I2 & I3). cbn [R_ops flt fst snd] in *. destruct (Rlt_bool_spec (dist8 R_ops x c) (snd s)) as [C|C]; cbn [fst snd] in *.
    + split; [fold R_ops in *; lra|]. split.
      * intros k Hk. destruct (Z.eq_dec k 0) as [->|Nk]; [exact I1|]. replace k with ((k - 1) + 1) by lia. rewrite getz_cons_S by lia. apply I2. lia.
      * right. destruct I3 as [I3|(k & K1 & K2)]; [exists 0; split; [lia|]; rewrite Z.add_0_r; exact I3|]. exists (k + 1). split; [lia|]. rewrite getz_cons_S by lia. rewrite K2. f_equal. lia.
    + split; [exact I1|]. split.
      * intros k Hk. destruct (Z.eq_dec k 0) as [->|Nk]; [rewrite getz_cons_0; fold R_ops in *; lra|]. replace k with ((k - 1) + 1) by lia. rewrite getz_cons_S by lia. apply I2. lia.
      * destruct I3 as [I3|(k & K1 & K2)]; [now left|]. right. exists (k + 1). split; [lia|]. rewrite getz_cons_S by lia. rewrite K2. f_equal. lia.
Qed.
Definition bounded (M : R) (l : list R) : Prop := forall n, (Rabs (getz 0%R l n) <= M)%R.
Lemma Rsum_bound {A} (f : A -> R) M l : (forall x, In x l -> (Rabs (f x) <= M)%R) -> (Rabs (Rsum (map f l)) <= INR (length l) * M)%R.
Proof.
  induction l as [|x l IH]; intros H; [cbn [map Rsum fold_right length INR]; rewrite Rabs_R0; lra|]. cbn [map length]. rewrite S_INR. unfold Rsum in *. cbn [fold_right].
  specialize (IH (fun y Hy => H y (or_intror Hy))). pose proof (H x (or_introl eq_refl)). pose proof (Rabs_triang (f x) (fold_right Rplus 0%R (map f l))). lra.
Qed.
Lemma rotate_R r1 n : len r1 = 16 -> 0 <= n < 16 -> getz 0%R (sns_rotate R_ops r1) n = Rsum (map (fun k => (getz 0 r1 k * entry D k n)%R) (SnsIndex.zrange 0 16)).
Proof.
  intros L Hn. unfold sns_rotate. cbn [R_ops fadd fmul flit fz].
  assert (G : forall l t, len t = 16 -> (forall p, In p l -> len (snd p) = 16) ->
    getz 0%R (fold_left (fun t '(r, row) => zipmod (fun t d => (t + r * R_lit d)%R) t row) l t) n = (getz 0 t n + Rsum (map (fun p => fst p * lit (snd p) n) l))%R).
  { induction l as [|[r row] l IH]; intros t Ht Hl; cbn [fold_left map Rsum fold_right]; [lra|]. rewrite IH; [|now rewrite len_zipmod|intros p Hp; apply Hl; now right].
    pose proof (Hl (r, row) (or_introl eq_refl)) as Hr. cbn [snd] in Hr. rewrite (MdctSpec.zipmod_get _ 0%R (0, 0)) by lia. cbn [fst snd]. unfold Rsum. lra. }
  rewrite G; [|reflexivity|].
  - replace (getz 0%R (repeat 0%R 16) n) with 0%R by (unfold getz; now rewrite nth_repeat). rewrite Rplus_0_l. exact (combine_sum2 (fun r row => (r * lit row n)%R) 0%R [] r1 D 16 L eq_refl).
  - intros [r row] Hp. apply in_combine_r in Hp. cbn [snd]. apply In_nth with (d := []) in Hp. destruct Hp as (k & Hk & <-). pose proof (D_row (Z.of_nat k)) as G'. unfold getz in G'. rewrite Nat2Z.id in G'. apply G'. change (length D) with 16%nat in Hk. lia.
Qed.
Lemma rotate_bound M r1 : len r1 = 16 -> (0 <= M)%R -> bounded M r1 -> bounded (16 * M) (sns_rotate R_ops r1).
Proof.
  intros L HM B n. destruct (Z_lt_le_dec n 16) as [H|H]; [|unfold getz; rewrite nth_overflow; [rewrite Rabs_R0; lra|]; pose proof (rotate_len R_ops r1) as G; unfold len in G; lia].
  destruct (Z_lt_le_dec n 0) as [N|N].
  - replace (getz 0%R (sns_rotate R_ops r1) n) with (getz 0%R (sns_rotate R_ops r1) 0) by (unfold getz; f_equal; lia). rewrite rotate_R by lia.
    pose proof (Rsum_bound (fun k => getz 0 r1 k * entry D k 0)%R M (SnsIndex.zrange 0 16)) as G. change (length (SnsIndex.zrange 0 16)) with 16%nat in G. replace (INR 16) with 16%R in G by (cbn; lra). apply G.
    intros k _. rewrite Rabs_mult. pose proof (B k). pose proof (D_small k 0). pose proof (Rabs_pos (getz 0%R r1 k)). pose proof (Rabs_pos (entry D k 0)). nra.
  - rewrite rotate_R by lia.
    pose proof (Rsum_bound (fun k => getz 0 r1 k * entry D k n)%R M (SnsIndex.zrange 0 16)) as G. change (length (SnsIndex.zrange 0 16)) with 16%nat in G. replace (INR 16) with 16%R in G by (cbn; lra). apply G.
    intros k _. rewrite Rabs_mult. pose proof (B k). pose proof (D_small k n). pose proof (Rabs_pos (getz 0%R r1 k)). pose proof (Rabs_pos (entry D k n)). nra.
Qed.

(* ---- stage 2 ---- *)
Lemma stage1_R scf M : len scf = 16 -> (0 <= M <= IZR (2 ^ 80))%R -> bounded M scf ->
  exists lf hf st1 r1, sns_stage1 R_ops R_eops scf = Ok (lf, hf, st1, r1) /\ 0 <= lf < 32 /\ 0 <= hf < 32 /\ len st1 = 16 /\ len r1 = 16 /\
    (forall n, 0 <= n < 16 -> getz 0%R st1 n = if n <? 8 then entry LFCB lf n else entry HFCB hf (n - 8)) /\
    (forall n, 0 <= n < 16 -> getz 0%R r1 n = (getz 0 scf n - getz 0 st1 n)%R) /\ bounded (M + 10) r1 /\
    (forall k, 0 <= k < 32 -> (dist (getz 0%R scf) LFCB lf <= dist (getz 0%R scf) LFCB k)%R) /\
    (forall k, 0 <= k < 32 -> (dist (fun n => getz 0%R scf (n + 8)) HFCB hf <= dist (fun n => getz 0%R scf (n + 8)) HFCB k)%R).
Proof.
  intros L HM B. unfold sns_stage1. destruct (sub_ok scf 0 8 ltac:(lia) ltac:(lia)) as (lo & El & Ll & Tl). destruct (sub_ok scf 8 16 ltac:(lia) ltac:(lia)) as (hi & Eh & Lh & Th). rewrite El, Eh. cbn [bind]. cbv zeta.
  assert (Dl : forall t k x, (t = LFCB \/ t = HFCB) -> 0 <= k < 32 -> len x = 8 -> dist8 R_ops x (getz [] t k) = dist (getz 0%R x) t k).
  { intros t k x Ht Hk Hx. rewrite dist8_R by (auto using book_len). reflexivity. }
  assert (De : forall x x' t k, (forall n, 0 <= n < 8 -> x n = x' n) -> dist x t k = dist x' t k) by (intros x x' t k H; unfold dist; f_equal; apply map_zrange_ext; intros n Hn; now rewrite H).
  assert (Small : forall x t, (t = LFCB \/ t = HFCB) -> len x = 8 -> (forall n, Rabs (getz 0%R x n) <= M)%R -> (dist8 R_ops x (getz [] t 0) < IZR (2 ^ 200))%R).
  { intros x t Ht Hx Bx. rewrite Dl by (auto; lia). unfold dist. eapply Rle_lt_trans; [apply Rle_abs|].
    eapply Rle_lt_trans; [apply (Rsum_bound (fun k => (getz 0 x k - entry t 0 k) * (getz 0 x k - entry t 0 k))%R ((M + 10) * (M + 10)))|].
    - intros k _. rewrite Rabs_mult. assert (E : (Rabs (getz 0 x k - entry t 0 k) <= M + 10)%R).
      { unfold Rminus. eapply Rle_trans; [apply Rabs_triang|]. rewrite Rabs_Ropp. pose proof (Bx k). assert (Rabs (entry t 0 k) <= 10)%R by (destruct Ht; subst t; [apply LF_small|apply HF_small]). lra. }
      pose proof (Rabs_pos (getz 0 x k - entry t 0 k)%R). apply Rmult_le_compat; assumption.
    - change (length (SnsIndex.zrange 0 8)) with 8%nat. replace (INR 8) with 8%R by (cbn; lra). assert (P : (IZR (2 ^ 80) * IZR (2 ^ 80) * 32 <= IZR (2 ^ 200))%R) by (rewrite <- !mult_IZR; apply IZR_le; vm_compute; congruence).
      assert (10 <= IZR (2 ^ 80))%R by (apply IZR_le; vm_compute; congruence). nra. }
  assert (Near : forall x t, (t = LFCB \/ t = HFCB) -> len x = 8 -> (forall n, Rabs (getz 0%R x n) <= M)%R ->
    exists k, 0 <= k < 32 /\ fst (nearest R_ops x t 0 (0, e_inf R_eops)) = k /\ forall j, 0 <= j < 32 -> (dist (getz 0%R x) t k <= dist (getz 0%R x) t j)%R).
  { intros x t Ht Hx Bx. pose proof (nearest_R x t 0 (0, e_inf R_eops)) as G. cbv zeta in G. assert (Lt : len t = 32) by (destruct Ht; subst t; reflexivity). rewrite Lt in G. destruct (nearest _ _ _ _ _) as [rk rd]. cbn [fst snd R_eops e_inf] in *.
    destruct G as (_ & G2 & G3). pose proof (Small x t Ht Hx Bx) as S. destruct G3 as [G3|(k & K1 & K2)].
    - exfalso. specialize (G2 0 ltac:(lia)). assert (rd = IZR (2 ^ 200)) by congruence. subst rd. lra.
    - exists k. split; [exact K1|]. assert (rk = k /\ rd = dist8 R_ops x (getz [] t k)) by (rewrite Z.add_0_l in K2; split; congruence). destruct H as [-> ->]. split; [reflexivity|]. intros j Hj. rewrite <- !Dl by (auto; lia). apply G2, Hj. }
  assert (Bl : forall n, (Rabs (getz 0%R lo n) <= M)%R).
  { intros n. destruct (Z_lt_le_dec n 8); [destruct (Z_lt_le_dec n 0)|].
    - replace (getz 0%R lo n) with (getz 0%R lo 0) by (unfold getz; f_equal; lia). rewrite (Tl 0%R 0) by lia. apply B.
    - rewrite Tl by lia. apply B.
    - unfold getz. rewrite nth_overflow by (unfold len in Ll; lia). rewrite Rabs_R0. lra. }
  assert (Bh : forall n, (Rabs (getz 0%R hi n) <= M)%R).
  { intros n. destruct (Z_lt_le_dec n 8); [destruct (Z_lt_le_dec n 0)|].
    - replace (getz 0%R hi n) with (getz 0%R hi 0) by (unfold getz; f_equal; lia). rewrite (Th 0%R 0) by lia. apply B.
    - rewrite Th by lia. apply B.
    - unfold getz. rewrite nth_overflow by (unfold len in Lh; lia). rewrite Rabs_R0. lra. }
  destruct (Near lo LFCB (or_introl eq_refl) ltac:(lia) Bl) as (lf & Rl & -> & Ml). destruct (Near hi HFCB (or_intror eq_refl) ltac:(lia) Bh) as (hf & Rh & -> & Mh).
  rewrite (idx_get [] LFCB) by (change (len LFCB) with 32; lia). rewrite (idx_get [] HFCB) by (change (len HFCB) with 32; lia). cbn [bind].
  set (st1 := map (flit R_ops) (getz [] LFCB lf ++ getz [] HFCB hf)). assert (Ls : len st1 = 16) by (unfold st1; rewrite len_map, len_app, !book_len by (auto; lia); reflexivity).
  assert (Ts : forall n, 0 <= n < 16 -> getz 0%R st1 n = if n <? 8 then entry LFCB lf n else entry HFCB hf (n - 8)).
  { intros n Hn. unfold st1. cbn [R_ops flit]. rewrite getz_map_lit, getz_app, book_len by (auto; lia). unfold entry. destruct (n <? 8); reflexivity. }
  exists lf, hf, st1. eexists. split; [reflexivity|]. split; [exact Rl|]. split; [exact Rh|]. split; [exact Ls|]. split; [rewrite len_map, len_combine; lia|]. split; [exact Ts|].
  assert (Tr : forall n, 0 <= n < 16 -> getz 0%R (map (fun '(a, b) => fsub R_ops a b) (combine scf st1)) n = (getz 0 scf n - getz 0 st1 n)%R).
  { intros n Hn. rewrite (getz_map_in _ (0, 0)%R) by (rewrite len_combine; lia). rewrite getz_combine by lia. reflexivity. }
  split; [exact Tr|]. split; [|split].
  - assert (Q : forall n, 0 <= n < 16 -> (Rabs (getz 0%R (map (fun '(a, b) => fsub R_ops a b) (combine scf st1)) n) <= M + 10)%R).
    { intros n Hn. rewrite Tr by lia. unfold Rminus. eapply Rle_trans; [apply Rabs_triang|]. rewrite Rabs_Ropp. pose proof (B n). rewrite Ts by lia. assert (Rabs (if n <? 8 then entry LFCB lf n else entry HFCB hf (n - 8)) <= 10)%R by (destruct (n <? 8); [apply LF_small|apply HF_small]). lra. }
    intros n. destruct (Z_lt_le_dec n 16); [destruct (Z_lt_le_dec n 0)|].
    + replace (getz 0%R (map (fun '(a, b) => fsub R_ops a b) (combine scf st1)) n) with (getz 0%R (map (fun '(a, b) => fsub R_ops a b) (combine scf st1)) 0) by (unfold getz; f_equal; lia). apply Q. lia.
    + apply Q. lia.
    + unfold getz. rewrite nth_overflow by (rewrite map_length, combine_length; unfold len in *; lia). rewrite Rabs_R0. lra.
  - intros k Hk. rewrite (De (getz 0%R scf) (getz 0%R lo)), (De (getz 0%R scf) (getz 0%R lo) LFCB k) by (intros n Hn; rewrite Tl by lia; f_equal; lia). apply Ml, Hk.
  - intros k Hk. rewrite (De _ (getz 0%R hi)), (De (fun n => getz 0%R scf (n + 8)) (getz 0%R hi) HFCB k) by (intros n Hn; rewrite Th by lia; f_equal; lia). apply Mh, Hk.
Qed.
Lemma normalise_R y : len y = 16 -> normalise R_ops y = map (fun v => IZR v / sqrt (norm2 y))%R y.
Proof.
  intros L. unfold normalise. cbn [R_ops fadd fmul fz fsqrt fdiv]. cbv zeta.
  rewrite (fold_ext _ (fun a v => (a + IZR v * IZR v)%R)) by (intros a v; destruct (Z.eqb_spec v 0) as [->|]; [lra|reflexivity]). rewrite fold_norm.
  replace (16 - length y)%nat with 0%nat by (unfold len in L; lia). cbn [repeat]. rewrite app_nil_r. apply map_ext. intros v. destruct (Z.eqb_spec v 0) as [->|]; [unfold Rdiv; lra|reflexivity].
Qed.
Lemma normalise_short y : len y = 10 -> normalise R_ops y = normalise R_ops (y ++ repeat 0 6).
Proof.
  intros L. unfold normalise. cbn [R_ops fadd fmul fz fsqrt fdiv]. cbv zeta. rewrite fold_left_app. cbn [repeat fold_left Z.eqb]. rewrite map_app, app_length. cbn [length map Z.eqb].
  replace (16 - length y)%nat with 6%nat by (unfold len in L; lia). replace (16 - (length y + 6))%nat with 0%nat by (unfold len in L; lia). cbn [repeat]. now rewrite app_nil_r.
Qed.
Lemma normalised_small y k : len y = 16 -> (0 < norm2 y)%R -> (Rabs (getz 0 (map (fun v => IZR v / sqrt (norm2 y)) y) k) <= 1)%R.
Proof.
  intros L N. set (f := fun v => (IZR v / sqrt (norm2 y))%R). assert (S : (0 < sqrt (norm2 y))%R) by now apply sqrt_lt_R0.
  replace (getz 0%R (map f y) k) with (f (getz 0 y k)) by (unfold getz; replace 0%R with (f 0) by (unfold f, Rdiv; lra); now rewrite map_nth). unfold f, Rdiv. rewrite Rabs_mult, (Rabs_pos_eq (/ _)) by (left; now apply Rinv_0_lt_compat).
  apply (Rmult_le_reg_r (sqrt (norm2 y))); [exact S|]. rewrite Rmult_assoc, Rinv_l, Rmult_1_r, Rmult_1_l by lra. apply Rsqr_incr_0_var; [|lra]. rewrite <- Rsqr_abs, Rsqr_sqrt by lra.
  unfold getz. destruct (Nat.lt_ge_cases (Z.to_nat k) (length y)) as [H|H].
  - pose proof (nth_In y 0 H) as I. unfold norm2. apply Rsum_in; [apply Forall_forall; intros x Hx; apply in_map_iff in Hx; destruct Hx as (v & <- & _); apply Rle_0_sqr|]. apply in_map_iff. exists (nth (Z.to_nat k) y 0). split; [reflexivity|exact I].
  - rewrite nth_overflow by exact H. unfold Rsqr. lra.
Qed.
Lemma g_small : (Rabs (gain_of 0 0) <= 10)%R.
Proof. unfold gain_of. apply (lit_bound 10); [lia|]. vm_compute. reflexivity. Qed.
Lemma d_small M t2 y : len t2 = 16 -> (0 <= M <= IZR (2 ^ 90))%R -> bounded M t2 -> len y = 16 -> (0 < norm2 y)%R -> (d_mse R_ops t2 (normalise R_ops y) (gain_of 0 0) < IZR (2 ^ 200))%R.
Proof.
  intros L HM B Ly N. rewrite normalise_R by exact Ly. set (xq := map _ y). assert (Lx : len xq = 16) by (unfold xq; now rewrite len_map). unfold d_mse. cbn [R_ops fadd fsub fmul fz]. cbv zeta.
  rewrite (fold_ext _ (fun a p => (a + (fun p => (snd p - gain_of 0 0 * fst p) * (snd p - gain_of 0 0 * fst p)) p)%R)) by (intros a [v d]; reflexivity). rewrite fold_sum, Rplus_0_l.
  rewrite (combine_sum2 (fun x t => (t - gain_of 0 0 * x) * (t - gain_of 0 0 * x))%R 0%R 0%R _ _ 16 Lx L). eapply Rle_lt_trans; [apply Rle_abs|].
  eapply Rle_lt_trans; [apply (Rsum_bound _ ((M + 10) * (M + 10)))|].
  - intros k _. rewrite Rabs_mult. assert (E : (Rabs (getz 0 t2 k - gain_of 0 0 * getz 0 xq k) <= M + 10)%R).
    { unfold Rminus. eapply Rle_trans; [apply Rabs_triang|]. rewrite Rabs_Ropp, Rabs_mult. pose proof (B k). pose proof (normalised_small y k Ly N) as G. fold xq in G. pose proof g_small. pose proof (Rabs_pos (gain_of 0 0)). pose proof (Rabs_pos (getz 0%R xq k)). nra. }
    pose proof (Rabs_pos (getz 0 t2 k - gain_of 0 0 * getz 0 xq k)%R). apply Rmult_le_compat; assumption.
  - change (length (SnsIndex.zrange 0 16)) with 16%nat. replace (INR 16) with 16%R by (cbn; lra). assert (P : (IZR (2 ^ 90) * IZR (2 ^ 90) * 64 < IZR (2 ^ 200))%R) by (rewrite <- !mult_IZR; apply IZR_lt; vm_compute; reflexivity).
    assert (10 <= IZR (2 ^ 90))%R by (apply IZR_le; vm_compute; congruence). nra.
Qed.
Lemma rot_scaled y n s : len y = 16 -> rot (map (fun v => IZR v / s)%R y) n = (Rsum (map (fun k => IZR (getz 0%Z y k) * entry D n k) (SnsIndex.zrange 0 16)) / s)%R.
Proof.
  intros L. unfold rot. assert (G : forall (f : Z -> R) l, (Rsum (map f l) / s)%R = Rsum (map (fun k => f k / s)%R l)) by (intros f; induction l as [|x l IH]; cbn [map Rsum fold_right]; unfold Rsum, Rdiv in *; [lra|]; rewrite Rmult_plus_distr_r; now rewrite IH).
  rewrite G. f_equal. apply map_ext. intros k. replace (getz 0%R (map (fun v => IZR v / s)%R y) k) with (IZR (getz 0%Z y k) / s)%R; [unfold Rdiv; ring|].
  unfold getz. replace 0%R with ((fun v => IZR v / s)%R 0%Z) by (unfold Rdiv; lra). now rewrite (map_nth (fun v => IZR v / s)%R).
Qed.
(* the rotated residual of a vector of scale factors after stage 1 *)
Definition set_b_alive (scf : list R) : Prop := forall lf hf st1 r1, sns_stage1 R_ops R_eops scf = Ok (lf, hf, st1, r1) -> exists n, 10 <= n < 16 /\ getz 0%R (sns_rotate R_ops r1) n <> 0%R.
(* the transmitted parameters q describe the result r of the quantiser *)
Definition describes (q : sns_vq) (r : sns_result) : Prop :=
  sr_lf r = q_ind_lf q /\ sr_hf r = q_ind_hf q /\ sr_shape r = 2 * q_submode_msb q + q_submode_lsb q /\ sr_gind r = q_g_ind q /\ sr_lsa r = q_ls_inda q /\ sr_joint r = sns_joint q.
Theorem quant_R scf M : len scf = 16 -> (0 <= M <= IZR (2 ^ 80))%R -> bounded M scf -> set_b_alive scf ->
  exists r s q y, sns_quant R_ops R_eops scf = Ok (r, s) /\ describes q r /\ sns_legal q /\ sns_vector q = Ok y /\ len s = 16 /\ (forall n, 0 <= n < 16 -> getz 0%R s n = scale_factor q y n) /\
    0 <= q_g_ind q < g_maxind (sr_shape r) /\
    (forall k, 0 <= k < 32 -> (dist (getz 0%R scf) LFCB (q_ind_lf q) <= dist (getz 0%R scf) LFCB k)%R) /\
    (forall k, 0 <= k < 32 -> (dist (fun n => getz 0%R scf (n + 8)) HFCB (q_ind_hf q) <= dist (fun n => getz 0%R scf (n + 8)) HFCB k)%R).
Proof.
  intros L HM B A. unfold sns_quant. destruct (stage1_R scf M L HM B) as (lf & hf & st1 & r1 & E & H1 & H2 & H3 & H4 & Ts & _ & Br & Ml & Mh). destruct (A _ _ _ _ E) as (n0 & Hn0 & Nz). rewrite E. cbn [bind]. cbv zeta. clear E.
  pose proof (rotate_bound (M + 10) r1 H4 ltac:(lra) Br) as Bt. pose proof (rotate_len R_ops r1) as Lt. pose proof (R_regular _ n0 Lt Hn0 Nz) as R.
  set (t2 := sns_rotate R_ops r1) in *. destruct (candidates_ok R_ops R_eops t2 Lt R (R_set_b _ n0 Hn0 Nz)) as ([[[y0 y1] y2] y3] & E & L0 & PA & PB & L1 & P1 & L2 & P2 & L3 & P3). rewrite E. cbn [bind]. clear E.
  assert (SV0 : shape_vec 0 y0) by (unfold shape_vec; auto 6).
  destruct (choose_R t2 (normalise R_ops y0) (normalise R_ops y1) (normalise R_ops y2) (normalise R_ops y3)) as (j & i & mn & E & Rj & Ri & _ & _).
  { exists 0, 0. split; [lia|]. split; [unfold g_maxind; cbn [Z.eqb]; lia|]. change (pick 0 (normalise R_ops y0) (normalise R_ops y1) (normalise R_ops y2) (normalise R_ops y3)) with (normalise R_ops y0).
    apply (d_small (16 * (M + 10))); [exact Lt| |exact Bt|exact L0|exact (norm2_pos 0 y0 SV0)].
    assert (P : (IZR (2 ^ 80) * 512 <= IZR (2 ^ 90))%R) by (rewrite <- mult_IZR; apply IZR_le; vm_compute; congruence). assert (10 <= IZR (2 ^ 80))%R by (apply IZR_le; vm_compute; congruence). lra. }
  rewrite E. cbn [bind]. clear E. pose proof (g_maxind_table j Rj) as G.
  set (y := if j =? 0 then y0 else if j =? 1 then y1 ++ repeat 0 6 else if j =? 2 then y2 else y3).
  assert (F1 : firstn 10 (y1 ++ repeat 0 6) = y1 /\ skipn 10 (y1 ++ repeat 0 6) = repeat 0 6).
  { assert (HL : length y1 = 10%nat) by (unfold len in L1; lia). rewrite firstn_app, skipn_app, HL, Nat.sub_diag, <- HL, firstn_all, skipn_all. cbn [firstn skipn]. now rewrite app_nil_r. }
  assert (SV : shape_vec j y).
  { unfold shape_vec, y. destruct (Z.eqb_spec j 0); [auto 6|]. destruct (Z.eqb_spec j 1); [|destruct (Z.eqb_spec j 2)].
    - destruct F1 as [F1 F2]. rewrite F1, F2, len_app, L1. split; [reflexivity|auto 6].
    - auto 6.
    - split; [exact L3|]. right. right. right. split; [lia|exact P3]. }
  assert (Q0 : j = 0 -> y0 = y) by (intros ->; reflexivity).
  assert (Q1 : j = 1 -> y1 = firstn 10 y) by (intros ->; symmetry; exact (proj1 F1)).
  assert (Q2 : j = 2 -> y2 = y) by (intros ->; reflexivity).
  assert (Q3 : j = 3 -> y3 = y) by (intros ->; reflexivity).
  assert (X : pick j (normalise R_ops y0) (normalise R_ops y1) (normalise R_ops y2) (normalise R_ops y3) = normalise R_ops y).
  { unfold pick, y. rewrite (normalise_short y1 L1). destruct (j =? 0), (j =? 1), (j =? 2); reflexivity. }
  assert (Ly : len y = 16) by exact (proj1 SV). rewrite X, normalise_R by exact Ly.
  destruct (joint_round_trip j i y0 y1 y2 y3 y lf hf ltac:(lia) H1 H2 SV Q0 Q1 Q2 Q3) as (ji & la & lb & q & EJ & A1 & A2 & A3 & A4 & A5 & A6 & A7 & A8).
  rewrite EJ. cbn [bind]. eexists. eexists. exists q, y. split; [reflexivity|]. split; [unfold describes; cbn [sr_lf sr_hf sr_shape sr_gind sr_lsa sr_joint]; repeat split; congruence|]. split; [exact A1|]. split; [exact A8|].
  split; [rewrite len_map, len_combine, H3; reflexivity|]. split; [|cbn [sr_shape]; rewrite A4, A6, A7; auto].
  intros n Hn. rewrite (getz_map_in _ (0%R, [])) by (rewrite len_combine, H3; change (len D) with 16; lia). rewrite getz_combine by (rewrite H3; reflexivity). cbv beta iota. rewrite Ts by exact Hn.
  cbn [R_ops fadd fmul fz flit]. rewrite row_sum by (rewrite ?len_map; assumption). rewrite rot_scaled by exact Ly. unfold scale_factor. rewrite A4, A5, A6, A7. reflexivity.
Qed.
