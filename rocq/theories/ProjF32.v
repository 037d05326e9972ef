(* The projection onto the pyramid in binary32 (EncSns.project): whatever the vector holds, infinities and NaNs included, it has at most six pulses and no negative one,
   as soon as one of its components is not tiny. *)
From Coq Require Import ZArith List Bool Lia Reals Lra.
From Coquelicot Require Import Complex.
From Flocq Require Import Core BinarySingleNaN Relative.
From Verif Require Import Base Loops Scalar EncScalar F32 F32Round F32Lines EncF32 RealOps F32Err F32Size SnsSize SnsProofs SnsIndex EncSns EncSnsOk.
From Coq Require Import List.
Import ListNotations.
Local Open Scope R_scope.

Definition eta : R := bpow radix2 (-150).
Lemma eta_pos : 0 < eta. Proof. apply bpow_gt_0. Qed.
Definition Rtotal (l : list f32) : R := fold_right (fun x a => B2R x + a) 0 l.
(* not negative: signs of NaNs do not exist here *)
Definition pos (x : f32) : Prop := 0 <= B2R x.
Lemma abs_pos_f32 (x : f32) : pos (Babs x).
Proof. unfold pos. rewrite B2R_Babs. apply Rabs_pos. Qed.
Lemma rnd_ge a t : generic_format radix2 fexp32 a -> a <= t -> a <= rnd32 t.
Proof. intros H L. rewrite <- (rnd_id a H). unfold rnd32. apply round_le; [apply FLT_exp_valid; reflexivity|apply valid_rnd_N|exact L]. Qed.
Lemma fmt_f32 (x : f32) : generic_format radix2 fexp32 (B2R x).
Proof. apply generic_format_B2R. Qed.
Lemma plus_finite (x y : f32) : is_finite (Bplus mode_NE x y) = true -> is_finite x = true /\ is_finite y = true.
Proof. destruct x as [[]|[]| |[] ? ? ?], y as [[]|[]| |[] ? ? ?]; cbn; intros H; try discriminate H; auto. Qed.
Lemma plus_pos (x y : f32) : pos x -> pos y -> is_finite (Bplus mode_NE x y) = true ->
  is_finite x = true /\ is_finite y = true /\ pos (Bplus mode_NE x y) /\ B2R x <= B2R (Bplus mode_NE x y) /\ B2R y <= B2R (Bplus mode_NE x y) /\ B2R x + B2R y <= (1 + vv) * (B2R (Bplus mode_NE x y) + eta).
Proof.
  intros Px Py H. destruct (plus_finite x y H) as [Fx Fy]. split; [exact Fx|]. split; [exact Fy|]. unfold pos in *.
  pose proof (Bplus_correct 24 128 f32_prec f32_emax mode_NE x y Fx Fy) as BP. fold fexp32 in BP. change (round_mode mode_NE) with ZnearestE in BP. fold (rnd32 (B2R x + B2R y)) in BP.
  destruct (Rlt_bool _ _).
  - destruct BP as (V & _ & _). rewrite V. pose proof (rnd_ge (B2R x) (B2R x + B2R y) (fmt_f32 x) ltac:(lra)). pose proof (rnd_ge (B2R y) (B2R x + B2R y) (fmt_f32 y) ltac:(lra)).
    split; [lra|]. split; [lra|]. split; [lra|]. pose proof (rnd_err (B2R x + B2R y)) as E. fold eta in E. rewrite (Rabs_pos_eq (B2R x + B2R y)) in E by lra. apply Rabs_le_inv in E.
    set (s := B2R x + B2R y) in *. set (r := rnd32 s) in *. pose proof eta_pos. assert ((1 - uu) * s <= r + eta) by lra. apply Rle_trans with ((1 + vv) * ((1 - uu) * s)).
    + assert (1 <= (1 + vv) * (1 - uu)) by (unfold vv, uu; lra). assert (0 <= s) by (unfold s; lra). nra.
    + apply Rmult_le_compat_l; [unfold vv, uu; lra|lra].
  - destruct BP as [V _]. exfalso. destruct (Bplus mode_NE x y) as [s|s| |s m e He]; cbn in H; try discriminate H; cbn in V; destruct (Bsign x); discriminate V.
Qed.
Lemma sum_pos : forall l acc, pos acc -> Forall pos l -> is_finite (fold_left (Bplus mode_NE) l acc) = true ->
  is_finite acc = true /\ Forall (fun x => is_finite x = true) l /\ B2R acc <= B2R (fold_left (Bplus mode_NE) l acc) /\ Forall (fun x => B2R x <= B2R (fold_left (Bplus mode_NE) l acc)) l /\
  B2R acc + Rtotal l <= gp (length l) * (B2R (fold_left (Bplus mode_NE) l acc) + INR (length l) * eta).
Proof.
  assert (G0 : forall l acc, is_finite (fold_left (Bplus mode_NE) l acc) = true -> is_finite (acc : f32) = true).
  { induction l as [|a l IH]; intros acc H; [exact H|]. cbn [fold_left] in H. apply IH in H. now apply plus_finite in H. }
  induction l as [|a l IH]; intros acc Pa Pl H; cbn [fold_left] in *.
  - cbn [length gp pow INR Rtotal fold_right]. split; [exact H|]. split; [constructor|]. split; [apply Rle_refl|]. split; [constructor|]. unfold gp. cbn [pow]. lra.
  - inversion_clear Pl as [|? ? P1 P2]. pose proof (G0 _ _ H) as H1. destruct (plus_pos acc a Pa P1 H1) as (A1 & A2 & A3 & A4 & A5 & A6). destruct (IH _ A3 P2 H) as (_ & B2 & B3 & B4 & B5).
    set (S := B2R (fold_left (Bplus mode_NE) l (Bplus mode_NE acc a))) in *. split; [exact A1|]. split; [now constructor|]. split; [lra|]. split; [constructor; [lra|exact B4]|].
    cbn [Rtotal fold_right length]. fold (Rtotal l). rewrite gp_S, S_INR. set (n := INR (length l)) in *. set (acc' := B2R (Bplus mode_NE acc a)) in *. assert (T : 0 <= Rtotal l).
    { clear -P2. induction P2 as [|x l Hx _ IH]; cbn [Rtotal fold_right]; [lra|]. fold (Rtotal l). unfold pos in Hx. lra. }
    pose proof vv_pos as [Vl _]. pose proof uu_pos as [Ul _]. pose proof eta_pos as Ep. pose proof (gp_1 (length l)) as G1.
    apply Rle_trans with ((1 + vv) * (acc' + Rtotal l) + (1 + vv) * eta); [nra|]. apply Rle_trans with ((1 + vv) * (gp (length l) * (S + n * eta)) + (1 + vv) * eta); [nra|]. replace ((1 + vv) * gp (length l) * (S + (n + 1) * eta)) with ((1 + vv) * (gp (length l) * (S + n * eta)) + (1 + vv) * (gp (length l) * eta)) by ring.
    apply Rplus_le_compat_l, Rmult_le_compat_l; [lra|]. nra.
Qed.

Section Proj.
Context (lm : libm) (el : elibm).
Let o := f32_ops lm.
Let e := f32_eops el.

Definition tiny : f32 := f32_norm 1 (-100).
Lemma tiny_val : B2R tiny = bpow radix2 (-100) /\ is_finite tiny = true.
Proof.
  pose proof (binary_normalize_correct 24 128 f32_prec f32_emax mode_NE 1 (-100) false) as H. fold (f32_norm 1 (-100)) tiny in H. fold fexp32 in H. change (round_mode mode_NE) with ZnearestE in H. unfold F2R in H. cbn [Fnum Fexp] in H. rewrite Rmult_1_l in H.
  fold (rnd32 (bpow radix2 (-100))) in H. rewrite (rnd_id _ (fmt_pow (-100) ltac:(lia))) in H. rewrite Rlt_bool_true in H; [destruct H as (V & F & _); auto|]. rewrite Rabs_pos_eq by apply bpow_ge_0. apply bpow_lt. lia.
Qed.
(* `x > 2^-100`, true of +infinity *)
Definition heard (t2 : list f32) : Prop := exists n, (10 <= n < 16)%Z /\ Bltb tiny (Babs (getz (f32_of_Z 0) t2 n)) = true.

Lemma floor_zero s : f32_to_i32 (Bnearbyint mode_DN (B754_zero s : f32)) = 0%Z.
Proof. reflexivity. Qed.
(* no usable factor *)
Lemma proj_dead (a f : f32) : (f = B754_nan \/ exists s, f = B754_zero s) -> f32_to_i32 (Bnearbyint mode_DN (Bmult mode_NE a f)) = 0%Z.
Proof. intros [-> | (s & ->)]; destruct a as [?|?| |? ? ? ?]; reflexivity. Qed.

Lemma five : is_int (Bminus mode_NE (f32_of_Z 6) (f32_of_Z 1)) 5.
Proof.
  destruct (fz_val 6 ltac:(lia)) as [V6 F6]. destruct (fz_val 1 ltac:(lia)) as [V1 F1]. pose proof (Bminus_correct 24 128 f32_prec f32_emax mode_NE _ _ F6 F1) as BP. fold fexp32 in BP. change (round_mode mode_NE) with ZnearestE in BP. rewrite V6, V1 in BP.
  replace (6 - 1) with (IZR 5) in BP by lra. fold (rnd32 (IZR 5)) in BP. rewrite int_fmt, int_lt in BP by lia. destruct BP as (V & W & _). split; assumption.
Qed.
Lemma zsum_cons' a l : zsum (a :: l) = (a + zsum l)%Z. Proof. reflexivity. Qed.
Theorem proj_any ax : len ax = 16%Z -> Forall pos ax -> B2R tiny <= B2R (fsum o ax) \/ is_finite (fsum o ax) = false ->
  Forall (fun a => (0 <= proj o e ax a)%Z) ax /\ (zsum (map (proj o e ax) ax) <= 6)%Z.
Proof.
  intros L P K. assert (Z16 : length ax = 16%nat) by (unfold len in L; lia).
  assert (Dead : (forall a, proj o e ax a = 0%Z) -> Forall (fun a => (0 <= proj o e ax a)%Z) ax /\ (zsum (map (proj o e ax) ax) <= 6)%Z).
  { intros H. split; [apply Forall_forall; intros a _; rewrite H; lia|]. rewrite (map_ext _ (fun _ => 0%Z) H). clear. induction ax as [|a l IH]; cbn [map]; [cbn; lia|]. rewrite zsum_cons'. lia. }
  destruct five as [V5 F5]. set (S := fsum o ax) in *. destruct (is_finite S) eqn:FS.
  - destruct K as [K|K]; [|discriminate K]. destruct tiny_val as [VT _]. rewrite VT in K.
    destruct (sum_pos ax (f32_of_Z 0)) as (_ & A2 & _ & A4 & A5); [unfold pos; destruct (fz_val 0 ltac:(lia)) as [V _]; rewrite V; lra|exact P|exact FS|]. change (fold_left (Bplus mode_NE) ax (f32_of_Z 0)) with S in *.
    destruct (fz_val 0 ltac:(lia)) as [V0 _]. rewrite V0, Rplus_0_l, Z16 in A5. set (s := B2R S) in *.
    assert (TT : 0 < bpow radix2 (-100)) by apply bpow_gt_0. assert (Hs : 0 < s) by lra.
    assert (Top : s < bpow radix2 128) by (pose proof (abs_B2R_lt_emax 24 128 S) as Q; fold s in Q; rewrite Rabs_pos_eq in Q by lra; exact Q).
    assert (Q5 : 0 < 5 / s <= 5 * bpow radix2 100).
    { split; [apply Rmult_lt_0_compat; [lra|now apply Rinv_0_lt_compat]|]. unfold Rdiv. apply Rmult_le_compat_l; [lra|]. replace (bpow radix2 100) with (/ bpow radix2 (-100)) by (rewrite <- bpow_opp; reflexivity). apply Rinv_le; assumption. }
    assert (FF : B2R (proj_factor o ax) = rnd32 (5 / s) /\ is_finite (proj_factor o ax) = true).
    { pose proof (Bdiv_correct 24 128 f32_prec f32_emax mode_NE (Bminus mode_NE (f32_of_Z 6) (f32_of_Z 1)) S) as BP. fold s in BP. specialize (BP ltac:(lra)). fold fexp32 in BP. change (round_mode mode_NE) with ZnearestE in BP. rewrite V5 in BP. fold (rnd32 (5 / s)) in BP.
      rewrite Rlt_bool_true in BP; [destruct BP as (V & W & _); unfold proj_factor; rewrite <- F5; split; assumption|]. apply (nn_lt 103); [lia|]. split; [lra|]. eapply Rle_trans; [apply Q5|]. change 103%Z with (3 + 100)%Z. rewrite bpow_plus. apply Rmult_le_compat_r; [apply bpow_ge_0|cbn; lra]. }
    destruct FF as [VF FFin]. set (F := B2R (proj_factor o ax)) in *.
    assert (U : 0 < uu < / 1000000) by exact uu_pos. assert (Eb : 0 < eta <= bpow radix2 (-150)) by (split; [apply eta_pos|apply Rle_refl]).
    assert (HF : 0 <= F <= (1 + uu) * (5 / s) + eta).
    { rewrite VF. pose proof (rnd_err (5 / s)) as E. fold eta in E. rewrite (Rabs_pos_eq (5 / s)) in E by lra. apply Rabs_le_inv in E. split; [|lra]. apply rnd_ge; [apply generic_format_0|lra]. }
    assert (SE : s * eta <= / 4000000) by (apply Rle_trans with (bpow radix2 128 * bpow radix2 (-150)); [apply Rmult_le_compat; lra|rewrite <- bpow_plus; cbn; lra]).
    assert (One : forall a, pos a -> is_finite a = true -> B2R a <= s -> (0 <= proj o e ax a)%Z /\ IZR (proj o e ax a) <= (1 + uu) * ((1 + uu) * (5 / s) + eta) * B2R a + eta).
    { intros a Pa Fa La. unfold pos in Pa. set (x := B2R a) in *. assert (X5 : x * (5 / s) <= 5) by (apply Rle_trans with (s * (5 / s)); [apply Rmult_le_compat_r; lra|right; field; lra]). assert (XE : x * eta <= / 4000000) by (apply Rle_trans with (s * eta); [apply Rmult_le_compat_r; lra|exact SE]).
      assert (XF : 0 <= x * F <= 51 / 10) by (split; [apply Rmult_le_pos; lra|apply Rle_trans with (x * ((1 + uu) * (5 / s) + eta)); [apply Rmult_le_compat_l; lra|replace (x * ((1 + uu) * (5 / s) + eta)) with ((1 + uu) * (x * (5 / s)) + x * eta) by ring; nra]]).
      pose proof (Bmult_correct 24 128 f32_prec f32_emax mode_NE a (proj_factor o ax)) as BP. fold x F in BP. fold fexp32 in BP. change (round_mode mode_NE) with ZnearestE in BP. fold (rnd32 (x * F)) in BP.
      rewrite Rlt_bool_true in BP by (apply (nn_lt 3); [lia|cbn; lra]). destruct BP as (V & W & _). rewrite Fa, FFin in W. cbn [andb] in W.
      destruct (nearby_dn (Bmult mode_NE a (proj_factor o ax))) as [N1 N2]. rewrite W in N2. unfold proj. change (f_i32 o (e_floor e (fmul o a (proj_factor o ax)))) with (f32_to_i32 (Bnearbyint mode_DN (Bmult mode_NE a (proj_factor o ax)))).
      rewrite (f32_to_i32_finite _ N2), N1, Ztrunc_IZR, V. assert (R0 : 0 <= rnd32 (x * F) <= bpow radix2 3) by (apply rnd_nn; [lia|cbn; lra]).
      assert (Z0 : (0 <= Zfloor (rnd32 (x * F)))%Z) by (apply Zfloor_lub; lra). assert (Z8 : (Zfloor (rnd32 (x * F)) <= 8)%Z) by (apply le_IZR; eapply Rle_trans; [apply Zfloor_lb|]; cbn in R0; lra).
      rewrite Z.min_r, Z.max_r by lia. split; [exact Z0|]. eapply Rle_trans; [apply Zfloor_lb|]. pose proof (rnd_err (x * F)) as E. fold eta in E. rewrite (Rabs_pos_eq (x * F)) in E by lra. apply Rabs_le_inv in E.
      apply Rle_trans with ((1 + uu) * (x * F) + eta); [lra|]. apply Rplus_le_compat_r. rewrite Rmult_assoc. apply Rmult_le_compat_l; [lra|]. rewrite Rmult_comm. apply Rmult_le_compat_r; lra. }
    assert (All : forall l, Forall pos l -> Forall (fun x => is_finite x = true) l -> Forall (fun x => B2R x <= s) l -> Forall (fun a => (0 <= proj o e ax a)%Z) l /\ IZR (zsum (map (proj o e ax) l)) <= (1 + uu) * ((1 + uu) * (5 / s) + eta) * Rtotal l + INR (length l) * eta).
    { induction l as [|a l IH]; intros H1 H2 H3; [split; [constructor|cbn [Rtotal fold_right length INR map]; change (zsum []) with 0%Z; lra]|]. inversion_clear H1 as [|? ? P1 P2]. inversion_clear H2 as [|? ? Q1 Q2]. inversion_clear H3 as [|? ? R1 R2].
      destruct (IH P2 Q2 R2) as [I1 I2]. destruct (One a P1 Q1 R1) as [O1 O2]. split; [now constructor|]. cbn [map length Rtotal fold_right]. fold (Rtotal l). rewrite zsum_cons', plus_IZR, S_INR. lra. }
    destruct (All ax P A2 A4) as [B1 B2]. split; [exact B1|]. rewrite Z16 in B2. replace (INR 16) with 16 in * by (cbn; lra). assert (IZR (zsum (map (proj o e ax) ax)) < 7); [|apply lt_IZR in H; lia]. eapply Rle_lt_trans; [exact B2|].
    pose proof (gp_lin 16 ltac:(lia)) as G. replace (INR 16) with 16 in G by (cbn; lra). pose proof (gp_1 16) as G1. assert (Rt : Rtotal ax <= 100001 / 100000 * (s + 16 * eta)) by (eapply Rle_trans; [exact A5|]; apply Rmult_le_compat_r; [lra|unfold vv, uu in G; lra]).
    assert (SB : 16 * eta <= s * / 1000000) by (apply Rle_trans with (bpow radix2 (-100) * / 1000000); [change eta with (bpow radix2 (-150)); change (-150)%Z with (-50 + -100)%Z; rewrite bpow_plus; assert (bpow radix2 (-50) <= / 1000000000) by (apply Rle_trans with (bpow radix2 (-40)); [apply bpow_le; lia|cbn; lra]); nra|apply Rmult_le_compat_r; lra]).
    assert (R2 : Rtotal ax <= 10001 / 10000 * s) by lra. assert (R0 : 0 <= Rtotal ax) by (clear -P; induction P as [|x l Hx _ IH]; cbn [Rtotal fold_right]; [lra|]; fold (Rtotal l); unfold pos in Hx; lra).
    apply Rle_lt_trans with ((1 + uu) * ((1 + uu) * (5 / s) + eta) * (10001 / 10000 * s) + 16 * eta).
    + apply Rplus_le_compat_r, Rmult_le_compat_l; [|exact R2]. apply Rmult_le_pos; [lra|]. assert (0 <= (1 + uu) * (5 / s)) by (apply Rmult_le_pos; lra). lra.
    + replace ((1 + uu) * ((1 + uu) * (5 / s) + eta) * (10001 / 10000 * s)) with (10001 / 10000 * (1 + uu) * ((1 + uu) * 5 + s * eta)) by (field; lra). assert (eta <= / 1000000) by (apply Rle_trans with (bpow radix2 (-20)); [apply bpow_le; lia|cbn; lra]). nra.
  - apply Dead. intros a. unfold proj. change (f_i32 o (e_floor e (fmul o a (proj_factor o ax)))) with (f32_to_i32 (Bnearbyint mode_DN (Bmult mode_NE a (proj_factor o ax)))). apply proj_dead. unfold proj_factor. fold S. change (fdiv o (fsub o (fz o 6) (fz o 1)) S) with (Bdiv mode_NE (Bminus mode_NE (f32_of_Z 6) (f32_of_Z 1)) S).
    clear -FS F5. destruct (Bminus mode_NE (f32_of_Z 6) (f32_of_Z 1)) as [?|?| |? ? ? ?], S as [?|?| |? ? ? ?]; cbn in FS, F5; try discriminate; cbn [Bdiv]; eauto.
Qed.

Lemma ltb_tiny (x : f32) : Bltb tiny (Babs x) = true -> (is_finite (Babs x) = true /\ B2R tiny <= B2R (Babs x)) \/ is_finite (Babs x) = false.
Proof.
  intros H. destruct (is_finite (Babs x)) eqn:F; [left|now right]. split; [reflexivity|]. destruct tiny_val as [_ T]. pose proof (Bltb_correct 24 128 tiny (Babs x) T F) as C. rewrite H in C. symmetry in C. destruct (Rlt_bool_spec (B2R tiny) (B2R (Babs x))); [lra|discriminate C].
Qed.
Theorem heard_regular t2 : len t2 = 16%Z -> heard t2 -> regular o e t2.
Proof.
  intros L (n & Hn & H). set (ax := map (e_abs e) t2). assert (La : len ax = 16%Z) by (unfold ax, len in *; now rewrite map_length).
  assert (P : Forall pos ax) by (unfold ax; apply Forall_map, Forall_forall; intros x _; apply abs_pos_f32).
  assert (IN : In (Babs (getz (f32_of_Z 0) t2 n)) ax) by (unfold ax; apply (in_map (e_abs e) t2 (getz (f32_of_Z 0) t2 n)); unfold getz; apply nth_In; unfold len in L; lia).
  assert (K : B2R tiny <= B2R (fsum o ax) \/ is_finite (fsum o ax) = false).
  { destruct (is_finite (fsum o ax)) eqn:F; [left|now right]. destruct (sum_pos ax (f32_of_Z 0)) as (_ & A2 & _ & A4 & _); [unfold pos; destruct (fz_val 0 ltac:(lia)) as [V _]; rewrite V; lra|exact P|exact F|].
    rewrite Forall_forall in A2, A4. specialize (A2 _ IN). specialize (A4 _ IN). cbv beta in *. destruct (ltb_tiny _ H) as [[_ Q]|Q]; [|congruence]. eapply Rle_trans; [exact Q|exact A4]. }
  destruct (proj_any ax La P K) as [A B]. constructor; [exact A|exact B|]. left. exists n. split; [exact Hn|]. change (Bltb (f32_of_Z 0) (Babs (getz (f32_of_Z 0) t2 n)) = true).
  set (y := Babs (getz (f32_of_Z 0) t2 n)) in *. destruct (ltb_tiny _ H) as [[F Q]|F]; fold y in F.
  - fold y in Q. destruct (fz_val 0 ltac:(lia)) as [V0 F0]. rewrite (Bltb_correct 24 128 _ _ F0 F), V0. apply Rlt_bool_true. destruct tiny_val as [VT _]. rewrite VT in Q. pose proof (bpow_gt_0 radix2 (-100)). lra.
  - destruct y as [?|s| |? ? ? ?] eqn:E; cbn in F; try discriminate F; [|cbn in H; discriminate H]. destruct s; [discriminate H|reflexivity].
Qed.
End Proj.
