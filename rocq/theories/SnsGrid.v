(* The noise shaping residual in binary32: whatever the scale factors are, infinities and NaNs included, the rotated residual lies on a grid, so the projection onto the pyramid always has at most six pulses. *)
From Coq Require Import ZArith List Bool Lia Reals Lra.
From Coquelicot Require Import Complex.
From Flocq Require Import Core BinarySingleNaN Relative.
From Verif Require Import Base Loops DecSignal Scalar EncScalar F32 F32Round F32Lines EncF32 RealOps F32Err F32Size SnsSize SnsProofs SnsIndex EncSns EncSnsOk ProjF32 TablesSnsF.
From Verif Require LtpfSize ParseBase.
From Coq Require Import List.
Import ListNotations.
Local Open Scope R_scope.

(* ---- multiples of 2^g ---- *)
Definition on_grid (g : Z) (r : R) : Prop := exists k : Z, r = IZR k * bpow radix2 g.
Lemma grid_finer g h r : (g <= h)%Z -> on_grid h r -> on_grid g r.
Proof. intros H (k & ->). exists (k * 2 ^ (h - g))%Z. rewrite mult_IZR, (IZR_Zpower radix2) by lia. rewrite Rmult_assoc, <- bpow_plus. do 2 f_equal. lia. Qed.
Lemma grid_plus g a b : on_grid g a -> on_grid g b -> on_grid g (a + b).
Proof. intros (k & ->) (l & ->). exists (k + l)%Z. rewrite plus_IZR. ring. Qed.
Lemma grid_opp g a : on_grid g a -> on_grid g (- a).
Proof. intros (k & ->). exists (- k)%Z. rewrite opp_IZR. ring. Qed.
Lemma grid_abs g a : on_grid g a -> on_grid g (Rabs a).
Proof. intros H. unfold Rabs. destruct (Rcase_abs a); [now apply grid_opp|exact H]. Qed.
Lemma grid_mult g h a b : on_grid g a -> on_grid h b -> on_grid (g + h) (a * b).
Proof. intros (k & ->) (l & ->). exists (k * l)%Z. rewrite mult_IZR, bpow_plus. ring. Qed.
Lemma grid_rounded r : on_grid (cexp radix2 fexp32 r) (rnd32 r).
Proof. unfold rnd32, round, F2R. cbn [Fnum Fexp]. eexists. reflexivity. Qed.
(* rounding keeps a value on its grid *)
Lemma grid_rnd g r : on_grid g r -> on_grid g (rnd32 r).
Proof.
  intros H. destruct (Z_le_gt_dec g (cexp radix2 fexp32 r)) as [L|L]; [exact (grid_finer _ _ _ L (grid_rounded r))|].
  destruct H as (k & E). assert (V : r = F2R (Float radix2 k g)) by exact E. rewrite rnd_id; [now exists k|]. rewrite V. apply generic_format_F2R. intros _. rewrite <- V. lia.
Qed.
(* ---- numbers that are on a grid if they are finite ---- *)
Definition gr (g : Z) (x : f32) : Prop := is_finite x = true -> on_grid g (B2R x).
Lemma gr_plus g x y : gr g x -> gr g y -> gr g (Bplus mode_NE x y).
Proof.
  intros X Y H. destruct (plus_finite x y H) as [Fx Fy].
  pose proof (Bplus_correct 24 128 f32_prec f32_emax mode_NE x y Fx Fy) as BP. fold fexp32 in BP. change (round_mode mode_NE) with ZnearestE in BP. fold (rnd32 (B2R x + B2R y)) in BP. destruct (Rlt_bool _ _).
  - destruct BP as (V & _ & _). rewrite V. apply grid_rnd, grid_plus; auto.
  - destruct BP as [V _]. exfalso. destruct (Bplus mode_NE x y) as [s|s| |s m e He]; cbn in H; try discriminate H; cbn in V; destruct (Bsign x); discriminate V.
Qed.
Lemma mult_finite (x y : f32) : is_finite (Bmult mode_NE x y) = true -> is_finite x = true /\ is_finite y = true.
Proof. destruct x as [[]|[]| |[] ? ? ?], y as [[]|[]| |[] ? ? ?]; cbn; intros H; try discriminate H; auto. Qed.
Lemma gr_mult g h x y : gr g x -> gr h y -> gr (g + h) (Bmult mode_NE x y).
Proof.
  intros X Y H. destruct (mult_finite x y H) as [Fx Fy].
  pose proof (Bmult_correct 24 128 f32_prec f32_emax mode_NE x y) as BP. fold fexp32 in BP. change (round_mode mode_NE) with ZnearestE in BP. fold (rnd32 (B2R x * B2R y)) in BP. destruct (Rlt_bool _ _).
  - destruct BP as (V & _ & _). rewrite V. apply grid_rnd, grid_mult; auto.
  - exfalso. destruct (Bmult mode_NE x y) as [s|s| |s m e He]; cbn in H; try discriminate H; cbn in BP; destruct (xorb (Bsign x) (Bsign y)); discriminate BP.
Qed.
Lemma minus_finite (x y : f32) : is_finite (Bminus mode_NE x y) = true -> is_finite x = true /\ is_finite y = true.
Proof. destruct x as [[]|[]| |[] ? ? ?], y as [[]|[]| |[] ? ? ?]; cbn; intros H; try discriminate H; auto. Qed.
(* subtracting a full significand: either the minuend is on about the same grid, or it is so small that the difference is not *)
Definition full (g : Z) (y : f32) : bool := match y with B754_finite _ m e _ => (2 ^ 23 <=? Z.pos m)%Z && (g <=? e)%Z | _ => false end.
Lemma full_gr g y : full g y = true -> gr g y.
Proof.
  destruct y as [?|?| |s m e He]; cbn [full]; intros H; try discriminate H. apply andb_true_iff in H. destruct H as [_ H]. apply Z.leb_le in H. intros _. apply (grid_finer g e _ H). exists (cond_Zopp s (Z.pos m)). reflexivity.
Qed.
Lemma gr_minus g (x y : f32) : full g y = true -> gr (g - 1) (Bminus mode_NE x y).
Proof.
  intros Fy H. destruct (minus_finite x y H) as [Fx F2]. pose proof (full_gr g y Fy F2) as Gy.
  pose proof (Bminus_correct 24 128 f32_prec f32_emax mode_NE x y Fx F2) as BP. fold fexp32 in BP. change (round_mode mode_NE) with ZnearestE in BP. fold (rnd32 (B2R x - B2R y)) in BP. destruct (Rlt_bool _ _).
  2: { destruct BP as [V _]. exfalso. destruct (Bminus mode_NE x y) as [s|s| |s m e He]; cbn in H; try discriminate H; cbn in V; destruct (Bsign x); discriminate V. }
  destruct BP as (V & _ & _). rewrite V. clear V H. set (a := B2R x). assert (Fa : generic_format radix2 fexp32 a) by apply fmt_f32. destruct (Z_le_gt_dec (g - 1) (cexp radix2 fexp32 a)) as [L|L].
  - apply grid_rnd. unfold Rminus. apply grid_plus; [|apply grid_opp; apply (grid_finer _ g); [lia|exact Gy]]. apply (grid_finer _ _ _ L). unfold generic_format in Fa. eexists. exact Fa.
  - apply (grid_finer _ (cexp radix2 fexp32 (a - B2R y))); [|apply grid_rounded].
    assert (A : Rabs a < bpow radix2 (g + 22)).
    { destruct (Req_dec a 0) as [-> |N]; [rewrite Rabs_R0; apply bpow_gt_0|]. apply Rlt_le_trans with (bpow radix2 (mag radix2 a)); [apply bpow_mag_gt|]. apply bpow_le. unfold cexp in L. change (fexp32 (mag radix2 a)) with (Z.max (mag radix2 a - 24) (-149)) in L. lia. }
    assert (B : bpow radix2 (g + 23) <= Rabs (B2R y)).
    { destruct y as [?|?| |s m e He]; cbn [full] in Fy; try discriminate Fy. apply andb_true_iff in Fy. destruct Fy as [M E]. apply Z.leb_le in M, E. cbn [B2R]. rewrite <- F2R_Zabs, abs_cond_Zopp. unfold F2R. cbn [Fnum Fexp]. change (Z.abs (Z.pos m)) with (Z.pos m).
      rewrite Z.add_comm, bpow_plus. apply Rmult_le_compat; try apply bpow_ge_0; [|now apply bpow_le]. change (bpow radix2 23) with (IZR (2 ^ 23)). now apply IZR_le. }
    assert (C : bpow radix2 (g + 22) <= Rabs (a - B2R y)).
    { pose proof (Rabs_triang_inv (B2R y) a) as T. rewrite (Rabs_minus_sym (B2R y) a) in T. replace (bpow radix2 (g + 23)) with (2 * bpow radix2 (g + 22)) in B by (change 2 with (bpow radix2 1); rewrite <- bpow_plus; f_equal; lia). lra. }
    pose proof (mag_ge_bpow radix2 (a - B2R y) (g + 23)) as M. replace (g + 23 - 1)%Z with (g + 22)%Z in M by lia. specialize (M C). unfold cexp. change (fexp32 (mag radix2 (a - B2R y))) with (Z.max (mag radix2 (a - B2R y) - 24) (-149)). lia.
Qed.

(* ---- the tables ---- *)
Lemma books_full : forallb (forallb (fun d => full (-40) (f32_lit d))) (LFCB ++ HFCB) = true.
Proof. vm_compute. reflexivity. Qed.
Lemma D_full : forallb (forallb (fun d => full (-40) (f32_lit d))) D = true.
Proof. vm_compute. reflexivity. Qed.

Section Grid.
Context (lm : libm) (el : elibm).
Let o := f32_ops lm.
Let e := f32_eops el.

Lemma residual_grid scf lf hf st1 r1 : sns_stage1 o e scf = Ok (lf, hf, st1, r1) -> Forall (gr (-41)) r1.
Proof.
  intros E. unfold sns_stage1 in E. apply bind_Ok in E. destruct E as (lo & _ & E). apply bind_Ok in E. destruct E as (hi & _ & E). cbv zeta in E. apply bind_Ok in E. destruct E as (l & El & E). apply bind_Ok in E. destruct E as (h & Eh & E).
  apply ParseBase.Ok_inj in E. assert (r1 = map (fun '(a, b) => fsub o a b) (combine scf (map (flit o) (l ++ h)))) as -> by congruence. pose proof books_full as B. rewrite forallb_forall in B.
  assert (Il : In l (LFCB ++ HFCB)) by (apply in_or_app; left; apply (LtpfSize.idx_In _ _ _ El)). assert (Ih : In h (LFCB ++ HFCB)) by (apply in_or_app; right; apply (LtpfSize.idx_In _ _ _ Eh)).
  apply Forall_forall. intros v Hv. apply in_map_iff in Hv. destruct Hv as ([a b] & <- & Hv). apply in_combine_r in Hv. apply in_map_iff in Hv. destruct Hv as (d & <- & Hd).
  change (gr (-41) (Bminus mode_NE a (f32_lit d))). apply (gr_minus (-40)). apply in_app_or in Hd. destruct Hd as [Hd|Hd]; [specialize (B l Il)|specialize (B h Ih)]; rewrite forallb_forall in B; exact (B d Hd).
Qed.
Lemma zero_grid g : gr g (f32_of_Z 0).
Proof. intros _. exists 0%Z. destruct (fz_val 0 ltac:(lia)) as [-> _]. ring. Qed.
Lemma rotated_grid r1 : Forall (gr (-41)) r1 -> Forall (gr (-81)) (sns_rotate o r1).
Proof.
  intros H. unfold sns_rotate. assert (G : forall l t, Forall (fun p => gr (-41) (fst p) /\ Forall (fun d => full (-40) (f32_lit d) = true) (snd p)) l -> Forall (gr (-81)) t ->
    Forall (gr (-81)) (fold_left (fun t '(r, row) => zipmod (fun t d => fadd o t (fmul o r (flit o d))) t row) l t)).
  { induction l as [|[r row] l IH]; intros t Hl Ht; cbn [fold_left]; [exact Ht|]. inversion_clear Hl as [|? ? [P1 P2] P3]. cbn [fst snd] in *. apply IH; [exact P3|]. apply (Forall_zipmod _ (fun d => full (-40) (f32_lit d) = true)); auto.
    intros a b Ga Fb. change (gr (-81) (Bplus mode_NE a (Bmult mode_NE r (f32_lit b)))). apply gr_plus; [exact Ga|]. exact (gr_mult (-41) (-40) r (f32_lit b) P1 (full_gr _ _ Fb)). }
  apply G.
  - pose proof D_full as B. rewrite forallb_forall in B. apply Forall_forall. intros [r row] Hp. cbn [fst snd]. split.
    + apply in_combine_l in Hp. rewrite Forall_forall in H. auto.
    + apply in_combine_r in Hp. specialize (B row Hp). rewrite forallb_forall in B. apply Forall_forall. exact B.
  - apply Forall_forall. intros v Hv. apply repeat_spec in Hv. subst v. apply zero_grid.
Qed.
Lemma sum_grid g : forall l acc, gr g acc -> Forall (gr g) l -> gr g (fold_left (Bplus mode_NE) l acc).
Proof. induction l as [|a l IH]; intros acc Ha Hl; cbn [fold_left]; [exact Ha|]. inversion_clear Hl. apply IH; [now apply gr_plus|assumption]. Qed.
(* the projection is always small enough *)
Theorem proj_always t2 : len t2 = 16%Z -> Forall (gr (-81)) t2 -> let ax := map (e_abs e) t2 in
  Forall (fun a => (0 <= proj o e ax a)%Z) ax /\ (zsum (map (proj o e ax) ax) <= 6)%Z.
Proof.
  intros L G ax. assert (La : len ax = 16%Z) by (unfold ax, len in *; now rewrite map_length).
  assert (P : Forall pos ax) by (unfold ax; apply Forall_map, Forall_forall; intros x _; apply abs_pos_f32).
  assert (Ga : Forall (gr (-81)) ax) by (unfold ax; apply Forall_map; eapply Forall_impl; [|exact G]; intros x Hx Fx; change (e_abs e x) with (Babs x) in *; rewrite is_finite_Babs in Fx; rewrite B2R_Babs; now apply grid_abs, Hx).
  destruct (is_finite (fsum o ax)) eqn:F; [|apply proj_any; auto].
  destruct (sum_pos ax (f32_of_Z 0)) as (_ & A2 & A3 & A4 & _); [unfold pos; destruct (fz_val 0 ltac:(lia)) as [V _]; rewrite V; lra|exact P|exact F|].
  destruct (sum_grid (-81) ax (f32_of_Z 0) (zero_grid _) Ga F) as (k & Ek). change (fold_left (Bplus mode_NE) ax (f32_of_Z 0)) with (fsum o ax) in *. destruct (fz_val 0 ltac:(lia)) as [V0 _]. rewrite V0 in A3.
  pose proof (bpow_gt_0 radix2 (-81)) as B. destruct (Z_lt_le_dec 0 k) as [K|K].
  - apply proj_any; auto. left. destruct (tiny_val) as [VT _]. rewrite VT. eapply Rle_trans; [|right; symmetry; exact Ek]. apply Rle_trans with (1 * bpow radix2 (-81)); [rewrite Rmult_1_l; apply bpow_le; lia|]. apply Rmult_le_compat_r; [lra|]. apply IZR_le. lia.
  - assert (S0 : B2R (fsum o ax) = 0) by (assert (IZR k <= 0) by (apply IZR_le; lia); nra).
    assert (Dead : forall a, In a ax -> proj o e ax a = 0%Z).
    { intros a Ha. rewrite Forall_forall in A2, A4, P. specialize (A2 a Ha). specialize (A4 a Ha). specialize (P a Ha). cbv beta in *. unfold pos in P. rewrite S0 in A4. assert (Z0 : B2R a = 0) by lra.
      unfold proj. change (f_i32 o (e_floor e (fmul o a (proj_factor o ax)))) with (f32_to_i32 (Bnearbyint mode_DN (Bmult mode_NE a (proj_factor o ax)))).
      assert (exists s, a = B754_zero s) as (s & ->) by (destruct a as [s|s| |s m ea He]; try discriminate A2; [eauto|exfalso; cbn [B2R] in Z0; apply eq_0_F2R in Z0; destruct s; discriminate Z0]).
      destruct (proj_factor o ax) as [?|?| |? ? ? ?]; reflexivity. }
    split; [apply Forall_forall; intros a Ha; rewrite (Dead a Ha); lia|]. rewrite (map_ext_in _ (fun _ => 0%Z) ax Dead). clear. induction ax as [|a l IH]; cbn [map]; [cbn; lia|]. rewrite zsum_cons'. lia.
Qed.
End Grid.
