(* C63: when the noise shaping quantiser fails in binary32, in a build with overflow checks. The failure is the overflow of the product in 532 (SnsIndex.joint_index); without the checks
   the code goes on there with a wrapped index, which is C64. *)
From Coq Require Import ZArith List Bool Lia Reals Lra.
From Coquelicot Require Import Complex.
From Flocq Require Import Core BinarySingleNaN.
From Verif Require Import Base Loops Scalar EncScalar F32 F32Round F32Lines EncF32 F32Size SnsSize SnsProofs SnsIndex DecTotal EncSns EncSnsOk ProjF32 SnsGrid.
From Coq Require Import List.
Import ListNotations.
Local Open Scope Z_scope.

(* set B, components 10 to 15 of the rotated residual, holds zeros and NaNs only *)
Definition no_set_b (t2 : list f32) : Prop := forall n, 10 <= n < 16 -> (exists s, getz (f32_of_Z 0) t2 n = B754_zero s) \/ getz (f32_of_Z 0) t2 n = B754_nan.
Lemma above_zero (x : f32) : Bltb (f32_of_Z 0) (Babs x) = false <-> (exists s, x = B754_zero s) \/ x = B754_nan.
Proof.
  change (f32_of_Z 0) with (B754_zero false : f32). destruct x as [s|s| |s m e H]; split; try (intros _; (left; eexists; reflexivity) || (right; reflexivity)); try reflexivity; try (intros K; discriminate K); intros [(s' & K)|K]; discriminate K.
Qed.
Lemma set_b_f32 lm el t2 : ~ set_b (f32_ops lm) (f32_eops el) t2 <-> no_set_b t2.
Proof.
  split.
  - intros N n Hn. apply above_zero. destruct (Bltb _ _) eqn:B; [|reflexivity]. elim N. exists n. split; [exact Hn|exact B].
  - intros Q (n & Hn & B). apply (Q n) in Hn. apply above_zero in Hn. change (Bltb (f32_of_Z 0) (Babs (getz (f32_of_Z 0) t2 n)) = true) in B. congruence.
Qed.
(* any sixteen scale factors, infinities and NaNs included *)
Theorem C63_sns_fails_exactly : forall (lm : libm) (el : elibm) (scf : list f32), len scf = 16 ->
  exists lf hf st1 r1, sns_stage1 (f32_ops lm) (f32_eops el) scf = Ok (lf, hf, st1, r1) /\ 0 <= lf < 32 /\ 0 <= hf < 32 /\
    let t2 := sns_rotate (f32_ops lm) r1 in
    ((forall r s, sns_quant (f32_ops lm) (f32_eops el) scf <> Ok (r, s)) <-> no_set_b t2 /\ shape_0 (f32_ops lm) (f32_eops el) t2) /\
    (forall r s, sns_quant (f32_ops lm) (f32_eops el) scf = Ok (r, s) -> sr_legal r /\ len s = 16 /\ sr_lf r = lf /\ sr_hf r = hf).
Proof.
  intros lm el scf L. destruct (stage1_ok (f32_ops lm) (f32_eops el) scf L) as ([[[lf hf] st1] r1] & E & H1 & H2 & _). exists lf, hf, st1, r1. split; [exact E|]. split; [exact H1|]. split; [exact H2|]. intros t2.
  destruct (proj_always lm el t2 (rotate_len _ r1) (rotated_grid lm r1 (residual_grid lm el scf lf hf st1 r1 E))) as [A1 A2].
  assert (OK : set_b (f32_ops lm) (f32_eops el) t2 \/ ~ shape_0 (f32_ops lm) (f32_eops el) t2 -> okp (sns_quant (f32_ops lm) (f32_eops el) scf) (fun '(r, s) => sr_legal r /\ len s = 16)).
  { intros B. apply quant_ok; [exact L|]. intros lf' hf' st1' r1' E'. rewrite E in E'. apply ParseBase.Ok_inj in E'. assert (r1' = r1) by congruence. subst r1'. now constructor. }
  assert (ST : no_set_b t2 -> shape_0 (f32_ops lm) (f32_eops el) t2 -> forall rs, sns_quant (f32_ops lm) (f32_eops el) scf <> Ok rs) by (intros N S rs; exact (quant_stuck _ _ scf lf hf st1 r1 rs E A1 A2 (proj2 (set_b_f32 lm el t2) N) S)).
  split; [split|].
  - intros N. destruct (set_b_dec (f32_ops lm) (f32_eops el) t2) as [SB|NB]; [destruct (OK (or_introl SB)) as ([r s] & K & _); now elim (N r s)|]. split; [intros n Hn; apply above_zero; exact (NB n Hn)|].
    destruct (candidates_any (f32_ops lm) (f32_eops el) t2 (rotate_len _ r1) A1 A2) as ([[[y0 y1] y2] y3] & EC & _). destruct (choose_ok (f32_ops lm) (f32_eops el) t2 (normalise (f32_ops lm) y0) (normalise (f32_ops lm) y1) (normalise (f32_ops lm) y2) (normalise (f32_ops lm) y3)) as ([[[[j i] d] g] v] & EJ & _).
    destruct (Z.eq_dec j 0) as [-> |J]; [exists y0, y1, y2, y3, i, d, g, v; auto|]. exfalso. assert (S : ~ shape_0 (f32_ops lm) (f32_eops el) t2).
    { intros (z0 & z1 & z2 & z3 & i' & d' & g' & v' & EC' & EJ'). rewrite EC in EC'. apply ParseBase.Ok_inj in EC'. assert (y0 = z0 /\ y1 = z1 /\ y2 = z2 /\ y3 = z3) as (<- & <- & <- & <-) by (repeat split; congruence). rewrite EJ in EJ'. apply ParseBase.Ok_inj in EJ'. congruence. }
    destruct (OK (or_intror S)) as ([r s] & K & _). now elim (N r s).
  - intros [N S] r s. now apply ST.
  - intros r s K. assert (B : set_b (f32_ops lm) (f32_eops el) t2 \/ ~ shape_0 (f32_ops lm) (f32_eops el) t2).
    { destruct (set_b_dec (f32_ops lm) (f32_eops el) t2) as [SB|NB]; [now left|]. right. intros S. apply (ST (fun n Hn => proj1 (above_zero _) (NB n Hn)) S _ K). }
    destruct (OK B) as ([r' s'] & K' & P1 & P2). rewrite K in K'. apply ParseBase.Ok_inj in K'. apply pair_equal_spec in K'. destruct K' as [<- <-]. split; [exact P1|]. split; [exact P2|].
    unfold sns_quant in K. rewrite E in K. cbn [bind] in K. cbv zeta in K. apply bind_Ok in K. destruct K as ([[[y0 y1] y2] y3] & _ & K). apply bind_Ok in K. destruct K as ([[[[j i] d] g] v] & _ & K). apply bind_Ok in K. destruct K as ([[jt la] lb] & _ & K).
    apply ParseBase.Ok_inj in K. apply pair_equal_spec in K. destruct K as [<- _]. split; reflexivity.
Qed.
Print Assumptions C63_sns_fails_exactly.

(* sixteen finite scale factors of ordinary size on which it fails, with mean exactly zero as mean_removal_and_scaling aims at (127-131): the rotated residual is near ten single pulses in set A, and each of the six
   sums for set B rounds to exactly zero.  Found by a random search outside Coq; whether 16 bit audio can give such factors is not settled here. *)
Definition failing : list (Z * Z) :=
  [(1082457, -20); (-6288905, -24); (-5274427, -23); (2130959, -25); (-3474849, -24); (-6962217, -23); (-5211541, -24); (3325521, -22); (2149845, -23); (-209841, -19); (-13879435, -24); (-15063111, -24);
   (-11894361, -25); (4198595, -23); (4831749, -22); (8671235, -23)].
Definition failing32 : list f32 := map (fun '(m, e) => f32_norm m e) failing.
Lemma failing_fails (lm : libm) (el : elibm) r s : sns_quant (f32_ops lm) (f32_eops el) failing32 <> Ok (r, s).
Proof.
  intros H. assert (P : match sns_quant (f32_ops lm) (f32_eops el) failing32 with Ok _ => false | _ => true end = true) by (vm_compute; reflexivity). rewrite H in P. discriminate P.
Qed.
(* the value of a binary32 number in units of 2^-60, where it is a multiple of that *)
Definition units (v : f32) : Z := match v with B754_finite s m e _ => cond_Zopp s (Zpos m) * 2 ^ (e + 60) | _ => 0 end.
Lemma units_val (v : f32) : (match v with B754_finite _ _ e _ => (-60 <=? e) | _ => true end) = true -> B2R v = (IZR (units v) * bpow radix2 (-60))%R.
Proof.
  destruct v as [s|s| |s m e B]; intros H; try (cbn [B2R units]; lra). apply Z.leb_le in H. cbn [B2R units]. unfold F2R. cbn [Fnum Fexp]. rewrite mult_IZR, (IZR_Zpower radix2) by lia. rewrite Rmult_assoc, <- bpow_plus. f_equal. f_equal. lia.
Qed.
Lemma sum_units (l : list f32) : Forall (fun v => B2R v = (IZR (units v) * bpow radix2 (-60))%R) l -> fold_right Rplus 0%R (map (fun v => B2R v) l) = (IZR (fold_right Z.add 0%Z (map units l)) * bpow radix2 (-60))%R.
Proof. induction 1 as [|v l H _ IH]; cbn [map fold_right]; [lra|]. rewrite H, IH, plus_IZR. ring. Qed.
Theorem C63_sns_always_succeeds_refuted : exists scf : list f32, len scf = 16 /\ Forall (fun v : f32 => is_finite v = true /\ (Rabs (B2R v) <= 1.16)%R) scf /\ fold_right Rplus 0%R (map (fun v : f32 => B2R v) scf) = 0%R /\
  forall (lm : libm) (el : elibm) r s, sns_quant (f32_ops lm) (f32_eops el) scf <> Ok (r, s).
Proof.
  exists failing32. split; [reflexivity|].
  assert (C : forallb (fun v : f32 => is_finite v && (match v with B754_finite _ _ e _ => (-60 <=? e) | _ => true end) && (100 * Z.abs (units v) <=? 116 * 2 ^ 60)) failing32 = true) by (vm_compute; reflexivity).
  rewrite forallb_forall in C. assert (U : Forall (fun v : f32 => is_finite v = true /\ B2R v = (IZR (units v) * bpow radix2 (-60))%R /\ 100 * Z.abs (units v) <= 116 * 2 ^ 60) failing32).
  { apply Forall_forall. intros v Hv. specialize (C v Hv). apply andb_prop in C. destruct C as [C C3]. apply andb_prop in C. destruct C as [C1 C2]. apply Z.leb_le in C3. split; [exact C1|]. split; [now apply units_val|exact C3]. }
  clear C. split; [|split].
  - eapply Forall_impl; [|exact U]. intros v (F & V & B). split; [exact F|]. rewrite V, Rabs_mult, (Rabs_pos_eq (bpow _ _)) by apply bpow_ge_0. rewrite <- abs_IZR. apply IZR_le in B. rewrite !mult_IZR in B.
    change (2 ^ 60) with (Zpower radix2 60) in B. rewrite IZR_Zpower in B by lia. assert (M : (bpow radix2 60 * bpow radix2 (-60) = 1)%R) by (rewrite <- bpow_plus; reflexivity). pose proof (bpow_gt_0 radix2 (-60)). nra.
  - rewrite sum_units by (eapply Forall_impl; [|exact U]; intros v (_ & V & _); exact V). assert (S : fold_right Z.add 0 (map units failing32) = 0) by (vm_compute; reflexivity). rewrite S. lra.
  - exact failing_fails.
Qed.
Print Assumptions C63_sns_always_succeeds_refuted.
(* it fails in another way on sixteen equal factors near 2^65: the code vectors are absorbed by rounding, set B is again exactly zero, and every distance overflows, so that shape 0 is kept from the start *)
Example C63_overflow_case : forall (lm : libm) (el : elibm), match sns_quant (f32_ops lm) (f32_eops el) (repeat (f32_norm 2199942 44) 16) with Ok _ => False | _ => True end.
Proof. intros lm el. vm_compute. exact I. Qed.
(* and scale factors on which it succeeds: a code vector itself, where the residual is zero and shape 3 is chosen *)
Example C63_case : forall (lm : libm) (el : elibm), match sns_quant (f32_ops lm) (f32_eops el) (map f32_lit (nth 0 TablesSnsF.LFCB [] ++ nth 0 TablesSnsF.HFCB [])) with Ok (r, _) => sr_shape r = 3 | _ => False end.
Proof. intros lm el. vm_compute. reflexivity. Qed.
