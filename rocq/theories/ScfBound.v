(* The scale factors of any band energies are bounded, in exact arithmetic. *)
From Coq Require Import ZArith Lia List Bool Reals Lra.
From Flocq Require Import Core.
From Verif Require Import Base Config SideInfo FrameSpec EncPayload Mpvq SnsIndex Buffers BufLemmas TablesSnsF Loops Scalar EncScalar RealOps EncF32 DecSignal DecTotal SnsProofs LineSpec DecState EncSns EncSnsOk SnsShape EncShape.
Import ListNotations.
Local Open Scope Z_scope.

Section Explicit.
Context {F : Type} (o : ops F).
Notation g x n := (getz (fz o 0) x n).
Definition smoothed (x : list F) (n : Z) : F :=
  if n =? 0 then fadd o (fmul o (flit o (75, -2)) (g x 0)) (fmul o (flit o (25, -2)) (g x 1))
  else if n =? 63 then fadd o (fmul o (flit o (25, -2)) (g x 62)) (fmul o (flit o (75, -2)) (g x 63))
  else fadd o (fadd o (fmul o (flit o (25, -2)) (g x (n - 1))) (fmul o (flit o (5, -1)) (g x n))) (fmul o (flit o (25, -2)) (g x (n + 1))).
Definition w (k : Z) : F := fdiv o (fz o k) (fz o 12).
Definition sum6 (z a b c d e f : F) : F :=
  fadd o (fadd o (fadd o (fadd o (fadd o (fadd o z (fmul o (w 1) a)) (fmul o (w 2) b)) (fmul o (w 3) c)) (fmul o (w 3) d)) (fmul o (w 2) e)) (fmul o (w 1) f).
Definition grouped (x : list F) (n : Z) : F :=
  if n =? 0 then fadd o (fadd o (fadd o (fadd o (fadd o (fmul o (w 1) (g x 0)) (fmul o (w 2) (g x 0))) (fmul o (w 3) (g x 1))) (fmul o (w 3) (g x 2))) (fmul o (w 2) (g x 3))) (fmul o (w 1) (g x 4))
  else if n =? 15 then fadd o (fadd o (fadd o (fadd o (fadd o (fmul o (w 1) (g x 63)) (fmul o (w 1) (g x 59))) (fmul o (w 2) (g x 60))) (fmul o (w 3) (g x 61))) (fmul o (w 3) (g x 62))) (fmul o (w 2) (g x 63))
  else sum6 (fz o 0) (g x (4 * n - 1)) (g x (4 * n)) (g x (4 * n + 1)) (g x (4 * n + 2)) (g x (4 * n + 3)) (g x (4 * n + 4)).
Lemma list64 {A} (q : list A) : len q = 64 -> exists a b c d, q = a ++ b ++ c ++ d /\ len a = 16 /\ len b = 16 /\ len c = 16 /\ len d = 16.
Proof.
  assert (S : forall n (l : list A), len l = 16 + n -> 0 <= n -> exists a r, l = a ++ r /\ len a = 16 /\ len r = n).
  { intros n l H Hn. exists (firstn 16 l), (skipn 16 l). rewrite firstn_skipn. unfold len in *. rewrite firstn_length, skipn_length. split; [reflexivity|]. lia. }
  intros H. destruct (S 48 q ltac:(lia) ltac:(lia)) as (a & r & -> & La & Lr). destruct (S 32 r ltac:(lia) ltac:(lia)) as (b & r2 & -> & Lb & Lr2). destruct (S 16 r2 ltac:(lia) ltac:(lia)) as (c & d & -> & Lc & Ld).
  exists a, b, c, d. auto.
Qed.
Ltac l64 H := destruct (list64 _ H) as (l1 & l2 & l3 & l4 & -> & H1 & H2 & H3 & H4);
  destruct (list16 _ H1) as (? & ? & ? & ? & ? & ? & ? & ? & ? & ? & ? & ? & ? & ? & ? & ? & ->);
  destruct (list16 _ H2) as (? & ? & ? & ? & ? & ? & ? & ? & ? & ? & ? & ? & ? & ? & ? & ? & ->);
  destruct (list16 _ H3) as (? & ? & ? & ? & ? & ? & ? & ? & ? & ? & ? & ? & ? & ? & ? & ? & ->);
  destruct (list16 _ H4) as (? & ? & ? & ? & ? & ? & ? & ? & ? & ? & ? & ? & ? & ? & ? & ? & ->); clear.
Lemma smooth_at x : len x = 64 -> sns_smooth o x (repeat (fz o 0) 64) = Ok (map (smoothed x) (SnsIndex.zrange 0 64)).
Proof. intros H. l64 H. reflexivity. Qed.
Lemma group_at x : len x = 64 -> sns_group o x = Ok (map (grouped x) (SnsIndex.zrange 0 16)).
Proof. intros H. l64 H. reflexivity. Qed.
End Explicit.

Definition within (lo hi : R) (l : list R) : Prop := Forall (fun x => lo <= x <= hi)%R l.
Lemma within_get lo hi l n : within lo hi l -> 0 <= n < len l -> (lo <= getz 0%R l n <= hi)%R.
Proof. intros H Hn. unfold within in H. rewrite Forall_forall in H. apply H. unfold getz. apply nth_In. unfold len in Hn. lia. Qed.
Lemma within_map {A} (f : A -> R) lo hi l : (forall x, In x l -> (lo <= f x <= hi)%R) -> within lo hi (map f l).
Proof. intros H. apply Forall_forall. intros y Hy. apply in_map_iff in Hy. destruct Hy as (x & <- & Hx). now apply H. Qed.
Lemma within_sum lo hi l : within lo hi l -> (IZR (len l) * lo <= Rsum l <= IZR (len l) * hi)%R.
Proof.
  induction 1 as [|x l Hx H IH]; [cbn; lra|]. rewrite len_cons, plus_IZR. unfold Rsum in *. cbn [fold_right]. lra.
Qed.
Lemma within_avg lo hi l : within lo hi l -> 0 < len l -> (lo <= Rsum l / IZR (len l) <= hi)%R.
Proof.
  intros H Hl. pose proof (within_sum lo hi l H) as S. apply IZR_lt in Hl. set (N := IZR (len l)) in *. assert (X : (Rsum l = Rsum l / N * N)%R) by (field; lra). split; apply (Rmult_le_reg_r N); lra.
Qed.
Lemma lit_pos m k : 0 < m -> (0 < R_lit (m, k))%R.
Proof. intros H. unfold R_lit. cbn [fst snd]. apply Rmult_lt_0_compat; [now apply IZR_lt|apply powerRZ_lt; lra]. Qed.
Lemma smoothed_nonneg x n : Forall (fun v => 0 <= v)%R x -> (0 <= smoothed R_ops x n)%R.
Proof.
  intros H. assert (G : forall k, (0 <= getz 0%R x k)%R).
  { intros k. unfold getz. destruct (Nat.lt_ge_cases (Z.to_nat k) (length x)) as [L|L]; [rewrite Forall_forall in H; apply H, nth_In, L|rewrite nth_overflow by exact L; lra]. }
  pose proof (lit_pos 75 (-2) ltac:(lia)). pose proof (lit_pos 25 (-2) ltac:(lia)). pose proof (lit_pos 5 (-1) ltac:(lia)).
  assert (M : forall a k, (0 < a -> 0 <= a * getz 0%R x k)%R) by (intros a k Ha; apply Rmult_le_pos; [lra|apply G]).
  unfold smoothed. cbn [R_ops fadd fmul flit fz]. destruct (n =? 0); [pose proof (M _ 0 H0); pose proof (M _ 1 H1); lra|]. destruct (n =? 63); [pose proof (M _ 62 H1); pose proof (M _ 63 H0); lra|].
  pose proof (M _ (n - 1) H1). pose proof (M _ n H2). pose proof (M _ (n + 1) H1). lra.
Qed.
Lemma grouped_within lo hi x n : len x = 64 -> within lo hi x -> 0 <= n < 16 -> (lo <= grouped R_ops x n <= hi)%R.
Proof.
  intros L H Hn. assert (G : forall k, 0 <= k < 64 -> (lo <= getz 0%R x k <= hi)%R) by (intros k Hk; apply within_get; [exact H|lia]).
  unfold grouped, sum6, w. cbn [R_ops fadd fmul fdiv fz]. destruct (Z.eqb_spec n 0); [|destruct (Z.eqb_spec n 15)].
  - pose proof (G 0 ltac:(lia)). pose proof (G 1 ltac:(lia)). pose proof (G 2 ltac:(lia)). pose proof (G 3 ltac:(lia)). pose proof (G 4 ltac:(lia)). lra.
  - pose proof (G 63 ltac:(lia)). pose proof (G 59 ltac:(lia)). pose proof (G 60 ltac:(lia)). pose proof (G 61 ltac:(lia)). pose proof (G 62 ltac:(lia)). lra.
  - pose proof (G (4 * n - 1) ltac:(lia)). pose proof (G (4 * n) ltac:(lia)). pose proof (G (4 * n + 1) ltac:(lia)). pose proof (G (4 * n + 2) ltac:(lia)). pose proof (G (4 * n + 3) ltac:(lia)). pose proof (G (4 * n + 4) ltac:(lia)). lra.
Qed.
Lemma lit_85 : R_lit (85, -2) = (85 / 100)%R.
Proof. unfold R_lit. cbn [fst snd]. unfold powerRZ. change (Pos.to_nat 2) with 2%nat. cbn [pow]. lra. Qed.
Lemma mean_within lo hi x : within lo hi x -> 0 < len x -> within (- (85 / 100 * (hi - lo))) (85 / 100 * (hi - lo)) (sns_mean R_ops x).
Proof.
  intros H L. unfold sns_mean. rewrite fsum_R. cbn [R_ops fmul flit fsub fdiv fz]. rewrite lit_85. pose proof (within_avg lo hi x H L) as A. apply within_map. intros v Hv. unfold within in H. rewrite Forall_forall in H. specialize (H v Hv). lra.
Qed.
(* values before the subtraction of their mean in the smoothing after an attack *)
Definition attacked {F} (o : ops F) (x : list F) (n : Z) : F :=
  let g k := getz (fz o 0) x k in
  if n =? 0 then fdiv o (fadd o (fadd o (g 0) (g 1)) (g 2)) (fz o 3) else if n =? 1 then fdiv o (fadd o (fadd o (fadd o (g 0) (g 1)) (g 2)) (g 3)) (fz o 4)
  else if n =? 14 then fdiv o (fadd o (fadd o (fadd o (g 12) (g 13)) (g 14)) (g 15)) (fz o 4) else if n =? 15 then fdiv o (fadd o (fadd o (g 13) (g 14)) (g 15)) (fz o 3)
  else fdiv o (fadd o (fadd o (fadd o (fadd o (fadd o (fz o 0) (g (n - 2))) (g (n - 1))) (g n)) (g (n + 1))) (g (n + 2))) (fz o 5).
Lemma attack_at {F} (o : ops F) d x : len x = 16 -> sns_attack o true d x (repeat (fz o 0) 16) =
  Ok (let l := map (attacked o x) (SnsIndex.zrange 0 16) in let avg := fdiv o (fsum o l) (fz o (len l)) in map (fun v => fmul o (flit o (match d with TenMs => (5, -1) | SevenPointFiveMs => (3, -1) end)) (fsub o v avg)) l).
Proof. intros H. destruct (list16 x H) as (a0 & a1 & a2 & a3 & a4 & a5 & a6 & a7 & a8 & a9 & a10 & a11 & a12 & a13 & a14 & a15 & ->). clear. destruct d; reflexivity. Qed.
Lemma no_attack_at {F} (o : ops F) d x : len x = 16 -> sns_attack o false d x (repeat (fz o 0) 16) = Ok x.
Proof. intros H. destruct (list16 x H) as (a0 & a1 & a2 & a3 & a4 & a5 & a6 & a7 & a8 & a9 & a10 & a11 & a12 & a13 & a14 & a15 & ->). reflexivity. Qed.
Definition att (d : duration) : Z * Z := match d with TenMs => (5, -1) | SevenPointFiveMs => (3, -1) end.
Lemma lit_att d : (0 < R_lit (att d) <= 1 / 2)%R.
Proof. unfold R_lit, att. destruct d; cbn [fst snd]; unfold powerRZ; change (Pos.to_nat 1) with 1%nat; cbn [pow]; lra. Qed.
Lemma attack_within m b d x : len x = 16 -> within (- m) m x -> exists s, sns_attack R_ops b d x (repeat 0%R 16) = Ok s /\ len s = 16 /\ within (- m) m s.
Proof.
  intros L H. destruct b; [|rewrite (no_attack_at R_ops) by exact L; exists x; auto]. pose proof (attack_at R_ops d x L) as E. change (repeat (fz R_ops 0) 16) with (repeat 0%R 16) in E. rewrite E. clear E. eexists. split; [reflexivity|]. cbv zeta.
  assert (W : within (- m) m (map (attacked R_ops x) (SnsIndex.zrange 0 16))).
  { apply within_map. intros n Hn. apply zrange_In in Hn. assert (G : forall k, 0 <= k < 16 -> (- m <= getz 0%R x k <= m)%R) by (intros k Hk; apply within_get; [exact H|lia]).
    unfold attacked. cbv zeta. cbn [R_ops fadd fdiv fz].
    destruct (Z.eqb_spec n 0); [pose proof (G 0 ltac:(lia)); pose proof (G 1 ltac:(lia)); pose proof (G 2 ltac:(lia)); lra|].
    destruct (Z.eqb_spec n 1); [pose proof (G 0 ltac:(lia)); pose proof (G 1 ltac:(lia)); pose proof (G 2 ltac:(lia)); pose proof (G 3 ltac:(lia)); lra|].
    destruct (Z.eqb_spec n 14); [pose proof (G 12 ltac:(lia)); pose proof (G 13 ltac:(lia)); pose proof (G 14 ltac:(lia)); pose proof (G 15 ltac:(lia)); lra|].
    destruct (Z.eqb_spec n 15); [pose proof (G 13 ltac:(lia)); pose proof (G 14 ltac:(lia)); pose proof (G 15 ltac:(lia)); lra|].
    pose proof (G (n - 2) ltac:(lia)). pose proof (G (n - 1) ltac:(lia)). pose proof (G n ltac:(lia)). pose proof (G (n + 1) ltac:(lia)). pose proof (G (n + 2) ltac:(lia)). lra. }
  split; [rewrite !len_map; reflexivity|]. apply within_map. intros v Hv. rewrite fsum_R. cbn [R_ops fmul fsub fdiv fz flit]. pose proof (within_avg _ _ _ W ltac:(rewrite len_map; reflexivity)) as A. pose proof (lit_att d) as T. fold (att d). set (t := R_lit (att d)) in *. set (a := (Rsum _ / _)%R) in *.
  unfold within in W. rewrite Forall_forall in W. specialize (W v Hv). assert (P : (- (2 * m) <= v - a <= 2 * m)%R) by lra. assert (0 <= m)%R by lra. split; nra.
Qed.

Lemma fmax_R a b : fmax R_ops a b = Rmax a b.
Proof.
  unfold fmax. cbn [R_ops feq flt]. rewrite !Req_bool_true by reflexivity. destruct (Rlt_bool_spec a b); [rewrite Rmax_right by lra|rewrite Rmax_left by lra]; reflexivity.
Qed.
Lemma lit_small : R_lit (1, -4)%Z = (1 / 10000)%R.
Proof. unfold R_lit. cbn [fst snd]. unfold powerRZ. change (Pos.to_nat 4) with 4%nat. cbn [pow]. lra. Qed.
Definition lg (x : R) : R := (ln x / ln 2)%R.
Lemma ln2_pos : (0 < ln 2)%R.
Proof. rewrite <- ln_1. apply ln_increasing; lra. Qed.
Lemma lg_le a b : (0 < a <= b)%R -> (lg a <= lg b)%R.
Proof. intros H. unfold lg, Rdiv. apply Rmult_le_compat_r; [left; apply Rinv_0_lt_compat, ln2_pos|]. destruct (Req_dec a b) as [->|N]; [lra|]. left. apply ln_increasing; lra. Qed.
Lemma lg_shift a : (0 < a)%R -> lg (1048576 * a) = (20 + lg a)%R.
Proof.
  intros H. unfold lg. rewrite ln_mult by lra. assert (E : ln 1048576 = (20 * ln 2)%R). { replace 1048576%R with (2 ^ 20)%R by (cbn; lra). rewrite ln_pow by lra. replace (INR 20) with 20%R by (cbn; lra). reflexivity. }
  rewrite E. pose proof ln2_pos. field. lra.
Qed.
Lemma log_spread eps s : (0 < eps)%R -> Forall (fun v => 0 <= v)%R s ->
  let floor := Rmax (powerRZ 2 (-32)) (Rsum s / 64 * powerRZ 10 (-4)) in
  within (lg (eps + floor) / 2) (lg (eps + floor) / 2 + 10) (map (fun v => lg (eps + Rmax v floor) / 2)%R s).
Proof.
  intros He Hs floor. assert (F0 : (0 < floor)%R) by (unfold floor; eapply Rlt_le_trans; [|apply Rmax_l]; apply powerRZ_lt; lra).
  assert (F1 : (Rsum s <= 640000 * floor)%R). { pose proof (Rmax_r (powerRZ 2 (-32)) (Rsum s / 64 * powerRZ 10 (-4))) as M. fold floor in M. assert (P : powerRZ 10 (-4) = (1 / 10000)%R) by (pose proof lit_small as Q; unfold R_lit in Q; cbn [fst snd] in Q; lra). rewrite P in M. lra. }
  apply within_map. intros v Hv. pose proof (Rsum_in s v Hs Hv) as V. rewrite Forall_forall in Hs. specialize (Hs v Hv). pose proof (Rmax_r v floor). assert (U : (Rmax v floor <= 640000 * floor)%R) by (apply Rmax_lub; lra).
  split; [assert (lg (eps + floor) <= lg (eps + Rmax v floor))%R by (apply lg_le; lra); lra|].
  assert (lg (eps + Rmax v floor) <= lg (1048576 * (eps + floor)))%R by (apply lg_le; lra). rewrite lg_shift in * by lra. lra.
Qed.
Lemma zrange_len n : 0 <= n -> len (SnsIndex.zrange 0 n) = n.
Proof. intros H. unfold len. rewrite EncSnsOk.zrange_length. lia. Qed.
(* whatever the band energies, no scale factor exceeds 8.5 *)
Theorem scale_factors_bounded c eb attack : legal_config c -> nb c = 64 -> len eb = 64 -> Forall (fun v => 0 <= v)%R eb ->
  exists scf, sns_scale_factors R_ops R_eops c eb attack = Ok scf /\ len scf = 16 /\ within (- (17 / 2)) (17 / 2) scf.
Proof.
  intros Lc Nb Le He. unfold sns_scale_factors. assert (T : exists t, idx G_TILT (fs_ind c) = Ok t) by (destruct Lc as (f & d & ->); destruct f, d; eexists; reflexivity). destruct T as (t & ->). cbn [bind].
  unfold sns_pad. rewrite Nb. unfold usub. change (64 <? 64) with false. cbn [bind]. change (0 <? 64 - 64) with false. cbv iota. rewrite len_repeat.
  destruct (blit_ok (repeat (fz R_ops 0) 64) 0 64 eb ltac:(lia) ltac:(rewrite len_repeat; lia) ltac:(lia)) as (p & Ep & Lp & Tp). change (Z.of_nat 64) with 64. rewrite Ep. cbn [bind]. rewrite len_repeat in Lp.
  assert (Np : Forall (fun v => 0 <= v)%R p).
  { apply Forall_forall. intros v Hv. apply In_nth with (d := 0%R) in Hv. destruct Hv as (k & Hk & <-). specialize (Tp 0%R (Z.of_nat k) ltac:(lia)). unfold len in Lp. unfold getz in Tp. rewrite Nat2Z.id in Tp. rewrite Tp. destruct (_ && _) eqn:C; [|rewrite nth_repeat; cbn; lra]. rewrite Forall_forall in He. apply He, nth_In. unfold len in Le. apply andb_prop in C. destruct C as [_ C]. apply Z.ltb_lt in C. lia. }
  rewrite (smooth_at R_ops p) by lia. cbn [bind]. cbv zeta.
  set (s := map (fun '(b, v) => fmul R_ops v (e_pow10 R_eops (fmul R_ops (fz R_ops b) (fdiv R_ops (fz R_ops t) (fz R_ops 630))))) _).
  assert (Ls : len s = 64) by reflexivity.
  assert (Ns : Forall (fun v => 0 <= v)%R s).
  { apply Forall_forall. intros v Hv. unfold s in Hv. apply in_map_iff in Hv. destruct Hv as ([b u] & <- & Hu). apply in_combine_r in Hu. apply in_map_iff in Hu. destruct Hu as (n & <- & _).
    cbn [R_ops R_eops fmul e_pow10]. apply Rmult_le_pos; [now apply smoothed_nonneg|]. left. unfold Rpower. apply exp_pos. }
  pose proof (log_spread (R_lit (11920928955078125, -23)) s (lit_pos 11920928955078125 (-23) ltac:(lia)) Ns) as W. cbv zeta in W.
  set (floor := Rmax _ _) in W. set (eps := R_lit (11920928955078125, -23)) in W. set (lo := (lg (eps + floor) / 2)%R) in W. set (l := map _ s) in W.
  match goal with |- exists scf, (d <- sns_group R_ops ?x ;; _) = _ /\ _ => assert (E : x = l) end.
  { unfold l. apply map_ext. intros v. rewrite !fmax_R, fsum_R. reflexivity. }
  rewrite E. clear E. assert (Ll : len l = 64) by (unfold l; now rewrite len_map). rewrite group_at by exact Ll. cbn [bind].
  assert (Wg : within lo (lo + 10) (map (grouped R_ops l) (SnsIndex.zrange 0 16))) by (apply within_map; intros n Hn; apply zrange_In in Hn; now apply grouped_within).
  pose proof (mean_within _ _ _ Wg ltac:(rewrite len_map; reflexivity)) as Wm. replace (85 / 100 * (lo + 10 - lo))%R with (17 / 2)%R in Wm by lra.
  apply attack_within; [|exact Wm]. unfold sns_mean. rewrite !len_map. reflexivity.
Qed.
Lemma within_bounded m l : (0 <= m)%R -> within (- m) m l -> bounded m l.
Proof.
  intros Hm H n. unfold getz. destruct (Nat.lt_ge_cases (Z.to_nat n) (length l)) as [L|L].
  - unfold within in H. rewrite Forall_forall in H. specialize (H _ (nth_In l 0%R L)). apply Rabs_le. lra.
  - rewrite nth_overflow by exact L. rewrite Rabs_R0. exact Hm.
Qed.
